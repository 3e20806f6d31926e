(** * TextPadded: texts determine messages up to the padding of their text fields. Proofs only. *)

From Coq Require Import NArith ZArith Bool String Ascii Arith List Lia.
From Coq Require Import ZifyBool ZifyNat ZifyN.
From Verif Require Import GoBase GoFmt ClcModel Slices Wire WireLemmas ClcView ClcMessage
  Names Opcodes Show TextLemmas Canon CanonNum CanonIp CanonDump Readable TextInj Lossless TextLossless
  Sound SoundFacts Encode EncodeFacts.
From Verif Require ClcRefute TextWhole.
Import ListNotations.
Local Open Scope nat_scope.

(** ** Text fields *)

Lemma before_nul_nul e : ~ In x00 (before_nul e).
Proof.
  induction e as [|b e IH]; [intros []|]. cbn [before_nul]. destruct (Byte.byte_eq_dec b x00) as [|n]; [intros []|].
  intros [H|H]; [congruence|exact (IH H)].
Qed.

Lemma before_nul_id e : ~ In x00 e -> before_nul e = e.
Proof.
  induction e as [|b e IH]; intros H; [reflexivity|]. cbn [before_nul]. destruct (Byte.byte_eq_dec b x00) as [->|n].
  - exfalso. apply H. left. reflexivity.
  - rewrite IH; [reflexivity|]. intros I. apply H. right. exact I.
Qed.

Lemma drop_blanks_in b e : In b (drop_blanks e) -> In b e.
Proof.
  induction e as [|c e IH]; [intros []|]. cbn [drop_blanks]. destruct (Byte.byte_eq_dec c x20); [|exact (fun h => h)].
  intros H. right. apply IH, H.
Qed.

Lemma drop_blanks_idem e : drop_blanks (drop_blanks e) = drop_blanks e.
Proof.
  induction e as [|c e IH]; [reflexivity|]. cbn [drop_blanks]. destruct (Byte.byte_eq_dec c x20) eqn:E; [exact IH|].
  cbn [drop_blanks]. rewrite E. reflexivity.
Qed.

Lemma readable_idem e : readable (readable e) = readable e.
Proof.
  unfold readable. rewrite (before_nul_id (rev _)).
  - rewrite rev_involutive, drop_blanks_idem. reflexivity.
  - intros H. apply in_rev in H. apply drop_blanks_in in H. apply in_rev in H. exact (before_nul_nul _ H).
Qed.

Lemma bytes_lacks b c e : ascii_of_byte b = c -> ~ In b e -> lacks c (bytes_string e).
Proof.
  intros <-. induction e as [|x e IH]; intros H; [exact I|]. split; [|apply IH; intros I; apply H; right; exact I].
  intros E. apply (f_equal byte_of_ascii) in E. rewrite !byte_of_ascii_of_byte in E.
  apply H. left. congruence.
Qed.

Lemma bytes_clean e : (forall b, In b [x2c; x5d; x0a] -> ~ In b e) -> clean (bytes_string e).
Proof.
  intros H. repeat split.
  - apply (bytes_lacks x2c); [reflexivity|]. apply H. cbn. auto.
  - apply (bytes_lacks x5d); [reflexivity|]. apply H. cbn. auto.
  - apply (bytes_lacks x0a); [reflexivity|]. apply H. cbn. auto.
Qed.

Definition rval (n : string) (v : val) : val :=
  match v with VB e => if is_text n then VB (readable e) else VB e | VN x => VN x end.

Lemma readable_field_eq n v : readable_field (n, v) = (n, rval n v).
Proof. unfold readable_field, rval. destruct v; [reflexivity|]. destruct (is_text n); reflexivity. Qed.

Lemma readable_names vs : map fst (readable_fields vs) = map fst vs.
Proof.
  unfold readable_fields. rewrite map_map. apply map_ext. intros [n v]. rewrite readable_field_eq. reflexivity.
Qed.

(** ** Rows with text fields *)

Definition tfit (n : string) (s : style) (k : kind) : bool :=
  if is_text n then match s, k with Text, A _ => true | _, _ => false end else fit s k.

Fixpoint gtfits (fs : list (string * style)) (l : layout) : bool :=
  match fs, l with
  | [], _ => true
  | (_, s) :: fs', (n, k) :: l' => tfit n s k && gtfits fs' l'
  | _, _ => false
  end.

Fixpoint tfits (t : list row) (l : layout) : bool :=
  match t, l with
  | [], [] => true
  | F _ s :: t', (n, k) :: l' => tfit n s k && tfits t' l'
  | R :: t', (n, _) :: l' => negb (is_text n) && tfits t' l'
  | Rb i :: t', (_, U w) :: l' => (w <=? 8 * i) && tfits t' l'
  | Pre _ :: t', (n, k) :: (_, U _) :: l' => negb (is_text n) && fit Ip k && tfits t' l'
  | G _ fs :: t', l => gtfits fs l && tfits t' (skipn (length fs) l)
  | _, _ => false
  end.

Lemma plain_cons f vs : plain_texts (f :: vs) <-> plain_texts [f] /\ plain_texts vs.
Proof.
  unfold plain_texts. split.
  - intros H. split; intros n e I; apply H; [destruct I as [->|[]]; left; reflexivity|right; exact I].
  - intros [H H'] n e [->|I]; [apply H; left; reflexivity|apply H', I].
Qed.

Lemma plain_app vs vs' : plain_texts (vs ++ vs') <-> plain_texts vs /\ plain_texts vs'.
Proof.
  unfold plain_texts. split.
  - intros H. split; intros n e I; apply H, in_or_app; auto.
  - intros [H H'] n e I. apply in_app_or in I. destruct I as [I|I]; [apply (H n e I)|apply (H' n e I)].
Qed.

Lemma plain_skipn n vs : plain_texts vs -> plain_texts (skipn n vs).
Proof. intros H. rewrite <- (firstn_skipn n vs) in H. apply plain_app in H. apply H. Qed.

Lemma tfit_dom n s k off bs : tfit n s k = true -> off + kind_bits k <= 8 * length bs ->
  plain_texts [(n, field_at k off bs)] -> dom s k (rval n (field_at k off bs)).
Proof.
  unfold tfit. intros H L P. destruct (is_text n) eqn:T.
  - destruct s; try discriminate H. destruct k as [w|w]; [discriminate H|]. cbn [field_at rval dom]. rewrite T.
    split; [apply readable_idem|]. apply bytes_clean. apply (P n (bytes_at bs (off / 8) w)); [left; reflexivity|exact T].
  - replace (rval n (field_at k off bs)) with (field_at k off bs); [apply fit_dom; assumption|].
    destruct k; cbn [field_at rval]; rewrite ?T; reflexivity.
Qed.

Lemma rval_id n v : is_text n = false -> rval n v = v.
Proof. intros H. unfold rval. rewrite H. destruct v; reflexivity. Qed.

Lemma gtfits_gdom fs : forall l off bs, gtfits fs l = true -> off + layout_bits l <= 8 * length bs ->
  plain_texts (decode_at l off bs) -> gdom fs (map snd l) (readable_fields (decode_at l off bs)).
Proof.
  induction fs as [|[? s] fs IH]; intros l off bs H L P; [exact I|].
  destruct l as [|[name k] l]; [discriminate|]. rewrite decode_at_cons in *. cbn [gtfits map snd gdom layout_bits] in *.
  unfold readable_fields. cbn [map]. rewrite readable_field_eq.
  apply andb_true_iff in H. destruct H as [Hf H]. apply plain_cons in P. destruct P as [P P'].
  split; [apply tfit_dom; [exact Hf|lia|exact P]|apply IH; [exact H|lia|exact P']].
Qed.

Theorem tfits_rdom t : forall l off bs, tfits t l = true -> off + layout_bits l <= 8 * length bs ->
  plain_texts (decode_at l off bs) -> rdom t (map snd l) (readable_fields (decode_at l off bs)).
Proof.
  induction t as [|r t IH]; intros l off bs H L P.
  - destruct l; [exact I|discriminate].
  - destruct r as [label s| |n|label|label fs]; cbn [tfits rdom] in *.
    + destruct l as [|[name k] l]; [discriminate|]. rewrite decode_at_cons in *. cbn [map snd layout_bits] in *.
      unfold readable_fields. cbn [map]. rewrite readable_field_eq.
      apply andb_true_iff in H. destruct H as [Hf H]. apply plain_cons in P. destruct P as [P P'].
      split; [apply tfit_dom; [exact Hf|lia|exact P]|apply IH; [exact H|lia|exact P']].
    + destruct l as [|[name k] l]; [discriminate|]. rewrite decode_at_cons in *. cbn [map snd layout_bits] in *.
      unfold readable_fields. cbn [map]. rewrite readable_field_eq.
      apply andb_true_iff in H. destruct H as [Hf H]. apply negb_true_iff in Hf. apply plain_cons in P. destruct P as [P P'].
      split; [rewrite (rval_id _ _ Hf); apply fit_dom; [apply hex_fit|lia]|apply IH; [exact H|lia|exact P']].
    + destruct l as [|[name [w|w]] l]; try discriminate. rewrite decode_at_cons in *.
      cbn [map snd layout_bits field_at kind_bits] in *. unfold readable_fields. cbn [map readable_field].
      apply andb_true_iff in H. destruct H as [Hf H]. apply Nat.leb_le in Hf. apply plain_cons in P. destruct P as [P P'].
      split; [|apply IH; [exact H|lia|exact P']].
      eapply N.lt_le_trans; [apply bits_lt|]. change 256%N with (2 ^ 8)%N. rewrite <- N.pow_mul_r.
      apply N.pow_le_mono_r; [discriminate|lia].
    + destruct l as [|[name k] [|[name' [w|w]] l]]; try discriminate. rewrite !decode_at_cons in *. cbn [map snd layout_bits] in *.
      unfold readable_fields. cbn [map]. rewrite !readable_field_eq.
      apply andb_true_iff in H. destruct H as [Hf H]. apply andb_true_iff in Hf. destruct Hf as [Ht Hf].
      apply negb_true_iff in Ht. rewrite (rval_id _ _ Ht).
      apply plain_cons in P. destruct P as [_ P]. apply plain_cons in P. destruct P as [_ P].
      split; [split; [apply fit_dom; [exact Hf|lia]|]|apply IH; [exact H|lia|exact P]].
      cbn [field_at rval]. apply (fit_dom Dec (U w)); [reflexivity|lia].
    + rewrite !andb_true_iff in H. destruct H as [Hg H]. split.
      * apply gtfits_gdom; assumption.
      * unfold readable_fields. rewrite !skipn_map, skipn_decode_at. apply IH; [exact H| |].
        -- pose proof (layout_bits_app (firstn (length fs) l) (skipn (length fs) l)) as E. rewrite firstn_skipn in E. lia.
        -- rewrite <- skipn_decode_at. apply plain_skipn, P.
Qed.

Lemma show_readable pn n s k off bs : tfit n s k = true ->
  show pn s (rval n (field_at k off bs)) = show pn s (field_at k off bs).
Proof.
  unfold tfit. intros H. destruct (is_text n) eqn:T; [|rewrite (rval_id _ _ T); reflexivity].
  destruct s; try discriminate H. destruct k as [w|w]; [discriminate H|]. cbn [field_at rval show show_bytes]. rewrite T.
  cbn [show show_bytes]. unfold padded_text. fold (readable (readable (bytes_at bs (off / 8) w))).
  rewrite readable_idem. reflexivity.
Qed.

Lemma group_readable pn fs : forall l off bs, gtfits fs l = true ->
  group_items pn fs (readable_fields (decode_at l off bs)) = group_items pn fs (decode_at l off bs).
Proof.
  induction fs as [|[label s] fs IH]; intros l off bs H; [reflexivity|].
  destruct l as [|[name k] l]; [discriminate|]. rewrite decode_at_cons. cbn [gtfits] in H.
  apply andb_true_iff in H. destruct H as [Hf H]. unfold readable_fields. cbn [map]. rewrite readable_field_eq.
  cbn [group_items]. rewrite (show_readable pn name s k off bs Hf). f_equal. apply IH, H.
Qed.

Theorem items_readable pn res t : forall l off bs, tfits t l = true ->
  items pn res t (readable_fields (decode_at l off bs)) = items pn res t (decode_at l off bs).
Proof.
  induction t as [|r t IH]; intros l off bs H; [destruct l; [reflexivity|discriminate]|].
  destruct r as [label s| |n|label|label fs]; cbn [tfits] in *.
  - destruct l as [|[name k] l]; [discriminate|]. rewrite decode_at_cons. unfold readable_fields. cbn [map].
    rewrite readable_field_eq. apply andb_true_iff in H. destruct H as [Hf H]. cbn [items].
    rewrite (show_readable pn name s k off bs Hf). f_equal. apply IH, H.
  - destruct l as [|[name k] l]; [discriminate|]. rewrite decode_at_cons. unfold readable_fields. cbn [map].
    rewrite readable_field_eq. apply andb_true_iff in H. destruct H as [Hf H]. apply negb_true_iff in Hf.
    rewrite (rval_id _ _ Hf). cbn [items]. f_equal. apply IH, H.
  - destruct l as [|[name [w|w]] l]; try discriminate. rewrite decode_at_cons. unfold readable_fields.
    cbn [map field_at readable_field items]. apply andb_true_iff in H. destruct H as [Hf H]. f_equal. apply IH, H.
  - destruct l as [|[name k] [|[name' [w|w]] l]]; try discriminate. rewrite !decode_at_cons. unfold readable_fields. cbn [map].
    rewrite !readable_field_eq. apply andb_true_iff in H. destruct H as [Hf H]. apply andb_true_iff in Hf.
    destruct Hf as [Ht Hf]. apply negb_true_iff in Ht. rewrite (rval_id _ _ Ht). cbn [items field_at rval]. f_equal. apply IH, H.
  - apply andb_true_iff in H. destruct H as [Hg H]. cbn [items]. rewrite (group_readable pn fs l off bs Hg). f_equal.
    unfold readable_fields. rewrite skipn_map, skipn_decode_at. apply IH, H.
Qed.

Lemma shown_named_gen t : forall l vs, nfits t l = true -> map fst vs = map fst l ->
  shown false t vs = map snd (named_fields vs).
Proof.
  assert (Q : forall n v vs, plain n = true -> map snd (named_fields ((n, v) :: vs)) = v :: map snd (named_fields vs)).
  { intros n v vs H. unfold named_fields. cbn [filter fst]. fold (plain n). rewrite H. reflexivity. }
  assert (Q' : forall n v vs, plain n = false -> map snd (named_fields ((n, v) :: vs)) = map snd (named_fields vs)).
  { intros n v vs H. unfold named_fields. cbn [filter fst]. fold (plain n). rewrite H. reflexivity. }
  induction t as [|r t IH]; intros l vs H E.
  - destruct l; [|discriminate]. destruct vs; [reflexivity|discriminate E].
  - destruct r as [label s| |n|label|label fs]; cbn [nfits] in H.
    + destruct l as [|[name k] l]; [discriminate|]. destruct vs as [|[n v] vs]; [discriminate E|]. cbn in E. injection E as -> E.
      apply andb_true_iff in H. destruct H as [Hp H]. rewrite Q by exact Hp. cbn [shown]. f_equal. exact (IH l vs H E).
    + destruct l as [|[name k] l]; [discriminate|]. destruct vs as [|[n v] vs]; [discriminate E|]. cbn in E. injection E as -> E.
      apply andb_true_iff in H. destruct H as [Hp H]. apply negb_true_iff in Hp. rewrite Q' by exact Hp. exact (IH l vs H E).
    + destruct l as [|[name [w|w]] l]; try discriminate. destruct vs as [|[nm v] vs]; [discriminate E|]. cbn in E. injection E as -> E.
      apply andb_true_iff in H. destruct H as [Hp H]. apply negb_true_iff in Hp. rewrite Q' by exact Hp. exact (IH l vs H E).
    + destruct l as [|[name k] [|[name' k'] l]]; try discriminate.
      destruct vs as [|[n v] [|[n' v'] vs]]; try discriminate E. cbn in E. injection E as -> -> E.
      rewrite !andb_true_iff in H. destruct H as [[Hp Hp'] H]. rewrite !Q by assumption. cbn [shown]. do 2 f_equal.
      exact (IH l vs H E).
    + apply andb_true_iff in H. destruct H as [Hp H]. cbn [shown].
      rewrite (IH (skipn (length fs) l) (skipn (length fs) vs) H) by (rewrite <- !skipn_map, E; reflexivity).
      rewrite <- (firstn_skipn (length fs) vs) at 3. rewrite named_app, map_app. f_equal.
      rewrite firstn_map. f_equal. symmetry. apply plain_all.
      rewrite (forallb_fst plain (firstn _ l)) in Hp. rewrite (forallb_fst plain). rewrite <- firstn_map in Hp |- *. rewrite E. exact Hp.
Qed.

(** ** Parts of a text *)

Definition seen (res : bool) (vs : list (string * val)) : list (string * val) :=
  if res then vs else named_fields vs.

Lemma seen_app res a b : seen res (a ++ b) = (seen res a ++ seen res b)%list.
Proof. destruct res; [reflexivity|apply named_app]. Qed.

Lemma readable_app a b : readable_fields (a ++ b) = (readable_fields a ++ readable_fields b)%list.
Proof. apply map_app. Qed.

Theorem part_inj res t l off bs bs' e e' : tfits t l = true -> nfits t l = true ->
  off + layout_bits l <= 8 * length bs -> off + layout_bits l <= 8 * length bs' ->
  plain_texts (decode_at l off bs) -> plain_texts (decode_at l off bs') -> stops e -> stops e' ->
  joined (clc_items res t (decode_at l off bs)) e = joined (clc_items res t (decode_at l off bs')) e' ->
  seen res (readable_fields (decode_at l off bs)) = seen res (readable_fields (decode_at l off bs')) /\ e = e'.
Proof.
  intros T N L L' P P' S S' H. unfold clc_items in H.
  rewrite <- !(items_readable no_proto res t l) in H by exact T.
  eapply items_inj in H; [|apply tfits_rdom; assumption|apply tfits_rdom; assumption|exact S|exact S'].
  destruct H as [H ->]. split; [|reflexivity]. destruct res; cbn [seen].
  - rewrite !(shown_all t (map snd l)) in H by (apply tfits_rdom; assumption).
    apply pairs_eq; [rewrite !readable_names, !decode_names; reflexivity|exact H].
  - rewrite !(shown_named_gen t l) in H by (try exact N; rewrite readable_names; apply decode_names).
    apply pairs_eq; [|exact H]. unfold named_fields.
    rewrite !(filter_fst (fun n => negb (String.eqb n "Reserved"))), !readable_names, !decode_names. reflexivity.
Qed.

Lemma items_app pn res t : forall l t' off bs vs, tfits t l = true ->
  items pn res (t ++ t') (decode_at l off bs ++ vs) = (items pn res t (decode_at l off bs) ++ items pn res t' vs)%list.
Proof.
  assert (GG : forall fs l off bs vs, gtfits fs l = true ->
    group_items pn fs (decode_at l off bs ++ vs) = group_items pn fs (decode_at l off bs) /\
    skipn (length fs) (decode_at l off bs ++ vs) = (skipn (length fs) (decode_at l off bs) ++ vs)%list).
  { induction fs as [|[label s] fs IH]; intros l off bs vs H; [split; reflexivity|].
    destruct l as [|[name k] l]; [discriminate|]. rewrite decode_at_cons. cbn [gtfits] in H.
    apply andb_true_iff in H. destruct H as [_ H]. destruct (IH l (off + kind_bits k) bs vs H) as [A B].
    cbn [List.app group_items length skipn]. rewrite A, B. split; reflexivity. }
  induction t as [|r t IH]; intros l t' off bs vs H; [destruct l; [reflexivity|discriminate]|].
  destruct r as [label s| |n|label|label fs]; cbn [tfits] in H.
  - destruct l as [|[name k] l]; [discriminate|]. rewrite decode_at_cons. apply andb_true_iff in H. destruct H as [_ H].
    cbn [List.app items]. f_equal. apply IH, H.
  - destruct l as [|[name k] l]; [discriminate|]. rewrite decode_at_cons. apply andb_true_iff in H. destruct H as [_ H].
    cbn [List.app items]. rewrite <- app_assoc. f_equal. apply IH, H.
  - destruct l as [|[name [w|w]] l]; try discriminate. rewrite decode_at_cons. apply andb_true_iff in H. destruct H as [_ H].
    cbn [List.app items field_at]. rewrite <- app_assoc. f_equal. apply IH, H.
  - destruct l as [|[name k] [|[name' [w|w]] l]]; try discriminate. rewrite !decode_at_cons.
    apply andb_true_iff in H. destruct H as [_ H]. cbn [List.app items]. f_equal. apply IH, H.
  - apply andb_true_iff in H. destruct H as [Hg H]. cbn [List.app items]. destruct (GG fs l off bs vs Hg) as [-> ->].
    f_equal. rewrite skipn_decode_at. apply IH, H.
Qed.

Lemma tfits_app t : forall l t' l', tfits t l = true -> tfits t' l' = true -> tfits (t ++ t') (l ++ l') = true.
Proof.
  assert (GG : forall fs l l', gtfits fs l = true -> gtfits fs (l ++ l') = true /\
    skipn (length fs) (l ++ l') = (skipn (length fs) l ++ l')%list).
  { induction fs as [|[label s] fs IH]; intros l l' H; [split; reflexivity|].
    destruct l as [|[name k] l]; [discriminate|]. cbn [gtfits] in H.
    apply andb_true_iff in H. destruct H as [H0 H]. destruct (IH l l' H) as [A B].
    cbn [List.app gtfits length skipn]. rewrite H0, A, B. split; reflexivity. }
  induction t as [|r t IH]; intros l t' l' H H'; [destruct l; [exact H'|discriminate]|].
  destruct r as [label s| |n|label|label fs]; cbn [tfits] in H.
  - destruct l as [|[name k] l]; [discriminate|]. apply andb_true_iff in H. destruct H as [H0 H].
    cbn [List.app tfits]. rewrite H0. apply IH; assumption.
  - destruct l as [|[name k] l]; [discriminate|]. apply andb_true_iff in H. destruct H as [H0 H].
    cbn [List.app tfits]. rewrite H0. apply IH; assumption.
  - destruct l as [|[name [w|w]] l]; try discriminate. apply andb_true_iff in H. destruct H as [H0 H].
    cbn [List.app tfits]. rewrite H0. apply IH; assumption.
  - destruct l as [|[name k] [|[name' [w|w]] l]]; try discriminate. apply andb_true_iff in H. destruct H as [H0 H].
    cbn [List.app tfits]. rewrite H0. apply IH; assumption.
  - apply andb_true_iff in H. destruct H as [Hg H]. cbn [List.app tfits]. destruct (GG fs l l' Hg) as [-> ->].
    apply IH; assumption.
Qed.

Lemma nfits_app t : forall l t' l', nfits t l = true -> tfits t l = true -> nfits t' l' = true -> nfits (t ++ t') (l ++ l') = true.
Proof.
  assert (GG : forall fs l l', gtfits fs l = true -> firstn (length fs) (l ++ l') = firstn (length fs) l /\
    skipn (length fs) (l ++ l') = (skipn (length fs) l ++ l')%list).
  { induction fs as [|[label s] fs IH]; intros l l' H; [split; reflexivity|].
    destruct l as [|[name k] l]; [discriminate|]. cbn [gtfits] in H.
    apply andb_true_iff in H. destruct H as [H0 H]. destruct (IH l l' H) as [A B].
    cbn [List.app length firstn skipn]. rewrite A, B. split; reflexivity. }
  induction t as [|r t IH]; intros l t' l' H T H'; [destruct l; [exact H'|discriminate]|].
  destruct r as [label s| |n|label|label fs]; cbn [tfits nfits] in H, T.
  - destruct l as [|[name k] l]; [discriminate|]. apply andb_true_iff in H. destruct H as [H0 H].
    apply andb_true_iff in T. destruct T as [_ T]. cbn [List.app nfits]. rewrite H0. apply IH; assumption.
  - destruct l as [|[name k] l]; [discriminate|]. apply andb_true_iff in H. destruct H as [H0 H].
    apply andb_true_iff in T. destruct T as [_ T]. cbn [List.app nfits]. rewrite H0. apply IH; assumption.
  - destruct l as [|[name [w|w]] l]; try discriminate. apply andb_true_iff in H. destruct H as [H0 H].
    apply andb_true_iff in T. destruct T as [_ T]. cbn [List.app nfits]. rewrite H0. apply IH; assumption.
  - destruct l as [|[name k] [|[name' [w|w]] l]]; try discriminate. apply andb_true_iff in H. destruct H as [H0 H].
    apply andb_true_iff in T. destruct T as [_ T]. cbn [List.app nfits]. rewrite H0. apply IH; assumption.
  - apply andb_true_iff in H. destruct H as [H0 H]. apply andb_true_iff in T. destruct T as [Hg T].
    cbn [List.app nfits]. destruct (GG fs l l' Hg) as [-> ->]. rewrite H0. apply IH; assumption.
Qed.

(** ** EID and GID areas as rows *)

Definition eid_label (i : nat) : string := append "EID " (append (dec (N.of_nat i)) ": ").
Definition eid_fs (s n : nat) : list (string * style) := map (fun i => (eid_label i, Text)) (seq s n).
Definition gid_fs (s n : nat) : list (string * style) :=
  concat (map (fun i => [(append "GID " (append (dec (N.of_nat i)) ": "), Dec);
                         (append "VCHID " (append (dec (N.of_nat i)) ": "), Dec)]) (seq s n)).
Definition eid_row (n : nat) : row := G "EID Area: " (eid_fs 0 n).
Definition gid_row (n : nat) : row := G "GID Area: " (gid_fs 0 n).

Lemma eid_items (L : list (list byte)) : forall s vs,
  group_items no_proto (eid_fs s (length L)) (map (fun e => ("EID"%string, VB e)) L ++ vs) =
  map (fun ie => append "EID " (append (dec (N.of_nat (fst ie))) (append ": " (padded_text (snd ie)))))
    (combine (seq s (length L)) L).
Proof.
  induction L as [|e L IH]; intros s vs; [reflexivity|].
  unfold eid_fs in *. cbn [length seq map List.app group_items combine fst snd]. rewrite IH. f_equal.
  unfold eid_label. rewrite !sapp_assoc. reflexivity.
Qed.

Lemma gid_items n : forall s start bs vs,
  group_items no_proto (gid_fs s n) (concat (entries gid_entry_body start 10 n bs) ++ vs) =
  concat (map (fun ie => let i := dec (N.of_nat (fst ie)) in
       clc_items false [F (append "GID " (append i ": ")) Dec; F (append "VCHID " (append i ": ")) Dec] (snd ie))
    (combine (seq s n) (entries gid_entry_body start 10 n bs))).
Proof.
  assert (X : forall n start bs, entries gid_entry_body start 10 (S n) bs =
    decode_at gid_entry_body (8 * start) bs :: entries gid_entry_body (start + 10) 10 n bs).
  { intros n' start bs. unfold entries. cbn [seq map]. rewrite Nat.mul_0_r, Nat.add_0_r. f_equal.
    rewrite <- seq_shift, map_map. apply map_ext. intros k. f_equal. lia. }
  induction n as [|n IH]; intros s start bs vs; [reflexivity|]. rewrite X. unfold gid_fs in *.
  cbn [seq map concat combine fst snd]. rewrite <- app_assoc.
  change (decode_at gid_entry_body (8 * start) bs) with
    [("GID"%string, VN (bits bs (8 * start) 64)); ("VCHID"%string, VN (bits bs (8 * start + 64) 16))].
  cbn [List.app group_items]. rewrite IH. reflexivity.
Qed.

Lemma gid_fs_length n : forall s, length (gid_fs s n) = 2 * n.
Proof. induction n as [|n IH]; intros s; [reflexivity|]. unfold gid_fs in *. cbn [seq map concat List.app length]. rewrite IH. lia. Qed.

Lemma eid_fs_length s n : length (eid_fs s n) = n.
Proof. unfold eid_fs. rewrite map_length, seq_length. reflexivity. Qed.

Lemma eid_gtfits n : forall s, gtfits (eid_fs s n) (repeat ("EID"%string, A 32) n) = true.
Proof. induction n as [|n IH]; intros s; [reflexivity|]. exact (IH (S s)). Qed.

Lemma gid_gtfits n : forall s, gtfits (gid_fs s n) (concat (repeat gid_entry_body n)) = true.
Proof. induction n as [|n IH]; intros s; [reflexivity|]. exact (IH (S s)). Qed.

Lemma gids_layout_length n : length (concat (repeat gid_entry_body n)) = 2 * n.
Proof. induction n as [|n IH]; [reflexivity|]. cbn [repeat concat]. rewrite app_length, IH. cbn [length gid_entry_body]. lia. Qed.

Lemma eid_tfits n : tfits [eid_row n] (repeat ("EID"%string, A 32) n) = true.
Proof.
  cbn [tfits eid_row]. rewrite eid_gtfits, eid_fs_length.
  replace (skipn n _) with (@nil (string * kind)); [reflexivity|]. symmetry. apply skipn_all2. rewrite repeat_length. lia.
Qed.

Lemma gid_tfits n : tfits [gid_row n] (concat (repeat gid_entry_body n)) = true.
Proof.
  cbn [tfits gid_row]. rewrite gid_gtfits, gid_fs_length.
  replace (skipn (2 * n) _) with (@nil (string * kind)); [reflexivity|]. symmetry. apply skipn_all2.
  rewrite gids_layout_length. lia.
Qed.

Lemma eid_nfits n : nfits [eid_row n] (repeat ("EID"%string, A 32) n) = true.
Proof.
  cbn [nfits eid_row]. rewrite eid_fs_length, skipn_all2, firstn_all2 by (rewrite repeat_length; lia).
  induction n as [|n IH]; [reflexivity|]. exact IH.
Qed.

Lemma gid_nfits n : nfits [gid_row n] (concat (repeat gid_entry_body n)) = true.
Proof.
  cbn [nfits gid_row]. rewrite gid_fs_length, skipn_all2, firstn_all2 by (rewrite gids_layout_length; lia).
  induction n as [|n IH]; [reflexivity|]. exact IH.
Qed.

Lemma eid_area_row res n start bs :
  clc_items res [eid_row n] (decode_at (repeat ("EID"%string, A 32) n) (8 * start) bs) =
  [eid_area (N.of_nat n) (map (fun k => bytes_at bs (start + 32 * k) 32) (seq 0 n))].
Proof.
  rewrite <- eid_entries. set (L := map (fun k => bytes_at bs (start + 32 * k) 32) (seq 0 n)).
  assert (HL : length L = n) by (unfold L; rewrite map_length, seq_length; reflexivity).
  unfold clc_items, eid_row. cbn [items].
  pose proof (eid_items L 0 []) as E. rewrite app_nil_r, HL in E. rewrite E. unfold eid_area, commas.
  rewrite Nnat.Nat2N.id. reflexivity.
Qed.

Lemma gid_area_row res n start bs :
  clc_items res [gid_row n] (decode_at (concat (repeat gid_entry_body n)) (8 * start) bs) =
  [gid_area (N.of_nat n) (entries gid_entry_body start 10 n bs)].
Proof.
  rewrite <- (concat_entries gid_entry_body 10) by reflexivity.
  unfold clc_items, gid_row. cbn [items].
  pose proof (gid_items n 0 start bs []) as E. rewrite app_nil_r in E. rewrite E. unfold gid_area, commas.
  rewrite Nnat.Nat2N.id. reflexivity.
Qed.

Lemma prefixes_tfit n : tfits (repeat (Pre "IPv6 Prefix: ") n) (concat (repeat ipv6_prefix_body n)) = true.
Proof. induction n as [|n IH]; [reflexivity|]. exact IH. Qed.

(** ** Headers *)

Lemma seen_of_shown res t l off bs bs' : nfits t l = true -> shown true t (decode_at l off bs) = map snd (decode_at l off bs) ->
  shown true t (decode_at l off bs') = map snd (decode_at l off bs') ->
  shown res t (decode_at l off bs) = shown res t (decode_at l off bs') ->
  seen res (decode_at l off bs) = seen res (decode_at l off bs').
Proof.
  intros N A A' H. destruct res; cbn [seen].
  - rewrite A, A' in H. apply pairs_eq; [rewrite !decode_names; reflexivity|exact H].
  - apply (named_shown t); assumption.
Qed.

Definition is_v2_proposal (bs : list byte) : bool := ((msg_type bs =? 1) && (msg_version bs =? 2))%N%bool.

(** type, length and version come first in either kind of header *)
Lemma first_fields res bs bs' body body' : 8 <= length bs -> 8 <= length bs' -> eyecatchers bs -> eyecatchers bs' ->
  bytes_text res bs body = bytes_text res bs' body' ->
  msg_type bs = msg_type bs' /\ msg_version bs = msg_version bs' /\ declared bs = declared bs'.
Proof.
  intros L L' [E _] [E' _] H. unfold bytes_text in H.
  change (append ": " ?x) with (String ":"%char (append " " x)) in H.
  apply cancel_at in H; try apply type_lacks. destruct H as [_ H]. apply sapp_cancel in H.
  apply (f_equal (fun s => append ", " (append s ""))) in H.
  assert (X : forall b, exists r, bytes_header_items res b = (items no_proto res header1_rows (decode_at header1 0 b) ++ r)%list).
  { intros b. unfold bytes_header_items. destruct (_ && _)%bool; eexists.
    - exact (eq_refl (items no_proto res header1_rows (decode_at header1 0 b) ++
        items no_proto res [F "Pathv2: " Show.Path; F "Path: " Show.Path] (skipn 4 (decode clc_header_v2proposal b)))%list).
    - apply (header_split res). }
  rewrite !commas_joined in H by (intros Z; apply app_eq_nil in Z; destruct Z as [_ Z]; apply app_eq_nil in Z; destruct Z; discriminate).
  destruct (X bs) as [r Hr]. destruct (X bs') as [r' Hr']. rewrite Hr, Hr', !joined_app in H.
  eapply (items_inj no_proto res header1_rows) in H; try (apply header1_dom; assumption);
    try (repeat apply joined_stops; exact I).
  destruct H as [H _]. split; [|split].
  - exact (f_equal (fun l => match nth 1 l (VN 0) with VN n => n | _ => 0%N end) H).
  - exact (f_equal (fun l => match nth 3 l (VN 0) with VN n => n | _ => 0%N end) H).
  - exact (f_equal (fun l => match nth 2 l (VN 0) with VN n => n | _ => 0%N end) H).
Qed.

Lemma header_v2_dom bs : 8 <= length bs -> is_eyecatcher (bytes_at bs 0 4) = true ->
  rdom header_v2proposal_rows (map snd clc_header_v2proposal) (decode_at clc_header_v2proposal 0 bs).
Proof.
  intros L E. split; [split; [apply bytes_at_length; lia|exact E]|].
  apply (fits_rdom (tl header_v2proposal_rows) (tl clc_header_v2proposal) 32 bs); [reflexivity|].
  change (layout_bits (tl clc_header_v2proposal)) with 32. lia.
Qed.

Definition head (k : clc_kind) : layout := match k with KProposalV2 => clc_header_v2proposal | _ => clc_header end.

Lemma head_readable k bs : readable_fields (decode (head k) bs) = decode (head k) bs.
Proof. destruct k; reflexivity. Qed.

(** the header and the rest of a text *)
Lemma head_inj res k k' bs bs' body body' : of_kind k bs -> of_kind k' bs' ->
  8 <= length bs -> 8 <= length bs' -> eyecatchers bs -> eyecatchers bs' ->
  bytes_text res bs body = bytes_text res bs' body' ->
  k = k' /\ declared bs = declared bs' /\ msg_path bs = msg_path bs' /\
  (k = KProposalV2 -> msg_pathv2 bs = msg_pathv2 bs') /\
  seen res (decode (head k) bs) = seen res (decode (head k) bs') /\
  joined body (joined [trailer_item (last4 bs)] "") = joined body' (joined [trailer_item (last4 bs')] "").
Proof.
  intros K K' L L' E E' H. destruct (first_fields res bs bs' body body' L L' E E' H) as (T & V & D).
  destruct (is_v2_proposal bs) eqn:I2.
  - assert (I2' : is_v2_proposal bs' = true) by (unfold is_v2_proposal in *; rewrite <- T, <- V; exact I2).
    assert (HK : forall b c, of_kind c b -> is_v2_proposal b = true -> c = KProposalV2).
    { intros b c O I. unfold is_v2_proposal in I. apply andb_true_iff in I. destruct I as [I1 I3].
      apply N.eqb_eq in I1, I3. unfold of_kind in O. rewrite I1, I3 in O. inversion O; congruence. }
    pose proof (HK bs k K I2). pose proof (HK bs' k' K' I2'). subst k k'.
    unfold bytes_text in H. change (append ": " ?x) with (String ":"%char (append " " x)) in H.
    apply cancel_at in H; try apply type_lacks. destruct H as [_ H]. apply sapp_cancel in H.
    apply (f_equal (fun s => append ", " (append s ""))) in H.
    unfold bytes_header_items in H. unfold is_v2_proposal in I2, I2'. rewrite I2, I2' in H.
    rewrite !commas_joined in H by discriminate. rewrite !joined_app in H.
    eapply (items_inj no_proto res header_v2proposal_rows) in H;
      try (apply header_v2_dom; [assumption|apply E || apply E']); try (repeat apply joined_stops; exact I).
    destruct H as [H1 H2].
    split; [reflexivity|]. split; [exact D|].
    split; [exact (f_equal (fun l => match nth 5 l (VN 0) with VN n => n | _ => 0%N end) H1)|].
    split; [intros _; exact (f_equal (fun l => match nth 4 l (VN 0) with VN n => n | _ => 0%N end) H1)|].
    split; [|exact H2].
    apply (seen_of_shown res header_v2proposal_rows); try reflexivity. exact H1.
  - assert (NP : msg_type bs = 1%N -> msg_version bs <> 2%N).
    { intros A B. unfold is_v2_proposal in I2. rewrite A, B in I2. discriminate. }
    assert (NP' : msg_type bs' = 1%N -> msg_version bs' <> 2%N) by (rewrite <- T, <- V; exact NP).
    apply text_parts in H; try assumption. destruct H as [H1 H2].
    destruct (header_facts _ _ _ H1) as (_ & _ & P & _).
    assert (KK : k = k').
    { unfold of_kind in *. rewrite T, V, P in K. eapply ClcRefute.kind_rel_fun; eassumption. }
    assert (K2 : k <> KProposalV2).
    { intros ->. unfold of_kind in K. inversion K as [|? T1 V1| | | | | | | |]. symmetry in T1, V1. exact (NP T1 V1). }
    split; [exact KK|]. split; [exact D|]. split; [exact P|]. split; [congruence|]. split; [|exact H2].
    replace (head k) with clc_header by (destruct k; reflexivity || congruence).
    apply (seen_of_shown res (header_rows 0 0 0)); try reflexivity. exact H1.
Qed.

(** ** Bodies *)

Lemma clc_items_app res t l t' l' off bs : tfits t l = true ->
  clc_items res (t ++ t') (decode_at (l ++ l') off bs) =
  (clc_items res t (decode_at l off bs) ++ clc_items res t' (decode_at l' (off + layout_bits l) bs))%list.
Proof. intros H. rewrite decode_at_app. apply items_app, H. Qed.

(** a body in three stages: what the later ones look like follows from the earlier ones *)
Lemma stages res bs bs' t1 l1 (t2 t3 : list byte -> list row) (l2 l3 : list byte -> layout) :
  let fields l off b := seen res (readable_fields (decode_at l off b)) in
  let ok b := tfits (t2 b) (l2 b) = true /\ nfits (t2 b) (l2 b) = true /\
    tfits (t3 b) (l3 b) = true /\ nfits (t3 b) (l3 b) = true /\
    64 + layout_bits (l1 ++ l2 b ++ l3 b) <= 8 * length b /\
    plain_texts (decode_at (l1 ++ l2 b ++ l3 b) 64 b) /\ is_eyecatcher (last4 b) = true in
  tfits t1 l1 = true -> nfits t1 l1 = true -> ok bs -> ok bs' ->
  (fields l1 64 bs = fields l1 64 bs' -> t2 bs = t2 bs' /\ l2 bs = l2 bs') ->
  (fields l1 64 bs = fields l1 64 bs' -> l2 bs = l2 bs' ->
   fields (l2 bs) (64 + layout_bits l1) bs = fields (l2 bs) (64 + layout_bits l1) bs' ->
   t3 bs = t3 bs' /\ l3 bs = l3 bs') ->
  joined (clc_items res (t1 ++ t2 bs ++ t3 bs) (decode_at (l1 ++ l2 bs ++ l3 bs) 64 bs))
    (joined [trailer_item (last4 bs)] "") =
  joined (clc_items res (t1 ++ t2 bs' ++ t3 bs') (decode_at (l1 ++ l2 bs' ++ l3 bs') 64 bs'))
    (joined [trailer_item (last4 bs')] "") ->
  (l1 ++ l2 bs ++ l3 bs = l1 ++ l2 bs' ++ l3 bs')%list /\
  fields (l1 ++ l2 bs ++ l3 bs)%list 64 bs = fields (l1 ++ l2 bs' ++ l3 bs')%list 64 bs' /\
  last4 bs = last4 bs'.
Proof.
  intros fields ok T1 N1 (A1 & A2 & A3 & A4 & A5 & A6 & A7) (B1 & B2 & B3 & B4 & B5 & B6 & B7) Q2 Q3 H.
  rewrite !clc_items_app in H by assumption. rewrite !joined_app in H.
  rewrite !layout_bits_app in A5, B5. rewrite !decode_at_app in A6, B6.
  apply plain_app in A6. destruct A6 as [P1 P2]. apply plain_app in P2. destruct P2 as [P2 P3].
  apply plain_app in B6. destruct B6 as [R1 R2]. apply plain_app in R2. destruct R2 as [R2 R3].
  apply (part_inj res t1 l1) in H; try assumption; try lia; try (repeat apply joined_stops; exact I).
  destruct H as [H1 H]. destruct (Q2 H1) as [E2 F2]. rewrite <- E2, <- F2 in *.
  apply (part_inj res (t2 bs) (l2 bs)) in H; try assumption; try lia; try (repeat apply joined_stops; exact I).
  destruct H as [H2 H]. destruct (Q3 H1 eq_refl H2) as [E3 F3]. rewrite <- E3, <- F3 in *.
  apply (part_inj res (t3 bs) (l3 bs)) in H; try assumption; try lia; try (repeat apply joined_stops; exact I).
  destruct H as [H3 H]. split; [reflexivity|]. split; [|apply trailer_step; assumption].
  unfold fields in *. rewrite !decode_at_app, !readable_app, !seen_app, H1, H2, H3. reflexivity.
Qed.

(** the rows and the layout of a body *)
Definition rows1 (k : clc_kind) (bs : list byte) : list row :=
  match k with
  | KProposal => proposal_rows
  | KProposalV2 => proposalv2_rows ++ (if has_ip bs then ip_area_rows else [])
  | KAcceptSMCDv2 | KConfirmSMCDv2 => accept_smcdv2_rows ++ (if (declared bs =? 114)%N then fce_rows else [])
  | _ => fixed_rows k
  end.
Definition lay1 (k : clc_kind) (bs : list byte) : layout :=
  match k with
  | KProposal => proposal_body
  | KProposalV2 => proposalv2_body ++ (if has_ip bs then ip_area_body else [])
  | KAcceptSMCDv2 | KConfirmSMCDv2 => accept_smcdv2_body ++ (if (declared bs =? 114)%N then fce_body else [])
  | _ => fixed_layout k
  end.
Definition rows2 (k : clc_kind) (bs : list byte) : list row :=
  match k with
  | KProposal => smcd_rows (ip_area_offset bs) ++ ip_area_rows
  | KProposalV2 =>
    (if has_ip bs then repeat (Pre "IPv6 Prefix: ") (prefix_count bs 80) else []) ++
    (if has_ext bs then v2_extension_rows else [])
  | _ => []
  end.
Definition lay2 (k : clc_kind) (bs : list byte) : layout :=
  match k with
  | KProposal => smcd_layout (ip_area_offset bs) ++ ip_area_body
  | KProposalV2 =>
    (if has_ip bs then concat (repeat ipv6_prefix_body (prefix_count bs 80)) else []) ++
    (if has_ext bs then v2_extension_body else [])
  | _ => []
  end.
Definition rows3 (k : clc_kind) (bs : list byte) : list row :=
  match k with
  | KProposal => repeat (Pre "IPv6 Prefix: ") (prefix_count bs (ip_area_start bs))
  | KProposalV2 =>
    (if has_ext bs then [eid_row (eids_at bs)] else []) ++
    (if has_smcd bs then smcdv2_extension_rows ++ [gid_row (gids_at bs)] else [])
  | _ => []
  end.
Definition lay3 (k : clc_kind) (bs : list byte) : layout :=
  match k with
  | KProposal => concat (repeat ipv6_prefix_body (prefix_count bs (ip_area_start bs)))
  | KProposalV2 =>
    (if has_ext bs then repeat ("EID"%string, A 32) (eids_at bs) else []) ++
    (if has_smcd bs then smcdv2_extension_body ++ concat (repeat gid_entry_body (gids_at bs)) else [])
  | _ => []
  end.
Definition body_lay (k : clc_kind) (bs : list byte) : layout := lay1 k bs ++ lay2 k bs ++ lay3 k bs.
Definition body_rows (k : clc_kind) (bs : list byte) : list row := rows1 k bs ++ rows2 k bs ++ rows3 k bs.

Lemma wire_split k bs : wire_layout k bs = (head k ++ body_lay k bs ++ [("Trailer"%string, A 4)])%list.
Proof.
  unfold wire_layout, body_lay. destruct k; cbn [head lay1 lay2 lay3]; rewrite <- ?app_assoc, ?app_nil_r; try reflexivity.
  do 2 f_equal. destruct (has_ip bs), (has_ext bs); rewrite <- ?app_assoc; reflexivity.
Qed.

Lemma tn_app t l t' l' : tfits t l = true /\ nfits t l = true -> tfits t' l' = true /\ nfits t' l' = true ->
  tfits (t ++ t') (l ++ l') = true /\ nfits (t ++ t') (l ++ l') = true.
Proof. intros [A B] [C D]. split; [apply tfits_app; assumption|apply nfits_app; assumption]. Qed.

Lemma tn_if (b : bool) t l : tfits t l = true /\ nfits t l = true ->
  tfits (if b then t else []) (if b then l else []) = true /\ nfits (if b then t else []) (if b then l else []) = true.
Proof. destruct b; [auto|split; reflexivity]. Qed.

Lemma fit1 k bs : tfits (rows1 k bs) (lay1 k bs) = true /\ nfits (rows1 k bs) (lay1 k bs) = true.
Proof.
  destruct k; cbn [rows1 lay1]; try (split; reflexivity); (apply tn_app; [split; reflexivity|apply tn_if; split; reflexivity]).
Qed.

Lemma fit2 k bs : whole k bs -> tfits (rows2 k bs) (lay2 k bs) = true /\ nfits (rows2 k bs) (lay2 k bs) = true.
Proof.
  intros (_ & _ & W). destruct k; cbn [rows2 lay2]; try (split; reflexivity); apply tn_app.
  - unfold smcd_rows, smcd_layout. destruct (ip_area_offset bs =? 40)%N; split; reflexivity.
  - split; reflexivity.
  - apply tn_if. split; [apply prefixes_tfit|apply prefixes_nfit].
  - apply tn_if. split; reflexivity.
Qed.

Lemma fit3 k bs : tfits (rows3 k bs) (lay3 k bs) = true /\ nfits (rows3 k bs) (lay3 k bs) = true.
Proof.
  destruct k; cbn [rows3 lay3]; try (split; reflexivity).
  - split; [apply prefixes_tfit|apply prefixes_nfit].
  - apply tn_app; apply tn_if; [split; [apply eid_tfits|apply eid_nfits]|].
    apply tn_app; [split; reflexivity|split; [apply gid_tfits|apply gid_nfits]].
Qed.

Lemma prefix_rows res n start bs :
  prefix_items res (entries ipv6_prefix_body start 17 n bs) =
  clc_items res (repeat (Pre "IPv6 Prefix: ") n) (decode_at (concat (repeat ipv6_prefix_body n)) (8 * start) bs).
Proof. apply entries_rows. Qed.

Lemma app_eq {T} (a a' b b' : list T) : a = a' -> b = b' -> (a ++ b = a' ++ b')%list.
Proof. intros -> ->. reflexivity. Qed.

Lemma items_off res t l o o' bs : o = o' -> clc_items res t (decode_at l o bs) = clc_items res t (decode_at l o' bs).
Proof. intros ->. reflexivity. Qed.

Lemma items_nil res off bs : clc_items res [] (decode_at [] off bs) = [].
Proof. reflexivity. Qed.

Lemma items_if (b : bool) res t l off bs :
  clc_items res (if b then t else []) (decode_at (if b then l else []) off bs) =
  if b then clc_items res t (decode_at l off bs) else [].
Proof. destruct b; reflexivity. Qed.

(** the text of a whole message *)
Lemma whole_text res k bs : whole k bs ->
  sound_text res k bs = bytes_text res bs (clc_items res (body_rows k bs) (decode_at (body_lay k bs) 64 bs)).
Proof.
  intros W. pose proof (fit1 k bs) as [F1 _]. pose proof (fit2 k bs W) as [F2 _].
  unfold body_rows, body_lay. rewrite clc_items_app by exact F1. rewrite clc_items_app by exact F2.
  destruct W as (_ & _ & W). destruct k; cbn [sound_text rows1 rows2 rows3 lay1 lay2 lay3] in *;
    try (unfold fixed_text; cbn [is_smcdv2 andb]; reflexivity).
  - f_equal. f_equal.
    assert (S : ip_area_start bs = 40 + (if (ip_area_offset bs =? 40)%N then 40 else 0))
      by (unfold ip_area_start; destruct W as [-> | ->]; reflexivity).
    rewrite clc_items_app by (unfold smcd_rows, smcd_layout; destruct (ip_area_offset bs =? 40)%N; reflexivity).
    rewrite <- app_assoc. f_equal; [|f_equal].
    + unfold smcd_rows, smcd_layout. destruct (ip_area_offset bs =? 40)%N; reflexivity.
    + rewrite S. unfold smcd_layout. destruct (ip_area_offset bs =? 40)%N; reflexivity.
    + rewrite prefix_rows. f_equal. f_equal. rewrite layout_bits_app, S. unfold smcd_layout.
      destruct (ip_area_offset bs =? 40)%N; reflexivity.
  - f_equal.
    assert (E0 : ext_at bs = if has_ip bs then 80 + 8 + 17 * prefix_count bs 80 else 80) by reflexivity.
    assert (S0 : smcd_at bs = ext_at bs + 40 + 32 * eids_at bs) by reflexivity.
    pose proof (smcd_ext bs) as SE.
    destruct (has_ip bs), (has_ext bs), (has_smcd bs); try discriminate (SE eq_refl);
      rewrite ?app_nil_l, ?app_nil_r, <- ?app_assoc;
      repeat (rewrite clc_items_app by (first [reflexivity|apply prefixes_tfit|apply eid_tfits|apply gid_tfits]));
      rewrite <- ?app_assoc, ?prefix_rows, <- ?(eid_area_row res), <- ?(gid_area_row res);
      rewrite ?layout_bits_app, ?prefixes_bits, ?eids_bits;
      change (layout_bits proposalv2_body) with 576; change (layout_bits ip_area_body) with 64;
      change (layout_bits v2_extension_body) with 320; change (layout_bits smcdv2_extension_body) with 384;
      change (layout_bits []) with 0;
      change (clc_items res [] (decode_at [] (64 + 576) bs)) with (@nil string);
      repeat (apply app_eq); try (apply items_off; lia); try reflexivity.
  - unfold fixed_text. cbn [is_smcdv2 andb fixed_rows fixed_layout]. f_equal.
    rewrite clc_items_app by reflexivity. rewrite items_if, !items_nil, !app_nil_r. destruct (declared bs =? 114)%N; reflexivity.
  - unfold fixed_text. cbn [is_smcdv2 andb fixed_rows fixed_layout]. f_equal.
    rewrite clc_items_app by reflexivity. rewrite items_if, !items_nil, !app_nil_r. destruct (declared bs =? 114)%N; reflexivity.
Qed.

Lemma seen_length res l : forall off off' bs bs',
  length (seen res (readable_fields (decode_at l off bs))) = length (seen res (readable_fields (decode_at l off' bs'))).
Proof.
  induction l as [|[n k] l IH]; intros off off' bs bs'; [destruct res; reflexivity|].
  change ((n, k) :: l) with ([(n, k)] ++ l)%list. rewrite !decode_at_app, !readable_app, !seen_app, !app_length. f_equal; [|apply IH].
  destruct k; cbn [decode_at readable_fields map readable_field]; destruct res; cbn [seen]; unfold named_fields; cbn [filter];
    try destruct (is_text n); cbn [fst]; try (destruct (negb _)); try reflexivity.
Qed.

Lemma app_inv_length {T} (a : list T) : forall a' b b', length a = length a' -> (a ++ b = a' ++ b')%list -> a = a' /\ b = b'.
Proof.
  induction a as [|x a IH]; intros [|x' a'] b b' L H; try discriminate L; [auto|].
  injection H as -> H. destruct (IH a' b b') as [-> ->]; auto.
Qed.

(** fields of parts of a body *)
Lemma seen_parts res l l' off bs bs' :
  seen res (readable_fields (decode_at (l ++ l') off bs)) = seen res (readable_fields (decode_at (l ++ l') off bs')) ->
  seen res (readable_fields (decode_at l off bs)) = seen res (readable_fields (decode_at l off bs')) /\
  seen res (readable_fields (decode_at l' (off + layout_bits l) bs)) =
  seen res (readable_fields (decode_at l' (off + layout_bits l) bs')).
Proof.
  rewrite !decode_at_app, !readable_app, !seen_app. intros H. apply app_inv_length in H; [exact H|apply seen_length].
Qed.

Lemma number_of (l l' : list (string * val)) i : l = l' ->
  match nth i l (""%string, VN 0) with (_, VN n) => n | _ => 0%N end =
  match nth i l' (""%string, VN 0) with (_, VN n) => n | _ => 0%N end.
Proof. intros ->. reflexivity. Qed.

Lemma offset_seen res bs bs' :
  seen res (readable_fields (decode_at proposal_body 64 bs)) = seen res (readable_fields (decode_at proposal_body 64 bs')) ->
  ip_area_offset bs = ip_area_offset bs'.
Proof. intros H. destruct res; exact (number_of _ _ 3 H). Qed.

Lemma count_seen res start bs bs' :
  seen res (readable_fields (decode_at ip_area_body (8 * start) bs)) =
  seen res (readable_fields (decode_at ip_area_body (8 * start) bs')) -> prefix_count bs start = prefix_count bs' start.
Proof.
  intros H. unfold prefix_count. f_equal. replace (8 * (start + 7)) with (8 * start + 32 + 8 + 16) by lia.
  destruct res; [exact (number_of _ _ 3 H)|exact (number_of _ _ 2 H)].
Qed.

Lemma ext_seen res start bs bs' :
  seen res (readable_fields (decode_at v2_extension_body (8 * start) bs)) =
  seen res (readable_fields (decode_at v2_extension_body (8 * start) bs')) ->
  bits bs (8 * start) 8 = bits bs' (8 * start) 8 /\ bits bs (8 * (start + 1)) 8 = bits bs' (8 * (start + 1)) 8.
Proof.
  intros H. replace (8 * (start + 1)) with (8 * start + 8) by lia.
  split; destruct res; [exact (number_of _ _ 0 H)|exact (number_of _ _ 0 H)|exact (number_of _ _ 1 H)|exact (number_of _ _ 1 H)].
Qed.

Lemma whole_size k bs : whole k bs -> 64 + layout_bits (body_lay k bs) + 32 = 8 * length bs.
Proof.
  intros (W & _ & _). rewrite <- W, wire_split, !layout_bits_app.
  change (layout_bits [("Trailer"%string, A 4)]) with 32. replace (layout_bits (head k)) with 64 by (destruct k; reflexivity). lia.
Qed.

Lemma plain_body k bs : plain_texts (decode (wire_layout k bs) bs) -> plain_texts (decode_at (body_lay k bs) 64 bs).
Proof.
  intros P. rewrite wire_split in P. unfold decode in P. rewrite decode_at_app in P. apply plain_app in P.
  destruct P as [_ P]. rewrite decode_at_app in P. apply plain_app in P. destruct P as [P _].
  replace (0 + layout_bits (head k)) with 64 in P by (destruct k; reflexivity). exact P.
Qed.

(** texts determine kinds, layouts and readable fields *)
Lemma padded_inj res k k' bs bs' : whole k bs -> whole k' bs' -> of_kind k bs -> of_kind k' bs' ->
  eyecatchers bs -> eyecatchers bs' ->
  plain_texts (decode (wire_layout k bs) bs) -> plain_texts (decode (wire_layout k' bs') bs') ->
  sound_text res k bs = sound_text res k' bs' ->
  k = k' /\ wire_layout k bs = wire_layout k' bs' /\
  seen res (readable_fields (decode (wire_layout k bs) bs)) = seen res (readable_fields (decode (wire_layout k' bs') bs')).
Proof.
  intros W W' K K' E E' P P' H. rewrite (whole_text res k bs W), (whole_text res k' bs' W') in H.
  pose proof (whole_size k bs W) as Z. pose proof (whole_size k' bs' W') as Z'.
  apply plain_body in P. apply plain_body in P'.
  apply (head_inj res k k') in H; try assumption; try lia. destruct H as (-> & HD & HP & HP2 & HH & HB). rename k' into k.
  assert (R1 : rows1 k bs' = rows1 k bs).
  { destruct k; cbn [rows1]; unfold has_ip; rewrite ?HP, ?HD; reflexivity. }
  assert (L1 : lay1 k bs' = lay1 k bs).
  { destruct k; cbn [lay1]; unfold has_ip; rewrite ?HP, ?HD; reflexivity. }
  unfold body_rows, body_lay in *. rewrite R1, L1 in *.
  pose proof (fit1 k bs) as [F1 G1].
  apply (stages res bs bs' (rows1 k bs) (lay1 k bs) (rows2 k) (rows3 k) (lay2 k) (lay3 k)) in HB; try assumption.
  - destruct HB as (HL & HF & HT). split; [reflexivity|]. rewrite !wire_split. unfold body_lay. rewrite L1, <- HL.
    split; [reflexivity|]. rewrite <- HL in *. set (B := (lay1 k bs ++ lay2 k bs ++ lay3 k bs)%list) in *.
    unfold decode in *.
    rewrite !(decode_at_app (head k)), !(decode_at_app B), !readable_app, !seen_app.
    pose proof (head_readable k bs) as HR. pose proof (head_readable k bs') as HR'. unfold decode in HR, HR'.
    rewrite HR, HR', HH. f_equal.
    replace (0 + layout_bits (head k)) with 64 by (destruct k; reflexivity). rewrite HF. f_equal.
    cbn [decode_at].
    assert (T : forall b, 64 + layout_bits B + 32 = 8 * length b -> bytes_at b ((64 + layout_bits B) / 8) 4 = last4 b).
    { intros b L. unfold last4, bytes_at. replace ((64 + layout_bits B) / 8) with (length b - 4).
      - apply firstn_all2. rewrite skipn_length. lia.
      - apply Nat.div_unique with 0; lia. }
    rewrite !T, HT by assumption. reflexivity.
  - repeat split; try (apply fit2; assumption); try apply fit3; try apply E; try assumption. lia.
  - pose proof (fit3 k bs'). pose proof (fit2 k bs' W').
    repeat split; try tauto; try apply E'; try assumption. lia.
  - intros Q. destruct k; cbn [rows2 lay2 lay1] in *; try (split; reflexivity).
    + rewrite (offset_seen res bs bs' Q). split; reflexivity.
    + specialize (HP2 eq_refl). unfold has_ip, has_ext in *. rewrite <- HP, <- HP2 in *.
      destruct (msg_path bs =? 2)%N; cbn [negb] in *; [split; reflexivity|].
      apply seen_parts in Q. destruct Q as [_ Q]. rewrite (count_seen res 80 bs bs' Q). split; reflexivity.
  - intros Q2 QL Q3. destruct k; cbn [rows3 lay3 lay2 lay1] in *; try (split; reflexivity).
    + pose proof (offset_seen res bs bs' Q2) as O. apply seen_parts in Q3. destruct Q3 as [_ Q3].
      destruct W as (_ & _ & W).
      assert (C : prefix_count bs (ip_area_start bs) = prefix_count bs' (ip_area_start bs')).
      { unfold ip_area_start. rewrite <- O. apply (count_seen res).
        destruct W as [W|W]; rewrite W in *; exact Q3. }
      rewrite C. split; reflexivity.
    + specialize (HP2 eq_refl).
      assert (HI : has_ip bs' = has_ip bs) by (unfold has_ip; rewrite HP; reflexivity).
      assert (HX : has_ext bs' = has_ext bs) by (unfold has_ext; rewrite HP2; reflexivity).
      assert (HS : has_smcd bs' = has_smcd bs) by (unfold has_smcd; rewrite HP2; reflexivity).
      rewrite HI, HX, HS in *. pose proof (smcd_ext bs) as SE.
      destruct (has_ext bs) eqn:X; [|destruct (has_smcd bs); [discriminate (SE eq_refl)|split; reflexivity]].
      assert (C : has_ip bs = true -> prefix_count bs 80 = prefix_count bs' 80).
      { intros Y. rewrite Y in *. apply seen_parts in Q2. destruct Q2 as [_ Q2]. exact (count_seen res 80 bs bs' Q2). }
      apply seen_parts in Q3. destruct Q3 as [_ Q3].
      assert (XA : ext_at bs' = ext_at bs).
      { unfold ext_at. rewrite HI. destruct (has_ip bs); [rewrite C by reflexivity; reflexivity|reflexivity]. }
      assert (O : 64 + layout_bits (proposalv2_body ++ (if has_ip bs then ip_area_body else [])) +
        layout_bits (if has_ip bs then concat (repeat ipv6_prefix_body (prefix_count bs 80)) else []) = 8 * ext_at bs).
      { unfold ext_at. destruct (has_ip bs); rewrite layout_bits_app, ?prefixes_bits;
          change (layout_bits proposalv2_body) with 576; change (layout_bits ip_area_body) with 64;
          change (layout_bits []) with 0; lia. }
      assert (Q4 : seen res (readable_fields (decode_at v2_extension_body (8 * ext_at bs) bs)) =
        seen res (readable_fields (decode_at v2_extension_body (8 * ext_at bs) bs'))).
      { rewrite <- O. exact Q3. }
      apply ext_seen in Q4. destruct Q4 as [Q4 Q5].
      assert (EA : eids_at bs = eids_at bs') by (unfold eids_at; rewrite XA, Q4; reflexivity).
      assert (GA : gids_at bs = gids_at bs') by (unfold gids_at; rewrite XA, Q5; reflexivity).
      rewrite EA, GA. split; reflexivity.
Qed.

(** ** From texts to messages *)

Lemma filled_inj b l : forall off bs bs',
  off + layout_bits l <= 8 * length bs -> off + layout_bits l <= 8 * length bs' ->
  filled b (decode_at l off bs) -> filled b (decode_at l off bs') ->
  readable_fields (decode_at l off bs) = readable_fields (decode_at l off bs') -> decode_at l off bs = decode_at l off bs'.
Proof.
  induction l as [|[n k] l IH]; intros off bs bs' L L' F F' H; [reflexivity|].
  assert (T : forall w vs vs', filled b ((n, vs) :: decode_at l w bs) -> filled b ((n, vs') :: decode_at l w bs') ->
    w + layout_bits l <= 8 * length bs -> w + layout_bits l <= 8 * length bs' ->
    readable_fields (decode_at l w bs) = readable_fields (decode_at l w bs') -> decode_at l w bs = decode_at l w bs').
  { intros w vs vs' G G' M M'. apply IH; try assumption.
    - intros n' e I. apply G. right. exact I.
    - intros n' e I. apply G'. right. exact I. }
  destruct k as [w|w]; cbn [layout_bits kind_bits] in L, L'; cbn [decode_at readable_fields map readable_field] in *.
  - injection H as H1 H2. rewrite H1. f_equal. apply (T _ _ _ F F'); try exact H2; lia.
  - pose proof (f_equal (@tl _) H) as H2. apply (f_equal (fun l => hd (n, VN 0) l)) in H. cbn [hd tl] in *.
    rewrite (T _ _ _ F F') by (exact H2 || lia). f_equal.
    destruct (is_text n) eqn:X; [|exact H].
    pose proof (f_equal (fun p => match snd p with VB e => e | _ => [] end) H) as H1. cbn [snd] in H1. do 2 f_equal.
    rewrite (F n _ (or_introl eq_refl) X), (F' n _ (or_introl eq_refl) X). rewrite H1. do 2 f_equal.
    pose proof (Nat.div_mod off 8 ltac:(lia)).
    rewrite !bytes_at_length by lia. reflexivity.
Qed.

Lemma whole_sound k bs : whole k bs -> is_eyecatcher (last4 bs) = true ->
  sound k bs /\ (is_smcdv2 k = true -> length bs <= 114).
Proof.
  intros W T. pose proof (whole_size k bs W) as Z. destruct W as (_ & _ & W). unfold body_lay in Z. rewrite !layout_bits_app in Z.
  unfold sound.
  assert (X : forall l, k = l -> is_proposal l = false -> N.to_nat (min_length k) <= length bs /\ (is_smcdv2 k = true -> length bs <= 114)).
  { intros l <- I. destruct k; try discriminate I; cbn [lay1 lay2 lay3 min_length is_smcdv2] in *;
    try destruct (declared bs =? 114)%N; change (layout_bits []) with 0 in Z; rewrite ?layout_bits_app in Z;
    cbn [fixed_layout] in Z;
    change (layout_bits accept_smcr_body) with 448 in Z; change (layout_bits accept_smcd_body) with 288 in Z;
    change (layout_bits accept_smcdv2_body) with 528 in Z; change (layout_bits fce_body) with 288 in Z;
    change (layout_bits decline_body) with 128 in Z; change (layout_bits declinev2_body) with 128 in Z;
    change (layout_bits []) with 0 in Z;
    (split; [lia|intros; discriminate || lia]). }
  destruct k; try (destruct (X _ eq_refl eq_refl); repeat split; assumption); clear X.
  - cbn [lay1 lay2 lay3 min_length] in *.
    assert (S : ip_area_start bs = 40 + (if (ip_area_offset bs =? 40)%N then 40 else 0))
      by (unfold ip_area_start; destruct W as [-> | ->]; reflexivity).
    rewrite !layout_bits_app, prefixes_bits in Z. change (layout_bits proposal_body) with 256 in Z.
    change (layout_bits ip_area_body) with 64 in Z. unfold smcd_layout in Z. unfold sound_v1.
    destruct (ip_area_offset bs =? 40)%N;
      [change (layout_bits proposal_smcd_body) with 320 in Z|change (layout_bits []) with 0 in Z];
      (split; [split; [lia|split; [exact T|lia]]|discriminate]).
  - cbn [lay1 lay2 lay3 min_length] in *. unfold sound_v2, smcd_at. pose proof (smcd_ext bs) as SE.
    unfold ext_at. destruct W as [W1 W2].
    assert (P8 : layout_bits proposalv2_body = 576) by reflexivity.
    destruct (has_ip bs), (has_ext bs), (has_smcd bs); try discriminate (SE eq_refl);
      rewrite ?layout_bits_app, ?prefixes_bits, ?eids_bits, ?gids_bits, ?P8 in Z;
      change (layout_bits ip_area_body) with 64 in Z; change (layout_bits v2_extension_body) with 320 in Z;
      change (layout_bits smcdv2_extension_body) with 384 in Z; change (layout_bits []) with 0 in Z;
      (split; [|discriminate]); (split; [lia|]); (split; [exact T|]);
      repeat split; intros; try discriminate; try lia; auto.
Qed.

Lemma whole_texts m buf k logs new : slice_ok m buf -> let bs := s_bytes m buf in
  whole k bs -> eyecatchers bs -> Message_Parse m (fresh k) buf = (logs, Done new) ->
  Message_String new = sound_text false k bs /\ Message_Reserved new = sound_text true k bs.
Proof.
  intros Hok bs W E P. destruct (whole_sound k bs W (proj2 E)) as [S S2].
  destruct (sound_texts m buf k Hok) as (new' & P' & T); [apply W|exact S|exact S2|].
  rewrite P in P'. injection P' as -> ->. exact T.
Qed.

Theorem padded_parse m m' k k' buf buf' logs logs' new new' : slice_ok m buf -> slice_ok m' buf' ->
  let bs := s_bytes m buf in let bs' := s_bytes m' buf' in
  let vs := decode (wire_layout k bs) bs in let vs' := decode (wire_layout k' bs') bs' in
  whole k bs -> whole k' bs' -> of_kind k bs -> of_kind k' bs' -> eyecatchers bs -> eyecatchers bs' ->
  plain_texts vs -> plain_texts vs' ->
  Message_Parse m (fresh k) buf = (logs, Done new) -> Message_Parse m' (fresh k') buf' = (logs', Done new') ->
  (Message_Reserved new = Message_Reserved new' -> k = k' /\ readable_fields vs = readable_fields vs') /\
  (Message_String new = Message_String new' ->
   k = k' /\ named_fields (readable_fields vs) = named_fields (readable_fields vs')) /\
  (forall b, filled b vs -> filled b vs' -> Message_Reserved new = Message_Reserved new' -> bs = bs').
Proof.
  intros Hok Hok' bs bs' vs vs' W W' K K' E E' P P' R R'.
  destruct (whole_texts m buf k logs new Hok W E R) as [T1 T2]. destruct (whole_texts m' buf' k' logs' new' Hok' W' E' R') as [T1' T2'].
  fold bs in T1, T2. fold bs' in T1', T2'. rewrite T1, T2, T1', T2'. split; [|split].
  - intros H. destruct (padded_inj true k k' bs bs') as (A & _ & B); auto.
  - intros H. destruct (padded_inj false k k' bs bs') as (A & _ & B); auto.
  - intros b F F' H. destruct (padded_inj true k k' bs bs') as (-> & L & B); auto. unfold seen in B.
    destruct W as (W & _). destruct W' as (W' & _). unfold vs, vs' in *. rewrite <- L in *.
    apply (decode_inj (wire_layout k' bs)); [apply wire_aligned|exact W|lia|].
    apply (filled_inj b); try assumption; cbn [Nat.add]; lia.
Qed.

(** ** Separators *)

Definition eids_head : list byte := Eval vm_compute in
  (Samples.hexs "e2d4c3c40100bc22" ++ zeros 72 ++ [x02] ++ zeros 39)%list.
(** "A, EID 1: B" and "C"; "A" and "B, EID 1: C" *)
Definition eids_a : list byte := Eval vm_compute in
  (eids_head ++ Samples.hexs "412c2045494420313a2042" ++ zeros 21 ++ [x43] ++ zeros 31 ++ Samples.hexs "e2d4c3c4")%list.
Definition eids_b : list byte := Eval vm_compute in
  (eids_head ++ [x41] ++ zeros 31 ++ Samples.hexs "422c2045494420313a2043" ++ zeros 21 ++ Samples.hexs "e2d4c3c4")%list.

Definition texts_of (vs : list (string * val)) : list (list byte) :=
  flat_map (fun f => match f with (n, VB e) => if is_text n then [e] else [] | _ => [] end) vs.

Lemma texts_in vs n e : In (n, VB e) vs -> is_text n = true -> In e (texts_of vs).
Proof.
  intros I T. unfold texts_of. apply in_flat_map. exists (n, VB e). split; [exact I|]. rewrite T. left. reflexivity.
Qed.

Lemma filled_check b vs :
  forallb (fun e => if list_eq_dec Byte.byte_eq_dec e (readable e ++ repeat b (length e - length (readable e))) then true else false)
    (texts_of vs) = true -> filled b vs.
Proof.
  intros H n e I T. rewrite forallb_forall in H. specialize (H e (texts_in _ _ _ I T)).
  destruct (list_eq_dec _ _ _); [assumption|discriminate].
Qed.

Lemma plain_check vs :
  forallb (fun e => forallb (fun b => negb (existsb (Byte.eqb b) (readable e))) [x2c; x5d; x0a])%list (texts_of vs) = true ->
  plain_texts vs.
Proof.
  intros H n e I T b Hb J. rewrite forallb_forall in H. specialize (H e (texts_in _ _ _ I T)).
  rewrite forallb_forall in H. specialize (H b Hb). apply negb_true_iff in H.
  assert (X : existsb (Byte.eqb b) (readable e) = true).
  { apply existsb_exists. exists b. split; [exact J|]. apply Byte.byte_dec_lb. reflexivity. }
  rewrite X in H. discriminate.
Qed.

Lemma separators_witness : exists m m' buf new new', slice_ok m buf /\ slice_ok m' buf /\
  let bs := s_bytes m buf in let bs' := s_bytes m' buf in let k := KProposalV2 in
  let vs := decode (wire_layout k bs) bs in let vs' := decode (wire_layout k bs') bs' in
  whole k bs /\ whole k bs' /\ of_kind k bs /\ of_kind k bs' /\ eyecatchers bs /\ eyecatchers bs' /\
  filled x00 vs /\ filled x00 vs' /\
  Message_Parse m (fresh k) buf = ([], Done new) /\ Message_Parse m' (fresh k) buf = ([], Done new') /\
  readable_fields vs <> readable_fields vs' /\ Message_Reserved new = Message_Reserved new'.
Proof.
  exists (Samples.mem1 eids_a), (Samples.mem1 eids_b), (Samples.slice1 eids_a). eexists. eexists.
  split; [apply Samples.slice1_ok|]. split; [apply (Samples.slice1_ok eids_b)|].
  change (s_bytes (Samples.mem1 eids_a) (Samples.slice1 eids_a)) with eids_a.
  change (s_bytes (Samples.mem1 eids_b) (Samples.slice1 eids_a)) with eids_b.
  assert (T : kind_rel 1 2 2 KProposalV2) by constructor. cbv zeta.
  split. { split; [vm_compute; reflexivity|]. split; [vm_compute; reflexivity|]. split; intros _; apply Nat.leb_le; vm_compute; reflexivity. }
  split. { split; [vm_compute; reflexivity|]. split; [vm_compute; reflexivity|]. split; intros _; apply Nat.leb_le; vm_compute; reflexivity. }
  split; [exact T|]. split; [exact T|]. split; [split; vm_compute; reflexivity|]. split; [split; vm_compute; reflexivity|].
  split; [apply filled_check; vm_compute; reflexivity|]. split; [apply filled_check; vm_compute; reflexivity|].
  split; [vm_compute; reflexivity|]. split; [vm_compute; reflexivity|]. split; [|vm_compute; reflexivity].
  intros H. apply (f_equal texts_of) in H. vm_compute in H. discriminate.
Qed.

Lemma padded_example_fce :
  let bs := Samples.sample_accept_d2_fce in let k := KAcceptSMCDv2 in let vs := decode (wire_layout k bs) bs in
  whole k bs /\ of_kind k bs /\ eyecatchers bs /\ plain_texts vs /\ filled x00 vs /\
  In ("Hostname"%string, VB (Samples.hexs "546869734973486f73746e616d653031")) (readable_fields vs) /\
  exists new, Message_Parse (Samples.mem1 bs) (fresh k) (Samples.slice1 bs) = ([], Done new).
Proof.
  cbv zeta. assert (T : kind_rel 2 2 1 KAcceptSMCDv2) by constructor.
  split. { split; [vm_compute; reflexivity|]. split; [vm_compute; reflexivity|exact I]. }
  split; [exact T|]. split; [split; vm_compute; reflexivity|].
  split; [apply plain_check; vm_compute; reflexivity|]. split; [apply filled_check; vm_compute; reflexivity|].
  split; [vm_compute; tauto|]. eexists. vm_compute. reflexivity.
Qed.

Lemma padded_example_proposal :
  let bs := Samples.sample_prop2_6 in let k := KProposalV2 in let vs := decode (wire_layout k bs) bs in
  whole k bs /\ of_kind k bs /\ eyecatchers bs /\ plain_texts vs /\
  length (filter (fun v => is_text (fst v)) vs) = 2 /\
  exists new, Message_Parse (Samples.mem1 bs) (fresh k) (Samples.slice1 bs) = ([], Done new).
Proof.
  cbv zeta. assert (T : exists p, kind_rel 1 2 p KProposalV2 /\ msg_path Samples.sample_prop2_6 = p)
    by (eexists; split; [constructor|vm_compute; reflexivity]).
  split. { split; [vm_compute; reflexivity|]. split; [vm_compute; reflexivity|]. split; intros _; apply Nat.leb_le; vm_compute; reflexivity. }
  split. { destruct T as (p & T & E). unfold of_kind. rewrite E. exact T. }
  split; [split; vm_compute; reflexivity|].
  split; [apply plain_check; vm_compute; reflexivity|]. split; [vm_compute; reflexivity|].
  eexists. vm_compute. reflexivity.
Qed.
