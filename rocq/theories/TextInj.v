(** * TextInj: texts with all fields determine the message. Proofs only. *)

From Coq Require Import NArith ZArith Bool String Ascii Arith List Lia.
From Coq Require Import ZifyBool ZifyNat ZifyN.
From Verif Require Import GoBase GoFmt ClcModel LlcModel RoceModel Slices Wire WireLemmas ClcView LlcView
  Names Opcodes Show TextLemmas Canon CanonNum CanonIp CanonDump Readable.
Import ListNotations.
Local Open Scope nat_scope.

(** ** Strings up to the next separator *)

Definition newline : ascii := ascii_of_nat 10.

Definition clean (s : string) : Prop := lacks "," s /\ lacks "]" s /\ lacks newline s.

Definition stops (e : string) : Prop :=
  match e with
  | EmptyString => True
  | String c _ => c = ","%char \/ c = "]"%char \/ c = newline
  end.

Lemma clean_app a b : clean a -> clean b -> clean (append a b).
Proof. intros (A & B & C) (A' & B' & C'). repeat split; apply lacks_app; assumption. Qed.

Lemma cancel v : forall v' e e', clean v -> clean v' -> stops e -> stops e' ->
  append v e = append v' e' -> v = v' /\ e = e'.
Proof.
  induction v as [|c v IH]; intros [|c' v'] e e' C C' S S' H; cbn [append] in H.
  - split; [reflexivity|exact H].
  - exfalso. subst e. destruct C' as ((A & _) & (B & _) & (D & _)). cbn in S. tauto.
  - exfalso. subst e'. destruct C as ((A & _) & (B & _) & (D & _)). cbn in S'. tauto.
  - injection H as -> H. destruct C as ((_ & A) & (_ & B) & (_ & D)). destruct C' as ((_ & A') & (_ & B') & (_ & D')).
    destruct (IH v' e e') as [-> ->]; try assumption; repeat split; assumption.
Qed.

(** the same for a separator of one's choice *)
Lemma cancel_at c v : forall v' e e', lacks c v -> lacks c v' ->
  append v (String c e) = append v' (String c e') -> v = v' /\ e = e'.
Proof.
  induction v as [|x v IH]; intros [|x' v'] e e' C C' H; cbn [append] in H.
  - injection H as ->. split; reflexivity.
  - exfalso. injection H as -> _. apply (proj1 C'). reflexivity.
  - exfalso. injection H as -> _. apply (proj1 C). reflexivity.
  - injection H as -> H. destruct (IH v' e e' (proj2 C) (proj2 C') H) as [-> ->]. split; reflexivity.
Qed.

Lemma sapp_cancel a : forall b c : string, append a b = append a c -> b = c.
Proof. induction a as [|x a IH]; intros b c H; [exact H|]. injection H as H. apply IH, H. Qed.

(** ** Clean texts *)

Fixpoint lacks_b (c : ascii) (s : string) : bool :=
  match s with EmptyString => true | String x r => negb (Ascii.eqb x c) && lacks_b c r end.

Lemma lacks_b_ok c s : lacks_b c s = true -> lacks c s.
Proof.
  induction s as [|x s IH]; intros H; [exact I|]. cbn in H. apply andb_true_iff in H. destruct H as [H H'].
  split; [|apply IH, H']. intros ->. rewrite Ascii.eqb_refl in H. discriminate.
Qed.

Definition clean_b (s : string) : bool := lacks_b "," s && lacks_b "]" s && lacks_b newline s.

Lemma clean_b_ok s : clean_b s = true -> clean s.
Proof. unfold clean_b. rewrite !andb_true_iff. intros [[A B] C]. repeat split; apply lacks_b_ok; assumption. Qed.

Lemma numeral_clean base n s : numeral base n s -> clean s.
Proof. intros H. repeat split; (eapply numeral_lacks; [|exact H]; reflexivity). Qed.

Lemma dec_clean n : clean (dec n).
Proof. eapply numeral_clean, dec_numeral. Qed.

Lemma hexN_clean n : clean (hexN n).
Proof. destruct (hexN_numeral n) as (s & -> & H). apply clean_app; [apply clean_b_ok; reflexivity|eapply numeral_clean, H]. Qed.

Lemma binN_clean n : clean (binN n).
Proof. destruct (binN_numeral n) as (s & -> & H). apply clean_app; [apply clean_b_ok; reflexivity|eapply numeral_clean, H]. Qed.

Lemma name_clean t d c : forallb clean_b (d :: map snd t) = true -> clean (name_of t d c).
Proof.
  intros H. apply clean_b_ok. cbn in H. apply andb_true_iff in H. destruct H as [Hd H].
  induction t as [|[c' s] t IH]; [exact Hd|]. cbn [map snd forallb] in H. apply andb_true_iff in H. destruct H as [Hs H].
  cbn [name_of]. destruct (c =? c')%N; [exact Hs|apply IH, H].
Qed.

Lemma named_clean a b : clean a -> clean b -> clean (named a b).
Proof.
  intros Ha Hb. unfold named. apply clean_app; [exact Ha|]. apply clean_app; [apply clean_b_ok; reflexivity|].
  apply clean_app; [exact Hb|apply clean_b_ok; reflexivity].
Qed.

Lemma hex2_clean b : clean (hex2 b).
Proof. apply clean_b_ok. destruct b; reflexivity. Qed.

Lemma concat_clean sep l : clean sep -> Forall clean l -> clean (String.concat sep l).
Proof.
  intros (A & B & C) H. repeat split; apply concat_lacks; try assumption; (eapply Forall_impl; [|exact H]);
    intros a (? & ? & ?); assumption.
Qed.

Lemma hexes_clean bs : Forall clean (map hex2 bs).
Proof. apply Forall_forall. intros s Hs. apply in_map_iff in Hs. destruct Hs as (b & <- & _). apply hex2_clean. Qed.

Lemma hexbytes_clean bs : clean (hexbytes bs).
Proof.
  destruct bs as [|b bs]; [apply clean_b_ok; reflexivity|]. unfold hexbytes.
  apply clean_app; [apply clean_b_ok; reflexivity|]. apply concat_clean; [apply clean_b_ok; reflexivity|apply hexes_clean].
Qed.

Lemma mac_clean bs : clean (mac_string bs).
Proof. apply concat_clean; [apply clean_b_ok; reflexivity|apply hexes_clean]. Qed.

Lemma ip_text_lacks c ip s : digit c = None -> c <> "."%char -> c <> ":"%char -> ip_text ip s -> lacks c s.
Proof.
  intros D Hd Hc [[L H]|[[M H]|(L & M & H)]].
  1, 2: destruct H as (l & H & ->); apply concat_lacks; [split; [congruence|exact I]|];
    eapply Forall2_right; [exact H|]; intros x y N; eapply numeral_lacks; [exact D|exact N].
  destruct H as (hs & H & C).
  assert (X : Forall (lacks c) hs) by (eapply Forall2_right; [exact H|]; intros x y N; eapply numeral_lacks; [exact D|exact N]).
  destruct C as [[_ ->]|(i & k & _ & _ & ->)].
  - apply concat_lacks; [split; [congruence|exact I]|exact X].
  - apply lacks_app; [apply concat_lacks; [split; [congruence|exact I]|apply Forall_firstn', X]|].
    apply lacks_app; [repeat split; congruence|apply concat_lacks; [split; [congruence|exact I]|apply Forall_skipn', X]].
Qed.

Lemma ip_clean ip : length ip = 4 \/ length ip = 16 -> clean (ip_string ip).
Proof.
  intros H. repeat split; (eapply ip_text_lacks; [| | |exact (ip_string_text ip H)]; [reflexivity|discriminate..]).
Qed.

Lemma peer_clean p : clean (peer_text p).
Proof.
  unfold peer_text. apply clean_app; [apply dec_clean|]. apply clean_app; [apply clean_b_ok; reflexivity|apply mac_clean].
Qed.

Lemma eye_clean e : clean (eyecatcher_text e).
Proof. unfold eyecatcher_text. repeat destruct list_eq_dec; apply clean_b_ok; reflexivity. Qed.

(** ** Different values, different texts *)

Lemma named_inj a b a' b' : lacks " " a -> lacks " " a' -> named a b = named a' b' -> a = a'.
Proof. unfold named. intros H H' E. apply cancel_at in E; tauto. Qed.

Lemma dec_named_inj x y b b' : named (dec x) b = named (dec y) b' -> x = y.
Proof.
  intros H. apply dec_inj. eapply named_inj; [| |exact H]; (eapply numeral_lacks; [|apply dec_numeral]; reflexivity).
Qed.

Lemma hexN_lacks c n : digit c = None -> c <> "x"%char -> lacks c (hexN n).
Proof.
  intros D X. destruct (hexN_numeral n) as (s & -> & H). apply lacks_app.
  - split; [intros <-; discriminate|]. split; [congruence|exact I].
  - eapply numeral_lacks; [exact D|exact H].
Qed.

Lemma hexN_named_inj x y b b' : named (hexN x) b = named (hexN y) b' -> x = y.
Proof.
  intros H. apply hexN_inj. eapply named_inj; [| |exact H]; apply hexN_lacks; (reflexivity || discriminate).
Qed.

Lemma hex2_pair a b x y : append (hex2 a) x = append (hex2 b) y -> a = b /\ x = y.
Proof.
  rewrite !hex2_chars. cbn [append]. intros H. injection H as H1 H2 H3. split; [|exact H3].
  apply (b2n_inj a b). pose proof (hex2_digits a) as [A _]. pose proof (hex2_digits b) as [B _].
  rewrite hex2_chars in A, B. rewrite H1, H2 in A. congruence.
Qed.

Lemma concat_cons sep x l : l <> [] -> String.concat sep (x :: l) = append x (append sep (String.concat sep l)).
Proof. intros H. destruct l; [congruence|reflexivity]. Qed.

Lemma hexes_inj sep a : forall b, length a = length b ->
  String.concat sep (map hex2 a) = String.concat sep (map hex2 b) -> a = b.
Proof.
  induction a as [|x a IH]; intros [|y b] L H; try discriminate L; [reflexivity|]. injection L as L.
  destruct a as [|x' a]; destruct b as [|y' b]; try discriminate L.
  - cbn [map String.concat] in H. rewrite <- (sapp_nil_r (hex2 x)), <- (sapp_nil_r (hex2 y)) in H.
    apply hex2_pair in H. destruct H as [-> _]. reflexivity.
  - cbn [map] in H. rewrite !concat_cons in H by discriminate. apply hex2_pair in H. destruct H as [-> H].
    apply sapp_cancel in H. f_equal. apply IH; assumption.
Qed.

Lemma hexbytes_inj a b : length a = length b -> hexbytes a = hexbytes b -> a = b.
Proof.
  intros L H. destruct a as [|x a]; destruct b as [|y b]; try discriminate L; [reflexivity|].
  unfold hexbytes, cat in H. apply sapp_cancel in H. exact (hexes_inj "" (x :: a) (y :: b) L H).
Qed.

Lemma mac_inj a b : length a = length b -> mac_string a = mac_string b -> a = b.
Proof. apply hexes_inj. Qed.

Lemma peer_inj a b : length a = 8 -> length b = 8 -> peer_text a = peer_text b -> a = b.
Proof.
  intros La Lb H. unfold peer_text in H. apply cancel_at in H; try (eapply numeral_lacks; [|apply dec_numeral]; reflexivity).
  destruct H as [H1 H2]. apply dec_inj in H1. apply mac_inj in H2; [|rewrite !skipn_length; lia].
  apply BE_inj in H1; [|rewrite !firstn_length; lia].
  rewrite <- (firstn_skipn 2 a), <- (firstn_skipn 2 b), H1, H2. reflexivity.
Qed.

Lemma is_eye e : is_eyecatcher e = true -> e = [xe2; xd4; xc3; xd9] \/ e = [xe2; xd4; xc3; xc4].
Proof. unfold is_eyecatcher. repeat destruct list_eq_dec; auto. discriminate. Qed.

Lemma eye_inj a b : is_eyecatcher a = true -> is_eyecatcher b = true -> eyecatcher_text a = eyecatcher_text b -> a = b.
Proof.
  intros Ha Hb H. apply is_eye in Ha. apply is_eye in Hb.
  destruct Ha as [-> | ->]; destruct Hb as [-> | ->]; try reflexivity; discriminate H.
Qed.

Lemma to_bytes_length n x : length (to_bytes n x) = n.
Proof. induction n; cbn; congruence. Qed.

Lemma to_bytes_BE' n x : (x < 256 ^ N.of_nat n)%N -> BE (to_bytes n x) = x.
Proof.
  assert (G : forall x, BE (to_bytes n x) = (x mod 256 ^ N.of_nat n)%N).
  { clear x. induction n as [|n IH]; intros x; [cbn; rewrite N.mod_1_r; reflexivity|].
    cbn [to_bytes BE]. rewrite to_bytes_length, IH, b2n_n2b, Nnat.Nat2N.inj_succ, N.pow_succ_r', (N.mul_comm 256).
    rewrite N.mod_mul_r by (try discriminate; apply N.pow_nonzero; discriminate). lia. }
  intros H. rewrite G. apply N.mod_small, H.
Qed.

Lemma to_bytes_inj n x y : (x < 256 ^ N.of_nat n)%N -> (y < 256 ^ N.of_nat n)%N ->
  to_bytes n x = to_bytes n y -> x = y.
Proof. intros Hx Hy H. rewrite <- (to_bytes_BE' n x Hx), <- (to_bytes_BE' n y Hy), H. reflexivity. Qed.

Lemma op_ok : forallb clean_b opcode_texts = true /\ length opcode_texts = 256.
Proof. vm_compute. split; reflexivity. Qed.

Fixpoint nodup_b (l : list string) : bool :=
  match l with [] => true | x :: r => negb (existsb (String.eqb x) r) && nodup_b r end.

Lemma nodup_b_ok l : nodup_b l = true -> NoDup l.
Proof.
  induction l as [|x l IH]; intros H; constructor; cbn in H; apply andb_true_iff in H; destruct H as [H H'].
  - intros I. apply negb_true_iff in H.
    assert (existsb (String.eqb x) l = true) by (apply existsb_exists; exists x; split; [exact I|apply String.eqb_refl]).
    congruence.
  - apply IH, H'.
Qed.

Lemma op_nodup : NoDup opcode_texts.
Proof. apply nodup_b_ok. vm_compute. reflexivity. Qed.

Lemma op_inj n m : (n < 256)%N -> (m < 256)%N ->
  nth (N.to_nat n) opcode_texts ""%string = nth (N.to_nat m) opcode_texts ""%string -> n = m.
Proof.
  intros Hn Hm H. apply Nnat.N2Nat.inj. refine (proj1 (NoDup_nth opcode_texts ""%string) op_nodup _ _ _ _ H);
    rewrite (proj2 op_ok); lia.
Qed.

Lemma op_clean n : clean (nth (N.to_nat n) opcode_texts ""%string).
Proof.
  apply clean_b_ok. destruct (nth_in_or_default (N.to_nat n) opcode_texts ""%string) as [H|H].
  - exact (proj1 (forallb_forall _ _) (proj1 op_ok) _ H).
  - rewrite H. reflexivity.
Qed.

Lemma path_clean n : clean (path_text n).
Proof. apply name_clean. reflexivity. Qed.

Lemma path_inj n m : (n < 4)%N -> (m < 4)%N -> path_text n = path_text m -> n = m.
Proof.
  intros Hn Hm H.
  assert (Cn : (n = 0 \/ n = 1 \/ n = 2 \/ n = 3)%N) by lia. assert (Cm : (m = 0 \/ m = 1 \/ m = 2 \/ m = 3)%N) by lia.
  destruct Cn as [-> | [-> | [-> | ->]]]; destruct Cm as [-> | [-> | [-> | ->]]]; try reflexivity; discriminate H.
Qed.

(** ** Values *)

(** the values a field of kind [k] shown with style [s] can have *)
Definition ndom (s : style) (w : nat) : Prop :=
  match s with
  | Dec | Hex | Bin | Kind | Size | Mtu | Diagnosis | OS | AddReason | DelReason => True
  | YesNo => w = 1
  | Path => w = 2
  | Op => w = 8
  | _ => False
  end.

Definition bdom (s : style) (bs : list byte) : Prop :=
  match s with
  | Hex | Mac => True
  | Ip => length bs = 4 \/ length bs = 16
  | Peer => length bs = 8
  | Eye => is_eyecatcher bs = true
  | _ => False
  end.

Definition dom (s : style) (k : kind) (v : val) : Prop :=
  match k, v with
  | U w, VN n => (n < 2 ^ N.of_nat w)%N /\ ndom s w
  | A w, VB bs =>
    match s with
    | Text => readable bs = bs /\ clean (bytes_string bs)
    | _ => length bs = w /\ bdom s bs
    end
  | _, _ => False
  end.

Lemma bytes_string_inj a : forall b, bytes_string a = bytes_string b -> a = b.
Proof.
  induction a as [|x a IH]; intros [|y b] H; try discriminate H; [reflexivity|].
  injection H as H1 H2. f_equal; [|apply IH, H2].
  pose proof (f_equal byte_of_ascii H1) as Z. rewrite !byte_of_ascii_of_byte in Z. exact Z.
Qed.

Lemma show_clean pn s k v : dom s k v -> clean (show pn s v).
Proof.
  destruct k as [w|w]; destruct v as [n|bs]; cbn [show dom]; intros H; try contradiction.
  - destruct H as [H D]. destruct s; cbn in D; try contradiction; cbn [show_number];
      try apply dec_clean; try apply hexN_clean; try apply binN_clean; try apply op_clean; try apply path_clean.
    + destruct (n =? 0)%N; apply clean_b_ok; reflexivity.
    + apply named_clean; [apply dec_clean|apply name_clean; reflexivity].
    + apply named_clean; apply dec_clean.
    + apply named_clean; [apply dec_clean|apply name_clean; reflexivity].
    + apply named_clean; [apply hexN_clean|apply name_clean; reflexivity].
    + apply named_clean; [apply dec_clean|apply name_clean; reflexivity].
    + apply named_clean; [apply dec_clean|apply name_clean; reflexivity].
    + apply named_clean; [apply dec_clean|apply name_clean; reflexivity].
  - destruct s; destruct H as [H D]; cbn in D; try contradiction; cbn [show_bytes].
    + apply hexbytes_clean.
    + apply mac_clean.
    + apply ip_clean, D.
    + apply peer_clean.
    + apply eye_clean.
    + unfold padded_text. fold (readable bs). rewrite H. exact D.
Qed.

Lemma show_inj pn s k v v' : dom s k v -> dom s k v' -> show pn s v = show pn s v' -> v = v'.
Proof.
  destruct k as [w|w]; destruct v as [n|bs]; destruct v' as [n'|bs']; cbn [show dom]; intros H H' E; try contradiction.
  - destruct H as [H D]; destruct H' as [H' D']. f_equal. destruct s; cbn in D; try contradiction; cbn [show_number] in E;
      try (apply dec_inj, E); try (apply hexN_inj, E); try (apply binN_inj, E);
      try (eapply dec_named_inj, E); try (eapply hexN_named_inj, E); subst w.
    + destruct (N.eqb_spec n 0); destruct (N.eqb_spec n' 0); try discriminate E; cbn in H, H'; lia.
    + apply path_inj; assumption.
    + apply op_inj; assumption.
  - f_equal. destruct s; destruct H as [H D]; destruct H' as [H' D']; cbn in D, D'; try contradiction; cbn [show_bytes] in E.
    + apply hexbytes_inj; [congruence|exact E].
    + apply mac_inj; [congruence|exact E].
    + apply ip_string_inj; [lia|lia|exact E].
    + apply peer_inj; assumption.
    + apply eye_inj; assumption.
    + unfold padded_text in E. fold (readable bs) (readable bs') in E. rewrite H, H' in E. apply bytes_string_inj, E.
Qed.

(** ** Items *)

(** items, each behind a comma, and what follows *)
Fixpoint joined (l : list string) (e : string) : string :=
  match l with [] => e | x :: r => append ", " (append x (joined r e)) end.

Lemma commas_joined l e : l <> [] -> append ", " (append (commas l) e) = joined l e.
Proof.
  unfold commas. induction l as [|x l IH]; intros H; [congruence|]. destruct l as [|y l]; [reflexivity|].
  rewrite concat_cons by discriminate. cbn [joined]. f_equal. rewrite !sapp_assoc. f_equal. apply IH. discriminate.
Qed.

Lemma joined_app a b e : joined (a ++ b)%list e = joined a (joined b e).
Proof. induction a as [|x a IH]; [reflexivity|]. cbn [List.app joined]. rewrite IH. reflexivity. Qed.

Lemma joined_stops l e : stops e -> stops (joined l e).
Proof. intros H. destruct l; [exact H|left; reflexivity]. Qed.

Lemma item_step label pn s k v v' e e' : dom s k v -> dom s k v' -> stops e -> stops e' ->
  append ", " (append (append label (show pn s v)) e) = append ", " (append (append label (show pn s v')) e') ->
  v = v' /\ e = e'.
Proof.
  intros D D' S S' H. rewrite !sapp_assoc in H. apply sapp_cancel, sapp_cancel in H.
  apply cancel in H; try assumption; try (eapply show_clean; eassumption).
  destruct H as [H He]. split; [exact (show_inj _ _ _ _ _ D D' H)|exact He].
Qed.

Fixpoint gdom (fs : list (string * style)) (ks : list kind) (vs : list (string * val)) : Prop :=
  match fs, ks, vs with
  | [], _, _ => True
  | (_, s) :: fs', k :: ks', (_, v) :: vs' => dom s k v /\ gdom fs' ks' vs'
  | _, _, _ => False
  end.

Fixpoint rdom (t : list row) (ks : list kind) (vs : list (string * val)) : Prop :=
  match t, ks, vs with
  | [], [], [] => True
  | F _ s :: t', k :: ks', (_, v) :: vs' => dom s k v /\ rdom t' ks' vs'
  | R :: t', k :: ks', (_, v) :: vs' => dom Hex k v /\ rdom t' ks' vs'
  | Rb n :: t', _ :: ks', (_, VN x) :: vs' => (x < 256 ^ N.of_nat n)%N /\ rdom t' ks' vs'
  | Pre _ :: t', k :: k' :: ks', (_, a) :: (_, l) :: vs' => (dom Ip k a /\ dom Dec k' l) /\ rdom t' ks' vs'
  | G _ fs :: t', _, _ =>
    gdom fs ks vs /\ rdom t' (skipn (length fs) ks) (skipn (length fs) vs)
  | _, _, _ => False
  end.

(** the values shown in a text *)
Fixpoint shown (res : bool) (t : list row) (vs : list (string * val)) : list val :=
  match t, vs with
  | F _ _ :: t', (_, v) :: vs' => v :: shown res t' vs'
  | (R | Rb _) :: t', (_, v) :: vs' => if res then v :: shown res t' vs' else shown res t' vs'
  | Pre _ :: t', (_, a) :: (_, l) :: vs' => a :: l :: shown res t' vs'
  | G _ fs :: t', vs => (firstn (length fs) (map snd vs) ++ shown res t' (skipn (length fs) vs))%list
  | _, _ => []
  end.

Lemma shown_all t : forall ks vs, rdom t ks vs -> shown true t vs = map snd vs.
Proof.
  induction t as [|r t IH]; intros ks vs H.
  - destruct ks; destruct vs as [|[? ?] vs]; try contradiction. reflexivity.
  - destruct r; cbn [rdom shown] in *.
    1, 2: destruct ks; destruct vs as [|[? v] vs]; try contradiction; cbn; f_equal; eapply IH, H.
    + destruct ks; destruct vs as [|[? [v|v]] vs]; try contradiction. cbn. f_equal. eapply IH, H.
    + destruct ks as [|? [|? ?]]; destruct vs as [|[? v] [|[? v'] vs]]; try contradiction; cbn; do 2 f_equal; eapply IH, H.
    + destruct H as [_ H]. rewrite (IH _ _ H), <- skipn_map. apply firstn_skipn.
Qed.

Lemma group_inj pn fs : forall ks vs vs' e e', gdom fs ks vs -> gdom fs ks vs' -> stops e -> stops e' ->
  joined (group_items pn fs vs) e = joined (group_items pn fs vs') e' ->
  firstn (length fs) (map snd vs) = firstn (length fs) (map snd vs') /\ e = e'.
Proof.
  induction fs as [|[label s] fs IH]; intros ks vs vs' e e' D D' S S' H.
  - cbn in *. split; [reflexivity|exact H].
  - cbn [gdom] in *. destruct ks as [|k ks]; [contradiction|]. destruct vs as [|[? v] vs]; [contradiction|].
    destruct vs' as [|[? v'] vs']; [contradiction|]. cbn [group_items joined] in H.
    apply (item_step label pn s k) in H; try tauto; try (apply joined_stops; assumption).
    destruct H as [-> H]. apply (IH ks) in H; try tauto. destruct H as [H ->].
    split; [|reflexivity]. cbn [length map snd firstn]. rewrite H. reflexivity.
Qed.

Lemma gdom_items pn fs ks vs : fs <> [] -> gdom fs ks vs -> group_items pn fs vs <> [].
Proof.
  destruct fs as [|[? ?] fs]; [congruence|]. destruct ks; [contradiction|]. destruct vs as [|[? ?] vs]; [contradiction|]. discriminate.
Qed.

Theorem items_inj pn res t : forall ks vs vs' e e', rdom t ks vs -> rdom t ks vs' -> stops e -> stops e' ->
  joined (items pn res t vs) e = joined (items pn res t vs') e' ->
  shown res t vs = shown res t vs' /\ e = e'.
Proof.
  induction t as [|r t IH]; intros ks vs vs' e e' D D' S S' H.
  - cbn in *. split; [reflexivity|exact H].
  - destruct r as [label s| |n|label|label fs]; cbn [rdom] in *.
    + destruct ks as [|k ks]; [contradiction|]. destruct vs as [|[? v] vs]; [contradiction|].
      destruct vs' as [|[? v'] vs']; [contradiction|]. cbn [items joined] in H.
      apply (item_step label pn s k) in H; try tauto; try (apply joined_stops; assumption).
      destruct H as [-> H]. apply (IH ks) in H; try tauto. destruct H as [H ->].
      split; [|reflexivity]. cbn [shown]. rewrite H. reflexivity.
    + destruct ks as [|k ks]; [contradiction|]. destruct vs as [|[? v] vs]; [contradiction|].
      destruct vs' as [|[? v'] vs']; [contradiction|]. cbn [items shown] in *. destruct res; cbn [List.app joined] in H.
      * apply (item_step "Reserved: " pn Hex k) in H; try tauto; try (apply joined_stops; assumption).
        destruct H as [-> H]. apply (IH ks) in H; try tauto. destruct H as [H ->].
        split; [|reflexivity]. rewrite H. reflexivity.
      * apply (IH ks) in H; tauto.
    + destruct ks as [|k ks]; [contradiction|]. destruct vs as [|[? [x|?]] vs]; try contradiction.
      destruct vs' as [|[? [x'|?]] vs']; try contradiction. cbn [items shown] in *. destruct res; cbn [List.app joined] in H.
      * rewrite !sapp_assoc in H. apply sapp_cancel, sapp_cancel in H.
        apply cancel in H; try apply hexbytes_clean; try (apply joined_stops; assumption). destruct H as [Hx H].
        apply hexbytes_inj in Hx; [|rewrite !to_bytes_length; reflexivity]. apply to_bytes_inj in Hx; try tauto. subst x'.
        apply (IH ks) in H; try tauto. destruct H as [H ->]. split; [|reflexivity]. rewrite H. reflexivity.
      * apply (IH ks) in H; tauto.
    + destruct ks as [|k [|k' ks]]; try contradiction; destruct vs as [|[? a] [|[? l] vs]]; try contradiction;
        destruct vs' as [|[? a'] [|[? l'] vs']]; try contradiction. cbn [items joined shown] in *.
      rewrite !sapp_assoc in H. apply sapp_cancel, sapp_cancel in H.
      destruct D as [[Da Dl] D]. destruct D' as [[Da' Dl'] D'].
      change (append "/" (append (show pn Dec l) ?e)) with (String "/"%char (append (show pn Dec l) e)) in H.
      assert (P : forall v, dom Ip k v -> lacks "/" (show pn Ip v)).
      { intros v Dv. destruct k; destruct v as [?|bs]; try contradiction; cbn in Dv; [tauto|].
        cbn. eapply ip_text_lacks; [| | |exact (ip_string_text bs (proj2 Dv))]; [reflexivity|discriminate..]. }
      apply cancel_at in H; [|apply P; assumption|apply P; assumption]. destruct H as [Ha H].
      apply cancel in H; try (apply joined_stops; assumption); try (eapply show_clean; eassumption).
      destruct H as [Hl H]. apply (show_inj _ _ k) in Ha; try assumption. apply (show_inj _ _ k') in Hl; try assumption.
      subst a' l'. apply (IH ks) in H; try assumption. destruct H as [H ->]. split; [|reflexivity]. rewrite H. reflexivity.
    + destruct D as [D Dt]. destruct D' as [D' Dt']. cbn [items joined shown] in *.
      rewrite !sapp_assoc in H. do 3 apply sapp_cancel in H.
      destruct fs as [|f0 fs0] eqn:Hf0.
      { cbn in H. injection H as H. cbn [length skipn firstn List.app] in *. apply (IH ks) in H; assumption. }
      rewrite <- Hf0 in *. assert (Hf : fs <> []) by (rewrite Hf0; discriminate). clear Hf0.
      apply (f_equal (append ", ")) in H. change (String.concat ", ") with commas in H.
      rewrite !commas_joined in H by (eapply gdom_items; eassumption).
      apply (group_inj pn fs ks) in H; try assumption; try (right; left; reflexivity).
      destruct H as [Hg H]. apply sapp_cancel in H. apply (IH (skipn (length fs) ks)) in H; try assumption.
      destruct H as [H ->]. split; [|reflexivity]. rewrite Hg, H. reflexivity.
Qed.

(** ** Decoded fields *)

Definition fit (s : style) (k : kind) : bool :=
  match k, s with
  | U _, (Dec | Hex | Bin | Kind | Size | Mtu | Diagnosis | OS | AddReason | DelReason) => true
  | U w, YesNo => w =? 1
  | U w, Path => w =? 2
  | U w, Op => w =? 8
  | A _, (Hex | Mac) => true
  | A n, Ip => (n =? 4) || (n =? 16)
  | A n, Peer => n =? 8
  | _, _ => false
  end.

Fixpoint gfits (fs : list (string * style)) (l : layout) : bool :=
  match fs, l with
  | [], _ => true
  | (_, s) :: fs', (_, k) :: l' => fit s k && gfits fs' l'
  | _, _ => false
  end.

Fixpoint fits (t : list row) (l : layout) : bool :=
  match t, l with
  | [], [] => true
  | F _ s :: t', (_, k) :: l' => fit s k && fits t' l'
  | R :: t', _ :: l' => fits t' l'
  | Rb n :: t', (_, U w) :: l' => (w <=? 8 * n) && fits t' l'
  | Pre _ :: t', (_, k) :: (_, U _) :: l' => fit Ip k && fits t' l'
  | G _ fs :: t', l => negb (length fs =? 0) && gfits fs l && fits t' (skipn (length fs) l)
  | _, _ => false
  end.

Definition field_at (k : kind) (off : nat) (bs : list byte) : val :=
  match k with U w => VN (bits bs off w) | A n => VB (bytes_at bs (off / 8) n) end.

Lemma decode_at_cons name k l off bs :
  decode_at ((name, k) :: l) off bs = (name, field_at k off bs) :: decode_at l (off + kind_bits k) bs.
Proof. destruct k; reflexivity. Qed.

Lemma bytes_at_length bs off n : off + n <= length bs -> length (bytes_at bs off n) = n.
Proof. intros H. unfold bytes_at. rewrite firstn_length, skipn_length. lia. Qed.

Lemma fit_dom s k off bs : fit s k = true -> off + kind_bits k <= 8 * length bs -> dom s k (field_at k off bs).
Proof.
  intros H L. destruct k as [w|n]; cbn [field_at dom kind_bits] in *.
  - split; [apply bits_lt|]. destruct s; cbn in *; try exact I; try discriminate; apply Nat.eqb_eq, H.
  - assert (E : length (bytes_at bs (off / 8) n) = n).
    { apply bytes_at_length. pose proof (Nat.div_mod off 8 ltac:(discriminate)). lia. }
    destruct s; try discriminate H; (split; [exact E|]); cbn in *; try exact I; rewrite E; lia.
Qed.

Lemma hex_fit k : fit Hex k = true.
Proof. destruct k; reflexivity. Qed.

Lemma skipn_decode_at n : forall l off bs,
  skipn n (decode_at l off bs) = decode_at (skipn n l) (off + layout_bits (firstn n l)) bs.
Proof.
  induction n as [|n IH]; intros [|[name k] l] off bs; try reflexivity.
  - cbn [skipn firstn layout_bits]. rewrite Nat.add_0_r. reflexivity.
  - rewrite decode_at_cons. cbn [skipn firstn layout_bits]. rewrite IH. f_equal. lia.
Qed.

Lemma layout_bits_app a b : layout_bits (a ++ b) = layout_bits a + layout_bits b.
Proof. induction a as [|[n k] a IH]; [reflexivity|]. cbn [List.app layout_bits]. lia. Qed.

Lemma decode_at_app a : forall b off bs,
  decode_at (a ++ b) off bs = (decode_at a off bs ++ decode_at b (off + layout_bits a) bs)%list.
Proof.
  induction a as [|[n k] a IH]; intros b off bs.
  - cbn. rewrite Nat.add_0_r. reflexivity.
  - cbn [List.app]. rewrite !decode_at_cons, IH. cbn [List.app layout_bits]. do 3 f_equal. lia.
Qed.

Lemma gfits_gdom fs : forall l off bs, gfits fs l = true -> off + layout_bits l <= 8 * length bs ->
  gdom fs (map snd l) (decode_at l off bs).
Proof.
  induction fs as [|[? s] fs IH]; intros l off bs H L; [exact I|].
  destruct l as [|[name k] l]; [discriminate|]. rewrite decode_at_cons. cbn [gfits map snd gdom layout_bits] in *.
  apply andb_true_iff in H. destruct H as [Hf H]. split; [apply fit_dom; [exact Hf|lia]|apply IH; [exact H|lia]].
Qed.

Theorem fits_rdom t : forall l off bs, fits t l = true -> off + layout_bits l <= 8 * length bs ->
  rdom t (map snd l) (decode_at l off bs).
Proof.
  induction t as [|r t IH]; intros l off bs H L.
  - destruct l; [exact I|discriminate].
  - destruct r as [label s| |n|label|label fs]; cbn [fits rdom] in *.
    + destruct l as [|[name k] l]; [discriminate|]. rewrite decode_at_cons. cbn [map snd layout_bits] in *.
      apply andb_true_iff in H. destruct H as [Hf H]. split; [apply fit_dom; [exact Hf|lia]|apply IH; [exact H|lia]].
    + destruct l as [|[name k] l]; [discriminate|]. rewrite decode_at_cons. cbn [map snd layout_bits] in *.
      split; [apply fit_dom; [apply hex_fit|lia]|apply IH; [exact H|lia]].
    + destruct l as [|[name [w|w]] l]; try discriminate. rewrite decode_at_cons. cbn [map snd layout_bits field_at kind_bits] in *.
      apply andb_true_iff in H. destruct H as [Hf H]. apply Nat.leb_le in Hf. split; [|apply IH; [exact H|lia]].
      eapply N.lt_le_trans; [apply bits_lt|]. change 256%N with (2 ^ 8)%N. rewrite <- N.pow_mul_r.
      apply N.pow_le_mono_r; [discriminate|lia].
    + destruct l as [|[name k] [|[name' [w|w]] l]]; try discriminate. rewrite !decode_at_cons. cbn [map snd layout_bits] in *.
      apply andb_true_iff in H. destruct H as [Hf H].
      split; [split; apply fit_dom; [exact Hf|lia|reflexivity|lia]|apply IH; [exact H|lia]].
    + rewrite !andb_true_iff in H. destruct H as [[Hn Hg] H]. split.
      * apply gfits_gdom; assumption.
      * rewrite skipn_decode_at, skipn_map. apply IH; [exact H|].
        pose proof (layout_bits_app (firstn (length fs) l) (skipn (length fs) l)) as E. rewrite firstn_skipn in E. lia.
Qed.

Lemma decode_names l : forall off bs, map fst (decode_at l off bs) = map fst l.
Proof. induction l as [|[n k] l IH]; intros; [reflexivity|]. rewrite decode_at_cons. cbn [map fst]. rewrite IH. reflexivity. Qed.

Lemma pairs_eq {X Y} (a : list (X * Y)) : forall b, map fst a = map fst b -> map snd a = map snd b -> a = b.
Proof.
  induction a as [|[x y] a IH]; intros [|[x' y'] b] H H'; try discriminate; [reflexivity|].
  cbn in *. injection H as -> H. injection H' as -> H'. f_equal. apply IH; assumption.
Qed.

Theorem all_shown t l off bs bs' : fits t l = true ->
  off + layout_bits l <= 8 * length bs -> off + layout_bits l <= 8 * length bs' ->
  shown true t (decode_at l off bs) = shown true t (decode_at l off bs') -> decode_at l off bs = decode_at l off bs'.
Proof.
  intros Hf L L' H. rewrite !(shown_all t (map snd l)) in H by (apply fits_rdom; assumption).
  apply pairs_eq; [rewrite !decode_names; reflexivity|exact H].
Qed.
