(** * TextLossless: the messages a text can stand for. Proofs only. *)

From Coq Require Import NArith ZArith Bool String Ascii Arith List Lia.
From Coq Require Import ZifyBool ZifyNat ZifyN.
From Verif Require Import GoBase GoFmt ClcModel LlcModel RoceModel Slices Wire WireLemmas ClcView LlcView
  Names Opcodes Show TextLemmas Canon CanonNum CanonIp CanonDump TextInj Lossless.
From Verif Require ClcRefute TextWhole TextRest LlcMessage Samples.
Import ListNotations.
Local Open Scope nat_scope.

(** ** Named fields *)

Definition plain (n : string) : bool := negb (String.eqb n "Reserved").

Fixpoint nfits (t : list row) (l : layout) : bool :=
  match t, l with
  | [], [] => true
  | F _ _ :: t', (n, _) :: l' => plain n && nfits t' l'
  | R :: t', (n, _) :: l' => negb (plain n) && nfits t' l'
  | Rb _ :: t', (n, U _) :: l' => negb (plain n) && nfits t' l'
  | Pre _ :: t', (n, _) :: (n', _) :: l' => plain n && plain n' && nfits t' l'
  | G _ fs :: t', l =>
    forallb (fun nk => plain (fst nk)) (firstn (length fs) l) && nfits t' (skipn (length fs) l)
  | _, _ => false
  end.

Lemma named_app a b : named_fields (a ++ b) = (named_fields a ++ named_fields b)%list.
Proof. apply filter_app. Qed.

Lemma plain_all (vs : list (string * val)) : forallb (fun nk => plain (fst nk)) vs = true -> named_fields vs = vs.
Proof.
  induction vs as [|[n v] vs IH]; intros H; [reflexivity|]. cbn [forallb fst] in H. apply andb_true_iff in H. destruct H as [P H].
  unfold named_fields in *. cbn [filter fst]. unfold plain in P. rewrite P. f_equal. apply IH, H.
Qed.

Lemma forallb_fst {Y} (f : string -> bool) (l : list (string * Y)) :
  forallb (fun nk => f (fst nk)) l = forallb f (map fst l).
Proof. induction l as [|x l IH]; [reflexivity|]. cbn. rewrite IH. reflexivity. Qed.

Lemma shown_named t : forall l off bs, nfits t l = true ->
  shown false t (decode_at l off bs) = map snd (named_fields (decode_at l off bs)).
Proof.
  induction t as [|r t IH]; intros l off bs H.
  - destruct l; [reflexivity|discriminate].
  - destruct r as [label s| |n|label|label fs]; cbn [nfits] in H.
    + destruct l as [|[n k] l]; [discriminate|]. rewrite decode_at_cons. apply andb_true_iff in H. destruct H as [P H].
      unfold named_fields. cbn [shown filter fst]. unfold plain in P. rewrite P. cbn [map snd]. f_equal. apply IH, H.
    + destruct l as [|[n k] l]; [discriminate|]. rewrite decode_at_cons. apply andb_true_iff in H. destruct H as [P H].
      unfold named_fields. cbn [shown filter fst]. unfold plain in P. rewrite negb_involutive in P. rewrite P. cbn [negb]. apply IH, H.
    + destruct l as [|[n' [k|k]] l]; try discriminate. rewrite decode_at_cons. apply andb_true_iff in H. destruct H as [P H].
      unfold named_fields. cbn [shown filter fst]. unfold plain in P. rewrite negb_involutive in P. rewrite P. cbn [negb]. apply IH, H.
    + destruct l as [|[n k] [|[n' k'] l]]; try discriminate. rewrite !decode_at_cons. rewrite !andb_true_iff in H.
      destruct H as [[P P'] H]. unfold named_fields. cbn [shown filter fst]. unfold plain in P, P'. rewrite P, P'.
      cbn [map snd]. do 2 f_equal. apply IH, H.
    + apply andb_true_iff in H. destruct H as [P H]. cbn [shown].
      rewrite <- (firstn_skipn (length fs) (decode_at l off bs)) at 3. rewrite named_app, map_app, skipn_decode_at.
      rewrite IH by exact H. f_equal. rewrite firstn_map. f_equal. symmetry. apply plain_all.
      rewrite forallb_fst, <- firstn_map, decode_names, firstn_map, <- forallb_fst. exact P.
Qed.

Lemma filter_fst {Y} (f : string -> bool) (a : list (string * Y)) :
  map fst (filter (fun x => f (fst x)) a) = filter f (map fst a).
Proof. induction a as [|[x y] a IH]; [reflexivity|]. cbn. destruct (f x); cbn; rewrite IH; reflexivity. Qed.

Lemma named_names l off bs off' bs' :
  map fst (named_fields (decode_at l off bs)) = map fst (named_fields (decode_at l off' bs')).
Proof.
  unfold named_fields. rewrite !(filter_fst (fun n => negb (String.eqb n "Reserved"))), !decode_names. reflexivity.
Qed.

Theorem named_shown t l off bs bs' : nfits t l = true ->
  shown false t (decode_at l off bs) = shown false t (decode_at l off bs') ->
  named_fields (decode_at l off bs) = named_fields (decode_at l off bs').
Proof.
  intros Hf H. rewrite !shown_named in H by exact Hf. apply pairs_eq; [apply named_names|exact H].
Qed.

(** ** Lines *)

Lemma line_joined title l l' : l <> [] -> l' <> [] -> line title l = line title l' -> joined l nl = joined l' nl.
Proof.
  unfold line. intros L L' H. apply sapp_cancel in H. apply (f_equal (append ", ")) in H.
  rewrite !commas_joined in H by assumption. exact H.
Qed.

Lemma items_nonnil pn res label s t n k l off bs :
  items pn res (F label s :: t) (decode_at ((n, k) :: l) off bs) <> [].
Proof. rewrite decode_at_cons. discriminate. Qed.

Theorem line_inj res pn title label s t n k l bs bs' :
  let rows := F label s :: t in let lay := (n, k) :: l in
  fits rows lay = true -> layout_bits lay <= 8 * length bs -> layout_bits lay <= 8 * length bs' ->
  line title (items pn res rows (decode lay bs)) = line title (items pn res rows (decode lay bs')) ->
  shown res rows (decode lay bs) = shown res rows (decode lay bs').
Proof.
  cbv zeta. intros Hf L L' H. apply line_joined in H; try apply items_nonnil.
  eapply items_inj in H; [exact (proj1 H)|apply fits_rdom; [exact Hf|exact L]|apply fits_rdom; [exact Hf|exact L']| |];
    right; right; reflexivity.
Qed.

(** ** LLC and CDC *)

Lemma llc_titles k k' x x' : append (llc_title k) x = append (llc_title k') x' -> k = k'.
Proof. destruct k; destruct k'; intros H; try reflexivity; discriminate H. Qed.

Lemma llc_text_shown res k bs bs' : k <> KOther -> k <> KConfirmRKeyCont -> length bs = 44 -> length bs' = 44 ->
  llc_text res k (decode (llc_layout k) bs) = llc_text res k (decode (llc_layout k) bs') ->
  shown res (llc_rows k) (decode (llc_layout k) bs) = shown res (llc_rows k) (decode (llc_layout k) bs').
Proof.
  intros K K2 L L'. unfold llc_text.
  destruct k; try congruence; apply line_inj; try (vm_compute; reflexivity); rewrite ?L, ?L'; apply Nat.leb_le; vm_compute; reflexivity.
Qed.

Lemma llc_text_kind res k k' vs vs' : llc_text res k vs = llc_text res k' vs' -> k = k'.
Proof. unfold llc_text, line. apply llc_titles. Qed.

Lemma llc_layouts k : k <> KOther -> k <> KConfirmRKeyCont ->
  fits (llc_rows k) (llc_layout k) = true /\ nfits (llc_rows k) (llc_layout k) = true /\
  layout_bits (llc_layout k) = 8 * 44 /\ aligned_at (llc_layout k) 0 = true.
Proof. intros H H2. destruct k; try congruence; vm_compute; repeat split. Qed.

Theorem llc_lossless k k' bs bs' : k <> KOther -> k <> KConfirmRKeyCont -> length bs = 44 -> length bs' = 44 ->
  llc_text true k (decode (llc_layout k) bs) = llc_text true k' (decode (llc_layout k') bs') -> bs = bs'.
Proof.
  intros K K2 L L' H. pose proof (llc_text_kind _ _ _ _ _ H). subst k'.
  apply llc_text_shown in H; try assumption. destruct (llc_layouts k K K2) as (Hf & _ & Hb & Ha).
  apply all_shown in H; [|exact Hf|cbn [Nat.add]; lia|cbn [Nat.add]; lia].
  apply (decode_inj (llc_layout k)); [exact Ha|lia|lia|exact H].
Qed.

Theorem llc_named k k' bs bs' : k <> KOther -> k <> KConfirmRKeyCont -> length bs = 44 -> length bs' = 44 ->
  llc_text false k (decode (llc_layout k) bs) = llc_text false k' (decode (llc_layout k') bs') ->
  k = k' /\ named_fields (decode (llc_layout k) bs) = named_fields (decode (llc_layout k) bs').
Proof.
  intros K K2 L L' H. pose proof (llc_text_kind _ _ _ _ _ H). subst k'. split; [reflexivity|].
  apply llc_text_shown in H; try assumption. destruct (llc_layouts k K K2) as (Hf & Hn & Hb & Ha).
  apply (named_shown (llc_rows k)); assumption.
Qed.

Theorem bth_lossless bs bs' : length bs = 12 -> length bs' = 12 ->
  bth_text true (decode bth bs) = bth_text true (decode bth bs') -> bs = bs'.
Proof.
  intros L L' H. unfold bth_text in H. apply line_inj in H; [|vm_compute; reflexivity|rewrite L; apply Nat.leb_le; reflexivity|rewrite L'; apply Nat.leb_le; reflexivity].
  apply all_shown in H; [|vm_compute; reflexivity|rewrite L; apply Nat.leb_le; reflexivity|rewrite L'; apply Nat.leb_le; reflexivity].
  apply (decode_inj bth); [reflexivity|rewrite L; reflexivity|lia|exact H].
Qed.

(** ** CLC *)

Lemma type_lacks t : lacks ":" (type_text t).
Proof.
  apply lacks_b_ok. unfold type_text, type_names. cbn [name_of]. repeat destruct (_ =? _)%N; reflexivity.
Qed.

Lemma labels t v p : In (flag_label t v p) ["First Contact: "; "Out of Sync: "; "Flag: "]%string.
Proof.
  unfold flag_label. destruct (t =? 2)%N; [left; reflexivity|].
  destruct ((t =? 3) && (v =? 2) && (p =? 1))%N%bool; [left; reflexivity|].
  destruct (t =? 4)%N; [right; left; reflexivity|right; right; left; reflexivity].
Qed.

Definition header1_rows : list row := [F "Eyecatcher: " Eye; F "Type: " Kind; F "Length: " Dec; F "Version: " Dec].
Definition header1 : layout := firstn 4 clc_header.
Definition header3 : layout := skipn 5 clc_header.
Definition header3_rows : list row := [R; F "Path: " Show.Path].

Definition header_shown (res : bool) (bs : list byte) : list val :=
  shown res (header_rows 0 0 0) (decode clc_header bs).

Lemma header_split res label bs :
  clc_items res (F "Eyecatcher: " Eye :: F "Type: " Kind :: F "Length: " Dec :: F "Version: " Dec ::
    F label Dec :: header3_rows) (decode clc_header bs) =
  (items no_proto res header1_rows (decode_at header1 0 bs) ++
   [append label (dec (bits bs 60 1))] ++ items no_proto res header3_rows (decode_at header3 61 bs))%list.
Proof. destruct res; reflexivity. Qed.

Lemma header_shown_split res bs : header_shown res bs =
  (shown res header1_rows (decode_at header1 0 bs) ++ [VN (bits bs 60 1)] ++
   shown res header3_rows (decode_at header3 61 bs))%list.
Proof. destruct res; reflexivity. Qed.

Lemma header1_dom bs : 8 <= length bs -> is_eyecatcher (bytes_at bs 0 4) = true ->
  rdom header1_rows (map snd header1) (decode_at header1 0 bs).
Proof.
  intros L E. split; [split; [apply bytes_at_length; lia|exact E]|].
  apply (fits_rdom (tl header1_rows) (tl header1) 32 bs); [reflexivity|]. vm_compute layout_bits. lia.
Qed.

Lemma header3_dom bs : 8 <= length bs -> rdom header3_rows (map snd header3) (decode_at header3 61 bs).
Proof. intros L. apply fits_rdom; [reflexivity|]. vm_compute layout_bits. lia. Qed.

Lemma label_eq a b x y e e' : In a ["First Contact: "; "Out of Sync: "; "Flag: "]%string ->
  In b ["First Contact: "; "Out of Sync: "; "Flag: "]%string ->
  joined [append a x] e = joined [append b y] e' -> a = b.
Proof.
  intros [<-|[<-|[<-|[]]]] [<-|[<-|[<-|[]]]] H; try reflexivity; discriminate H.
Qed.

Lemma header_inj res bs bs' e e' : 8 <= length bs -> 8 <= length bs' ->
  is_eyecatcher (bytes_at bs 0 4) = true -> is_eyecatcher (bytes_at bs' 0 4) = true -> stops e -> stops e' ->
  joined (clc_items res (header_rows (msg_type bs) (msg_version bs) (msg_path bs)) (decode clc_header bs)) e =
  joined (clc_items res (header_rows (msg_type bs') (msg_version bs') (msg_path bs')) (decode clc_header bs')) e' ->
  header_shown res bs = header_shown res bs' /\ e = e'.
Proof.
  intros L L' E E' S S' H. unfold header_rows in H.
  change [F ?l Dec; R; F "Path: " Show.Path] with (F l Dec :: header3_rows) in H.
  rewrite !header_split, !joined_app in H.
  eapply (items_inj no_proto res header1_rows) in H; try (apply header1_dom; assumption);
    try (apply joined_stops; apply joined_stops; assumption).
  destruct H as [H1 H].
  pose proof (label_eq _ _ _ _ _ _ (labels _ _ _) (labels _ _ _) H) as X. rewrite <- X in H.
  apply (item_step _ no_proto Dec (U 1) (VN _) (VN _)) in H;
    try (split; [apply bits_lt|exact I]); try (apply joined_stops; assumption).
  destruct H as [H2 H].
  eapply (items_inj no_proto res header3_rows) in H; try (apply header3_dom; assumption); try assumption.
  destruct H as [H3 ->]. split; [|reflexivity]. rewrite !header_shown_split, H1, H2, H3. reflexivity.
Qed.

(** what the header determines *)
Lemma header_facts res bs bs' : header_shown res bs = header_shown res bs' ->
  msg_type bs = msg_type bs' /\ msg_version bs = msg_version bs' /\ msg_path bs = msg_path bs' /\
  declared bs = declared bs'.
Proof. destruct res; intros H; injection H; intros; repeat split; assumption. Qed.

Lemma header_all bs bs' : header_shown true bs = header_shown true bs' -> decode clc_header bs = decode clc_header bs'.
Proof. intros H. exact (pairs_eq (decode clc_header bs) (decode clc_header bs') eq_refl H). Qed.

Lemma header_named bs bs' : header_shown false bs = header_shown false bs' ->
  named_fields (decode clc_header bs) = named_fields (decode clc_header bs').
Proof. intros H. apply (named_shown (header_rows 0 0 0)); [reflexivity|exact H]. Qed.

Lemma trailer_step t t' : is_eyecatcher t = true -> is_eyecatcher t' = true ->
  joined [trailer_item t] "" = joined [trailer_item t'] "" -> t = t'.
Proof.
  intros E E' H. cbn [joined] in H. rewrite !sapp_nil_r in H. unfold trailer_item in H.
  apply sapp_cancel, sapp_cancel in H. apply eye_inj; assumption.
Qed.

(** the text: header, body, trailer *)
Lemma text_parts res bs bs' body body' :
  8 <= length bs -> 8 <= length bs' -> eyecatchers bs -> eyecatchers bs' ->
  (msg_type bs = 1%N -> msg_version bs <> 2%N) -> (msg_type bs' = 1%N -> msg_version bs' <> 2%N) ->
  bytes_text res bs body = bytes_text res bs' body' ->
  header_shown res bs = header_shown res bs' /\
  joined body (joined [trailer_item (last4 bs)] "") = joined body' (joined [trailer_item (last4 bs')] "").
Proof.
  intros L L' [E _] [E' _] N N' H. unfold bytes_text in H.
  change (append ": " ?x) with (String ":"%char (append " " x)) in H.
  apply cancel_at in H; try apply type_lacks. destruct H as [_ H]. apply sapp_cancel in H.
  apply (f_equal (fun s => append ", " (append s ""))) in H.
  assert (X : forall b, (msg_type b = 1%N -> msg_version b <> 2%N) ->
    bytes_header_items res b = clc_items res (header_rows (msg_type b) (msg_version b) (msg_path b)) (decode clc_header b)).
  { intros b Nb. unfold bytes_header_items. destruct (N.eqb_spec (msg_type b) 1) as [e1|]; [|reflexivity].
    destruct (N.eqb_spec (msg_version b) 2) as [e2|]; [|reflexivity]. exfalso. apply (Nb e1 e2). }
  rewrite !X in H by assumption. clear X.
  rewrite !commas_joined in H by discriminate. rewrite !joined_app in H.
  apply header_inj in H; try assumption; try (apply joined_stops; left; reflexivity).
Qed.

(** *** Fixed formats *)

Definition plain_kind (k : clc_kind) : bool :=
  match k with
  | KAcceptSMCR | KConfirmSMCR | KAcceptSMCD | KConfirmSMCD | KDecline | KDeclineV2 => true | _ => false
  end.

Lemma plain_layouts k : plain_kind k = true ->
  fits (fixed_rows k) (fixed_layout k) = true /\ nfits (fixed_rows k) (fixed_layout k) = true /\
  64 + layout_bits (fixed_layout k) + 32 = 8 * N.to_nat (min_length k) /\
  aligned_at (clc_header ++ fixed_layout k ++ [("Trailer"%string, A 4)]) 0 = true.
Proof. destruct k; try discriminate; intros _; vm_compute; repeat split. Qed.

Lemma not_v2_proposal k bs : of_kind k bs -> k <> KProposalV2 -> msg_type bs = 1%N -> msg_version bs <> 2%N.
Proof. unfold of_kind. intros H K T V. rewrite T, V in H. inversion H; congruence. Qed.

Lemma trailer_stops t : stops (joined [trailer_item t] "").
Proof. left. reflexivity. Qed.

Lemma fixed_parts res k bs bs' : plain_kind k = true -> exact k bs -> exact k bs' ->
  eyecatchers bs -> eyecatchers bs' -> of_kind k bs -> of_kind k bs' ->
  fixed_text res k bs = fixed_text res k bs' ->
  header_shown res bs = header_shown res bs' /\
  shown res (fixed_rows k) (decode_at (fixed_layout k) 64 bs) = shown res (fixed_rows k) (decode_at (fixed_layout k) 64 bs') /\
  last4 bs = last4 bs'.
Proof.
  intros P X X' E E' K K' H.
  assert (L : length bs = N.to_nat (min_length k) /\ length bs' = N.to_nat (min_length k))
    by (destruct k; try discriminate P; split; try apply X; apply X').
  destruct (plain_layouts k P) as (Hf & _ & Hb & _).
  assert (V : is_smcdv2 k = false) by (destruct k; try discriminate P; reflexivity).
  assert (NP : k <> KProposalV2) by (destruct k; discriminate).
  unfold fixed_text in H. rewrite V in H. cbn [andb] in H. rewrite !app_nil_r in H.
  apply text_parts in H; try assumption; try (eapply not_v2_proposal; eassumption); try lia.
  destruct H as [H1 H]. split; [exact H1|].
  eapply (items_inj no_proto res (fixed_rows k)) in H;
    [|apply fits_rdom; [exact Hf|lia]|apply fits_rdom; [exact Hf|lia]|apply trailer_stops|apply trailer_stops].
  destruct H as [H2 H]. split; [exact H2|]. apply trailer_step in H; [exact H|apply E|apply E'].
Qed.

(** *** v1 Proposals *)

Lemma entries_rows res n : forall start bs,
  prefix_items res (entries ipv6_prefix_body start 17 n bs) =
  clc_items res (repeat (Pre "IPv6 Prefix: ") n) (decode_at (concat (repeat ipv6_prefix_body n)) (8 * start) bs).
Proof.
  induction n as [|n IH]; intros start bs; [reflexivity|].
  unfold entries, prefix_items. cbn [seq map concat repeat]. rewrite decode_at_app.
  rewrite Nat.mul_0_r, Nat.add_0_r. change (layout_bits ipv6_prefix_body) with 136.
  replace (8 * start + 136) with (8 * (start + 17)) by lia.
  assert (X : forall o t vs, clc_items res (Pre "IPv6 Prefix: " :: t) (decode_at ipv6_prefix_body o bs ++ vs) =
    (clc_items res ipv6_prefix_rows (decode_at ipv6_prefix_body o bs) ++ clc_items res t vs)%list) by reflexivity.
  rewrite X, <- IH. clear X. f_equal.
  unfold prefix_items, entries. rewrite <- seq_shift, !map_map. f_equal.
  apply map_ext. intros k. do 2 f_equal. lia.
Qed.

Lemma prefixes_fit n : fits (repeat (Pre "IPv6 Prefix: ") n) (concat (repeat ipv6_prefix_body n)) = true.
Proof. induction n as [|n IH]; [reflexivity|]. exact IH. Qed.

Lemma prefixes_nfit n : nfits (repeat (Pre "IPv6 Prefix: ") n) (concat (repeat ipv6_prefix_body n)) = true.
Proof. induction n as [|n IH]; [reflexivity|]. exact IH. Qed.

Lemma prefixes_bits n : layout_bits (concat (repeat ipv6_prefix_body n)) = 136 * n.
Proof.
  induction n as [|n IH]; [reflexivity|]. cbn [repeat concat]. rewrite layout_bits_app, IH.
  change (layout_bits ipv6_prefix_body) with 136. lia.
Qed.

Definition smcd_rows (off : N) : list row := if (off =? 40)%N then proposal_smcd_rows else [].
Definition smcd_layout (off : N) : layout := if (off =? 40)%N then proposal_smcd_body else [].

Definition proposal_parts (res : bool) (off : N) (n : nat) (bs bs' : list byte) : Prop :=
  let start := 40 + N.to_nat off in
  let same rows lay pos := shown res rows (decode_at lay pos bs) = shown res rows (decode_at lay pos bs') in
  same proposal_rows proposal_body 64 /\ same (smcd_rows off) (smcd_layout off) (8 * 40) /\
  same ip_area_rows ip_area_body (8 * start) /\
  same (repeat (Pre "IPv6 Prefix: ") n) (concat (repeat ipv6_prefix_body n)) (8 * (start + 8)).

Lemma proposal_inj res bs bs' : exact KProposal bs -> exact KProposal bs' ->
  eyecatchers bs -> eyecatchers bs' -> of_kind KProposal bs -> of_kind KProposal bs' ->
  proposal_text res bs = proposal_text res bs' ->
  header_shown res bs = header_shown res bs' /\
  ip_area_offset bs = ip_area_offset bs' /\
  prefix_count bs (ip_area_start bs) = prefix_count bs' (ip_area_start bs') /\
  (let off := ip_area_offset bs in let n := prefix_count bs (ip_area_start bs) in
   proposal_parts res off n bs bs') /\
  last4 bs = last4 bs'.
Proof.
  intros X X' E E' K K' H.
  assert (Y : forall b, exact KProposal b -> proposal_text res b =
    bytes_text res b (clc_items res proposal_rows (decode_at proposal_body 64 b) ++
      clc_items res (smcd_rows (ip_area_offset b)) (decode_at (smcd_layout (ip_area_offset b)) (8 * 40) b) ++
      clc_items res ip_area_rows (decode_at ip_area_body (8 * ip_area_start b) b) ++
      clc_items res (repeat (Pre "IPv6 Prefix: ") (prefix_count b (ip_area_start b)))
        (decode_at (concat (repeat ipv6_prefix_body (prefix_count b (ip_area_start b)))) (8 * (ip_area_start b + 8)) b))).
  { intros b (D & O & Z). unfold proposal_text. cbv zeta. do 2 f_equal. unfold smcd_rows, smcd_layout.
    f_equal; [destruct (ip_area_offset b =? 40)%N; reflexivity|]. f_equal. rewrite entries_rows.
    unfold fitting. rewrite D, Z.
    replace (ip_area_start b + 8 + 17 * prefix_count b (ip_area_start b) + 4 - 4 - (ip_area_start b + 8))
      with (prefix_count b (ip_area_start b) * 17) by lia.
    rewrite Nat.div_mul by discriminate. rewrite Nat.min_id. reflexivity. }
  rewrite !Y in H by assumption. clear Y. destruct X as (D & O & Z). destruct X' as (D' & O' & Z').
  assert (B : ip_area_start bs = 40 \/ ip_area_start bs = 80) by (unfold ip_area_start; destruct O as [->| ->]; [left|right]; reflexivity).
  assert (B' : ip_area_start bs' = 40 \/ ip_area_start bs' = 80) by (unfold ip_area_start; destruct O' as [->| ->]; [left|right]; reflexivity).
  apply text_parts in H; try assumption; try lia; try (eapply not_v2_proposal; [eassumption|discriminate]).
  destruct H as [H1 H]. split; [exact H1|]. rewrite !joined_app in H.
  eapply (items_inj no_proto res proposal_rows) in H;
    [|apply fits_rdom; [reflexivity|vm_compute layout_bits; lia]|apply fits_rdom; [reflexivity|vm_compute layout_bits; lia]
     |repeat apply joined_stops; exact I|repeat apply joined_stops; exact I].
  destruct H as [H2 H].
  assert (Q : ip_area_offset bs = ip_area_offset bs') by (destruct res; injection H2; intros; assumption).
  assert (Qs : ip_area_start bs = ip_area_start bs') by (unfold ip_area_start; congruence).
  split; [exact Q|]. rewrite <- Q, <- Qs in H. rewrite <- Qs in B', Z'.
  assert (W : 8 * 40 + layout_bits (smcd_layout (ip_area_offset bs)) <= 8 * length bs /\
              8 * 40 + layout_bits (smcd_layout (ip_area_offset bs)) <= 8 * length bs').
  { unfold smcd_layout. unfold ip_area_start in *. destruct O as [e| e]; rewrite e in *; vm_compute layout_bits; lia. }
  eapply (items_inj no_proto res (smcd_rows (ip_area_offset bs))) in H;
    [|apply fits_rdom; [destruct O as [->| ->]; reflexivity|apply W]|apply fits_rdom; [destruct O as [->| ->]; reflexivity|apply W]
     |repeat apply joined_stops; exact I|repeat apply joined_stops; exact I].
  destruct H as [H3 H].
  eapply (items_inj no_proto res ip_area_rows) in H;
    [|apply fits_rdom; [reflexivity|vm_compute layout_bits; lia]|apply fits_rdom; [reflexivity|vm_compute layout_bits; lia]
     |repeat apply joined_stops; exact I|repeat apply joined_stops; exact I].
  destruct H as [H4 H].
  assert (C : prefix_count bs (ip_area_start bs) = prefix_count bs' (ip_area_start bs)).
  { unfold prefix_count. replace (8 * (ip_area_start bs + 7)) with (8 * ip_area_start bs + 32 + 8 + 16) by lia.
    destruct res; injection H4; intros; f_equal; assumption. }
  rewrite <- Qs. split; [exact C|]. rewrite <- C in H, Z'.
  eapply (items_inj no_proto res (repeat _ _)) in H;
    [|apply fits_rdom; [apply prefixes_fit|rewrite prefixes_bits; lia]|apply fits_rdom; [apply prefixes_fit|rewrite prefixes_bits; lia]
     |apply trailer_stops|apply trailer_stops].
  destruct H as [H5 H]. split.
  - cbv zeta. unfold proposal_parts. cbv zeta. fold (ip_area_start bs). repeat split; assumption.
  - apply trailer_step in H; [exact H|apply E|apply E'].
Qed.

(** *** Both *)

Definition text_of (res : bool) (k : clc_kind) (bs : list byte) : string :=
  match k with KProposal => proposal_text res bs | _ => fixed_text res k bs end.

Lemma exact_kinds k bs : exact k bs -> k = KProposal \/ plain_kind k = true.
Proof. destruct k; cbn; intros H; try contradiction; auto. Qed.

Lemma exact_length k bs : exact k bs -> 28 <= length bs.
Proof. destruct k; cbn; intros H; try contradiction; lia. Qed.

Lemma text_of_bytes res k bs : exists body, text_of res k bs = bytes_text res bs body.
Proof. destruct k; eexists; reflexivity. Qed.

Lemma exact_not_v2 k bs : exact k bs -> k <> KProposalV2.
Proof. destruct k; cbn; intros H; try contradiction; discriminate. Qed.

Lemma same_kind res k k' bs bs' : exact k bs -> exact k' bs' -> eyecatchers bs -> eyecatchers bs' ->
  of_kind k bs -> of_kind k' bs' -> text_of res k bs = text_of res k' bs' -> k = k'.
Proof.
  intros X X' E E' K K' H. destruct (text_of_bytes res k bs) as [b Hb]. destruct (text_of_bytes res k' bs') as [b' Hb'].
  rewrite Hb, Hb' in H. pose proof (exact_length _ _ X). pose proof (exact_length _ _ X').
  apply text_parts in H; try assumption; try lia; try (eapply not_v2_proposal; [eassumption|eapply exact_not_v2; eassumption]).
  destruct H as [H _]. apply header_facts in H. destruct H as (T & V & P & _). unfold of_kind in *. rewrite T, V, P in K.
  eapply ClcRefute.kind_rel_fun; eassumption.
Qed.

Lemma aligned_at_app a : forall b off, aligned_at (a ++ b) off = (aligned_at a off && aligned_at b (off + layout_bits a))%bool.
Proof.
  induction a as [|[n [w|w]] a IH]; intros b off; cbn [List.app aligned_at layout_bits kind_bits].
  - rewrite Nat.add_0_r. reflexivity.
  - rewrite IH, Nat.add_assoc. reflexivity.
  - rewrite IH, Nat.add_assoc, andb_assoc. reflexivity.
Qed.

Lemma mod8 x : (8 * x) mod 8 = 0.
Proof. rewrite Nat.mul_comm. apply Nat.mod_mul. discriminate. Qed.

Lemma prefixes_aligned n : forall x, aligned_at (concat (repeat ipv6_prefix_body n)) (8 * x) = true.
Proof.
  induction n as [|n IH]; intros x; [reflexivity|]. cbn [repeat concat]. rewrite aligned_at_app.
  change (layout_bits ipv6_prefix_body) with 136. replace (8 * x + 136) with (8 * (x + 17)) by lia. rewrite IH.
  unfold ipv6_prefix_body. cbn [aligned_at]. rewrite mod8. reflexivity.
Qed.

Lemma trailer_decode o bs : 4 <= length bs -> o = 8 * (length bs - 4) ->
  decode_at [("Trailer"%string, A 4)] o bs = [("Trailer"%string, VB (last4 bs))].
Proof.
  intros L ->. cbn [decode_at]. unfold last4, bytes_at. do 3 f_equal.
  rewrite (Nat.mul_comm 8), Nat.div_mul by discriminate. apply firstn_all2. rewrite skipn_length. lia.
Qed.

Lemma body_layout_plain k bs : plain_kind k = true -> body_layout k bs = fixed_layout k.
Proof. destruct k; try discriminate; reflexivity. Qed.

Lemma whole_bits k bs : exact k bs -> layout_bits (whole_layout k bs) = 8 * length bs /\ aligned_at (whole_layout k bs) 0 = true.
Proof.
  intros X. destruct (exact_kinds _ _ X) as [->|P].
  - destruct X as (D & O & Z). unfold whole_layout, body_layout, proposal_layout.
    rewrite !aligned_at_app, !layout_bits_app, prefixes_bits, Z. unfold ip_area_start. set (n := prefix_count _ _).
    assert (T : forall o x, o = 8 * x -> aligned_at [("Trailer"%string, A 4)] o = true).
    { intros o x ->. cbn [aligned_at]. rewrite mod8. reflexivity. }
    destruct O as [->| ->].
    + split; [vm_compute (layout_bits _); lia|]. change (_ + layout_bits ip_area_body) with (8 * 48).
      rewrite prefixes_aligned, (T _ (48 + 17 * n)); [reflexivity|]. vm_compute (layout_bits _). lia.
    + split; [vm_compute (layout_bits _); lia|]. change (_ + layout_bits ip_area_body) with (8 * 88).
      rewrite prefixes_aligned, (T _ (88 + 17 * n)); [reflexivity|]. vm_compute (layout_bits _). lia.
  - destruct (plain_layouts k P) as (_ & _ & Hb & Ha). unfold whole_layout. rewrite body_layout_plain by exact P.
    split; [|exact Ha]. rewrite !layout_bits_app. change (layout_bits clc_header) with 64. cbn [layout_bits kind_bits].
    assert (length bs = N.to_nat (min_length k)) by (destruct k; try discriminate P; apply X). lia.
Qed.

Lemma whole_decode k bs : exact k bs -> decode (whole_layout k bs) bs =
  (decode clc_header bs ++ decode_at (body_layout k bs) 64 bs ++ [("Trailer"%string, VB (last4 bs))])%list.
Proof.
  intros X. destruct (whole_bits k bs X) as [B _]. pose proof (exact_length k bs X). unfold whole_layout in *. unfold decode.
  rewrite !layout_bits_app in B. change (layout_bits clc_header) with 64 in B. cbn [layout_bits kind_bits] in B.
  rewrite !decode_at_app. cbn [Nat.add]. change (layout_bits clc_header) with 64.
  rewrite (trailer_decode (64 + layout_bits (body_layout k bs))) by lia. reflexivity.
Qed.

Lemma proposal_body_decode bs : exact KProposal bs ->
  decode_at (body_layout KProposal bs) 64 bs =
  (decode_at proposal_body 64 bs ++ decode_at (smcd_layout (ip_area_offset bs)) (8 * 40) bs ++
   decode_at ip_area_body (8 * ip_area_start bs) bs ++
   decode_at (concat (repeat ipv6_prefix_body (prefix_count bs (ip_area_start bs)))) (8 * (ip_area_start bs + 8)) bs)%list.
Proof.
  intros (_ & O & _). unfold body_layout, proposal_layout. fold (smcd_layout (ip_area_offset bs)).
  rewrite !decode_at_app. unfold ip_area_start. destruct O as [->| ->]; reflexivity.
Qed.

Lemma app_cong {X} (a a' b b' : list X) : a = a' -> b = b' -> (a ++ b)%list = (a' ++ b')%list.
Proof. congruence. Qed.

Theorem clc_lossless k k' bs bs' : exact k bs -> exact k' bs' -> eyecatchers bs -> eyecatchers bs' ->
  of_kind k bs -> of_kind k' bs' -> text_of true k bs = text_of true k' bs' -> bs = bs'.
Proof.
  intros X X' E E' K K' H. pose proof (same_kind _ _ _ _ _ X X' E E' K K' H). subst k'.
  destruct (whole_bits k bs X) as [B A]. destruct (whole_bits k bs' X') as [B' _].
  assert (Y : whole_layout k bs = whole_layout k bs' /\ decode (whole_layout k bs) bs = decode (whole_layout k bs') bs').
  { destruct (exact_kinds _ _ X) as [->|P].
    - apply proposal_inj in H; try assumption. destruct H as (H1 & H2 & H3 & H4 & H5).
      assert (W : whole_layout KProposal bs = whole_layout KProposal bs') by (unfold whole_layout, body_layout; rewrite H2, H3; reflexivity).
      split; [exact W|]. rewrite !whole_decode by assumption. apply header_all in H1. rewrite H1, H5. apply app_cong; [reflexivity|]. apply app_cong; [|reflexivity].
      rewrite !proposal_body_decode by assumption. cbv zeta in H4. unfold proposal_parts in H4. cbv zeta in H4.
      fold (ip_area_start bs) in H4. destruct H4 as (Q1 & Q2 & Q3 & Q4).
      assert (Hs : ip_area_start bs = ip_area_start bs') by (unfold ip_area_start; congruence).
      rewrite <- H3, <- H2, <- Hs. destruct X as (_ & O & Z). destruct X' as (_ & _ & Z'). rewrite <- H3, <- Hs in Z'.
      assert (V : ip_area_start bs = 40 + N.to_nat (ip_area_offset bs)) by reflexivity.
      apply app_cong; [apply (all_shown proposal_rows); [reflexivity|vm_compute layout_bits; lia|vm_compute layout_bits; lia|assumption]|].
      apply app_cong; [apply (all_shown (smcd_rows (ip_area_offset bs))); [| | |assumption]; destruct O as [e| e]; rewrite e in *;
        try reflexivity; vm_compute layout_bits; lia|].
      apply app_cong; [apply (all_shown ip_area_rows); [reflexivity|vm_compute layout_bits; lia|vm_compute layout_bits; lia|assumption]|].
      eapply all_shown; [apply prefixes_fit|rewrite prefixes_bits; lia|rewrite prefixes_bits; lia|assumption].
    - assert (W : whole_layout k bs = whole_layout k bs') by (unfold whole_layout; rewrite !body_layout_plain by exact P; reflexivity).
      split; [exact W|]. rewrite !whole_decode, !body_layout_plain by assumption.
      replace (text_of true k bs) with (fixed_text true k bs) in H by (destruct k; try discriminate P; reflexivity).
      replace (text_of true k bs') with (fixed_text true k bs') in H by (destruct k; try discriminate P; reflexivity).
      apply fixed_parts in H; try assumption. destruct H as (H1 & H2 & H3). apply header_all in H1. rewrite H1, H3. apply app_cong; [reflexivity|]. apply app_cong; [|reflexivity].
      destruct (plain_layouts k P) as (Hf & _ & Hb & _).
      assert (length bs = N.to_nat (min_length k)) by (destruct k; try discriminate P; apply X).
      assert (length bs' = N.to_nat (min_length k)) by (destruct k; try discriminate P; apply X').
      apply (all_shown (fixed_rows k)); [exact Hf|lia|lia|exact H2]. }
  destruct Y as [Y1 Y2]. rewrite <- Y1 in Y2, B'.
  apply (decode_inj (whole_layout k bs)); [exact A|exact B|lia|exact Y2].
Qed.

Theorem clc_named k k' bs bs' : exact k bs -> exact k' bs' -> eyecatchers bs -> eyecatchers bs' ->
  of_kind k bs -> of_kind k' bs' -> text_of false k bs = text_of false k' bs' ->
  k = k' /\ named_fields (decode (whole_layout k bs) bs) = named_fields (decode (whole_layout k' bs') bs').
Proof.
  intros X X' E E' K K' H. pose proof (same_kind _ _ _ _ _ X X' E E' K K' H). subst k'. split; [reflexivity|].
  rewrite !whole_decode, !named_app by assumption. destruct (exact_kinds _ _ X) as [->|P].
  - apply proposal_inj in H; try assumption. destruct H as (H1 & H2 & H3 & H4 & H5).
    apply header_named in H1. rewrite H1, H5. apply app_cong; [reflexivity|]. apply app_cong; [|reflexivity].
    rewrite !proposal_body_decode by assumption. cbv zeta in H4. unfold proposal_parts in H4. cbv zeta in H4.
    fold (ip_area_start bs) in H4. destruct H4 as (Q1 & Q2 & Q3 & Q4).
    assert (Hs : ip_area_start bs = ip_area_start bs') by (unfold ip_area_start; congruence).
    rewrite <- H3, <- H2, <- Hs, !named_app. destruct X as (_ & O & _).
    apply app_cong; [apply (named_shown proposal_rows); [reflexivity|assumption]|].
    apply app_cong; [apply (named_shown (smcd_rows (ip_area_offset bs))); [destruct O as [->| ->]; reflexivity|assumption]|].
    apply app_cong; [apply (named_shown ip_area_rows); [reflexivity|assumption]|].
    eapply named_shown; [apply prefixes_nfit|assumption].
  - rewrite !body_layout_plain by assumption.
    replace (text_of false k bs) with (fixed_text false k bs) in H by (destruct k; try discriminate P; reflexivity).
    replace (text_of false k bs') with (fixed_text false k bs') in H by (destruct k; try discriminate P; reflexivity).
    apply fixed_parts in H; try assumption. destruct H as (H1 & H2 & H3). apply header_named in H1. rewrite H1, H3. apply app_cong; [reflexivity|]. apply app_cong; [|reflexivity].
    destruct (plain_layouts k P) as (_ & Hn & _). apply (named_shown (fixed_rows k)); [exact Hn|exact H2].
Qed.

(** ** In terms of the parsers *)

Lemma parse_text m old buf logs new : slice_ok m buf -> reachable old ->
  let bs := s_bytes m buf in let k := kind_of old in
  exact k bs -> (k = KProposal -> old = fresh KProposal) ->
  Message_Parse m old buf = (logs, Done new) ->
  Message_String new = text_of false k bs /\ Message_Reserved new = text_of true k bs.
Proof.
  intros Hok Hr bs k X Hf Hp. assert (Lb : length bs = s_len buf) by (apply s_bytes_length; exact Hok).
  destruct (exact_kinds _ _ X) as [K|P].
  - rewrite K. specialize (Hf K). subst old. rewrite K in X. destruct X as (D & O & Z).
    assert (ip_area_start bs = 40 \/ ip_area_start bs = 80) by (unfold ip_area_start; destruct O as [->| ->]; [left|right]; reflexivity).
    cbn [text_of]. eapply TextWhole.proposal_texts; try eassumption; fold bs; lia.
  - replace (text_of false k bs) with (fixed_text false k bs) by (destruct k; try discriminate P; reflexivity).
    replace (text_of true k bs) with (fixed_text true k bs) by (destruct k; try discriminate P; reflexivity).
    eapply TextWhole.fixed_texts; try eassumption; fold bs; fold k.
    + destruct k; try discriminate P; reflexivity.
    + assert (D : declared bs = min_length k /\ length bs = N.to_nat (min_length k))
        by (destruct k; try discriminate P; exact X).
      destruct D as [D Z]. split; [rewrite D; reflexivity|]. split; [rewrite Z; apply Nat.le_refl|].
      destruct k; try discriminate P; exact I.
    + destruct k; try discriminate P; discriminate.
Qed.

Theorem parse_lossless m m' old old' buf buf' logs logs' new new' :
  slice_ok m buf -> slice_ok m' buf' -> reachable old -> reachable old' ->
  let bs := s_bytes m buf in let bs' := s_bytes m' buf' in
  let k := kind_of old in let k' := kind_of old' in
  exact k bs -> exact k' bs' -> of_kind k bs -> of_kind k' bs' -> eyecatchers bs -> eyecatchers bs' ->
  (k = KProposal -> old = fresh KProposal) -> (k' = KProposal -> old' = fresh KProposal) ->
  Message_Parse m old buf = (logs, Done new) -> Message_Parse m' old' buf' = (logs', Done new') ->
  (Message_Reserved new = Message_Reserved new' -> bs = bs') /\
  (Message_String new = Message_String new' ->
   k = k' /\ named_fields (decode (whole_layout k bs) bs) = named_fields (decode (whole_layout k' bs') bs')).
Proof.
  intros Hok Hok' Hr Hr' bs bs' k k' X X' K K' E E' F F' P P'.
  destruct (parse_text m old buf logs new Hok Hr X F P) as [S R].
  destruct (parse_text m' old' buf' logs' new' Hok' Hr' X' F' P') as [S' R'].
  split; intros H.
  - rewrite R, R' in H. exact (clc_lossless k k' bs bs' X X' E E' K K' H).
  - rewrite S, S' in H. exact (clc_named k k' bs bs' X X' E E' K K' H).
Qed.

Theorem llc_parse_lossless m m' buf buf' msg msg' : slice_ok m buf -> slice_ok m' buf' ->
  let bs := s_bytes m buf in let bs' := s_bytes m' buf' in
  let k := kind_of_type (bits bs 0 8) in let k' := kind_of_type (bits bs' 0 8) in
  length bs = 44 -> length bs' = 44 -> text_complete k = true -> text_complete k' = true -> k <> KOther ->
  ParseLLC m buf = ([], Done msg) -> ParseLLC m' buf' = ([], Done msg') ->
  (LLC_Reserved msg = LLC_Reserved msg' -> bs = bs') /\
  (LLC_String msg = LLC_String msg' ->
   k = k' /\ named_fields (decode (llc_layout k) bs) = named_fields (decode (llc_layout k') bs')).
Proof.
  intros Hok Hok' bs bs' k k' L L' T T' K E E'.
  assert (K2 : k <> KConfirmRKeyCont).
  { intros K2. destruct (LlcMessage.ParseLLC_panics m buf Hok) as [P _]. fold bs in P.
    rewrite (proj2 P) in E; [discriminate|]. split; [exact L|]. apply LlcMessage.kind_rkeycont. exact K2. }
  destruct (TextRest.ParseLLC_text m buf msg Hok L T E) as [S R].
  destruct (TextRest.ParseLLC_text m' buf' msg' Hok' L' T' E') as [S' R'].
  split; intros H.
  - rewrite R, R' in H. exact (llc_lossless k k' bs bs' K K2 L L' H).
  - rewrite S, S' in H. destruct (llc_named k k' bs bs' K K2 L L' H) as [<- Y]. split; [reflexivity|exact Y].
Qed.

Theorem bth_parse_lossless m m' old old' buf buf' b b' : slice_ok m buf -> slice_ok m' buf' ->
  let bs := s_bytes m buf in let bs' := s_bytes m' buf' in
  length bs = 12 -> length bs' = 12 ->
  BTH_Parse m old buf = ([], Done b) -> BTH_Parse m' old' buf' = ([], Done b') ->
  BTH_Reserved b = BTH_Reserved b' -> bs = bs'.
Proof.
  intros Hok Hok' bs bs' L L' E E' H.
  assert (Lb : length bs = s_len buf) by (apply s_bytes_length; exact Hok).
  assert (Lb' : length bs' = s_len buf') by (apply s_bytes_length; exact Hok').
  destruct (TextRest.BTH_parsed_text m buf old b Hok ltac:(lia) E) as [_ R].
  destruct (TextRest.BTH_parsed_text m' buf' old' b' Hok' ltac:(lia) E') as [_ R'].
  rewrite R, R' in H. exact (bth_lossless bs bs' L L' H).
Qed.

(** *** Text fields hide bytes *)

Definition set_byte (i : nat) (b : byte) (bs : list byte) : list byte := (firstn i bs ++ b :: skipn (S i) bs)%list.

Definition hidden_a : list byte :=
  Eval vm_compute in set_byte 34 x41 (set_byte 35 x00 (set_byte 36 x01 Samples.sample_accept_d2)).
Definition hidden_b : list byte :=
  Eval vm_compute in set_byte 34 x41 (set_byte 35 x00 (set_byte 36 x02 Samples.sample_accept_d2)).

Lemma hidden_witness : exists m1 m2 buf new1 new2, slice_ok m1 buf /\ slice_ok m2 buf /\
  of_kind KAcceptSMCDv2 (s_bytes m1 buf) /\ of_kind KAcceptSMCDv2 (s_bytes m2 buf) /\
  eyecatchers (s_bytes m1 buf) /\ eyecatchers (s_bytes m2 buf) /\
  Message_Parse m1 (fresh KAcceptSMCDv2) buf = ([], Done new1) /\
  Message_Parse m2 (fresh KAcceptSMCDv2) buf = ([], Done new2) /\
  s_bytes m1 buf <> s_bytes m2 buf /\ Message_Reserved new1 = Message_Reserved new2.
Proof.
  exists (Samples.mem1 hidden_a), (Samples.mem1 hidden_b), (Samples.slice1 hidden_a).
  eexists. eexists.
  assert (T : kind_rel 2 2 1 KAcceptSMCDv2) by constructor.
  split; [apply Samples.slice1_ok|]. split; [apply (Samples.slice1_ok hidden_b)|].
  split; [exact T|]. split; [exact T|]. split; [split; vm_compute; reflexivity|]. split; [split; vm_compute; reflexivity|].
  split; [vm_compute; reflexivity|]. split; [vm_compute; reflexivity|].
  split; [vm_compute; discriminate|]. vm_compute. reflexivity.
Qed.
