(** * LlcMessage: results about all LLC/CDC message types. Proofs only. *)

From Coq Require Import NArith ZArith Bool String Arith List Lia.
From Coq Require Import ZifyBool ZifyNat ZifyN.
From Verif Require Import GoBase GoFmt ClcModel LlcModel RoceModel Slices Wire WireLemmas ClcView LlcView Steps
  ClcParse ClcFixed LlcParse LlcDecode.
From Verif Require Keep.
Import ListNotations.
Local Open Scope nat_scope.

(** the parse result in closed form *)
Definition llc_of (bs : list byte) (old : LLCMessage) : LLCMessage :=
  match old with
  | LConfirm c => LConfirm (ConfirmLink_of bs c)
  | LAddLink a => LAddLink (AddLink_of bs a)
  | LAddLinkCont a => LAddLinkCont (AddLinkCont_of bs a)
  | LDeleteLink d => LDeleteLink (DeleteLink_of bs d)
  | LConfirmRKey c => LConfirmRKey (ConfirmRKey_of bs c)
  | LConfirmRKeyCont c => LConfirmRKeyCont (ConfirmRKeyCont_of bs c)
  | LDeleteRKey d => LDeleteRKey (deleteRKey_of bs d)
  | LTestLink t => LTestLink (TestLink_of bs t)
  | LCDC c => LCDC (CDC_of bs c)
  | LOther o => LOther (mkOther (mkBaseMsg bs TypeOther (N.of_nat (length bs))))
  end.

Lemma LLC_Parse_ok m buf old : slice_ok m buf -> llc_wf old ->
  llc_min (llc_kind_of old) <= s_len buf ->
  LLC_Parse m old buf = ret (llc_of (s_bytes m buf) old).
Proof.
  intros Hok Hwf Hlen. destruct old; cbn [LLC_Parse llc_of llc_kind_of llc_min] in *.
  - rewrite ConfirmLink_ok by assumption. reflexivity.
  - rewrite AddLink_ok by assumption. reflexivity.
  - rewrite AddLinkCont_ok by assumption. reflexivity.
  - rewrite DeleteLink_ok by assumption. reflexivity.
  - rewrite ConfirmRKey_ok by assumption. reflexivity.
  - rewrite ConfirmRKeyCont_ok by assumption. reflexivity.
  - rewrite deleteRKey_ok by assumption. reflexivity.
  - rewrite TestLink_ok by assumption. reflexivity.
  - rewrite CDC_ok by assumption. reflexivity.
  - unfold Other_Parse. rewrite bind_ret, (setRaw_bytes m buf Hok), (s_bytes_length m buf Hok). reflexivity.
Qed.

Lemma LLC_Parse_panic m buf old : slice_ok m buf -> llc_wf old ->
  s_len buf < llc_min (llc_kind_of old) -> LLC_Parse m old buf = panic.
Proof.
  intros Hok Hwf Hlen. destruct old; cbn [LLC_Parse llc_kind_of llc_min] in *.
  - rewrite ConfirmLink_panic by assumption. reflexivity.
  - rewrite AddLink_panic by assumption. reflexivity.
  - rewrite AddLinkCont_panic by assumption. reflexivity.
  - rewrite DeleteLink_panic by assumption. reflexivity.
  - rewrite ConfirmRKey_panic by assumption. reflexivity.
  - rewrite ConfirmRKeyCont_panic by assumption. reflexivity.
  - rewrite deleteRKey_panic by assumption. reflexivity.
  - rewrite TestLink_panic by assumption. reflexivity.
  - rewrite CDC_panic by assumption. reflexivity.
  - lia.
Qed.

Lemma llc_of_kind bs old : llc_kind_of (llc_of bs old) = llc_kind_of old.
Proof. destruct old; reflexivity. Qed.

Lemma llc_of_wf bs old : llc_wf old -> llc_min (llc_kind_of old) <= length bs ->
  llc_wf (llc_of bs old).
Proof.
  intros Hwf Hl. destruct old; cbn [llc_of llc_wf llc_kind_of llc_min] in *; try exact I;
    cbn -[seg tail skipn]; rewrite ?tail_length, ?skipn_length, ?seg_length by lia;
    repeat split; try lia; try tauto.
Qed.

Lemma llc_fresh_wf k : llc_wf (llc_fresh k).
Proof. destruct k; repeat split. Qed.

Lemma LLC_keeps_wf m old buf logs new : slice_ok m buf -> llc_wf old ->
  LLC_Parse m old buf = (logs, Done new) -> llc_wf new.
Proof.
  intros Hok Hwf H. destruct (le_lt_dec (llc_min (llc_kind_of old)) (s_len buf)).
  - rewrite LLC_Parse_ok in H by assumption. injection H as <- <-.
    apply llc_of_wf; [assumption|]. rewrite (s_bytes_length m buf Hok). assumption.
  - rewrite LLC_Parse_panic in H by assumption. discriminate.
Qed.

Lemma llc_reachable_wf msg : llc_reachable msg -> llc_wf msg.
Proof.
  induction 1; [apply llc_fresh_wf|eapply LLC_keeps_wf; eassumption|].
  eapply Keep.LLC_W_wf; eassumption.
Qed.

Lemma llc_size_min k : llc_min k <= llc_size k.
Proof. destruct k; cbn; lia. Qed.

Lemma llc_of_view bs old : llc_wf old -> llc_size (llc_kind_of old) <= length bs ->
  llc_view (llc_of bs old) = decode (llc_layout (llc_kind_of old)) bs.
Proof.
  intros Hwf Hl. destruct old; cbn [llc_view llc_of llc_kind_of llc_layout llc_size] in *.
  - apply ConfirmLink_view; assumption.
  - apply AddLink_view; assumption.
  - apply AddLinkCont_view; assumption.
  - apply DeleteLink_view; assumption.
  - apply ConfirmRKey_view; assumption.
  - apply ConfirmRKeyCont_view; assumption.
  - apply deleteRKey_view; assumption.
  - apply TestLink_view; assumption.
  - apply CDC_view; assumption.
  - reflexivity.
Qed.

(** ** C27 *)

Lemma LLC_decode m buf old : slice_ok m buf -> llc_wf old ->
  llc_size (llc_kind_of old) <= s_len buf ->
  let bs := s_bytes m buf in
  exists new, LLC_Parse m old buf = ([], Done new) /\ llc_kind_of new = llc_kind_of old /\
    llc_view new = decode (llc_layout (llc_kind_of old)) bs /\ b_Raw (LLC_Base new) = bs.
Proof.
  intros Hok Hwf Hlen bs. pose proof (s_bytes_length m buf Hok) as Hb.
  pose proof (llc_size_min (llc_kind_of old)).
  exists (llc_of bs old). split; [apply LLC_Parse_ok; [assumption..|lia]|].
  split; [apply llc_of_kind|]. split.
  - apply llc_of_view; [assumption|]. subst bs. lia.
  - destruct old; reflexivity.
Qed.

(** shorter buffers: what the reserved tail keeps *)
Lemma LLC_partial m buf old : slice_ok m buf -> llc_wf old ->
  llc_min (llc_kind_of old) <= s_len buf ->
  let bs := s_bytes m buf in
  exists new, LLC_Parse m old buf = ([], Done new) /\ llc_kind_of new = llc_kind_of old /\
    forall i, i < length (llc_tail old) ->
    nth i (llc_tail new) x00 =
      if llc_min (llc_kind_of old) + i <? s_len buf
      then nth (llc_min (llc_kind_of old) + i) bs x00 else nth i (llc_tail old) x00.
Proof.
  intros Hok Hwf Hlen bs. pose proof (s_bytes_length m buf Hok) as Hb. fold bs in Hb.
  exists (llc_of bs old). split; [apply LLC_Parse_ok; assumption|].
  split; [apply llc_of_kind|].
  assert (T : forall o t i, i < length t -> o <= length bs ->
     nth i (tail bs o t) x00 = if o + i <? s_len buf then nth (o + i) bs x00 else nth i t x00).
  { intros o t i Hi Ho. unfold tail, go_copy. rewrite <- Hb.
    destruct (Nat.ltb_spec (o + i) (length bs)).
    - rewrite app_nth1 by (rewrite firstn_length, skipn_length; lia).
      rewrite nth_firstn by lia. apply nth_skipn.
    - rewrite app_nth2 by (rewrite firstn_length, skipn_length; lia).
      rewrite firstn_length, skipn_length, nth_skipn. f_equal. lia. }
  intros i Hi. destruct old; cbn [llc_tail llc_of llc_kind_of llc_min] in *;
    try (cbn [length] in Hi; lia); apply T; lia.
Qed.

(** two payloads with the same fields are the same *)
Lemma LLC_lossless m1 buf1 old1 m2 buf2 old2 new1 new2 l1 l2 :
  slice_ok m1 buf1 -> slice_ok m2 buf2 -> llc_wf old1 -> llc_wf old2 ->
  llc_kind_of old1 = llc_kind_of old2 -> llc_kind_of old1 <> KOther ->
  s_len buf1 = llc_size (llc_kind_of old1) -> s_len buf2 = llc_size (llc_kind_of old1) ->
  LLC_Parse m1 old1 buf1 = (l1, Done new1) -> LLC_Parse m2 old2 buf2 = (l2, Done new2) ->
  llc_view new1 = llc_view new2 -> s_bytes m1 buf1 = s_bytes m2 buf2.
Proof.
  intros Hok1 Hok2 Hwf1 Hwf2 Hk Ho H1 H2 E1 E2 Hv.
  destruct (LLC_decode m1 buf1 old1 Hok1 Hwf1) as (n1 & P1 & _ & V1 & _); [lia|].
  destruct (LLC_decode m2 buf2 old2 Hok2 Hwf2) as (n2 & P2 & _ & V2 & _); [rewrite <- Hk; lia|].
  rewrite E1 in P1. rewrite E2 in P2. injection P1 as -> ->. injection P2 as -> ->.
  rewrite V1, V2, <- Hk in Hv.
  eapply decode_inj; [| | |exact Hv]; rewrite ?(s_bytes_length m1 buf1 Hok1), ?(s_bytes_length m2 buf2 Hok2).
  - destruct (llc_kind_of old1); reflexivity.
  - rewrite H1. destruct (llc_kind_of old1); try reflexivity; congruence.
  - congruence.
Qed.

(** ** C28 *)

Lemma llc_parser_fresh k m buf : llc_parser k m buf = LLC_Parse m (llc_fresh k) buf.
Proof. destruct k; reflexivity. Qed.

Lemma LLC_panics m buf old : slice_ok m buf -> llc_wf old ->
  (LLC_Parse m old buf = ([], Panicked) <-> s_len buf < llc_min (llc_kind_of old)) /\
  (llc_min (llc_kind_of old) <= s_len buf -> exists new, LLC_Parse m old buf = ([], Done new)).
Proof.
  intros Hok Hwf. split; [split|].
  - intros H. destruct (le_lt_dec (llc_min (llc_kind_of old)) (s_len buf)); [|assumption].
    rewrite LLC_Parse_ok in H by assumption. discriminate.
  - intros H. apply LLC_Parse_panic; assumption.
  - intros H. eexists. apply LLC_Parse_ok; assumption.
Qed.

Lemma llc_fresh_kind k : llc_kind_of (llc_fresh k) = k.
Proof. destruct k; reflexivity. Qed.

Lemma llc_parser_panics k m buf : slice_ok m buf ->
  (llc_parser k m buf = ([], Panicked) <-> s_len buf < llc_min k) /\
  (llc_min k <= s_len buf -> exists msg, llc_parser k m buf = ([], Done msg) /\ llc_kind_of msg = k).
Proof.
  intros Hok. rewrite llc_parser_fresh.
  pose proof (LLC_panics m buf (llc_fresh k) Hok (llc_fresh_wf k)) as [H _].
  rewrite llc_fresh_kind in H. split; [exact H|]. intros Hl.
  eexists. rewrite LLC_Parse_ok by (assumption || apply llc_fresh_wf || (rewrite llc_fresh_kind; assumption)).
  split; [reflexivity|]. rewrite llc_of_kind. apply llc_fresh_kind.
Qed.

(** ** ParseLLC *)

Lemma type_byte m buf : slice_ok m buf -> 1 <= s_len buf ->
  b2n (nth 0 (s_bytes m buf) x00) = bits (s_bytes m buf) 0 8.
Proof.
  intros Hok H. pose proof (s_bytes_length m buf Hok) as Hb.
  set (bs := s_bytes m buf) in *. clearbody bs. bits_in_byte.
Qed.

Definition payload_kind (bs : list byte) : llc_kind :=
  if length bs =? 44 then kind_of_type (bits bs 0 8) else KOther.

Lemma kind_of_type_cases t :
  kind_of_type t =
  if (t =? 1)%N then KConfirmLink else if (t =? 2)%N then KAddLink
  else if (t =? 3)%N then KAddLinkCont else if (t =? 4)%N then KDeleteLink
  else if (t =? 6)%N then KConfirmRKey else if (t =? 8)%N then KConfirmRKeyCont
  else if (t =? 9)%N then KDeleteRKey else if (t =? 7)%N then KTestLink
  else if (t =? 254)%N then KCDC else KOther.
Proof.
  destruct (N.eqb_spec t 1) as [->|]; [reflexivity|].
  destruct (N.eqb_spec t 2) as [->|]; [reflexivity|].
  destruct (N.eqb_spec t 3) as [->|]; [reflexivity|].
  destruct (N.eqb_spec t 4) as [->|]; [reflexivity|].
  destruct (N.eqb_spec t 6) as [->|]; [reflexivity|].
  destruct (N.eqb_spec t 8) as [->|]; [reflexivity|].
  destruct (N.eqb_spec t 9) as [->|]; [reflexivity|].
  destruct (N.eqb_spec t 7) as [->|]; [reflexivity|].
  destruct (N.eqb_spec t 254) as [->|]; [reflexivity|].
  unfold kind_of_type.
  repeat match goal with
  | |- match ?x with _ => _ end = _ => destruct x; try reflexivity; try congruence
  end.
Qed.

Lemma ParseLLC_run m buf : slice_ok m buf ->
  ParseLLC m buf = llc_parser (payload_kind (s_bytes m buf)) m buf.
Proof.
  intros Hok. unfold ParseLLC, payload_kind, LLCMsgLen. rewrite (s_bytes_length m buf Hok).
  destruct (Nat.eqb_spec (s_len buf) 44) as [H|H]; cbn [negb]; [|reflexivity].
  pose proof (len_le_cap _ _ Hok) as Hcap.
  replace (idx m buf 0) with (ret (nth 0 (s_bytes m buf) x00)).
  2: { rewrite (sub_self buf) at 2. rewrite (idx_sub m buf Hok) by lia.
       rewrite <- (nth_win m buf Hok) by lia. reflexivity. }
  rewrite bind_ret. rewrite (type_byte m buf Hok) by lia.
  rewrite kind_of_type_cases.
  set (t := bits (s_bytes m buf) 0 8).
  unfold TypeConfirmLink, TypeAddLink, TypeAddLinkCont, TypeDeleteLink, TypeConfirmRKey,
    TypeConfirmRKeyCont, TypeDeleteRKey, TypeTestLink, TypeCDC. cbv zeta.
  repeat match goal with |- context [(t =? ?n)%N] => destruct (t =? n)%N; [reflexivity|] end.
  reflexivity.
Qed.

(** ** C25, C26 *)

Lemma payload_kind_min bs : payload_kind bs <> KConfirmRKeyCont -> llc_min (payload_kind bs) <= length bs.
Proof.
  unfold payload_kind. destruct (Nat.eqb_spec (length bs) 44) as [H|]; [|cbn; lia].
  rewrite H. destruct (kind_of_type (bits bs 0 8)); cbn; try lia. congruence.
Qed.

Lemma kind_rkeycont t : kind_of_type t = KConfirmRKeyCont <-> t = 8%N.
Proof.
  split; [|intros ->; reflexivity]. rewrite kind_of_type_cases. intros H.
  repeat match type of H with context [(t =? ?n)%N] =>
    destruct (N.eqb_spec t n); [subst; try discriminate; try reflexivity|] end. discriminate.
Qed.

Lemma ParseLLC_dispatch m buf : slice_ok m buf ->
  let bs := s_bytes m buf in
  let k := if length bs =? 44 then kind_of_type (bits bs 0 8) else KOther in
  k <> KConfirmRKeyCont ->
  exists msg, ParseLLC m buf = ([], Done msg) /\ llc_kind_of msg = k.
Proof.
  intros Hok bs k Hk. change k with (payload_kind bs) in *. rewrite ParseLLC_run by assumption. fold bs.
  apply (proj2 (llc_parser_panics (payload_kind bs) m buf Hok)).
  rewrite <- (s_bytes_length m buf Hok). apply payload_kind_min. assumption.
Qed.

Lemma ParseLLC_panics m buf : slice_ok m buf ->
  let bs := s_bytes m buf in
  (ParseLLC m buf = ([], Panicked) <-> length bs = 44 /\ bits bs 0 8 = 8%N) /\
  (~ (length bs = 44 /\ bits bs 0 8 = 8%N) -> exists msg, ParseLLC m buf = ([], Done msg)).
Proof.
  intros Hok bs.
  assert (E : length bs = 44 /\ bits bs 0 8 = 8%N <-> payload_kind bs = KConfirmRKeyCont).
  { unfold payload_kind. destruct (Nat.eqb_spec (length bs) 44) as [H|H].
    - rewrite kind_rkeycont. tauto.
    - split; [intros []; contradiction|discriminate]. }
  rewrite E. split; [split|].
  - intros H. rewrite ParseLLC_run in H by assumption. fold bs in H.
    destruct (llc_parser_panics (payload_kind bs) m buf Hok) as [P Q]. apply P in H.
    rewrite <- (s_bytes_length m buf Hok) in H. fold bs in H.
    destruct (payload_kind bs) eqn:K; try reflexivity;
      pose proof (payload_kind_min bs) as M; rewrite K in M; specialize (M ltac:(discriminate)); lia.
  - intros H. rewrite ParseLLC_run by assumption. fold bs. rewrite H.
    apply llc_parser_panics; [assumption|]. apply E in H. destruct H as [H _].
    rewrite <- (s_bytes_length m buf Hok). fold bs. rewrite H. cbn. lia.
  - intros H. destruct (ParseLLC_dispatch m buf Hok H) as (msg & P & _). eauto.
Qed.

(** the message of a 44-byte payload *)
Lemma ParseLLC_decode m buf : slice_ok m buf ->
  let bs := s_bytes m buf in
  let k := kind_of_type (bits bs 0 8) in
  length bs = 44 -> k <> KConfirmRKeyCont ->
  exists msg, ParseLLC m buf = ([], Done msg) /\ llc_kind_of msg = k /\
    llc_view msg = decode (llc_layout k) bs /\ b_Raw (LLC_Base msg) = bs.
Proof.
  intros Hok bs k Hl Hk. rewrite ParseLLC_run by assumption. fold bs.
  assert (E : payload_kind bs = k) by (unfold payload_kind; rewrite Hl; reflexivity).
  rewrite E, llc_parser_fresh.
  destruct (LLC_decode m buf (llc_fresh k) Hok (llc_fresh_wf k)) as (msg & P & K & V & R).
  - rewrite llc_fresh_kind, <- (s_bytes_length m buf Hok). fold bs. rewrite Hl.
    destruct k; cbn; try lia. congruence.
  - rewrite llc_fresh_kind in *. exists msg. auto.
Qed.

(** ** C29 *)

Lemma ParseLLC_type m buf msg : slice_ok m buf ->
  let bs := s_bytes m buf in
  ParseLLC m buf = ([], Done msg) ->
  LLC_GetType msg = (if (length bs =? 44)%nat && existsb (N.eqb (bits bs 0 8)) [1; 2; 3; 4; 6; 7; 9; 254]%N
                     then bits bs 0 8 else 257)%N /\
  b_Length (LLC_Base msg) = (if (length bs =? 44)%nat && existsb (N.eqb (bits bs 0 8)) [1; 2; 3; 4; 6; 7; 9; 254]%N
                     then bits bs 8 8 else N.of_nat (length bs))%N.
Proof.
  intros Hok bs H. rewrite ParseLLC_run in H by assumption. fold bs in H.
  rewrite llc_parser_fresh in H.
  destruct (le_lt_dec (llc_min (payload_kind bs)) (s_len buf)) as [Hm|Hm].
  2: { rewrite LLC_Parse_panic in H; [discriminate|assumption|apply llc_fresh_wf|rewrite llc_fresh_kind; assumption]. }
  rewrite LLC_Parse_ok in H; [|assumption|apply llc_fresh_wf|rewrite llc_fresh_kind; assumption].
  injection H as <-. fold bs. pose proof (s_bytes_length m buf Hok) as Hb. fold bs in Hb.
  unfold payload_kind in *. destruct (Nat.eqb_spec (length bs) 44) as [Hl|Hl]; [|split; reflexivity].
  cbn [andb].
  assert (T : bn bs 0 = bits bs 0 8) by (clearbody bs; unfold bn; bits_in_byte).
  assert (L : bn bs 1 = bits bs 8 8) by (clearbody bs; unfold bn; bits_in_byte).
  rewrite kind_of_type_cases in *. rewrite <- T, <- L. cbn [existsb].
  set (t := bn bs 0).
  assert (Hr : t = 8%N -> False).
  { intros E. rewrite <- T in Hm. fold t in Hm. rewrite E in Hm. cbn in Hm. lia. }
  repeat match goal with |- context [(t =? ?n)%N] =>
    destruct (N.eqb_spec t n) as [E|]; [rewrite ?E; try (exfalso; exact (Hr E)); split; subst t; try exact E; try reflexivity;
      try (symmetry; exact E)|] end;
  try (split; reflexivity).
Qed.

(** ** Parsing into a used object; only the given bytes matter *)

Lemma LLC_again m buf old : slice_ok m buf -> llc_wf old ->
  llc_size (llc_kind_of old) <= s_len buf -> llc_kind_of old <> KAddLink ->
  LLC_Parse m old buf = LLC_Parse m (llc_fresh (llc_kind_of old)) buf.
Proof.
  intros Hok Hwf Hl Hk. pose proof (llc_size_min (llc_kind_of old)).
  pose proof (s_bytes_length m buf Hok) as Hb.
  rewrite LLC_Parse_ok by (assumption || lia).
  rewrite LLC_Parse_ok by (assumption || apply llc_fresh_wf || (rewrite llc_fresh_kind; lia)).
  f_equal. destruct old; cbn [llc_of llc_fresh llc_kind_of llc_wf llc_size] in *; try reflexivity;
    try congruence; f_equal;
    unfold ConfirmLink_of, AddLinkCont_of, DeleteLink_of, ConfirmRKey_of, ConfirmRKeyCont_of,
      deleteRKey_of, TestLink_of, CDC_of; f_equal.
  - rewrite !(tail_full _ 35 _ 9) by (lia || reflexivity). reflexivity.
  - rewrite !(tail_full _ 40 _ 4) by (lia || reflexivity). reflexivity.
  - rewrite !(tail_full _ 9 _ 35) by (lia || reflexivity). reflexivity.
  - rewrite !(tail_full _ 40 _ 4) by (lia || reflexivity). reflexivity.
  - rewrite !(tail_full _ 20 _ 24) by (lia || reflexivity). reflexivity.
  - f_equal. rewrite !(tail_full _ 26 _ 18) by (rewrite ?skipn_length; lia || reflexivity). reflexivity.
Qed.

Lemma LLC_local m1 m2 buf old : slice_ok m1 buf -> slice_ok m2 buf -> llc_wf old ->
  s_bytes m1 buf = s_bytes m2 buf -> LLC_Parse m1 old buf = LLC_Parse m2 old buf.
Proof.
  intros Hok1 Hok2 Hwf E. destruct (le_lt_dec (llc_min (llc_kind_of old)) (s_len buf)).
  - rewrite !LLC_Parse_ok by assumption. rewrite E. reflexivity.
  - rewrite !LLC_Parse_panic by assumption. reflexivity.
Qed.

(** Add Link: the two bytes of res4 that no 44-byte message reaches *)
Lemma AddLink_stale m buf old : slice_ok m buf -> llc_wf (LAddLink old) -> s_len buf = 44 ->
  exists new, AddLink_Parse m old buf = ([], Done new) /\
    al_res4 new = bytes_at (s_bytes m buf) 36 8 ++ skipn 8 (al_res4 old).
Proof.
  intros Hok Hwf Hl. pose proof (s_bytes_length m buf Hok) as Hb.
  eexists. split; [apply AddLink_ok; [assumption..|lia]|].
  unfold AddLink_of; cbn [al_res4]. cbn [llc_wf] in Hwf.
  rewrite tail_part by lia. rewrite Hb, Hl. change (44 - 36) with 8. f_equal.
  unfold bytes_at. symmetry. apply firstn_all2. rewrite skipn_length. lia.
Qed.
