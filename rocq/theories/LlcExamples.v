(** * LlcExamples: witnesses, samples and small consequences for PropsLlc.v. Proofs only. *)

From Coq Require Import NArith ZArith Bool String Arith List Lia.
From Coq Require Import ZifyBool ZifyNat ZifyN.
From Verif Require Import GoBase GoFmt ClcModel LlcModel RoceModel Samples Slices Wire WireLemmas ClcView LlcView
  ClcParse LlcParse LlcMessage RoceParse.
Import ListNotations.
Local Open Scope nat_scope.

Definition sample_confirm_link : list byte :=
  Eval vm_compute in hexs "012c000098039babcdeffe800000000000009a039bfffeabcdef0000e4010000000102000000000000000000".
Definition sample_grh : list byte :=
  Eval vm_compute in hexs "6ab54321003c1b01fe800000000000009a039bfffeabcdeffe800000000000009a039bfffeabcdee".
Definition sample_bth : list byte := Eval vm_compute in hexs "0440ffff000000e400000001".
Definition sample_packet_v2 : list byte :=
  Eval vm_compute in (sample_bth ++ sample_confirm_link ++ hexs "deadbeef")%list.
Definition sample_crash_v2 : list byte :=
  Eval vm_compute in (sample_bth ++ [x08; x2c] ++ zeros 42 ++ hexs "deadbeef")%list.

Lemma ParseLLC_other m buf msg : slice_ok m buf ->
  let bs := s_bytes m buf in
  ParseLLC m buf = ([], Done msg) ->
  (llc_kind_of msg = KOther <->
   length bs <> 44 \/ ~ In (bits bs 0 8) [1; 2; 3; 4; 6; 7; 8; 9; 254]%N).
Proof.
  intros Hok bs H.
  assert (K : payload_kind bs <> KConfirmRKeyCont).
  { intros K. destruct (ParseLLC_panics m buf Hok) as [P _]. fold bs in P.
    assert (E : ParseLLC m buf = ([], Panicked)).
    { apply P. unfold payload_kind in K. destruct (Nat.eqb_spec (length bs) 44); [|discriminate].
      split; [assumption|]. apply kind_rkeycont. assumption. }
    rewrite E in H. discriminate. }
  destruct (ParseLLC_dispatch m buf Hok K) as (msg' & P & Q).
  rewrite H in P. injection P as <-. rewrite Q. fold bs.
  destruct (Nat.eqb_spec (length bs) 44) as [E|E]; [|tauto].
  rewrite kind_of_type_cases. set (t := bits bs 0 8). cbn [In].
  repeat match goal with |- context [(t =? ?n)%N] =>
    destruct (N.eqb_spec t n); [split; [discriminate|intros [?|?]; [contradiction|exfalso; intuition]]|] end.
  split; [|reflexivity]. intros _. right. intuition.
Qed.

Lemma ParseLLC_panic_witness :
  exists m buf, slice_ok m buf /\ length (s_bytes m buf) = 44 /\ ParseLLC m buf = ([], Panicked).
Proof.
  exists (mem1 ([x08; x2c] ++ zeros 42)), (slice1 ([x08; x2c] ++ zeros 42)).
  split; [apply slice1_ok|]. split; vm_compute; reflexivity.
Qed.

Lemma BTH_decode m buf old : slice_ok m buf ->
  let bs := s_bytes m buf in
  12 <= s_len buf ->
  exists b, BTH_Parse m old buf = ([], Done b) /\ bth_view b = decode bth bs /\ bth_Raw b = bs.
Proof.
  intros Hok bs H. pose proof (s_bytes_length m buf Hok) as Hb.
  exists (BTH_of bs). split; [apply BTH_ok; assumption|]. split; [|reflexivity].
  apply BTH_view. subst bs. lia.
Qed.

Lemma BTH_lossless m1 buf1 old1 b1 m2 buf2 old2 b2 :
  slice_ok m1 buf1 -> slice_ok m2 buf2 -> s_len buf1 = 12 -> s_len buf2 = 12 ->
  BTH_Parse m1 old1 buf1 = ([], Done b1) -> BTH_Parse m2 old2 buf2 = ([], Done b2) ->
  bth_view b1 = bth_view b2 -> s_bytes m1 buf1 = s_bytes m2 buf2.
Proof.
  intros Hok1 Hok2 H1 H2 E1 E2 Hv.
  destruct (BTH_decode m1 buf1 old1 Hok1 ltac:(lia)) as (c1 & P1 & V1 & _).
  destruct (BTH_decode m2 buf2 old2 Hok2 ltac:(lia)) as (c2 & P2 & V2 & _).
  rewrite E1 in P1. rewrite E2 in P2. injection P1 as <-. injection P2 as <-.
  rewrite V1, V2 in Hv.
  eapply decode_inj; [| | |exact Hv]; rewrite ?(s_bytes_length m1 buf1 Hok1), ?(s_bytes_length m2 buf2 Hok2).
  - reflexivity.
  - rewrite H1. reflexivity.
  - congruence.
Qed.

Lemma add_link_again_witness :
  exists m buf old, slice_ok m buf /\ llc_reachable (LAddLink old) /\ s_len buf = 44 /\
    LLC_Parse m (LAddLink old) buf <> LLC_Parse m (llc_fresh KAddLink) buf.
Proof.
  set (long := repeat xff 46).
  exists (mem1 (zeros 44)), (slice1 (zeros 44)), (AddLink_of long AddLink_zero).
  split; [apply slice1_ok|]. split.
  - apply (llc_reach_parse (mem1 long) (llc_fresh KAddLink) (slice1 long) []);
      [constructor|apply slice1_ok|vm_compute; reflexivity].
  - split; [reflexivity|]. vm_compute. discriminate.
Qed.

Lemma sub_visible m1 m2 buf o l : slice_ok m1 buf -> slice_ok m2 buf -> o + l <= s_len buf ->
  s_bytes m1 buf = s_bytes m2 buf -> s_bytes m1 (sub buf o l) = s_bytes m2 (sub buf o l).
Proof. intros H1 H2 H E. rewrite !sub_bytes by assumption. rewrite E. reflexivity. Qed.

Lemma ParseLLC_local m1 m2 buf : slice_ok m1 buf -> slice_ok m2 buf ->
  s_bytes m1 buf = s_bytes m2 buf -> ParseLLC m1 buf = ParseLLC m2 buf.
Proof.
  intros H1 H2 E. rewrite !ParseLLC_run by assumption. rewrite E, !llc_parser_fresh.
  apply LLC_local; try assumption. apply llc_fresh_wf.
Qed.

Lemma roce_local m1 m2 buf : slice_ok m1 buf -> slice_ok m2 buf ->
  s_bytes m1 buf = s_bytes m2 buf ->
  ParseLLC m1 buf = ParseLLC m2 buf /\ ParseRoCEv1 m1 buf = ParseRoCEv1 m2 buf /\
  ParseRoCEv2 m1 buf = ParseRoCEv2 m2 buf.
Proof.
  intros H1 H2 E. split; [apply ParseLLC_local; assumption|]. split.
  - destruct (le_lt_dec 56 (s_len buf)).
    + rewrite !RoCEv1_run by assumption. rewrite E.
      rewrite (ParseLLC_local m1 m2 (payload buf 52)); [reflexivity| | |].
      * apply payload_ok; [assumption|lia].
      * apply payload_ok; [assumption|lia].
      * apply sub_visible; try assumption. lia.
    + rewrite !RoCEv1_short by assumption. reflexivity.
  - destruct (le_lt_dec 16 (s_len buf)).
    + rewrite !RoCEv2_run by assumption. rewrite E.
      rewrite (ParseLLC_local m1 m2 (payload buf 12)); [reflexivity| | |].
      * apply payload_ok; [assumption|lia].
      * apply payload_ok; [assumption|lia].
      * apply sub_visible; try assumption. lia.
    + rewrite !RoCEv2_short by assumption. reflexivity.
Qed.

Lemma icrc_live m buf r : slice_ok m buf ->
  (ParseRoCEv1 m buf = ([], Done r) \/ ParseRoCEv2 m buf = ([], Done r)) ->
  forall later, slice_ok later buf -> s_bytes later (r_ICRC r) = last4 (s_bytes later buf).
Proof.
  intros Hok [H|H] later Hl.
  - destruct (le_lt_dec 56 (s_len buf)).
    + rewrite RoCEv1_run in H by assumption. destruct (ParseLLC m (payload buf 52)) as [l1 [x| |]]; try discriminate.
      unfold bind, ret in H. injection H as _ <-. cbn [r_ICRC]. apply (icrc_bytes m); [assumption|lia|assumption].
    + rewrite RoCEv1_short in H by assumption. discriminate.
  - destruct (le_lt_dec 16 (s_len buf)).
    + rewrite RoCEv2_run in H by assumption. destruct (ParseLLC m (payload buf 12)) as [l1 [x| |]]; try discriminate.
      unfold bind, ret in H. injection H as _ <-. cbn [r_ICRC]. apply (icrc_bytes m); [assumption|lia|assumption].
    + rewrite RoCEv2_short in H by assumption. discriminate.
Qed.

Lemma v1_partition m buf : slice_ok m buf -> 56 <= s_len buf ->
  let bs := s_bytes m buf in
  ~ (length bs = 100 /\ bits bs (8 * 52) 8 = 8%N) ->
  exists g b l ic,
    ParseRoCEv1 m buf = ([], Done (mkRoCE "RoCEv1" (Some g) b l ic)) /\
    grh_view g = decode grh (bytes_at bs 0 40) /\ grh_Contents g = bytes_at bs 0 40 /\
    bth_view b = decode bth (bytes_at bs 40 12) /\ bth_Raw b = bytes_at bs 40 12 /\
    (exists p, slice_ok m p /\ s_bytes m p = bytes_at bs 52 (length bs - 56) /\ ParseLLC m p = ([], Done l)) /\
    b_Raw (LLC_Base l) = bytes_at bs 52 (length bs - 56) /\
    bs = grh_Contents g ++ bth_Raw b ++ b_Raw (LLC_Base l) ++ s_bytes m ic.
Proof.
  intros Hok Hl bs Hc. destruct (RoCEv1_result m buf Hok Hl Hc) as (g & b & l & H).
  exists g, b, l, (icrc buf 52). exact H.
Qed.

Lemma v2_partition m buf : slice_ok m buf -> 16 <= s_len buf ->
  let bs := s_bytes m buf in
  ~ (length bs = 60 /\ bits bs (8 * 12) 8 = 8%N) ->
  exists b l ic,
    ParseRoCEv2 m buf = ([], Done (mkRoCE "RoCEv2" None b l ic)) /\
    bth_view b = decode bth (bytes_at bs 0 12) /\ bth_Raw b = bytes_at bs 0 12 /\
    (exists p, slice_ok m p /\ s_bytes m p = bytes_at bs 12 (length bs - 16) /\ ParseLLC m p = ([], Done l)) /\
    b_Raw (LLC_Base l) = bytes_at bs 12 (length bs - 16) /\
    bs = bth_Raw b ++ b_Raw (LLC_Base l) ++ s_bytes m ic.
Proof.
  intros Hok Hl bs Hc. destruct (RoCEv2_result m buf Hok Hl Hc) as (b & l & H).
  exists b, l, (icrc buf 12). exact H.
Qed.
