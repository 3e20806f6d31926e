(** * PropsVisible: which LLC, CDC and RoCE messages have the same text (C75).

    Vocabulary: as in PropsLlc.v, PropsText.v and PropsLossless.v.  Visible.v says which bytes
    ([visible]) and fields ([told]) of a payload its texts show, and when two payloads
    ([same_payload]) and two global routing headers ([same_grh]) look the same. *)

From Coq Require Import NArith Bool String Ascii Arith List Lia.
From Verif Require Import GoBase GoFmt ClcModel LlcModel RoceModel Samples Wire ClcView LlcView Names Show Lossless Visible.
From Verif Require VisibleFacts LlcExamples.
From Verif Require Import Witness.
Import ListNotations.
Local Open Scope nat_scope.

(** ** C75 *)

(** two payloads have the same Reserved() text exactly when they are of the same kind and
    agree in the bytes that are shown *)
Theorem C75_reserved : forall m m' buf buf' msg msg', slice_ok m buf -> slice_ok m' buf' ->
  ParseLLC m buf = ([], Done msg) -> ParseLLC m' buf' = ([], Done msg') ->
  LLC_Reserved msg = LLC_Reserved msg' <-> same_payload (s_bytes m buf) (s_bytes m' buf').
Proof. exact VisibleFacts.reserved_texts. Qed.
Print Assumptions C75_reserved.

(** ... and the same String() text exactly when they agree in the fields that are shown *)
Theorem C75_string : forall m m' buf buf' msg msg', slice_ok m buf -> slice_ok m' buf' ->
  ParseLLC m buf = ([], Done msg) -> ParseLLC m' buf' = ([], Done msg') ->
  let bs := s_bytes m buf in let bs' := s_bytes m' buf' in
  LLC_String msg = LLC_String msg' <->
  payload_kind bs = payload_kind bs' /\ told (payload_kind bs) bs = told (payload_kind bs) bs'.
Proof. exact VisibleFacts.string_texts. Qed.
Print Assumptions C75_string.

Example C75_llc_case : (* Add Link messages that differ behind the MAC, and in the GID *)
  let a := hexs "022c000098039babcdef0000" ++ zeros 32 in
  let b := hexs "022c000098039babcdefffff" ++ zeros 32 in
  let c := hexs "022c000098039babcdef000001" ++ zeros 31 in
  slice_ok (mem1 a) (slice1 a) /\ slice_ok (mem1 b) (slice1 b) /\ slice_ok (mem1 c) (slice1 c) /\
  same_payload a b /\ ~ same_payload a c /\ length (told KAddLink a) = 11 /\
  told KAddLink a = told KAddLink b /\ told KAddLink a <> told KAddLink c /\
  exists x y z, ParseLLC (mem1 a) (slice1 a) = ([], Done x) /\ ParseLLC (mem1 b) (slice1 b) = ([], Done y) /\
    ParseLLC (mem1 c) (slice1 c) = ([], Done z) /\
    LLC_Reserved x = LLC_Reserved y /\ LLC_String x = LLC_String y /\
    LLC_Reserved x <> LLC_Reserved z /\ LLC_String x <> LLC_String z.
Proof.
  cbv zeta. split; [apply slice1_ok|]. split; [apply slice1_ok|]. split; [apply slice1_ok|].
  split; [split; reflexivity|]. split; [intros [_ H]; discriminate H|].
  split; [reflexivity|]. split; [reflexivity|]. split; [vm_compute; discriminate|].
  do 3 eexists. split; [vm_compute; reflexivity|]. split; [vm_compute; reflexivity|]. split; [vm_compute; reflexivity|].
  split; [vm_compute; reflexivity|]. split; [vm_compute; reflexivity|]. split; vm_compute; discriminate.
Qed.

(** BTH: Reserved() shows all twelve bytes, String() all fields but the reserved ones *)
Theorem C75_bth : forall m m' old old' buf buf' b b', slice_ok m buf -> slice_ok m' buf' ->
  12 <= s_len buf -> 12 <= s_len buf' ->
  BTH_Parse m old buf = ([], Done b) -> BTH_Parse m' old' buf' = ([], Done b') ->
  BTH_Reserved b = BTH_Reserved b' <-> bytes_at (s_bytes m buf) 0 12 = bytes_at (s_bytes m' buf') 0 12.
Proof. exact VisibleFacts.bth_reserved_texts. Qed.
Print Assumptions C75_bth.

Theorem C75_bth_string : forall m m' old old' buf buf' b b', slice_ok m buf -> slice_ok m' buf' ->
  12 <= s_len buf -> 12 <= s_len buf' ->
  BTH_Parse m old buf = ([], Done b) -> BTH_Parse m' old' buf' = ([], Done b') ->
  BTH_String b = BTH_String b' <->
  filter not_res (decode bth (s_bytes m buf)) = filter not_res (decode bth (s_bytes m' buf')).
Proof. exact VisibleFacts.bth_string_texts. Qed.
Print Assumptions C75_bth_string.

Example C75_bth_case : (* a reserved bit is set *)
  let a := zeros 12 in let b := zeros 4 ++ [x01] ++ zeros 7 in
  slice_ok (mem1 a) (slice1 a) /\ slice_ok (mem1 b) (slice1 b) /\ 12 <= s_len (slice1 a) /\
  filter not_res (decode bth a) = filter not_res (decode bth b) /\ a <> b /\
  exists x y, BTH_Parse (mem1 a) BTH_zero (slice1 a) = ([], Done x) /\
    BTH_Parse (mem1 b) BTH_zero (slice1 b) = ([], Done y) /\
    BTH_String x = BTH_String y /\ BTH_Reserved x <> BTH_Reserved y.
Proof.
  cbv zeta. split; [apply slice1_ok|]. split; [apply slice1_ok|]. split; [apply Nat.leb_le; reflexivity|].
  split; [reflexivity|]. split; [discriminate|]. do 2 eexists.
  split; [vm_compute; reflexivity|]. split; [vm_compute; reflexivity|]. split; [vm_compute; reflexivity|vm_compute; discriminate].
Qed.

(** GRH: all bytes, apart from next headers with the same name *)
Theorem C75_grh : forall pn m m' old old' buf buf' g g', (forall n, one_item (pn n)) ->
  slice_ok m buf -> slice_ok m' buf' -> 40 <= s_len buf -> 40 <= s_len buf' ->
  GRH_Parse m old buf = ([], Done g) -> GRH_Parse m' old' buf' = ([], Done g') ->
  GRH_String pn g = GRH_String pn g' <-> same_grh pn (s_bytes m buf) (s_bytes m' buf').
Proof. exact VisibleFacts.grh_texts. Qed.
Print Assumptions C75_grh.

Example C75_grh_case : (* headers with different and with unknown next headers *)
  let pn := fun n : N => if (n =? 17)%N then "UDP"%string else "Unknown"%string in
  let a := zeros 6 ++ [x11] ++ zeros 33 in let b := zeros 6 ++ [x99] ++ zeros 33 in let c := zeros 6 ++ [x98] ++ zeros 33 in
  (forall n, one_item (pn n)) /\ slice_ok (mem1 a) (slice1 a) /\ 40 <= s_len (slice1 a) /\
  ~ same_grh pn a b /\ same_grh pn b c /\
  exists x y z, GRH_Parse (mem1 a) GRH_zero (slice1 a) = ([], Done x) /\ GRH_Parse (mem1 b) GRH_zero (slice1 b) = ([], Done y) /\
    GRH_Parse (mem1 c) GRH_zero (slice1 c) = ([], Done z) /\
    GRH_String pn x <> GRH_String pn y /\ GRH_String pn y = GRH_String pn z.
Proof.
  cbv zeta. split.
  { intros n c H. destruct (n =? 17)%N; cbn in H; decompose [or] H; try contradiction; subst c; repeat split; discriminate. }
  split; [apply slice1_ok|]. split; [apply Nat.leb_le; reflexivity|].
  split; [intros (_ & H & _); vm_compute in H; discriminate H|]. split; [repeat split; vm_compute; reflexivity|].
  do 3 eexists. split; [vm_compute; reflexivity|]. split; [vm_compute; reflexivity|]. split; [vm_compute; reflexivity|].
  split; [vm_compute; discriminate|vm_compute; reflexivity].
Qed.

(** whole packets; the ICRC is in no text *)
Theorem C75_packet_v2 : forall m m' buf buf' r r', slice_ok m buf -> slice_ok m' buf' ->
  ParseRoCEv2 m buf = ([], Done r) -> ParseRoCEv2 m' buf' = ([], Done r') ->
  let bs := s_bytes m buf in let bs' := s_bytes m' buf' in
  (BTH_Reserved (r_BTH r) = BTH_Reserved (r_BTH r') /\ LLC_Reserved (r_LLC r) = LLC_Reserved (r_LLC r')) <->
  (bytes_at bs 0 12 = bytes_at bs' 0 12 /\ same_payload (payload_of 12 bs) (payload_of 12 bs')).
Proof. exact VisibleFacts.packet_v2_texts. Qed.
Print Assumptions C75_packet_v2.

Theorem C75_packet_v1 : forall pn m m' buf buf' r r' g g', (forall n, one_item (pn n)) ->
  slice_ok m buf -> slice_ok m' buf' ->
  ParseRoCEv1 m buf = ([], Done r) -> ParseRoCEv1 m' buf' = ([], Done r') -> r_GRH r = Some g -> r_GRH r' = Some g' ->
  let bs := s_bytes m buf in let bs' := s_bytes m' buf' in
  (GRH_Reserved pn g = GRH_Reserved pn g' /\
   BTH_Reserved (r_BTH r) = BTH_Reserved (r_BTH r') /\ LLC_Reserved (r_LLC r) = LLC_Reserved (r_LLC r')) <->
  (same_grh pn (bytes_at bs 0 40) (bytes_at bs' 0 40) /\
   bytes_at bs 40 12 = bytes_at bs' 40 12 /\ same_payload (payload_of 52 bs) (payload_of 52 bs')).
Proof. exact VisibleFacts.packet_v1_texts. Qed.
Print Assumptions C75_packet_v1.

(** not even all texts together stand for one packet *)
Theorem C75_packet_refuted : exists m m' buf r r', slice_ok m buf /\ slice_ok m' buf /\
  ParseRoCEv2 m buf = ([], Done r) /\ ParseRoCEv2 m' buf = ([], Done r') /\
  s_bytes m buf <> s_bytes m' buf /\ llc_kind_of (r_LLC r) = KAddLinkCont /\
  BTH_Reserved (r_BTH r) = BTH_Reserved (r_BTH r') /\ LLC_Reserved (r_LLC r) = LLC_Reserved (r_LLC r') /\
  BTH_String (r_BTH r) = BTH_String (r_BTH r') /\ LLC_String (r_LLC r) = LLC_String (r_LLC r').
Proof. exact VisibleFacts.packet_witness. Qed.
Print Assumptions C75_packet_refuted.

Example C75_packet_case : (* a packet of each version *)
  let v2 := LlcExamples.sample_packet_v2 in let v1 := LlcExamples.sample_grh ++ v2 in
  slice_ok (mem1 v2) (slice1 v2) /\ slice_ok (mem1 v1) (slice1 v1) /\
  payload_kind (payload_of 12 v2) = KConfirmLink /\ payload_of 52 v1 = payload_of 12 v2 /\
  same_payload (payload_of 12 v2) (payload_of 52 v1) /\
  (exists r, ParseRoCEv2 (mem1 v2) (slice1 v2) = ([], Done r)) /\
  exists r g, ParseRoCEv1 (mem1 v1) (slice1 v1) = ([], Done r) /\ r_GRH r = Some g.
Proof.
  cbv zeta. split; [apply slice1_ok|]. split; [apply slice1_ok|]. split; [vm_compute; reflexivity|].
  split; [vm_compute; reflexivity|]. split; [split; vm_compute; reflexivity|].
  split; [eexists; vm_compute; reflexivity|]. do 2 eexists. split; [vm_compute; reflexivity|reflexivity].
Qed.
