(** * PropsWire: several messages in one buffer, and messages made from field values
    (C57, C58).

    Vocabulary: as in PropsClc.v and PropsLlc.v; Stream.v gives the loop that reads a
    buffer message by message, Encode.v the encoder: [values_for l vs] says that [vs] has
    a value that fits for every field of the layout [l] and [encode l vs] is the bit string
    of these values, [whole k bs] says that a message consists of the fields of its kind and
    of nothing else, [object_fields] lists the fields of an object in wire order. *)

From Coq Require Import NArith Bool String Arith List Lia.
From Verif Require Import GoBase GoFmt ClcModel LlcModel RoceModel Samples Wire ClcView LlcView Show Sound Stream
  Encode.
From Verif Require StreamFacts EncodeFacts EncodeRest LlcExamples.
From Verif Require Import Witness.
Import ListNotations.
Local Open Scope nat_scope.

(** ** C57 *)

(** sound messages back to back, followed by fewer bytes than a header has, are all found *)
Theorem C57_stream : forall m ms fuel buf tail, slice_ok m buf ->
  Forall (fun kb => good (fst kb) (snd kb)) ms ->
  s_bytes m buf = concat (map snd ms) ++ tail -> length tail < 8 -> length ms < fuel ->
  exists news, read_stream fuel m buf = ([], Done news) /\
    Forall2 (fun kb new => shows_message m (fst kb) (snd kb) new) ms news.
Proof. exact StreamFacts.stream_read. Qed.
Print Assumptions C57_stream.

Example C57_example : (* a handshake and the first bytes of another one *)
  let ms := [(KProposal, sample_proposal_6); (KAcceptSMCR, sample_accept_r); (KConfirmSMCR, sample_confirm_r)] in
  Forall (fun kb => good (fst kb) (snd kb)) ms /\
  let bs := concat (map snd ms) ++ hexs "e2d4c3" in
  exists news, read_stream 4 (mem1 bs) (slice1 bs) = ([], Done news) /\
    map kind_of news = [KProposal; KAcceptSMCR; KConfirmSMCR].
Proof.
  cbv zeta. split.
  - apply Forall_cons; [|apply Forall_cons; [|apply Forall_cons; [|apply Forall_nil]]]; cbn [fst snd];
      (split; [vm_compute; reflexivity|]);
      (split; [match goal with |- kind_rel (msg_type ?b) (msg_version ?b) (msg_path ?b) _ =>
          let t := eval vm_compute in (msg_type b) in replace (msg_type b) with t by (vm_compute; reflexivity);
          let t := eval vm_compute in (msg_version b) in replace (msg_version b) with t by (vm_compute; reflexivity);
          let t := eval vm_compute in (msg_path b) in replace (msg_path b) with t by (vm_compute; reflexivity);
          constructor; discriminate end|]);
      (split; [vm_compute; reflexivity|]); (split; [apply Nat.leb_le; vm_compute; reflexivity|]);
      (split; [|discriminate]);
      (split; [apply Nat.leb_le; vm_compute; reflexivity|split; [vm_compute; reflexivity|try exact I]]).
    apply Nat.leb_le; vm_compute; reflexivity.
  - eexists. split; [vm_compute; reflexivity|]. vm_compute. reflexivity.
Qed.

(** ** C58 *)

(** the encoder is right: every field is where the layout says, with its value *)
Theorem C58_encoder : forall l vs, aligned_at l 0 = true -> layout_bits l mod 8 = 0 -> values_for l vs ->
  8 * length (encode l vs) = layout_bits l /\ decode l (encode l vs) = vs.
Proof. exact EncodeFacts.decode_encode. Qed.
Print Assumptions C58_encoder.

Example C58_encoder_case :
  let l := llc_layout KDeleteLink in
  aligned_at l 0 = true /\ layout_bits l mod 8 = 0 /\ layout_bits l = 8 * 44 /\ aligned_at bth 0 = true /\
  layout_bits bth mod 8 = 0.
Proof. computes. Qed.

(** CLC: from bytes to the fields of the object, nothing missing and nothing added *)
Theorem C58_object_fields : forall m buf k, slice_ok m buf ->
  let bs := s_bytes m buf in whole k bs ->
  exists new, Message_Parse m (fresh k) buf = (trailer_log (last4 bs), Done new) /\
    object_fields new = decode (wire_layout k bs) bs.
Proof. exact EncodeFacts.parse_fields. Qed.
Print Assumptions C58_object_fields.

Example C58_object_fields_case :
  let m := mem1 sample_accept_d2_fce in let buf := slice1 sample_accept_d2_fce in
  slice_ok m buf /\ whole KAcceptSMCDv2 (s_bytes m buf) /\
  exists new, Message_Parse m (fresh KAcceptSMCDv2) buf = ([], Done new) /\
    In ("OS Type"%string, VN 2) (object_fields new).
Proof. unfold whole. computes. Qed.

(** CLC: the values that were written are the values that are read *)
Theorem C58_clc_round_trip : forall k l vs, values_for l vs -> wire_layout k (encode l vs) = l ->
  whole k (encode l vs) ->
  forall m buf, slice_ok m buf -> s_bytes m buf = encode l vs ->
  exists new, Message_Parse m (fresh k) buf = (trailer_log (last4 (encode l vs)), Done new) /\
    object_fields new = vs.
Proof. exact EncodeFacts.encode_parse. Qed.
Print Assumptions C58_clc_round_trip.

(** CLC: the message can be rebuilt from the object *)
Theorem C58_clc_rebuild : forall m buf k logs new, slice_ok m buf ->
  let bs := s_bytes m buf in whole k bs ->
  Message_Parse m (fresh k) buf = (logs, Done new) -> encode (wire_layout k bs) (object_fields new) = bs.
Proof. exact EncodeFacts.parse_encode. Qed.
Print Assumptions C58_clc_rebuild.

Example C58_clc_rebuild_case : (* a trailer that is not right is logged *)
  let bs := removelast sample_decline ++ [x00] in
  let m := mem1 bs in let buf := slice1 bs in
  slice_ok m buf /\ whole KDecline (s_bytes m buf) /\
  exists l new, Message_Parse m (fresh KDecline) buf = (l, Done new) /\ l <> [].
Proof. unfold whole. computes. Qed.

(** LLC and CDC, into an object of the right type and through ParseLLC *)
Theorem C58_llc_round_trip : forall m buf old vs, slice_ok m buf -> llc_wf old ->
  let l := llc_layout (llc_kind_of old) in
  values_for l vs -> s_bytes m buf = encode l vs ->
  exists new, LLC_Parse m old buf = ([], Done new) /\ llc_kind_of new = llc_kind_of old /\ llc_view new = vs.
Proof. exact EncodeRest.encode_llc. Qed.
Print Assumptions C58_llc_round_trip.

Example C58_llc_round_trip_case : (* into an object of another message *)
  let bs := hexs "fe2c000000010203040506070809000000000000" ++ zeros 28 in
  exists old, LLC_Parse (mem1 bs) (llc_fresh KCDC) (slice1 bs) = ([], Done old) /\ llc_wf old /\
  let l := llc_layout (llc_kind_of old) in
  let vs := decode l (repeat xa5 44) in
  values_for l vs /\ encode l vs = repeat xa5 44.
Proof.
  computes. vm_compute. repeat (constructor; [split; [reflexivity|first [reflexivity|vm_compute; reflexivity]]|]).
  constructor.
Qed.

Theorem C58_payload_round_trip : forall m buf k vs, slice_ok m buf -> k <> KOther -> k <> KConfirmRKeyCont ->
  values_for (llc_layout k) vs -> s_bytes m buf = encode (llc_layout k) vs ->
  k = kind_of_type (bits (s_bytes m buf) 0 8) ->
  exists msg, ParseLLC m buf = ([], Done msg) /\ llc_kind_of msg = k /\ llc_view msg = vs.
Proof. exact EncodeRest.encode_ParseLLC. Qed.
Print Assumptions C58_payload_round_trip.

Example C58_payload_round_trip_case :
  let k := KConfirmRKey in
  let vs := decode (llc_layout k) (hexs "062c0002" ++ repeat x77 40) in
  k <> KOther /\ k <> KConfirmRKeyCont /\
  k = kind_of_type (bits (encode (llc_layout k) vs) 0 8) /\ values_for (llc_layout k) vs.
Proof.
  computes. vm_compute. repeat (constructor; [split; [reflexivity|first [reflexivity|vm_compute; reflexivity]]|]).
  constructor.
Qed.

Theorem C58_llc_rebuild : forall m buf old logs new, slice_ok m buf -> llc_wf old ->
  s_len buf = llc_size (llc_kind_of old) -> LLC_Parse m old buf = (logs, Done new) ->
  encode (llc_layout (llc_kind_of new)) (llc_view new) = s_bytes m buf.
Proof. exact EncodeRest.llc_encode. Qed.
Print Assumptions C58_llc_rebuild.

Example C58_llc_rebuild_case :
  let bs := hexs "072c0005" ++ repeat x5a 40 in
  let m := mem1 bs in let buf := slice1 bs in let old := llc_fresh KTestLink in
  slice_ok m buf /\ llc_wf old /\ s_len buf = llc_size (llc_kind_of old) /\
  exists new, LLC_Parse m old buf = ([], Done new) /\ llc_view new <> llc_view old.
Proof. computes. Qed.

(** transport and routing header *)
Theorem C58_bth_round_trip : forall m buf old vs, slice_ok m buf -> values_for bth vs ->
  s_bytes m buf = encode bth vs -> exists b, BTH_Parse m old buf = ([], Done b) /\ bth_view b = vs.
Proof. exact EncodeRest.encode_bth. Qed.
Print Assumptions C58_bth_round_trip.

Theorem C58_bth_rebuild : forall m buf old b, slice_ok m buf -> s_len buf = 12 ->
  BTH_Parse m old buf = ([], Done b) -> encode bth (bth_view b) = s_bytes m buf.
Proof. exact EncodeRest.bth_encode. Qed.
Print Assumptions C58_bth_rebuild.

Example C58_bth_rebuild_case :
  let bs := hexs "04f11234c0abcdef80123456" in
  let m := mem1 bs in let buf := slice1 bs in
  slice_ok m buf /\ s_len buf = 12 /\
  exists b, BTH_Parse m BTH_zero buf = ([], Done b) /\ bth_view b <> bth_view BTH_zero.
Proof. computes. Qed.

Theorem C58_grh_round_trip : forall m buf old vs, slice_ok m buf -> values_for grh vs ->
  s_bytes m buf = encode grh vs -> exists g, GRH_Parse m old buf = ([], Done g) /\ grh_view g = vs.
Proof. exact EncodeRest.encode_grh. Qed.
Print Assumptions C58_grh_round_trip.

Example C58_grh_round_trip_case :
  let vs := decode grh LlcExamples.sample_grh in
  values_for grh vs /\ encode grh vs = firstn 40 LlcExamples.sample_grh /\ In ("Hop Limit"%string, VN 1) vs.
Proof.
  cbv zeta. split; [|split; [vm_compute; reflexivity|vm_compute; tauto]].
  vm_compute. repeat (constructor; [split; [reflexivity|first [reflexivity|vm_compute; reflexivity]]|]).
  constructor.
Qed.

Theorem C58_grh_rebuild : forall m buf old g, slice_ok m buf -> s_len buf = 40 ->
  GRH_Parse m old buf = ([], Done g) -> encode grh (grh_view g) = s_bytes m buf.
Proof. exact EncodeRest.grh_encode. Qed.
Print Assumptions C58_grh_rebuild.

Example C58_grh_rebuild_case :
  let bs := firstn 40 LlcExamples.sample_grh in
  let m := mem1 bs in let buf := slice1 bs in
  slice_ok m buf /\ s_len buf = 40 /\
  exists g, GRH_Parse m GRH_zero buf = ([], Done g) /\ grh_view g <> grh_view GRH_zero.
Proof. computes. Qed.

Example C58_example_whole : (* one IPv6 prefix, one EID, one GID *)
  whole KProposalV2 sample_prop2_6 /\ length (wire_layout KProposalV2 sample_prop2_6) = 35.
Proof.
  split; [|vm_compute; reflexivity]. split; [vm_compute; reflexivity|]. split; [vm_compute; reflexivity|].
  split; intros _; apply Nat.leb_le; vm_compute; reflexivity.
Qed.

Example C58_example : (* a transport header *)
  let vs := [("OpCode", VN 4); ("SE", VN 1); ("M", VN 1); ("Pad", VN 3); ("TVer", VN 1); ("PKey", VN 0x1234);
     ("FECN", VN 1); ("BECN", VN 1); ("Res", VN 0); ("DestQP", VN 0xabcdef); ("A", VN 1);
     ("Res", VN 0); ("PSN", VN 0x123456)]%string in
  values_for bth vs /\ encode bth vs = hexs "04f11234c0abcdef80123456".
Proof.
  cbv zeta. split; [|vm_compute; reflexivity]. repeat (constructor; [split; [reflexivity|vm_compute; reflexivity]|]).
  constructor.
Qed.

Example C58_example_clc : (* a Decline *)
  let l := wire_layout KDecline sample_decline in
  let vs := decode l sample_decline in
  values_for l vs /\ wire_layout KDecline (encode l vs) = l /\ whole KDecline (encode l vs) /\
  In ("Peer Diagnosis"%string, VN 0x3030000) vs.
Proof.
  cbv zeta. split; [|split; [reflexivity|split; [split; [|split; [|exact I]]; vm_compute; reflexivity|]]].
  - vm_compute. repeat (constructor; [split; [reflexivity|first [reflexivity|vm_compute; reflexivity]]|]). constructor.
  - vm_compute. tauto.
Qed.
