(** * PropsText: the property theorems about texts (C19 - C24, C30, C35, C47, C48).

    Vocabulary: as in PropsClc.v and PropsLlc.v; the tables of names are in Names.v, the
    texts in Show.v: [fixed_text], [proposal_text] and [proposalv2_text] give the text of a
    CLC message and [llc_text], [bth_text] and [grh_text] those of the other messages, the
    first argument telling whether reserved fields are to be shown. *)

From Coq Require Import NArith Bool String Arith List.
From Verif Require Import GoBase GoFmt ClcModel LlcModel RoceModel Samples Wire ClcView LlcView Names Show
  Offsets.
From Verif Require ClcOffsets TextLemmas TextFacts ClcText TextWhole TextRest LlcExamples RoceText.
From Verif Require Import Witness.
Import ListNotations.
Local Open Scope nat_scope.

(** ** C19 *)

(** in terms of the fields of an object *)
Theorem C19_object_text : forall msg, message_wf msg -> size_ok msg ->
  Message_String msg = clc_text false msg /\ Message_Reserved msg = clc_text true msg.
Proof. exact ClcText.Message_text. Qed.
Print Assumptions C19_object_text.

Example C19_object_text_case : (* a size code that no message contains *)
  let msg := MAcceptSMCD {| ad_Raw := nil_slice; ad_Header := Header_zero; ad_GID := 1; ad_Token := 2;
    ad_DMBEIdx := 3; ad_DMBESize := 15; ad_reserved := 0; ad_reserved2 := zeros 2; ad_LinkID := 4;
    ad_reserved3 := zeros 12; ad_Trailer := [xe2; xd4; xc3; xc4] |} in
  message_wf msg /\ size_ok msg /\ Message_String msg = clc_text false msg /\
  shows (Message_String msg) "DMBE Size: 15 (536870912)"%string.
Proof. computes. Qed.

(** every object satisfies the hypotheses *)
Theorem C19_objects : forall msg, reachable msg -> message_wf msg /\ size_ok msg.
Proof. exact (fun msg H => conj (ClcMessage.reachable_wf msg H) (TextFacts.reachable_size msg H)). Qed.
Print Assumptions C19_objects.

Example C19_objects_case : (* after a panic, too *)
  let bs := firstn 50 sample_accept_r in
  exists msg, WriteModel.Message_W (mem1 bs) (slice1 bs) (fresh KAcceptSMCR) = ([], Panicked, msg) /\ reachable msg.
Proof.
  eexists. split; [vm_compute; reflexivity|].
  eapply (reach_panic (mem1 (firstn 50 sample_accept_r)) (fresh KAcceptSMCR) (slice1 (firstn 50 sample_accept_r)));
    [apply reach_fresh|apply slice1_ok|vm_compute; reflexivity].
Qed.

(** in terms of the received bytes *)
Theorem C19_fixed_formats : forall m old buf logs new, slice_ok m buf -> reachable old ->
  is_proposal (kind_of old) = false ->
  let bs := s_bytes m buf in
  fields_present (kind_of old) bs ->
  (is_smcdv2 (kind_of old) = true -> (declared bs <= 114)%N) ->
  Message_Parse m old buf = (logs, Done new) ->
  Message_String new = fixed_text false (kind_of old) bs /\
  Message_Reserved new = fixed_text true (kind_of old) bs.
Proof. exact TextWhole.fixed_texts. Qed.
Print Assumptions C19_fixed_formats.

Example C19_fixed_formats_case :
  let m := mem1 sample_confirm_d2_fce in let buf := slice1 sample_confirm_d2_fce in
  let old := fresh KConfirmSMCDv2 in let bs := s_bytes m buf in
  slice_ok m buf /\ reachable old /\ is_proposal (kind_of old) = false /\ fields_present (kind_of old) bs /\
  (is_smcdv2 (kind_of old) = true -> (declared bs <= 114)%N) /\
  exists new, Message_Parse m old buf = ([], Done new) /\ Message_String new <> Message_Reserved new.
Proof. computes. Qed.

Theorem C19_proposal : forall m buf logs new, slice_ok m buf ->
  let bs := s_bytes m buf in
  let L := N.to_nat (declared bs) in
  52 <= L -> L <= s_len buf -> ip_area_start bs + 12 <= L ->
  Message_Parse m (fresh KProposal) buf = (logs, Done new) ->
  Message_String new = proposal_text false bs /\ Message_Reserved new = proposal_text true bs.
Proof. exact TextWhole.proposal_texts. Qed.
Print Assumptions C19_proposal.

Theorem C19_proposalv2 : forall m buf logs new, slice_ok m buf ->
  let bs := s_bytes m buf in
  let L := N.to_nat (declared bs) in
  84 <= L -> L <= s_len buf ->
  v2_ip_room L bs -> v2_ext_room L bs -> v2_smcd_room L bs ->
  (has_ext bs = true -> v2_eids L bs <= 8) -> (has_smcd bs = true -> v2_gids L bs <= 8) ->
  Message_Parse m (fresh KProposalV2) buf = (logs, Done new) ->
  Message_String new = proposalv2_text false bs /\ Message_Reserved new = proposalv2_text true bs.
Proof. exact TextWhole.proposalv2_texts. Qed.
Print Assumptions C19_proposalv2.

Example C19_example_decline :
  let bs := sample_decline2 in
  fields_present KDeclineV2 bs /\
  (exists logs new, Message_Parse (mem1 bs) (fresh KDeclineV2) (slice1 bs) = (logs, Done new)) /\
  fixed_text true KDeclineV2 bs = ("Decline: Eyecatcher: SMC-R, Type: 4 (Decline), Length: 28, Version: 2, "
    ++ "Out of Sync: 0, Reserved: 0x0, Path: SMC-R, Peer ID: 9509@25:25:25:25:25:00, "
    ++ "Peer Diagnosis: 0x3030000 (no SMC device found (R or D)), OS Type: 2 (Linux), "
    ++ "Reserved: 0x00000000, Trailer: SMC-R")%string.
Proof.
  split; [vm_compute; repeat split; try discriminate; repeat constructor|].
  split; [do 2 eexists; vm_compute; reflexivity|vm_compute; reflexivity].
Qed.

Example C19_example_proposal :
  let bs := sample_proposal_b6 in
  let L := N.to_nat (declared bs) in
  52 <= L /\ L <= length bs /\ ip_area_start bs + 12 <= L /\
  (exists logs new, Message_Parse (mem1 bs) (fresh KProposal) (slice1 bs) = (logs, Done new)).
Proof. vm_compute. repeat split; try (repeat constructor; fail). do 2 eexists. reflexivity. Qed.

Example C19_example_proposalv2 :
  let bs := sample_prop2_6 in
  let L := N.to_nat (declared bs) in
  84 <= L /\ L <= length bs /\ v2_ip_room L bs /\ v2_ext_room L bs /\ v2_smcd_room L bs /\
  v2_eids L bs = 1 /\ v2_gids L bs = 1 /\
  (exists logs new, Message_Parse (mem1 bs) (fresh KProposalV2) (slice1 bs) = (logs, Done new)).
Proof. vm_compute. repeat split; try (repeat constructor; fail). do 2 eexists. reflexivity. Qed.

(** ** C20 *)

(** what is shown for each declared length: nothing, the message's extension, or what
    the object held before *)
Theorem C20_shown_fce : forall m old buf logs new, slice_ok m buf -> reachable old ->
  is_smcdv2 (kind_of old) = true ->
  let bs := s_bytes m buf in
  fields_present (kind_of old) bs ->
  Message_Parse m old buf = (logs, Done new) ->
  let fce := if (declared bs <? 114)%N then None
             else if (declared bs =? 114)%N then Some (decode_at fce_body (8 * 74) bs)
             else Some (fce_of old) in
  Message_String new = smcdv2_text false bs fce /\ Message_Reserved new = smcdv2_text true bs fce.
Proof. exact TextRest.smcdv2_texts. Qed.
Print Assumptions C20_shown_fce.

Example C20_shown_fce_case : (* declared length 78: no First Contact Extension, although the object had one *)
  let m := mem1 sample_accept_d2 in let buf := slice1 sample_accept_d2 in
  let bs := s_bytes m buf in
  exists old, Message_Parse (mem1 sample_accept_d2_fce) (fresh KAcceptSMCDv2) (slice1 sample_accept_d2_fce) = ([], Done old) /\
  reachable old /\ slice_ok m buf /\ is_smcdv2 (kind_of old) = true /\ fields_present (kind_of old) bs /\
  exists new, Message_Parse m old buf = ([], Done new) /\ Message_String new = smcdv2_text false bs None.
Proof.
  eexists. split; [vm_compute; reflexivity|]. split.
  - eapply (reach_parse (mem1 sample_accept_d2_fce) (fresh KAcceptSMCDv2) (slice1 sample_accept_d2_fce));
      [apply reach_fresh|apply slice1_ok|vm_compute; reflexivity].
  - computes.
Qed.

(** a complete message of 118 bytes whose extension says Linux *)
Theorem C20_long_message_refuted :
  exists m buf new, slice_ok m buf /\ length (s_bytes m buf) = N.to_nat (declared (s_bytes m buf)) /\
  NewMessage m buf = ([], Done (Some (fresh KAcceptSMCDv2), declared (s_bytes m buf))) /\
  Message_Parse m (fresh KAcceptSMCDv2) buf = ([], Done new) /\
  shows (Message_String new) "OS Type: 0 (unknown), Release: 0, Hostname: , Trailer: SMC-D"%string /\
  In ("OS Type"%string, VN 2) (decode_at fce_body (8 * 74) (s_bytes m buf)).
Proof. exact TextRest.fce_witness. Qed.
Print Assumptions C20_long_message_refuted.

Example C20_example :
  let bs := sample_accept_d2_fce in
  fields_present KAcceptSMCDv2 bs /\ declared bs = 114%N /\
  (exists logs new, Message_Parse (mem1 bs) (fresh KAcceptSMCDv2) (slice1 bs) = (logs, Done new)).
Proof.
  split; [vm_compute; repeat split; try discriminate; intros; repeat constructor|].
  split; [vm_compute; reflexivity|do 2 eexists; vm_compute; reflexivity].
Qed.

(** ** C21 *)

Theorem C21_eid_text : forall e, exists p k r,
  EID_String e = bytes_string p /\ e = p ++ repeat x20 k ++ r /\ ~ In x00 p /\
  (forall s, p <> s ++ [x20]) /\ (r = [] \/ exists s, r = x00 :: s).
Proof. exact TextFacts.EID_spec. Qed.
Print Assumptions C21_eid_text.

(** no other text has these properties *)
Theorem C21_eid_text_unique : forall e p k r p' k' r',
  e = p ++ repeat x20 k ++ r -> ~ In x00 p -> (forall s, p <> s ++ [x20]) -> (r = [] \/ exists s, r = x00 :: s) ->
  e = p' ++ repeat x20 k' ++ r' -> ~ In x00 p' -> (forall s, p' <> s ++ [x20]) -> (r' = [] \/ exists s, r' = x00 :: s) ->
  p = p'.
Proof. exact TextFacts.EID_unique. Qed.
Print Assumptions C21_eid_text_unique.

Example C21_eid_text_unique_case :
  let e := [x41; x20; x42; x20; x20; x00; x43] in
  let p := [x41; x20; x42] in let r := [x00; x43] in
  e = p ++ repeat x20 2 ++ r /\ ~ In x00 p /\ (forall s, p <> s ++ [x20]) /\ (exists s, r = x00 :: s).
Proof.
  split; [reflexivity|]. split; [cbn; intuition discriminate|]. split; [|eexists; reflexivity].
  intros s H. apply (f_equal (@rev byte)) in H. rewrite rev_app_distr in H. discriminate H.
Qed.

Theorem C21_bytes_string_injective : forall a b, bytes_string a = bytes_string b -> a = b.
Proof. exact TextFacts.bytes_string_inj. Qed.
Print Assumptions C21_bytes_string_injective.

Example C21_example : (* a blank in the middle stays *)
  EID_String ([x41; x20; x42; x20; x20; x00; x43] ++ zeros 25) = "A B"%string /\
  EID_String (repeat x20 32) = ""%string.
Proof. vm_compute. split; reflexivity. Qed.

(** ** C22 *)

Theorem C22_eyecatcher : forall m buf, slice_ok m buf ->
  let back := bytes_at (m (s_arr buf)) (s_off buf) (s_cap buf) in
  (4 <= s_cap buf -> HasEyecatcher m buf = ([], Done (is_eyecatcher (bytes_at back 0 4)))) /\
  (s_cap buf < 4 -> HasEyecatcher m buf = ([], Panicked)) /\
  (4 <= s_len buf -> bytes_at back 0 4 = bytes_at (s_bytes m buf) 0 4).
Proof. exact TextFacts.HasEyecatcher_exact. Qed.
Print Assumptions C22_eyecatcher.

Example C22_eyecatcher_case : (* two bytes of a larger array, and an array of three bytes *)
  let m := mem1 sample_decline in let few := mem1 (firstn 3 sample_decline) in
  slice_ok m (slice_n sample_decline 2) /\ 4 <= s_cap (slice_n sample_decline 2) /\
  HasEyecatcher m (slice_n sample_decline 2) = ([], Done true) /\
  slice_ok few (slice1 (firstn 3 sample_decline)) /\ s_cap (slice1 (firstn 3 sample_decline)) < 4 /\
  HasEyecatcher few (slice1 (firstn 3 sample_decline)) = ([], Panicked).
Proof. computes. Qed.

Theorem C22_tcp_option : forall opts, CheckSMCOption opts = true <->
  exists o, In o opts /\ OptionType o = 254%N /\ OptionLength o = 6%N /\ OptionData o = [xe2; xd4; xc3; xd9].
Proof. exact TextFacts.CheckSMCOption_exact. Qed.
Print Assumptions C22_tcp_option.

Example C22_example :
  HasEyecatcher (mem1 sample_accept_d) (slice1 sample_accept_d) = ([], Done true) /\
  HasEyecatcher (mem1 (zeros 4)) (slice1 (zeros 4)) = ([], Done false) /\
  CheckSMCOption [Build_TCPOption 2 4 [x05; xb4]; Build_TCPOption 254 6 [xe2; xd4; xc3; xd9]] = true /\
  CheckSMCOption [Build_TCPOption 254 6 [xe2; xd4; xc3; xc4]] = false.
Proof. vm_compute. repeat split. Qed.

(** ** C23 *)

Theorem C23_texts : forall c,
  MsgType_String c = type_text c /\ Path_String c = path_text c /\ OSType_String c = os_text c /\
  QPMTU_String c = mtu_text c /\ llc_QPMTU_String c = mtu_text c /\
  AddLinkRsnCode_String c = add_link_text c /\ DelLinkRsnCode_String c = delete_link_text c /\
  PeerDiagnosis_String c = diagnosis_text c.
Proof. exact TextRest.code_texts. Qed.
Print Assumptions C23_texts.

Theorem C23_tables_unambiguous :
  unambiguous type_names "Unknown" /\ unambiguous path_names "unknown" /\ unambiguous os_names "unknown" /\
  unambiguous mtu_names "reserved" /\ unambiguous add_link_reasons "unknown" /\
  unambiguous delete_link_reasons "unknown" /\ unambiguous diagnosis_names "Unknown".
Proof. exact TextFacts.tables_unambiguous. Qed.
Print Assumptions C23_tables_unambiguous.

(** what that means for the name in the text *)
Theorem C23_documented_or_default : forall t d c, unambiguous t d ->
  (forall s, In (c, s) t -> name_of t d c = s /\ s <> d) /\
  (~ In c (map fst t) -> name_of t d c = d) /\
  (forall c' s, In (c, s) t -> In (c', s) t -> c = c').
Proof. exact TextRest.documented_or_default. Qed.
Print Assumptions C23_documented_or_default.

(** the texts that contain the number differ for any two codes *)
Theorem C23_texts_injective : forall a b,
  (OSType_String a = OSType_String b -> a = b) /\
  (QPMTU_String a = QPMTU_String b -> a = b) /\
  (llc_QPMTU_String a = llc_QPMTU_String b -> a = b) /\
  (AddLinkRsnCode_String a = AddLinkRsnCode_String b -> a = b) /\
  (DelLinkRsnCode_String a = DelLinkRsnCode_String b -> a = b) /\
  (PeerDiagnosis_String a = PeerDiagnosis_String b -> a = b) /\
  (RMBESize_String a = RMBESize_String b -> a = b).
Proof. exact TextFacts.texts_injective. Qed.
Print Assumptions C23_texts_injective.

Example C23_example :
  PeerDiagnosis_String 0x03030007 = "0x3030007 (no SMC-Dv2 device found)"%string /\
  PeerDiagnosis_String 0xffffffff = "0xffffffff (Unknown)"%string /\
  DelLinkRsnCode_String 0x00100000 = "1048576 (Unknown link ID (no link))"%string.
Proof. vm_compute. repeat split. Qed.

(** ** C24 *)

Theorem C24_size_codes : forall msg, reachable msg -> size_ok msg.
Proof. exact TextFacts.reachable_size. Qed.
Print Assumptions C24_size_codes.

Example C24_size_codes_case :
  exists new, Message_Parse (mem1 sample_accept_r) (fresh KAcceptSMCR) (slice1 sample_accept_r) = ([], Done new) /\
    reachable new /\ size_ok new.
Proof.
  eexists. split; [vm_compute; reflexivity|]. split; [|vm_compute; reflexivity].
  eapply (reach_parse (mem1 sample_accept_r) (fresh KAcceptSMCR) (slice1 sample_accept_r));
    [apply reach_fresh|apply slice1_ok|vm_compute; reflexivity].
Qed.

Theorem C24_size_text : forall c, (c < 16)%N ->
  RMBESize_String c = named (dec c) (dec (16384 * 2 ^ c)).
Proof. exact TextRest.size_text_ok. Qed.
Print Assumptions C24_size_text.

(** the type RMBESize has 256 values: beyond 48 the power does not fit into an int, from 242
    on the exponent wraps around *)
Theorem C24_size_any : forall c, (c < 256)%N ->
  RMBESize_String c = named (dec c)
    (if (c <? 49)%N then dec (16384 * 2 ^ c)
     else if (c =? 49)%N then "-" ++ dec (2 ^ 63)
     else if (c <? 242)%N then "0" else dec (2 ^ (c - 242)))%string.
Proof. exact TextRest.size_text_any. Qed.
Print Assumptions C24_size_any.

Example C24_example : RMBESize_String 15 = "15 (536870912)"%string /\ RMBESize_String 0 = "0 (16384)"%string.
Proof. vm_compute. split; reflexivity. Qed.

(** ** C30 *)

(** in terms of the fields of an object *)
Theorem C30_object_text : forall msg, llc_wf msg -> text_complete (llc_kind_of msg) = true ->
  LLC_String msg = llc_text false (llc_kind_of msg) (llc_view msg) /\
  LLC_Reserved msg = llc_text true (llc_kind_of msg) (llc_view msg).
Proof. exact TextRest.LLC_text. Qed.
Print Assumptions C30_object_text.

Example C30_object_text_case : (* an object that was never parsed into *)
  let msg := llc_fresh KDeleteLink in
  llc_wf msg /\ text_complete (llc_kind_of msg) = true /\
  shows (LLC_String msg) "Reason Code: 0 (unknown)"%string.
Proof. computes. Qed.

(** in terms of the payload *)
Theorem C30_payload_text : forall m buf msg, slice_ok m buf ->
  let bs := s_bytes m buf in
  let k := kind_of_type (bits bs 0 8) in
  length bs = 44 -> text_complete k = true -> ParseLLC m buf = ([], Done msg) ->
  LLC_String msg = llc_text false k (decode (llc_layout k) bs) /\
  LLC_Reserved msg = llc_text true k (decode (llc_layout k) bs).
Proof. exact TextRest.ParseLLC_text. Qed.
Print Assumptions C30_payload_text.

Example C30_payload_text_case :
  let bs := hexs "092c8002aabbccdd" ++ zeros 36 in
  let m := mem1 bs in let buf := slice1 bs in
  slice_ok m buf /\ length (s_bytes m buf) = 44 /\ text_complete (kind_of_type (bits (s_bytes m buf) 0 8)) = true /\
  exists msg, ParseLLC m buf = ([], Done msg) /\ llc_kind_of msg = KDeleteRKey.
Proof. computes. Qed.

Theorem C30_add_link_string : forall m buf msg, slice_ok m buf ->
  let bs := s_bytes m buf in
  length bs = 44 -> bits bs 0 8 = 2%N -> ParseLLC m buf = ([], Done msg) ->
  LLC_String msg = llc_text false KAddLink (decode llc_add_link bs).
Proof. exact TextRest.ParseLLC_add_link_text. Qed.
Print Assumptions C30_add_link_string.

Example C30_add_link_string_case :
  let bs := hexs "022c000098039babcdef" ++ zeros 34 in
  let m := mem1 bs in let buf := slice1 bs in
  slice_ok m buf /\ length (s_bytes m buf) = 44 /\ bits (s_bytes m buf) 0 8 = 2%N /\
  exists msg, ParseLLC m buf = ([], Done msg) /\ shows (LLC_String msg) "Sender MAC: 98:03:9b:ab:cd:ef"%string.
Proof. computes. Qed.

(** Reserved() of Add Link: actual content *)
Theorem C30_add_link_actual : forall a, llc_wf (LAddLink a) ->
  LLC_String (LAddLink a) = llc_text false KAddLink (llc_view (LAddLink a)) /\
  LLC_Reserved (LAddLink a) = line (llc_title KAddLink)
    (items no_proto true add_link_reserved_rows (add_link_reserved_fields a)).
Proof. exact TextRest.LLC_add_link_text. Qed.
Print Assumptions C30_add_link_actual.

Example C30_add_link_actual_case :
  let bs := hexs "022c000098039babcdef" ++ repeat xff 34 in
  exists a, AddLink_Parse (mem1 bs) AddLink_zero (slice1 bs) = ([], Done a) /\ llc_wf (LAddLink a) /\
    add_link_reserved_fields a <> llc_view (LAddLink a).
Proof. computes. Qed.

(** Add Link Continuation: actual content *)
Theorem C30_add_link_cont_actual : forall a, llc_wf (LAddLinkCont a) ->
  LLC_String (LAddLinkCont a) = line (llc_title KAddLinkCont)
    (items no_proto false add_link_cont_shown_rows (add_link_cont_shown_fields a)) /\
  LLC_Reserved (LAddLinkCont a) = line (llc_title KAddLinkCont)
    (items no_proto true add_link_cont_shown_rows (add_link_cont_shown_fields a)).
Proof. exact TextRest.LLC_add_link_cont_text. Qed.
Print Assumptions C30_add_link_cont_actual.

Example C30_add_link_cont_actual_case :
  let bs := hexs "032c0001020000000000000100000000000000020000000000000003" ++ repeat xff 16 in
  exists a, AddLinkCont_Parse (mem1 bs) AddLinkCont_zero (slice1 bs) = ([], Done a) /\ llc_wf (LAddLinkCont a) /\
    add_link_cont_shown_fields a <> llc_view (LAddLinkCont a).
Proof. computes. Qed.

Theorem C30_add_link_cont_refuted :
  exists m1 m2 buf msg1 msg2, slice_ok m1 buf /\ slice_ok m2 buf /\
  ParseLLC m1 buf = ([], Done msg1) /\ ParseLLC m2 buf = ([], Done msg2) /\
  llc_kind_of msg1 = KAddLinkCont /\ llc_kind_of msg2 = KAddLinkCont /\
  llc_view msg1 <> llc_view msg2 /\
  LLC_String msg1 = LLC_String msg2 /\ LLC_Reserved msg1 = LLC_Reserved msg2.
Proof. exact TextRest.add_link_cont_witness. Qed.
Print Assumptions C30_add_link_cont_refuted.

Theorem C30_add_link_reserved_refuted :
  exists m1 m2 buf msg1 msg2, slice_ok m1 buf /\ slice_ok m2 buf /\
  ParseLLC m1 buf = ([], Done msg1) /\ ParseLLC m2 buf = ([], Done msg2) /\
  llc_kind_of msg1 = KAddLink /\ llc_kind_of msg2 = KAddLink /\
  llc_view msg1 <> llc_view msg2 /\ LLC_Reserved msg1 = LLC_Reserved msg2 /\
  shows (LLC_Reserved msg1) "Reserved: 0x00000000000000000000"%string.
Proof. exact TextRest.add_link_witness. Qed.
Print Assumptions C30_add_link_reserved_refuted.

Theorem C30_bth_text : forall m buf old b, slice_ok m buf ->
  let bs := s_bytes m buf in
  12 <= s_len buf -> BTH_Parse m old buf = ([], Done b) ->
  BTH_String b = bth_text false (decode bth bs) /\ BTH_Reserved b = bth_text true (decode bth bs).
Proof. exact TextRest.BTH_parsed_text. Qed.
Print Assumptions C30_bth_text.

Example C30_bth_text_case :
  let m := mem1 LlcExamples.sample_packet_v2 in let buf := slice1 LlcExamples.sample_packet_v2 in
  slice_ok m buf /\ 12 <= s_len buf /\
  exists b, BTH_Parse m BTH_zero buf = ([], Done b) /\ BTH_String b <> BTH_Reserved b.
Proof. computes. Qed.

Example C30_example :
  let bs := LlcExamples.sample_confirm_link in
  let k := kind_of_type (bits bs 0 8) in
  length bs = 44 /\ text_complete k = true /\
  llc_text false k (decode (llc_layout k) bs) =
    append ("LLC Confirm Link: Type: 1, Length: 44, Reply: false, Sender MAC: 98:03:9b:ab:cd:ef, "
      ++ "Sender GID: fe80::9a03:9bff:feab:cdef, Sender QP: 228, Link: 1, Sender Link UserID: 1, Max Links: 2")%string nl /\
  bth_text true (decode bth LlcExamples.sample_bth) =
    append ("BTH: OpCode: 0b100 (RC SEND Only), SE: false, M: true, Pad: 0, TVer: 0, PKey: 65535, "
      ++ "FECN: false, BECN: false, Res: 0x0, DestQP: 228, A: false, Res: 0x0, PSN: 1")%string nl.
Proof. vm_compute. repeat split. Qed.

(** ** C35 *)

Theorem C35_grh_text : forall pn m buf old g, slice_ok m buf ->
  let bs := s_bytes m buf in
  40 <= s_len buf -> GRH_Parse m old buf = ([], Done g) ->
  GRH_String pn g = grh_text pn (decode grh bs) /\ GRH_Reserved pn g = grh_text pn (decode grh bs).
Proof. exact TextRest.GRH_parsed_text. Qed.
Print Assumptions C35_grh_text.

Example C35_grh_text_case :
  let m := mem1 LlcExamples.sample_grh in let buf := slice1 LlcExamples.sample_grh in
  slice_ok m buf /\ 40 <= s_len buf /\
  exists g, GRH_Parse m GRH_zero buf = ([], Done g) /\
    shows (GRH_String (fun _ => "x"%string) g) "Next Header: BTH, Hop Limit: 1"%string.
Proof. computes. Qed.

Theorem C35_next_header : forall pn n, (forall k, pn k <> "BTH"%string) ->
  (next_text pn n = "BTH"%string <-> n = 27%N).
Proof. exact TextRest.next_header_text. Qed.
Print Assumptions C35_next_header.

Example C35_next_header_case :
  let pn := fun k => if (k =? 17)%N then "UDP"%string else "UnknownIPProtocol"%string in
  (forall k, pn k <> "BTH"%string) /\ next_text pn 27 = "BTH"%string /\ next_text pn 17 = "UDP"%string.
Proof.
  cbv zeta. split; [|split; reflexivity]. intros k. destruct (k =? 17)%N; discriminate.
Qed.

Example C35_example_text :
  grh_text (fun _ => "x"%string) (decode grh LlcExamples.sample_grh) =
    append ("GRH: Version: 6, Traffic Class: 171, Flow Label: 344865, Length: 60, Next Header: BTH, "
      ++ "Hop Limit: 1, Source: fe80::9a03:9bff:feab:cdef, Destination: fe80::9a03:9bff:feab:cdee")%string nl.
Proof. vm_compute. reflexivity. Qed.

(** ** C47 *)

(** entries that are in the message are shown as they are, whatever else the areas hold *)
Theorem C47_contained_entries : forall n a b c d, length a = N.to_nat n -> length c = N.to_nat n ->
  eid_area n (a ++ b) = eid_area n a /\ gid_area n (c ++ d) = gid_area n c.
Proof. exact TextRest.areas_contained. Qed.
Print Assumptions C47_contained_entries.

(** two EIDs announced, none in the message, two shown *)
Theorem C47_missing_entries_refuted : exists m buf new logs, slice_ok m buf /\
  s_len buf = N.to_nat (declared (s_bytes m buf)) /\
  NewMessage m buf = ([], Done (Some (fresh KProposalV2), declared (s_bytes m buf))) /\
  has_ext (s_bytes m buf) = true /\ v2_eids (s_len buf) (s_bytes m buf) = 0 /\
  Message_Parse m (fresh KProposalV2) buf = (logs, Done new) /\
  shows (Message_String new) "EID Area: [EID 0: , EID 1: ]"%string.
Proof. exact TextRest.missing_eids_witness. Qed.
Print Assumptions C47_missing_entries_refuted.

Example C47_example :
  length [zeros 32] = N.to_nat 1 /\ eid_area 1 ([repeat x41 2] ++ [zeros 32]) = "EID Area: [EID 0: AA]"%string.
Proof. vm_compute. split; reflexivity. Qed.

(** ** C48 *)

Theorem C48_usual_offset : forall m buf old, slice_ok m buf -> proposalv2_wf old ->
  let bs := s_bytes m buf in
  let L := N.to_nat (declared bs) in
  84 <= L -> L <= s_len buf ->
  v2_ip_room L bs -> v2_ext_room L bs -> v2_smcd_room L bs ->
  (has_ext bs = true -> v2_eids L bs <= 8) -> (has_smcd bs = true -> v2_gids L bs <= 8) ->
  has_ip bs = true -> ip_area_offset bs = 40%N ->
  exists logs p, ProposalV2_Parse m old buf = (logs, Done p) /\
    ip_area_view (p2_IP p) = decode_at ip_area_body (8 * ip_area_start bs) bs.
Proof. exact TextRest.ip_offset_ok. Qed.
Print Assumptions C48_usual_offset.

Example C48_usual_offset_case :
  let m := mem1 sample_prop2 in let buf := slice1 sample_prop2 in
  let bs := s_bytes m buf in let L := N.to_nat (declared bs) in
  slice_ok m buf /\ proposalv2_wf ProposalV2_zero /\ 84 <= L /\ L <= s_len buf /\
  v2_ip_room L bs /\ v2_ext_room L bs /\ v2_smcd_room L bs /\
  (has_ext bs = true -> v2_eids L bs <= 8) /\ (has_smcd bs = true -> v2_gids L bs <= 8) /\
  has_ip bs = true /\ ip_area_offset bs = 40%N /\ ip_area_start bs = 80.
Proof. computes. Qed.

(** a complete message whose IP area is eight bytes further on *)
Theorem C48_ip_offset_refuted : exists m buf p, slice_ok m buf /\
  s_len buf = N.to_nat (declared (s_bytes m buf)) /\
  NewMessage m buf = ([], Done (Some (fresh KProposalV2), declared (s_bytes m buf))) /\
  has_ip (s_bytes m buf) = true /\ has_ext (s_bytes m buf) = false /\
  ip_area_start (s_bytes m buf) + 12 <= s_len buf /\
  Message_Parse m (fresh KProposalV2) buf = ([], Done (MProposalV2 p)) /\
  ip_area_view (p2_IP p) <> decode_at ip_area_body (8 * ip_area_start (s_bytes m buf)) (s_bytes m buf).
Proof. exact TextRest.ip_gap_witness. Qed.
Print Assumptions C48_ip_offset_refuted.

Theorem C48_extension_offset_refuted : exists m1 m2 buf p1 p2, slice_ok m1 buf /\ slice_ok m2 buf /\
  s_len buf = N.to_nat (declared (s_bytes m1 buf)) /\
  Message_Parse m1 (fresh KProposalV2) buf = ([], Done (MProposalV2 p1)) /\
  Message_Parse m2 (fresh KProposalV2) buf = ([], Done (MProposalV2 p2)) /\
  has_ext (s_bytes m1 buf) = true /\ has_ext (s_bytes m2 buf) = true /\
  p2_SMCv2Offset p1 = 25%N /\ p2_SMCv2Offset p2 = 999%N /\ p2_Ext p1 = p2_Ext p2 /\ p2_SMCD p1 = p2_SMCD p2.
Proof. exact TextRest.ext_offset_witness. Qed.
Print Assumptions C48_extension_offset_refuted.

(** whatever the offsets of a completely received message are, apart from the three offset
    fields themselves the result is the same *)
Theorem C48_offsets_unused : forall m1 m2 buf old,
  slice_ok m1 buf -> slice_ok m2 buf -> proposalv2_wf old ->
  but_offsets (s_bytes m1 buf) (s_bytes m2 buf) ->
  N.to_nat (declared (s_bytes m1 buf)) <= s_len buf ->
  Forall2 (same_line (s_bytes m1 buf) (s_bytes m2 buf))
    (fst (ProposalV2_Parse m1 old buf)) (fst (ProposalV2_Parse m2 old buf)) /\
  map_outcome without_offsets (snd (ProposalV2_Parse m1 old buf)) =
  map_outcome without_offsets (snd (ProposalV2_Parse m2 old buf)).
Proof. exact ClcOffsets.offsets_unused. Qed.
Print Assumptions C48_offsets_unused.

Example C48_example :
  let bs := sample_prop2_6 in has_ip bs = true /\ ip_area_offset bs = 40%N.
Proof. vm_compute. split; reflexivity. Qed.

Example C48_example_other_offsets :
  let bs1 := sample_prop2_6 in
  let bs2 := firstn 38 bs1 ++ [xff; xff] ++ firstn 10 (skipn 40 bs1) ++ [xff; xff] ++ skipn 52 bs1 in
  but_offsets (s_bytes (mem1 bs1) (slice1 bs1)) (s_bytes (mem1 bs2) (slice1 bs1)) /\
  N.to_nat (declared bs1) <= s_len (slice1 bs1) /\ has_ext bs1 = true /\ bs1 <> bs2.
Proof.
  split; [|split; [|split]].
  - apply (ClcOffsets.patched sample_prop2_6). apply Nat.leb_le. vm_compute. reflexivity.
  - apply Nat.leb_le. vm_compute. reflexivity.
  - vm_compute. reflexivity.
  - vm_compute. discriminate.
Qed.
