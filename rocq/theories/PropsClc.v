(** * PropsClc: the property theorems C01 - C16 about package clc.

    Vocabulary: [s_bytes m buf] are the bytes of slice [buf] in memory [m]; [bits],
    [decode], the layouts and [bytes_at] are defined in Wire.v; the lists of observable
    fields ([.._view]), [declared] and the other names about messages in ClcView.v.
    [(logs, Done x)]: the call writes [logs] and returns [x]. *)

From Coq Require Import NArith Bool String Arith List.
From Verif Require Import GoBase GoFmt ClcModel Samples Wire ClcView
  ClcProposal ClcProposalV2 ClcProposalV2Inv ClcMessage ClcNew.
From Verif Require ClcRefute ClcProposalV2Any.
From Verif Require Import Witness.
Import ListNotations.
Local Open Scope nat_scope.

(** ** C01 *)

Theorem C01_known_messages : forall m buf, slice_ok m buf -> 8 <= s_len buf ->
  let bs := s_bytes m buf in
  forall k,
  (bytes_at bs 0 4 = [xe2; xd4; xc3; xd9] \/ bytes_at bs 0 4 = [xe2; xd4; xc3; xc4]) ->
  (declared bs <= 1024)%N -> kind_rel (msg_type bs) (msg_version bs) (msg_path bs) k ->
  NewMessage m buf = ([], Done (Some (fresh k), declared bs)).
Proof. exact NewMessage_some. Qed.
Print Assumptions C01_known_messages.

Example C01_known_messages_case :
  let m := mem1 sample_confirm_d2 in let buf := slice1 sample_confirm_d2 in
  let bs := s_bytes m buf in
  slice_ok m buf /\ 8 <= s_len buf /\ bytes_at bs 0 4 = [xe2; xd4; xc3; xc4] /\
  (declared bs <= 1024)%N /\ (msg_type bs, msg_version bs, msg_path bs) = (3, 2, 1)%N /\
  kind_rel 3 2 1 KConfirmSMCDv2 /\
  NewMessage m buf = ([], Done (Some (fresh KConfirmSMCDv2), 78%N)).
Proof. computes. constructor. Qed.

Theorem C01_unknown_messages : forall m buf, slice_ok m buf -> 8 <= s_len buf ->
  let bs := s_bytes m buf in
  let known := bytes_at bs 0 4 = [xe2; xd4; xc3; xd9] \/ bytes_at bs 0 4 = [xe2; xd4; xc3; xc4] in
  (snd (NewMessage m buf) = Done (None, 0%N) <->
   ~ known \/ (1024 < declared bs)%N \/
   ~ ((msg_type bs = 1 \/ msg_type bs = 4) \/
      ((msg_type bs = 2 \/ msg_type bs = 3) /\ (msg_path bs = 0 \/ msg_path bs = 1)))%N) /\
  (~ (known /\ (1024 < declared bs)%N) -> fst (NewMessage m buf) = []) /\
  (known /\ (1024 < declared bs)%N -> fst (NewMessage m buf) =
     ["Error parsing CLC header: message too big"%string; dump_line (bytes_at bs 0 8)]).
Proof. exact NewMessage_none. Qed.
Print Assumptions C01_unknown_messages.

Example C01_unknown_messages_case : (* a length of 1025 *)
  let m := mem1 (hexs "e2d4c3c404040110") in let buf := slice1 (hexs "e2d4c3c404040110") in
  let bs := s_bytes m buf in
  slice_ok m buf /\ 8 <= s_len buf /\ bytes_at bs 0 4 = [xe2; xd4; xc3; xc4] /\
  (1024 < declared bs)%N /\ snd (NewMessage m buf) = Done (None, 0%N) /\
  fst (NewMessage m buf)
  = ["Error parsing CLC header: message too big"%string; dump_line (hexs "e2d4c3c404040110")].
Proof. computes. Qed.

(** a header decides on at most one type *)
Theorem C01_kinds_exclusive : forall t v p k1 k2,
  kind_rel t v p k1 -> kind_rel t v p k2 -> k1 = k2.
Proof. exact ClcRefute.kind_rel_fun. Qed.
Print Assumptions C01_kinds_exclusive.

Example C01_example :
  let bs := sample_accept_d2 in
  (bytes_at bs 0 4 = [xe2; xd4; xc3; xd9] \/ bytes_at bs 0 4 = [xe2; xd4; xc3; xc4]) /\
  (declared bs <= 1024)%N /\ kind_rel (msg_type bs) (msg_version bs) (msg_path bs) KAcceptSMCDv2 /\
  NewMessage (mem1 bs) (slice1 bs) = ([], Done (Some (fresh KAcceptSMCDv2), 78%N)).
Proof.
  split; [right; reflexivity|]. split; [vm_compute; discriminate|].
  split; [vm_compute; constructor|vm_compute; reflexivity].
Qed.

Example C01_example_unknown : (* an Accept with path "none" *)
  let bs := hexs "e2d4c3d902004412" in
  NewMessage (mem1 bs) (slice1 bs) = ([], Done (None, 0%N)).
Proof. vm_compute. reflexivity. Qed.

(** ** C02 *)

Theorem C02_eight_bytes_suffice : forall m buf, slice_ok m buf -> 8 <= s_len buf ->
  exists logs r, NewMessage m buf = (logs, Done r).
Proof. exact ClcRefute.NewMessage_safe. Qed.
Print Assumptions C02_eight_bytes_suffice.

Example C02_eight_bytes_suffice_case :
  let m := mem1 sample_proposal in let buf := slice_n sample_proposal 8 in
  slice_ok m buf /\ 8 <= s_len buf /\ NewMessage m buf = ([], Done (Some (fresh KProposal), 52%N)).
Proof. computes. Qed.

Theorem C02_fewer_bytes : forall m buf, slice_ok m buf -> s_len buf < 8 ->
  let back := bytes_at (m (s_arr buf)) (s_off buf) (s_cap buf) in
  (snd (NewMessage m buf) = Panicked <->
   length back < 4 \/
   (is_eyecatcher (bytes_at back 0 4) = true /\
    (length back < 8 \/ (bits back 40 16 <= 1024)%N))) /\
  snd (NewMessage m buf) <> Exited.
Proof. exact NewMessage_short. Qed.
Print Assumptions C02_fewer_bytes.

Example C02_seven_bytes_panic :
  let bs := hexs "e2d4c3d9020044" in
  s_len (slice1 bs) = 7 /\ snd (NewMessage (mem1 bs) (slice1 bs)) = Panicked.
Proof. vm_compute. split; reflexivity. Qed.

Example C02_seven_bytes_ok : (* no eyecatcher *)
  let bs := hexs "e2d4c3d8020044" in snd (NewMessage (mem1 bs) (slice1 bs)) = Done (None, 0%N).
Proof. vm_compute. reflexivity. Qed.

(** ** C03 *)

Theorem C03_smcr_decode : forall m buf old, slice_ok m buf -> accept_smcr_wf old ->
  let bs := s_bytes m buf in
  68 <= s_len buf -> (68 <= declared bs)%N ->
  exists a,
    AcceptSMCR_Parse m old buf = (trailer_log (last4 bs), Done a) /\
    ConfirmSMCR_Parse m (mkConfirmSMCR old) buf = (trailer_log (last4 bs), Done (mkConfirmSMCR a)) /\
    accept_smcr_view a = decode (clc_header ++ accept_smcr_body) bs /\
    ar_Trailer a = last4 bs /\ ar_Raw a = buf.
Proof. exact smcr_decode. Qed.
Print Assumptions C03_smcr_decode.

Example C03_example :
  let bs := sample_accept_r in
  (68 <= declared bs)%N /\ length bs = 68 /\ accept_smcr_wf AcceptSMCR_zero /\
  exists a, AcceptSMCR_Parse (mem1 bs) AcceptSMCR_zero (slice1 bs) = ([], Done a) /\
    In ("QP Number"%string, VN 228) (accept_smcr_view a) /\
    In ("RMBE Size"%string, VN 2) (accept_smcr_view a) /\
    In ("Packet Sequence Number"%string, VN 7534078) (accept_smcr_view a).
Proof.
  vm_compute. repeat split; try discriminate. eexists. split; [reflexivity|].
  cbn. intuition discriminate.
Qed.

(** ** C04 *)

Theorem C04_smcd_decode : forall m buf old, slice_ok m buf -> accept_smcd_wf old ->
  let bs := s_bytes m buf in
  48 <= s_len buf -> (48 <= declared bs)%N ->
  exists a,
    AcceptSMCD_Parse m old buf = (trailer_log (last4 bs), Done a) /\
    ConfirmSMCD_Parse m (mkConfirmSMCD old) buf = (trailer_log (last4 bs), Done (mkConfirmSMCD a)) /\
    accept_smcd_view a = decode (clc_header ++ accept_smcd_body) bs /\
    ad_Trailer a = last4 bs /\ ad_Raw a = buf.
Proof. exact smcd_decode. Qed.
Print Assumptions C04_smcd_decode.

Example C04_example :
  let bs := sample_accept_d in
  (48 <= declared bs)%N /\ length bs = 48 /\ accept_smcd_wf AcceptSMCD_zero /\
  exists a, AcceptSMCD_Parse (mem1 bs) AcceptSMCD_zero (slice1 bs) = ([], Done a) /\
    In ("DMBE Size"%string, VN 1) (accept_smcd_view a) /\
    In ("Link ID"%string, VN 4294967295) (accept_smcd_view a).
Proof.
  vm_compute. repeat split; try discriminate. eexists. split; [reflexivity|].
  cbn. intuition discriminate.
Qed.

(** ** C05 *)

Theorem C05_smcdv2_decode : forall m buf old, slice_ok m buf -> accept_smcdv2_wf old ->
  let bs := s_bytes m buf in
  78 <= s_len buf -> (78 <= declared bs)%N -> (declared bs = 114%N -> 114 <= s_len buf) ->
  exists a,
    AcceptSMCDv2_Parse m old buf = (trailer_log (last4 bs), Done a) /\
    ConfirmSMCDv2_Parse m (mkConfirmSMCDv2 old) buf = (trailer_log (last4 bs), Done (mkConfirmSMCDv2 a)) /\
    accept_smcdv2_view a = decode (clc_header ++ accept_smcdv2_body) bs /\
    (declared bs = 114%N -> fce_view a = decode_at fce_body (8 * 74) bs) /\
    (declared bs <> 114%N -> fce_view a = fce_view old) /\
    a2_Trailer a = last4 bs /\ a2_Raw a = buf.
Proof. exact smcdv2_decode. Qed.
Print Assumptions C05_smcdv2_decode.

Example C05_example :
  let bs := sample_accept_d2_fce in
  declared bs = 114%N /\ length bs = 114 /\ accept_smcdv2_wf AcceptSMCDv2_zero /\
  exists a, AcceptSMCDv2_Parse (mem1 bs) AcceptSMCDv2_zero (slice1 bs) = ([], Done a) /\
    In ("ISMv2 VCHID"%string, VN 291) (accept_smcdv2_view a) /\
    In ("OS Type"%string, VN 2) (fce_view a).
Proof.
  vm_compute. repeat split; try discriminate. eexists. split; [reflexivity|].
  cbn. intuition discriminate.
Qed.

(** ** C06 *)

Theorem C06_decline_decode : forall m buf old, slice_ok m buf -> decline_wf old -> 28 <= s_len buf ->
  let bs := s_bytes m buf in
  (28 <= declared bs)%N ->
  exists a, Decline_Parse m old buf = (trailer_log (last4 bs), Done a) /\
    decline_view a = decode (clc_header ++ decline_body) bs /\
    d_Trailer a = last4 bs /\ d_Raw a = buf.
Proof. exact ClcFixed.Decline_decode. Qed.
Print Assumptions C06_decline_decode.

Example C06_decline_decode_case :
  let m := mem1 sample_decline in let buf := slice1 sample_decline in
  slice_ok m buf /\ decline_wf Decline_zero /\ 28 <= s_len buf /\ (28 <= declared (s_bytes m buf))%N /\
  exists d, Decline_Parse m Decline_zero buf = ([], Done d) /\
    (d_PeerDiagnosis d, d_reserved d) = (50528256%N, zeros 4).
Proof. computes. Qed.

Theorem C06_declinev2_decode : forall m buf old, slice_ok m buf -> declinev2_wf old -> 28 <= s_len buf ->
  let bs := s_bytes m buf in
  (28 <= declared bs)%N ->
  exists a, DeclineV2_Parse m old buf = (trailer_log (last4 bs), Done a) /\
    declinev2_view a = decode (clc_header ++ declinev2_body) bs /\
    d2_Trailer a = last4 bs /\ d2_Raw a = buf.
Proof. exact ClcFixed.DeclineV2_decode. Qed.
Print Assumptions C06_declinev2_decode.

Example C06_example :
  let bs := sample_decline2 in
  (28 <= declared bs)%N /\ length bs = 28 /\ declinev2_wf DeclineV2_zero /\
  exists a, DeclineV2_Parse (mem1 bs) DeclineV2_zero (slice1 bs) = ([], Done a) /\
    In ("OS Type"%string, VN 2) (declinev2_view a) /\
    In ("Peer Diagnosis"%string, VN 50528256) (declinev2_view a).
Proof.
  vm_compute. repeat split; try discriminate. eexists. split; [reflexivity|].
  cbn. intuition discriminate.
Qed.

(** ** C07 *)

Theorem C07_proposal_decode : forall m buf old, slice_ok m buf -> proposal_wf old ->
  let bs := s_bytes m buf in
  let L := N.to_nat (declared bs) in
  let start := ip_area_start bs in
  let cnt := prefix_count bs start in
  let n := fitting L (start + 8) 17 cnt in
  52 <= L -> L <= s_len buf -> start + 12 <= L ->
  exists p,
    Proposal_Parse m old buf =
    ((if n <? cnt then ["Error parsing CLC Proposal: IPv6 prefix count too big"%string;
                        dump_line (bytes_at bs 0 L)] else [])
     ++ trailer_log (last4 bs), Done p) /\
    proposal_view p = decode (clc_header ++ proposal_body) bs /\
    (ip_area_offset bs = 40%N -> proposal_smcd_view p = decode_at proposal_smcd_body (8 * 40) bs) /\
    (ip_area_offset bs <> 40%N -> proposal_smcd_view p = proposal_smcd_view old) /\
    ip_area_view (p_IP p) = decode_at ip_area_body (8 * start) bs /\
    (exists new, i_IPv6Prefixes (p_IP p) = i_IPv6Prefixes (p_IP old) ++ new /\
       map ipv6_prefix_view new = entries ipv6_prefix_body (start + 8) 17 n bs) /\
    p_Trailer p = last4 bs /\ p_Raw p = buf.
Proof. exact Proposal_decode. Qed.
Print Assumptions C07_proposal_decode.

Example C07_proposal_decode_case : (* SMC-D and one IPv6 prefix *)
  let m := mem1 sample_proposal_b6 in let buf := slice1 sample_proposal_b6 in
  let bs := s_bytes m buf in
  let L := N.to_nat (declared bs) in
  slice_ok m buf /\ proposal_wf Proposal_zero /\ 52 <= L /\ L <= s_len buf /\ ip_area_start bs + 12 <= L /\
  ip_area_offset bs = 40%N /\ prefix_count bs (ip_area_start bs) = 1 /\
  exists p, Proposal_Parse m Proposal_zero buf = ([], Done p) /\ length (i_IPv6Prefixes (p_IP p)) = 1.
Proof. computes. Qed.

(** messages whose IP area would not fit; note that with offset 40 the SMC-D area is
    taken from the backing array even where it lies behind the message *)
Theorem C07_proposal_no_room : forall m buf old, slice_ok m buf -> proposal_wf old ->
  let bs := s_bytes m buf in
  let L := N.to_nat (declared bs) in
  let start := ip_area_start bs in
  52 <= L -> L <= s_len buf -> L < start + 12 ->
  (ip_area_offset bs = 40%N -> 80 <= s_cap buf) ->
  exists p,
    Proposal_Parse m old buf =
    (["Error parsing CLC Proposal: IP Area Offset too big"%string; dump_line (bytes_at bs 0 L)], Done p) /\
    proposal_view p = decode (clc_header ++ proposal_body) bs /\
    (ip_area_offset bs = 40%N -> proposal_smcd_view p =
       decode_at proposal_smcd_body (8 * 40) (bytes_at (m (s_arr buf)) (s_off buf) (s_cap buf))) /\
    (ip_area_offset bs <> 40%N -> proposal_smcd_view p = proposal_smcd_view old) /\
    p_IP p = p_IP old /\ p_Trailer p = p_Trailer old /\ p_Raw p = buf.
Proof. exact Proposal_no_room. Qed.
Print Assumptions C07_proposal_no_room.

Example C07_example :
  let bs := sample_proposal_b6 in
  let L := N.to_nat (declared bs) in
  proposal_wf Proposal_zero /\ 52 <= L /\ L = length bs /\ ip_area_start bs + 12 <= L /\
  ip_area_offset bs = 40%N /\ prefix_count bs (ip_area_start bs) = 1 /\
  fitting L (ip_area_start bs + 8) 17 1 = 1 /\
  exists p, Proposal_Parse (mem1 bs) Proposal_zero (slice1 bs) = ([], Done p) /\
    length (i_IPv6Prefixes (p_IP p)) = 1.
Proof.
  vm_compute. repeat split; try (repeat constructor; fail). eexists. split; reflexivity.
Qed.

(** one prefix fits, three are announced *)
Example C07_example_too_many :
  let bs := firstn 47 sample_proposal_6 ++ [x03] ++ skipn 48 sample_proposal_6 in
  let L := N.to_nat (declared bs) in
  fitting L 48 17 3 = 1 /\
  exists d p, Proposal_Parse (mem1 bs) Proposal_zero (slice1 bs) =
    (["Error parsing CLC Proposal: IPv6 prefix count too big"%string; d], Done p) /\
    length (i_IPv6Prefixes (p_IP p)) = 1.
Proof. vm_compute. split; [reflexivity|]. do 2 eexists. split; reflexivity. Qed.

(** ** C08 *)

Theorem C08_proposalv2_decode : forall m buf old, slice_ok m buf -> proposalv2_wf old ->
  let bs := s_bytes m buf in
  let L := N.to_nat (declared bs) in
  84 <= L -> L <= s_len buf ->
  v2_ip_room L bs -> v2_ext_room L bs -> v2_smcd_room L bs ->
  (has_ext bs = true -> v2_eids L bs <= 8) -> (has_smcd bs = true -> v2_gids L bs <= 8) ->
  exists p,
    ProposalV2_Parse m old buf =
      (v2_prefix_log L bs ++ v2_eid_log L bs ++ v2_gid_log L bs ++ trailer_log (last4 bs), Done p) /\
    proposalv2_view p = decode (clc_header_v2proposal ++ proposalv2_body) bs /\
    v2_ip_decoded L bs old p /\ v2_ext_decoded L bs old p /\ v2_smcd_decoded L bs old p /\
    p2_Trailer p = last4 bs /\ p2_Raw p = buf.
Proof. exact ProposalV2_decode. Qed.
Print Assumptions C08_proposalv2_decode.

Example C08_proposalv2_decode_case : (* nothing but the extensions: no IP area *)
  let m := mem1 sample_prop2_noip in let buf := slice1 sample_prop2_noip in
  let bs := s_bytes m buf in
  let L := N.to_nat (declared bs) in
  slice_ok m buf /\ proposalv2_wf ProposalV2_zero /\ 84 <= L /\ L <= s_len buf /\
  has_ip bs = false /\ v2_ext_room L bs /\ v2_smcd_room L bs /\
  (has_ext bs = true -> v2_eids L bs <= 8) /\ (has_smcd bs = true -> v2_gids L bs <= 8) /\
  exists p, ProposalV2_Parse m ProposalV2_zero buf = ([], Done p) /\
    p2_IP p = IPInfo_zero /\ x_EIDNumber (p2_Ext p) = 1%N.
Proof. computes. Qed.

(** an announced part without room ends the parse there; the parts before it are decoded,
    the others and the trailer keep their values *)
Theorem C08_no_ip_room : forall m buf old, slice_ok m buf -> proposalv2_wf old ->
  let bs := s_bytes m buf in
  let L := N.to_nat (declared bs) in
  84 <= L -> L <= s_len buf -> ~ v2_ip_room L bs ->
  exists p,
    ProposalV2_Parse m old buf =
      (["Error parsing CLC Proposal v2: IP Area Offset too big"%string; dump_line (bytes_at bs 0 L)], Done p) /\
    proposalv2_view p = decode (clc_header_v2proposal ++ proposalv2_body) bs /\
    p2_IP p = p2_IP old /\ p2_Ext p = p2_Ext old /\ p2_SMCD p = p2_SMCD old /\
    p2_Trailer p = p2_Trailer old /\ p2_Raw p = buf.
Proof. exact ProposalV2_no_ip_room. Qed.
Print Assumptions C08_no_ip_room.

Example C08_no_ip_room_case : (* length 85, although an IP area is announced *)
  let bs := firstn 6 sample_prop2 ++ [x55] ++ firstn 78 (skipn 7 sample_prop2) in
  let m := mem1 bs in let buf := slice1 bs in
  let L := N.to_nat (declared (s_bytes m buf)) in
  slice_ok m buf /\ proposalv2_wf ProposalV2_zero /\ 84 <= L /\ L <= s_len buf /\
  ~ v2_ip_room L (s_bytes m buf) /\
  exists p, ProposalV2_Parse m ProposalV2_zero buf =
    (["Error parsing CLC Proposal v2: IP Area Offset too big"%string; dump_line bs], Done p).
Proof. computes. Qed.

Theorem C08_no_extension_room : forall m buf old, slice_ok m buf -> proposalv2_wf old ->
  let bs := s_bytes m buf in
  let L := N.to_nat (declared bs) in
  84 <= L -> L <= s_len buf -> v2_ip_room L bs -> ~ v2_ext_room L bs ->
  exists p,
    ProposalV2_Parse m old buf =
      (v2_prefix_log L bs ++
       ["Error parsing CLC Proposal v2: Not enough space for Proposal v2 Extension"%string;
        dump_line (bytes_at bs 0 L)], Done p) /\
    proposalv2_view p = decode (clc_header_v2proposal ++ proposalv2_body) bs /\
    v2_ip_decoded L bs old p /\ p2_Ext p = p2_Ext old /\ p2_SMCD p = p2_SMCD old /\
    p2_Trailer p = p2_Trailer old /\ p2_Raw p = buf.
Proof. exact ProposalV2_no_ext_room. Qed.
Print Assumptions C08_no_extension_room.

Example C08_no_extension_room_case : (* length 92: the IP area is there, the extension is announced *)
  let bs := firstn 6 sample_prop2 ++ [x5c] ++ firstn 85 (skipn 7 sample_prop2) in
  let m := mem1 bs in let buf := slice1 bs in
  let L := N.to_nat (declared (s_bytes m buf)) in
  slice_ok m buf /\ proposalv2_wf ProposalV2_zero /\ 84 <= L /\ L <= s_len buf /\
  v2_ip_room L (s_bytes m buf) /\ ~ v2_ext_room L (s_bytes m buf) /\
  exists p, ProposalV2_Parse m ProposalV2_zero buf =
    (["Error parsing CLC Proposal v2: Not enough space for Proposal v2 Extension"%string; dump_line bs], Done p) /\
    i_PrefixLen (p2_IP p) = 8%N.
Proof. computes. Qed.

Theorem C08_no_smcd_room : forall m buf old, slice_ok m buf -> proposalv2_wf old ->
  let bs := s_bytes m buf in
  let L := N.to_nat (declared bs) in
  84 <= L -> L <= s_len buf -> v2_ip_room L bs -> v2_ext_room L bs -> ~ v2_smcd_room L bs ->
  (has_ext bs = true -> v2_eids L bs <= 8) ->
  exists p,
    ProposalV2_Parse m old buf =
      (v2_prefix_log L bs ++ v2_eid_log L bs ++
       ["Error parsing CLC Proposal v2: Not enough space for SMC-D v2 Extension"%string;
        dump_line (bytes_at bs 0 L)], Done p) /\
    proposalv2_view p = decode (clc_header_v2proposal ++ proposalv2_body) bs /\
    v2_ip_decoded L bs old p /\ v2_ext_decoded L bs old p /\ p2_SMCD p = p2_SMCD old /\
    p2_Trailer p = p2_Trailer old /\ p2_Raw p = buf.
Proof. exact ProposalV2_no_smcd_room. Qed.
Print Assumptions C08_no_smcd_room.

Example C08_no_smcd_room_case : (* length 164: the extension is there, the SMC-D extension is announced *)
  let bs := firstn 6 sample_prop2 ++ [xa4] ++ firstn 157 (skipn 7 sample_prop2) in
  let m := mem1 bs in let buf := slice1 bs in
  let L := N.to_nat (declared (s_bytes m buf)) in
  slice_ok m buf /\ proposalv2_wf ProposalV2_zero /\ 84 <= L /\ L <= s_len buf /\
  v2_ip_room L (s_bytes m buf) /\ v2_ext_room L (s_bytes m buf) /\ ~ v2_smcd_room L (s_bytes m buf) /\
  (has_ext (s_bytes m buf) = true -> v2_eids L (s_bytes m buf) <= 8) /\
  exists p, ProposalV2_Parse m ProposalV2_zero buf =
    (["Error parsing CLC Proposal v2: Not enough space for SMC-D v2 Extension"%string; dump_line bs], Done p) /\
    x_EIDNumber (p2_Ext p) = 1%N.
Proof. computes. Qed.

Example C08_example : (* one IPv6 prefix, one EID, one GID *)
  let bs := sample_prop2_6 in
  let L := N.to_nat (declared bs) in
  proposalv2_wf ProposalV2_zero /\ 84 <= L /\ L = length bs /\
  has_ip bs = true /\ has_ext bs = true /\ has_smcd bs = true /\
  v2_prefixes L bs = 1 /\ v2_ext_start L bs = 105 /\ v2_eids L bs = 1 /\
  v2_smcd_start L bs = 177 /\ v2_gids L bs = 1 /\
  exists p, ProposalV2_Parse (mem1 bs) ProposalV2_zero (slice1 bs) = ([], Done p) /\
    map gid_entry_view (firstn 1 (y_GIDArea (p2_SMCD p))) =
      [[("GID"%string, VN 12379813738877118345); ("VCHID"%string, VN 291)]].
Proof.
  vm_compute. repeat split; try (repeat constructor; fail). eexists. split; reflexivity.
Qed.

Example C08_example_no_room : (* Length 92 leaves no room for an extension that is announced *)
  let bs := firstn 7 sample_prop2_noext ++ [x2f] ++ skipn 8 sample_prop2_noext in
  let L := N.to_nat (declared bs) in
  84 <= L /\ L = length bs /\ v2_ip_room L bs /\ ~ v2_ext_room L bs.
Proof.
  vm_compute. repeat split; try (repeat constructor; fail).
  intros H. specialize (H eq_refl). repeat (apply le_S_n in H). inversion H.
Qed.

(** ** C09 *)

Theorem C09_too_short : forall m msg buf, slice_ok m buf -> message_wf msg -> 8 <= s_len buf ->
  let bs := s_bytes m buf in
  (declared bs < min_length (kind_of msg))%N ->
  N.to_nat (declared bs) <= s_cap buf ->
  exists h,
    header_view h = decode clc_header bs /\ h_Pathv2 h = msg_pathv2 bs /\
    Message_Parse m msg buf =
      ([too_short_line (kind_of msg) (msg_type bs);
        dump_line (bytes_at (m (s_arr buf)) (s_off buf) (N.to_nat (declared bs)))],
       Done (with_header msg buf h)).
Proof. exact Message_too_short. Qed.
Print Assumptions C09_too_short.

Example C09_example :
  let bs := hexs "e2d4c3c403002f11" ++ sample_accept_d in
  (declared bs < min_length (kind_of (fresh KConfirmSMCD)))%N /\
  N.to_nat (declared bs) <= length bs /\ message_wf (fresh KConfirmSMCD) /\
  too_short_line KConfirmSMCD (msg_type bs) = "Error parsing CLC Confirm: message too short"%string.
Proof. vm_compute. repeat split; try (repeat constructor; fail). Qed.

(** ** C10 *)

Theorem C10_fixed_formats_never_panic : forall m msg buf, slice_ok m buf -> message_wf msg ->
  is_proposal (kind_of msg) = false -> 8 <= s_len buf ->
  N.to_nat (declared (s_bytes m buf)) <= s_len buf ->
  exists logs new, Message_Parse m msg buf = (logs, Done new).
Proof. exact Message_fixed_complete. Qed.
Print Assumptions C10_fixed_formats_never_panic.

Example C10_fixed_formats_never_panic_case : (* an invalid trailer *)
  let bs := firstn 64 sample_accept_r ++ zeros 4 in
  let m := mem1 bs in let buf := slice1 bs in
  slice_ok m buf /\ message_wf (fresh KConfirmSMCR) /\ is_proposal (kind_of (fresh KConfirmSMCR)) = false /\
  8 <= s_len buf /\ N.to_nat (declared (s_bytes m buf)) <= s_len buf /\
  exists logs new, Message_Parse m (fresh KConfirmSMCR) buf = (logs, Done new) /\ length logs = 2.
Proof. computes. Qed.

(** every object a program can have satisfies the hypothesis [message_wf] *)
Theorem C10_objects_well_formed : forall msg, reachable msg -> message_wf msg.
Proof. exact reachable_wf. Qed.
Print Assumptions C10_objects_well_formed.

Example C10_example :
  reachable (fresh KAcceptSMCDv2) /\ is_proposal (kind_of (fresh KAcceptSMCDv2)) = false /\
  N.to_nat (declared sample_accept_d2_fce) <= length sample_accept_d2_fce.
Proof. split; [constructor|]. vm_compute. split; repeat constructor. Qed.

(** ** C11 *)

Theorem C11_exact_panics : forall m msg buf, slice_ok m buf -> message_wf msg ->
  is_proposal (kind_of msg) = false ->
  (snd (Message_Parse m msg buf) = Panicked <->
   fixed_panics (kind_of msg) (N.to_nat (declared (s_bytes m buf))) (s_len buf) (s_cap buf)) /\
  snd (Message_Parse m msg buf) <> Exited.
Proof. exact Message_fixed_panics. Qed.
Print Assumptions C11_exact_panics.

Example C11_example_truncated : (* the last byte of an SMC-R Accept is missing *)
  let bs := firstn 67 sample_accept_r in
  fixed_panics KAcceptSMCR (N.to_nat (declared bs)) 67 67 /\
  snd (Message_Parse (mem1 bs) (fresh KAcceptSMCR) (slice1 bs)) = Panicked.
Proof. split; [right; right; vm_compute; repeat constructor|vm_compute; reflexivity]. Qed.

Example C11_example_fce_truncated :
  let bs := firstn 113 sample_accept_d2_fce in
  snd (Message_Parse (mem1 bs) (fresh KAcceptSMCDv2) (slice1 bs)) = Panicked.
Proof. vm_compute. reflexivity. Qed.

(** ** C12 *)

Theorem C12_complete_proposal_panics_refuted :
  exists m buf, slice_ok m buf /\ 8 <= s_len buf /\
    N.to_nat (declared (s_bytes m buf)) = s_len buf /\
    NewMessage m buf = ([], Done (Some (fresh KProposal), declared (s_bytes m buf))) /\
    snd (Message_Parse m (fresh KProposal) buf) = Panicked.
Proof. exact ClcRefute.proposal_panics. Qed.
Print Assumptions C12_complete_proposal_panics_refuted.

(** exactly when *)
Theorem C12_exact_panics : forall m buf old, slice_ok m buf -> proposal_wf old ->
  let bs := s_bytes m buf in
  let L := N.to_nat (declared bs) in
  8 <= s_len buf -> L <= s_len buf ->
  (snd (Message_Parse m (MProposal old) buf) = Panicked <->
   52 <= L /\ ip_area_offset bs = 40%N /\ s_cap buf < 80) /\
  snd (Message_Parse m (MProposal old) buf) <> Exited.
Proof. exact Message_proposal_panics. Qed.
Print Assumptions C12_exact_panics.

Example C12_exact_panics_case :
  let m := mem1 ClcRefute.bad_proposal in let buf := slice1 ClcRefute.bad_proposal in
  let bs := s_bytes m buf in
  let L := N.to_nat (declared bs) in
  slice_ok m buf /\ proposal_wf Proposal_zero /\ 8 <= s_len buf /\ L <= s_len buf /\
  52 <= L /\ ip_area_offset bs = 40%N /\ s_cap buf < 80 /\
  snd (Message_Parse m (MProposal Proposal_zero) buf) = Panicked.
Proof. computes. Qed.

(** and for incomplete messages as well *)
Theorem C12_exact_panics_any_buffer : forall m buf old, slice_ok m buf -> proposal_wf old ->
  let bs := s_bytes m buf in
  let back := bytes_at (m (s_arr buf)) (s_off buf) (s_cap buf) in
  let L := N.to_nat (declared bs) in
  let start := ip_area_start back in
  let cnt := prefix_count back start in
  let n := fitting L (start + 8) 17 cnt in
  (snd (Proposal_Parse m old buf) = Panicked <->
   s_len buf < 8 \/
   (L < 52 /\ s_cap buf < L) \/
   (52 <= L /\
    (s_cap buf < 40 \/
     (ip_area_offset back = 40%N /\ s_cap buf < 80) \/
     (L < start + 12 /\ s_cap buf < L) \/
     (start + 12 <= L /\
      (s_len buf < start + 8 + 17 * n \/ (n < cnt /\ s_cap buf < L)))))) /\
  snd (Proposal_Parse m old buf) <> Exited.
Proof. exact Proposal_panics. Qed.
Print Assumptions C12_exact_panics_any_buffer.

Example C12_example : (* the SMC-D v1 Proposal of the unit tests does not panic *)
  let bs := sample_proposal_d in
  N.to_nat (declared bs) = length bs /\ ip_area_offset bs = 40%N /\ 80 <= length bs /\
  exists logs new, Message_Parse (mem1 bs) (fresh KProposal) (slice1 bs) = (logs, Done new).
Proof. vm_compute. repeat split; try (repeat constructor; fail). do 2 eexists. reflexivity. Qed.

(** ** C13 *)

Theorem C13_complete_proposalv2_panics_refuted :
  exists m buf, slice_ok m buf /\ 8 <= s_len buf /\
    N.to_nat (declared (s_bytes m buf)) = s_len buf /\
    NewMessage m buf = ([], Done (Some (fresh KProposalV2), declared (s_bytes m buf))) /\
    snd (Message_Parse m (fresh KProposalV2) buf) = Panicked.
Proof. exact ClcRefute.proposalv2_panics. Qed.
Print Assumptions C13_complete_proposalv2_panics_refuted.

Theorem C13_exact_panics : forall m buf old, slice_ok m buf -> proposalv2_wf old ->
  let bs := s_bytes m buf in
  let L := N.to_nat (declared bs) in
  8 <= s_len buf -> L <= s_len buf ->
  (snd (Message_Parse m (MProposalV2 old) buf) = Panicked <->
   84 <= L /\ v2_ip_room L bs /\ has_ext bs = true /\ v2_ext_room L bs /\
   (8 < v2_eids L bs \/
    (v2_eids L bs <= 8 /\ has_smcd bs = true /\ v2_smcd_room L bs /\ 8 < v2_gids L bs))) /\
  snd (Message_Parse m (MProposalV2 old) buf) <> Exited.
Proof. exact Message_proposalv2_panics. Qed.
Print Assumptions C13_exact_panics.

Example C13_exact_panics_case : (* 9 EIDs *)
  let m := mem1 ClcRefute.bad_proposalv2 in let buf := slice1 ClcRefute.bad_proposalv2 in
  let bs := s_bytes m buf in
  let L := N.to_nat (declared bs) in
  slice_ok m buf /\ proposalv2_wf ProposalV2_zero /\ 8 <= s_len buf /\ L <= s_len buf /\
  84 <= L /\ v2_ip_room L bs /\ has_ext bs = true /\ v2_ext_room L bs /\ 8 < v2_eids L bs /\
  snd (Message_Parse m (MProposalV2 ProposalV2_zero) buf) = Panicked.
Proof. computes. Qed.

(** and for incomplete messages as well: [back] is what the slice can reach *)
Theorem C13_exact_panics_any_buffer : forall m buf old, slice_ok m buf -> proposalv2_wf old ->
  let bs := s_bytes m buf in
  let back := bytes_at (m (s_arr buf)) (s_off buf) (s_cap buf) in
  let L := N.to_nat (declared bs) in
  let len := s_len buf in
  let cap := s_cap buf in
  let np := v2_prefixes L back in
  let es := v2_ext_start L back in
  let ne := v2_eids L back in
  let ss := v2_smcd_start L back in
  let ng := v2_gids L back in
  (snd (ProposalV2_Parse m old buf) = Panicked <->
   len < 8 \/ (L < 84 /\ cap < L) \/
   (84 <= L /\
    (cap < 80 \/
     (has_ip back = true /\
      ((L < 92 /\ cap < L) \/
       (92 <= L /\ (len < 88 + 17 * np \/ (np < prefix_count back 80 /\ cap < L))))) \/
     (v2_ip_room L back /\ has_ext back = true /\
      ((L < es + 44 /\ cap < L) \/
       (es + 44 <= L /\
        (len < es + 4 \/ cap < es + 40 + 32 * ne \/ 8 < ne \/ (ne < v2_eid_count L back /\ cap < L))))) \/
     (v2_ip_room L back /\ v2_ext_room L back /\ has_smcd back = true /\
      ((L < ss + 52 /\ cap < L) \/
       (ss + 52 <= L /\ (cap < ss + 48 + 10 * ng \/ 8 < ng \/ (ng < v2_gid_count L back /\ cap < L)))))))) /\
  snd (ProposalV2_Parse m old buf) <> Exited.
Proof. exact ClcProposalV2Any.ProposalV2_panics. Qed.
Print Assumptions C13_exact_panics_any_buffer.

Example C13_exact_panics_any_buffer_case : (* the first bytes of a message in a larger buffer *)
  let m := mem1 sample_prop2 in
  let few := slice_n sample_prop2 87 in let more := slice_n sample_prop2 96 in
  slice_ok m few /\ slice_ok m more /\ proposalv2_wf ProposalV2_zero /\
  snd (ProposalV2_Parse m ProposalV2_zero few) = Panicked /\
  exists p, snd (ProposalV2_Parse m ProposalV2_zero more) = Done p /\ x_GIDNumber (p2_Ext p) = 1%N.
Proof. computes. Qed.

Theorem C13_counts_up_to_eight : forall m buf old, slice_ok m buf -> proposalv2_wf old ->
  let bs := s_bytes m buf in
  let L := N.to_nat (declared bs) in
  8 <= s_len buf -> L <= s_len buf ->
  (has_ext bs = true -> v2_eid_count L bs <= 8 /\ (has_smcd bs = true -> v2_gid_count L bs <= 8)) ->
  exists logs new, Message_Parse m (MProposalV2 old) buf = (logs, Done new).
Proof. exact Message_proposalv2_ok. Qed.
Print Assumptions C13_counts_up_to_eight.

Example C13_example :
  let bs := sample_prop2_6 in
  let L := N.to_nat (declared bs) in
  L = length bs /\ v2_eid_count L bs = 1 /\ v2_gid_count L bs = 1.
Proof. vm_compute. repeat split. Qed.

Example C13_example_truncated : (* all but the trailer is there; then only the last GID is missing *)
  let bs := sample_prop2_6 in
  let n := length bs in
  let whole := firstn (n - 4) bs in
  let part := firstn (n - 5) bs in
  (exists logs new, ProposalV2_Parse (mem1 whole) ProposalV2_zero (slice1 whole) = (logs, Done new)) /\
  snd (ProposalV2_Parse (mem1 part) ProposalV2_zero (slice1 part)) = Panicked.
Proof. cbv zeta. split; [do 2 eexists; vm_compute; reflexivity|vm_compute; reflexivity]. Qed.

(** ** C14 *)

Theorem C14_trailer : forall m t buf, slice_ok m buf -> length t = 4 -> 4 <= s_len buf ->
  let bs := s_bytes m buf in
  exists logs, Trailer_Parse m t buf = (logs, Done (last4 bs)) /\
    (last4 bs = [xe2; xd4; xc3; xd9] \/ last4 bs = [xe2; xd4; xc3; xc4] -> logs = []) /\
    (last4 bs <> [xe2; xd4; xc3; xd9] /\ last4 bs <> [xe2; xd4; xc3; xc4] ->
     logs = ["Error parsing CLC message: invalid trailer"%string; dump_line (last4 bs)]).
Proof. exact Trailer_whole. Qed.
Print Assumptions C14_trailer.

Example C14_trailer_case :
  let m := mem1 sample_decline in let buf := slice_n sample_decline 12 in
  slice_ok m buf /\ length (zeros 4) = 4 /\ 4 <= s_len buf /\
  last4 (s_bytes m buf) <> [xe2; xd4; xc3; xd9] /\ last4 (s_bytes m buf) <> [xe2; xd4; xc3; xc4] /\
  exists d, Trailer_Parse m (zeros 4) buf
    = (["Error parsing CLC message: invalid trailer"%string; d], Done (last4 (s_bytes m buf))).
Proof. computes. Qed.

(** messages of fixed format: the trailer is checked and nothing else is logged
    (Proposals: see C07 and C08) *)
Theorem C14_trailer_of_messages : forall m msg buf, slice_ok m buf -> message_wf msg ->
  is_proposal (kind_of msg) = false ->
  let bs := s_bytes m buf in
  fields_present (kind_of msg) bs ->
  exists new, Message_Parse m msg buf = (trailer_log (last4 bs), Done new) /\
    trailer_of new = last4 bs /\ kind_of new = kind_of msg.
Proof. exact Message_fixed_full. Qed.
Print Assumptions C14_trailer_of_messages.

Example C14_example : (* a wrong trailer is stored and reported *)
  let bs := firstn 64 sample_accept_r ++ [x01; x02; x03; x04] in
  fields_present KAcceptSMCR bs /\
  exists new, Message_Parse (mem1 bs) (fresh KAcceptSMCR) (slice1 bs) =
    (["Error parsing CLC message: invalid trailer"%string; dump_line [x01; x02; x03; x04]], Done new) /\
    trailer_of new = [x01; x02; x03; x04].
Proof.
  split.
  - vm_compute. split; [discriminate|split; [repeat constructor|exact I]].
  - vm_compute. eexists. split; reflexivity.
Qed.

(** ** C15 *)

Theorem C15_fixed_formats : forall m old buf, slice_ok m buf -> reachable old ->
  is_proposal (kind_of old) = false ->
  let bs := s_bytes m buf in
  fields_present (kind_of old) bs ->
  (is_smcdv2 (kind_of old) = true -> declared bs = 114%N) ->
  Message_Parse m old buf = Message_Parse m (fresh (kind_of old)) buf.
Proof. exact Message_fixed_again. Qed.
Print Assumptions C15_fixed_formats.

(** SMC-D v2 without First Contact Extension: the extension of an earlier message survives,
    and String() shows it *)
Theorem C15_smcdv2_refuted :
  exists m old buf, slice_ok m buf /\ reachable old /\ kind_of old = KAcceptSMCDv2 /\
    fields_present KAcceptSMCDv2 (s_bytes m buf) /\
    exists logs a b,
    Message_Parse m old buf = (logs, Done a) /\
    Message_Parse m (fresh KAcceptSMCDv2) buf = (logs, Done b) /\
    Message_String a <> Message_String b.
Proof. exact ClcRefute.smcdv2_again. Qed.
Print Assumptions C15_smcdv2_refuted.

(** Proposals: the earlier prefixes stay, and the SMC-D fields if the new message has none *)
Theorem C15_proposal_exact : forall m buf old, slice_ok m buf -> proposal_wf old ->
  let bs := s_bytes m buf in
  let L := N.to_nat (declared bs) in
  52 <= L -> L <= s_len buf -> ip_area_start bs + 12 <= L ->
  exists logs p0,
    Proposal_Parse m Proposal_zero buf = (logs, Done p0) /\
    Proposal_Parse m old buf = (logs, Done
      {| p_Raw := p_Raw p0; p_Header := p_Header p0; p_SenderPeerID := p_SenderPeerID p0;
         p_IBGID := p_IBGID p0; p_IBMAC := p_IBMAC p0; p_IPAreaOffset := p_IPAreaOffset p0;
         p_SMCDGID := if (ip_area_offset bs =? 40)%N then p_SMCDGID p0 else p_SMCDGID old;
         p_reserved := if (ip_area_offset bs =? 40)%N then p_reserved p0 else p_reserved old;
         p_IP := {| i_Prefix := i_Prefix (p_IP p0); i_PrefixLen := i_PrefixLen (p_IP p0);
                    i_reserved2 := i_reserved2 (p_IP p0);
                    i_IPv6PrefixesCnt := i_IPv6PrefixesCnt (p_IP p0);
                    i_IPv6Prefixes := i_IPv6Prefixes (p_IP old) ++ i_IPv6Prefixes (p_IP p0) |};
         p_Trailer := p_Trailer p0 |}).
Proof. exact Proposal_again. Qed.
Print Assumptions C15_proposal_exact.

Example C15_proposal_exact_case : (* a Proposal without SMC-D after one with SMC-D and an IPv6 prefix *)
  let bs := sample_proposal in
  exists old, snd (Message_Parse (mem1 sample_proposal_b6) (fresh KProposal) (slice1 sample_proposal_b6)) = Done (MProposal old) /\
  proposal_wf old /\ 52 <= N.to_nat (declared bs) /\ N.to_nat (declared bs) <= length bs /\
  ip_area_start bs + 12 <= N.to_nat (declared bs) /\
  exists p, Proposal_Parse (mem1 bs) old (slice1 bs) = ([], Done p) /\
    p_SMCDGID p = p_SMCDGID old /\ p_SMCDGID p <> 0%N /\ length (i_IPv6Prefixes (p_IP p)) = 1 /\
    i_IPv6PrefixesCnt (p_IP p) = 0%N.
Proof. computes. Qed.

Theorem C15_proposal_refuted :
  exists m old buf, slice_ok m buf /\ reachable old /\ kind_of old = KProposal /\
    N.to_nat (declared (s_bytes m buf)) = s_len buf /\
    exists logs a b,
    Message_Parse m old buf = (logs, Done a) /\
    Message_Parse m (fresh KProposal) buf = (logs, Done b) /\
    Message_String a <> Message_String b.
Proof. exact ClcRefute.proposal_again. Qed.
Print Assumptions C15_proposal_refuted.

Example C15_example : (* parsing a Confirm over another one *)
  exists old logs, Message_Parse (mem1 sample_accept_r) (fresh KConfirmSMCR) (slice1 sample_accept_r)
    = (logs, Done old) /\ reachable old /\ kind_of old = KConfirmSMCR /\
    fields_present (kind_of old) sample_confirm_r /\ old <> fresh KConfirmSMCR.
Proof. exact ClcRefute.again_example. Qed.

(** ** C16 *)

Theorem C16_fixed_formats : forall m1 m2 msg buf, slice_ok m1 buf -> slice_ok m2 buf -> message_wf msg ->
  is_proposal (kind_of msg) = false -> s_bytes m1 buf = s_bytes m2 buf ->
  snd (Message_Parse m1 msg buf) = snd (Message_Parse m2 msg buf).
Proof. exact Message_fixed_local. Qed.
Print Assumptions C16_fixed_formats.

Example C16_fixed_formats_case :
  let m1 := mem1 (sample_accept_d ++ [x00]) in
  let m2 := mem1 (sample_accept_d ++ [xff]) in
  let buf := slice_n (sample_accept_d ++ [x00]) 48 in
  slice_ok m1 buf /\ slice_ok m2 (slice_n (sample_accept_d ++ [xff]) 48) /\
  buf = slice_n (sample_accept_d ++ [xff]) 48 /\ message_wf (fresh KAcceptSMCD) /\
  is_proposal (kind_of (fresh KAcceptSMCD)) = false /\ s_bytes m1 buf = s_bytes m2 buf /\ m1 0 <> m2 0.
Proof. computes. Qed.

(** Proposals: violated even for completely received messages *)
Theorem C16_proposal_refuted :
  exists m1 m2 buf, slice_ok m1 buf /\ slice_ok m2 buf /\
    s_bytes m1 buf = s_bytes m2 buf /\
    N.to_nat (declared (s_bytes m1 buf)) = s_len buf /\
    snd (Proposal_Parse m1 Proposal_zero buf) <> snd (Proposal_Parse m2 Proposal_zero buf).
Proof. exact ClcRefute.proposal_leak. Qed.
Print Assumptions C16_proposal_refuted.

(** it holds for them if the message is complete and, for v1, its SMC-D area is not cut off *)
Theorem C16_proposal_complete : forall m1 m2 buf old, slice_ok m1 buf -> slice_ok m2 buf ->
  proposal_wf old -> s_bytes m1 buf = s_bytes m2 buf ->
  let bs := s_bytes m1 buf in
  N.to_nat (declared bs) <= s_len buf ->
  (ip_area_offset bs = 40%N -> 80 <= s_len buf) ->
  Proposal_Parse m1 old buf = Proposal_Parse m2 old buf.
Proof. exact Proposal_local. Qed.
Print Assumptions C16_proposal_complete.

Example C16_proposal_complete_case :
  let m1 := mem1 (sample_proposal_d ++ [x00]) in
  let m2 := mem1 (sample_proposal_d ++ [xff]) in
  let n := length sample_proposal_d in
  let buf := slice_n (sample_proposal_d ++ [x00]) n in
  slice_ok m1 buf /\ slice_ok m2 (slice_n (sample_proposal_d ++ [xff]) n) /\
  buf = slice_n (sample_proposal_d ++ [xff]) n /\ proposal_wf Proposal_zero /\
  s_bytes m1 buf = s_bytes m2 buf /\ m1 0 <> m2 0 /\
  N.to_nat (declared (s_bytes m1 buf)) <= s_len buf /\ ip_area_offset (s_bytes m1 buf) = 40%N /\ 80 <= s_len buf.
Proof. computes. Qed.

Theorem C16_proposalv2_complete : forall m1 m2 buf old, slice_ok m1 buf -> slice_ok m2 buf ->
  proposalv2_wf old -> s_bytes m1 buf = s_bytes m2 buf ->
  N.to_nat (declared (s_bytes m1 buf)) <= s_len buf ->
  ProposalV2_Parse m1 old buf = ProposalV2_Parse m2 old buf.
Proof. exact ProposalV2_local. Qed.
Print Assumptions C16_proposalv2_complete.

Example C16_example : (* two memories that differ behind the slice *)
  let m1 := mem1 (sample_accept_r ++ [x00]) in
  let m2 := mem1 (sample_accept_r ++ [xff]) in
  let buf := mkslice 0 0 68 69 in
  slice_ok m1 buf /\ slice_ok m2 buf /\ s_bytes m1 buf = s_bytes m2 buf /\ m1 0 <> m2 0.
Proof. vm_compute. repeat split; try (repeat constructor; fail). discriminate. Qed.
