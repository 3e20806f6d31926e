(** * PropsTorn: completely received Proposals whose Parse panics (C65).

    C12 and C13 tell which these are.  The vocabulary is that of PropsClc.v (C06, C08) and of
    PropsRecover.v. *)

From Coq Require Import NArith Bool String Arith List.
From Verif Require Import GoBase GoFmt ClcModel WriteModel Samples Wire ClcView Recover.
From Verif Require RecoverProposal ClcRefute.
Import ListNotations.

(** ** C65 *)

(** an SMC-D area is announced and the buffer ends in front of its end: the GID is read, the
    reserved bytes, the IP area and the trailer are not *)
Theorem C65_proposal : forall m buf old, slice_ok m buf -> reachable (MProposal old) ->
  let bs := s_bytes m buf in
  let L := N.to_nat (declared bs) in
  52 <= L -> L <= s_len buf -> ip_area_offset bs = 40%N -> s_cap buf < 80 ->
  exists p, Message_W m buf (MProposal old) = ([], Panicked, MProposal p) /\
    proposal_view p = decode (clc_header ++ proposal_body) bs /\
    p_SMCDGID p = bits bs 320 64 /\
    p_reserved p = p_reserved old /\ p_IP p = p_IP old /\ p_Trailer p = p_Trailer old /\
    p_Raw p = buf.
Proof. exact RecoverProposal.proposal_object. Qed.
Print Assumptions C65_proposal.

(** more than eight EIDs: the first eight are stored *)
Theorem C65_eids : forall m buf old, slice_ok m buf -> reachable (MProposalV2 old) ->
  let bs := s_bytes m buf in
  let L := N.to_nat (declared bs) in
  84 <= L -> L <= s_len buf -> v2_ip_room L bs -> has_ext bs = true -> v2_ext_room L bs ->
  8 < v2_eids L bs ->
  exists p, Message_W m buf (MProposalV2 old) = (v2_prefix_log L bs, Panicked, MProposalV2 p) /\
    proposalv2_view p = decode (clc_header_v2proposal ++ proposalv2_body) bs /\
    v2_ip_decoded L bs old p /\
    v2_extension_view (p2_Ext p) = decode_at v2_extension_body (8 * v2_ext_start L bs) bs /\
    x_EIDArea (p2_Ext p)
      = map (fun k => bytes_at bs (v2_ext_start L bs + 40 + 32 * k) 32) (seq 0 8) /\
    p2_SMCD p = p2_SMCD old /\ p2_Trailer p = p2_Trailer old /\
    p2_Raw p = buf.
Proof. exact RecoverProposal.eids_object. Qed.
Print Assumptions C65_eids.

(** more than eight GIDs: the first eight are stored *)
Theorem C65_gids : forall m buf old, slice_ok m buf -> reachable (MProposalV2 old) ->
  let bs := s_bytes m buf in
  let L := N.to_nat (declared bs) in
  84 <= L -> L <= s_len buf -> v2_ip_room L bs -> has_ext bs = true -> v2_ext_room L bs ->
  v2_eids L bs <= 8 -> has_smcd bs = true -> v2_smcd_room L bs -> 8 < v2_gids L bs ->
  exists p, Message_W m buf (MProposalV2 old)
            = (v2_prefix_log L bs ++ v2_eid_log L bs, Panicked, MProposalV2 p) /\
    proposalv2_view p = decode (clc_header_v2proposal ++ proposalv2_body) bs /\
    v2_ip_decoded L bs old p /\ v2_ext_decoded L bs old p /\
    smcdv2_extension_view (p2_SMCD p)
      = decode_at smcdv2_extension_body (8 * v2_smcd_start L bs) bs /\
    map gid_entry_view (y_GIDArea (p2_SMCD p))
      = entries gid_entry_body (v2_smcd_start L bs + 48) 10 8 bs /\
    p2_Trailer p = p2_Trailer old /\
    p2_Raw p = buf.
Proof. exact RecoverProposal.gids_object. Qed.
Print Assumptions C65_gids.

(** these are all: no other complete message of the two kinds panics *)
Theorem C65_no_others : forall m buf old l new, slice_ok m buf -> reachable old ->
  let bs := s_bytes m buf in
  let L := N.to_nat (declared bs) in
  8 <= s_len buf -> L <= s_len buf ->
  Message_W m buf old = (l, Panicked, new) ->
  match old with
  | MProposal _ => 52 <= L /\ ip_area_offset bs = 40%N /\ s_cap buf < 80
  | MProposalV2 _ =>
    84 <= L /\ v2_ip_room L bs /\ has_ext bs = true /\ v2_ext_room L bs /\
    (8 < v2_eids L bs \/
     (v2_eids L bs <= 8 /\ has_smcd bs = true /\ v2_smcd_room L bs /\ 8 < v2_gids L bs))
  | _ => False
  end.
Proof. exact RecoverProposal.no_others. Qed.
Print Assumptions C65_no_others.

Example C65_example_proposal :
  let bs := ClcRefute.bad_proposal in
  N.to_nat (declared bs) = 52 /\ length bs = 52 /\ ip_area_offset bs = 40%N /\
  Message_W (mem1 bs) (slice1 bs) (fresh KProposal) = ([], Panicked, RecoverProposal.left_v1 bs) /\
  trailer_of (RecoverProposal.left_v1 bs) = zeros 4.
Proof. exact RecoverProposal.proposal_example. Qed.

Example C65_example_eids :
  let bs := RecoverProposal.nine_eids in
  let L := N.to_nat (declared bs) in
  (L =? length bs) && (84 <=? L) && (92 <=? L) && has_ext bs && (v2_ext_start L bs + 44 <=? L)
    && (8 <? v2_eids L bs) = true /\
  exists p, Message_W (mem1 bs) (slice1 bs) (fresh KProposalV2) = ([], Panicked, MProposalV2 p) /\
    x_EIDNumber (p2_Ext p) = 9%N /\
    x_EIDArea (p2_Ext p) = map (fun b => repeat b 32) (hexs "0102030405060708").
Proof. exact RecoverProposal.eids_example. Qed.

Example C65_example_gids :
  let bs := RecoverProposal.nine_gids in
  let L := N.to_nat (declared bs) in
  (L =? length bs) && (84 <=? L) && (92 <=? L) && has_ext bs && (v2_ext_start L bs + 44 <=? L)
    && (v2_eids L bs <=? 8) && has_smcd bs && (v2_smcd_start L bs + 52 <=? L)
    && (8 <? v2_gids L bs) = true /\
  exists p, Message_W (mem1 bs) (slice1 bs) (fresh KProposalV2) = ([], Panicked, MProposalV2 p) /\
    x_GIDNumber (p2_Ext p) = 9%N /\
    map (fun g => (g_GID g, g_VCHID g)) (y_GIDArea (p2_SMCD p))
    = [(1, 257); (2, 514); (3, 771); (4, 1028); (5, 1285); (6, 1542); (7, 1799); (8, 2056)]%N.
Proof. exact RecoverProposal.gids_example. Qed.
