(** * Accepted: what Parse makes of any buffer that it accepts. Specification only. *)

From Coq Require Import NArith Bool String Arith List.
From Verif Require Import GoBase ClcModel Wire ClcView Recover.
Import ListNotations.
Local Open Scope string_scope.
Local Open Scope list_scope.
Local Open Scope nat_scope.

(** the bytes that slice expressions can reach: up to the capacity of the slice *)
Definition reach (m : mem) (buf : slice) : list byte := bytes_at (m (s_arr buf)) (s_off buf) (s_cap buf).

(** [back]: the bytes that are reached, [L]: the declared length, [t]: the last four bytes of the
    buffer *)
Definition v1_accepted (L : nat) (back t : list byte) (old : Proposal) (logs : list string) (p : Proposal)
  : Prop :=
  let start := ip_area_start back in
  let cnt := prefix_count back start in
  let n := fitting L (start + 8) 17 cnt in
  proposal_view p = decode (clc_header ++ proposal_body) back /\
  (if (ip_area_offset back =? 40)%N
   then proposal_smcd_view p = decode_at proposal_smcd_body (8 * 40) back
   else proposal_smcd_view p = proposal_smcd_view old) /\
  if L <? start + 12 then
    logs = ["Error parsing CLC Proposal: IP Area Offset too big"; dump_line (bytes_at back 0 L)] /\
    p_IP p = p_IP old /\ p_Trailer p = p_Trailer old
  else
    logs = too_many_log "Error parsing CLC Proposal: IPv6 prefix count too big" L back n cnt
           ++ trailer_log t /\
    ip_area_view (p_IP p) = decode_at ip_area_body (8 * start) back /\
    (exists new, i_IPv6Prefixes (p_IP p) = i_IPv6Prefixes (p_IP old) ++ new /\
       map ipv6_prefix_view new = entries ipv6_prefix_body (start + 8) 17 n back) /\
    p_Trailer p = t.

Definition v2_no_room (L : nat) (back : list byte) (area : string) : list string :=
  [("Error parsing CLC Proposal v2: " ++ area)%string; dump_line (bytes_at back 0 L)].

Definition v2_accepted (L : nat) (back t : list byte) (old : ProposalV2) (logs : list string)
    (p : ProposalV2) : Prop :=
  proposalv2_view p = decode (clc_header_v2proposal ++ proposalv2_body) back /\
  ((~ v2_ip_room L back /\
    logs = v2_no_room L back "IP Area Offset too big" /\
    p2_IP p = p2_IP old /\ p2_Ext p = p2_Ext old /\ p2_SMCD p = p2_SMCD old /\
    p2_Trailer p = p2_Trailer old) \/
   (v2_ip_room L back /\ ~ v2_ext_room L back /\
    logs = v2_prefix_log L back ++ v2_no_room L back "Not enough space for Proposal v2 Extension" /\
    v2_ip_decoded L back old p /\ p2_Ext p = p2_Ext old /\ p2_SMCD p = p2_SMCD old /\
    p2_Trailer p = p2_Trailer old) \/
   (v2_ip_room L back /\ v2_ext_room L back /\ ~ v2_smcd_room L back /\
    logs = v2_prefix_log L back ++ v2_eid_log L back
           ++ v2_no_room L back "Not enough space for SMC-D v2 Extension" /\
    v2_ip_decoded L back old p /\ v2_ext_decoded L back old p /\ p2_SMCD p = p2_SMCD old /\
    p2_Trailer p = p2_Trailer old) \/
   (v2_ip_room L back /\ v2_ext_room L back /\ v2_smcd_room L back /\
    logs = v2_prefix_log L back ++ v2_eid_log L back ++ v2_gid_log L back ++ trailer_log t /\
    v2_ip_decoded L back old p /\ v2_ext_decoded L back old p /\ v2_smcd_decoded L back old p /\
    p2_Trailer p = t)).

(** the declared length is too small, or the buffer of an SMC-D v2 Accept or Confirm is too short *)
Definition gives_up (k : clc_kind) (bs : list byte) : bool :=
  ((declared bs <? min_length k)%N ||
   match k with KAcceptSMCDv2 | KConfirmSMCDv2 => length bs <? 78 | _ => false end)%bool.

Definition smcr_accepted (bs : list byte) (a : AcceptSMCR) : Prop :=
  accept_smcr_view a = decode (clc_header ++ accept_smcr_body) bs.
Definition smcd_accepted (bs : list byte) (a : AcceptSMCD) : Prop :=
  accept_smcd_view a = decode (clc_header ++ accept_smcd_body) bs.
Definition smcdv2_accepted (bs : list byte) (old a : AcceptSMCDv2) : Prop :=
  accept_smcdv2_view a = decode (clc_header ++ accept_smcdv2_body) bs /\
  fce_view a = if (declared bs =? 114)%N then decode_at fce_body (8 * 74) bs else fce_view old.

(** [new] is what becomes of [old] when the buffer [buf] is accepted with the log output [logs] *)
Definition accepted (m : mem) (buf : slice) (old : Message) (logs : list string) (new : Message) : Prop :=
  let bs := s_bytes m buf in
  let L := N.to_nat (declared bs) in
  let back := reach m buf in
  raw_of new = buf /\
  header_view (header_of new) = decode clc_header bs /\ h_Pathv2 (header_of new) = msg_pathv2 bs /\
  if gives_up (kind_of old) bs then
    logs = [too_short_line (kind_of old) (msg_type bs); dump_line (bytes_at back 0 L)] /\
    new = with_header old buf (header_of new)
  else
    match old, new with
    | MProposal o, MProposal p => v1_accepted L back (last4 bs) o logs p
    | MProposalV2 o, MProposalV2 p => v2_accepted L back (last4 bs) o logs p
    | _, _ =>
      logs = trailer_log (last4 bs) /\ trailer_of new = last4 bs /\
      match old, new with
      | MAcceptSMCR _, MAcceptSMCR a => smcr_accepted bs a
      | MConfirmSMCR _, MConfirmSMCR c => smcr_accepted bs (cr_Accept c)
      | MAcceptSMCD _, MAcceptSMCD a => smcd_accepted bs a
      | MConfirmSMCD _, MConfirmSMCD c => smcd_accepted bs (cd_Accept c)
      | MAcceptSMCDv2 o, MAcceptSMCDv2 a => smcdv2_accepted bs o a
      | MConfirmSMCDv2 o, MConfirmSMCDv2 c => smcdv2_accepted bs (c2_Accept o) (c2_Accept c)
      | MDecline o, MDecline d =>
        decline_view d = decode (clc_header ++ decline_body) bs /\ d_OSType d = d_OSType o
      | MDeclineV2 _, MDeclineV2 d => declinev2_view d = decode (clc_header ++ declinev2_body) bs
      | _, _ => False
      end
    end.
