(** * PropsAreas: what a panicking Parse does to the areas of variable size of Proposals (C67).

    The vocabulary is in Areas.v.  C64 covers the fields in front of these areas. *)

From Coq Require Import NArith Bool String Arith List.
From Verif Require Import GoBase GoFmt ClcModel WriteModel Samples Wire ClcView Recover Areas.
From Verif Require AreasFacts.
Import ListNotations.

(** ** C67 *)

Theorem C67_proposal : forall m buf old l new, slice_ok m buf -> reachable (MProposal old) ->
  s_cap buf = s_len buf ->
  Message_W m buf (MProposal old) = (l, Panicked, MProposal new) ->
  v1_left (s_bytes m buf) old new.
Proof. exact AreasFacts.proposal_areas. Qed.
Print Assumptions C67_proposal.

Theorem C67_proposalv2 : forall m buf old l new, slice_ok m buf -> reachable (MProposalV2 old) ->
  s_cap buf = s_len buf ->
  Message_W m buf (MProposalV2 old) = (l, Panicked, MProposalV2 new) ->
  v2_left (s_bytes m buf) old new.
Proof. exact AreasFacts.proposalv2_areas. Qed.
Print Assumptions C67_proposalv2.

(** two IPv6 prefixes announced, the buffer ends in the second: the first was appended *)
Example C67_example_v1 :
  let bs := AreasFacts.cut_v1 in
  N.to_nat (declared bs) = 126 /\ length bs = 115 /\ ip_area_offset bs = 40%N /\
  exists p, Message_W (mem1 bs) (slice1 bs) (fresh KProposal) = ([], Panicked, MProposal p) /\
    i_IPv6PrefixesCnt (p_IP p) = 2%N /\
    i_IPv6Prefixes (p_IP p) = [mkIPv6Prefix (repeat x11 16) 64].
Proof. exact AreasFacts.cut_v1_example. Qed.

(** nine GIDs announced, the buffer ends behind the GID of the third: it is stored, its VCHID
    is not *)
Example C67_example_v2 :
  let bs := AreasFacts.cut_v2 in
  let L := N.to_nat (declared bs) in
  L = 262 /\ length bs = 196 /\ v2_gids L bs = 9 /\ v2_smcd_start L bs + 48 = 168 /\
  exists p, Message_W (mem1 bs) (slice1 bs) (fresh KProposalV2) = ([], Panicked, MProposalV2 p) /\
    map (fun g => (g_GID g, g_VCHID g)) (y_GIDArea (p2_SMCD p))
    = [(1, 257); (2, 514); (3, 0); (0, 0); (0, 0); (0, 0); (0, 0); (0, 0)]%N.
Proof. exact AreasFacts.cut_v2_example. Qed.
