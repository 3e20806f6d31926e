(** * PropsSpare: objects that a panicking Parse leaves behind, with spare capacity (C73).

    C64 and C67 need buffers without spare capacity to say exactly what is left.  Here the
    buffers are arbitrary.  The vocabulary is in Spare.v. *)

From Coq Require Import NArith Bool String Arith List.
From Verif Require Import GoBase GoFmt ClcModel LlcModel RoceModel WriteModel LlcWriteModel Samples
  Wire ClcView LlcView Recover Areas Accepted Spare.
From Verif Require SpareFacts AreasFacts LlcExamples.
Import ListNotations.

(** ** C73 *)

Theorem C73_clc : forall m buf old l new, slice_ok m buf -> reachable old ->
  Message_W m buf old = (l, Panicked, new) -> left_behind m buf old new.
Proof. exact SpareFacts.clc. Qed.
Print Assumptions C73_clc.

Theorem C73_llc : forall m buf old l new, slice_ok m buf -> llc_reachable old ->
  LLC_W m buf old = (l, Panicked, new) ->
  let k := llc_kind_of old in
  llc_view new = left_fields (llc_joined k) (llc_layout k) (reach m buf) (s_len buf) (llc_view old).
Proof. exact SpareFacts.llc. Qed.
Print Assumptions C73_llc.

Theorem C73_bth : forall m buf old l new, slice_ok m buf ->
  BTH_W m buf old = (l, Panicked, new) ->
  bth_view new = left_fields moves_always bth (reach m buf) (s_len buf) (bth_view old).
Proof. exact SpareFacts.bth. Qed.
Print Assumptions C73_bth.

Theorem C73_proposal : forall m buf old l new, slice_ok m buf -> reachable (MProposal old) ->
  Message_W m buf (MProposal old) = (l, Panicked, MProposal new) ->
  v1_after (reach m buf) (s_len buf) old new.
Proof. exact SpareFacts.proposal. Qed.
Print Assumptions C73_proposal.

Theorem C73_proposalv2 : forall m buf old l new, slice_ok m buf -> reachable (MProposalV2 old) ->
  Message_W m buf (MProposalV2 old) = (l, Panicked, MProposalV2 new) ->
  v2_after (reach m buf) (s_len buf) old new.
Proof. exact SpareFacts.proposalv2. Qed.
Print Assumptions C73_proposalv2.

(** the object does not depend on the bytes of the buffer alone *)
Theorem C73_length_only_refuted :
  exists m m' buf l p p', slice_ok m buf /\ slice_ok m' buf /\ s_bytes m buf = s_bytes m' buf /\
    Message_W m buf (fresh KProposal) = (l, Panicked, MProposal p) /\
    Message_W m' buf (fresh KProposal) = (l, Panicked, MProposal p') /\
    p_SMCDGID p <> p_SMCDGID p'.
Proof. exact SpareFacts.behind_the_length. Qed.
Print Assumptions C73_length_only_refuted.

(** a v2 Decline of 28 bytes in a buffer of length 20: the OS type is neither set nor removed
    from the four bytes that become the reserved ones *)
Example C73_example_decline :
  let bs := sample_decline2 in
  let buf := slice_n bs 20 in
  slice_ok (mem1 bs) buf /\ reachable (fresh KDeclineV2) /\
  exists d, Message_W (mem1 bs) buf (fresh KDeclineV2) = ([], Panicked, MDeclineV2 d) /\
    d2_OSType d = 0%N /\ d2_reserved d = hexs "20000000".
Proof. exact SpareFacts.decline_example. Qed.

(** the IB GID of an Accept, from byte 16 on, in a buffer of length 16 *)
Example C73_example_accept :
  let bs := sample_accept_r in
  let buf := slice_n bs 16 in
  slice_ok (mem1 bs) buf /\ reachable (fresh KAcceptSMCR) /\
  exists a, Message_W (mem1 bs) buf (fresh KAcceptSMCR) = ([], Panicked, MAcceptSMCR a) /\
    ar_IBGID a = bytes_at bs 16 16 /\ ar_IBMAC a = [].
Proof. exact SpareFacts.accept_example. Qed.

(** the first entry of an Add Link Continuation is read, then the buffer of length 9 cannot be
    moved to the second *)
Example C73_example_llc :
  let bs := SpareFacts.add_link_cont in
  let buf := slice_n bs 9 in
  slice_ok (mem1 bs) buf /\ llc_reachable (llc_fresh KAddLinkCont) /\
  exists a, LLC_W (mem1 bs) buf (llc_fresh KAddLinkCont) = ([], Panicked, LAddLinkCont a) /\
    ac_RKeyPairs a = [mkRKeyPair 273 8738 13107; mkRKeyPair 0 0 0].
Proof. exact SpareFacts.llc_example. Qed.

(** the partition key of a BTH, from byte 2 on, in a buffer of length 2 *)
Example C73_example_bth :
  let bs := LlcExamples.sample_bth in
  let buf := slice_n bs 2 in
  slice_ok (mem1 bs) buf /\
  exists b, BTH_W (mem1 bs) buf BTH_zero = ([], Panicked, b) /\
    bth_Opcode b = 4%N /\ bth_PKey b = 65535%N /\ bth_DestQP b = 0%N.
Proof. exact SpareFacts.bth_example. Qed.

(** a v1 Proposal in a buffer that has only its header *)
Example C73_example_proposal :
  let bs := AreasFacts.cut_v1 in
  let buf := slice_n bs 8 in
  slice_ok (mem1 bs) buf /\ reachable (fresh KProposal) /\
  exists p, Message_W (mem1 bs) buf (fresh KProposal) = ([], Panicked, MProposal p) /\
    p_IPAreaOffset p = 40%N /\ p_SMCDGID p = 81985529216486895%N /\
    i_IPv6PrefixesCnt (p_IP p) = 0%N.
Proof. exact SpareFacts.proposal_example. Qed.

(** a v2 Proposal in a buffer that ends behind the first four bytes of its extension: two GIDs
    and a part of a third are stored *)
Example C73_example_proposalv2 :
  let bs := AreasFacts.cut_v2 in
  let buf := slice_n bs 84 in
  slice_ok (mem1 bs) buf /\ reachable (fresh KProposalV2) /\
  v2_ext_start (N.to_nat (declared bs)) bs = 80 /\
  exists p, Message_W (mem1 bs) buf (fresh KProposalV2) = ([], Panicked, MProposalV2 p) /\
    map (fun g => (g_GID g, g_VCHID g)) (y_GIDArea (p2_SMCD p))
    = [(1, 257); (2, 514); (3, 0); (0, 0); (0, 0); (0, 0); (0, 0); (0, 0)]%N.
Proof. exact SpareFacts.proposalv2_example. Qed.
