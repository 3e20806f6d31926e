(** * SpareFacts: results and examples for PropsSpare.v. Proofs only. *)

From Coq Require Import NArith ZArith Bool String Arith List Lia.
From Verif Require Import GoBase GoFmt ClcModel LlcModel RoceModel WriteModel LlcWriteModel Slices Samples Wire ClcView
  LlcView Recover Areas Accepted Spare Witness.
From Verif Require SpareClc SpareLlc SpareAreas AreasFacts ClcMessage LlcMessage RecoverFacts RecoverProposal LlcExamples.
Import ListNotations.
Local Open Scope nat_scope.

Lemma clc m buf old l new : slice_ok m buf -> reachable old ->
  Message_W m buf old = (l, Panicked, new) -> left_behind m buf old new.
Proof.
  intros Hok Hr. apply SpareClc.Message_spare; [exact Hok|]. apply ClcMessage.reachable_wf, Hr.
Qed.

Lemma llc m buf old l new : slice_ok m buf -> llc_reachable old ->
  LLC_W m buf old = (l, Panicked, new) ->
  let k := llc_kind_of old in
  llc_view new = left_fields (llc_joined k) (llc_layout k) (reach m buf) (s_len buf) (llc_view old).
Proof.
  intros Hok Hr. apply SpareLlc.LLC_spare; [exact Hok|]. apply LlcMessage.llc_reachable_wf, Hr.
Qed.

Lemma bth m buf old l new : slice_ok m buf -> BTH_W m buf old = (l, Panicked, new) ->
  bth_view new = left_fields moves_always bth (reach m buf) (s_len buf) (bth_view old).
Proof.
  intros Hok E. pose proof (SpareLlc.BTH_spare m buf old Hok) as H.
  unfold RecoverSteps.torn in H. rewrite E in H. exact (H eq_refl).
Qed.

Lemma proposal m buf old l new : slice_ok m buf -> reachable (MProposal old) ->
  Message_W m buf (MProposal old) = (l, Panicked, MProposal new) ->
  v1_after (reach m buf) (s_len buf) old new.
Proof.
  intros Hok Hr E. pose proof (ClcMessage.reachable_wf _ Hr) as Hwf.
  pose proof (SpareAreas.Proposal_after m buf Hok (Slices.len_le_cap m buf Hok) old Hwf) as H. cbn in E. unfold inside in E.
  unfold RecoverSteps.torn in H. destruct (Proposal_W m buf old) as [[l1 o] r1]. injection E as -> -> ->.
  exact (H eq_refl).
Qed.

Lemma proposalv2 m buf old l new : slice_ok m buf -> reachable (MProposalV2 old) ->
  Message_W m buf (MProposalV2 old) = (l, Panicked, MProposalV2 new) ->
  v2_after (reach m buf) (s_len buf) old new.
Proof.
  intros Hok Hr E. pose proof (ClcMessage.reachable_wf _ Hr) as Hwf.
  pose proof (SpareAreas.ProposalV2_after m buf Hok (Slices.len_le_cap m buf Hok) old Hwf) as H. cbn in E. unfold inside in E.
  unfold RecoverSteps.torn in H. destruct (ProposalV2_W m buf old) as [[l1 o] r1]. injection E as -> -> ->.
  exact (H eq_refl).
Qed.

(** ** Examples *)

(** a v2 Decline of 28 bytes in a buffer of length 20: the OS type is neither removed from the
    four bytes stored nor set *)
Lemma decline_example :
  let bs := sample_decline2 in
  let buf := slice_n bs 20 in
  slice_ok (mem1 bs) buf /\ reachable (fresh KDeclineV2) /\
  exists d, Message_W (mem1 bs) buf (fresh KDeclineV2) = ([], Panicked, MDeclineV2 d) /\
    d2_OSType d = 0%N /\ d2_reserved d = hexs "20000000".
Proof. computes. Qed.

(** the IB GID of an Accept, from byte 16 on, in a buffer of length 16 *)
Lemma accept_example :
  let bs := sample_accept_r in
  let buf := slice_n bs 16 in
  slice_ok (mem1 bs) buf /\ reachable (fresh KAcceptSMCR) /\
  exists a, Message_W (mem1 bs) buf (fresh KAcceptSMCR) = ([], Panicked, MAcceptSMCR a) /\
    ar_IBGID a = bytes_at bs 16 16 /\ ar_IBMAC a = [].
Proof. computes. Qed.

(** the first entry of an Add Link Continuation is read, then the buffer of length 9 cannot be
    moved to the second *)
Definition add_link_cont : list byte :=
  hexs "032c00000102000000000111000022220000000000003333000004440000555500000000000066660000000000".

Lemma llc_example :
  let bs := add_link_cont in
  let buf := slice_n bs 9 in
  slice_ok (mem1 bs) buf /\ llc_reachable (llc_fresh KAddLinkCont) /\
  exists a, LLC_W (mem1 bs) buf (llc_fresh KAddLinkCont) = ([], Panicked, LAddLinkCont a) /\
    ac_RKeyPairs a = [mkRKeyPair 273 8738 13107; mkRKeyPair 0 0 0].
Proof. computes. Qed.

(** the partition key of a BTH, from byte 2 on, in a buffer of length 2 *)
Lemma bth_example :
  let bs := LlcExamples.sample_bth in
  let buf := slice_n bs 2 in
  slice_ok (mem1 bs) buf /\
  exists b, BTH_W (mem1 bs) buf BTH_zero = ([], Panicked, b) /\
    bth_Opcode b = 4%N /\ bth_PKey b = 65535%N /\ bth_DestQP b = 0%N.
Proof. computes. Qed.

(** a v1 Proposal in a buffer that has only its header *)
Lemma proposal_example :
  let bs := AreasFacts.cut_v1 in
  let buf := slice_n bs 8 in
  slice_ok (mem1 bs) buf /\ reachable (fresh KProposal) /\
  exists p, Message_W (mem1 bs) buf (fresh KProposal) = ([], Panicked, MProposal p) /\
    p_IPAreaOffset p = 40%N /\ p_SMCDGID p = 81985529216486895%N /\ i_IPv6PrefixesCnt (p_IP p) = 0%N.
Proof. computes. Qed.

(** a v2 Proposal in a buffer that ends behind the first four bytes of its extension: two GIDs
    and a part of a third are stored *)
Lemma proposalv2_example :
  let bs := AreasFacts.cut_v2 in
  let buf := slice_n bs 84 in
  slice_ok (mem1 bs) buf /\ reachable (fresh KProposalV2) /\
  v2_ext_start (N.to_nat (declared bs)) bs = 80 /\
  exists p, Message_W (mem1 bs) buf (fresh KProposalV2) = ([], Panicked, MProposalV2 p) /\
    map (fun g => (g_GID g, g_VCHID g)) (y_GIDArea (p2_SMCD p))
    = [(1, 257); (2, 514); (3, 0); (0, 0); (0, 0); (0, 0); (0, 0); (0, 0)]%N.
Proof. computes. Qed.

(** bytes behind the length of a buffer reach the object *)
Lemma behind_the_length :
  exists m m' buf l p p', slice_ok m buf /\ slice_ok m' buf /\ s_bytes m buf = s_bytes m' buf /\
    Message_W m buf (fresh KProposal) = (l, Panicked, MProposal p) /\
    Message_W m' buf (fresh KProposal) = (l, Panicked, MProposal p') /\
    p_SMCDGID p <> p_SMCDGID p'.
Proof.
  pose (bs := AreasFacts.cut_v1). pose (bs' := firstn 40 bs ++ zeros 75).
  exists (mem1 bs), (mem1 bs'), (slice_n bs 8). do 3 eexists.
  split; [apply slice_n_ok; computes_le|].
  split; [change (slice_n bs 8) with (slice_n bs' 8); apply slice_n_ok; computes_le|].
  split; [vm_compute; reflexivity|]. split; [vm_compute; reflexivity|]. split; [vm_compute; reflexivity|].
  vm_compute. discriminate.
Qed.
