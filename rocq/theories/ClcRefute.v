(** * ClcRefute: witnesses for the violated properties of package clc. Proofs only. *)

From Coq Require Import NArith ZArith Bool String Arith List Lia.
From Verif Require Import GoBase GoFmt ClcModel Samples Wire ClcView ClcNew ClcMessage.
Import ListNotations.
Local Open Scope nat_scope.

Lemma kind_rel_fun t v p k1 k2 : kind_rel t v p k1 -> kind_rel t v p k2 -> k1 = k2.
Proof. intros H1 H2. apply pick_rel in H1, H2. congruence. Qed.

Lemma NewMessage_safe m buf : slice_ok m buf -> 8 <= s_len buf ->
  exists logs r, NewMessage m buf = (logs, Done r).
Proof.
  intros Hok H8. rewrite NewMessage_8 by assumption.
  destruct (is_eyecatcher _); [|do 2 eexists; reflexivity].
  destruct (_ <? _)%N; [do 2 eexists; reflexivity|].
  destruct (pick _ _ _); do 2 eexists; reflexivity.
Qed.

(** ** C12: a complete 52-byte Proposal announcing an SMC-D area *)
Definition bad_proposal : list byte :=
  firstn 38 sample_proposal ++ [x00; x28] ++ skipn 40 sample_proposal.

Lemma proposal_panics :
  exists m buf, slice_ok m buf /\ 8 <= s_len buf /\
    N.to_nat (declared (s_bytes m buf)) = s_len buf /\
    NewMessage m buf = ([], Done (Some (fresh KProposal), declared (s_bytes m buf))) /\
    snd (Message_Parse m (fresh KProposal) buf) = Panicked.
Proof.
  exists (mem1 bad_proposal), (slice1 bad_proposal). split; [apply slice1_ok|].
  split; [vm_compute; repeat constructor|]. split; [vm_compute; reflexivity|].
  split; vm_compute; reflexivity.
Qed.

(** ** C13: a complete 412-byte Proposal with nine EIDs *)
Definition bad_proposalv2 : list byte :=
  hexs "e2d4c3d901019c22" ++ repeat x00 72 ++ [x09] ++ repeat x00 (39 + 9 * 32) ++ hexs "e2d4c3d9".

Lemma proposalv2_panics :
  exists m buf, slice_ok m buf /\ 8 <= s_len buf /\
    N.to_nat (declared (s_bytes m buf)) = s_len buf /\
    NewMessage m buf = ([], Done (Some (fresh KProposalV2), declared (s_bytes m buf))) /\
    snd (Message_Parse m (fresh KProposalV2) buf) = Panicked.
Proof.
  exists (mem1 bad_proposalv2), (slice1 bad_proposalv2). split; [apply slice1_ok|].
  split; [vm_compute; repeat constructor|]. split; [vm_compute; reflexivity|].
  split; vm_compute; reflexivity.
Qed.

(** ** C15 *)

(** an SMC-D v2 Accept of 118 bytes *)
Definition long_accept : list byte :=
  hexs "e2d4c3c402007629" ++ skipn 8 sample_accept_d2 ++ repeat x00 36 ++ hexs "e2d4c3c4".

Definition used (k : clc_kind) (bs : list byte) : Message :=
  match snd (Message_Parse (mem1 bs) (fresh k) (slice1 bs)) with Done a => a | _ => fresh k end.

Lemma used_reachable k bs : reachable (used k bs).
Proof.
  unfold used. destruct (Message_Parse (mem1 bs) (fresh k) (slice1 bs)) as [l [a| |]] eqn:E;
    cbn [snd]; try constructor.
  eapply reach_parse; [apply reach_fresh|apply slice1_ok|exact E].
Qed.

Lemma smcdv2_again :
  exists m old buf, slice_ok m buf /\ reachable old /\ kind_of old = KAcceptSMCDv2 /\
    fields_present KAcceptSMCDv2 (s_bytes m buf) /\
    exists logs a b,
    Message_Parse m old buf = (logs, Done a) /\
    Message_Parse m (fresh KAcceptSMCDv2) buf = (logs, Done b) /\
    Message_String a <> Message_String b.
Proof.
  exists (mem1 long_accept), (used KAcceptSMCDv2 sample_accept_d2_fce), (slice1 long_accept).
  split; [apply slice1_ok|]. split; [apply used_reachable|]. split; [vm_compute; reflexivity|].
  split; [vm_compute; split; [discriminate|split; [repeat constructor|discriminate]]|].
  do 3 eexists. split; [vm_compute; reflexivity|]. split; [vm_compute; reflexivity|].
  vm_compute. discriminate.
Qed.

Lemma proposal_again :
  exists m old buf, slice_ok m buf /\ reachable old /\ kind_of old = KProposal /\
    N.to_nat (declared (s_bytes m buf)) = s_len buf /\
    exists logs a b,
    Message_Parse m old buf = (logs, Done a) /\
    Message_Parse m (fresh KProposal) buf = (logs, Done b) /\
    Message_String a <> Message_String b.
Proof.
  exists (mem1 sample_proposal_6), (used KProposal sample_proposal_6), (slice1 sample_proposal_6).
  split; [apply slice1_ok|]. split; [apply used_reachable|]. split; [vm_compute; reflexivity|].
  split; [vm_compute; reflexivity|].
  do 3 eexists. split; [vm_compute; reflexivity|]. split; [vm_compute; reflexivity|].
  vm_compute. discriminate.
Qed.

Lemma again_example :
  exists old logs, Message_Parse (mem1 sample_accept_r) (fresh KConfirmSMCR) (slice1 sample_accept_r)
    = (logs, Done old) /\ reachable old /\ kind_of old = KConfirmSMCR /\
    fields_present (kind_of old) sample_confirm_r /\ old <> fresh KConfirmSMCR.
Proof.
  exists (used KConfirmSMCR sample_accept_r), [].
  split; [vm_compute; reflexivity|]. split; [apply used_reachable|].
  split; [vm_compute; reflexivity|]. split.
  - replace (kind_of (used KConfirmSMCR sample_accept_r)) with KConfirmSMCR by (vm_compute; reflexivity).
    vm_compute. split; [discriminate|split; [repeat constructor|exact I]].
  - vm_compute. discriminate.
Qed.

(** ** C16: the 52-byte Proposal of C12 in an array of 80 bytes *)
Lemma proposal_leak :
  exists m1 m2 buf, slice_ok m1 buf /\ slice_ok m2 buf /\
    s_bytes m1 buf = s_bytes m2 buf /\
    N.to_nat (declared (s_bytes m1 buf)) = s_len buf /\
    snd (Proposal_Parse m1 Proposal_zero buf) <> snd (Proposal_Parse m2 Proposal_zero buf).
Proof.
  exists (mem1 (bad_proposal ++ repeat x00 28)), (mem1 (bad_proposal ++ repeat xff 28)),
    (mkslice 0 0 52 80).
  split; [vm_compute; split; repeat constructor|]. split; [vm_compute; split; repeat constructor|].
  split; [vm_compute; reflexivity|]. split; [vm_compute; reflexivity|]. vm_compute. discriminate.
Qed.
