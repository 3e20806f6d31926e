(** * PropsAccepted: what Parse makes of any buffer that it accepts (C70).

    [accepted] is in Accepted.v. *)

From Coq Require Import NArith Bool String Arith List.
From Verif Require Import GoBase ClcModel Samples ClcView Wire Recover Accepted.
From Verif Require ClcAccepted.
Import ListNotations.

(** ** C70 *)

Theorem C70_accepted : forall m buf old logs new, slice_ok m buf -> reachable old ->
  Message_Parse m old buf = (logs, Done new) -> accepted m buf old logs new.
Proof. exact ClcAccepted.Message_accepted. Qed.
Print Assumptions C70_accepted.

(** [accepted] leaves nothing open: whatever it allows for a buffer at which Parse does not panic,
    with arrays of Go's sizes, is what Parse makes of the buffer *)
Theorem C70_exactly : forall m buf old logs new, slice_ok m buf -> reachable old ->
  (Message_Parse m old buf = (logs, Done new) <->
   snd (Message_Parse m old buf) <> Panicked /\ message_wf new /\ accepted m buf old logs new).
Proof. exact ClcAccepted.Message_accepts. Qed.
Print Assumptions C70_exactly.

(** a v1 Proposal without its trailer is accepted *)
Example C70_example_v1 :
  let m := mem1 (firstn 48 sample_proposal) in
  let buf := slice1 (firstn 48 sample_proposal) in
  N.to_nat (declared (s_bytes m buf)) = 52 /\
  exists p, Message_Parse m (fresh KProposal) buf
    = (["Error parsing CLC message: invalid trailer"%string; dump_line [x08; x00; x00; x00]], Done (MProposal p)) /\
    p_Trailer p = [x08; x00; x00; x00] /\ i_PrefixLen (p_IP p) = 8%N.
Proof. split; [vm_compute; reflexivity|]. eexists. split; [vm_compute; reflexivity|]. vm_compute. auto. Qed.

(** 84 bytes of a v2 Proposal of 214 bytes in a buffer for all of them: the EIDs and the GIDs are
    those behind the 84 bytes *)
Example C70_example_v2 :
  let m := mem1 sample_prop2_noip in
  let buf := slice_n sample_prop2_noip 84 in
  N.to_nat (declared (s_bytes m buf)) = 214 /\ s_len buf = 84 /\
  exists p, snd (Message_Parse m (fresh KProposalV2) buf) = Done (MProposalV2 p) /\
    hd [] (x_EIDArea (p2_Ext p)) = bytes_at sample_prop2_noip 120 32 /\
    hd (mkGIDEntry 0 0) (y_GIDArea (p2_SMCD p)) = mkGIDEntry 0xabcdef0123456789 0x0123.
Proof.
  split; [vm_compute; reflexivity|]. split; [reflexivity|]. eexists. split; [vm_compute; reflexivity|].
  vm_compute. auto.
Qed.

(** an SMC-D v2 Accept in a buffer that is too short for the length it declares *)
Example C70_example_smcdv2 :
  let m := mem1 sample_accept_d2 in
  let buf := slice_n sample_accept_d2 70 in
  gives_up KAcceptSMCDv2 (s_bytes m buf) = true /\ declared (s_bytes m buf) = 78%N /\
  exists a, Message_Parse m (fresh KAcceptSMCDv2) buf
    = (["Error parsing SMC-Dv2 CLC Accept: message too short"%string; dump_line sample_accept_d2],
       Done (MAcceptSMCDv2 a)) /\ a2_GID a = 0%N.
Proof.
  split; [vm_compute; reflexivity|]. split; [vm_compute; reflexivity|]. eexists.
  split; [vm_compute; reflexivity|]. reflexivity.
Qed.
