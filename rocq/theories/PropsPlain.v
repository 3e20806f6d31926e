(** * PropsPlain: texts, dumps and logs are printable, but for names (C82).

    Vocabulary (Plain.v): [plain s]: all characters are printable ASCII, from blank to tilde.
    [lines s k]: [s] consists of [k] such lines with a newline at the end of each.
    [shown_names msg]: the EIDs, the system EID and the host name that are part of the text of a
    CLC message. [plain_name e]: all bytes of [e] in front of the first zero byte are printable.
    [log_entry s]: one or more lines. *)

From Coq Require Import NArith ZArith Bool String Ascii Arith List Lia.
From Verif Require Import GoBase GoFmt ClcModel LlcModel RoceModel Samples Plain.
From Verif Require PlainFacts.
From Verif Require Import PlainExamples.
Import ListNotations.
Local Open Scope nat_scope.

(** ** C82 *)

(** whatever the object holds, its text is one printable line, without a newline, exactly if its
    names are printable *)
Theorem C82_clc : forall msg,
  (plain (Message_String msg) = true <-> Forall plain_name (shown_names msg)) /\
  (plain (Message_Reserved msg) = true <-> Forall plain_name (shown_names msg)).
Proof. exact PlainFacts.plain_message. Qed.
Print Assumptions C82_clc.

Theorem C82_header : forall h, plain (Header_String h) = true /\ plain (Header_Reserved h) = true.
Proof. exact PlainFacts.plain_header. Qed.
Print Assumptions C82_header.

(** LLC messages and BTHs are always one line, with a newline *)
Theorem C82_llc : forall msg, lines (LLC_String msg) 1 /\ lines (LLC_Reserved msg) 1.
Proof. exact PlainFacts.llc_line. Qed.
Print Assumptions C82_llc.

Theorem C82_bth : forall b, lines (BTH_String b) 1 /\ lines (BTH_Reserved b) 1.
Proof. exact PlainFacts.bth_line. Qed.
Print Assumptions C82_bth.

(** GRHs as well, if gopacket's names of protocols are printable *)
Theorem C82_grh : forall proto_name g, (forall v, plain (proto_name v) = true) ->
  lines (GRH_String proto_name g) 1 /\ lines (GRH_Reserved proto_name g) 1.
Proof. exact PlainFacts.grh_line. Qed.
Print Assumptions C82_grh.

(** dumps have one line for every 16 bytes *)
Theorem C82_dump : forall bs, lines (hex_dump bs) ((length bs + 15) / 16).
Proof. exact PlainFacts.hex_dump_lines. Qed.
Print Assumptions C82_dump.

(** logs are printable, whatever was received and however the call ends *)
Theorem C82_log : forall m msg buf, Forall log_entry (fst (Message_Parse m msg buf)).
Proof. exact PlainFacts.fair_message. Qed.
Print Assumptions C82_log.

Theorem C82_new_log : forall m buf, Forall log_entry (fst (NewMessage m buf)).
Proof. exact PlainFacts.fair_new. Qed.
Print Assumptions C82_new_log.

(** "The text of every received message is printable" is wrong: a message that is parsed without
    complaints can continue on a line of its own that looks like that of another message, and can
    send commands to a terminal. *)
Theorem C82_received_refuted : exists bs msg n,
  NewMessage (mem1 bs) (slice1 bs) = ([], Done (Some msg, n)) /\
  exists msg', Message_Parse (mem1 bs) msg (slice1 bs) = ([], Done msg') /\
    plain (Message_String msg') = false /\
    String.substring 0 26 (second_line (Message_String msg')) = "Decline: Eyecatcher: SMC-R"%string.
Proof.
  exists (accept_with forged). eexists _, _. split; [vm_compute; reflexivity|].
  eexists. split; [vm_compute; reflexivity|]. split; vm_compute; reflexivity.
Qed.
Print Assumptions C82_received_refuted.

(** ** Examples *)

Example C82_names : (* a Proposal with EIDs and a system EID *)
  let bs := sample_prop2 in
  exists msg, Message_Parse (mem1 bs) (MProposalV2 ProposalV2_zero) (slice1 bs) = ([], Done msg) /\
    length (shown_names msg) = 2 /\ plain (Message_String msg) = true /\ plain (Message_Reserved msg) = true.
Proof. eexists. split; [vm_compute; reflexivity|]. repeat split; vm_compute; reflexivity. Qed.

Example C82_long_dump : (* three lines *)
  lines (hex_dump (repeat x0a 33)) 3 /\ (33 + 15) / 16 = 3.
Proof. split; [apply (C82_dump (repeat x0a 33))|reflexivity]. Qed.

Example C82_logged : (* a message with many unprintable bytes that is not complete *)
  let bs := firstn 8 sample_accept_d2 ++ repeat x1b 40 in
  exists l, fst (Message_Parse (mem1 bs) (MAcceptSMCDv2 AcceptSMCDv2_zero) (slice1 bs)) = l /\ 0 < length l.
Proof. eexists. split; [vm_compute; reflexivity|]. apply Nat.ltb_lt. reflexivity. Qed.

Example C82_grh_names : forall v : N, plain (if (v =? 17)%N then "UDP" else "UnknownIPProtocol") = true.
Proof. intros v. destruct (v =? 17)%N; reflexivity. Qed.
