(** * PropsElsewhere: where a buffer lies makes no difference (C77).

    Vocabulary: Elsewhere.v. [same_window m1 s1 m2 s2]: two buffers of the same length, the
    same capacity and the same bytes up to the capacity, at any places of any memories.
    [alike R]: the same log lines and the same end, results related by [R]. [same_clc]: each
    object refers to its own buffer in Raw, all other fields are equal. [Message_W], [LLC_W]
    and [BTH_W] (WriteModel.v, LlcWriteModel.v) also give the object that a panic leaves behind. *)

From Coq Require Import NArith ZArith Bool String Arith List Lia.
From Verif Require Import GoBase GoFmt ClcModel LlcModel RoceModel WriteModel LlcWriteModel Samples Wire ClcView Elsewhere.
From Verif Require ElsewhereFacts ElsewhereWrite LlcExamples PiecesExamples.
From Verif Require Import Witness.
Import ListNotations.
Local Open Scope nat_scope.

(** ** C77 *)

(** CLC: Parse logs the same, ends the same and fills the same values into the fields *)
Theorem C77_clc : forall m1 s1 m2 s2 old, slice_ok m1 s1 -> slice_ok m2 s2 -> same_window m1 s1 m2 s2 ->
  alike (same_clc s1 s2) (Message_Parse m1 old s1) (Message_Parse m2 old s2).
Proof. exact ElsewhereFacts.clc_elsewhere. Qed.
Print Assumptions C77_clc.

(** the two objects have the same texts and the same dump *)
Theorem C77_texts : forall m1 s1 m2 s2 new1 new2, slice_ok m1 s1 -> slice_ok m2 s2 -> same_window m1 s1 m2 s2 ->
  same_clc s1 s2 new1 new2 ->
  Message_String new1 = Message_String new2 /\ Message_Reserved new1 = Message_Reserved new2 /\
  Message_Dump m1 new1 = Message_Dump m2 new2.
Proof. exact ElsewhereFacts.same_clc_texts. Qed.
Print Assumptions C77_texts.

(** NewMessage and HasEyecatcher return the same *)
Theorem C77_new : forall m1 s1 m2 s2, slice_ok m1 s1 -> slice_ok m2 s2 -> same_window m1 s1 m2 s2 ->
  NewMessage m1 s1 = NewMessage m2 s2 /\ HasEyecatcher m1 s1 = HasEyecatcher m2 s2.
Proof. exact ElsewhereFacts.new_elsewhere. Qed.
Print Assumptions C77_new.

(** CLC: the object is the same also after a panic *)
Theorem C77_after : forall m1 s1 m2 s2 old, slice_ok m1 s1 -> slice_ok m2 s2 -> same_window m1 s1 m2 s2 ->
  let '(l1, o1, new1) := Message_W m1 s1 old in let '(l2, o2, new2) := Message_W m2 s2 old in
  l1 = l2 /\ o1 = o2 /\ same_clc s1 s2 new1 new2.
Proof. exact ElsewhereWrite.clc_write_elsewhere. Qed.
Print Assumptions C77_after.

(** LLC: the objects are equal, also those of the headers *)
Theorem C77_llc : forall m1 s1 m2 s2, slice_ok m1 s1 -> slice_ok m2 s2 -> same_window m1 s1 m2 s2 ->
  ParseLLC m1 s1 = ParseLLC m2 s2 /\
  (forall old, LLC_Parse m1 old s1 = LLC_Parse m2 old s2) /\
  (forall old, BTH_Parse m1 old s1 = BTH_Parse m2 old s2) /\
  (forall old, GRH_Parse m1 old s1 = GRH_Parse m2 old s2).
Proof. exact ElsewhereFacts.llc_elsewhere. Qed.
Print Assumptions C77_llc.

(** ... also after a panic *)
Theorem C77_llc_after : forall m1 s1 m2 s2, slice_ok m1 s1 -> slice_ok m2 s2 -> same_window m1 s1 m2 s2 ->
  (forall old, LLC_W m1 s1 old = LLC_W m2 s2 old) /\ (forall old, BTH_W m1 s1 old = BTH_W m2 s2 old).
Proof. exact ElsewhereWrite.llc_write_elsewhere. Qed.
Print Assumptions C77_llc_after.

(** RoCE: the packets differ only in where the bytes of the ICRC are *)
Theorem C77_roce : forall m1 s1 m2 s2, slice_ok m1 s1 -> slice_ok m2 s2 -> same_window m1 s1 m2 s2 ->
  alike (same_packet m1 m2) (ParseRoCEv1 m1 s1) (ParseRoCEv1 m2 s2) /\
  alike (same_packet m1 m2) (ParseRoCEv2 m1 s1) (ParseRoCEv2 m2 s2).
Proof. exact ElsewhereFacts.roce_elsewhere. Qed.
Print Assumptions C77_roce.

(** the length and the bytes up to the length are not enough: the capacity matters *)
Theorem C77_capacity_refuted : exists m1 s1 m2 s2 new, slice_ok m1 s1 /\ slice_ok m2 s2 /\ s_len s1 = s_len s2 /\
  s_bytes m1 s1 = s_bytes m2 s2 /\
  snd (Message_Parse m1 (fresh KProposal) s1) = Done new /\ snd (Message_Parse m2 (fresh KProposal) s2) = Panicked.
Proof. exact PiecesExamples.capacity_matters. Qed.
Print Assumptions C77_capacity_refuted.

(** a Proposal with an SMC-D area at the start of one array and in the middle of another *)
Example C77_example :
  let m1 := mem1 sample_proposal_d in let s1 := slice1 sample_proposal_d in
  let m2 := PiecesExamples.mem_at [x01; x02; x03] sample_proposal_d [x04; x05] in
  let s2 := PiecesExamples.slice_at [x01; x02; x03] sample_proposal_d (length sample_proposal_d) in
  slice_ok m1 s1 /\ slice_ok m2 s2 /\ same_window m1 s1 m2 s2 /\ s1 <> s2 /\ m1 (s_arr s1) <> m2 (s_arr s2) /\
  exists new1 new2, Message_Parse m1 (fresh KProposal) s1 = ([], Done new1) /\
    Message_Parse m2 (fresh KProposal) s2 = ([], Done new2) /\ same_clc s1 s2 new1 new2 /\ new1 <> new2.
Proof.
  cbv zeta. split; [apply slice1_ok|]. split; [apply PiecesExamples.slice_at_ok, le_n|].
  split; [apply PiecesExamples.elsewhere_at|]. split; [discriminate|]. split; [vm_compute; discriminate|].
  eexists. eexists. split; [vm_compute; reflexivity|]. split; [vm_compute; reflexivity|].
  split; [repeat split; vm_compute; reflexivity|vm_compute; discriminate].
Qed.

(** a RoCE packet, and one that makes the parser panic *)
Example C77_roce_example :
  let m2 bs := PiecesExamples.mem_at [x01; x02; x03] bs [x04; x05] in
  let s2 bs := PiecesExamples.slice_at [x01; x02; x03] bs (length bs) in
  (exists r1 r2, snd (ParseRoCEv2 (mem1 LlcExamples.sample_packet_v2) (slice1 LlcExamples.sample_packet_v2)) = Done r1 /\
    snd (ParseRoCEv2 (m2 LlcExamples.sample_packet_v2) (s2 LlcExamples.sample_packet_v2)) = Done r2 /\
    r_ICRC r1 <> r_ICRC r2 /\ s_bytes (m2 LlcExamples.sample_packet_v2) (r_ICRC r2) = hexs "deadbeef") /\
  snd (ParseRoCEv2 (m2 LlcExamples.sample_crash_v2) (s2 LlcExamples.sample_crash_v2)) = Panicked.
Proof. computes. Qed.

(** a buffer that is too short: Parse panics, and the objects left behind are the same *)
Example C77_after_example :
  let bs := firstn 50 sample_proposal_d in
  let m2 := PiecesExamples.mem_at [x01; x02; x03] bs [x04; x05] in
  let s2 := PiecesExamples.slice_at [x01; x02; x03] bs (length bs) in
  same_window (mem1 bs) (slice1 bs) m2 s2 /\
  exists new1 new2, Message_W (mem1 bs) (slice1 bs) (fresh KProposal) = ([], Panicked, new1) /\
    Message_W m2 s2 (fresh KProposal) = ([], Panicked, new2) /\ same_clc (slice1 bs) s2 new1 new2.
Proof.
  cbv zeta. split; [apply PiecesExamples.elsewhere_at|].
  eexists. eexists. split; [vm_compute; reflexivity|]. split; [vm_compute; reflexivity|].
  repeat split; vm_compute; reflexivity.
Qed.
