(** * PropsCrash: the complete description of Parse (C74).

    [Message_W m buf old = (logs, o, new)] is the run of [old.Parse(buf)]: what it logs, how it
    ends, and what the object then is.  The vocabulary is in Crash.v. *)

From Coq Require Import NArith Bool String Arith List.
From Verif Require Import GoBase ClcModel LlcModel RoceModel WriteModel LlcWriteModel Samples
  Wire ClcView LlcView Recover Accepted Crash.
From Verif Require CrashFacts LlcExamples.
Import ListNotations.

(** ** C74 *)

Theorem C74_clc : forall m buf old logs o new, slice_ok m buf -> reachable old ->
  (Message_W m buf old = (logs, o, new) <-> parses m buf old logs o new).
Proof. exact CrashFacts.clc_parses. Qed.
Print Assumptions C74_clc.

Theorem C74_llc : forall m buf old logs o new, slice_ok m buf -> llc_reachable old ->
  (LLC_W m buf old = (logs, o, new) <-> llc_parses m buf old logs o new).
Proof. exact CrashFacts.llc_parse. Qed.
Print Assumptions C74_llc.

Theorem C74_bth : forall m buf old logs o new, slice_ok m buf ->
  (BTH_W m buf old = (logs, o, new) <-> bth_parses m buf old logs o new).
Proof. exact CrashFacts.bth_parse. Qed.
Print Assumptions C74_bth.

(** a panicking Parse logs at most one line *)
Theorem C74_one_line : forall m buf old l new, slice_ok m buf -> reachable old ->
  Message_W m buf old = (l, Panicked, new) -> length l <= 1.
Proof. exact CrashFacts.one_line. Qed.
Print Assumptions C74_one_line.

(** but it can log one *)
Theorem C74_quiet_refuted :
  exists m buf old l new, slice_ok m buf /\ reachable old /\ Message_W m buf old = (l, Panicked, new) /\ l <> [].
Proof. exact CrashFacts.quiet_refuted. Qed.
Print Assumptions C74_quiet_refuted.

(** a v1 Proposal that announces too many prefixes and whose declared length is behind the
    capacity: the error is logged, the dump of the message panics *)
Example C74_example_clc :
  let bs := CrashFacts.cut_proposal in
  slice_ok (mem1 bs) (slice1 bs) /\ reachable (fresh KProposal) /\
  parses (mem1 bs) (slice1 bs) (fresh KProposal) [CrashFacts.cut_line] Panicked CrashFacts.cut_result /\
  header_view (header_of CrashFacts.cut_result) = decode clc_header bs.
Proof. exact CrashFacts.clc_example. Qed.

(** an Add Link message with two bytes too many *)
Example C74_example_llc :
  let bs := CrashFacts.long_add_link in
  slice_ok (mem1 bs) (slice1 bs) /\ llc_reachable (llc_fresh KAddLink) /\
  llc_parses (mem1 bs) (slice1 bs) (llc_fresh KAddLink) [] (Done tt) CrashFacts.long_result /\
  unsent CrashFacts.long_result = hexs "beef".
Proof. exact CrashFacts.llc_example. Qed.

(** a BTH cut off behind two bytes of a longer buffer *)
Example C74_example_bth :
  let bs := LlcExamples.sample_bth in
  slice_ok (mem1 bs) (slice_n bs 2) /\
  bth_parses (mem1 bs) (slice_n bs 2) BTH_zero [] Panicked CrashFacts.cut_bth /\
  bth_PKey CrashFacts.cut_bth = 65535%N.
Proof. exact CrashFacts.bth_example. Qed.
