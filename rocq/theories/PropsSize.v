(** * PropsSize: texts, dumps and logs have limited sizes (C69).

    The limits are in Sizes.v.  [String.length] counts the bytes of a text. *)

From Coq Require Import NArith Bool String Arith List.
From Verif Require Import GoBase GoFmt ClcModel LlcModel RoceModel WriteModel Samples ClcView LlcView Wire
  Ranges Sizes.
From Verif Require SizesFacts SizesGrow SizesMain.
From Verif Require Import Witness.
Import ListNotations.

(** ** C69 *)

Theorem C69_dump : forall bs, String.length (hex_dump bs) = dump_size (length bs).
Proof. exact SizesFacts.hex_dump_size. Qed.
Print Assumptions C69_dump.

Theorem C69_clc_text : forall msg, reachable msg ->
  String.length (Message_String msg)
    <= fst (clc_text_limits (kind_of msg)) + prefix_text_limit * stored_prefixes msg /\
  String.length (Message_Reserved msg)
    <= snd (clc_text_limits (kind_of msg)) + prefix_text_limit * stored_prefixes msg.
Proof. exact SizesMain.clc_text. Qed.
Print Assumptions C69_clc_text.

(** however the run ends *)
Theorem C69_prefixes : forall m buf old l o new, Message_W m buf old = (l, o, new) ->
  stored_prefixes old <= stored_prefixes new <= stored_prefixes old + 255 /\
  17 * stored_prefixes new <= 17 * stored_prefixes old + s_len buf.
Proof. exact SizesGrow.prefixes_grow. Qed.
Print Assumptions C69_prefixes.

Example C69_prefixes_case : (* the object is used again *)
  let bs := sample_proposal_6 in
  exists old new, Message_W (mem1 bs) (slice1 bs) (fresh KProposal) = ([], Done tt, old) /\
    Message_W (mem1 bs) (slice1 bs) old = ([], Done tt, new) /\
    0 < stored_prefixes old /\ stored_prefixes new = 2 * stored_prefixes old.
Proof. computes. Qed.

(** a Proposal that is used again and again has no limit *)
Theorem C69_reused_proposal_refuted :
  ~ exists limit, forall p, reachable (MProposal p) ->
      String.length (Message_String (MProposal p)) <= limit.
Proof. exact SizesMain.no_limit. Qed.
Print Assumptions C69_reused_proposal_refuted.

Theorem C69_llc_text : forall msg, llc_reachable msg ->
  String.length (LLC_String msg) <= fst (llc_text_limits msg) /\
  String.length (LLC_Reserved msg) <= snd (llc_text_limits msg).
Proof. exact SizesMain.llc_text. Qed.
Print Assumptions C69_llc_text.

Theorem C69_bth_text : forall b, bth_reachable b ->
  String.length (BTH_String b) <= 182 /\ String.length (BTH_Reserved b) <= 204.
Proof. exact SizesMain.bth_text. Qed.
Print Assumptions C69_bth_text.

Example C69_llc_bth_case : (* numbers as large as possible *)
  let bs := hexs "04" ++ repeat xff 43 in
  exists msg b, ParseLLC (mem1 bs) (slice1 bs) = ([], Done msg) /\
    String.length (LLC_String msg) < fst (llc_text_limits msg) /\
    BTH_Parse (mem1 (repeat xff 12)) BTH_zero (slice1 (repeat xff 12)) = ([], Done b) /\
    String.length (BTH_String b) < 182 /\ 140 < String.length (BTH_String b).
Proof. computes. Qed.

(** [n] limits the names that gopacket gives to protocols *)
Theorem C69_grh_text : forall proto_name n m old buf logs new,
  (forall v, String.length (proto_name v) <= n) -> 3 <= n ->
  GRH_Parse m old buf = (logs, Done new) -> String.length (GRH_String proto_name new) <= 207 + n.
Proof. exact SizesMain.grh_text. Qed.
Print Assumptions C69_grh_text.

Example C69_grh_text_case :
  let pn := fun v : N => "UDP"%string in let bs := repeat xff 40 in
  (forall v, String.length (pn v) <= 3) /\
  exists new, GRH_Parse (mem1 bs) GRH_zero (slice1 bs) = ([], Done new) /\
    150 < String.length (GRH_String pn new) /\ String.length (GRH_String pn new) <= 207 + 3.
Proof. cbv zeta. split; [intros v; apply Nat.leb_le; reflexivity|]. computes. Qed.

(** what Parse logs, however it ends *)
Theorem C69_clc_log : forall m msg buf, slice_ok m buf -> reachable msg ->
  let lines := fst (Message_Parse m msg buf) in
  length lines <= 2 * complaints (kind_of msg) /\
  Forall (fun line => String.length line <= line_limit (N.to_nat (declared (s_bytes m buf)))) lines.
Proof. exact SizesMain.clc_log. Qed.
Print Assumptions C69_clc_log.

Theorem C69_new_log : forall m buf,
  let lines := fst (NewMessage m buf) in
  length lines <= 2 /\ Forall (fun line => String.length line <= line_limit 8) lines.
Proof. exact SizesMain.new_log. Qed.
Print Assumptions C69_new_log.

(** LLC and RoCE messages are parsed without logging *)
Theorem C69_silent : forall m buf,
  (forall msg, fst (LLC_Parse m msg buf) = []) /\ fst (ParseLLC m buf) = [] /\
  (forall b, fst (BTH_Parse m b buf) = []) /\ (forall g, fst (GRH_Parse m g buf) = []) /\
  fst (ParseRoCEv1 m buf) = [] /\ fst (ParseRoCEv2 m buf) = [].
Proof. exact SizesMain.silent. Qed.
Print Assumptions C69_silent.

(** a Proposal of 69 bytes with a wrong count of prefixes and no trailer: both complaints, and
    a line as long as allowed *)
Example C69_example_log :
  let bs := SizesMain.cut_proposal in
  let lines := fst (Message_Parse (mem1 bs) (fresh KProposal) (slice1 bs)) in
  N.to_nat (declared bs) = 69 /\ line_limit 69 = 409 /\ map String.length lines = [53; 409; 42; 92].
Proof. exact SizesMain.cut_log. Qed.

(** a Proposal with 255 prefixes, each with the longest text *)
Example C69_example_text :
  let bs := SizesMain.wide_proposal in
  exists msg, Message_Parse (mem1 bs) (fresh KProposal) (slice1 bs) = ([], Done msg) /\
    reachable msg /\ stored_prefixes msg = 255 /\
    N.of_nat (String.length (Message_String msg)) = (58 * 255 + 279)%N.
Proof. exact SizesMain.wide_text. Qed.
