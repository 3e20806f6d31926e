(** * PropsRange: every field of every object fits its format (C68).

    The vocabulary is in Ranges.v: [in_format l vs] says that the values [vs] have the names
    and the sizes of the format [l], where an address that was never read is nil. *)

From Coq Require Import NArith Bool String Arith List.
From Verif Require Import GoBase GoFmt ClcModel LlcModel RoceModel WriteModel Samples Wire ClcView
  LlcView Encode Recover Ranges.
From Verif Require RangesFacts.
Import ListNotations.

(** ** C68 *)

Theorem C68_clc : forall msg, reachable msg -> clc_in_format msg.
Proof. exact RangesFacts.clc_formed. Qed.
Print Assumptions C68_clc.

Theorem C68_llc : forall msg, llc_reachable msg -> llc_in_format msg.
Proof. exact RangesFacts.llc_formed. Qed.
Print Assumptions C68_llc.

Theorem C68_bth : forall b, bth_reachable b -> in_format bth (bth_view b).
Proof. exact RangesFacts.bth_formed. Qed.
Print Assumptions C68_bth.

(** a GRH is decoded completely or not at all *)
Theorem C68_grh : forall m old buf logs new, slice_ok m buf -> 40 <= s_len buf ->
  GRH_Parse m old buf = (logs, Done new) -> values_for grh (grh_view new).
Proof. exact RangesFacts.grh_formed. Qed.
Print Assumptions C68_grh.

(** the largest values are possible *)
Example C68_example :
  let bs := RangesFacts.largest in
  exists a, Message_Parse (mem1 bs) (fresh KAcceptSMCR) (slice1 bs) = ([], Done (MAcceptSMCR a)) /\
    reachable (MAcceptSMCR a) /\
    (ar_QPN a = 2 ^ 24 - 1 /\ ar_RMBESize a = 15 /\ ar_QPMTU a = 15 /\ ar_RMBDMAAddr a = 2 ^ 64 - 1)%N /\
    ar_IBMAC a = repeat xff 6.
Proof. exact RangesFacts.largest_example. Qed.

(** a panic behind the copying of the reserved bytes of a v2 Decline leaves the OS type in them *)
Example C68_example_decline :
  let bs := RangesFacts.cut_decline in
  let s := slice_n bs 20 in
  exists d, Message_W (mem1 bs) s (fresh KDeclineV2) = ([], Panicked, MDeclineV2 d) /\
    reachable (MDeclineV2 d) /\ BE (d2_reserved d) = 4026531840%N.
Proof. exact RangesFacts.cut_decline_example. Qed.
