(** * PropsPartial: incomplete LLC messages, new objects and type codes (C60 - C62).

    Vocabulary: as in PropsClc.v and PropsLlc.v.  Partial.v defines [completed], the bytes of
    an incomplete message continued with what the object holds already, [blank], a field
    without content, and [all_fields], all fields of a CLC object. *)

From Coq Require Import NArith Bool String Arith List.
From Verif Require Import GoBase GoFmt ClcModel LlcModel RoceModel Samples Wire ClcView LlcView Show Partial.
From Verif Require PartialFacts LlcExamples.
Import ListNotations.
Local Open Scope nat_scope.

(** ** C60 *)

(** every field in front of the reserved tail is decoded, the tail is the bytes that are
    there followed by old bytes, and the copy of the message is what was given *)
Theorem C60_incomplete : forall m buf old, slice_ok m buf -> llc_wf old ->
  llc_min (llc_kind_of old) <= s_len buf ->
  let bs := s_bytes m buf in
  exists new, LLC_Parse m old buf = ([], Done new) /\ llc_kind_of new = llc_kind_of old /\ llc_wf new /\
    llc_view new = decode (llc_layout (llc_kind_of old)) (completed old bs) /\ b_Raw (LLC_Base new) = bs.
Proof. exact PartialFacts.LLC_incomplete. Qed.
Print Assumptions C60_incomplete.

Theorem C60_incomplete_text : forall m buf old new logs, slice_ok m buf -> llc_wf old ->
  llc_min (llc_kind_of old) <= s_len buf -> text_complete (llc_kind_of old) = true ->
  let bs := s_bytes m buf in let k := llc_kind_of old in
  LLC_Parse m old buf = (logs, Done new) ->
  LLC_String new = llc_text false k (decode (llc_layout k) (completed old bs)) /\
  LLC_Reserved new = llc_text true k (decode (llc_layout k) (completed old bs)).
Proof. exact PartialFacts.LLC_incomplete_text. Qed.
Print Assumptions C60_incomplete_text.

Example C60_example : (* 38 of the 44 bytes of a Confirm Link, into an object that held a message of 0xff bytes *)
  let bs := LlcExamples.sample_confirm_link in
  let old := LConfirm (mkConfirmLink (mkBaseMsg [] 0 0) 0 false 0 [] [] 0 0 0 0 (repeat xff 9)) in
  llc_wf old /\ llc_min (llc_kind_of old) <= s_len (slice_n bs 38) /\
  completed old (firstn 38 bs) = firstn 38 bs ++ repeat xff 6 /\
  exists new, LLC_Parse (mem1 bs) old (slice_n bs 38) = ([], Done new) /\
    In ("Sender QP"%string, VN 228) (llc_view new) /\ llc_tail new = repeat x00 3 ++ repeat xff 6.
Proof.
  split; [reflexivity|]. split; [apply Nat.leb_le; reflexivity|]. split; [vm_compute; reflexivity|].
  eexists. split; [vm_compute; reflexivity|]. split; vm_compute; [tauto|reflexivity].
Qed.

(** ** C61 *)

Theorem C61_new_message : forall m buf logs msg len, slice_ok m buf ->
  NewMessage m buf = (logs, Done (Some msg, len)) ->
  Forall blank (all_fields msg) /\ (forall later, Message_Dump later msg = ""%string) /\
  s_cap (Message_Raw msg) = 0.
Proof. exact PartialFacts.new_message_blank. Qed.
Print Assumptions C61_new_message.

Theorem C61_new_clc : forall k,
  Forall blank (all_fields (fresh k)) /\ (forall later, Message_Dump later (fresh k) = ""%string) /\
  s_cap (Message_Raw (fresh k)) = 0.
Proof. exact PartialFacts.fresh_blank. Qed.
Print Assumptions C61_new_clc.

Theorem C61_new_llc : forall k,
  Forall blank (llc_view (llc_fresh k)) /\ Forall (fun b => b = x00) (llc_tail (llc_fresh k)) /\
  LLC_Hex (llc_fresh k) = ""%string /\ LLC_GetType (llc_fresh k) = 0%N /\ b_Length (LLC_Base (llc_fresh k)) = 0%N.
Proof. exact PartialFacts.llc_fresh_blank. Qed.
Print Assumptions C61_new_llc.

Theorem C61_new_roce : Forall blank (bth_view BTH_zero) /\ BTH_Hex BTH_zero = ""%string /\
  Forall blank (grh_view GRH_zero) /\ GRH_Hex GRH_zero = ""%string.
Proof. exact PartialFacts.roce_zero_blank. Qed.
Print Assumptions C61_new_roce.

Example C61_example : (* an Accept that is not empty once it is parsed *)
  let bs := sample_accept_d in
  exists msg new len, NewMessage (mem1 bs) (slice1 bs) = ([], Done (Some msg, len)) /\
    Message_Parse (mem1 bs) msg (slice1 bs) = ([], Done new) /\
    length (all_fields msg) = length (all_fields new) /\ ~ Forall blank (all_fields new).
Proof.
  do 3 eexists. split; [vm_compute; reflexivity|]. split; [vm_compute; reflexivity|].
  split; [vm_compute; reflexivity|]. vm_compute. intros H. inversion H as [|? ? H1 _].
  cbn in H1. inversion H1. discriminate.
Qed.

(** ** C62 *)

Theorem C62_llc : forall m buf old logs new, slice_ok m buf -> llc_wf old ->
  let bs := s_bytes m buf in
  LLC_Parse m old buf = (logs, Done new) ->
  LLC_GetType new = (if is_other (llc_kind_of old) then 257 else bits bs 0 8)%N /\
  b_Length (LLC_Base new) = (if is_other (llc_kind_of old) then N.of_nat (length bs) else bits bs 8 8)%N.
Proof. exact PartialFacts.LLC_type. Qed.
Print Assumptions C62_llc.

Theorem C62_roce : forall b g, BTH_GetType b = 259%N /\ GRH_GetType g = 258%N.
Proof. exact PartialFacts.roce_types. Qed.
Print Assumptions C62_roce.

Theorem C62_grh_hex : forall m old buf logs new, slice_ok m buf -> GRH_Parse m old buf = (logs, Done new) ->
  GRH_Hex new = hex_dump (if s_len buf <? 40 then [] else bytes_at (s_bytes m buf) 0 40).
Proof. exact PartialFacts.GRH_hex. Qed.
Print Assumptions C62_grh_hex.

Example C62_example :
  let bs := LlcExamples.sample_confirm_link in
  (exists msg, LLC_Parse (mem1 bs) (llc_fresh KTestLink) (slice1 bs) = ([], Done msg) /\ LLC_GetType msg = 1%N) /\
  (exists msg, LLC_Parse (mem1 bs) (llc_fresh KOther) (slice1 bs) = ([], Done msg) /\ LLC_GetType msg = 257%N) /\
  let g := LlcExamples.sample_grh in
  exists h, ParseGRH (mem1 g) (slice1 g) = ([], Done h) /\ GRH_Hex h = hex_dump g /\ length g = 40.
Proof.
  split; [eexists; split; vm_compute; reflexivity|]. split; [eexists; split; vm_compute; reflexivity|].
  eexists. split; [vm_compute; reflexivity|]. split; vm_compute; reflexivity.
Qed.
