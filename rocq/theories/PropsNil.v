(** * PropsNil: methods called through nil pointers (C63).

    Vocabulary: [nil_of], [llc_nil_of] are the nil pointers of a type, [pointer_to],
    [llc_pointer_to] pointers to an object, [panics] is a run that panics without output
    (Nil.v); the methods are those of NilModel.v. *)

From Coq Require Import NArith Bool String List.
From Verif Require Import GoBase GoFmt ClcModel LlcModel RoceModel NilModel Samples Wire ClcView LlcView Partial Nil.
From Verif Require NilFacts LlcExamples.
Import ListNotations.
Local Open Scope string_scope.

(** ** C63 *)

Theorem C63_clc : forall k m buf,
  (if is_confirm k then panics (Ptr_String (nil_of k)) /\ panics (Ptr_Reserved (nil_of k))
   else Ptr_String (nil_of k) = ([], Done "n/a") /\ Ptr_Reserved (nil_of k) = ([], Done "n/a")) /\
  panics (Ptr_Dump m (nil_of k)) /\ panics (Ptr_Parse m (nil_of k) buf).
Proof. exact NilFacts.clc_nil. Qed.
Print Assumptions C63_clc.

(** pointers to objects behave as all other theorems say *)
Theorem C63_clc_object : forall msg m buf,
  Ptr_String (pointer_to msg) = ([], Done (Message_String msg)) /\
  Ptr_Reserved (pointer_to msg) = ([], Done (Message_Reserved msg)) /\
  Ptr_Dump m (pointer_to msg) = ([], Done (Message_Dump m msg)) /\
  Ptr_Parse m (pointer_to msg) buf = Message_Parse m msg buf.
Proof. exact NilFacts.clc_object. Qed.
Print Assumptions C63_clc_object.

Theorem C63_llc : forall k m buf,
  (if is_other k
   then LLCPtr_String (llc_nil_of k) = ([], Done ("Other Payload" ++ line_end)) /\
        LLCPtr_Reserved (llc_nil_of k) = ([], Done ("Other Payload" ++ line_end))
   else panics (LLCPtr_String (llc_nil_of k)) /\ panics (LLCPtr_Reserved (llc_nil_of k))) /\
  panics (LLCPtr_Hex (llc_nil_of k)) /\ panics (LLCPtr_GetType (llc_nil_of k)) /\
  panics (LLCPtr_Parse m (llc_nil_of k) buf).
Proof. exact NilFacts.llc_nil. Qed.
Print Assumptions C63_llc.

Theorem C63_llc_object : forall msg m buf,
  LLCPtr_String (llc_pointer_to msg) = ([], Done (LLC_String msg)) /\
  LLCPtr_Reserved (llc_pointer_to msg) = ([], Done (LLC_Reserved msg)) /\
  LLCPtr_Hex (llc_pointer_to msg) = ([], Done (LLC_Hex msg)) /\
  LLCPtr_GetType (llc_pointer_to msg) = ([], Done (LLC_GetType msg)) /\
  LLCPtr_Parse m (llc_pointer_to msg) buf = LLC_Parse m msg buf.
Proof. exact NilFacts.llc_object. Qed.
Print Assumptions C63_llc_object.

Theorem C63_headers : forall name m buf,
  panics (BTHPtr_String None) /\ panics (BTHPtr_Reserved None) /\ panics (BTHPtr_Hex None) /\
  panics (BTHPtr_Parse m None buf) /\ BTHPtr_GetType None = ([], Done 259%N) /\
  panics (GRHPtr_String name None) /\ panics (GRHPtr_Reserved name None) /\ panics (GRHPtr_Hex None) /\
  panics (GRHPtr_Parse m None buf) /\ GRHPtr_GetType None = ([], Done 258%N).
Proof. exact NilFacts.headers_nil. Qed.
Print Assumptions C63_headers.

Theorem C63_headers_object : forall name m buf b g,
  BTHPtr_String (Some b) = ([], Done (BTH_String b)) /\ BTHPtr_Reserved (Some b) = ([], Done (BTH_Reserved b)) /\
  BTHPtr_Hex (Some b) = ([], Done (BTH_Hex b)) /\ BTHPtr_GetType (Some b) = ([], Done (BTH_GetType b)) /\
  BTHPtr_Parse m (Some b) buf = BTH_Parse m b buf /\
  GRHPtr_String name (Some g) = ([], Done (GRH_String name g)) /\
  GRHPtr_Reserved name (Some g) = ([], Done (GRH_Reserved name g)) /\
  GRHPtr_Hex (Some g) = ([], Done (GRH_Hex g)) /\ GRHPtr_GetType (Some g) = ([], Done (GRH_GetType g)) /\
  GRHPtr_Parse m (Some g) buf = GRH_Parse m g buf.
Proof. exact NilFacts.headers_object. Qed.
Print Assumptions C63_headers_object.

(** the GRH of a RoCEv2 packet must not be printed, that of a RoCEv1 packet can be *)
Theorem C63_roce_v2 : forall name m buf logs r, ParseRoCEv2 m buf = (logs, Done r) ->
  panics (GRHPtr_String name (r_GRH r)) /\ panics (GRHPtr_Reserved name (r_GRH r)) /\
  panics (GRHPtr_Hex (r_GRH r)) /\ GRHPtr_GetType (r_GRH r) = ([], Done 258%N).
Proof. exact NilFacts.roce_v2_grh. Qed.
Print Assumptions C63_roce_v2.

Theorem C63_roce_v1 : forall name m buf logs r, ParseRoCEv1 m buf = (logs, Done r) ->
  exists s, GRHPtr_String name (r_GRH r) = ([], Done s) /\ GRHPtr_Reserved name (r_GRH r) = ([], Done s) /\
  exists h, GRHPtr_Hex (r_GRH r) = ([], Done h) /\ GRHPtr_GetType (r_GRH r) = ([], Done 258%N).
Proof. exact NilFacts.roce_v1_grh. Qed.
Print Assumptions C63_roce_v1.

Example C63_example : (* a new Accept has a text, a nil one another; both RoCE versions *)
  Ptr_String (nil_of KAcceptSMCD) = ([], Done "n/a") /\ panics (Ptr_String (nil_of KConfirmSMCD)) /\
  Ptr_String (pointer_to (fresh KConfirmSMCD)) = ([], Done (Message_String (fresh KConfirmSMCD))) /\
  Message_String (fresh KConfirmSMCD) <> "n/a" /\
  (let bs := LlcExamples.sample_packet_v2 in
   exists r, ParseRoCEv2 (mem1 bs) (slice1 bs) = ([], Done r) /\ panics (GRHPtr_Hex (r_GRH r))) /\
  (let bs := LlcExamples.sample_grh ++ LlcExamples.sample_packet_v2 in
   exists r, ParseRoCEv1 (mem1 bs) (slice1 bs) = ([], Done r) /\
     GRHPtr_Hex (r_GRH r) = ([], Done (hex_dump LlcExamples.sample_grh)))%list.
Proof.
  split; [reflexivity|]. split; [reflexivity|]. split; [reflexivity|].
  split; [vm_compute; discriminate|].
  split; eexists; (split; [vm_compute; reflexivity|vm_compute; reflexivity]).
Qed.
