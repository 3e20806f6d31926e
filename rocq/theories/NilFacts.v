(** * NilFacts: methods called through nil pointers. *)

From Coq Require Import NArith Bool String List.
From Verif Require Import GoBase GoFmt ClcModel LlcModel RoceModel NilModel ClcView LlcView Partial Nil.
Import ListNotations.

Lemma clc_nil : forall k m buf,
  (if is_confirm k then panics (Ptr_String (nil_of k)) /\ panics (Ptr_Reserved (nil_of k))
   else Ptr_String (nil_of k) = ([], Done "n/a"%string) /\ Ptr_Reserved (nil_of k) = ([], Done "n/a"%string)) /\
  panics (Ptr_Dump m (nil_of k)) /\ panics (Ptr_Parse m (nil_of k) buf).
Proof. intros [] m buf; repeat split. Qed.

Lemma ret_bind {A B} (a : A) (f : A -> M B) : bind (ret a) f = f a.
Proof. unfold bind, ret. now destruct (f a). Qed.

Lemma clc_object : forall msg m buf,
  Ptr_String (pointer_to msg) = ([], Done (Message_String msg)) /\
  Ptr_Reserved (pointer_to msg) = ([], Done (Message_Reserved msg)) /\
  Ptr_Dump m (pointer_to msg) = ([], Done (Message_Dump m msg)) /\
  Ptr_Parse m (pointer_to msg) buf = Message_Parse m msg buf.
Proof.
  intros msg m buf. unfold Ptr_Parse. destruct msg; (split; [reflexivity|split; [reflexivity|split; [reflexivity|]]]);
  cbn [Ptr_object pointer_to option_map field]; rewrite ret_bind; reflexivity.
Qed.

Lemma llc_nil : forall k m buf,
  (if is_other k
   then LLCPtr_String (llc_nil_of k) = ([], Done ("Other Payload" ++ nl)%string) /\
        LLCPtr_Reserved (llc_nil_of k) = ([], Done ("Other Payload" ++ nl)%string)
   else panics (LLCPtr_String (llc_nil_of k)) /\ panics (LLCPtr_Reserved (llc_nil_of k))) /\
  panics (LLCPtr_Hex (llc_nil_of k)) /\ panics (LLCPtr_GetType (llc_nil_of k)) /\
  panics (LLCPtr_Parse m (llc_nil_of k) buf).
Proof. intros [] m buf; repeat split. Qed.

Lemma llc_object : forall msg m buf,
  LLCPtr_String (llc_pointer_to msg) = ([], Done (LLC_String msg)) /\
  LLCPtr_Reserved (llc_pointer_to msg) = ([], Done (LLC_Reserved msg)) /\
  LLCPtr_Hex (llc_pointer_to msg) = ([], Done (LLC_Hex msg)) /\
  LLCPtr_GetType (llc_pointer_to msg) = ([], Done (LLC_GetType msg)) /\
  LLCPtr_Parse m (llc_pointer_to msg) buf = LLC_Parse m msg buf.
Proof.
  intros msg m buf. unfold LLCPtr_Parse.
  destruct msg; (do 4 (split; [reflexivity|]));
  cbn [LLCPtr_object llc_pointer_to option_map field]; rewrite ret_bind; reflexivity.
Qed.

Lemma headers_nil : forall name m buf,
  panics (BTHPtr_String None) /\ panics (BTHPtr_Reserved None) /\ panics (BTHPtr_Hex None) /\
  panics (BTHPtr_Parse m None buf) /\ BTHPtr_GetType None = ([], Done 259%N) /\
  panics (GRHPtr_String name None) /\ panics (GRHPtr_Reserved name None) /\ panics (GRHPtr_Hex None) /\
  panics (GRHPtr_Parse m None buf) /\ GRHPtr_GetType None = ([], Done 258%N).
Proof. intros. repeat split. Qed.

Lemma headers_object : forall name m buf b g,
  BTHPtr_String (Some b) = ([], Done (BTH_String b)) /\ BTHPtr_Reserved (Some b) = ([], Done (BTH_Reserved b)) /\
  BTHPtr_Hex (Some b) = ([], Done (BTH_Hex b)) /\ BTHPtr_GetType (Some b) = ([], Done (BTH_GetType b)) /\
  BTHPtr_Parse m (Some b) buf = BTH_Parse m b buf /\
  GRHPtr_String name (Some g) = ([], Done (GRH_String name g)) /\
  GRHPtr_Reserved name (Some g) = ([], Done (GRH_Reserved name g)) /\
  GRHPtr_Hex (Some g) = ([], Done (GRH_Hex g)) /\ GRHPtr_GetType (Some g) = ([], Done (GRH_GetType g)) /\
  GRHPtr_Parse m (Some g) buf = GRH_Parse m g buf.
Proof.
  intros. do 4 (split; [reflexivity|]). split; [exact (ret_bind b (fun b => BTH_Parse m b buf))|].
  do 4 (split; [reflexivity|]). exact (ret_bind g (fun g => GRH_Parse m g buf)).
Qed.

Lemma bind_panic_free {A B} (x : M A) (f : A -> M B) l b :
  bind x f = (l, Done b) -> exists l1 a l2, x = (l1, Done a) /\ f a = (l2, Done b).
Proof.
  destruct x as [l1 [a| |]]; cbn; try discriminate. destruct (f a) as [l2 r] eqn:E.
  intros H. injection H as _ ->. eauto.
Qed.

Lemma roce_v2_grh : forall name m buf logs r, ParseRoCEv2 m buf = (logs, Done r) ->
  panics (GRHPtr_String name (r_GRH r)) /\ panics (GRHPtr_Reserved name (r_GRH r)) /\
  panics (GRHPtr_Hex (r_GRH r)) /\ GRHPtr_GetType (r_GRH r) = ([], Done 258%N).
Proof.
  intros name m buf logs r H. assert (Hn : r_GRH r = None).
  { unfold ParseRoCEv2 in H.
    do 6 (apply bind_panic_free in H; destruct H as (? & ? & ? & _ & H)).
    injection H as _ <-. reflexivity. }
  rewrite Hn. repeat split.
Qed.

Lemma roce_v1_grh : forall name m buf logs r, ParseRoCEv1 m buf = (logs, Done r) ->
  exists s, GRHPtr_String name (r_GRH r) = ([], Done s) /\ GRHPtr_Reserved name (r_GRH r) = ([], Done s) /\
  exists h, GRHPtr_Hex (r_GRH r) = ([], Done h) /\ GRHPtr_GetType (r_GRH r) = ([], Done 258%N).
Proof.
  intros name m buf logs r H. assert (Hn : exists g, r_GRH r = Some g).
  { unfold ParseRoCEv1 in H.
    do 9 (apply bind_panic_free in H; destruct H as (? & ? & ? & _ & H)).
    injection H as _ <-. cbn [r_GRH]. eauto. }
  destruct Hn as [g ->]. eexists. do 2 (split; [reflexivity|]). eexists. split; reflexivity.
Qed.
