(** * PropsOwned: what a message object owns (C79).

    Vocabulary: HeapModel.v models Parse with the arrays that it makes ([Parse_H]); Thing_W is
    Parse of the other models, where addresses and Raw are byte strings. Owned.v gives programs
    that make arrays and objects, parse any slices of any arrays into any of their objects, go
    on after panics, and store to any arrays. [reached w]: a world that such a program can
    reach. [shown w j]: object [j] with the bytes that its slices show. [holds w a j k]: the
    bytes of slice [k] of object [j] are in array [a]. [w_made w]: the arrays that the program
    made itself. Raw of CLC messages stays the caller's buffer and is shown as a slice. *)

From Coq Require Import NArith ZArith Bool String Arith List Lia.
From Verif Require Import GoBase GoFmt ClcModel LlcModel RoceModel Samples ClcView LlcView WriteModel LlcWriteModel
  HeapModel Owned.
From Verif Require OwnedWorld.
From Verif Require Import OwnedExamples.
Import ListNotations.
Local Open Scope nat_scope.

(** ** C79 *)

(** no two slices of objects share an array, and none is in an array of the program *)
Theorem C79_apart : forall w a j k, reached w -> holds w a j k ->
  a < w_next w /\ ~ In a (w_made w) /\ forall j' k', holds w a j' k' -> j' = j /\ k' = k.
Proof. exact OwnedWorld.owned_apart. Qed.
Print Assumptions C79_apart.

(** Parse logs, ends and fills the object as in the other models; it changes no other object
    and no byte that existed before; each slice of the object is the old one or a whole new
    array, also if Parse panics *)
Theorem C79_parse : forall w j t sl s, reached w -> exists_slice w s -> nth_error (w_objs w) j = Some (t, sl) ->
  let '(l, o, _) := Parse_H s (mkhs t sl (w_mem w) (w_next w)) in
  let '(l0, o0, r) := Thing_W (w_mem w) s (fill (fun k => s_bytes (w_mem w) (sl k)) t) in
  let w' := step w (OParse j s) in
  l = l0 /\ o = o0 /\ shown w' j = Some r /\
  (forall i, i <> j -> shown w' i = shown w i) /\
  (forall a, a < w_next w -> w_mem w' a = w_mem w a) /\
  forall k sl', nth_error (w_objs w') j = Some sl' ->
    snd sl' k = sl k \/
    let f := snd sl' k in
    w_next w <= s_arr f < w_next w' /\ s_off f = 0 /\ s_cap f = s_len f /\ length (w_mem w' (s_arr f)) = s_len f.
Proof. exact OwnedWorld.owned_parse. Qed.
Print Assumptions C79_parse.

(** a store changes only the object that has a slice in the array *)
Theorem C79_store : forall w a i b j, (forall k, ~ holds w a j k) ->
  shown (step w (OStore a i b)) j = shown w j.
Proof. exact OwnedWorld.owned_store. Qed.
Print Assumptions C79_store.

(** an object stays as it is while a program does anything but parse into it or store to its
    arrays *)
Theorem C79_later : forall os w j x, reached w -> leaves_alone j w os -> shown w j = Some x ->
  shown (run w os) j = Some x.
Proof. exact OwnedWorld.owned_later. Qed.
Print Assumptions C79_later.

(** so it stays as it is while the program reuses its buffers for other messages *)
Theorem C79_buffers : forall os w j x, reached w -> own_buffers j w os -> shown w j = Some x ->
  shown (run w os) j = Some x.
Proof. exact OwnedWorld.owned_buffers. Qed.
Print Assumptions C79_buffers.

(** ** Examples *)

Example C79_reached : reached w1.
Proof. unfold w1, run, prog. cbn [fold_left]. repeat (apply reached_step; [|is_allowed]). apply reached_start. Qed.

(** IBGID and IBMAC of the Accept, Raw, SenderMAC and SenderGID of the Confirm Link *)
Example C79_holds : holds w1 2 0 sIBGID /\ holds w1 3 0 sIBMAC /\ holds w1 4 1 sRaw /\ holds w1 5 1 sSenderMAC /\
  holds w1 6 1 sSenderGID /\ w_made w1 = [1; 0].
Proof.
  repeat split; try (eexists _, _; split; [vm_compute; reflexivity|split; [vm_compute; reflexivity|vm_compute; discriminate]]).
Qed.

(** reading the next message into the buffer and parsing it into another object *)
Example C79_reuse : let os := [OStore 0 30 xff; OStore 0 36 xff; ONew (NClc KAcceptSMCR); OParse 2 (mkslice 0 0 68 68);
    OParse 1 (mkslice 3 0 6 6)] in
  own_buffers 0 w1 os /\ shown (run w1 os) 0 = shown w1 0 /\
  (exists a, shown w1 0 = Some (TClc (MAcceptSMCR a)) /\
    exists a', shown (run w1 os) 2 = Some (TClc (MAcceptSMCR a')) /\ ar_IBMAC a <> ar_IBMAC a') /\
  shown (run w1 os) 1 <> shown w1 1.
Proof.
  cbv zeta. split; [|split; [|split]].
  - cbn [own_buffers].
    do 5 (split; [is_allowed|split; [is_separate|]]). exact I.
  - vm_compute. reflexivity.
  - eexists. split; [vm_compute; reflexivity|]. eexists. split; [vm_compute; reflexivity|]. vm_compute. discriminate.
  - vm_compute. discriminate.
Qed.

(** a store to the array of IBMAC changes this object and no other *)
Example C79_through : let w2 := step w1 (OStore 3 2 x07) in
  shown w2 0 <> shown w1 0 /\ shown w2 1 = shown w1 1 /\ (forall k, ~ holds w1 3 1 k).
Proof.
  cbv zeta. split; [vm_compute; discriminate|]. split; [vm_compute; reflexivity|].
  intros k Hh. destruct (C79_apart w1 3 1 k C79_reached Hh) as (_ & _ & U).
  destruct C79_holds as (_ & H2 & _). destruct (U _ _ H2). discriminate.
Qed.
