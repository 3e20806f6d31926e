(** * PropsPacket: what a RoCE packet owns (C81).

    Vocabulary: [ParseRoCE_P v1] (PacketModel.v) is ParseRoCEv1 or ParseRoCEv2 with the arrays
    that are made for the packet; ParseRoCE is the function of the other models. Worlds and the
    programs that reach them are those of C79 (Owned.v). [packet_shown w k]: packet [k] with the
    bytes that its slices show. [extends w w']: all objects and all arrays of [w] are unchanged in
    [w']. [is_new w w' k]: BTH, LLC message and copy of the GRH of [k] were made after [w].
    [packet_holds w a k]: array [a] has bytes of the GRH, the BTH or the LLC message of [k]. *)

From Coq Require Import NArith ZArith Bool String Arith List Lia.
From Verif Require Import GoBase GoFmt LlcModel RoceModel WriteModel HeapModel Owned PacketModel PacketSpec.
From Verif Require PacketFacts.
From Verif Require Import OwnedExamples PacketExamples.
Import ListNotations.
Local Open Scope nat_scope.

(** ** C81 *)

(** the packet is that of the other models; nothing that existed before changes *)
Theorem C81_parse : forall v1 w buf, reached w -> exists_slice w buf ->
  let '(l, o, w') := ParseRoCE_P v1 buf w in
  let r := ParseRoCE v1 (w_mem w) buf in
  l = fst r /\ reached w' /\ extends w w' /\
  match o, snd r with
  | Done k, Done p => packet_shown w' k = Some p /\ is_new w w' k
  | Panicked, Panicked | Exited, Exited => True
  | _, _ => False
  end.
Proof. exact PacketFacts.packet_parse. Qed.
Print Assumptions C81_parse.

(** a packet stays as it is while a program does anything but parse into its objects or store to
    its arrays *)
Theorem C81_later : forall k os w p, reached w ->
  match k_GRH k with Some (a, _) => a < w_next w | None => True end ->
  leaves_packet k w os -> packet_shown w k = Some p -> packet_shown (run w os) k = Some p.
Proof. exact PacketFacts.packet_later. Qed.
Print Assumptions C81_later.

(** so the buffer can be reused for the next packet; of the packet, only the bytes of the ICRC,
    which is a slice of the buffer (C46), change with it *)
Theorem C81_buffers : forall k os w p, reached w ->
  match k_GRH k with Some (a, _) => a < w_next w | None => True end ->
  own_buffers_packet k w os -> packet_shown w k = Some p -> packet_shown (run w os) k = Some p.
Proof. exact PacketFacts.packet_buffers. Qed.
Print Assumptions C81_buffers.

(** Contents, SrcIP and DstIP of a GRH share one array: a store to it changes all that show the
    byte, and nothing else of the packet *)
Theorem C81_grh : forall w k p a g i b, reached w -> packet_shown w k = Some p -> k_GRH k = Some (a, g) ->
  In a (w_made w) ->
  packet_shown (step w (OStore a i b)) k =
  Some (mkRoCE (r_Type p) (Some (grh_now (put (w_mem w a) i b) g)) (r_BTH p) (r_LLC p) (r_ICRC p)).
Proof. exact PacketFacts.packet_grh. Qed.
Print Assumptions C81_grh.

(** ** Examples *)

Example C81_start : reached w1 /\ exists_slice w1 buf1.
Proof.
  split; [|is_allowed]. unfold w1, run. cbn [fold_left]. apply reached_step; [apply reached_start|exact I].
Qed.

Example C81_called : snd (fst called) = Done pk /\ pk = mkpacket "RoCEv1" (k_GRH pk) 0 1 (mkslice 0 96 4 4) /\
  match k_GRH pk with Some (a, _) => a = 1 | None => False end /\
  packet_shown w2 pk <> None /\ In 1 (w_made w2).
Proof.
  split; [vm_compute; reflexivity|]. split; [vm_compute; reflexivity|]. split; [vm_compute; reflexivity|].
  split; [vm_compute; discriminate|vm_compute; auto].
Qed.

Example C81_reuse : own_buffers_packet pk w2 reuse /\
  packet_shown (run w2 reuse) pk = packet_shown w2 pk /\
  s_bytes (w_mem (run w2 reuse)) (k_ICRC pk) <> s_bytes (w_mem w2) (k_ICRC pk).
Proof.
  split; [|split; [vm_compute; reflexivity|vm_compute; discriminate]].
  unfold reuse. cbn [own_buffers_packet].
  do 4 (split; [is_allowed|split; [split; [vm_compute; auto|vm_compute; discriminate]|]]).
  split; [exact I|]. split; [exact I|]. split; [is_allowed|]. split; [split; vm_compute; discriminate|exact I].
Qed.

(** a store to the first byte of SrcIP changes byte 8 of Contents as well *)
Example C81_shared : let w3 := step w2 (OStore 1 8 x07) in
  nth 0 (grh_SrcIP (the_grh w3 pk)) x00 = x07 /\ nth 8 (grh_Contents (the_grh w3 pk)) x00 = x07 /\
  nth 0 (grh_SrcIP (the_grh w2 pk)) x00 = xfe /\ grh_DstIP (the_grh w3 pk) = grh_DstIP (the_grh w2 pk).
Proof. vm_compute. repeat split. Qed.

(** packets of version 2 have no GRH *)
Example C81_v2 : exists k p, snd (fst (ParseRoCE_P false (mkslice 0 40 60 60) w1)) = Done k /\
  packet_shown (snd (ParseRoCE_P false (mkslice 0 40 60 60) w1)) k = Some p /\ r_GRH p = None.
Proof. eexists _, _. split; [vm_compute; reflexivity|]. split; vm_compute; reflexivity. Qed.
