(** * PacketExamples: a program for the examples of PropsPacket.v. *)

From Coq Require Import NArith ZArith Bool String Arith List Lia.
From Verif Require Import GoBase LlcModel RoceModel Samples HeapModel Owned LlcExamples PacketModel PacketSpec.
Import ListNotations.
Local Open Scope nat_scope.

Definition packet_v1 : list byte := sample_grh ++ sample_packet_v2.
Definition size : nat := List.length packet_v1.
Definition buf1 : slice := mkslice 0 0 size size.
(** the packet is in a buffer of the program *)
Definition w1 : world := run (mkworld (fun _ => []) 0 [] []) [OMake packet_v1].
(** the packet after the call of ParseRoCEv1, and the world *)
Definition called := ParseRoCE_P true buf1 w1.
Definition w2 : world := snd called.
Definition pk : packet :=
  Eval vm_compute in match snd (fst called) with Done k => k | _ => mkpacket "" None 0 0 buf1 end.
(** the GRH that a packet shows *)
Definition the_grh (w : world) (k : packet) : GRH :=
  match packet_shown w k with Some (mkRoCE _ (Some g) _ _ _) => g | _ => GRH_zero end.
(** overwriting the buffer and reading the next packet from it *)
Definition reuse : list op :=
  [OStore 0 45 xff; OStore 0 60 xff; OStore 0 (size - 1) xff; OStore 0 8 xff; ONew NBth; OParse 2 (mkslice 0 40 12 12)].
