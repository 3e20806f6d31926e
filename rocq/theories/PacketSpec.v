(** * PacketSpec: RoCE packets as programs see them. Specification only. *)

From Coq Require Import NArith Bool String Arith List.
From Verif Require Import GoBase RoceModel LlcModel HeapModel Owned PacketModel.
Import ListNotations.
Local Open Scope nat_scope.

Definition cut (bs : list byte) (lo hi : nat) : list byte := firstn (hi - lo) (skipn lo bs).

(** a GRH whose copy of the header is [bs] now *)
Definition grh_now (bs : list byte) (g : GRH) : GRH :=
  mkGRH (cut bs 0 40) (grh_Version g) (grh_TrafficClass g) (grh_FlowLabel g) (grh_Length g) (grh_NextHeader g)
    (grh_HopLimit g) (cut bs 8 24) (cut bs 24 40).

(** a packet as the other models have it, with the bytes that its slices show *)
Definition packet_shown (w : world) (k : packet) : option RoCE :=
  match shown w (k_BTH k), shown w (k_LLC k) with
  | Some (TBth b), Some (TLlc l) =>
    Some (mkRoCE (k_Type k) (option_map (fun ag => grh_now (w_mem w (fst ag)) (snd ag)) (k_GRH k)) b l (k_ICRC k))
  | _, _ => None
  end.

(** array [a] belongs to the packet *)
Definition packet_holds (w : world) (a : nat) (k : packet) : Prop :=
  (exists i, holds w a (k_BTH k) i) \/ (exists i, holds w a (k_LLC k) i) \/ (exists g, k_GRH k = Some (a, g)).

(** the steps of a program that neither parses into the objects of packet [k] nor writes to its
    arrays *)
Fixpoint leaves_packet (k : packet) (w : world) (os : list op) : Prop :=
  match os with
  | [] => True
  | o :: os => allowed w o /\
    match o with
    | OParse j _ => j <> k_BTH k /\ j <> k_LLC k
    | OStore a _ _ => ~ packet_holds w a k
    | _ => True
    end /\ leaves_packet k (step w o) os
  end.

(** the steps of a program that does not parse into the objects of packet [k] and writes only to
    arrays that it made itself and that are not the packet's copy of the header *)
Fixpoint own_buffers_packet (k : packet) (w : world) (os : list op) : Prop :=
  match os with
  | [] => True
  | o :: os => allowed w o /\
    match o with
    | OParse j _ => j <> k_BTH k /\ j <> k_LLC k
    | OStore a _ _ => In a (w_made w) /\ match k_GRH k with Some (a', _) => a <> a' | None => True end
    | _ => True
    end /\ own_buffers_packet k (step w o) os
  end.

(** what is in [w] is the same in [w'] *)
Definition extends (w w' : world) : Prop :=
  w_next w <= w_next w' /\ (forall a, a < w_next w -> w_mem w' a = w_mem w a) /\
  length (w_objs w) <= length (w_objs w') /\ (forall j, j < length (w_objs w) -> shown w' j = shown w j) /\
  incl (w_made w) (w_made w').

(** the objects and the copy of the header of packet [k] are not in [w] *)
Definition is_new (w w' : world) (k : packet) : Prop :=
  length (w_objs w) <= k_BTH k < length (w_objs w') /\ length (w_objs w) <= k_LLC k < length (w_objs w') /\
  k_BTH k <> k_LLC k /\ match k_GRH k with Some (a, _) => w_next w <= a < w_next w' /\ In a (w_made w') | None => True end.

(** the parse functions of the other models and of PacketModel.v *)
Definition ParseRoCE (v1 : bool) : mem -> slice -> M RoCE := if v1 then ParseRoCEv1 else ParseRoCEv2.
Definition ParseRoCE_P (v1 : bool) := if v1 then ParseRoCEv1_P else ParseRoCEv2_P.
