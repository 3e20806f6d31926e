(** * Offsets: v2 Proposals that differ in their offset fields only. Specification only. *)

From Coq Require Import NArith String Arith List.
From Verif Require Import GoBase GoFmt ClcModel Wire ClcView.
Import ListNotations.
Local Open Scope nat_scope.

(** The bytes of a v2 Proposal that hold an offset: IP Area Offset, SMCv2 Extension Offset and,
    in the extension, SMC-Dv2 Extension Offset. *)
Definition offset_byte (bs : list byte) (i : nat) : Prop :=
  i = 38 \/ i = 39 \/ i = 50 \/ i = 51 \/
  (has_ext bs = true /\
   (i = v2_ext_start (N.to_nat (declared bs)) bs + 6 \/ i = v2_ext_start (N.to_nat (declared bs)) bs + 7)).

(** two contents of the same length that differ in offsets only *)
Definition but_offsets (bs1 bs2 : list byte) : Prop :=
  length bs1 = length bs2 /\
  forall i, ~ offset_byte bs1 i -> nth_error bs1 i = nth_error bs2 i.

(** a v2 Proposal without its offsets *)
Definition without_offsets (p : ProposalV2) : ProposalV2 :=
  mkProposalV2 (p2_Raw p) (p2_Header p) (p2_SenderPeerID p) (p2_IBGID p) (p2_IBMAC p) 0
    (p2_SMCDGID p) (p2_ISMv2VCHID p) 0 (p2_reserved p) (p2_IP p)
    (mkV2Ext (x_EIDNumber (p2_Ext p)) (x_GIDNumber (p2_Ext p)) (x_reserved3 (p2_Ext p))
       (x_Release (p2_Ext p)) (x_reserved4 (p2_Ext p)) (x_SEIDInd (p2_Ext p))
       (x_reserved5 (p2_Ext p)) 0 (x_reserved6 (p2_Ext p)) (x_EIDArea (p2_Ext p)))
    (p2_SMCD p) (p2_Trailer p).

(** the same log line, or a dump of the same part of the two contents *)
Definition same_line (bs1 bs2 : list byte) (l1 l2 : string) : Prop :=
  l1 = l2 \/ exists n, l1 = dump_line (bytes_at bs1 0 n) /\ l2 = dump_line (bytes_at bs2 0 n).

Definition map_outcome {A B} (f : A -> B) (o : outcome A) : outcome B :=
  match o with Done a => Done (f a) | Panicked => Panicked | Exited => Exited end.
