(** * Lossless: what it means that a text stands for one message only. Specification only. *)

From Coq Require Import NArith Bool String Arith List.
From Verif Require Import GoBase Wire ClcView LlcView.
Import ListNotations.
Local Open Scope string_scope.
Local Open Scope list_scope.
Local Open Scope nat_scope.

(** the fields that are not reserved *)
Definition named_fields (vs : list (string * val)) : list (string * val) :=
  filter (fun f => negb (String.eqb (fst f) "Reserved")) vs.

(** header values that fit kind [k]: the kinds NewMessage() chooses *)
Definition of_kind (k : clc_kind) (bs : list byte) : Prop :=
  kind_rel (msg_type bs) (msg_version bs) (msg_path bs) k.

(** the buffer is filled by the message and each of its bytes belongs to a field.  SMC-D v2
    Accept and Confirm and v2 Proposal messages have text fields and are left out. *)
Definition exact (k : clc_kind) (bs : list byte) : Prop :=
  match k with
  | KProposal =>
    N.to_nat (declared bs) = length bs /\ (ip_area_offset bs = 0 \/ ip_area_offset bs = 40)%N /\
    length bs = ip_area_start bs + 8 + 17 * prefix_count bs (ip_area_start bs) + 4
  | KProposalV2 | KAcceptSMCDv2 | KConfirmSMCDv2 => False
  | _ => declared bs = min_length k /\ length bs = N.to_nat (min_length k)
  end.

(** known eyecatchers at both ends *)
Definition eyecatchers (bs : list byte) : Prop :=
  is_eyecatcher (bytes_at bs 0 4) = true /\ is_eyecatcher (last4 bs) = true.

(** all fields of a message *)
Definition proposal_layout (offset : N) (prefixes : nat) : layout :=
  proposal_body ++ (if (offset =? 40)%N then proposal_smcd_body else []) ++ ip_area_body ++
  concat (repeat ipv6_prefix_body prefixes).

Definition body_layout (k : clc_kind) (bs : list byte) : layout :=
  match k with
  | KProposal => proposal_layout (ip_area_offset bs) (prefix_count bs (ip_area_start bs))
  | KAcceptSMCR | KConfirmSMCR => accept_smcr_body
  | KAcceptSMCD | KConfirmSMCD => accept_smcd_body
  | KDecline => decline_body
  | KDeclineV2 => declinev2_body
  | _ => []
  end.

Definition whole_layout (k : clc_kind) (bs : list byte) : layout :=
  clc_header ++ body_layout k bs ++ [("Trailer", A 4)].
