(** * Encode: from field values to the bytes on the wire. Specification only. *)

From Coq Require Import NArith Bool String Arith List.
From Verif Require Import GoBase ClcModel Wire ClcView Sound.
Import ListNotations.
Local Open Scope string_scope.
Local Open Scope list_scope.
Local Open Scope nat_scope.

(** ** Any layout *)

(** a value that a field can hold *)
Definition holds (k : kind) (v : val) : Prop :=
  match k, v with
  | U w, VN n => (n < 2 ^ N.of_nat w)%N
  | A n, VB bs => length bs = n
  | _, _ => False
  end.

(** [vs] gives values to exactly the fields of [l], in this order *)
Definition values_for (l : layout) (vs : list (string * val)) : Prop :=
  Forall2 (fun f x => fst f = fst x /\ holds (snd f) (snd x)) l vs.

(** all fields written one after another form one number *)
Fixpoint number (l : layout) (vs : list (string * val)) : N :=
  match l, vs with
  | _ :: l', (_, v) :: vs' =>
    (match v with VN n => n | VB bs => BE bs end * 2 ^ N.of_nat (layout_bits l') + number l' vs')%N
  | _, _ => 0%N
  end.

(** the last [n] bytes of a number *)
Fixpoint number_bytes (n : nat) (x : N) : list byte :=
  match n with
  | O => []
  | S n' => n2b (x / 256 ^ N.of_nat n') :: number_bytes n' x
  end.

Definition encode (l : layout) (vs : list (string * val)) : list byte :=
  number_bytes (layout_bits l / 8) (number l vs).

(** ** CLC messages *)

(** the fields of a message of kind [k]; which of them there are depends on path, offset,
    length and announced numbers *)
Definition wire_layout (k : clc_kind) (bs : list byte) : layout :=
  match k with
  | KProposal =>
    clc_header ++ proposal_body ++
    (if (ip_area_offset bs =? 40)%N then proposal_smcd_body else []) ++
    ip_area_body ++ concat (repeat ipv6_prefix_body (prefix_count bs (ip_area_start bs)))
  | KProposalV2 =>
    clc_header_v2proposal ++ proposalv2_body ++
    (if has_ip bs then ip_area_body ++ concat (repeat ipv6_prefix_body (prefix_count bs 80)) else []) ++
    (if has_ext bs then v2_extension_body ++ repeat ("EID", A 32) (eids_at bs) else []) ++
    (if has_smcd bs then smcdv2_extension_body ++ concat (repeat gid_entry_body (gids_at bs)) else [])
  | KAcceptSMCR | KConfirmSMCR => clc_header ++ accept_smcr_body
  | KAcceptSMCD | KConfirmSMCD => clc_header ++ accept_smcd_body
  | KAcceptSMCDv2 | KConfirmSMCDv2 =>
    clc_header ++ accept_smcdv2_body ++ (if (declared bs =? 114)%N then fce_body else [])
  | KDecline => clc_header ++ decline_body
  | KDeclineV2 => clc_header ++ declinev2_body
  end ++ [("Trailer", A 4)].

(** the message consists of these fields and of nothing else, its length field says so, and
    it has no more EIDs and GIDs than an object can hold *)
Definition whole (k : clc_kind) (bs : list byte) : Prop :=
  layout_bits (wire_layout k bs) = 8 * length bs /\
  N.to_nat (declared bs) = length bs /\
  match k with
  | KProposal => ip_area_offset bs = 0%N \/ ip_area_offset bs = 40%N
  | KProposalV2 => (has_ext bs = true -> eids_at bs <= 8) /\ (has_smcd bs = true -> gids_at bs <= 8)
  | _ => True
  end.

(** the fields of an object, in wire order; those of absent parts are left out *)
Definition smcdv2_fields (a : AcceptSMCDv2) : list (string * val) :=
  accept_smcdv2_view a ++ (if (h_Length (a2_Header a) =? 114)%N then fce_view a else []).

Definition ip_fields (i : IPInfo) : list (string * val) :=
  ip_area_view i ++ concat (map ipv6_prefix_view (i_IPv6Prefixes i)).

Definition object_fields (msg : Message) : list (string * val) :=
  match msg with
  | MProposal p =>
    proposal_view p ++ (if (p_IPAreaOffset p =? 40)%N then proposal_smcd_view p else []) ++ ip_fields (p_IP p)
  | MProposalV2 p =>
    proposalv2_view p ++
    (if (h_Path (p2_Header p) =? 2)%N then [] else ip_fields (p2_IP p)) ++
    (if (h_Pathv2 (p2_Header p) =? 2)%N then []
     else v2_extension_view (p2_Ext p) ++
       map (fun e => ("EID", VB e)) (firstn (N.to_nat (x_EIDNumber (p2_Ext p))) (x_EIDArea (p2_Ext p)))) ++
    (if ((h_Pathv2 (p2_Header p) =? 1) || (h_Pathv2 (p2_Header p) =? 3))%N
     then smcdv2_extension_view (p2_SMCD p) ++
       concat (map gid_entry_view (firstn (N.to_nat (x_GIDNumber (p2_Ext p))) (y_GIDArea (p2_SMCD p))))
     else [])
  | MAcceptSMCR a => accept_smcr_view a
  | MAcceptSMCD a => accept_smcd_view a
  | MAcceptSMCDv2 a => smcdv2_fields a
  | MConfirmSMCR c => accept_smcr_view (cr_Accept c)
  | MConfirmSMCD c => accept_smcd_view (cd_Accept c)
  | MConfirmSMCDv2 c => smcdv2_fields (c2_Accept c)
  | MDecline d => decline_view d
  | MDeclineV2 d => declinev2_view d
  end ++ [("Trailer", VB (trailer_of msg))].
