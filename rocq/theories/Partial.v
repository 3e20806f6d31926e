(** * Partial: new objects and incomplete LLC messages. Specification only. *)

From Coq Require Import NArith Bool String Arith List.
From Verif Require Import GoBase ClcModel LlcModel RoceModel Wire ClcView LlcView.
Import ListNotations.
Local Open Scope nat_scope.

(** the buffer [bs], continued with the bytes that the object already has in the reserved
    field at the end of its format *)
Definition completed (old : LLCMessage) (bs : list byte) : list byte :=
  let k := llc_kind_of old in
  bs ++ skipn (length bs - llc_min k) (firstn (llc_size k - llc_min k) (llc_tail old)).

(** a field without content *)
Definition blank (f : string * val) : Prop :=
  match snd f with
  | VN n => n = 0%N
  | VB bs => Forall (fun b => b = x00) bs
  end.

(** all fields of a CLC object, also those that its texts do not show *)
Definition prefix_fields (i : IPInfo) : list (string * val) :=
  ip_area_view i ++ concat (map ipv6_prefix_view (i_IPv6Prefixes i)).

Definition all_fields (msg : Message) : list (string * val) :=
  header_view (header_of msg) ++ [("Trailer"%string, VB (trailer_of msg))] ++
  match msg with
  | MProposal p => proposal_view p ++ proposal_smcd_view p ++ prefix_fields (p_IP p)
  | MProposalV2 p => proposalv2_view p ++ prefix_fields (p2_IP p) ++
      v2_extension_view (p2_Ext p) ++ map (fun e => ("EID"%string, VB e)) (x_EIDArea (p2_Ext p)) ++
      smcdv2_extension_view (p2_SMCD p) ++ concat (map gid_entry_view (y_GIDArea (p2_SMCD p)))
  | MAcceptSMCR a => accept_smcr_view a
  | MAcceptSMCD a => accept_smcd_view a
  | MAcceptSMCDv2 a => accept_smcdv2_view a ++ fce_view a
  | MConfirmSMCR c => accept_smcr_view (cr_Accept c)
  | MConfirmSMCD c => accept_smcd_view (cd_Accept c)
  | MConfirmSMCDv2 c => accept_smcdv2_view (c2_Accept c) ++ fce_view (c2_Accept c)
  | MDecline d => decline_view d ++ [("OS Type"%string, VN (d_OSType d))]
  | MDeclineV2 d => declinev2_view d
  end.

(** "other" messages, which have no format *)
Definition is_other (k : llc_kind) : bool := match k with KOther => true | _ => false end.
