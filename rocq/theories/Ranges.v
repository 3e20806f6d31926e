(** * Ranges: the values that the fields of an object can have. Specification only. *)

From Coq Require Import NArith Bool String Arith List.
From Verif Require Import GoBase ClcModel LlcModel RoceModel WriteModel LlcWriteModel Wire ClcView LlcView
  Encode Recover.
Import ListNotations.
Local Open Scope string_scope.
Local Open Scope list_scope.
Local Open Scope nat_scope.

(** each of the values [vs] fits its field of the format [l]; an address that was never read
    is nil *)
Fixpoint in_format (l : layout) (vs : list (string * val)) : Prop :=
  match l, vs with
  | [], [] => True
  | (name, k) :: l', (name', v) :: vs' =>
    name' = name /\ (holds k v \/ (is_address name = true /\ v = VB [])) /\ in_format l' vs'
  | _, _ => False
  end.

(** ** CLC *)

Definition header_in_format (h : Header) : Prop :=
  in_format clc_header (header_view h) /\ in_format clc_header_v2proposal (header_v2proposal_view h).

Definition ip_in_format (i : IPInfo) : Prop :=
  in_format ip_area_body (ip_area_view i) /\
  Forall (fun e => in_format ipv6_prefix_body (ipv6_prefix_view e)) (i_IPv6Prefixes i).

Definition ext_in_format (x : V2Ext) : Prop :=
  in_format v2_extension_body (v2_extension_view x) /\
  length (x_EIDArea x) = 8 /\ Forall (fun e => length e = 32) (x_EIDArea x).

Definition smcd_in_format (y : SMCDExt) : Prop :=
  in_format smcdv2_extension_body (smcdv2_extension_view y) /\
  length (y_GIDArea y) = 8 /\
  Forall (fun g => in_format gid_entry_body (gid_entry_view g)) (y_GIDArea y).

(** all fields of an object, also those of parts that its current message does not have.
    The reserved bits of a v2 Decline share a byte with the OS type; a panic can happen before
    they are separated from it *)
Definition clc_in_format (msg : Message) : Prop :=
  header_in_format (header_of msg) /\ length (trailer_of msg) = 4 /\
  match msg with
  | MProposal p =>
    in_format (clc_header ++ proposal_body) (proposal_view p) /\
    in_format proposal_smcd_body (proposal_smcd_view p) /\ ip_in_format (p_IP p)
  | MProposalV2 p =>
    in_format (clc_header_v2proposal ++ proposalv2_body) (proposalv2_view p) /\
    ip_in_format (p2_IP p) /\ ext_in_format (p2_Ext p) /\ smcd_in_format (p2_SMCD p)
  | MDecline d => in_format (clc_header ++ decline_body) (decline_view d) /\ d_OSType d = 0%N
  | MDeclineV2 d =>
    in_format (clc_header ++ [("Peer ID", A 8); ("Peer Diagnosis", U 32); ("OS Type", U 4);
                              ("Reserved", U 32)]) (declinev2_view d) /\
    length (d2_reserved d) = 4
  | _ => in_format (read_layout (kind_of msg)) (read_view msg)
  end.

(** ** LLC and RoCE *)

Definition llc_in_format (msg : LLCMessage) : Prop :=
  in_format (llc_layout (llc_kind_of msg)) (llc_view msg) /\ llc_wf msg.

(** headers that can exist in a program, which may recover from panics *)
Inductive bth_reachable : BTH -> Prop :=
| bth_reach_fresh : bth_reachable BTH_zero
| bth_reach_parse m old buf logs new : bth_reachable old -> slice_ok m buf ->
    BTH_Parse m old buf = (logs, Done new) -> bth_reachable new
| bth_reach_panic m old buf logs new : bth_reachable old -> slice_ok m buf ->
    BTH_W m buf old = (logs, Panicked, new) -> bth_reachable new.
