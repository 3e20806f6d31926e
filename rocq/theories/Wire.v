(** * Wire: the specification of the wire formats.

    This file does not mention the model.  A message is a sequence of bytes and
    so of bits; a field is a range of these bits, read as a number.  Each
    message type is a table of field names and widths in wire order, written
    from the message diagrams of RFC 7609 (SMC-R v1 CLC, LLC and CDC), the
    SMC-D/SMCv2 protocol description and the InfiniBand BTH and GRH formats. *)

From Coq Require Import NArith Arith String List.
From Verif Require Import GoBase.
Import ListNotations.
Local Open Scope string_scope.
Local Open Scope list_scope.
Local Open Scope nat_scope.

(** The end of a line of text. *)
Definition line_end : string := String (Ascii.ascii_of_nat 10) "".

(** The number a byte sequence stands for, most significant byte first. *)
Fixpoint BE (bs : list byte) : N :=
  match bs with
  | [] => 0
  | b :: r => (b2n b * 256 ^ N.of_nat (length r) + BE r)%N
  end.

(** The bits of a byte, most significant bit first. *)
Definition byte_bits (b : byte) : list bool :=
  let '(b0, (b1, (b2, (b3, (b4, (b5, (b6, b7))))))) := Byte.to_bits b in
  [b7; b6; b5; b4; b3; b2; b1; b0].

(** The number with the binary digits [l], most significant digit first. *)
Definition binary (l : list bool) : N :=
  fold_left (fun n (d : bool) => if d then 2 * n + 1 else 2 * n)%N l 0%N.

(** The number formed by bits [off .. off+w-1]; bit 0 is the first on the wire. *)
Definition bits (bs : list byte) (off w : nat) : N :=
  binary (firstn w (skipn off (flat_map byte_bits bs))).
Arguments bits : simpl never.

(** Bytes [off .. off+n-1]. *)
Definition bytes_at (bs : list byte) (off n : nat) : list byte := firstn n (skipn off bs).

(** Field kinds: an unsigned number of [w] bits, or [n] uninterpreted bytes. *)
Inductive kind := U (w : nat) | A (n : nat).
Definition layout := list (string * kind).

Inductive val := VN (n : N) | VB (bs : list byte).

Definition kind_bits (k : kind) : nat := match k with U w => w | A n => 8 * n end.
Fixpoint layout_bits (l : layout) : nat :=
  match l with [] => 0 | (_, k) :: r => kind_bits k + layout_bits r end.

(** The fields of [l] found in [bs] from bit [off] on. *)
Fixpoint decode_at (l : layout) (off : nat) (bs : list byte) : list (string * val) :=
  match l with
  | [] => []
  | (name, U w) :: r => (name, VN (bits bs off w)) :: decode_at r (off + w) bs
  | (name, A n) :: r => (name, VB (bytes_at bs (off / 8) n)) :: decode_at r (off + 8 * n) bs
  end.

Definition decode (l : layout) (bs : list byte) : list (string * val) := decode_at l 0 bs.

(** Byte arrays must start at a byte boundary for [decode_at] to make sense. *)
Fixpoint aligned_at (l : layout) (off : nat) : bool :=
  match l with
  | [] => true
  | (_, U w) :: r => aligned_at r (off + w)
  | (_, A n) :: r => Nat.eqb (off mod 8) 0 && aligned_at r (off + 8 * n)
  end%bool.

(** ** CLC *)

Definition clc_header : layout :=
  [("Eyecatcher", A 4); ("Type", U 8); ("Length", U 16);
   ("Version", U 4); ("Flag", U 1); ("Reserved", U 1); ("Path", U 2)].

(** the header of a v2 Proposal has a second path field in place of flag and
    reserved *)
Definition clc_header_v2proposal : layout :=
  [("Eyecatcher", A 4); ("Type", U 8); ("Length", U 16);
   ("Version", U 4); ("Pathv2", U 2); ("Path", U 2)].

(** The bodies behind the 8-byte header and in front of the 4-byte trailer. *)
Definition accept_smcr_body : layout :=
  [("Peer ID", A 8); ("SMC-R GID", A 16); ("RoCE MAC", A 6); ("QP Number", U 24);
   ("RMB RKey", U 32); ("RMBE Index", U 8); ("RMBE Alert Token", U 32);
   ("RMBE Size", U 4); ("QP MTU", U 4); ("Reserved", U 8);
   ("RMB Virtual Address", U 64); ("Reserved", U 8); ("Packet Sequence Number", U 24)].

Definition accept_smcd_body : layout :=
  [("SMC-D GID", U 64); ("SMC-D Token", U 64); ("DMBE Index", U 8);
   ("DMBE Size", U 4); ("Reserved", U 4); ("Reserved", A 2); ("Link ID", U 32);
   ("Reserved", A 12)].

Definition accept_smcdv2_body : layout :=
  [("SMC-D GID", U 64); ("SMC-D Token", U 64); ("DMBE Index", U 8);
   ("DMBE Size", U 4); ("Reserved", U 4); ("Reserved", A 2); ("Link ID", U 32);
   ("ISMv2 VCHID", U 16); ("EID", A 32); ("Reserved", A 8)].

(** First Contact Extension *)
Definition fce_body : layout :=
  [("Reserved", U 8); ("OS Type", U 4); ("Release", U 4); ("Reserved", A 2);
   ("Hostname", A 32)].

Definition decline_body : layout :=
  [("Peer ID", A 8); ("Peer Diagnosis", U 32); ("Reserved", A 4)].

Definition declinev2_body : layout :=
  [("Peer ID", A 8); ("Peer Diagnosis", U 32); ("OS Type", U 4); ("Reserved", U 28)].

Definition proposal_body : layout :=
  [("Peer ID", A 8); ("SMC-R GID", A 16); ("RoCE MAC", A 6); ("IP Area Offset", U 16)].

(** present in a v1 Proposal iff the IP area offset is 40 *)
Definition proposal_smcd_body : layout := [("SMC-D GID", U 64); ("Reserved", A 32)].

Definition proposalv2_body : layout :=
  [("Peer ID", A 8); ("SMC-R GID", A 16); ("RoCE MAC", A 6); ("IP Area Offset", U 16);
   ("SMC-D GID", U 64); ("ISMv2 VCHID", U 16); ("SMCv2 Extension Offset", U 16);
   ("Reserved", A 28)].

Definition ip_area_body : layout :=
  [("IPv4 Prefix", A 4); ("Prefix Length", U 8); ("Reserved", A 2);
   ("IPv6 Prefix Count", U 8)].

Definition ipv6_prefix_body : layout := [("IPv6 Prefix", A 16); ("Prefix Length", U 8)].

Definition v2_extension_body : layout :=
  [("EID Number", U 8); ("GID Number", U 8); ("Reserved", U 8); ("Release", U 4);
   ("Reserved", U 3); ("SEID Indicator", U 1); ("Reserved", A 2);
   ("SMC-Dv2 Extension Offset", U 16); ("Reserved", A 32)].

Definition smcdv2_extension_body : layout := [("SEID", A 32); ("Reserved", A 16)].

Definition gid_entry_body : layout := [("GID", U 64); ("VCHID", U 16)].

(** ** LLC: 44 bytes *)

Definition llc_confirm_link : layout :=
  [("Type", U 8); ("Length", U 8); ("Reserved", U 8); ("Reply", U 1); ("Reserved", U 7);
   ("Sender MAC", A 6); ("Sender GID", A 16); ("Sender QP", U 24); ("Link", U 8);
   ("Sender Link User ID", U 32); ("Max Links", U 8); ("Reserved", A 9)].

Definition llc_add_link : layout :=
  [("Type", U 8); ("Length", U 8); ("Reserved", U 4); ("Reason Code", U 4);
   ("Reply", U 1); ("Reject", U 1); ("Reserved", U 6);
   ("Sender MAC", A 6); ("Reserved", A 2); ("Sender GID", A 16); ("Sender QP", U 24);
   ("Link", U 8); ("Reserved", U 4); ("MTU", U 4); ("Initial PSN", U 24);
   ("Reserved", A 8)].

Definition rkey_pair (i : string) : layout :=
  [(append "Reference RKey " i, U 32); (append "New RKey " i, U 32); (append "New Virtual Address " i, U 64)].

Definition llc_add_link_cont : layout :=
  [("Type", U 8); ("Length", U 8); ("Reserved", U 8); ("Reply", U 1); ("Reserved", U 7);
   ("Link", U 8); ("Number of RTokens", U 8); ("Reserved", A 2)]
  ++ rkey_pair "1" ++ rkey_pair "2" ++ [("Reserved", A 4)].

Definition llc_delete_link : layout :=
  [("Type", U 8); ("Length", U 8); ("Reserved", U 8);
   ("Reply", U 1); ("All", U 1); ("Orderly", U 1); ("Reserved", U 5);
   ("Link", U 8); ("Reason Code", U 32); ("Reserved", A 35)].

Definition rmb_spec (i : string) : layout :=
  [(append "Link " i, U 8); (append "RKey " i, U 32); (append "Virtual Address " i, U 64)].

Definition llc_confirm_rkey : layout :=
  [("Type", U 8); ("Length", U 8); ("Reserved", U 8);
   ("Reply", U 1); ("Reserved", U 1); ("Reject", U 1); ("Retry", U 1); ("Reserved", U 4);
   ("Number of Tokens", U 8); ("RKey", U 32); ("Virtual Address", U 64)]
  ++ rmb_spec "1" ++ rmb_spec "2" ++ [("Reserved", U 8)].

(** the code expects 45 bytes for this type *)
Definition llc_confirm_rkey_cont : layout :=
  [("Type", U 8); ("Length", U 8); ("Reserved", U 8);
   ("Reply", U 1); ("Reserved", U 1); ("Reject", U 1); ("Reserved", U 5);
   ("Number of Tokens", U 8)]
  ++ rmb_spec "1" ++ rmb_spec "2" ++ rmb_spec "3" ++ [("Reserved", U 8)].

Definition llc_delete_rkey : layout :=
  [("Type", U 8); ("Length", U 8); ("Reserved", U 8);
   ("Reply", U 1); ("Reserved", U 1); ("Reject", U 1); ("Reserved", U 5);
   ("Count", U 8); ("Error Mask", U 8); ("Reserved", A 2);
   ("RKey 0", U 32); ("RKey 1", U 32); ("RKey 2", U 32); ("RKey 3", U 32);
   ("RKey 4", U 32); ("RKey 5", U 32); ("RKey 6", U 32); ("RKey 7", U 32);
   ("Reserved", A 4)].

Definition llc_test_link : layout :=
  [("Type", U 8); ("Length", U 8); ("Reserved", U 8); ("Reply", U 1); ("Reserved", U 7);
   ("User Data", A 16); ("Reserved", A 24)].

(** ** CDC: 44 bytes *)
Definition cdc : layout :=
  [("Type", U 8); ("Length", U 8); ("Sequence Number", U 16); ("Alert Token", U 32);
   ("Reserved", A 2); ("Producer Wrap", U 16); ("Producer Cursor", U 32);
   ("Reserved", A 2); ("Consumer Wrap", U 16); ("Consumer Cursor", U 32);
   ("Writer Blocked", U 1); ("Urgent Data Pending", U 1); ("Urgent Data Present", U 1);
   ("Request for Consumer Cursor Update", U 1); ("Failover Validation", U 1);
   ("Reserved", U 3);
   ("Sending Done", U 1); ("Peer Connection Closed", U 1); ("Abnormal Close", U 1);
   ("Reserved", U 149)].

(** ** RoCE *)
Definition bth : layout :=
  [("OpCode", U 8); ("SE", U 1); ("M", U 1); ("Pad", U 2); ("TVer", U 4); ("PKey", U 16);
   ("FECN", U 1); ("BECN", U 1); ("Res", U 6); ("DestQP", U 24);
   ("A", U 1); ("Res", U 7); ("PSN", U 24)].

Definition grh : layout :=
  [("Version", U 4); ("Traffic Class", U 8); ("Flow Label", U 20); ("Length", U 16);
   ("Next Header", U 8); ("Hop Limit", U 8); ("Source", A 16); ("Destination", A 16)].

(** ** The formats are consistent: sizes and alignment *)
Example layouts_ok :
  layout_bits clc_header = 64 /\ layout_bits clc_header_v2proposal = 64 /\
  8 * 68 = 64 + layout_bits accept_smcr_body + 32 /\
  8 * 48 = 64 + layout_bits accept_smcd_body + 32 /\
  8 * 78 = 64 + layout_bits accept_smcdv2_body + 32 /\
  8 * 114 = 64 + layout_bits accept_smcdv2_body + layout_bits fce_body + 32 /\
  8 * 28 = 64 + layout_bits decline_body + 32 /\
  8 * 28 = 64 + layout_bits declinev2_body + 32 /\
  8 * 52 = 64 + layout_bits proposal_body + layout_bits ip_area_body + 32 /\
  8 * 84 = 64 + layout_bits proposalv2_body + 32 /\
  layout_bits proposal_smcd_body = 8 * 40 /\
  layout_bits v2_extension_body = 8 * 40 /\ layout_bits smcdv2_extension_body = 8 * 48 /\
  Forall (fun l => layout_bits l = 8 * 44)
    [llc_confirm_link; llc_add_link; llc_add_link_cont; llc_delete_link; llc_confirm_rkey;
     llc_delete_rkey; llc_test_link; cdc] /\
  layout_bits llc_confirm_rkey_cont = 8 * 45 /\
  layout_bits bth = 8 * 12 /\ layout_bits grh = 8 * 40 /\
  Forall (fun l => aligned_at l 0 = true)
    [clc_header; clc_header_v2proposal; accept_smcr_body; accept_smcd_body;
     accept_smcdv2_body; fce_body; decline_body; declinev2_body; proposal_body;
     proposal_smcd_body; proposalv2_body; ip_area_body; ipv6_prefix_body;
     v2_extension_body; smcdv2_extension_body; gid_entry_body;
     llc_confirm_link; llc_add_link; llc_add_link_cont; llc_delete_link; llc_confirm_rkey;
     llc_delete_rkey; llc_test_link; cdc; llc_confirm_rkey_cont; bth; grh].
Proof. repeat split; repeat constructor. Qed.
