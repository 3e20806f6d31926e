(** * Names: the names of code values. Specification only.

    Tables of documented code values (RFC 7609, SMCv2 protocol description, the
    diagnosis codes of the Linux implementation) with their names, and the texts
    in which they appear.  Does not mention the model. *)

From Coq Require Import NArith String List.
From Verif Require Import GoBase GoFmt.
Import ListNotations.
Local Open Scope string_scope.
Local Open Scope N_scope.

Definition names := list (N * string).

(** the name of a code, or the default *)
Fixpoint name_of (t : names) (default : string) (c : N) : string :=
  match t with
  | [] => default
  | (c', s) :: r => if c =? c' then s else name_of r default c
  end.

(** CLC message types *)
Definition type_names : names := [(1, "Proposal"); (2, "Accept"); (3, "Confirm"); (4, "Decline")].

(** SMC variants offered or chosen *)
Definition path_names : names :=
  [(0, "SMC-R"); (1, "SMC-D"); (2, "No SMC-R/SMC-D"); (3, "SMC-R + SMC-D")].

Definition os_names : names := [(1, "z/OS"); (2, "Linux"); (3, "AIX")].

(** queue pair MTU codes *)
Definition mtu_names : names := [(1, "256"); (2, "512"); (3, "1024"); (4, "2048"); (5, "4096")].

(** reason codes of Add Link *)
Definition add_link_reasons : names :=
  [(1, "no alternate path available"); (2, "invalid MTU value specified")].

(** reason codes of Delete Link *)
Definition delete_link_reasons : names :=
  [(0x00010000, "Lost path"); (0x00020000, "Operator initiated termination");
   (0x00030000, "Program initiated termination (link inactivity)");
   (0x00040000, "LLC protocol violation"); (0x00050000, "Asymmetric link no longer needed");
   (0x00100000, "Unknown link ID (no link)")].

(** diagnosis codes of Decline *)
Definition diagnosis_names : names :=
  [(0x01010000, "insufficient memory resources"); (0x02010000, "timeout w4 QP confirm link");
   (0x02020000, "timeout w4 QP add link"); (0x03000000, "configuration error");
   (0x03010000, "peer did not indicate SMC"); (0x03020000, "IPsec usage");
   (0x03030000, "no SMC device found (R or D)"); (0x03030001, "no SMC-D device found");
   (0x03030002, "no SMC-R device found"); (0x03030003, "hardware has no ISMv2 support");
   (0x03030004, "peer sent no clc v2 extension"); (0x03030005, "peer sent no clc SMC-Dv2 ext.");
   (0x03030006, "peer sent no SEID"); (0x03030007, "no SMC-Dv2 device found");
   (0x03040000, "smc modes do not match (R or D)"); (0x03050000, "peer has eyecatcher in RMBE");
   (0x03060000, "fastopen sockopt not supported"); (0x03070000, "IP prefix / subnet mismatch");
   (0x03080000, "err to get vlan id of ip device"); (0x03090000, "err to reg vlan id on ism dev");
   (0x030a0000, "no active smc-r link in lgr"); (0x030b0000, "SMC-R link from srv not found");
   (0x030c0000, "SMC version mismatch"); (0x030d0000, "SMC-D DMB limit exceeded");
   (0x04000000, "synchronization error"); (0x05000000, "peer declined during handshake");
   (0x09990000, "internal error"); (0x09990001, "rtoken handling failed");
   (0x09990002, "ib ready link failed"); (0x09990003, "reg rmb failed")].

(** ** Texts *)

Definition type_text (c : N) : string := name_of type_names "Unknown" c.
Definition path_text (c : N) : string := name_of path_names "unknown" c.

(** "number (name)" *)
Definition named (num : string) (name : string) : string := num ++ " (" ++ name ++ ")".

Definition os_text (c : N) : string := named (dec c) (name_of os_names "unknown" c).
Definition mtu_text (c : N) : string := named (dec c) (name_of mtu_names "reserved" c).
Definition add_link_text (c : N) : string := named (dec c) (name_of add_link_reasons "unknown" c).
Definition delete_link_text (c : N) : string :=
  named (dec c) (name_of delete_link_reasons "unknown" c).
Definition diagnosis_text (c : N) : string := named (hexN c) (name_of diagnosis_names "Unknown" c).

(** "code (bytes)": the size code [c] stands for 2^(c+14) bytes *)
Definition size_text (c : N) : string := named (dec c) (dec (16384 * 2 ^ c)).

(** the two eyecatchers, in EBCDIC *)
Definition eyecatcher_text (e : list byte) : string :=
  if list_eq_dec Byte.byte_eq_dec e [xe2; xd4; xc3; xd9] then "SMC-R"
  else if list_eq_dec Byte.byte_eq_dec e [xe2; xd4; xc3; xc4] then "SMC-D" else "Unknown".

(** all codes of a table are different, and so are all names and the default *)
Definition unambiguous (t : names) (default : string) : Prop :=
  NoDup (map fst t) /\ NoDup (default :: map snd t).
