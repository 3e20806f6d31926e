(** * Spare: objects that a panicking Parse leaves behind, for buffers with any spare capacity.
    Specification only.

    A Go slice can be longer inside than it seems: an expression such as [buf[4:8]] may take
    bytes behind the length of [buf], up to its capacity; [buf[3]] and [buf[3:]] may not.  In
    this file, [back] are the bytes of a buffer up to its capacity ([reach] in Accepted.v), [n]
    is its length. *)

From Coq Require Import NArith Bool String Arith List.
From Verif Require Import GoBase ClcModel LlcModel Wire ClcView LlcView Recover Areas Accepted.
Import ListNotations.
Local Open Scope string_scope.
Local Open Scope list_scope.
Local Open Scope nat_scope.

(** ** Fields *)

(** byte strings and numbers of two, four and eight bytes are read with one slice expression,
    other fields byte by byte *)
Definition by_slice (k : kind) : bool :=
  match k with A _ => true | U w => (w =? 16) || (w =? 32) || (w =? 64) end.

(** the field at bit [off] needs a buffer of this length, in bits.  Most parsers move the
    buffer to the field first, which needs everything in front of it; [joined] says for the
    byte where a field starts that this does not happen *)
Definition len_needed (joined : nat -> bool) (off : nat) (k : kind) : nat :=
  if by_slice k then (if joined (off / 8) then 0 else off) else off + kind_bits k.

Definition field_read (joined : nat -> bool) (n cap off : nat) (k : kind) : bool :=
  (len_needed joined off k <=? 8 * n) && (off + kind_bits k <=? 8 * cap).

(** how many fields are read before the first that cannot *)
Fixpoint fields_read (joined : nat -> bool) (n cap : nat) (l : layout) (off : nat) : nat :=
  match l with
  | [] => 0
  | (_, k) :: r =>
    if field_read joined n cap off k then S (fields_read joined n cap r (off + kind_bits k)) else 0
  end.

(** the fields from number [k] on, of which the first starts at byte [o] *)
Definition unread (joined : nat -> bool) (l : layout) (k : nat) (back : list byte) (n : nat)
    (old : list (string * val)) : list (string * val) :=
  let o := layout_bits (firstn k l) / 8 in
  match skipn k l, skipn k old with
  | f :: _, v :: r =>
    (if joined o || (o <=? n) then torn_field f (skipn o (firstn n back)) v else v) :: r
  | _, r => r
  end.

(** the fields [old] of an object become these *)
Definition left_fields (joined : nat -> bool) (l : layout) (back : list byte) (n : nat)
    (old : list (string * val)) : list (string * val) :=
  let k := fields_read joined n (length back) l 0 in
  firstn k (decode l back) ++ unread joined l k back n old.

(** an area that starts at byte [start] and is read without moving the buffer *)
Definition left_area (l : layout) (back : list byte) (n start : nat) (old : list (string * val))
  : list (string * val) :=
  let k := fields_read (fun _ => true) (n - start) (length back - start) l 0 in
  firstn k (decode_at l (8 * start) back)
  ++ unread (fun _ => true) l k (skipn start back) (n - start) old.

(** ** CLC *)

Definition moves_never (o : nat) : bool := true.
Definition moves_always (o : nat) : bool := false.

Definition clc_joined (k : clc_kind) : nat -> bool :=
  match k with KProposal | KProposalV2 => moves_never | _ => moves_always end.

(** the last four bytes of a v2 Decline are in [declinev2_left] *)
Definition spare_layout (k : clc_kind) : layout :=
  match k with
  | KDeclineV2 => clc_header ++ [("Peer ID", A 8); ("Peer Diagnosis", U 32)]
  | _ => read_layout k
  end.

Definition spare_view (msg : Message) : list (string * val) :=
  match msg with
  | MDeclineV2 d =>
    header_view (d2_Header d) ++
    [("Peer ID", VB (d2_SenderPeerID d)); ("Peer Diagnosis", VN (d2_PeerDiagnosis d))]
  | _ => read_view msg
  end.

(** four bytes are stored as they are; then the first is read again for the OS type, and the
    OS type is removed from what was stored *)
Definition declinev2_left (back : list byte) (n : nat) (old new : DeclineV2) : Prop :=
  if (n <? 20) || (length back <? 24) then
    d2_OSType new = d2_OSType old /\ d2_reserved new = d2_reserved old
  else if n =? 20 then
    d2_OSType new = d2_OSType old /\ d2_reserved new = bytes_at back 20 4
  else
    d2_OSType new = bits back 160 4 /\ length (d2_reserved new) = 4 /\
    BE (d2_reserved new) = bits back 164 28.

(** [old] became [new] in a [Parse(buf)] that panicked *)
Definition left_behind (m : mem) (buf : slice) (old new : Message) : Prop :=
  let bs := s_bytes m buf in
  let back := reach m buf in
  let k := kind_of old in
  raw_of new = buf /\ trailer_of new = trailer_of old /\
  if (length bs <? 8) || reads_on k bs then
    spare_view new = left_fields (clc_joined k) (spare_layout k) back (length bs) (spare_view old) /\
    match old, new with
    | MDeclineV2 d, MDeclineV2 d' => declinev2_left back (length bs) d d'
    | _, _ => True
    end
  else exists h, header_from bs h /\ new = with_header old buf h.

(** ** LLC *)

(** the entries of these messages are read as a whole *)
Definition llc_joined (k : llc_kind) (o : nat) : bool :=
  existsb (Nat.eqb o)
    match k with
    | KAddLinkCont => [12; 16; 28; 32]
    | KConfirmRKey => [18; 22; 31; 35]
    | KConfirmRKeyCont => [6; 10; 19; 23; 32; 36]
    | _ => []
    end.

(** ** Areas of Proposals *)

(** how many of [c] entries of [size] bytes from byte [start] on end in front of byte [e] *)
Definition inside_of (e start size c : nat) : nat := Nat.min c ((e - start) / size).

(** the last byte of a prefix is read on its own *)
Definition ip_after (L : nat) (back : list byte) (n start : nat) (old new : IPInfo) : Prop :=
  let c := inside_of n (start + 8) 17 (fitting L (start + 8) 17 (prefix_count back start)) in
  ip_area_view new = left_area ip_area_body back n start (ip_area_view old) /\
  exists l, i_IPv6Prefixes new = i_IPv6Prefixes old ++ l /\
    map ipv6_prefix_view l = entries ipv6_prefix_body (start + 8) 17 c back.

Definition v1_after (back : list byte) (n : nat) (old new : Proposal) : Prop :=
  let cap := length back in
  let L := N.to_nat (declared back) in
  let reads := (8 <=? n) && (40 <=? cap) && (52 <=? L) in
  let smcd := (ip_area_offset back =? 40)%N in
  (if reads && smcd
   then proposal_smcd_view new = left_area proposal_smcd_body back n 40 (proposal_smcd_view old)
   else proposal_smcd_view new = proposal_smcd_view old) /\
  (if reads && (negb smcd || (80 <=? cap)) && (ip_area_start back + 12 <=? L)
   then ip_after L back n (ip_area_start back) (p_IP old) (p_IP new)
   else p_IP new = p_IP old).

(** Parse gets behind the IP area *)
Definition ip_passed (L : nat) (back : list byte) (n : nat) : bool :=
  negb (has_ip back) ||
  ((92 <=? L) && (v2_ext_start L back <=? n) &&
   goes_on L back (v2_prefixes L back) (prefix_count back 80)).

(** Parse gets behind the extension; its first four bytes are read one by one *)
Definition ext_passed (L : nat) (back : list byte) (n : nat) : bool :=
  negb (has_ext back) ||
  ((v2_ext_start L back + 44 <=? L) && (v2_ext_start L back + 4 <=? n) &&
   (v2_smcd_start L back <=? length back) && (v2_eids L back <=? 8) &&
   goes_on L back (v2_eids L back) (v2_eid_count L back)).

Definition ext_after (L : nat) (back : list byte) (n : nat) (old new : V2Ext) : Prop :=
  let start := v2_ext_start L back in
  let c := if start + 4 <=? n
           then inside_of (length back) (start + 40) 32 (Nat.min 8 (v2_eids L back)) else 0 in
  v2_extension_view new = left_area v2_extension_body back n start (v2_extension_view old) /\
  x_EIDArea new
  = map (fun k => bytes_at back (start + 40 + 32 * k) 32) (seq 0 c) ++ skipn c (x_EIDArea old).

Definition smcd_after (L : nat) (back : list byte) (n : nat) (old new : SMCDExt) : Prop :=
  let start := v2_smcd_start L back in
  let k := Nat.min 8 (v2_gids L back) in
  let c := inside_of (length back) (start + 48) 10 k in
  smcdv2_extension_view new
  = left_area smcdv2_extension_body back n start (smcdv2_extension_view old) /\
  exists l r, y_GIDArea new = l ++ r /\
    map gid_entry_view l = entries gid_entry_body (start + 48) 10 c back /\
    if c <? k then
      match skipn c (y_GIDArea old), r with
      | e :: t, e' :: t' =>
        gid_entry_view e'
        = left_area gid_entry_body back n (start + 48 + 10 * c) (gid_entry_view e) /\ t' = t
      | _, _ => False
      end
    else r = skipn c (y_GIDArea old).

Definition v2_after (back : list byte) (n : nat) (old new : ProposalV2) : Prop :=
  let L := N.to_nat (declared back) in
  let reads := (8 <=? n) && (80 <=? length back) && (84 <=? L) in
  (if reads && has_ip back && (92 <=? L)
   then ip_after L back n 80 (p2_IP old) (p2_IP new)
   else p2_IP new = p2_IP old) /\
  (if reads && ip_passed L back n && has_ext back && (v2_ext_start L back + 44 <=? L)
   then ext_after L back n (p2_Ext old) (p2_Ext new)
   else p2_Ext new = p2_Ext old) /\
  (if reads && ip_passed L back n && ext_passed L back n && has_smcd back &&
      (v2_smcd_start L back + 52 <=? L)
   then smcd_after L back n (p2_SMCD old) (p2_SMCD new)
   else p2_SMCD new = p2_SMCD old).
