(** * Areas: the areas of variable size of Proposals that a panicking Parse leaves behind.
    Specification only. *)

From Coq Require Import NArith Bool String Arith List.
From Verif Require Import GoBase ClcModel Wire ClcView Recover.
Import ListNotations.
Local Open Scope string_scope.
Local Open Scope list_scope.
Local Open Scope nat_scope.

(** the fields [old] of the area with format [l] at byte [start] became [new]: those that the
    buffer contains are decoded, the others are as they were (the first of them: see
    [torn_field]) *)
Definition area_left (l : layout) (bs : list byte) (start : nat) (old new : list (string * val))
  : Prop :=
  let rest := skipn start bs in
  exists k, complete l rest k /\
    firstn k new = firstn k (decode_at l (8 * start) bs) /\
    skipn k new = torn_fields l k rest old.

(** how many of [n] entries of [size] bytes from byte [start] on the buffer contains *)
Definition present (bs : list byte) (start size n : nat) : nat :=
  Nat.min n ((length bs - start) / size).

(** the IP area at byte [start] of a message of [L] bytes; the prefixes are appended to those
    that the object held *)
Definition ip_left (L : nat) (bs : list byte) (start : nat) (old new : IPInfo) : Prop :=
  let c := present bs (start + 8) 17 (fitting L (start + 8) 17 (prefix_count bs start)) in
  area_left ip_area_body bs start (ip_area_view old) (ip_area_view new) /\
  exists l, i_IPv6Prefixes new = i_IPv6Prefixes old ++ l /\
    map ipv6_prefix_view l = entries ipv6_prefix_body (start + 8) 17 c bs.

(** ** v1 Proposals *)

Definition v1_left (bs : list byte) (old new : Proposal) : Prop :=
  let n := length bs in
  let L := N.to_nat (declared bs) in
  let reads := (40 <=? n) && (52 <=? L) in
  let smcd := (ip_area_offset bs =? 40)%N in
  (if reads && smcd
   then area_left proposal_smcd_body bs 40 (proposal_smcd_view old) (proposal_smcd_view new)
   else proposal_smcd_view new = proposal_smcd_view old) /\
  (if reads && (negb smcd || (80 <=? n)) && (ip_area_start bs + 12 <=? L)
   then ip_left L bs (ip_area_start bs) (p_IP old) (p_IP new)
   else p_IP new = p_IP old).

(** ** v2 Proposals *)

(** [n] of [c] announced entries fit into the message of [L] bytes; if there are too few, Parse
    logs all [L] bytes, and goes on if the buffer contains them *)
Definition goes_on (L : nat) (bs : list byte) (n c : nat) : bool := (c <=? n) || (L <=? length bs).

(** Parse gets behind the IP area *)
Definition ip_over (L : nat) (bs : list byte) : bool :=
  negb (has_ip bs) ||
  ((92 <=? L) && (v2_ext_start L bs <=? length bs) &&
   goes_on L bs (v2_prefixes L bs) (prefix_count bs 80)).

(** Parse gets behind the extension, whose array has room for eight EIDs *)
Definition ext_over (L : nat) (bs : list byte) : bool :=
  negb (has_ext bs) ||
  ((v2_ext_start L bs + 44 <=? L) && (v2_smcd_start L bs <=? length bs) && (v2_eids L bs <=? 8) &&
   goes_on L bs (v2_eids L bs) (v2_eid_count L bs)).

Definition ext_left (L : nat) (bs : list byte) (old new : V2Ext) : Prop :=
  let start := v2_ext_start L bs in
  let c := present bs (start + 40) 32 (Nat.min 8 (v2_eids L bs)) in
  area_left v2_extension_body bs start (v2_extension_view old) (v2_extension_view new) /\
  x_EIDArea new
  = map (fun k => bytes_at bs (start + 40 + 32 * k) 32) (seq 0 c) ++ skipn c (x_EIDArea old).

(** of the first incomplete GID entry, the GID may be there *)
Definition smcd_left (L : nat) (bs : list byte) (old new : SMCDExt) : Prop :=
  let start := v2_smcd_start L bs in
  let n := Nat.min 8 (v2_gids L bs) in
  let c := present bs (start + 48) 10 n in
  area_left smcdv2_extension_body bs start (smcdv2_extension_view old) (smcdv2_extension_view new) /\
  exists l r, y_GIDArea new = l ++ r /\
    map gid_entry_view l = entries gid_entry_body (start + 48) 10 c bs /\
    if c <? n then
      match skipn c (y_GIDArea old), r with
      | e :: t, e' :: t' =>
        area_left gid_entry_body bs (start + 48 + 10 * c) (gid_entry_view e) (gid_entry_view e') /\
        t' = t
      | _, _ => False
      end
    else r = skipn c (y_GIDArea old).

Definition v2_left (bs : list byte) (old new : ProposalV2) : Prop :=
  let n := length bs in
  let L := N.to_nat (declared bs) in
  let reads := (80 <=? n) && (84 <=? L) in
  (if reads && has_ip bs && (92 <=? L)
   then ip_left L bs 80 (p2_IP old) (p2_IP new)
   else p2_IP new = p2_IP old) /\
  (if reads && ip_over L bs && has_ext bs && (v2_ext_start L bs + 44 <=? L)
   then ext_left L bs (p2_Ext old) (p2_Ext new)
   else p2_Ext new = p2_Ext old) /\
  (if reads && ip_over L bs && ext_over L bs && has_smcd bs && (v2_smcd_start L bs + 52 <=? L)
   then smcd_left L bs (p2_SMCD old) (p2_SMCD new)
   else p2_SMCD new = p2_SMCD old).
