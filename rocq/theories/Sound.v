(** * Sound: what a sound CLC message is. Specification only.

    A message that is complete in its buffer ([declared bs] = length of [bs]) is sound if
    it has at least the length of its kind, all parts it announces are inside of it, it
    announces no more EIDs and GIDs than an object can hold, and it ends in a known
    eyecatcher.  Unlike in ClcView.v, positions follow from the announced numbers alone. *)

From Coq Require Import NArith Bool String Arith List.
From Verif Require Import GoBase ClcModel Wire ClcView Show.
Import ListNotations.
Local Open Scope list_scope.
Local Open Scope nat_scope.

(** v1 Proposal: IP area, the announced prefixes and the trailer *)
Definition sound_v1 (bs : list byte) : Prop :=
  let ip := ip_area_start bs in
  ip + 8 + 17 * prefix_count bs ip + 4 <= length bs.

(** v2 Proposal: the positions of the v2 extension and of the SMC-D v2 extension *)
Definition ext_at (bs : list byte) : nat :=
  if has_ip bs then 80 + 8 + 17 * prefix_count bs 80 else 80.
Definition eids_at (bs : list byte) : nat := N.to_nat (bits bs (8 * ext_at bs) 8).
Definition gids_at (bs : list byte) : nat := N.to_nat (bits bs (8 * (ext_at bs + 1)) 8).
Definition smcd_at (bs : list byte) : nat := ext_at bs + 40 + 32 * eids_at bs.

Definition sound_v2 (bs : list byte) : Prop :=
  (has_ip bs = true -> 80 + 8 + 17 * prefix_count bs 80 + 4 <= length bs) /\
  (has_ext bs = true -> ext_at bs + 40 + 32 * eids_at bs + 4 <= length bs /\ eids_at bs <= 8) /\
  (has_smcd bs = true -> smcd_at bs + 48 + 10 * gids_at bs + 4 <= length bs /\ gids_at bs <= 8).

Definition sound (k : clc_kind) (bs : list byte) : Prop :=
  N.to_nat (min_length k) <= length bs /\ is_eyecatcher (last4 bs) = true /\
  match k with
  | KProposal => sound_v1 bs
  | KProposalV2 => sound_v2 bs
  | _ => True
  end.

(** the text of a sound message *)
Definition sound_text (res : bool) (k : clc_kind) (bs : list byte) : string :=
  match k with
  | KProposal =>
    let ip := ip_area_start bs in
    bytes_text res bs
      (clc_items res proposal_rows (decode_at proposal_body 64 bs) ++
       (if (ip_area_offset bs =? 40)%N
        then clc_items res proposal_smcd_rows (decode_at proposal_smcd_body (8 * 40) bs) else []) ++
       clc_items res ip_area_rows (decode_at ip_area_body (8 * ip) bs) ++
       prefix_items res (entries ipv6_prefix_body (ip + 8) 17 (prefix_count bs ip) bs))
  | KProposalV2 =>
    bytes_text res bs
      (clc_items res proposalv2_rows (decode_at proposalv2_body 64 bs) ++
       (if has_ip bs then
          clc_items res ip_area_rows (decode_at ip_area_body (8 * 80) bs) ++
          prefix_items res (entries ipv6_prefix_body 88 17 (prefix_count bs 80) bs)
        else []) ++
       (if has_ext bs then
          clc_items res v2_extension_rows (decode_at v2_extension_body (8 * ext_at bs) bs) ++
          [eid_area (N.of_nat (eids_at bs))
             (map (fun k => bytes_at bs (ext_at bs + 40 + 32 * k) 32) (seq 0 (eids_at bs)))]
        else []) ++
       (if has_smcd bs then
          clc_items res smcdv2_extension_rows (decode_at smcdv2_extension_body (8 * smcd_at bs) bs) ++
          [gid_area (N.of_nat (gids_at bs))
             (entries gid_entry_body (smcd_at bs + 48) 10 (gids_at bs) bs)]
        else []))
  | _ => fixed_text res k bs
  end.
