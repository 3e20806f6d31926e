(** * Contents: the fields of a sound CLC message. Specification only.

    A sound message (Sound.v) may be longer than its parts, and the IP area of a v1 Proposal
    may be anywhere behind byte 40; the bytes in between belong to no field. *)

From Coq Require Import NArith Bool String Arith List.
From Verif Require Import GoBase Wire ClcView Show Sound.
Import ListNotations.
Local Open Scope string_scope.
Local Open Scope list_scope.
Local Open Scope nat_scope.

Definition header_layout (k : clc_kind) : layout :=
  match k with KProposalV2 => clc_header_v2proposal | _ => clc_header end.

(** the parts between header and trailer, and where they start *)
Definition parts (k : clc_kind) (bs : list byte) : list (layout * nat) :=
  match k with
  | KProposal =>
    let ip := ip_area_start bs in
    [(proposal_body, 8)] ++
    (if (ip_area_offset bs =? 40)%N then [(proposal_smcd_body, 40)] else []) ++
    [(ip_area_body, ip); (concat (repeat ipv6_prefix_body (prefix_count bs ip)), ip + 8)]
  | KProposalV2 =>
    [(proposalv2_body, 8)] ++
    (if has_ip bs then [(ip_area_body, 80); (concat (repeat ipv6_prefix_body (prefix_count bs 80)), 88)] else []) ++
    (if has_ext bs then [(v2_extension_body, ext_at bs); (repeat ("EID", A 32) (eids_at bs), ext_at bs + 40)] else []) ++
    (if has_smcd bs
     then [(smcdv2_extension_body, smcd_at bs); (concat (repeat gid_entry_body (gids_at bs)), smcd_at bs + 48)]
     else [])
  | KAcceptSMCDv2 | KConfirmSMCDv2 =>
    [(accept_smcdv2_body, 8)] ++ (if (declared bs =? 114)%N then [(fce_body, 74)] else [])
  | _ => [(fixed_layout k, 8)]
  end.

Definition contents (k : clc_kind) (bs : list byte) : list (string * val) :=
  decode (header_layout k) bs ++
  concat (map (fun p => decode_at (fst p) (8 * snd p) bs) (parts k bs)) ++
  [("Trailer", VB (last4 bs))].
