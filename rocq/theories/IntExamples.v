(** * IntExamples: messages for the examples of PropsInt. *)

From Coq Require Import NArith ZArith Bool String Ascii Arith List.
From Verif Require Import GoBase GoFmt ClcModel Samples.
Import ListNotations.

(** [sample_proposal] with the IP area offset [hi], [lo] *)
Definition with_offset (hi lo : byte) : list byte :=
  firstn 38 sample_proposal ++ [hi; lo] ++ skipn 40 sample_proposal.

(** the first log line of a parse result; the number of prefixes and of log lines *)
Definition first_log (r : M Proposal) : string := hd ""%string (fst r).
Definition prefixes_logs (r : M Proposal) : option nat * nat :=
  (match snd r with Done p => Some (List.length (i_IPv6Prefixes (p_IP p))) | _ => None end, List.length (fst r)).

(** a proposal with 255 IPv6 prefixes *)
Definition proposal_255 : list byte :=
  [xe2; xd4; xc3; xd9; x01; x11; x2b; x10] ++ zeros 32 ++ zeros 7 ++ [xff] ++ zeros 4335 ++ [xe2; xd4; xc3; xd9].
