(** * Sizes: how long texts, dumps and logs are. Specification only. *)

From Coq Require Import NArith Bool String Arith List.
From Verif Require Import GoBase ClcModel LlcModel ClcView.
Import ListNotations.
Local Open Scope nat_scope.

(** ** Dumps *)

(** A line for 16 bytes has 79 characters: the offset and two blanks (10), three characters for
    each byte and two more (50), a bar, 16 characters, a bar and the end of the line.  The last line
    has fewer characters between its bars. *)
Definition dump_size (n : nat) : nat :=
  79 * (n / 16) + (if n mod 16 =? 0 then 0 else 63 + n mod 16).

(** ** Texts *)

(** the IPv6 prefixes that an object holds *)
Definition stored_prefixes (msg : Message) : nat :=
  match msg with
  | MProposal p => length (i_IPv6Prefixes (p_IP p))
  | MProposalV2 p => length (i_IPv6Prefixes (p2_IP p))
  | _ => 0
  end.

(** String() and Reserved() without the IPv6 prefixes *)
Definition clc_text_limits (k : clc_kind) : nat * nat :=
  match k with
  | KProposal => (372, 483)
  | KProposalV2 => (1278, 1554)
  | KAcceptSMCR | KConfirmSMCR => (473, 520)
  | KAcceptSMCD | KConfirmSMCD => (276, 362)
  | KAcceptSMCDv2 | KConfirmSMCDv2 => (415, 527)
  | KDecline => (239, 276)
  | KDeclineV2 => (262, 299)
  end.

Definition llc_text_limits (msg : LLCMessage) : nat * nat :=
  match msg with
  | LConfirm _ => (219, 283)
  | LAddLink _ => (275, 355)
  | LAddLinkCont _ => (205, 277)
  | LDeleteLink _ => (168, 284)
  | LConfirmRKey _ => (359, 421)
  | LConfirmRKeyCont _ => (375, 438)
  | LDeleteRKey _ => (276, 363)
  | LTestLink _ => (98, 192)
  | LCDC _ => (403, 506)
  | LOther _ => (14, 14)
  end.

(** ", IPv6 Prefix: ", an address of up to 39 characters, a slash and a length *)
Definition prefix_text_limit : nat := 58.

(** ** Logs *)

(** complaints that one Parse can make, two lines each: an area that is cut off ends a Proposal,
    so there is at most one more, about the area behind it or about the trailer *)
Definition complaints (k : clc_kind) : nat := if is_proposal k then 2 else 1.

(** A line has the heading of a dump (25 characters) and a dump of the message, or of a trailer. *)
Definition line_limit (declared_length : nat) : nat := 25 + dump_size (max 4 declared_length).
