(** * Elsewhere: buffers with the same contents at different places. Specification only. *)

From Coq Require Import NArith Bool String Arith List.
From Verif Require Import GoBase GoFmt ClcModel LlcModel RoceModel Setters.
Import ListNotations.
Local Open Scope nat_scope.

(** everything that can be reached through a slice: its bytes up to the capacity *)
Definition window (m : mem) (s : slice) : list byte :=
  firstn (s_cap s) (skipn (s_off s) (m (s_arr s))).

(** two buffers, in two memories or at two places of one, that no program can tell apart by
    reading: same length, same capacity, same bytes up to the capacity *)
Definition same_window (m1 : mem) (s1 : slice) (m2 : mem) (s2 : slice) : Prop :=
  s_len s1 = s_len s2 /\ s_cap s1 = s_cap s2 /\ window m1 s1 = window m2 s2.

(** a message object with another buffer in its field Raw *)
Definition with_Raw (v : slice) (msg : Message) : Message :=
  match msg with
  | MProposal p => MProposal (set_p_Raw v p)
  | MProposalV2 p => MProposalV2 (set_p2_Raw v p)
  | MAcceptSMCR a => MAcceptSMCR (set_ar_Raw v a)
  | MAcceptSMCD a => MAcceptSMCD (set_ad_Raw v a)
  | MAcceptSMCDv2 a => MAcceptSMCDv2 (set_a2_Raw v a)
  | MConfirmSMCR c => MConfirmSMCR (mkConfirmSMCR (set_ar_Raw v (cr_Accept c)))
  | MConfirmSMCD c => MConfirmSMCD (mkConfirmSMCD (set_ad_Raw v (cd_Accept c)))
  | MConfirmSMCDv2 c => MConfirmSMCDv2 (mkConfirmSMCDv2 (set_a2_Raw v (c2_Accept c)))
  | MDecline d => MDecline (set_d_Raw v d)
  | MDeclineV2 d => MDeclineV2 (set_d2_Raw v d)
  end.

(** two results with the same lines logged and the same end; results [a1] and [a2] of the two
    are related by [R] *)
Definition alike {A1 A2} (R : A1 -> A2 -> Prop) (x1 : M A1) (x2 : M A2) : Prop :=
  fst x1 = fst x2 /\
  match snd x1, snd x2 with
  | Done a1, Done a2 => R a1 a2
  | Panicked, Panicked => True
  | Exited, Exited => True
  | _, _ => False
  end.

(** two CLC objects parsed from buffers [s1] and [s2]: each holds its own buffer, all else is
    the same *)
Definition same_clc (s1 s2 : slice) (new1 new2 : Message) : Prop :=
  Message_Raw new1 = s1 /\ Message_Raw new2 = s2 /\ with_Raw s2 new1 = new2.

(** two RoCE packets: the ICRCs are the same bytes, all else is the same *)
Definition same_packet (m1 m2 : mem) (r1 r2 : RoCE) : Prop :=
  r_Type r1 = r_Type r2 /\ r_GRH r1 = r_GRH r2 /\ r_BTH r1 = r_BTH r2 /\ r_LLC r1 = r_LLC r2 /\
  same_window m1 (r_ICRC r1) m2 (r_ICRC r2).
