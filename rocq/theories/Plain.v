(** * Plain: printable texts. Specification only. *)

From Coq Require Import NArith Bool String Ascii Arith List.
From Verif Require Import GoBase ClcModel Show.
Import ListNotations.
Local Open Scope string_scope.

(** printable characters of ASCII, from blank to tilde *)
Definition visible (c : ascii) : bool := ((32 <=? N_of_ascii c) && (N_of_ascii c <=? 126))%N.

Fixpoint plain (s : string) : bool :=
  match s with
  | EmptyString => true
  | String c s => visible c && plain s
  end.

(** [k] lines of printable characters, each with a newline at its end *)
Definition newline : string := String (ascii_of_nat 10) "".
Definition lines (s : string) (k : nat) : Prop :=
  exists ls, s = String.concat "" (map (fun l => l ++ newline) ls) /\ Forall (fun l => plain l = true) ls /\
    List.length ls = k.

(** The names (EIDs, system EID, host name) that are part of the text of a message. Only these are
    shown as they were received. *)
Definition shown_names (msg : Message) : list (list byte) :=
  match msg with
  | MAcceptSMCDv2 a | MConfirmSMCDv2 (mkConfirmSMCDv2 a) =>
    a2_EID a :: (if (114 <=? h_Length (a2_Header a))%N then [a2_Hostname a] else [])
  | MProposalV2 p =>
    let path := h_Pathv2 (p2_Header p) in
    (if (path =? SMCTypeN)%N then []
     else firstn (N.to_nat (x_EIDNumber (p2_Ext p))) (x_EIDArea (p2_Ext p))) ++
    (if ((path =? SMCTypeD) || (path =? SMCTypeB))%N then [y_SEID (p2_SMCD p)] else [])
  | _ => []
  end%list.

(** every byte of the name in front of the first zero byte is printable *)
Definition plain_name (e : list byte) : Prop := forall b, In b (before_nul e) -> (32 <= b2n b <= 126)%N.

(** a log entry is one line, or lines (the log package adds a newline where there is none) *)
Definition log_entry (s : string) : Prop := plain s = true \/ exists k, lines s k.
