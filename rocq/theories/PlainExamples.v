(** * PlainExamples: messages for the examples of PropsPlain.v. *)

From Coq Require Import NArith ZArith Bool String Ascii Arith List.
From Verif Require Import GoBase GoFmt Samples Plain.
Import ListNotations.

(** an Accept whose EID is [name] *)
Definition accept_with (name : list byte) : list byte :=
  firstn 34 sample_accept_d2 ++ name ++ skipn (34 + length name) sample_accept_d2.

(** "A", newline, "Decline: Eyecatcher: SMC-R", escape, "[2J" *)
Definition forged : list byte :=
  [x41; x0a] ++ map byte_of_ascii (list_ascii_of_string "Decline: Eyecatcher: SMC-R") ++ [x1b; x5b; x32; x4a].

(** the text behind the first newline *)
Fixpoint second_line (s : string) : string :=
  match s with
  | EmptyString => EmptyString
  | String c s => if Ascii.eqb c (ascii_of_nat 10) then s else second_line s
  end.
