(** * MuxExamples: paths and requests for the examples of PropsMux. *)

From Coq Require Import String Ascii List.
From Verif Require Import MuxModel.

Definition P (s : string) : list ascii := list_ascii_of_string s.
Definition get (path query : string) : request := mkrequest false (P path) query.

(** a query with bytes that are not ASCII *)
Definition accents : string :=
  ("caf" ++ String (ascii_of_nat 233) "=%C3" ++ String (ascii_of_nat 169) "&flush=true")%string.
