(** * Readable: text fields in messages. Specification only. *)

From Coq Require Import NArith Bool String Arith List.
From Verif Require Import GoBase Wire Show.
Import ListNotations.
Local Open Scope string_scope.
Local Open Scope list_scope.
Local Open Scope nat_scope.

(** the part of a text field in front of NULs and trailing blanks *)
Definition readable (e : list byte) : list byte := rev (drop_blanks (rev (before_nul e))).

(** the text fields *)
Definition is_text (name : string) : bool := existsb (String.eqb name) ["EID"; "SEID"; "Hostname"].

(** field values with the readable parts of the text fields *)
Definition readable_field (f : string * val) : string * val :=
  match f with
  | (n, VB e) => if is_text n then (n, VB (readable e)) else f
  | _ => f
  end.
Definition readable_fields (vs : list (string * val)) : list (string * val) := map readable_field vs.

(** no comma, bracket or newline in any readable part *)
Definition plain_texts (vs : list (string * val)) : Prop :=
  forall n e, In (n, VB e) vs -> is_text n = true ->
  forall b, In b [x2c; x5d; x0a] -> ~ In b (readable e).

(** text fields are filled up with [b], for example with blanks *)
Definition filled (b : byte) (vs : list (string * val)) : Prop :=
  forall n e, In (n, VB e) vs -> is_text n = true ->
  e = readable e ++ repeat b (length e - length (readable e)).
