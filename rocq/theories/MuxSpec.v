(** * MuxSpec: clean paths, and the clean form of a path, in terms of the segments of the path. *)

From Coq Require Import Bool String Ascii Arith List.
Import ListNotations.

(** the texts between the slashes *)
Fixpoint segments (p : list ascii) : list (list ascii) :=
  match p with
  | [] => [[]]
  | c :: r =>
    if ascii_dec c "/" then [] :: segments r
    else match segments r with
         | s :: ss => (c :: s) :: ss
         | [] => [[c]]
         end
  end.

(** a segment that names something *)
Definition name (s : list ascii) : Prop := s <> [] /\ s <> ["."%char] /\ s <> ["."%char; "."%char].

(** A clean path starts with a slash; its segments are names, but for the last, which may be empty. *)
Definition is_clean (p : list ascii) : Prop :=
  exists q, p = "/"%char :: q /\
    exists init z, segments q = init ++ [z] /\ Forall name init /\ (name z \/ z = []).

(** the segments with the parents taken, last first *)
Definition walk (at_ : list (list ascii)) (s : list ascii) : list (list ascii) :=
  if list_eq_dec ascii_dec s [] then at_
  else if list_eq_dec ascii_dec s ["."%char] then at_
  else if list_eq_dec ascii_dec s ["."%char; "."%char] then tl at_
  else s :: at_.
Definition resolved (p : list ascii) : list (list ascii) := rev (fold_left walk (segments p) []).

Fixpoint join (ss : list (list ascii)) : list ascii :=
  match ss with
  | [] => []
  | [s] => s
  | s :: rest => s ++ "/"%char :: join rest
  end.

(** the clean form of a path: the resolved segments, and a slash behind them if the path ends with one *)
Definition clean_form (p : list ascii) : list ascii :=
  "/"%char :: join (resolved p) ++
  match resolved p with
  | [] => []
  | _ => if ascii_dec (last p " "%char) "/" then ["/"%char] else []
  end.

(** queries that are sent as they are when a client follows a redirect *)
Definition ascii_query (q : string) : Prop :=
  Forall (fun c => c <> "#"%char /\ nat_of_ascii c < 128) (list_ascii_of_string q).

(** the characters that may stand for themselves in the path of a URL; the others are written as '%'
    and two hexadecimal digits *)
Definition path_characters : list ascii :=
  list_ascii_of_string "ABCDEFGHIJKLMNOPQRSTUVWXYZabcdefghijklmnopqrstuvwxyz0123456789-_.~$&+,/:;=@".
Definition digit (n : nat) : ascii := nth n (list_ascii_of_string "0123456789ABCDEF") " "%char.
Definition coded (c : ascii) : list ascii :=
  if in_dec ascii_dec c path_characters then [c]
  else ["%"%char; digit (nat_of_ascii c / 16); digit (nat_of_ascii c mod 16)].
