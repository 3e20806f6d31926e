(** * MuxModel: which requests reach the handler of the HTTP server.

    StartServer registers handleRequest for the pattern "/" with the default ServeMux
    (pkg/http/http.go:46) and serves it (:47). The functions below are those of Go 1.23 that decide
    what happens to a request: [ServeMux.ServeHTTP], [ServeMux.findHandler] and [cleanPath]
    (net/http/server.go), [path.Clean], [http.Redirect], [url.URL.String]. They were written from
    knowledge of that library; its source was not at hand to compare them with, so they are part of
    the trusted base. The program registers no other
    handlers; requests with method CONNECT are left out. *)

From Coq Require Import NArith Bool String Ascii Arith List.
From Verif Require Import GoBase.
Import ListNotations.

Notation str := (list ascii).
Definition slash : ascii := "/"%char.
Definition dot : ascii := "."%char.

(** ** path.Clean, for paths that start with a slash *)

(** [path[r]] and what follows up to the next slash, and the rest *)
Fixpoint element (p : str) : str * str :=
  match p with
  | [] => ([], [])
  | c :: r => if Ascii.eqb c slash then ([], p) else let (e, rest) := element r in (c :: e, rest)
  end.

(** [out.w--; for out.w > dotdot && out.index(out.w) != '/' { out.w-- }]; [out] is the output behind
    the first slash, last character first *)
Fixpoint backtrack (out : str) : str :=
  match out with
  | [] => []
  | c :: r => if Ascii.eqb c slash then r else backtrack r
  end.

(** is the end of the path or a slash next? *)
Definition at_end (p : str) : bool := match p with [] => true | c :: _ => Ascii.eqb c slash end.

(** [for r < n { switch ... }]; [p] is [path[r:]] *)
Fixpoint clean_loop (fuel : nat) (p out : str) : str :=
  match fuel, p with
  | O, _ | _, [] => out
  | S fuel, c :: r =>
    if Ascii.eqb c slash then clean_loop fuel r out                                  (* empty path element *)
    else if Ascii.eqb c dot && at_end r then clean_loop fuel r out                   (* . element *)
    else
      match r with
      | c' :: r' =>
        if Ascii.eqb c dot && Ascii.eqb c' dot && at_end r' then clean_loop fuel r' (backtrack out)   (* .. element *)
        else let (e, rest) := element p in
             clean_loop fuel rest (rev e ++ match out with [] => [] | _ => slash :: out end)
      | [] => let (e, rest) := element p in
              clean_loop fuel rest (rev e ++ match out with [] => [] | _ => slash :: out end)
      end
  end.

Definition Clean (p : str) : str := slash :: rev (clean_loop (length p) (tl p) []).

(** ** net/http *)

Definition ends_with_slash (p : str) : bool := Ascii.eqb (last p " "%char) slash.

(** cleanPath *)
Definition cleanPath (p : str) : str :=
  match p with
  | [] => [slash]
  | c :: _ =>
    let p := if Ascii.eqb c slash then p else slash :: p in
    let np := Clean p in
    if ends_with_slash p && negb (if list_eq_dec ascii_dec np [slash] then true else false) then np ++ [slash]
    else np
  end.

(** a request: is its URI "*"?, [r.URL.EscapedPath()], [r.URL.RawQuery] *)
Record request := mkrequest { q_star : bool; q_path : str; q_query : string }.

Inductive answer :=
| BadRequest                               (* status 400 *)
| Moved (path : str) (query : string)      (* status 301 *)
| Handled (query : string).                (* handleRequest is called *)

(** ServeMux.ServeHTTP, findHandler, matchOrRedirect with the pattern "/", which matches all paths *)
Definition ServeMux (r : request) : answer :=
  if q_star r then BadRequest
  else
    let path := cleanPath (q_path r) in
    if list_eq_dec ascii_dec path (q_path r) then Handled (q_query r)
    else Moved path (q_query r).

(** url.shouldEscape for paths *)
Definition should_escape (c : ascii) : bool :=
  let n := N_of_ascii c in
  negb (((48 <=? n) && (n <=? 57) || (65 <=? n) && (n <=? 90) || (97 <=? n) && (n <=? 122))%N ||
        existsb (Ascii.eqb c) ["-"; "_"; "."; "~"; "$"; "&"; "+"; ","; "/"; ":"; ";"; "="; "@"]%char).

(** "0123456789ABCDEF"[n] *)
Definition upper_hex (n : N) : ascii := ascii_of_N (if n <? 10 then 48 + n else 55 + n)%N.

(** url.escape *)
Definition escape_char (c : ascii) : str :=
  if should_escape c then ["%"%char; upper_hex (N_of_ascii c / 16); upper_hex (N_of_ascii c mod 16)] else [c].
Definition escape (p : str) : str := flat_map escape_char p.

(** http.Redirect: the path of the Location *)
Definition Redirect (p : str) : str :=
  let c := Clean p in
  if ends_with_slash p && negb (ends_with_slash c) then c ++ [slash] else c.

(** http.hexEscapeNonASCII *)
Definition lower_hex (n : N) : ascii := ascii_of_N (if n <? 10 then 48 + n else 87 + n)%N.
Definition hex_char (c : ascii) : str :=
  if (N_of_ascii c <? 128)%N then [c]
  else ["%"%char; lower_hex (N_of_ascii c / 16); lower_hex (N_of_ascii c mod 16)].

(** what a client takes for the query of the Location: the fragment is not sent *)
Fixpoint no_fragment (q : str) : str :=
  match q with
  | [] => []
  | c :: r => if Ascii.eqb c "#"%char then [] else c :: no_fragment r
  end.
Definition sent (q : string) : string :=
  string_of_list_ascii (no_fragment (flat_map hex_char (list_ascii_of_string q))).

(** the request of a client that follows the answer *)
Definition follow (path : str) (query : string) : request :=
  mkrequest false (Redirect (escape path)) (sent query).
