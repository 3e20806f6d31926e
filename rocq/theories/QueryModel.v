(** * QueryModel: how pkg/http decides whether a request flushes.

    Models pkg/http/http.go:29-30 on the raw query of the request's URL, and
    the functions of net/url it calls ([URL.Query], [ParseQuery],
    [QueryUnescape], [Values.Get]; Go 1.23). *)

From Coq Require Import NArith Bool String Ascii Arith List.
Import ListNotations.
Local Open Scope string_scope.

(** [strings.Cut(s, sep)] for a separator of one character: the text before
    and after the first [sep], and whether there was one. *)
Fixpoint cut (sep : ascii) (s : string) : string * string * bool :=
  match s with
  | EmptyString => ("", "", false)
  | String c s' =>
    if Ascii.eqb c sep then ("", s', true)
    else let '(before, after, found) := cut sep s' in
         (String c before, after, found)
  end.

(** [strings.Contains(s, ";")] and the like, for one character. *)
Fixpoint contains (x : ascii) (s : string) : bool :=
  match s with
  | EmptyString => false
  | String c s' => Ascii.eqb c x || contains x s'
  end.

(** net/url [ishex] and [unhex]: the value of a hexadecimal digit. *)
Definition unhex (c : ascii) : option N :=
  let n := N_of_ascii c in
  if (48 <=? n)%N && (n <=? 57)%N then Some (n - 48)%N
  else if (97 <=? n)%N && (n <=? 102)%N then Some (n - 97 + 10)%N
  else if (65 <=? n)%N && (n <=? 70)%N then Some (n - 65 + 10)%N
  else None.

(** [url.QueryUnescape(s)]: [None] stands for the error.  (Go first checks all
    escapes and then translates; both passes are one here, which is the same
    because nothing is returned besides the error when a check fails.) *)
Fixpoint QueryUnescape (s : string) : option string :=
  match s with
  | EmptyString => Some ""
  | String c s' =>
    if Ascii.eqb c "%"%char then
      match s' with
      | String h (String l s'') =>
        match unhex h, unhex l with
        | Some vh, Some vl =>
          match QueryUnescape s'' with
          | Some t => Some (String (ascii_of_N (vh * 16 + vl)) t)
          | None => None
          end
        | _, _ => None
        end
      | _ => None
      end
    else
      match QueryUnescape s' with
      | Some t => Some (String (if Ascii.eqb c "+"%char then " "%char else c) t)
      | None => None
      end
  end.

(** [url.Values]: a map from keys to the list of their values; here the list
    of (key, value) in the order of insertion.  [Values.Get(key)] is the first
    value of the key, or the empty string. *)
Definition Values := list (string * string).

Definition Get (key : string) (m : Values) : string :=
  match find (fun kv => String.eqb (fst kv) key) m with
  | Some (_, v) => v
  | None => ""
  end.

(** The loop of net/url [parseQuery]; its errors are dropped by [URL.Query].
    [fuel] bounds the number of iterations; every iteration consumes a
    character of [query], so its length is enough. *)
Fixpoint parseQuery (fuel : nat) (query : string) (m : Values) : Values :=
  match fuel with
  | O => m
  | S fuel' =>
    if String.eqb query "" then m
    else
      let '(key, query', _) := cut "&"%char query in
      if contains ";"%char key then parseQuery fuel' query' m
      else if String.eqb key "" then parseQuery fuel' query' m
      else
        let '(k, v, _) := cut "="%char key in
        match QueryUnescape k with
        | None => parseQuery fuel' query' m
        | Some k' =>
          match QueryUnescape v with
          | None => parseQuery fuel' query' m
          | Some v' => parseQuery fuel' query' (m ++ [(k', v')])%list
          end
        end
  end.

(** [r.URL.Query()] for the raw query [raw] *)
Definition Query (raw : string) : Values :=
  parseQuery (String.length raw) raw [].

(** pkg/http/http.go:29-30: [flush := r.URL.Query().Get("flush")];
    [if flush == "true"] *)
Definition flushes (raw : string) : bool :=
  String.eqb (Get "flush" (Query raw)) "true".
