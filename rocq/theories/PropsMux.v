(** * PropsMux: which requests reach the handler (C83).

    Vocabulary (MuxSpec.v): [is_clean p]: the path starts with a slash and its segments are names,
    neither "." nor "..", but for the last, which may be empty. [clean_form p]: the segments of [p]
    with empty and "." segments left out and the parents taken for "..", and a slash at the end if
    there was one. [coded c]: the character itself if it may stand in a path of a URL, else '%' and
    two hexadecimal digits. [ascii_query q]: ASCII characters without '#'. [free c q] (HttpSpec.v): [c] is not
    in [q]. [wants_flush q] (HttpSpec.v): the first well-formed parameter "flush" is "true". *)

From Coq Require Import NArith Bool String Ascii Arith List.
From Verif Require Import QueryModel HttpSpec MuxModel MuxSpec.
From Verif Require MuxFacts.
From Verif Require Import MuxExamples.
Import ListNotations.
Local Open Scope string_scope.

(** ** C83 *)

(** the handler is called exactly for the requests with a clean path, with the query as it was sent *)
Theorem C83_handled : forall r q,
  ServeMux r = Handled q <-> q_star r = false /\ is_clean (q_path r) /\ q = q_query r.
Proof. exact MuxFacts.handled_ok. Qed.
Print Assumptions C83_handled.

(** all other requests change nothing: they are redirected or refused *)
Theorem C83_moved : forall r p q,
  ServeMux r = Moved p q <->
  q_star r = false /\ ~ is_clean (q_path r) /\ p = clean_form (q_path r) /\ q = q_query r.
Proof. exact MuxFacts.moved_ok. Qed.
Print Assumptions C83_moved.

Theorem C83_refused : forall r, ServeMux r = BadRequest <-> q_star r = true.
Proof. exact MuxFacts.refused_ok. Qed.
Print Assumptions C83_refused.

(** where they are redirected to is clean *)
Theorem C83_clean : forall p, is_clean (clean_form p).
Proof. exact MuxFacts.form_clean. Qed.
Print Assumptions C83_clean.

(** a client that follows one redirect reaches the handler, with the query it sent *)
Theorem C83_follow : forall r p q,
  ServeMux r = Moved p q -> ascii_query (q_query r) ->
  ServeMux (follow p q) = Handled (q_query r).
Proof. exact MuxFacts.follow_ascii. Qed.
Print Assumptions C83_follow.

(** the path of the Location is the clean form, with the characters coded that do not belong in a URL *)
Theorem C83_location : forall r p q,
  ServeMux r = Moved p q -> q_path (follow p q) = flat_map coded (clean_form (q_path r)).
Proof. exact MuxFacts.follow_location. Qed.
Print Assumptions C83_location.

(** whatever the query is, one redirect is enough to reach the handler *)
Theorem C83_follow_any : forall r p q,
  ServeMux r = Moved p q -> ServeMux (follow p q) = Handled (sent (q_query r)).
Proof. exact MuxFacts.follow_ok. Qed.
Print Assumptions C83_follow_any.

(** and without a '#' the handler finds the same parameters and flushes exactly if the client asked
    for it, also if the query had to be escaped on the way *)
Theorem C83_flush : forall r p q,
  ServeMux r = Moved p q -> free "#" (q_query r) ->
  exists q', ServeMux (follow p q) = Handled q' /\ Query q' = Query (q_query r) /\
             (flushes q' = true <-> wants_flush (q_query r)).
Proof. exact MuxFacts.follow_flush. Qed.
Print Assumptions C83_flush.

(** That the query always stays as it was sent is false: with a '#' a client that asked for a flush
    and follows the redirect has not asked for one any more. *)
Theorem C83_same_query_refuted : exists r p q,
  ServeMux r = Moved p q /\ flushes (q_query r) = true /\
  exists q', ServeMux (follow p q) = Handled q' /\ flushes q' = false.
Proof. exact MuxFacts.same_query_refuted. Qed.
Print Assumptions C83_same_query_refuted.

Example C83_ex_handled :
  map ServeMux [get "/" "flush=true"; get "/a/b/" ""; get "/..." ""; get "/a%2F..%2Fb" ""] =
  [Handled "flush=true"; Handled ""; Handled ""; Handled ""].
Proof. vm_compute. reflexivity. Qed.

Example C83_ex_moved :
  map ServeMux [get "" "flush=true"; get "//" "flush=true"; get "/a/../" ""; get "/a/./b//" "x"; get "/../../a" "";
                get "/a/b/.." ""; get "/." ""; get "/a/b/." ""] =
  [Moved (P "/") "flush=true"; Moved (P "/") "flush=true"; Moved (P "/") ""; Moved (P "/a/b/") "x"; Moved (P "/a") "";
   Moved (P "/a") ""; Moved (P "/") ""; Moved (P "/a/b") ""].
Proof. vm_compute. reflexivity. Qed.

Example C83_ex_refused : ServeMux (mkrequest true (P "*") "") = BadRequest.
Proof. reflexivity. Qed.

(** an escaped path is escaped once more *)
Example C83_ex_follow :
  ServeMux (get "//a%20b" "flush=true") = Moved (P "/a%20b") "flush=true" /\
  follow (P "/a%20b") "flush=true" = get "/a%2520b" "flush=true" /\
  ServeMux (get "/a%2520b" "flush=true") = Handled "flush=true".
Proof. vm_compute. repeat split. Qed.

Example C83_ex_location :
  ServeMux (get "//v1.2:x/" "") = Moved (P "/v1.2:x/") "" /\ flat_map coded (clean_form (P "//v1.2:x/")) = P "/v1.2:x/" /\
  flat_map coded (clean_form (P "/a/../b%/")) = P "/b%25/".
Proof. vm_compute. repeat split. Qed.

Example C83_ex_ascii : ascii_query "flush=true".
Proof. repeat constructor; try discriminate. Qed.

Example C83_ex_sent : sent "a=" = "a=" /\ sent (String (ascii_of_nat 233) "#b") = "%e9".
Proof. vm_compute. split; reflexivity. Qed.

Example C83_ex_segments : segments (P "a//b") = [P "a"; P ""; P "b"] /\ clean_form (P "/a/b/../c/") = P "/a/c/".
Proof. vm_compute. split; reflexivity. Qed.

Example C83_ex_flush : free "#" accents /\ sent accents = "caf%e9=%C3%a9&flush=true" /\
  Query (sent accents) = Query accents /\ flushes (sent accents) = true.
Proof. vm_compute. repeat split; discriminate. Qed.
