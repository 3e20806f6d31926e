(** * Steps: tactics that execute model code symbolically. Proofs only. *)

From Coq Require Import NArith ZArith Bool String Arith List Lia.
From Coq Require Import ZifyBool ZifyNat ZifyN.
From Verif Require Import GoBase ClcModel LlcModel Slices Wire WireLemmas ClcView.
Import ListNotations.
Local Open Scope nat_scope.

Ltac Zify.zify_post_hook ::= Z.div_mod_to_equations.

Lemma zeros_length n : length (zeros n) = n.
Proof. apply repeat_length. Qed.

(** side conditions: bounds, array lengths *)
Ltac side :=
  unfold PeerIDLen, EIDLen, EyecatcherLen, HeaderLen, TrailerLen, header_wf in *;
  rewrite ?zeros_length; cbn [s_len sub]; lia.

(** execute the first bounds-checked operation at the head of the goal *)
Ltac op_ok m buf Hok :=
  repeat rewrite bind_assoc;
  match goal with
  | |- bind (idx m (sub buf ?o ?l) ?i) _ = _ => rewrite (idx_sub m buf Hok o l i) by side
  | |- bind (from (sub buf ?o ?l) ?k) _ = _ => rewrite (from_sub buf o l k) by side
  | |- bind (upto (sub buf ?o ?l) ?k) _ = _ => rewrite (upto_sub buf o l k) by side
  | |- bind (reslice (sub buf ?o ?l) ?lo ?hi) _ = _ => rewrite (reslice_sub buf o l lo hi) by side
  | |- bind (last_n (sub buf ?o ?l) ?k) _ = _ => rewrite (last_sub buf o l k) by side
  | |- bind (drop_last_n (sub buf ?o ?l) ?k) _ = _ => rewrite (drop_last_sub buf o l k) by side
  | |- bind (copy_from m ?d (sub buf ?o ?l) ?lo ?hi) _ = _ =>
      rewrite (copy_sub m buf Hok d o l lo hi) by side
  | |- bind (be16 m (sub buf ?o ?l) ?lo ?hi) _ = _ => rewrite (be16_sub m buf Hok o l lo hi) by side
  | |- bind (be32 m (sub buf ?o ?l) ?lo ?hi) _ = _ => rewrite (be32_sub m buf Hok o l lo hi) by side
  | |- bind (be64 m (sub buf ?o ?l) ?lo ?hi) _ = _ => rewrite (be64_sub m buf Hok o l lo hi) by side
  | |- bind (be24 m (sub buf ?o ?l)) _ = _ => rewrite (be24_sub m buf Hok o l) by side
  end.

(** execute it whether or not it is in bounds; [fin] finishes the panicking branch *)
Ltac op_any m buf Hok fin :=
  repeat rewrite bind_assoc;
  first
  [ op_ok m buf Hok
  | match goal with
    | |- bind (idx m (sub buf ?o ?l) ?i) _ = _ =>
        destruct (le_lt_dec l i); [rewrite (idx_sub_panic m buf o l i) by side; fin|]
    | |- bind (from (sub buf ?o ?l) ?k) _ = _ =>
        destruct (le_lt_dec k l); [|rewrite (from_sub_panic buf o l k) by side; fin]
    | |- bind (upto (sub buf ?o ?l) ?k) _ = _ =>
        destruct (le_lt_dec k (s_cap buf - o)); [|rewrite (upto_sub_panic buf o l k) by side; fin]
    | |- bind (last_n (sub buf ?o ?l) ?k) _ = _ =>
        destruct (le_lt_dec k l); [|rewrite (last_sub_panic buf o l k) by side; fin]
    | |- bind (drop_last_n (sub buf ?o ?l) ?k) _ = _ =>
        destruct (le_lt_dec k l); [|rewrite (drop_last_sub_panic buf o l k) by side; fin]
    | |- bind (copy_from m ?d (sub buf ?o ?l) ?lo ?hi) _ = _ =>
        destruct (le_lt_dec hi (s_cap buf - o));
        [|rewrite (copy_sub_panic m buf d o l lo hi) by side; fin]
    | |- bind (be16 m (sub buf ?o ?l) ?lo ?hi) _ = _ =>
        destruct (le_lt_dec hi (s_cap buf - o));
        [|rewrite (be16_sub_panic m buf o l lo hi) by side; fin]
    | |- bind (be32 m (sub buf ?o ?l) ?lo ?hi) _ = _ =>
        destruct (le_lt_dec hi (s_cap buf - o));
        [|rewrite (be32_sub_panic m buf o l lo hi) by side; fin]
    | |- bind (be64 m (sub buf ?o ?l) ?lo ?hi) _ = _ =>
        destruct (le_lt_dec hi (s_cap buf - o));
        [|rewrite (be64_sub_panic m buf o l lo hi) by side; fin]
    | |- bind (be24 m (sub buf ?o ?l)) _ = _ =>
        destruct (le_lt_dec 3 l); [|rewrite (be24_sub_panic m buf Hok o l) by side; fin]
    end; try (exfalso; side); op_ok m buf Hok ].

(** run all operations that are in bounds *)
Ltac run m buf Hok :=
  repeat (first [rewrite bind_ret | op_ok m buf Hok]; cbv beta zeta; cbn [Nat.add Nat.sub]).

(** run until some operation panics (the goal is [... = panic]) *)
Ltac run_panic m buf Hok :=
  repeat (first [rewrite bind_ret | op_any m buf Hok ltac:(reflexivity)];
          cbv beta zeta; cbn [Nat.add Nat.sub]).
