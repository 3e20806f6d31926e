(** * RaceSpec: what it means that two steps of the process race.

    Not in terms of the code of the buffer, but of what a step changes and on
    what it depends. *)

From Coq Require Import NArith Bool String Arith List.
From Verif Require Import GoBase HttpModel.
Import ListNotations.
Local Open Scope nat_scope.

(** The memory goroutines share: the field [buffer] of the server's Buffer
    (buffer.go:11, in essence a slice) and the bytes of all arrays. *)
Inductive loc := TheBuffer | Elem (a i : nat).

Inductive val := VBuffer (b : bbuf) | VByte (b : option byte).

Definition value (s : state) (l : loc) : val :=
  match l with
  | TheBuffer => VBuffer (buf s)
  | Elem a i => VByte (nth_error (heap s a) i)
  end.

(** The two states differ at most in the value at [l]. *)
Record only_differ (l : loc) (s s' : state) : Prop := {
  od_lock : lock s = lock s';
  od_thr : forall t, thr s t = thr s' t;
  od_ids : ids s = ids s';
  od_owned : owned s = owned s';
  od_fresh : fresh s = fresh s';
  od_size : forall a, List.length (heap s a) = List.length (heap s' a);
  od_value : forall l', l' <> l -> value s l' = value s' l' }.

(** In state [s], [ch] writes [l]: it changes the value at [l], at least if
    another value is there. *)
Definition writes (s : state) (ch : choice) (l : loc) : Prop :=
  exists s0 s0' ev, only_differ l s s0 /\ step s0 ch = Some (s0', ev) /\
    value s0' l <> value s0 l.

(** The same happened, except that a difference at [l] is still there. *)
Definition same_effect (l : loc) (r r' : option (state * list event)) : Prop :=
  match r, r' with
  | Some (s, ev), Some (s', ev') => only_differ l s s' /\ ev = ev'
  | None, None => True
  | _, _ => False
  end.

(** In state [s], [ch] reads [l]: what it does depends on the value at [l]. *)
Definition reads (s : state) (ch : choice) (l : loc) : Prop :=
  exists s0, only_differ l s s0 /\ ~ same_effect l (step s ch) (step s0 ch).

(** Who does it; [None] is client code that changes a copy it got. *)
Definition actor (ch : choice) : option nat :=
  match ch with
  | Call t _ | Request t _ | Step t _ => Some t
  | Poke _ _ _ => None
  end.

(** Two goroutines are about to access the same location, at least one of them
    to write it. *)
Definition race (s : state) (ch1 ch2 : choice) (l : loc) : Prop :=
  writes s ch1 l /\ (writes s ch2 l \/ reads s ch2 l).
