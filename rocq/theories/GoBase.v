(** * GoBase: the part of the Go language the modelled code relies on.

    Nothing in this file models a particular line of /repo; it models the Go
    runtime: bytes, memory, slices (with capacity), bounds checks that panic,
    [copy], and [encoding/binary.BigEndian].  It is part of the trusted base
    (see DESIGN.md). *)

From Coq Require Import List NArith Bool String Arith.
From Coq Require Export Strings.Byte.
Import ListNotations.
Local Open Scope nat_scope.

(** A Go [byte]/[uint8] is an element of the 256-element type [byte] of the
    standard library; [b2n] is its numeric value. *)
Definition b2n (b : byte) : N := Byte.to_N b.

(** [n2b n] is Go's conversion [byte(n)]: truncation modulo 256. *)
Definition n2b (n : N) : byte :=
  match Byte.of_N (n mod 256) with Some b => b | None => x00 end.

(** ** Results of running Go code

    A run writes log lines (package [log], without time stamps) and then ends
    with a value, with a run-time panic, or with the exit of the whole process
    ([log.Fatal]). *)
Inductive outcome (A : Type) : Type :=
| Done (a : A)
| Panicked
| Exited.
Arguments Done {A} a.
Arguments Panicked {A}.
Arguments Exited {A}.

Definition M (A : Type) : Type := (list string * outcome A)%type.

Definition ret {A} (a : A) : M A := ([], Done a).
Definition panic {A} : M A := ([], Panicked).
Definition exit {A} : M A := ([], Exited).

Definition bind {A B} (x : M A) (f : A -> M B) : M B :=
  match x with
  | (l, Done a) => let (l', r) := f a in (l ++ l', r)
  | (l, Panicked) => (l, Panicked)
  | (l, Exited) => (l, Exited)
  end.

Declare Scope go_scope.
Delimit Scope go_scope with go.
Notation "'let*' x ':=' e 'in' k" := (bind e (fun x => k))
  (at level 200, x pattern, e at level 100, k at level 200) : go_scope.
Notation "e ;; k" := (bind e (fun _ => k))
  (at level 100, k at level 200, right associativity) : go_scope.
Open Scope go_scope.

(** [log.Println(s)] / [log.Printf] with the formatted text [s]. *)
Definition log_ln (s : string) : M unit := ([s], Done tt).

(** ** Memory and slices

    A memory maps array identities to the contents of the array.  A slice is a
    window of [s_len] bytes at offset [s_off], which may be extended up to
    [s_cap] bytes by re-slicing. *)
Definition mem := nat -> list byte.

Record slice := mkslice {
  s_arr : nat;   (* identity of the backing array *)
  s_off : nat;   (* offset of the first byte in it *)
  s_len : nat;
  s_cap : nat }.

(** The zero value of a slice type: [nil]. *)
Definition nil_slice : slice := mkslice 0 0 0 0.

(** What the Go runtime guarantees about every slice value. *)
Definition slice_ok (m : mem) (s : slice) : Prop :=
  s_len s <= s_cap s /\ s_off s + s_cap s <= List.length (m (s_arr s)).

(** The visible bytes [s[0:len(s)]]. *)
Definition s_bytes (m : mem) (s : slice) : list byte :=
  firstn (s_len s) (skipn (s_off s) (m (s_arr s))).

(** [s[i]]: panics unless [i < len(s)].  (The second [panic] is unreachable for
    slices satisfying [slice_ok].) *)
Definition idx (m : mem) (s : slice) (i : nat) : M byte :=
  if i <? s_len s then
    match nth_error (m (s_arr s)) (s_off s + i) with
    | Some b => ret b
    | None => panic
    end
  else panic.

(** [s[lo:hi]]: panics unless [lo <= hi <= cap(s)]; note: capacity, not length. *)
Definition reslice (s : slice) (lo hi : nat) : M slice :=
  if (lo <=? hi) && (hi <=? s_cap s) then
    ret (mkslice (s_arr s) (s_off s + lo) (hi - lo) (s_cap s - lo))
  else panic.

(** [s[lo:]] is [s[lo:len(s)]]. *)
Definition from (s : slice) (lo : nat) : M slice := reslice s lo (s_len s).

(** [s[:hi]] is [s[0:hi]]. *)
Definition upto (s : slice) (hi : nat) : M slice := reslice s 0 hi.

(** [s[len(s)-n:]]: the lower bound is a Go [int] and panics when negative. *)
Definition last_n (s : slice) (n : nat) : M slice :=
  if s_len s <? n then panic else from s (s_len s - n).

(** [s[:len(s)-n]] *)
Definition drop_last_n (s : slice) (n : nat) : M slice :=
  if s_len s <? n then panic else upto s (s_len s - n).

(** [copy(dst[:], src)] for an array or freshly made slice [dst]: copies
    [min(len(dst), len(src))] bytes, the rest of [dst] keeps its value. *)
Definition go_copy (dst src : list byte) : list byte :=
  firstn (List.length dst) src ++ skipn (List.length src) dst.

(** [make([]byte, n)], and the zero value of [[n]byte]. *)
Definition zeros (n : nat) : list byte := repeat x00 n.

(** ** encoding/binary.BigEndian (on the bytes of a slice)

    The library functions first evaluate [b[w-1]] (bounds check), then combine
    the bytes with shifts and ors. *)
Definition Uint16 (m : mem) (s : slice) : M N :=
  let* _ := idx m s 1 in
  let* b1 := idx m s 1 in
  let* b0 := idx m s 0 in
  ret (N.lor (b2n b1) (N.shiftl (b2n b0) 8)).

Definition Uint32 (m : mem) (s : slice) : M N :=
  let* _ := idx m s 3 in
  let* b3 := idx m s 3 in
  let* b2 := idx m s 2 in
  let* b1 := idx m s 1 in
  let* b0 := idx m s 0 in
  ret (N.lor (N.lor (N.lor (b2n b3) (N.shiftl (b2n b2) 8))
                    (N.shiftl (b2n b1) 16))
             (N.shiftl (b2n b0) 24)).

Definition Uint64 (m : mem) (s : slice) : M N :=
  let* _ := idx m s 7 in
  let* b7 := idx m s 7 in
  let* b6 := idx m s 6 in
  let* b5 := idx m s 5 in
  let* b4 := idx m s 4 in
  let* b3 := idx m s 3 in
  let* b2 := idx m s 2 in
  let* b1 := idx m s 1 in
  let* b0 := idx m s 0 in
  ret (N.lor (N.lor (N.lor (N.lor (N.lor (N.lor (N.lor (b2n b7)
        (N.shiftl (b2n b6) 8)) (N.shiftl (b2n b5) 16)) (N.shiftl (b2n b4) 24))
        (N.shiftl (b2n b3) 32)) (N.shiftl (b2n b2) 40)) (N.shiftl (b2n b1) 48))
        (N.shiftl (b2n b0) 56)).
