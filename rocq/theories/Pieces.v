(** * Pieces: messages that arrive in pieces. Specification only. *)

From Coq Require Import NArith Bool String Arith List.
From Verif Require Import GoBase GoFmt ClcModel Wire ClcView Show Sound Samples.
Import ListNotations.
Local Open Scope nat_scope.

(** what a program can see of a message object *)
Definition seen : Type := clc_kind * string * string * string.
Definition see (m : mem) (msg : Message) : seen :=
  (kind_of msg, Message_String msg, Message_Reserved msg, Message_Dump m msg).

(** [s[:hi:hi]], which also limits the capacity *)
Definition upto_only (s : slice) (hi : nat) : M slice :=
  if hi <=? s_cap s then ret (mkslice (s_arr s) (s_off s) hi hi) else panic.

(** How a program reads from a connection: it keeps the bytes that belong to no complete message
    yet, appends every piece it receives, and takes all messages that are complete:

    for len(buf) >= 8 {
        msg, length := clc.NewMessage(buf)
        if msg == nil { break }
        if len(buf) < int(length) { break }     // wait for the rest
        msg.Parse(buf[:length:length])          // or buf[:length]
        report(msg)
        buf = buf[length:]
    }

    [only]: the capacity is limited as well.  The result is what is reported and the rest of the
    buffer.  [fuel] is the number of messages taken at most. *)
Fixpoint take (only : bool) (fuel : nat) (m : mem) (buf : slice) : M (list seen * slice) :=
  match fuel with
  | O => ret ([], buf)
  | S fuel =>
    if s_len buf <? 8 then ret ([], buf)
    else
      let* r := NewMessage m buf in
      match r with
      | (None, _) => ret ([], buf)
      | (Some msg, len) =>
        if s_len buf <? N.to_nat len then ret ([], buf)
        else
          let* part := (if only then upto_only buf (N.to_nat len) else upto buf (N.to_nat len)) in
          let* new := Message_Parse m msg part in
          let* rest := from buf (N.to_nat len) in
          let* others := take only fuel m rest in
          ret (see m new :: fst others, snd others)
      end
  end.

(** The runtime chooses where the bytes are kept: [place i bs] is the memory and the buffer that
    hold the bytes [bs] after the [i]-th piece; whatever else is in the memory is left open. *)
Definition keeps (place : nat -> list byte -> mem * slice) : Prop :=
  forall i bs, slice_ok (fst (place i bs)) (snd (place i bs)) /\ s_bytes (fst (place i bs)) (snd (place i bs)) = bs.

(** what is reported after each piece *)
Fixpoint receive (only : bool) (place : nat -> list byte -> mem * slice) (i : nat) (pending : list byte)
    (pieces : list (list byte)) : M (list (list seen)) :=
  match pieces with
  | [] => ret []
  | p :: pieces =>
    let m := fst (place i (pending ++ p)) in
    let buf := snd (place i (pending ++ p)) in
    let* r := take only (S (s_len buf)) m buf in
    let* others := receive only place (S i) (s_bytes m (snd r)) pieces in
    ret (fst r :: others)
  end.

(** a complete message of kind [k] that [NewMessage] accepts; it need not be sound *)
Definition entire (k : clc_kind) (bs : list byte) : Prop :=
  is_eyecatcher (bytes_at bs 0 4) = true /\
  kind_rel (msg_type bs) (msg_version bs) (msg_path bs) k /\
  N.to_nat (declared bs) = length bs /\ 8 <= length bs <= 1024.

(** the messages of a stream that are complete in its first [n] bytes *)
Fixpoint arrived (ms : list (clc_kind * list byte)) (n : nat) : list (clc_kind * list byte) :=
  match ms with
  | [] => []
  | (k, bs) :: ms => if length bs <=? n then (k, bs) :: arrived ms (n - length bs) else []
  end.

(** a message parsed in a buffer of its own *)
Definition alone (k : clc_kind) (bs : list byte) : M seen :=
  let* new := Message_Parse (mem1 bs) (fresh k) (slice1 bs) in ret (see (mem1 bs) new).

(** ... and one after the other *)
Fixpoint one_by_one (ms : list (clc_kind * list byte)) : M (list seen) :=
  match ms with
  | [] => ret []
  | (k, bs) :: ms => let* x := alone k bs in let* others := one_by_one ms in ret (x :: others)
  end.
