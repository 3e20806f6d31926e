(** * Stream: messages back to back in one buffer. Specification only. *)

From Coq Require Import NArith Bool String Arith List.
From Verif Require Import GoBase GoFmt ClcModel Wire ClcView Show Sound.
Import ListNotations.
Local Open Scope nat_scope.

(** How a program reads the messages in a buffer with [NewMessage] and [Parse]:

    for len(buf) >= 8 {
        msg, length := clc.NewMessage(buf)
        if msg == nil { break }
        msg.Parse(buf[:length])
        msgs = append(msgs, msg)
        buf = buf[length:]
    }

    ([fuel] is the number of messages read at most.) *)
Fixpoint read_stream (fuel : nat) (m : mem) (buf : slice) : M (list Message) :=
  match fuel with
  | O => ret []
  | S fuel =>
    if s_len buf <? 8 then ret []
    else
      let* r := NewMessage m buf in
      match r with
      | (None, _) => ret []
      | (Some msg, len) =>
        let* part := upto buf (N.to_nat len) in
        let* new := Message_Parse m msg part in
        let* rest := from buf (N.to_nat len) in
        let* others := read_stream fuel m rest in
        ret (new :: others)
      end
  end.

(** a sound message of kind [k] that [NewMessage] accepts and that fits its format *)
Definition good (k : clc_kind) (bs : list byte) : Prop :=
  is_eyecatcher (bytes_at bs 0 4) = true /\
  kind_rel (msg_type bs) (msg_version bs) (msg_path bs) k /\
  N.to_nat (declared bs) = length bs /\ length bs <= 1024 /\ sound k bs /\
  (is_smcdv2 k = true -> length bs <= 114).

(** an object that shows the message [bs] of kind [k] *)
Definition shows_message (m : mem) (k : clc_kind) (bs : list byte) (msg : Message) : Prop :=
  kind_of msg = k /\ Message_String msg = sound_text false k bs /\
  Message_Reserved msg = sound_text true k bs /\ Message_Dump m msg = hex_dump bs.
