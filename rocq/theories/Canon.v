(** * Canon: the texts of single values. Specification only.

    Numerals, addresses and the lines of a hex dump.  Does not mention the model. *)

From Coq Require Import NArith Bool String Ascii Arith List.
From Verif Require Import GoBase Wire.
Import ListNotations.
Local Open Scope string_scope.
Local Open Scope list_scope.
Local Open Scope nat_scope.

(** ** Numerals *)

(** the value of a lower-case digit *)
Definition digit (c : ascii) : option N :=
  (let n := N_of_ascii c in
   if (48 <=? n) && (n <=? 57) then Some (n - 48)
   else if (97 <=? n) && (n <=? 102) then Some (n - 87)
   else None)%N%bool.

(** the number written as [s], digits already read standing for [acc] *)
Fixpoint read (base acc : N) (s : string) : option N :=
  match s with
  | EmptyString => Some acc
  | String c r =>
    match digit c with
    | Some d => if (d <? base)%N then read base (acc * base + d) r else None
    | None => None
    end
  end.

(** [s] is the shortest numeral of [n] *)
Definition numeral (base n : N) (s : string) : Prop :=
  read base 0 s = Some n /\
  (s = "0" \/ exists c r, s = String c r /\ c <> "0"%char).

(** [s] is a number of exactly [w] hex digits *)
Definition hex_digits (w : nat) (n : N) (s : string) : Prop :=
  read 16 0 s = Some n /\ String.length s = w.

(** two hex digits per byte *)
Definition hex_bytes (bs : list byte) (s : string) : Prop :=
  exists l, Forall2 (fun b => hex_digits 2 (b2n b)) bs l /\ s = String.concat "" l.

(** ** Addresses *)

(** hex pairs separated by colons *)
Definition mac_text (bs : list byte) (s : string) : Prop :=
  exists l, Forall2 (fun b => hex_digits 2 (b2n b)) bs l /\ s = String.concat ":" l.

(** dotted decimal *)
Definition ip4_text (ip : list byte) (s : string) : Prop :=
  exists l, Forall2 (fun b => numeral 10 (b2n b)) ip l /\ s = String.concat "." l.

(** the eight 16-bit groups of an IPv6 address *)
Definition groups (ip : list byte) : list N := map (fun i => bits ip (16 * i) 16) (seq 0 8).

(** the [k] groups from group [i] on are zero *)
Definition zero_groups (gs : list N) (i k : nat) : Prop :=
  i + k <= length gs /\ forall j, i <= j < i + k -> nth j gs 1%N = 0%N.

(** there is no longer run of zero groups, and none as long further to the left *)
Definition first_longest (gs : list N) (i k : nat) : Prop :=
  zero_groups gs i k /\ forall j l, zero_groups gs j l -> l <= k /\ (l = k -> i <= j).

(** RFC 5952: shortest numerals, the first longest run of at least two zero groups
    abbreviated *)
Definition ip6_text (ip : list byte) (s : string) : Prop :=
  let gs := groups ip in
  exists hs, Forall2 (numeral 16) gs hs /\
  (((forall i, ~ zero_groups gs i 2) /\ s = String.concat ":" hs) \/
   (exists i k, 2 <= k /\ first_longest gs i k /\
      s = append (String.concat ":" (firstn i hs))
            (append "::" (String.concat ":" (skipn (i + k) hs))))).

(** ::ffff:0:0/96 *)
Definition mapped (ip : list byte) : Prop :=
  length ip = 16 /\ firstn 12 ip = (repeat x00 10 ++ [xff; xff]).

Definition ip_text (ip : list byte) (s : string) : Prop :=
  (length ip = 4 /\ ip4_text ip s) \/
  (mapped ip /\ ip4_text (skipn 12 ip) s) \/
  (length ip = 16 /\ ~ mapped ip /\ ip6_text ip s).

(** ** Hex dumps *)

(** printable ASCII characters stand for themselves *)
Definition shown_char (b : byte) : ascii :=
  if ((32 <=? b2n b) && (b2n b <=? 126))%N%bool then ascii_of_byte b else "."%char.

Definition blanks (n : nat) : string := string_of_list_ascii (repeat " "%char n).

(** A line: offset, the bytes in two columns of eight pairs padded to full width, and the
    characters between bars.  [bs] has 1 to 16 bytes. *)
Definition dump_row (off : N) (bs : list byte) (s : string) : Prop :=
  exists o left right,
  hex_digits 8 off o /\
  Forall2 (fun b => hex_digits 2 (b2n b)) (firstn 8 bs) left /\
  Forall2 (fun b => hex_digits 2 (b2n b)) (skipn 8 bs) right /\
  let l := String.concat " " left in
  let r := String.concat " " right in
  s = append o (append "  "
     (append l (append (blanks (23 - String.length l)) (append "  "
     (append r (append (blanks (23 - String.length r)) (append "  |"
     (append (string_of_list_ascii (map shown_char bs))
             (String "|" (String (ascii_of_nat 10) "")))))))))).

(** A dump: lines of 16 bytes, the last one possibly shorter; no lines without bytes.  The
    offset has 32 bits. *)
Inductive dump : N -> list byte -> string -> Prop :=
| dump_nil off : dump off [] ""
| dump_cons off bs rest l s :
    1 <= length bs <= 16 -> (rest <> [] -> length bs = 16) ->
    dump_row (off mod 2 ^ 32) bs l -> dump (off + 16) rest s ->
    dump off (bs ++ rest) (append l s).
