(** * GoFmt: the formatting functions of Go's standard library that the
    modelled code uses: [fmt] verbs, [net.IP.String], [net.HardwareAddr.String]
    and [encoding/hex.Dump].

    Written from the documented behaviour / source of Go 1.23 (go.mod of /repo);
    part of the trusted base.  The unit tests of /repo are replayed against it
    in Golden.v. *)

From Coq Require Import List NArith ZArith Bool String Ascii Arith.
From Coq Require DecimalString HexadecimalString.
From Verif Require Import GoBase.
Import ListNotations.
Local Open Scope string_scope.

(** [fmt.Sprintf] with a format string is modelled as the concatenation of the
    literal pieces and the formatted arguments. *)
Definition cat (l : list string) : string := String.concat "" l.

Definition nl : string := String (ascii_of_nat 10) "".

(** [%d] of an unsigned integer *)
Definition dec (n : N) : string := DecimalString.NilZero.string_of_uint (N.to_uint n).

(** [%d] of a signed integer *)
Definition decZ (z : Z) : string :=
  match z with
  | Zneg p => "-" ++ dec (Npos p)
  | _ => dec (Z.to_N z)
  end.

(** [%t] *)
Definition tf (b : bool) : string := if b then "true" else "false".

(** lower-case hex digit of a number below 16 *)
Definition hexdigit (n : N) : string :=
  match n with
  | 0 => "0" | 1 => "1" | 2 => "2" | 3 => "3"
  | 4 => "4" | 5 => "5" | 6 => "6" | 7 => "7"
  | 8 => "8" | 9 => "9" | 10 => "a" | 11 => "b"
  | 12 => "c" | 13 => "d" | 14 => "e" | _ => "f"
  end%N.

(** the two hex digits of a byte (encoding/hex.Encode) *)
Definition hex2 (b : byte) : string :=
  hexdigit (b2n b / 16) ++ hexdigit (b2n b mod 16).

(** [%#x] of an unsigned integer: "0x" and the shortest hex numeral *)
Definition hexN (n : N) : string :=
  "0x" ++ HexadecimalString.NilZero.string_of_uint (N.to_hex_uint n).

(** [%#x] of a byte array or slice: "0x" and two digits per byte (nothing at all
    for an empty one) *)
Definition hexbytes (l : list byte) : string :=
  match l with
  | [] => ""
  | _ => "0x" ++ cat (map hex2 l)
  end.

(** binary numeral without leading zeros *)
Fixpoint bin_pos (p : positive) (acc : string) : string :=
  match p with
  | xH => String "1" acc
  | xO q => bin_pos q (String "0" acc)
  | xI q => bin_pos q (String "1" acc)
  end.

(** [%#b] of an unsigned integer *)
Definition binN (n : N) : string :=
  "0b" ++ match n with N0 => "0" | Npos p => bin_pos p "" end.

(** [%s] of a byte slice: the bytes themselves *)
Definition bytes_string (l : list byte) : string :=
  string_of_list_ascii (map ascii_of_byte l).

(** ** net.HardwareAddr.String: hex pairs separated by colons, "" if empty *)
Definition mac_string (a : list byte) : string :=
  String.concat ":" (map hex2 a).

(** ** net.IP.String *)

(** [IP.To4]: the IPv4 form of a 4-byte or IPv4-mapped 16-byte address *)
Definition ip_to4 (ip : list byte) : option (list byte) :=
  if Nat.eqb (List.length ip) 4 then Some ip
  else if (Nat.eqb (List.length ip) 16
           && forallb (fun b => Byte.eqb b x00) (firstn 10 ip)
           && Byte.eqb (nth 10 ip x00) xff && Byte.eqb (nth 11 ip x00) xff)%bool
  then Some (skipn 12 ip)
  else None.

Definition ip4_string (ip : list byte) : string :=
  String.concat "." (map (fun b => dec (b2n b)) ip).

(** the i-th 16-bit group of a 16-byte address (netip.Addr.v6u16) *)
Definition group (ip : list byte) (i : nat) : N :=
  (b2n (nth (2 * i) ip x00) * 256 + b2n (nth (2 * i + 1) ip x00))%N.

(** length of the run of zero groups starting at group [i]; [n] = 8 - i *)
Fixpoint zero_run (ip : list byte) (i n : nat) : nat :=
  match n with
  | O => O
  | S n' => if (group ip i =? 0)%N then S (zero_run ip (S i) n') else O
  end.

(** netip.Addr.appendTo6, first loop: start and end of the leftmost longest run
    of at least two zero groups; (255,255) if there is none *)
Definition zero_range (ip : list byte) : nat * nat :=
  fold_left (fun se i =>
    let l := zero_run ip i (8 - i) in
    if ((2 <=? l) && (snd se - fst se <? l))%nat%bool then (i, (i + l)%nat) else se)
    (seq 0 8) (255, 255)%nat.

(** netip.appendHex: shortest lower-case hex numeral of a 16-bit number *)
Definition hex16 (x : N) : string :=
  (if (4096 <=? x)%N then hexdigit (x / 4096) else "") ++
  (if (256 <=? x)%N then hexdigit (x / 256 mod 16) else "") ++
  (if (16 <=? x)%N then hexdigit (x / 16 mod 16) else "") ++
  hexdigit (x mod 16).

(** netip.Addr.appendTo6, second loop, from group [i]; [fuel] bounds the number
    of iterations (8 suffice) *)
Fixpoint ip6_loop (ip : list byte) (zs ze i fuel : nat) : string :=
  match fuel with
  | O => ""
  | S fuel' =>
    if (8 <=? i)%nat then ""
    else if (i =? zs)%nat then
      "::" ++ (if (8 <=? ze)%nat then ""
               else hex16 (group ip ze) ++ ip6_loop ip zs ze (S ze) fuel')
    else (if (0 <? i)%nat then ":" else "") ++
         hex16 (group ip i) ++ ip6_loop ip zs ze (S i) fuel'
  end.

Definition ip6_string (ip : list byte) : string :=
  let (zs, ze) := zero_range ip in ip6_loop ip zs ze 0 8.

(** [net.IP.String]; the empty list is a nil IP *)
Definition ip_string (ip : list byte) : string :=
  if Nat.eqb (List.length ip) 0 then "<nil>"
  else if negb (Nat.eqb (List.length ip) 4 || Nat.eqb (List.length ip) 16) then
    "?" ++ cat (map hex2 ip)
  else match ip_to4 ip with
       | Some ip4 => ip4_string ip4
       | None => ip6_string ip
       end.

(** ** encoding/hex.Dump *)

(** [toChar]: printable ASCII or a dot *)
Definition to_char (b : byte) : string :=
  if ((b2n b <? 32) || (126 <? b2n b))%N%bool then "."
  else String (ascii_of_byte b) "".

(** the eight digits of the 32-bit offset at the start of a line *)
Definition offset8 (n : N) : string :=
  cat (map hex2 [n2b (n / 16777216); n2b (n / 65536); n2b (n / 256); n2b n]).

(** separator written behind the byte in column [used] *)
Definition dump_sep (used : nat) : string :=
  if (used =? 7)%nat then "  " else if (used =? 15)%nat then "  |" else " ".

(** padding of the remaining columns of the last line; [k] = 16 - used *)
Fixpoint dump_pad (used k : nat) : string :=
  match k with
  | O => ""
  | S k' => "  " ++ dump_sep used ++ dump_pad (S used) k'
  end.

(** dumper.Write over all bytes followed by dumper.Close; [n] bytes were
    written before, [used] of them in the current line with right column [r] *)
Fixpoint dump_loop (n : N) (used : nat) (r : string) (data : list byte) : string :=
  match data with
  | [] =>
    if (used =? 0)%nat then ""
    else dump_pad used (16 - used) ++ r ++ "|" ++ nl
  | b :: rest =>
    (if (used =? 0)%nat then offset8 n ++ "  " else "") ++
    hex2 b ++ dump_sep used ++
    (if (used =? 15)%nat
     then r ++ to_char b ++ "|" ++ nl ++ dump_loop (n + 1) 0 "" rest
     else dump_loop (n + 1) (S used) (r ++ to_char b) rest)
  end.

Definition hex_dump (data : list byte) : string := dump_loop 0 0 "" data.
