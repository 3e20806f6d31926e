(** * PropsCanon: the property theorems about the texts of single values (C18, C52, C53).

    Vocabulary (Canon.v): [numeral base n s]: [s] is the shortest numeral of [n];
    [hex_digits w n s]: [s] is [n] in [w] hex digits; [ip_text], [mac_text]: the canonical
    texts of addresses; [dump]: the lines of a hex dump. *)

From Coq Require Import NArith Bool String Arith List.
From Verif Require Import GoBase GoFmt Wire Canon.
From Verif Require CanonNum CanonIp CanonDump.
Import ListNotations.
Local Open Scope nat_scope.

(** ** C18 *)

(** the exact text of a dump *)
Theorem C18_layout : forall data, dump 0 data (hex_dump data).
Proof. exact CanonDump.hex_dump_dump. Qed.
Print Assumptions C18_layout.

(** no other text has this layout *)
Theorem C18_layout_unique : forall off data s t, dump off data s -> dump off data t -> s = t.
Proof. exact CanonDump.dump_unique. Qed.
Print Assumptions C18_layout_unique.

Example C18_layout_example :
  hex_dump [xe2; xd4; xc3; xd9; x41; x7f; x00; x20; x7e; x0a] =
  ("00000000  e2 d4 c3 d9 41 7f 00 20  7e 0a                    |....A.. ~.|" ++ nl)%string.
Proof. reflexivity. Qed.

(** ** C52 *)

Theorem C52_decimal : forall n, numeral 10 n (dec n).
Proof. exact CanonNum.dec_numeral. Qed.
Print Assumptions C52_decimal.

Theorem C52_hexadecimal : forall n, exists s, hexN n = append "0x" s /\ numeral 16 n s.
Proof. exact CanonNum.hexN_numeral. Qed.
Print Assumptions C52_hexadecimal.

Theorem C52_binary : forall n, exists s, binN n = append "0b" s /\ numeral 2 n s.
Proof. exact CanonNum.binN_numeral. Qed.
Print Assumptions C52_binary.

Theorem C52_bytes : forall bs, bs <> [] -> exists s, hexbytes bs = append "0x" s /\ hex_bytes bs s.
Proof. exact CanonNum.hexbytes_digits. Qed.
Print Assumptions C52_bytes.

(** numbers have one numeral each, numerals stand for one number each *)
Theorem C52_numeral_unique : forall base n s t, (1 < base)%N ->
  numeral base n s -> numeral base n t -> s = t.
Proof. exact CanonNum.numeral_unique. Qed.
Print Assumptions C52_numeral_unique.

Theorem C52_numeral_value : forall base n m s, numeral base n s -> numeral base m s -> n = m.
Proof. exact CanonNum.numeral_value. Qed.
Print Assumptions C52_numeral_value.

Example C52_example :
  dec 65537 = "65537"%string /\ hexN 51966 = "0xcafe"%string /\ binN 10 = "0b1010"%string /\
  hexbytes [x0a; xff] = "0x0aff"%string /\
  ~ numeral 10 7 "07"%string /\ read 10 0 "07"%string = Some 7%N.
Proof.
  repeat split; try reflexivity.
  intros [_ [H|(c & r & H & Hc)]]; [discriminate|]. injection H as <- _. apply Hc. reflexivity.
Qed.

(** ** C53 *)

Theorem C53_ip : forall ip, length ip = 4 \/ length ip = 16 -> ip_text ip (ip_string ip).
Proof. exact CanonIp.ip_string_text. Qed.
Print Assumptions C53_ip.

Theorem C53_ip_unique : forall ip s t, ip_text ip s -> ip_text ip t -> s = t.
Proof. exact CanonIp.ip_text_unique. Qed.
Print Assumptions C53_ip_unique.

(** addresses of the same size have different texts *)
Theorem C53_ip_lossless : forall a b s, length a = length b -> ip_text a s -> ip_text b s -> a = b.
Proof. exact CanonIp.ip_text_inj. Qed.
Print Assumptions C53_ip_lossless.

Theorem C53_mac : forall bs, mac_text bs (mac_string bs).
Proof. exact CanonNum.mac_digits. Qed.
Print Assumptions C53_mac.

Example C53_example :
  ip_string [xfe; x80; x00; x00; x00; x00; x00; x00; x9a; x03; x9b; xff; xfe; xab; xcd; xef]
    = "fe80::9a03:9bff:feab:cdef"%string /\
  (* the longest run is not the first one; a single zero group is not abbreviated *)
  ip_string [x00; x00; x00; x00; x00; x01; x00; x00; x00; x00; x00; x00; x00; x02; x00; x00]
    = "0:0:1::2:0"%string /\
  ip_string (repeat x00 16) = "::"%string /\
  ip_string (repeat x00 10 ++ [xff; xff; x0a; x00; x00; x01]) = "10.0.0.1"%string /\
  mac_string [x98; x03; x9b; xab; xcd; xef] = "98:03:9b:ab:cd:ef"%string.
Proof. repeat split. Qed.
