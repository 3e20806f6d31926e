(** * Visible: what the texts of LLC, CDC and RoCE headers show. Specification only. *)

From Coq Require Import NArith Bool String Ascii Arith List.
From Verif Require Import GoBase Wire LlcView Show Lossless.
Import ListNotations.
Local Open Scope list_scope.
Local Open Scope nat_scope.

(** the kind ParseLLC() takes a payload for *)
Definition payload_kind (bs : list byte) : llc_kind :=
  if length bs =? 44 then kind_of_type (bits bs 0 8) else KOther.

(** the bytes of a payload that are in its Reserved() text: Add Link leaves out the two
    bytes behind the MAC, Add Link Continuation its first pair of RKeys, and other payloads
    are not shown at all *)
Definition visible (k : llc_kind) (bs : list byte) : list byte :=
  match k with
  | KAddLink => firstn 10 bs ++ skipn 12 bs
  | KAddLinkCont => firstn 8 bs ++ skipn 24 bs
  | KOther => []
  | _ => bs
  end.

(** the fields of a payload that are in its String() text *)
Definition first_pair : list string :=
  ["Reference RKey 1"; "New RKey 1"; "New Virtual Address 1"]%string.
Definition told (k : llc_kind) (bs : list byte) : list (string * val) :=
  match k with
  | KAddLinkCont =>
    filter (fun f => negb (existsb (String.eqb (fst f)) first_pair))
      (named_fields (decode llc_add_link_cont bs))
  | _ => named_fields (decode (llc_layout k) bs)
  end.

(** a name that does not look like more than one item of a text *)
Definition one_item (s : string) : Prop :=
  forall c, In c (list_ascii_of_string s) -> c <> ","%char /\ c <> "]"%char /\ c <> ascii_of_nat 10.

(** the bytes of two global routing headers, apart from the next header, which may only
    have the same name *)
Definition same_grh (pn : N -> string) (bs bs' : list byte) : Prop :=
  bytes_at bs 0 6 = bytes_at bs' 0 6 /\
  next_text pn (bits bs 48 8) = next_text pn (bits bs' 48 8) /\
  bytes_at bs 7 33 = bytes_at bs' 7 33.

(** two payloads with the same Reserved() text *)
Definition same_payload (bs bs' : list byte) : Prop :=
  payload_kind bs = payload_kind bs' /\ visible (payload_kind bs) bs = visible (payload_kind bs) bs'.

(** the payload of a packet behind [h] bytes of headers; the last four bytes are the ICRC *)
Definition payload_of (h : nat) (bs : list byte) : list byte := bytes_at bs h (length bs - h - 4).
