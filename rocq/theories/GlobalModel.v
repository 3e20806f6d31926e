(** * GlobalModel: the exported variables of package clc.

    [SMCREyecatcher], [SMCDEyecatcher] and [SMCOption] are variables of type [[]byte].
    Programs that import the package can assign to them and can write to the arrays they refer to;
    [SMCOption] is initialised with [SMCREyecatcher], so both refer to the same array.  The
    other models treat them as constants.  This file models the functions that
    use them once more, with the variables and the memory. *)

From Coq Require Import List NArith Bool String Arith.
From Verif Require Import GoBase GoFmt ClcModel.
Import ListNotations.
Local Open Scope string_scope.
Local Open Scope N_scope.

(** ** The state *)

Inductive variable := VSMCREyecatcher | VSMCDEyecatcher | VSMCOption.

Record globals := mkglobals {
  g_mem : mem;
  g_SMCREyecatcher : slice;   (* eyecatcher.go:7 *)
  g_SMCDEyecatcher : slice;   (* eyecatcher.go:8 *)
  g_SMCOption : slice }.      (* tcp_option.go:11 *)

Definition value (g : globals) (v : variable) : slice :=
  match v with
  | VSMCREyecatcher => g_SMCREyecatcher g
  | VSMCDEyecatcher => g_SMCDEyecatcher g
  | VSMCOption => g_SMCOption g
  end.

Definition set_value (g : globals) (v : variable) (s : slice) : globals :=
  match v with
  | VSMCREyecatcher => mkglobals (g_mem g) s (g_SMCDEyecatcher g) (g_SMCOption g)
  | VSMCDEyecatcher => mkglobals (g_mem g) (g_SMCREyecatcher g) s (g_SMCOption g)
  | VSMCOption => mkglobals (g_mem g) (g_SMCREyecatcher g) (g_SMCDEyecatcher g) s
  end.

(** the bytes that a variable stands for *)
Definition content (g : globals) (v : variable) : list byte := s_bytes (g_mem g) (value g v).

(** the arrays of the two composite literals *)
Definition array_R : nat := 1.
Definition array_D : nat := 2.

(** eyecatcher.go:6-9, tcp_option.go:9-12: the state when the program starts; [m] has the
    arrays of the program *)
Definition start (m : mem) : globals :=
  let r := mkslice array_R 0 4 4 in
  let d := mkslice array_D 0 4 4 in
  mkglobals (fun a => if Nat.eqb a array_R then [xe2; xd4; xc3; xd9]
                      else if Nat.eqb a array_D then [xe2; xd4; xc3; xc4] else m a)
    r d r.

(** ** Programs *)

(** a slice: one of the program's own, a variable, or a part of another slice ([e[lo:hi]]) *)
Inductive expr :=
| Own (s : slice)
| Var (v : variable)
| Cut (e : expr) (lo hi : nat).

(** [e[i] = b] and [v = e] *)
Inductive stmt :=
| Store (e : expr) (i : nat) (b : byte)
| Assign (v : variable) (e : expr).

Fixpoint eval (g : globals) (e : expr) : M slice :=
  match e with
  | Own s => ret s
  | Var v => ret (value g v)
  | Cut e lo hi => let* s := eval g e in reslice s lo hi
  end.

Definition store (m : mem) (s : slice) (i : nat) (b : byte) : mem :=
  fun a => if Nat.eqb a (s_arr s)
           then (firstn (s_off s + i) (m a) ++ b :: skipn (S (s_off s + i)) (m a))%list else m a.

(** a statement that panics has no effect *)
Definition exec (g : globals) (st : stmt) : globals :=
  match st with
  | Store e i b =>
    match eval g e with
    | (_, Done s) =>
      if Nat.ltb i (s_len s)
      then mkglobals (store (g_mem g) s i b) (g_SMCREyecatcher g) (g_SMCDEyecatcher g) (g_SMCOption g)
      else g
    | _ => g
    end
  | Assign v e => match eval g e with (_, Done s) => set_value g v s | _ => g end
  end.

Definition exec_all (g : globals) (p : list stmt) : globals := fold_left exec p g.

(** ** The functions *)

(** eyecatcher.go:19-28 *)
Definition Eyecatcher_String_G (g : globals) (e : list byte) : string :=
  if bytes_eq e (content g VSMCREyecatcher) then "SMC-R"
  else if bytes_eq e (content g VSMCDEyecatcher) then "SMC-D"
  else "Unknown".

(** eyecatcher.go:30-39 *)
Definition HasEyecatcher_G (g : globals) (buf : slice) : M bool :=
  let* s := upto buf EyecatcherLen in
  if bytes_eq (s_bytes (g_mem g) s) (content g VSMCREyecatcher) then ret true
  else
    let* s := upto buf EyecatcherLen in
    if bytes_eq (s_bytes (g_mem g) s) (content g VSMCDEyecatcher) then ret true
    else ret false.

(** eyecatcher.go:30-39 applied to an array as in trailer.go:16 *)
Definition HasEyecatcher_arr_G (g : globals) (t : list byte) : bool :=
  bytes_eq (firstn EyecatcherLen t) (content g VSMCREyecatcher) ||
  bytes_eq (firstn EyecatcherLen t) (content g VSMCDEyecatcher).

(** trailer.go:13-21 *)
Definition Trailer_Parse_G (g : globals) (t : list byte) (buf : slice) : M (list byte) :=
  let* s := last_n buf TrailerLen in
  let t := go_copy t (s_bytes (g_mem g) s) in
  if HasEyecatcher_arr_G g t then ret t
  else
    log_ln "Error parsing CLC message: invalid trailer" ;;
    let* s := last_n buf TrailerLen in
    errDump (g_mem g) s ;;
    ret t.

(** trailer.go:23-26 *)
Definition Trailer_String_G (g : globals) (t : list byte) : string := Eyecatcher_String_G g t.

(** tcp_option.go:14-25 *)
Fixpoint CheckSMCOption_G (g : globals) (opts : list TCPOption) : bool :=
  match opts with
  | [] => false
  | opt :: rest =>
    if (OptionType opt =? 254) && (OptionLength opt =? 6)
       && bytes_eq (OptionData opt) (content g VSMCOption)
    then true else CheckSMCOption_G g rest
  end.

(** message.go:30-78: what follows the check of the eyecatcher *)
Definition new_message (m : mem) (buf : slice) : M (option Message * N) :=
  let* length := be16 m buf 5 7 in
  if MaxMessageSize <? length then
    log_ln "Error parsing CLC header: message too big" ;;
    let* d := upto buf HeaderLen in
    errDump m d ;;
    ret (None, 0)
  else
    let* typ := idx m buf 4 in
    let typ := b2n typ in
    let* b := idx m buf 7 in
    let ver := N.shiftr (b2n b) 4 in
    let* b := idx m buf 7 in
    let path := N.land (b2n b) 0x03 in
    if typ =? TypeProposal then
      if ver =? SMCv2 then ret (Some (MProposalV2 ProposalV2_zero), length)
      else ret (Some (MProposal Proposal_zero), length)
    else if typ =? TypeAccept then
      if path =? SMCTypeR then ret (Some (MAcceptSMCR AcceptSMCR_zero), length)
      else if path =? SMCTypeD then
        if ver =? SMCv2 then ret (Some (MAcceptSMCDv2 AcceptSMCDv2_zero), length)
        else ret (Some (MAcceptSMCD AcceptSMCD_zero), length)
      else ret (None, 0)
    else if typ =? TypeConfirm then
      if path =? SMCTypeR then
        ret (Some (MConfirmSMCR (mkConfirmSMCR AcceptSMCR_zero)), length)
      else if path =? SMCTypeD then
        if ver =? SMCv2 then
          ret (Some (MConfirmSMCDv2 (mkConfirmSMCDv2 AcceptSMCDv2_zero)), length)
        else ret (Some (MConfirmSMCD (mkConfirmSMCD AcceptSMCD_zero)), length)
      else ret (None, 0)
    else if typ =? TypeDecline then
      if ver =? SMCv2 then ret (Some (MDeclineV2 DeclineV2_zero), length)
      else ret (Some (MDecline Decline_zero), length)
    else ret (None, 0).

(** message.go:22-79 *)
Definition NewMessage_G (g : globals) (buf : slice) : M (option Message * N) :=
  let* ok := HasEyecatcher_G g buf in
  if negb ok then ret (None, 0) else new_message (g_mem g) buf.
