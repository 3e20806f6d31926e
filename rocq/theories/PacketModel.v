(** * PacketModel: parsing of RoCE packets with the arrays that are made for the packet.

    A packet refers to a BTH and an LLC message, which are objects as in HeapModel.v and Owned.v,
    to a GRH and to the ICRC. [gopacket.NewPacket] makes one copy of the header, and [Contents],
    [SrcIP] and [DstIP] of the GRH are slices of this copy. The ICRC is a slice of the buffer. *)

From Coq Require Import NArith Bool String Arith List.
From Verif Require Import GoBase GoFmt ClcModel LlcModel RoceModel WriteModel LlcView HeapModel Owned.
Import ListNotations.
Local Open Scope string_scope.
Local Open Scope N_scope.

(** [var x T; x.Parse(s); return &x] (llc_addlink.go:159-163, bth.go:281-285 and the like): the
    number of the new object *)
Definition new_object (t : type) (s : slice) : W world nat :=
  fun w =>
    let j := List.length (w_objs w) in
    let '(l, o, _) := Parse_H s (mkhs (new t) (fun _ => nil_slice) (w_mem w) (w_next w)) in
    (l, match o with Done _ => Done j | Panicked => Panicked | Exited => Exited end,
     step (step w (ONew t)) (OParse j s)).

(** llc.go:21-50 *)
Definition ParseLLC_P (buffer : slice) : W world nat :=
  if negb (Nat.eqb (s_len buffer) LLCMsgLen) then new_object (NLlc KOther) buffer
  else
    let? t := (fun w => lift (idx (w_mem w) buffer 0) w) in
    let t := b2n t in
    if t =? TypeConfirmLink then new_object (NLlc KConfirmLink) buffer
    else if t =? TypeAddLink then new_object (NLlc KAddLink) buffer
    else if t =? TypeAddLinkCont then new_object (NLlc KAddLinkCont) buffer
    else if t =? TypeDeleteLink then new_object (NLlc KDeleteLink) buffer
    else if t =? TypeConfirmRKey then new_object (NLlc KConfirmRKey) buffer
    else if t =? TypeConfirmRKeyCont then new_object (NLlc KConfirmRKeyCont) buffer
    else if t =? TypeDeleteRKey then new_object (NLlc KDeleteRKey) buffer
    else if t =? TypeTestLink then new_object (NLlc KTestLink) buffer
    else if t =? TypeCDC then new_object (NLlc KCDC) buffer
    else new_object (NLlc KOther) buffer.

(** grh.go:22-33, :66-71: the number of the array of the copy, and the fields that are numbers *)
Definition new_GRH (s : slice) : W world (nat * GRH) :=
  fun w => let bs := s_bytes (w_mem w) s in ([], Done (w_next w, gopacket_IPv6 bs), step w (OMake bs)).

(** roce.go:13-20 *)
Record packet := mkpacket {
  k_Type : string;
  k_GRH : option (nat * GRH);
  k_BTH : nat;
  k_LLC : nat;
  k_ICRC : slice }.

(** roce.go:22-45 *)
Definition ParseRoCEv1_P (buffer : slice) : W world packet :=
  let? s := lift (upto buffer GRHLen) in
  let? grh := new_GRH s in
  let? buffer := lift (from buffer GRHLen) in
  let? s := lift (upto buffer BTHLen) in
  let? bth := new_object NBth s in
  let? buffer := lift (from buffer BTHLen) in
  let? icrc := lift (last_n buffer 4) in
  let? buffer := lift (drop_last_n buffer 4) in
  let? llc := ParseLLC_P buffer in
  wret (mkpacket "RoCEv1" (Some grh) bth llc icrc).

(** roce.go:47-66 *)
Definition ParseRoCEv2_P (buffer : slice) : W world packet :=
  let? s := lift (upto buffer BTHLen) in
  let? bth := new_object NBth s in
  let? buffer := lift (from buffer BTHLen) in
  let? icrc := lift (last_n buffer 4) in
  let? buffer := lift (drop_last_n buffer 4) in
  let? llc := ParseLLC_P buffer in
  wret (mkpacket "RoCEv2" None bth llc icrc).
