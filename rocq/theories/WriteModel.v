(** * WriteModel: the Parse methods of package clc as sequences of assignments.

    ClcModel.v models [x.Parse(buf)] as a function to the new value of [*x]; when the call
    panics there is no new value.  A caller that recovers from the panic still holds [x], and
    [*x] then contains the fields assigned before the panic.  This file models the same
    methods assignment by assignment: a run starts with the old value of the receiver and
    ends with log lines, an outcome and the value the receiver has at that point, also when
    the outcome is a panic.  Every definition cites the lines it models; WriteFacts.v proves
    that it agrees with ClcModel.v.

    Not repeated here is what has no effect on the receiver: the expressions read from [buf]
    are those of ClcModel.v. *)

From Coq Require Import List NArith Bool String Arith.
From Verif Require Import GoBase GoFmt ClcModel Setters.
Import ListNotations.
Local Open Scope string_scope.
Local Open Scope N_scope.

(** ** Runs that write to a receiver of type [R] *)
Definition W (R A : Type) : Type := R -> list string * outcome A * R.

Definition wret {R A} (a : A) : W R A := fun r => ([], Done a, r).

Definition wbind {R A B} (x : W R A) (f : A -> W R B) : W R B :=
  fun r =>
    match x r with
    | (l, Done a, r1) => let '(l2, o, r2) := f a r1 in ((l ++ l2)%list, o, r2)
    | (l, Panicked, r1) => (l, Panicked, r1)
    | (l, Exited, r1) => (l, Exited, r1)
    end.

Notation "'let?' x ':=' e 'in' k" := (wbind e (fun x => k))
  (at level 200, x pattern, e at level 100, k at level 200) : go_scope.
Notation "e ;> k" := (wbind e (fun _ => k))
  (at level 100, k at level 200, right associativity) : go_scope.

(** an expression or statement that does not write to the receiver *)
Definition lift {R A} (x : M A) : W R A := fun r => (fst x, snd x, r).

(** reading a field *)
Definition get {R A} (f : R -> A) : W R A := fun r => ([], Done (f r), r).

(** changing the receiver *)
Definition change {R} (f : R -> R) : W R unit := fun r => ([], Done tt, f r).

(** [x.f = e] *)
Definition assign {R A} (set : A -> R -> R) (e : M A) : W R unit :=
  let? v := lift e in change (set v).

(** [x.f = g(e)] for a function [g] that cannot fail *)
Definition assignf {R A B} (set : B -> R -> R) (g : A -> B) (e : M A) : W R unit :=
  let? v := lift e in change (set (g v)).

(** [copy(x.f[:], buf[lo:hi])] *)
Definition copyto {R} (f : R -> list byte) (set : list byte -> R -> R) (m : mem) (buf : slice)
    (lo hi : nat) : W R unit :=
  let? s := lift (reslice buf lo hi) in
  change (fun r => set (go_copy (f r) (s_bytes m s)) r).

(** [x.f = make(T, n); copy(x.f[:], buf[lo:hi])] *)
Definition maketo {R} (f : R -> list byte) (set : list byte -> R -> R) (n : nat) (m : mem)
    (buf : slice) (lo hi : nat) : W R unit :=
  change (set (zeros n)) ;> copyto f set m buf lo hi.

(** [x.f = int(buf[0]) << 16; x.f |= int(buf[1]) << 8; x.f |= int(buf[2])] *)
Definition write24 {R} (f : R -> N) (set : N -> R -> R) (m : mem) (buf : slice) : W R unit :=
  let? b0 := lift (idx m buf 0) in
  change (set (N.shiftl (b2n b0) 16)) ;>
  let? b1 := lift (idx m buf 1) in
  change (fun r => set (N.lor (f r) (N.shiftl (b2n b1) 8)) r) ;>
  let? b2 := lift (idx m buf 2) in
  change (fun r => set (N.lor (f r) (b2n b2)) r).

(** [x.f.method(..)], [f] an embedded struct *)
Definition part {R S A} (f : R -> S) (set : S -> R -> R) (w : W S A) : W R A :=
  fun r => let '(l, o, s) := w (f r) in (l, o, set s r).

(** [log.Println(text); errDump(buf[:n])] *)
Definition complain {R} (m : mem) (text : string) (buf : slice) (n : nat) : W R unit :=
  lift (log_ln text ;; let* d := upto buf n in errDump m d).

(** header.go:87-105 *)
Definition Header_W (m : mem) (buf : slice) : W Header unit :=
  copyto h_Eyecatcher set_h_Eyecatcher m buf 0 EyecatcherLen ;>
  assignf set_h_Type b2n (idx m buf 4) ;>
  assign set_h_Length (be16 m buf 5 7) ;>
  let? bf := lift (idx m buf 7) in
  let bitfield := b2n bf in
  change (set_h_Version (N.shiftr (N.land bitfield 0xf0) 4)) ;>
  change (set_h_Flag (N.shiftr (N.land bitfield 0x08) 3)) ;>
  change (set_h_reserved (N.shiftr (N.land bitfield 0x04) 2)) ;>
  change (set_h_Pathv2 (N.shiftr (N.land bitfield 0x0c) 2)) ;>
  change (set_h_Path (N.land bitfield 0x03)).

(** trailer.go:13-21 *)
Definition Trailer_W (m : mem) (buf : slice) : W (list byte) unit :=
  let? s := lift (last_n buf TrailerLen) in
  change (fun t => go_copy t (s_bytes m s)) ;>
  let? ok := get HasEyecatcher_arr in
  if ok then wret tt
  else
    lift (log_ln "Error parsing CLC message: invalid trailer" ;;
          let* s := last_n buf TrailerLen in errDump m s).

(** the text for a message that is too short (clc_accept_smcd.go:65-69,
    clc_accept_smcr.go:108-112) *)
Definition too_short (h : Header) : string :=
  if h_Type h =? TypeConfirm then "Error parsing CLC Confirm: message too short"
  else "Error parsing CLC Accept: message too short".

(** clc_accept_smcd.go:56-109; [ac.Raw.Parse(buf)] is raw.go:8-11 *)
Definition AcceptSMCD_W (m : mem) (buf : slice) : W AcceptSMCD unit :=
  change (set_ad_Raw buf) ;>
  part ad_Header set_ad_Header (Header_W m buf) ;>
  let? hdr := get ad_Header in
  if h_Length hdr <? AcceptSMCDLen then
    complain m (too_short hdr) buf (N.to_nat (h_Length hdr))
  else
    let? buf := lift (from buf HeaderLen) in
    assign set_ad_GID (be64 m buf 0 8) ;>
    let? buf := lift (from buf 8) in
    assign set_ad_Token (be64 m buf 0 8) ;>
    let? buf := lift (from buf 8) in
    assignf set_ad_DMBEIdx b2n (idx m buf 0) ;>
    let? buf := lift (from buf 1) in
    assignf set_ad_DMBESize (fun b => N.shiftr (N.land (b2n b) 0xf0) 4) (idx m buf 0) ;>
    assignf set_ad_reserved (fun b => N.land (b2n b) 0x0f) (idx m buf 0) ;>
    let? buf := lift (from buf 1) in
    copyto ad_reserved2 set_ad_reserved2 m buf 0 2 ;>
    let? buf := lift (from buf 2) in
    assign set_ad_LinkID (be32 m buf 0 4) ;>
    let? buf := lift (from buf 4) in
    copyto ad_reserved3 set_ad_reserved3 m buf 0 12 ;>
    let? buf := lift (from buf 12) in
    part ad_Trailer set_ad_Trailer (Trailer_W m buf).

(** clc_accept_smcr.go:99-178 *)
Definition AcceptSMCR_W (m : mem) (buf : slice) : W AcceptSMCR unit :=
  change (set_ar_Raw buf) ;>
  part ar_Header set_ar_Header (Header_W m buf) ;>
  let? hdr := get ar_Header in
  if h_Length hdr <? AcceptSMCRLen then
    complain m (too_short hdr) buf (N.to_nat (h_Length hdr))
  else
    let? buf := lift (from buf HeaderLen) in
    copyto ar_SenderPeerID set_ar_SenderPeerID m buf 0 PeerIDLen ;>
    let? buf := lift (from buf PeerIDLen) in
    maketo ar_IBGID set_ar_IBGID 16 m buf 0 16 ;>
    let? buf := lift (from buf 16) in
    maketo ar_IBMAC set_ar_IBMAC 6 m buf 0 6 ;>
    let? buf := lift (from buf 6) in
    write24 ar_QPN set_ar_QPN m buf ;>
    let? buf := lift (from buf 3) in
    assign set_ar_RMBRKey (be32 m buf 0 4) ;>
    let? buf := lift (from buf 4) in
    assignf set_ar_RMBEIdx b2n (idx m buf 0) ;>
    let? buf := lift (from buf 1) in
    assign set_ar_RMBEAlertToken (be32 m buf 0 4) ;>
    let? buf := lift (from buf 4) in
    assignf set_ar_RMBESize (fun b => N.shiftr (N.land (b2n b) 0xf0) 4) (idx m buf 0) ;>
    assignf set_ar_QPMTU (fun b => N.land (b2n b) 0x0f) (idx m buf 0) ;>
    let? buf := lift (from buf 1) in
    assignf set_ar_reserved b2n (idx m buf 0) ;>
    let? buf := lift (from buf 1) in
    assign set_ar_RMBDMAAddr (be64 m buf 0 8) ;>
    let? buf := lift (from buf 8) in
    assignf set_ar_reserved2 b2n (idx m buf 0) ;>
    let? buf := lift (from buf 1) in
    write24 ar_PSN set_ar_PSN m buf ;>
    let? buf := lift (from buf 3) in
    part ar_Trailer set_ar_Trailer (Trailer_W m buf).

(** clc_accept_smcd_v2.go:103-108 *)
Definition too_short_v2 (h : Header) : string :=
  if h_Type h =? TypeConfirm then "Error parsing SMC-Dv2 CLC Confirm: message too short"
  else "Error parsing SMC-Dv2 CLC Accept: message too short".

(** clc_accept_smcd_v2.go:153-172; returns the remaining buffer *)
Definition fce_W (m : mem) (len : N) (buf : slice) : W AcceptSMCDv2 slice :=
  if len =? AcceptSMCDv2FCELen then
    assignf set_a2_reserved4 b2n (idx m buf 0) ;>
    let? buf := lift (from buf 1) in
    assignf set_a2_OSType (fun b => N.shiftr (b2n b) 4) (idx m buf 0) ;>
    assignf set_a2_Release (fun b => N.land (b2n b) 0x0f) (idx m buf 0) ;>
    let? buf := lift (from buf 1) in
    copyto a2_reserved5 set_a2_reserved5 m buf 0 2 ;>
    let? buf := lift (from buf 2) in
    copyto a2_Hostname set_a2_Hostname m buf 0 EIDLen ;>
    lift (from buf EIDLen)
  else wret buf.

(** clc_accept_smcd_v2.go:93-176 *)
Definition AcceptSMCDv2_W (m : mem) (buf : slice) : W AcceptSMCDv2 unit :=
  change (set_a2_Raw buf) ;>
  part a2_Header set_a2_Header (Header_W m buf) ;>
  let? hdr := get a2_Header in
  if (h_Length hdr <? AcceptSMCDv2Len) || (N.of_nat (s_len buf) <? AcceptSMCDv2Len) then
    complain m (too_short_v2 hdr) buf (N.to_nat (h_Length hdr))
  else
    let? buf := lift (from buf HeaderLen) in
    assign set_a2_GID (be64 m buf 0 8) ;>
    let? buf := lift (from buf 8) in
    assign set_a2_Token (be64 m buf 0 8) ;>
    let? buf := lift (from buf 8) in
    assignf set_a2_DMBEIdx b2n (idx m buf 0) ;>
    let? buf := lift (from buf 1) in
    assignf set_a2_DMBESize (fun b => N.shiftr (N.land (b2n b) 0xf0) 4) (idx m buf 0) ;>
    assignf set_a2_reserved (fun b => N.land (b2n b) 0x0f) (idx m buf 0) ;>
    let? buf := lift (from buf 1) in
    copyto a2_reserved2 set_a2_reserved2 m buf 0 2 ;>
    let? buf := lift (from buf 2) in
    assign set_a2_LinkID (be32 m buf 0 4) ;>
    let? buf := lift (from buf 4) in
    assign set_a2_ISMv2VCHID (be16 m buf 0 2) ;>
    let? buf := lift (from buf 2) in
    copyto a2_EID set_a2_EID m buf 0 EIDLen ;>
    let? buf := lift (from buf EIDLen) in
    copyto a2_reserved3 set_a2_reserved3 m buf 0 8 ;>
    let? buf := lift (from buf 8) in
    let? buf := fce_W m (h_Length hdr) buf in
    part a2_Trailer set_a2_Trailer (Trailer_W m buf).

(** clc_decline.go:157-189 *)
Definition Decline_W (m : mem) (buf : slice) : W Decline unit :=
  change (set_d_Raw buf) ;>
  part d_Header set_d_Header (Header_W m buf) ;>
  let? hdr := get d_Header in
  if h_Length hdr <? DeclineLen then
    complain m "Error parsing CLC Decline: message too short" buf (N.to_nat (h_Length hdr))
  else
    let? buf := lift (from buf HeaderLen) in
    copyto d_SenderPeerID set_d_SenderPeerID m buf 0 PeerIDLen ;>
    let? buf := lift (from buf PeerIDLen) in
    assign set_d_PeerDiagnosis (be32 m buf 0 4) ;>
    let? buf := lift (from buf 4) in
    copyto d_reserved set_d_reserved m buf 0 4 ;>
    let? buf := lift (from buf 4) in
    part d_Trailer set_d_Trailer (Trailer_W m buf).

(** clc_decline_v2.go:72-108 *)
Definition DeclineV2_W (m : mem) (buf : slice) : W DeclineV2 unit :=
  change (set_d2_Raw buf) ;>
  part d2_Header set_d2_Header (Header_W m buf) ;>
  let? hdr := get d2_Header in
  if h_Length hdr <? DeclineLen then
    complain m "Error parsing CLC Decline: message too short" buf (N.to_nat (h_Length hdr))
  else
    let? buf := lift (from buf HeaderLen) in
    copyto d2_SenderPeerID set_d2_SenderPeerID m buf 0 PeerIDLen ;>
    let? buf := lift (from buf PeerIDLen) in
    assign set_d2_PeerDiagnosis (be32 m buf 0 4) ;>
    let? buf := lift (from buf 4) in
    copyto d2_reserved set_d2_reserved m buf 0 4 ;>
    assignf set_d2_OSType (fun b => N.shiftr (b2n b) 4) (idx m buf 0) ;>
    change (fun d => set_d2_reserved (mask_first (d2_reserved d)) d) ;>
    let? buf := lift (from buf 4) in
    part d2_Trailer set_d2_Trailer (Trailer_W m buf).

(** the loop of clc_proposal.go:178-203, [n] iterations remaining *)
Fixpoint prefixes_v1_W (m : mem) (buf : slice) (len skip n : nat) : W IPInfo unit :=
  match n with
  | O => wret tt
  | S n' =>
    let skip := (skip + 1)%nat in
    if short len skip (IPv6PrefixLen + TrailerLen) then
      complain m "Error parsing CLC Proposal: IPv6 prefix count too big" buf len
    else
      let? prefix := lift (copy_from m (zeros 16) buf skip (skip + 16)) in
      let skip := (skip + 16)%nat in
      let? plen := lift (idx m buf skip) in
      change (fun ip => set_i_IPv6Prefixes
        (i_IPv6Prefixes ip ++ [mkIPv6Prefix prefix (b2n plen)])%list ip) ;>
      prefixes_v1_W m buf len skip n'
  end.

(** clc_proposal.go:154-203; [false] = Parse returns here *)
Definition ip_area_v1_W (m : mem) (buf : slice) (len skip : nat) : W IPInfo bool :=
  if short len skip (4 + 1 + 2 + 1 + TrailerLen) then
    complain m "Error parsing CLC Proposal: IP Area Offset too big" buf len ;>
    wret false
  else
    maketo i_Prefix set_i_Prefix 4 m buf skip (skip + 4) ;>
    let skip := (skip + 4)%nat in
    assignf set_i_PrefixLen b2n (idx m buf skip) ;>
    let skip := (skip + 1)%nat in
    copyto i_reserved2 set_i_reserved2 m buf skip (skip + 2) ;>
    let skip := (skip + 2)%nat in
    assignf set_i_IPv6PrefixesCnt b2n (idx m buf skip) ;>
    let? cnt := get i_IPv6PrefixesCnt in
    prefixes_v1_W m buf len skip (N.to_nat cnt) ;>
    wret true.

(** clc_proposal.go:140-152: the optional SMC-D fields; returns the new [skip] *)
Definition smcd_v1_W (m : mem) (buf : slice) (skip : nat) : W Proposal nat :=
  let? offset := get p_IPAreaOffset in
  if offset =? SMCDIPAreaOffset then
    assign set_p_SMCDGID (be64 m buf skip (skip + 8)) ;>
    let skip := (skip + 8)%nat in
    copyto p_reserved set_p_reserved m buf skip (skip + 32) ;>
    wret (skip + 32)%nat
  else wret (skip + N.to_nat offset)%nat.

(** clc_proposal.go:105-207 *)
Definition Proposal_W (m : mem) (buf : slice) : W Proposal unit :=
  change (set_p_Raw buf) ;>
  part p_Header set_p_Header (Header_W m buf) ;>
  let? hdr := get p_Header in
  let len := N.to_nat (h_Length hdr) in
  if h_Length hdr <? ProposalLen then
    complain m "Error parsing CLC Proposal: message too short" buf len
  else
    let skip := HeaderLen in
    copyto p_SenderPeerID set_p_SenderPeerID m buf skip (skip + PeerIDLen) ;>
    let skip := (skip + PeerIDLen)%nat in
    maketo p_IBGID set_p_IBGID 16 m buf skip (skip + 16) ;>
    let skip := (skip + 16)%nat in
    maketo p_IBMAC set_p_IBMAC 6 m buf skip (skip + 6) ;>
    let skip := (skip + 6)%nat in
    assign set_p_IPAreaOffset (be16 m buf skip (skip + 2)) ;>
    let skip := (skip + 2)%nat in
    let? skip := smcd_v1_W m buf skip in
    let? go_on := part p_IP set_p_IP (ip_area_v1_W m buf len skip) in
    if go_on then part p_Trailer set_p_Trailer (Trailer_W m buf) else wret tt.

(** the loop of clc_proposal_v2.go:361-384; returns the final [skip] *)
Fixpoint prefixes_v2_W (m : mem) (buf : slice) (len skip n : nat) : W IPInfo nat :=
  match n with
  | O => wret skip
  | S n' =>
    if short len skip (IPv6PrefixLen + TrailerLen) then
      complain m "Error parsing CLC Proposal v2: IPv6 prefix count too big" buf len ;>
      wret skip
    else
      let? prefix := lift (copy_from m (zeros 16) buf skip (skip + 16)) in
      let skip := (skip + 16)%nat in
      let? plen := lift (idx m buf skip) in
      let skip := (skip + 1)%nat in
      change (fun ip => set_i_IPv6Prefixes
        (i_IPv6Prefixes ip ++ [mkIPv6Prefix prefix (b2n plen)])%list ip) ;>
      prefixes_v2_W m buf len skip n'
  end.

(** clc_proposal_v2.go:334-385; [None] = Parse returns here *)
Definition ip_area_v2_W (m : mem) (buf : slice) (hdr : Header) (len skip : nat)
  : W IPInfo (option nat) :=
  if negb (h_Path hdr =? SMCTypeN) then
    if short len skip (4 + 1 + 2 + 1 + TrailerLen) then
      complain m "Error parsing CLC Proposal v2: IP Area Offset too big" buf len ;>
      wret None
    else
      maketo i_Prefix set_i_Prefix 4 m buf skip (skip + 4) ;>
      let skip := (skip + 4)%nat in
      assignf set_i_PrefixLen b2n (idx m buf skip) ;>
      let skip := (skip + 1)%nat in
      copyto i_reserved2 set_i_reserved2 m buf skip (skip + 2) ;>
      let skip := (skip + 2)%nat in
      assignf set_i_IPv6PrefixesCnt b2n (idx m buf skip) ;>
      let skip := (skip + 1)%nat in
      let? cnt := get i_IPv6PrefixesCnt in
      let? skip := prefixes_v2_W m buf len skip (N.to_nat cnt) in
      wret (Some skip)
  else wret (Some skip).

(** the loop of clc_proposal_v2.go:429-442; returns the final [skip] *)
Fixpoint eids_v2_W (m : mem) (buf : slice) (len skip i n : nat) : W V2Ext nat :=
  match n with
  | O => wret skip
  | S n' =>
    if short len skip (EIDLen + TrailerLen) then
      complain m "Error parsing CLC Proposal v2: EID number too big" buf len ;>
      wret skip
    else
      let? area := get x_EIDArea in
      let? old := lift (get_nth area i) in
      let? eid := lift (copy_from m old buf skip (skip + EIDLen)) in
      assign set_x_EIDArea (set_nth area i eid) ;>
      let skip := (skip + EIDLen)%nat in
      eids_v2_W m buf len skip (S i) n'
  end.

(** clc_proposal_v2.go:387-443; [None] = Parse returns here *)
Definition ext_v2_W (m : mem) (buf : slice) (hdr : Header) (len skip : nat)
  : W V2Ext (option nat) :=
  if negb (h_Pathv2 hdr =? SMCTypeN) then
    if short len skip (ProposalV2ExtLen + TrailerLen) then
      complain m "Error parsing CLC Proposal v2: Not enough space for Proposal v2 Extension"
        buf len ;>
      wret None
    else
      assignf set_x_EIDNumber b2n (idx m buf skip) ;>
      let skip := (skip + 1)%nat in
      assignf set_x_GIDNumber b2n (idx m buf skip) ;>
      let skip := (skip + 1)%nat in
      assignf set_x_reserved3 b2n (idx m buf skip) ;>
      let skip := (skip + 1)%nat in
      assignf set_x_Release (fun b => N.shiftr (b2n b) 4) (idx m buf skip) ;>
      assignf set_x_reserved4 (fun b => N.shiftr (N.land (b2n b) 0x0e) 1) (idx m buf skip) ;>
      assignf set_x_SEIDInd (fun b => N.land (b2n b) 0x01) (idx m buf skip) ;>
      let skip := (skip + 1)%nat in
      copyto x_reserved5 set_x_reserved5 m buf skip (skip + 2) ;>
      let skip := (skip + 2)%nat in
      assign set_x_SMCDv2Off (be16 m buf skip (skip + 2)) ;>
      let skip := (skip + 2)%nat in
      copyto x_reserved6 set_x_reserved6 m buf skip (skip + 32) ;>
      let skip := (skip + 32)%nat in
      let? cnt := get x_EIDNumber in
      let? skip := eids_v2_W m buf len skip 0 (N.to_nat cnt) in
      wret (Some skip)
  else wret (Some skip).

(** the loop of clc_proposal_v2.go:463-482 *)
Fixpoint gids_v2_W (m : mem) (buf : slice) (len skip i n : nat) : W SMCDExt unit :=
  match n with
  | O => wret tt
  | S n' =>
    if short len skip (8 + 2 + TrailerLen) then
      complain m "Error parsing CLC Proposal v2: GID number too big" buf len
    else
      let? gid := lift (be64 m buf skip (skip + 8)) in
      let? area := get y_GIDArea in
      let? old := lift (get_nth area i) in
      assign set_y_GIDArea (set_nth area i (mkGIDEntry gid (g_VCHID old))) ;>
      let skip := (skip + 8)%nat in
      let? vchid := lift (be16 m buf skip (skip + 2)) in
      let? area := get y_GIDArea in
      let? old := lift (get_nth area i) in
      assign set_y_GIDArea (set_nth area i (mkGIDEntry (g_GID old) vchid)) ;>
      let skip := (skip + 2)%nat in
      gids_v2_W m buf len skip (S i) n'
  end.

(** clc_proposal_v2.go:445-483; [false] = Parse returns here *)
Definition smcd_v2_W (m : mem) (buf : slice) (hdr : Header) (len skip : nat) (gidNumber : N)
  : W SMCDExt bool :=
  if (h_Pathv2 hdr =? SMCTypeD) || (h_Pathv2 hdr =? SMCTypeB) then
    if short len skip (SMCDv2ExtLen + TrailerLen) then
      complain m "Error parsing CLC Proposal v2: Not enough space for SMC-D v2 Extension"
        buf len ;>
      wret false
    else
      copyto y_SEID set_y_SEID m buf skip (skip + 32) ;>
      let skip := (skip + 32)%nat in
      copyto y_reserved7 set_y_reserved7 m buf skip (skip + 16) ;>
      let skip := (skip + 16)%nat in
      gids_v2_W m buf len skip 0 (N.to_nat gidNumber) ;>
      wret true
  else wret true.

(** clc_proposal_v2.go:282-487 *)
Definition ProposalV2_W (m : mem) (buf : slice) : W ProposalV2 unit :=
  change (set_p2_Raw buf) ;>
  part p2_Header set_p2_Header (Header_W m buf) ;>
  let? hdr := get p2_Header in
  let len := N.to_nat (h_Length hdr) in
  if h_Length hdr <? ProposalV2Len then
    complain m "Error parsing CLC Proposal v2: message too short" buf len
  else
    let skip := HeaderLen in
    copyto p2_SenderPeerID set_p2_SenderPeerID m buf skip (skip + PeerIDLen) ;>
    let skip := (skip + PeerIDLen)%nat in
    maketo p2_IBGID set_p2_IBGID 16 m buf skip (skip + 16) ;>
    let skip := (skip + 16)%nat in
    maketo p2_IBMAC set_p2_IBMAC 6 m buf skip (skip + 6) ;>
    let skip := (skip + 6)%nat in
    assign set_p2_IPAreaOffset (be16 m buf skip (skip + 2)) ;>
    let skip := (skip + 2)%nat in
    assign set_p2_SMCDGID (be64 m buf skip (skip + 8)) ;>
    let skip := (skip + 8)%nat in
    assign set_p2_ISMv2VCHID (be16 m buf skip (skip + 2)) ;>
    let skip := (skip + 2)%nat in
    assign set_p2_SMCv2Offset (be16 m buf skip (skip + 2)) ;>
    let skip := (skip + 2)%nat in
    copyto p2_reserved set_p2_reserved m buf skip (skip + 28) ;>
    let skip := (skip + 28)%nat in
    let? r := part p2_IP set_p2_IP (ip_area_v2_W m buf hdr len skip) in
    match r with
    | None => wret tt
    | Some skip =>
      let? r := part p2_Ext set_p2_Ext (ext_v2_W m buf hdr len skip) in
      match r with
      | None => wret tt
      | Some skip =>
        let? ext := get p2_Ext in
        let? go_on := part p2_SMCD set_p2_SMCD
                        (smcd_v2_W m buf hdr len skip (x_GIDNumber ext)) in
        if go_on then part p2_Trailer set_p2_Trailer (Trailer_W m buf) else wret tt
      end
    end.

(** [w] on the object inside an interface value (message.go:14-20); the Confirm types promote
    the methods of the Accept types (clc_confirm_smcd.go:3-7, clc_confirm_smcr.go:3-7,
    clc_confirm_smcd_v2.go:3-7) *)
Definition inside {R} (con : R -> Message) (w : W R unit) (r : R)
  : list string * outcome unit * Message :=
  let '(l, o, r1) := w r in (l, o, con r1).

(** [msg.Parse(buf)]: what it logs, how it ends, and the object afterwards *)
Definition Message_W (m : mem) (buf : slice) (msg : Message)
  : list string * outcome unit * Message :=
  match msg with
  | MProposal p => inside MProposal (Proposal_W m buf) p
  | MProposalV2 p => inside MProposalV2 (ProposalV2_W m buf) p
  | MAcceptSMCR a => inside MAcceptSMCR (AcceptSMCR_W m buf) a
  | MAcceptSMCD a => inside MAcceptSMCD (AcceptSMCD_W m buf) a
  | MAcceptSMCDv2 a => inside MAcceptSMCDv2 (AcceptSMCDv2_W m buf) a
  | MConfirmSMCR c =>
    inside (fun a => MConfirmSMCR (mkConfirmSMCR a)) (AcceptSMCR_W m buf) (cr_Accept c)
  | MConfirmSMCD c =>
    inside (fun a => MConfirmSMCD (mkConfirmSMCD a)) (AcceptSMCD_W m buf) (cd_Accept c)
  | MConfirmSMCDv2 c =>
    inside (fun a => MConfirmSMCDv2 (mkConfirmSMCDv2 a)) (AcceptSMCDv2_W m buf) (c2_Accept c)
  | MDecline d => inside MDecline (Decline_W m buf) d
  | MDeclineV2 d => inside MDeclineV2 (DeclineV2_W m buf) d
  end.
