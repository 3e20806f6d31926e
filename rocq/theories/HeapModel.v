(** * HeapModel: the Parse methods with the arrays that they make.

    The fields [IBGID], [IBMAC] and [Prefix] of CLC messages, the prefixes in [IPv6Prefixes],
    [SenderMAC] and [SenderGID] of LLC messages, and [Raw] of LLC messages and of the BTH are
    slices.  The other models treat them as byte strings.  A slice refers to an array, and
    whoever has a slice of the same array can see and change the bytes.  This file models the
    Parse methods once more, with a memory in which they make arrays and to which they copy
    bytes.  [Raw] of CLC messages, which is the caller's buffer, is a slice in all models.

    What has nothing to do with these fields is taken from WriteModel.v and LlcWriteModel.v.  Every read
    from the buffer is a read from the memory at that time.  That IPv6Prefixes is itself a slice
    is modelled in AliasModel.v, not here. *)

From Coq Require Import List NArith Bool String Arith.
From Verif Require Import GoBase GoFmt ClcModel LlcModel RoceModel Setters WriteModel LlcWriteModel.
Import ListNotations.
Local Open Scope string_scope.
Local Open Scope N_scope.

(** An object of type [R] in memory: [hv] has its fields except those slices, [hslot] the
    slices; [hm] is the memory, in which the arrays with numbers below [hn] exist. *)
Record hs (R : Type) := mkhs { hv : R; hslot : nat -> slice; hm : mem; hn : nat }.
Arguments mkhs {R} _ _ _ _.
Arguments hv {R} _.
Arguments hslot {R} _ _.
Arguments hm {R} _ _.
Arguments hn {R} _.

Definition H (R A : Type) : Type := W (hs R) A.

(** code that neither makes arrays nor writes to any *)
Definition onval {R A} (w : mem -> W R A) : H R A :=
  fun x => let '(l, o, v) := w (hm x) (hv x) in (l, o, mkhs v (hslot x) (hm x) (hn x)).

(** [x.f.method(..)], [f] an embedded struct *)
Definition hpart {R S A} (f : R -> S) (set : S -> R -> R) (w : H S A) : H R A :=
  fun x => let '(l, o, y) := w (mkhs (f (hv x)) (hslot x) (hm x) (hn x)) in
           (l, o, mkhs (set (hv y) (hv x)) (hslot y) (hm y) (hn y)).

Definition set_arr (m : mem) (a : nat) (bs : list byte) : mem := fun b => if Nat.eqb b a then bs else m b.
Definition set_slot (sl : nat -> slice) (k : nat) (s : slice) : nat -> slice :=
  fun j => if Nat.eqb j k then s else sl j.

(** [make([]byte, n)] *)
Definition hmake {R} (n : nat) : H R slice :=
  fun x => ([], Done (mkslice (hn x) 0 n n), mkhs (hv x) (hslot x) (set_arr (hm x) (hn x) (zeros n)) (S (hn x))).

(** [copy(dst[:], src)] *)
Definition hcopy {R} (dst src : slice) : H R unit :=
  fun x =>
    let l := hm x (s_arr dst) in
    let bs := go_copy (s_bytes (hm x) dst) (s_bytes (hm x) src) in
    ([], Done tt, mkhs (hv x) (hslot x)
       (set_arr (hm x) (s_arr dst) (firstn (s_off dst) l ++ bs ++ skipn (s_off dst + s_len dst) l)%list) (hn x)).

(** [x.f = s], [f] the slice number [k] *)
Definition hset {R} (k : nat) (s : slice) : H R unit :=
  fun x => ([], Done tt, mkhs (hv x) (set_slot (hslot x) k s) (hm x) (hn x)).

(** [x.f] *)
Definition hget {R} (k : nat) : H R slice := get (fun x => hslot x k).

(** [x.f = make(T, n); copy(x.f[:], buf[lo:hi])] *)
Definition hmaketo {R} (k n : nat) (buf : slice) (lo hi : nat) : H R unit :=
  let? s := hmake n in
  hset k s ;>
  let? src := lift (reslice buf lo hi) in
  let? dst := hget k in
  hcopy dst src.

(** [x.f = make(T, len(buffer)); copy(x.f[:], buffer[:])] (base.go:12-16, bth.go:199-201) *)
Definition hkeep {R} (k : nat) (buffer : slice) : H R unit :=
  let? s := hmake (s_len buffer) in
  hset k s ;>
  let? dst := hget k in
  hcopy dst buffer.

(** ** Package clc *)

(** IBGID, IBMAC: clc_accept_smcr.go:49-50, clc_proposal.go:33-34, clc_proposal_v2.go:53-54; Prefix:
    clc_proposal.go:42, clc_proposal_v2.go:64; prefixes: clc_proposal.go:19 *)
Definition sIBGID : nat := 0.
Definition sIBMAC : nat := 1.
Definition sPrefix : nat := 2.
Definition sIPv6 (i : nat) : nat := (3 + i)%nat.

(** clc_accept_smcr.go:99-178 *)
Definition AcceptSMCR_H (buf : slice) : H AcceptSMCR unit :=
  onval (fun _ => change (set_ar_Raw buf)) ;>
  onval (fun m => part ar_Header set_ar_Header (Header_W m buf)) ;>
  let? hdr := onval (fun _ => get ar_Header) in
  if h_Length hdr <? AcceptSMCRLen then
    onval (fun m => complain m (too_short hdr) buf (N.to_nat (h_Length hdr)))
  else
    let? buf := lift (from buf HeaderLen) in
    onval (fun m => copyto ar_SenderPeerID set_ar_SenderPeerID m buf 0 PeerIDLen) ;>
    let? buf := lift (from buf PeerIDLen) in
    hmaketo sIBGID 16 buf 0 16 ;>
    let? buf := lift (from buf 16) in
    hmaketo sIBMAC 6 buf 0 6 ;>
    let? buf := lift (from buf 6) in
    onval (fun m => write24 ar_QPN set_ar_QPN m buf) ;>
    let? buf := lift (from buf 3) in
    onval (fun m => assign set_ar_RMBRKey (be32 m buf 0 4)) ;>
    let? buf := lift (from buf 4) in
    onval (fun m => assignf set_ar_RMBEIdx b2n (idx m buf 0)) ;>
    let? buf := lift (from buf 1) in
    onval (fun m => assign set_ar_RMBEAlertToken (be32 m buf 0 4)) ;>
    let? buf := lift (from buf 4) in
    onval (fun m => assignf set_ar_RMBESize (fun b => N.shiftr (N.land (b2n b) 0xf0) 4) (idx m buf 0)) ;>
    onval (fun m => assignf set_ar_QPMTU (fun b => N.land (b2n b) 0x0f) (idx m buf 0)) ;>
    let? buf := lift (from buf 1) in
    onval (fun m => assignf set_ar_reserved b2n (idx m buf 0)) ;>
    let? buf := lift (from buf 1) in
    onval (fun m => assign set_ar_RMBDMAAddr (be64 m buf 0 8)) ;>
    let? buf := lift (from buf 8) in
    onval (fun m => assignf set_ar_reserved2 b2n (idx m buf 0)) ;>
    let? buf := lift (from buf 1) in
    onval (fun m => write24 ar_PSN set_ar_PSN m buf) ;>
    let? buf := lift (from buf 3) in
    onval (fun m => part ar_Trailer set_ar_Trailer (Trailer_W m buf)).

(** one IPv6 prefix (clc_proposal.go:190-202, clc_proposal_v2.go:370-383): the slice of a new
    entry is made and filled, then the entry is appended *)
Definition prefix_H (buf : slice) (skip : nat) : H IPInfo unit :=
  let? s := hmake 16 in
  let? src := lift (reslice buf skip (skip + 16)) in
  hcopy s src ;>
  let? plen := onval (fun m => lift (idx m buf (skip + 16))) in
  let? old := onval (fun _ => get i_IPv6Prefixes) in
  onval (fun _ => change (set_i_IPv6Prefixes (old ++ [mkIPv6Prefix [] (b2n plen)])%list)) ;>
  hset (sIPv6 (List.length old)) s.

(** the loop of clc_proposal.go:178-203, [n] iterations remaining *)
Fixpoint prefixes_v1_H (buf : slice) (len skip n : nat) : H IPInfo unit :=
  match n with
  | O => wret tt
  | S n' =>
    let skip := (skip + 1)%nat in
    if short len skip (IPv6PrefixLen + TrailerLen) then
      onval (fun m => complain m "Error parsing CLC Proposal: IPv6 prefix count too big" buf len)
    else
      prefix_H buf skip ;>
      prefixes_v1_H buf len (skip + 16) n'
  end.

(** clc_proposal.go:154-203; [false] = Parse returns here *)
Definition ip_area_v1_H (buf : slice) (len skip : nat) : H IPInfo bool :=
  if short len skip (4 + 1 + 2 + 1 + TrailerLen) then
    onval (fun m => complain m "Error parsing CLC Proposal: IP Area Offset too big" buf len) ;>
    wret false
  else
    hmaketo sPrefix 4 buf skip (skip + 4) ;>
    let skip := (skip + 4)%nat in
    onval (fun m => assignf set_i_PrefixLen b2n (idx m buf skip)) ;>
    let skip := (skip + 1)%nat in
    onval (fun m => copyto i_reserved2 set_i_reserved2 m buf skip (skip + 2)) ;>
    let skip := (skip + 2)%nat in
    onval (fun m => assignf set_i_IPv6PrefixesCnt b2n (idx m buf skip)) ;>
    let? cnt := onval (fun _ => get i_IPv6PrefixesCnt) in
    prefixes_v1_H buf len skip (N.to_nat cnt) ;>
    wret true.

(** clc_proposal.go:105-207 *)
Definition Proposal_H (buf : slice) : H Proposal unit :=
  onval (fun _ => change (set_p_Raw buf)) ;>
  onval (fun m => part p_Header set_p_Header (Header_W m buf)) ;>
  let? hdr := onval (fun _ => get p_Header) in
  let len := N.to_nat (h_Length hdr) in
  if h_Length hdr <? ProposalLen then
    onval (fun m => complain m "Error parsing CLC Proposal: message too short" buf len)
  else
    let skip := HeaderLen in
    onval (fun m => copyto p_SenderPeerID set_p_SenderPeerID m buf skip (skip + PeerIDLen)) ;>
    let skip := (skip + PeerIDLen)%nat in
    hmaketo sIBGID 16 buf skip (skip + 16) ;>
    let skip := (skip + 16)%nat in
    hmaketo sIBMAC 6 buf skip (skip + 6) ;>
    let skip := (skip + 6)%nat in
    onval (fun m => assign set_p_IPAreaOffset (be16 m buf skip (skip + 2))) ;>
    let skip := (skip + 2)%nat in
    let? skip := onval (fun m => smcd_v1_W m buf skip) in
    let? go_on := hpart p_IP set_p_IP (ip_area_v1_H buf len skip) in
    if go_on then onval (fun m => part p_Trailer set_p_Trailer (Trailer_W m buf)) else wret tt.

(** the loop of clc_proposal_v2.go:361-384; returns the final [skip] *)
Fixpoint prefixes_v2_H (buf : slice) (len skip n : nat) : H IPInfo nat :=
  match n with
  | O => wret skip
  | S n' =>
    if short len skip (IPv6PrefixLen + TrailerLen) then
      onval (fun m => complain m "Error parsing CLC Proposal v2: IPv6 prefix count too big" buf len) ;>
      wret skip
    else
      prefix_H buf skip ;>
      prefixes_v2_H buf len (skip + 16 + 1) n'
  end.

(** clc_proposal_v2.go:334-385; [None] = Parse returns here *)
Definition ip_area_v2_H (buf : slice) (hdr : Header) (len skip : nat) : H IPInfo (option nat) :=
  if negb (h_Path hdr =? SMCTypeN) then
    if short len skip (4 + 1 + 2 + 1 + TrailerLen) then
      onval (fun m => complain m "Error parsing CLC Proposal v2: IP Area Offset too big" buf len) ;>
      wret None
    else
      hmaketo sPrefix 4 buf skip (skip + 4) ;>
      let skip := (skip + 4)%nat in
      onval (fun m => assignf set_i_PrefixLen b2n (idx m buf skip)) ;>
      let skip := (skip + 1)%nat in
      onval (fun m => copyto i_reserved2 set_i_reserved2 m buf skip (skip + 2)) ;>
      let skip := (skip + 2)%nat in
      onval (fun m => assignf set_i_IPv6PrefixesCnt b2n (idx m buf skip)) ;>
      let skip := (skip + 1)%nat in
      let? cnt := onval (fun _ => get i_IPv6PrefixesCnt) in
      let? skip := prefixes_v2_H buf len skip (N.to_nat cnt) in
      wret (Some skip)
  else wret (Some skip).

(** clc_proposal_v2.go:282-487 *)
Definition ProposalV2_H (buf : slice) : H ProposalV2 unit :=
  onval (fun _ => change (set_p2_Raw buf)) ;>
  onval (fun m => part p2_Header set_p2_Header (Header_W m buf)) ;>
  let? hdr := onval (fun _ => get p2_Header) in
  let len := N.to_nat (h_Length hdr) in
  if h_Length hdr <? ProposalV2Len then
    onval (fun m => complain m "Error parsing CLC Proposal v2: message too short" buf len)
  else
    let skip := HeaderLen in
    onval (fun m => copyto p2_SenderPeerID set_p2_SenderPeerID m buf skip (skip + PeerIDLen)) ;>
    let skip := (skip + PeerIDLen)%nat in
    hmaketo sIBGID 16 buf skip (skip + 16) ;>
    let skip := (skip + 16)%nat in
    hmaketo sIBMAC 6 buf skip (skip + 6) ;>
    let skip := (skip + 6)%nat in
    onval (fun m => assign set_p2_IPAreaOffset (be16 m buf skip (skip + 2))) ;>
    let skip := (skip + 2)%nat in
    onval (fun m => assign set_p2_SMCDGID (be64 m buf skip (skip + 8))) ;>
    let skip := (skip + 8)%nat in
    onval (fun m => assign set_p2_ISMv2VCHID (be16 m buf skip (skip + 2))) ;>
    let skip := (skip + 2)%nat in
    onval (fun m => assign set_p2_SMCv2Offset (be16 m buf skip (skip + 2))) ;>
    let skip := (skip + 2)%nat in
    onval (fun m => copyto p2_reserved set_p2_reserved m buf skip (skip + 28)) ;>
    let skip := (skip + 28)%nat in
    let? r := hpart p2_IP set_p2_IP (ip_area_v2_H buf hdr len skip) in
    match r with
    | None => wret tt
    | Some skip =>
      let? r := onval (fun m => part p2_Ext set_p2_Ext (ext_v2_W m buf hdr len skip)) in
      match r with
      | None => wret tt
      | Some skip =>
        let? ext := onval (fun _ => get p2_Ext) in
        let? go_on := onval (fun m => part p2_SMCD set_p2_SMCD
                        (smcd_v2_W m buf hdr len skip (x_GIDNumber ext))) in
        if go_on then onval (fun m => part p2_Trailer set_p2_Trailer (Trailer_W m buf)) else wret tt
      end
    end.

(** ** Packages llc and roce *)

(** Raw: base.go:7, bth.go:181; SenderMAC, SenderGID: llc_addlink.go:61-63, llc_confirmlink.go:15-16 *)
Definition sRaw : nat := 0.
Definition sSenderMAC : nat := 1.
Definition sSenderGID : nat := 2.

(** base.go:18-29; [f] is the embedded BaseMsg *)
Definition BaseMsg_H {R} (f : R -> BaseMsg) (set : BaseMsg -> R -> R) (buffer : slice) : H R unit :=
  hkeep sRaw buffer ;>
  onval (fun m => assign (fun v r => set (set_b_Type v (f r)) r) (byte0 m buffer)) ;>
  let? buffer := lift (from buffer 1) in
  onval (fun m => assign (fun v r => set (set_b_Length v (f r)) r) (byte0 m buffer)).

(** llc_addlink.go:72-135 *)
Definition AddLink_H (buffer : slice) : H AddLink unit :=
  BaseMsg_H al_Base set_al_Base buffer ;>
  let? buffer := lift (from buffer 2) in
  onval (fun m => assignf set_al_res1 (fun b => N.shiftr b 4) (byte0 m buffer)) ;>
  onval (fun m => assign set_al_RsnCode (masked m buffer 0x0f)) ;>
  let? buffer := lift (from buffer 1) in
  onval (fun m => assign set_al_Reply (flag m buffer 0x80)) ;>
  onval (fun m => assign set_al_Reject (flag m buffer 0x40)) ;>
  onval (fun m => assign set_al_res2 (masked m buffer 0x3f)) ;>
  let? buffer := lift (from buffer 1) in
  hmaketo sSenderMAC 6 buffer 0 6 ;>
  let? buffer := lift (from buffer 6) in
  onval (fun m => copyto al_res5 set_al_res5 m buffer 0 2) ;>
  let? buffer := lift (from buffer 2) in
  hmaketo sSenderGID 16 buffer 0 16 ;>
  let? buffer := lift (from buffer 16) in
  onval (fun m => write24 al_SenderQP set_al_SenderQP m buffer) ;>
  let? buffer := lift (from buffer 3) in
  onval (fun m => assign set_al_Link (byte0 m buffer)) ;>
  let? buffer := lift (from buffer 1) in
  onval (fun m => assignf set_al_res3 (fun b => N.shiftr b 4) (byte0 m buffer)) ;>
  onval (fun m => assign set_al_MTU (masked m buffer 0x0f)) ;>
  let? buffer := lift (from buffer 1) in
  onval (fun m => write24 al_PSN set_al_PSN m buffer) ;>
  let? buffer := lift (from buffer 3) in
  onval (fun m => copyall al_res4 set_al_res4 m buffer).

(** llc_confirmlink.go:25-72 *)
Definition ConfirmLink_H (buffer : slice) : H ConfirmLink unit :=
  BaseMsg_H cl_Base set_cl_Base buffer ;>
  let? buffer := lift (from buffer 2) in
  onval (fun m => assign set_cl_res1 (byte0 m buffer)) ;>
  let? buffer := lift (from buffer 1) in
  onval (fun m => assign set_cl_Reply (flag m buffer 0x80)) ;>
  onval (fun m => assign set_cl_res2 (masked m buffer 0x7f)) ;>
  let? buffer := lift (from buffer 1) in
  hmaketo sSenderMAC 6 buffer 0 6 ;>
  let? buffer := lift (from buffer 6) in
  hmaketo sSenderGID 16 buffer 0 16 ;>
  let? buffer := lift (from buffer 16) in
  onval (fun m => write24 cl_SenderQP set_cl_SenderQP m buffer) ;>
  let? buffer := lift (from buffer 3) in
  onval (fun m => assign set_cl_Link (byte0 m buffer)) ;>
  let? buffer := lift (from buffer 1) in
  onval (fun m => assign set_cl_SenderLinkUserID (be32 m buffer 0 4)) ;>
  let? buffer := lift (from buffer 4) in
  onval (fun m => assign set_cl_MaxLinks (byte0 m buffer)) ;>
  let? buffer := lift (from buffer 1) in
  onval (fun m => copyall cl_res3 set_cl_res3 m buffer).

(** The other LLC messages (llc_addlinkcont.go:46-86, llc_deletelink.go:52-85, llc_confirmrkey.go:48-97,
    llc_confirmrkeycont.go:19-59, llc_deleterkey.go:23-75, llc_testlink.go:15-37, cdc.go:31-110,
    other.go:13-18) and the BTH (bth.go:197-251) first make Raw and have no other slice; [clear]
    removes the bytes that LlcWriteModel.v stores in its place *)
Definition raw_first {R} (buffer : slice) (w : mem -> W R unit) (clear : R -> R) : H R unit :=
  hkeep sRaw buffer ;>
  onval (fun m r => let '(l, o, r1) := w m r in (l, o, clear r1)).

Definition no_raw (b : BaseMsg) : BaseMsg := set_b_Raw [] b.

(** ** Objects of all types *)

Inductive thing := TClc (msg : Message) | TLlc (msg : LLCMessage) | TBth (b : BTH).

(** [w] on the object inside an interface value *)
Definition hinside {R} (con : R -> thing) (w : H R unit) (r : R) : H thing unit :=
  fun x => let '(l, o, y) := w (mkhs r (hslot x) (hm x) (hn x)) in
           (l, o, mkhs (con (hv y)) (hslot y) (hm y) (hn y)).

(** [x.Parse(buf)] (clc/message.go:14-20, llc/message.go:3-10, bth.go:197-251); CLC types without
    these slices are those of WriteModel.v *)
Definition Parse_H (buf : slice) : H thing unit :=
  fun x =>
    match hv x with
    | TClc (MProposal p) => hinside (fun p => TClc (MProposal p)) (Proposal_H buf) p x
    | TClc (MProposalV2 p) => hinside (fun p => TClc (MProposalV2 p)) (ProposalV2_H buf) p x
    | TClc (MAcceptSMCR a) => hinside (fun a => TClc (MAcceptSMCR a)) (AcceptSMCR_H buf) a x
    | TClc (MConfirmSMCR c) =>
      hinside (fun a => TClc (MConfirmSMCR (mkConfirmSMCR a))) (AcceptSMCR_H buf) (cr_Accept c) x
    | TClc msg => hinside TClc (onval (fun m => Message_W m buf)) msg x
    | TLlc (LAddLink a) => hinside (fun a => TLlc (LAddLink a)) (AddLink_H buf) a x
    | TLlc (LConfirm c) => hinside (fun c => TLlc (LConfirm c)) (ConfirmLink_H buf) c x
    | TLlc (LAddLinkCont a) => hinside (fun a => TLlc (LAddLinkCont a))
        (raw_first buf (fun m => AddLinkCont_W m buf) (fun a => set_ac_Base (no_raw (ac_Base a)) a)) a x
    | TLlc (LDeleteLink d) => hinside (fun d => TLlc (LDeleteLink d))
        (raw_first buf (fun m => DeleteLink_W m buf) (fun d => set_dl_Base (no_raw (dl_Base d)) d)) d x
    | TLlc (LConfirmRKey c) => hinside (fun c => TLlc (LConfirmRKey c))
        (raw_first buf (fun m => ConfirmRKey_W m buf) (fun c => set_ck_Base (no_raw (ck_Base c)) c)) c x
    | TLlc (LConfirmRKeyCont c) => hinside (fun c => TLlc (LConfirmRKeyCont c))
        (raw_first buf (fun m => ConfirmRKeyCont_W m buf) (fun c => set_cc_Base (no_raw (cc_Base c)) c)) c x
    | TLlc (LDeleteRKey d) => hinside (fun d => TLlc (LDeleteRKey d))
        (raw_first buf (fun m => deleteRKey_W m buf) (fun d => set_dk_Base (no_raw (dk_Base d)) d)) d x
    | TLlc (LTestLink t) => hinside (fun t => TLlc (LTestLink t))
        (raw_first buf (fun m => TestLink_W m buf) (fun t => set_tl_Base (no_raw (tl_Base t)) t)) t x
    | TLlc (LCDC c) => hinside (fun c => TLlc (LCDC c))
        (raw_first buf (fun m => CDC_W m buf) (fun c => set_c_Base (no_raw (c_Base c)) c)) c x
    | TLlc (LOther o) => hinside (fun o => TLlc (LOther o))
        (raw_first buf (fun m => Other_W m buf) (fun o => set_o_Base (no_raw (o_Base o)) o)) o x
    | TBth b => hinside TBth (raw_first buf (fun m => BTH_W m buf) (set_bth_Raw [])) b x
    end.
