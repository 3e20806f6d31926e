(** * IntModel: the arithmetic of package clc with machine integers.

    The other models compute positions in a message with natural numbers. In Go they are of
    type int, which has 32 or 64 bits and wraps around, differences may be negative, and the
    counters of the loops are of type uint8. This file models the functions that compute with
    ints once more, with ints of [w] bits. *)

From Coq Require Import List NArith ZArith Bool String Arith.
From Verif Require Import GoBase GoFmt ClcModel.
Import ListNotations.
Local Open Scope string_scope.
Local Open Scope N_scope.

Section ints.
  (** the number of bits, a limit to the number of iterations of each loop, the memory *)
  Context (w : Z) (fuel : nat) (m : mem).

  Definition wrap (z : Z) : Z := ((z + 2 ^ (w - 1)) mod 2 ^ w - 2 ^ (w - 1))%Z.
  Definition iadd (a b : Z) : Z := wrap (a + b).
  Definition isub (a b : Z) : Z := wrap (a - b).
  (** [int(x)], [x] unsigned *)
  Definition int_of (x : N) : Z := wrap (Z.of_N x).
  (** [uint8(x)] *)
  Definition u8 (x : N) : N := x mod 256.

  (** [skip + n], [n] a constant *)
  Local Notation "s ':+' n" := (iadd s (Z.of_nat n)) (at level 50, left associativity).

  (** a loop that goes on after all iterations of the limit *)
  Definition forever {A} : M A := ([], Exited).

  (** [buf[lo:hi]], [buf[i]] with ints: negative numbers panic *)
  Definition slice_I (buf : slice) (lo hi : Z) : M slice :=
    if ((lo <? 0) || (hi <? 0))%Z then panic else reslice buf (Z.to_nat lo) (Z.to_nat hi).
  Definition idx_I (buf : slice) (i : Z) : M byte := if (i <? 0)%Z then panic else idx m buf (Z.to_nat i).
  Definition copy_I (dst : list byte) (buf : slice) (lo hi : Z) : M (list byte) :=
    let* s := slice_I buf lo hi in ret (go_copy dst (s_bytes m s)).
  Definition be16_I (buf : slice) (lo hi : Z) : M N := let* s := slice_I buf lo hi in Uint16 m s.
  Definition be64_I (buf : slice) (lo hi : Z) : M N := let* s := slice_I buf lo hi in Uint64 m s.

  (** [buf[len(buf)-n:]] (trailer.go:15, :18, roce.go:38, :59) and [buf[:len(buf)-n]] (roce.go:39, :60) *)
  Definition last_I (buf : slice) (n : nat) : M slice :=
    slice_I buf (isub (Z.of_nat (s_len buf)) (Z.of_nat n)) (Z.of_nat (s_len buf)).
  Definition drop_last_I (buf : slice) (n : nat) : M slice :=
    slice_I buf 0 (isub (Z.of_nat (s_len buf)) (Z.of_nat n)).

  (** [int(buf[0]) << 16; x |= int(buf[1]) << 8; x |= int(buf[2])] (clc_accept_smcr.go:136-138, :171-173) *)
  Definition be24_I (buf : slice) : M Z :=
    let* b0 := idx m buf 0 in
    let* b1 := idx m buf 1 in
    let* b2 := idx m buf 2 in
    ret (Z.lor (Z.lor (wrap (Z.shiftl (int_of (b2n b0)) 16)) (wrap (Z.shiftl (int_of (b2n b1)) 8))) (int_of (b2n b2))).

  (** rmbesize.go:8-12; [s + 14] is of type uint8 *)
  Definition RMBESize_I (s : N) : string :=
    cat [dec s; " ("; decZ (wrap (Z.shiftl 1 (Z.of_N (u8 (s + 14))))); ")"].

  (** trailer.go:13-21 *)
  Definition Trailer_I (t : list byte) (buf : slice) : M (list byte) :=
    let* s := last_I buf TrailerLen in
    let t := go_copy t (s_bytes m s) in
    if HasEyecatcher_arr t then ret t
    else
      log_ln "Error parsing CLC message: invalid trailer" ;;
      let* s := last_I buf TrailerLen in
      errDump m s ;;
      ret t.

  (** [int(p.Length)-skip < k] (clc_proposal.go:155, :184, clc_proposal_v2.go:337, :364, :390, :432, :448, :466) *)
  Definition short_I (len : N) (skip : Z) (k : nat) : bool := (isub (int_of len) skip <? Z.of_nat k)%Z.

  (** the loop of clc_proposal.go:178-203; [i] is the counter, [cnt] is [p.IPv6PrefixesCnt] *)
  Fixpoint prefixes_v1_I (fuel : nat) (buf : slice) (len : N) (skip : Z) (acc : list IPv6Prefix)
      (i cnt : N) : M (list IPv6Prefix) :=
    match fuel with
    | O => forever
    | S fuel =>
      if i <? cnt then
        let skip := skip :+ 1 in
        if short_I len skip (IPv6PrefixLen + TrailerLen) then
          log_ln "Error parsing CLC Proposal: IPv6 prefix count too big" ;;
          let* d := upto buf (N.to_nat len) in
          errDump m d ;;
          ret acc
        else
          let* prefix := copy_I (zeros 16) buf skip (skip :+ 16) in
          let skip := skip :+ 16 in
          let* plen := idx_I buf skip in
          prefixes_v1_I fuel buf len skip (acc ++ [mkIPv6Prefix prefix (b2n plen)])%list (u8 (i + 1)) cnt
      else ret acc
    end.

  (** clc_proposal.go:154-203; [None] = Parse returns here *)
  Definition ip_area_v1_I (buf : slice) (len : N) (skip : Z) (ip : IPInfo)
    : M (option IPInfo) :=
    if short_I len skip (4 + 1 + 2 + 1 + TrailerLen) then
      log_ln "Error parsing CLC Proposal: IP Area Offset too big" ;;
      let* d := upto buf (N.to_nat len) in
      errDump m d ;;
      ret None
    else
      let* prefix := copy_I (zeros 4) buf skip (skip :+ 4) in
      let skip := skip :+ 4 in
      let* plen := idx_I buf skip in
      let skip := skip :+ 1 in
      let* reserved2 := copy_I (i_reserved2 ip) buf skip (skip :+ 2) in
      let skip := skip :+ 2 in
      let* cnt := idx_I buf skip in
      let* prefixes := prefixes_v1_I fuel buf len skip (i_IPv6Prefixes ip) 0 (b2n cnt) in
      ret (Some (mkIPInfo prefix (b2n plen) reserved2 (b2n cnt) prefixes)).

  (** clc_proposal.go:105-207 *)
  Definition Proposal_I (p : Proposal) (buf : slice) : M Proposal :=
    let raw := buf in
    let* hdr := Header_Parse m (p_Header p) buf in
    let len := h_Length hdr in
    if h_Length hdr <? ProposalLen then
      log_ln "Error parsing CLC Proposal: message too short" ;;
      let* d := upto buf (N.to_nat len) in
      errDump m d ;;
      ret (mkProposal raw hdr (p_SenderPeerID p) (p_IBGID p) (p_IBMAC p) (p_IPAreaOffset p)
             (p_SMCDGID p) (p_reserved p) (p_IP p) (p_Trailer p))
    else
      let skip := Z.of_nat HeaderLen in
      let* peerID := copy_I (p_SenderPeerID p) buf skip (skip :+ PeerIDLen) in
      let skip := skip :+ PeerIDLen in
      let* gid := copy_I (zeros 16) buf skip (skip :+ 16) in
      let skip := skip :+ 16 in
      let* mac := copy_I (zeros 6) buf skip (skip :+ 6) in
      let skip := skip :+ 6 in
      let* offset := be16_I buf skip (skip :+ 2) in
      let skip := skip :+ 2 in
      let* smcd :=
        (if offset =? SMCDIPAreaOffset then
           let* smcdGID := be64_I buf skip (skip :+ 8) in
           let skip := skip :+ 8 in
           let* reserved := copy_I (p_reserved p) buf skip (skip :+ 32) in
           let skip := skip :+ 32 in
           ret (smcdGID, reserved, skip)
         else
           ret (p_SMCDGID p, p_reserved p, iadd skip (int_of offset))) in
      let '(smcdGID, reserved, skip) := smcd in
      let* ip := ip_area_v1_I buf len skip (p_IP p) in
      match ip with
      | None =>
        ret (mkProposal raw hdr peerID gid mac offset smcdGID reserved (p_IP p) (p_Trailer p))
      | Some ip =>
        let* trailer := Trailer_I (p_Trailer p) buf in
        ret (mkProposal raw hdr peerID gid mac offset smcdGID reserved ip trailer)
      end.

  (** the loop of clc_proposal_v2.go:361-384 *)
  Fixpoint prefixes_v2_I (fuel : nat) (buf : slice) (len : N) (skip : Z) (acc : list IPv6Prefix)
      (i cnt : N) : M (list IPv6Prefix * Z) :=
    match fuel with
    | O => forever
    | S fuel =>
      if i <? cnt then
        if short_I len skip (IPv6PrefixLen + TrailerLen) then
          log_ln "Error parsing CLC Proposal v2: IPv6 prefix count too big" ;;
          let* d := upto buf (N.to_nat len) in
          errDump m d ;;
          ret (acc, skip)
        else
          let* prefix := copy_I (zeros 16) buf skip (skip :+ 16) in
          let skip := skip :+ 16 in
          let* plen := idx_I buf skip in
          let skip := skip :+ 1 in
          prefixes_v2_I fuel buf len skip (acc ++ [mkIPv6Prefix prefix (b2n plen)])%list (u8 (i + 1)) cnt
      else ret (acc, skip)
    end.

  (** clc_proposal_v2.go:334-385 *)
  Definition ip_area_v2_I (buf : slice) (hdr : Header) (len : N) (skip : Z) (ip : IPInfo)
    : M (option (IPInfo * Z)) :=
    if negb (h_Path hdr =? SMCTypeN) then
      if short_I len skip (4 + 1 + 2 + 1 + TrailerLen) then
        log_ln "Error parsing CLC Proposal v2: IP Area Offset too big" ;;
        let* d := upto buf (N.to_nat len) in
        errDump m d ;;
        ret None
      else
        let* prefix := copy_I (zeros 4) buf skip (skip :+ 4) in
        let skip := skip :+ 4 in
        let* plen := idx_I buf skip in
        let skip := skip :+ 1 in
        let* reserved2 := copy_I (i_reserved2 ip) buf skip (skip :+ 2) in
        let skip := skip :+ 2 in
        let* cnt := idx_I buf skip in
        let skip := skip :+ 1 in
        let* r := prefixes_v2_I fuel buf len skip (i_IPv6Prefixes ip) 0 (b2n cnt) in
        let (prefixes, skip) := r in
        ret (Some (mkIPInfo prefix (b2n plen) reserved2 (b2n cnt) prefixes, skip))
    else ret (Some (ip, skip)).

  (** the loop of clc_proposal_v2.go:429-442 *)
  Fixpoint eids_v2_I (fuel : nat) (buf : slice) (len : N) (skip : Z) (area : list (list byte))
      (i cnt : N) : M (list (list byte) * Z) :=
    match fuel with
    | O => forever
    | S fuel =>
      if i <? cnt then
        if short_I len skip (EIDLen + TrailerLen) then
          log_ln "Error parsing CLC Proposal v2: EID number too big" ;;
          let* d := upto buf (N.to_nat len) in
          errDump m d ;;
          ret (area, skip)
        else
          let* old := get_nth area (N.to_nat i) in
          let* eid := copy_I old buf skip (skip :+ EIDLen) in
          let* area := set_nth area (N.to_nat i) eid in
          let skip := skip :+ EIDLen in
          eids_v2_I fuel buf len skip area (u8 (i + 1)) cnt
      else ret (area, skip)
    end.

  (** clc_proposal_v2.go:387-443 *)
  Definition ext_v2_I (buf : slice) (hdr : Header) (len : N) (skip : Z) (x : V2Ext)
    : M (option (V2Ext * Z)) :=
    if negb (h_Pathv2 hdr =? SMCTypeN) then
      if short_I len skip (ProposalV2ExtLen + TrailerLen) then
        log_ln "Error parsing CLC Proposal v2: Not enough space for Proposal v2 Extension" ;;
        let* d := upto buf (N.to_nat len) in
        errDump m d ;;
        ret None
      else
        let* eidNumber := idx_I buf skip in
        let skip := skip :+ 1 in
        let* gidNumber := idx_I buf skip in
        let skip := skip :+ 1 in
        let* reserved3 := idx_I buf skip in
        let skip := skip :+ 1 in
        let* b := idx_I buf skip in
        let release := N.shiftr (b2n b) 4 in
        let* b := idx_I buf skip in
        let reserved4 := N.shiftr (N.land (b2n b) 0x0e) 1 in
        let* b := idx_I buf skip in
        let seidInd := N.land (b2n b) 0x01 in
        let skip := skip :+ 1 in
        let* reserved5 := copy_I (x_reserved5 x) buf skip (skip :+ 2) in
        let skip := skip :+ 2 in
        let* off := be16_I buf skip (skip :+ 2) in
        let skip := skip :+ 2 in
        let* reserved6 := copy_I (x_reserved6 x) buf skip (skip :+ 32) in
        let skip := skip :+ 32 in
        let* r := eids_v2_I fuel buf len skip (x_EIDArea x) 0 (b2n eidNumber) in
        let (area, skip) := r in
        ret (Some (mkV2Ext (b2n eidNumber) (b2n gidNumber) (b2n reserved3) release reserved4
                     seidInd reserved5 off reserved6 area, skip))
    else ret (Some (x, skip)).

  (** the loop of clc_proposal_v2.go:463-482 *)
  Fixpoint gids_v2_I (fuel : nat) (buf : slice) (len : N) (skip : Z) (area : list GIDEntry)
      (i cnt : N) : M (list GIDEntry) :=
    match fuel with
    | O => forever
    | S fuel =>
      if i <? cnt then
        if short_I len skip (8 + 2 + TrailerLen) then
          log_ln "Error parsing CLC Proposal v2: GID number too big" ;;
          let* d := upto buf (N.to_nat len) in
          errDump m d ;;
          ret area
        else
          let* gid := be64_I buf skip (skip :+ 8) in
          let* old := get_nth area (N.to_nat i) in
          let* area := set_nth area (N.to_nat i) (mkGIDEntry gid (g_VCHID old)) in
          let skip := skip :+ 8 in
          let* vchid := be16_I buf skip (skip :+ 2) in
          let* old := get_nth area (N.to_nat i) in
          let* area := set_nth area (N.to_nat i) (mkGIDEntry (g_GID old) vchid) in
          let skip := skip :+ 2 in
          gids_v2_I fuel buf len skip area (u8 (i + 1)) cnt
      else ret area
    end.

  (** clc_proposal_v2.go:445-483 *)
  Definition smcd_v2_I (buf : slice) (hdr : Header) (len : N) (skip : Z) (gidNumber : N)
      (y : SMCDExt) : M (option SMCDExt) :=
    if (h_Pathv2 hdr =? SMCTypeD) || (h_Pathv2 hdr =? SMCTypeB) then
      if short_I len skip (SMCDv2ExtLen + TrailerLen) then
        log_ln "Error parsing CLC Proposal v2: Not enough space for SMC-D v2 Extension" ;;
        let* d := upto buf (N.to_nat len) in
        errDump m d ;;
        ret None
      else
        let* seid := copy_I (y_SEID y) buf skip (skip :+ 32) in
        let skip := skip :+ 32 in
        let* reserved7 := copy_I (y_reserved7 y) buf skip (skip :+ 16) in
        let skip := skip :+ 16 in
        let* area := gids_v2_I fuel buf len skip (y_GIDArea y) 0 gidNumber in
        ret (Some (mkSMCDExt seid reserved7 area))
    else ret (Some y).

  (** clc_proposal_v2.go:282-487 *)
  Definition ProposalV2_I (p : ProposalV2) (buf : slice) : M ProposalV2 :=
    let raw := buf in
    let* hdr := Header_Parse m (p2_Header p) buf in
    let len := h_Length hdr in
    if h_Length hdr <? ProposalV2Len then
      log_ln "Error parsing CLC Proposal v2: message too short" ;;
      let* d := upto buf (N.to_nat len) in
      errDump m d ;;
      ret (mkProposalV2 raw hdr (p2_SenderPeerID p) (p2_IBGID p) (p2_IBMAC p)
             (p2_IPAreaOffset p) (p2_SMCDGID p) (p2_ISMv2VCHID p) (p2_SMCv2Offset p)
             (p2_reserved p) (p2_IP p) (p2_Ext p) (p2_SMCD p) (p2_Trailer p))
    else
      let skip := Z.of_nat HeaderLen in
      let* peerID := copy_I (p2_SenderPeerID p) buf skip (skip :+ PeerIDLen) in
      let skip := skip :+ PeerIDLen in
      let* gid := copy_I (zeros 16) buf skip (skip :+ 16) in
      let skip := skip :+ 16 in
      let* mac := copy_I (zeros 6) buf skip (skip :+ 6) in
      let skip := skip :+ 6 in
      let* offset := be16_I buf skip (skip :+ 2) in
      let skip := skip :+ 2 in
      let* smcdGID := be64_I buf skip (skip :+ 8) in
      let skip := skip :+ 8 in
      let* vchid := be16_I buf skip (skip :+ 2) in
      let skip := skip :+ 2 in
      let* v2offset := be16_I buf skip (skip :+ 2) in
      let skip := skip :+ 2 in
      let* reserved := copy_I (p2_reserved p) buf skip (skip :+ 28) in
      let skip := skip :+ 28 in
      let done ip ext smcd trailer :=
        mkProposalV2 raw hdr peerID gid mac offset smcdGID vchid v2offset reserved
          ip ext smcd trailer in
      let* r := ip_area_v2_I buf hdr len skip (p2_IP p) in
      match r with
      | None => ret (done (p2_IP p) (p2_Ext p) (p2_SMCD p) (p2_Trailer p))
      | Some (ip, skip) =>
        let* r := ext_v2_I buf hdr len skip (p2_Ext p) in
        match r with
        | None => ret (done ip (p2_Ext p) (p2_SMCD p) (p2_Trailer p))
        | Some (ext, skip) =>
          let* r := smcd_v2_I buf hdr len skip (x_GIDNumber ext) (p2_SMCD p) in
          match r with
          | None => ret (done ip ext (p2_SMCD p) (p2_Trailer p))
          | Some smcd =>
            let* trailer := Trailer_I (p2_Trailer p) buf in
            ret (done ip ext smcd trailer)
          end
        end
      end.

End ints.
