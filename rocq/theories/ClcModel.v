(** * ClcModel: package clc (/repo/pkg/clc) as Gallina functions.

    Every definition cites the file and lines it models.  Conventions:
    - unsigned integers are [N]; [[k]byte], [net.IP] and [net.HardwareAddr] are
      lists of bytes ([[]] = nil);
    - [Raw] is a slice (it aliases the caller's buffer), read through a memory;
    - [x.Parse(buf)] is a function from the memory, the old value of [*x] and
      [buf] to the log lines and the new value of [*x] (or a panic).  Field
      assignments made before a panic are not visible here, but in WriteModel.v;
    - [fmt.Sprintf] is string concatenation. *)

From Coq Require Import List NArith ZArith Bool String Ascii Arith.
From Verif Require Import GoBase GoFmt.
Import ListNotations.
Local Open Scope string_scope.
Local Open Scope N_scope.

(** [copy(dst[:], buf[lo:hi])] *)
Definition copy_from (m : mem) (dst : list byte) (buf : slice) (lo hi : nat) : M (list byte) :=
  let* s := reslice buf lo hi in
  ret (go_copy dst (s_bytes m s)).

(** [binary.BigEndian.UintN(buf[lo:hi])] *)
Definition be16 (m : mem) (buf : slice) (lo hi : nat) : M N :=
  let* s := reslice buf lo hi in Uint16 m s.
Definition be32 (m : mem) (buf : slice) (lo hi : nat) : M N :=
  let* s := reslice buf lo hi in Uint32 m s.
Definition be64 (m : mem) (buf : slice) (lo hi : nat) : M N :=
  let* s := reslice buf lo hi in Uint64 m s.

(** [x = int(buf[0]) << 16; x |= int(buf[1]) << 8; x |= int(buf[2])] *)
Definition be24 (m : mem) (buf : slice) : M N :=
  let* b0 := idx m buf 0 in
  let* b1 := idx m buf 1 in
  let* b2 := idx m buf 2 in
  ret (N.lor (N.lor (N.shiftl (b2n b0) 16) (N.shiftl (b2n b1) 8)) (b2n b2)).

(** a method of a pointer type whose body starts with
    [if x == nil { return "n/a" }] *)
Definition nil_na {A} (f : A -> string) (p : option A) : string :=
  match p with None => "n/a" | Some a => f a end.

(** ** errdump.go:8-11 *)
Definition errDump (m : mem) (buf : slice) : M unit :=
  log_ln ("Message Buffer Hex Dump:" ++ nl ++ hex_dump (s_bytes m buf)).

(** ** eyecatcher.go *)

(** eyecatcher.go:6-9 *)
Definition SMCREyecatcher : list byte := [xe2; xd4; xc3; xd9].
Definition SMCDEyecatcher : list byte := [xe2; xd4; xc3; xc4].
(** eyecatcher.go:11-14 *)
Definition EyecatcherLen : nat := 4.

(** [bytes.Compare(a, b) == 0] *)
Fixpoint bytes_eq (a b : list byte) : bool :=
  match a, b with
  | [], [] => true
  | x :: a', y :: b' => Byte.eqb x y && bytes_eq a' b'
  | _, _ => false
  end.

(** eyecatcher.go:19-28 *)
Definition Eyecatcher_String (e : list byte) : string :=
  if bytes_eq e SMCREyecatcher then "SMC-R"
  else if bytes_eq e SMCDEyecatcher then "SMC-D"
  else "Unknown".

(** eyecatcher.go:30-39 *)
Definition HasEyecatcher (m : mem) (buf : slice) : M bool :=
  let* s := upto buf EyecatcherLen in
  if bytes_eq (s_bytes m s) SMCREyecatcher then ret true
  else
    let* s := upto buf EyecatcherLen in
    if bytes_eq (s_bytes m s) SMCDEyecatcher then ret true
    else ret false.

(** eyecatcher.go:30-39 applied to [t[:]] for a 4-byte array [t] (as in
    trailer.go:16), where the slice expressions cannot panic *)
Definition HasEyecatcher_arr (t : list byte) : bool :=
  bytes_eq (firstn EyecatcherLen t) SMCREyecatcher ||
  bytes_eq (firstn EyecatcherLen t) SMCDEyecatcher.

(** ** raw.go:5-16; the field [Raw] keeps the slice it was given *)
Definition Raw_Dump (m : mem) (r : slice) : string := hex_dump (s_bytes m r).

(** ** rmbesize.go:8-12: [s + 14] is computed in uint8, [1 << k] in int (64 bit) *)
Definition RMBESize_String (s : N) : string :=
  let k := (s + 14) mod 256 in
  let size := if k <? 63 then Z.shiftl 1 (Z.of_N k)
              else if k =? 63 then (- 2 ^ 63)%Z else 0%Z in
  cat [dec s; " ("; decZ size; ")"].

(** ** peerid.go:17-22; for the 8-byte array [p] *)
Definition PeerID_String (p : list byte) : string :=
  let instance := N.lor (b2n (nth 1 p x00)) (N.shiftl (b2n (nth 0 p x00)) 8) in
  cat [dec instance; "@"; mac_string (skipn 2 p)].

(** peerid.go:9-12 *)
Definition PeerIDLen : nat := 8.

(** ** trailer.go *)

(** trailer.go:5-8 *)
Definition TrailerLen : nat := EyecatcherLen.

(** trailer.go:13-21 *)
Definition Trailer_Parse (m : mem) (t : list byte) (buf : slice) : M (list byte) :=
  let* s := last_n buf TrailerLen in
  let t := go_copy t (s_bytes m s) in
  if HasEyecatcher_arr t then ret t
  else
    log_ln "Error parsing CLC message: invalid trailer" ;;
    let* s := last_n buf TrailerLen in
    errDump m s ;;
    ret t.

(** trailer.go:23-26 *)
Definition Trailer_String (t : list byte) : string := Eyecatcher_String t.

(** ** tcp_option.go; only the three fields of [layers.TCPOption] it reads *)
Record TCPOption := { OptionType : N; OptionLength : N; OptionData : list byte }.

(** tcp_option.go:9-12 *)
Definition SMCOption : list byte := SMCREyecatcher.

(** tcp_option.go:14-25; the argument is [tcp.Options] *)
Fixpoint CheckSMCOption (opts : list TCPOption) : bool :=
  match opts with
  | [] => false
  | opt :: rest =>
    if (OptionType opt =? 254) && (OptionLength opt =? 6)
       && bytes_eq (OptionData opt) SMCOption
    then true else CheckSMCOption rest
  end.

(** ** header.go *)

(** header.go:9-28 *)
Definition SMCv1 : N := 1.
Definition SMCv2 : N := 2.
Definition SMCTypeR : N := 0.
Definition SMCTypeD : N := 1.
Definition SMCTypeN : N := 2.
Definition SMCTypeB : N := 3.
Definition HeaderLen : nat := 8.
Definition TypeProposal : N := 1.
Definition TypeAccept : N := 2.
Definition TypeConfirm : N := 3.
Definition TypeDecline : N := 4.

(** header.go:33-47 *)
Definition MsgType_String (t : N) : string :=
  if t =? TypeProposal then "Proposal"
  else if t =? TypeAccept then "Accept"
  else if t =? TypeConfirm then "Confirm"
  else if t =? TypeDecline then "Decline"
  else "Unknown".

(** header.go:52-66 *)
Definition Path_String (p : N) : string :=
  if p =? SMCTypeR then "SMC-R"
  else if p =? SMCTypeD then "SMC-D"
  else if p =? SMCTypeN then "No SMC-R/SMC-D"
  else if p =? SMCTypeB then "SMC-R + SMC-D"
  else "unknown".

(** header.go:68-85 *)
Record Header := mkHeader {
  h_Eyecatcher : list byte;   (* [4]byte *)
  h_Type : N;
  h_Length : N;
  h_Version : N;
  h_Flag : N;
  h_reserved : N;
  h_Pathv2 : N;
  h_Path : N }.

Definition Header_zero : Header := mkHeader (zeros 4) 0 0 0 0 0 0 0.

(** header.go:87-105 *)
Definition Header_Parse (m : mem) (h : Header) (buf : slice) : M Header :=
  let* ec := copy_from m (h_Eyecatcher h) buf 0 EyecatcherLen in
  let* typ := idx m buf 4 in
  let* len := be16 m buf 5 7 in
  let* bf := idx m buf 7 in
  let bitfield := b2n bf in
  ret (mkHeader ec (b2n typ) len
         (N.shiftr (N.land bitfield 0xf0) 4)
         (N.shiftr (N.land bitfield 0x08) 3)
         (N.shiftr (N.land bitfield 0x04) 2)
         (N.shiftr (N.land bitfield 0x0c) 2)
         (N.land bitfield 0x03)).

(** header.go:107-130 *)
Definition flagString (h : Header) : string :=
  if h_Type h =? TypeProposal then
    if h_Version h =? SMCv2 then cat ["Pathv2: "; Path_String (h_Pathv2 h)]
    else cat ["Flag: "; dec (h_Flag h)]
  else if h_Type h =? TypeAccept then cat ["First Contact: "; dec (h_Flag h)]
  else if h_Type h =? TypeConfirm then
    if (h_Version h =? SMCv2) && (h_Path h =? SMCTypeD)
    then cat ["First Contact: "; dec (h_Flag h)]
    else cat ["Flag: "; dec (h_Flag h)]
  else if h_Type h =? TypeDecline then cat ["Out of Sync: "; dec (h_Flag h)]
  else cat ["Flag: "; dec (h_Flag h)].

(** header.go:132-139 *)
Definition Header_String (h : Header) : string :=
  let flg := flagString h in
  cat [MsgType_String (h_Type h); ": Eyecatcher: ";
       Eyecatcher_String (h_Eyecatcher h); ", Type: "; dec (h_Type h); " (";
       MsgType_String (h_Type h); "), Length: "; dec (h_Length h);
       ", Version: "; dec (h_Version h); ", "; flg; ", Path: ";
       Path_String (h_Path h)].

(** header.go:141-158 *)
Definition Header_Reserved (h : Header) : string :=
  let flg := flagString h in
  if (h_Type h =? TypeProposal) && (h_Version h =? SMCv2) then
    cat [MsgType_String (h_Type h); ": Eyecatcher: ";
         Eyecatcher_String (h_Eyecatcher h); ", Type: "; dec (h_Type h); " (";
         MsgType_String (h_Type h); "), Length: "; dec (h_Length h);
         ", Version: "; dec (h_Version h); ", "; flg; ", Path: ";
         Path_String (h_Path h)]
  else
    cat [MsgType_String (h_Type h); ": Eyecatcher: ";
         Eyecatcher_String (h_Eyecatcher h); ", Type: "; dec (h_Type h); " (";
         MsgType_String (h_Type h); "), Length: "; dec (h_Length h);
         ", Version: "; dec (h_Version h); ", "; flg; ", Reserved: ";
         hexN (h_reserved h); ", Path: "; Path_String (h_Path h)].

(** ** clc_accept_smcd.go *)

(** clc_accept_smcd.go:9-12 *)
Definition AcceptSMCDLen : N := 48.

(** clc_accept_smcd.go:14-27 *)
Record AcceptSMCD := mkAcceptSMCD {
  ad_Raw : slice;
  ad_Header : Header;
  ad_GID : N;
  ad_Token : N;
  ad_DMBEIdx : N;
  ad_DMBESize : N;
  ad_reserved : N;
  ad_reserved2 : list byte;
  ad_LinkID : N;
  ad_reserved3 : list byte;
  ad_Trailer : list byte }.

Definition AcceptSMCD_zero : AcceptSMCD :=
  mkAcceptSMCD nil_slice Header_zero 0 0 0 0 0 (zeros 2) 0 (zeros 12) (zeros 4).

(** clc_accept_smcd.go:29-39 *)
Definition AcceptSMCD_String (ac : AcceptSMCD) : string :=
  cat [Header_String (ad_Header ac); ", SMC-D GID: "; dec (ad_GID ac);
       ", SMC-D Token: "; dec (ad_Token ac); ", DMBE Index: "; dec (ad_DMBEIdx ac);
       ", DMBE Size: "; RMBESize_String (ad_DMBESize ac);
       ", Link ID: "; dec (ad_LinkID ac); ", Trailer: "; Trailer_String (ad_Trailer ac)].

(** clc_accept_smcd.go:41-54 *)
Definition AcceptSMCD_Reserved (ac : AcceptSMCD) : string :=
  cat [Header_Reserved (ad_Header ac); ", SMC-D GID: "; dec (ad_GID ac);
       ", SMC-D Token: "; dec (ad_Token ac); ", DMBE Index: "; dec (ad_DMBEIdx ac);
       ", DMBE Size: "; RMBESize_String (ad_DMBESize ac);
       ", Reserved: "; hexN (ad_reserved ac); ", Reserved: "; hexbytes (ad_reserved2 ac);
       ", Link ID: "; dec (ad_LinkID ac); ", Reserved: "; hexbytes (ad_reserved3 ac);
       ", Trailer: "; Trailer_String (ad_Trailer ac)].

(** clc_accept_smcd.go:56-109 *)
Definition AcceptSMCD_Parse (m : mem) (ac : AcceptSMCD) (buf : slice) : M AcceptSMCD :=
  let raw := buf in
  let* hdr := Header_Parse m (ad_Header ac) buf in
  if h_Length hdr <? AcceptSMCDLen then
    let err := if h_Type hdr =? TypeConfirm
               then "Error parsing CLC Confirm: message too short"
               else "Error parsing CLC Accept: message too short" in
    log_ln err ;;
    let* d := upto buf (N.to_nat (h_Length hdr)) in
    errDump m d ;;
    ret (mkAcceptSMCD raw hdr (ad_GID ac) (ad_Token ac) (ad_DMBEIdx ac)
           (ad_DMBESize ac) (ad_reserved ac) (ad_reserved2 ac) (ad_LinkID ac)
           (ad_reserved3 ac) (ad_Trailer ac))
  else
    let* buf := from buf HeaderLen in
    let* gid := be64 m buf 0 8 in
    let* buf := from buf 8 in
    let* token := be64 m buf 0 8 in
    let* buf := from buf 8 in
    let* dmbeIdx := idx m buf 0 in
    let* buf := from buf 1 in
    let* b := idx m buf 0 in
    let dmbeSize := N.shiftr (N.land (b2n b) 0xf0) 4 in
    let* b := idx m buf 0 in
    let reserved := N.land (b2n b) 0x0f in
    let* buf := from buf 1 in
    let* reserved2 := copy_from m (ad_reserved2 ac) buf 0 2 in
    let* buf := from buf 2 in
    let* linkID := be32 m buf 0 4 in
    let* buf := from buf 4 in
    let* reserved3 := copy_from m (ad_reserved3 ac) buf 0 12 in
    let* buf := from buf 12 in
    let* trailer := Trailer_Parse m (ad_Trailer ac) buf in
    ret (mkAcceptSMCD raw hdr gid token (b2n dmbeIdx) dmbeSize reserved reserved2
           linkID reserved3 trailer).

(** ** clc_accept_smcr.go *)

(** clc_accept_smcr.go:10-13 *)
Definition AcceptSMCRLen : N := 68.

(** clc_accept_smcr.go:18-42 *)
Definition QPMTU_String (q : N) : string :=
  let mtu := if q =? 1 then "256"
             else if q =? 2 then "512"
             else if q =? 3 then "1024"
             else if q =? 4 then "2048"
             else if q =? 5 then "4096"
             else "reserved" in
  cat [dec q; " ("; mtu; ")"].

(** clc_accept_smcr.go:44-62; [QPN] and [PSN] are Go ints and never negative *)
Record AcceptSMCR := mkAcceptSMCR {
  ar_Raw : slice;
  ar_Header : Header;
  ar_SenderPeerID : list byte;
  ar_IBGID : list byte;
  ar_IBMAC : list byte;
  ar_QPN : N;
  ar_RMBRKey : N;
  ar_RMBEIdx : N;
  ar_RMBEAlertToken : N;
  ar_RMBESize : N;
  ar_QPMTU : N;
  ar_reserved : N;
  ar_RMBDMAAddr : N;
  ar_reserved2 : N;
  ar_PSN : N;
  ar_Trailer : list byte }.

Definition AcceptSMCR_zero : AcceptSMCR :=
  mkAcceptSMCR nil_slice Header_zero (zeros 8) [] [] 0 0 0 0 0 0 0 0 0 0 (zeros 4).

(** clc_accept_smcr.go:64-79 *)
Definition AcceptSMCR_String (ac : AcceptSMCR) : string :=
  cat [Header_String (ar_Header ac); ", Peer ID: "; PeerID_String (ar_SenderPeerID ac);
       ", SMC-R GID: "; ip_string (ar_IBGID ac); ", RoCE MAC: "; mac_string (ar_IBMAC ac);
       ", QP Number: "; dec (ar_QPN ac); ", RMB RKey: "; dec (ar_RMBRKey ac);
       ", RMBE Index: "; dec (ar_RMBEIdx ac);
       ", RMBE Alert Token: "; dec (ar_RMBEAlertToken ac);
       ", RMBE Size: "; RMBESize_String (ar_RMBESize ac);
       ", QP MTU: "; QPMTU_String (ar_QPMTU ac);
       ", RMB Virtual Address: "; hexN (ar_RMBDMAAddr ac);
       ", Packet Sequence Number: "; dec (ar_PSN ac);
       ", Trailer: "; Trailer_String (ar_Trailer ac)].

(** clc_accept_smcr.go:81-97 *)
Definition AcceptSMCR_Reserved (ac : AcceptSMCR) : string :=
  cat [Header_Reserved (ar_Header ac); ", Peer ID: "; PeerID_String (ar_SenderPeerID ac);
       ", SMC-R GID: "; ip_string (ar_IBGID ac); ", RoCE MAC: "; mac_string (ar_IBMAC ac);
       ", QP Number: "; dec (ar_QPN ac); ", RMB RKey: "; dec (ar_RMBRKey ac);
       ", RMBE Index: "; dec (ar_RMBEIdx ac);
       ", RMBE Alert Token: "; dec (ar_RMBEAlertToken ac);
       ", RMBE Size: "; RMBESize_String (ar_RMBESize ac);
       ", QP MTU: "; QPMTU_String (ar_QPMTU ac);
       ", Reserved: "; hexN (ar_reserved ac);
       ", RMB Virtual Address: "; hexN (ar_RMBDMAAddr ac);
       ", Reserved: "; hexN (ar_reserved2 ac);
       ", Packet Sequence Number: "; dec (ar_PSN ac);
       ", Trailer: "; Trailer_String (ar_Trailer ac)].

(** clc_accept_smcr.go:99-178; the two lines [x = make(T, n); copy(x[:], s)] are
    [copy_from m (zeros n) ..] *)
Definition AcceptSMCR_Parse (m : mem) (ac : AcceptSMCR) (buf : slice) : M AcceptSMCR :=
  let raw := buf in
  let* hdr := Header_Parse m (ar_Header ac) buf in
  if h_Length hdr <? AcceptSMCRLen then
    let err := if h_Type hdr =? TypeConfirm
               then "Error parsing CLC Confirm: message too short"
               else "Error parsing CLC Accept: message too short" in
    log_ln err ;;
    let* d := upto buf (N.to_nat (h_Length hdr)) in
    errDump m d ;;
    ret (mkAcceptSMCR raw hdr (ar_SenderPeerID ac) (ar_IBGID ac) (ar_IBMAC ac)
           (ar_QPN ac) (ar_RMBRKey ac) (ar_RMBEIdx ac) (ar_RMBEAlertToken ac)
           (ar_RMBESize ac) (ar_QPMTU ac) (ar_reserved ac) (ar_RMBDMAAddr ac)
           (ar_reserved2 ac) (ar_PSN ac) (ar_Trailer ac))
  else
    let* buf := from buf HeaderLen in
    let* peerID := copy_from m (ar_SenderPeerID ac) buf 0 PeerIDLen in
    let* buf := from buf PeerIDLen in
    let* gid := copy_from m (zeros 16) buf 0 16 in
    let* buf := from buf 16 in
    let* mac := copy_from m (zeros 6) buf 0 6 in
    let* buf := from buf 6 in
    let* qpn := be24 m buf in
    let* buf := from buf 3 in
    let* rkey := be32 m buf 0 4 in
    let* buf := from buf 4 in
    let* rmbeIdx := idx m buf 0 in
    let* buf := from buf 1 in
    let* token := be32 m buf 0 4 in
    let* buf := from buf 4 in
    let* b := idx m buf 0 in
    let rmbeSize := N.shiftr (N.land (b2n b) 0xf0) 4 in
    let* b := idx m buf 0 in
    let mtu := N.land (b2n b) 0x0f in
    let* buf := from buf 1 in
    let* reserved := idx m buf 0 in
    let* buf := from buf 1 in
    let* dma := be64 m buf 0 8 in
    let* buf := from buf 8 in
    let* reserved2 := idx m buf 0 in
    let* buf := from buf 1 in
    let* psn := be24 m buf in
    let* buf := from buf 3 in
    let* trailer := Trailer_Parse m (ar_Trailer ac) buf in
    ret (mkAcceptSMCR raw hdr peerID gid mac qpn rkey (b2n rmbeIdx) token rmbeSize
           mtu (b2n reserved) dma (b2n reserved2) psn trailer).

(** ** OSType (clc_decline_v2.go:9-33) *)
Definition OSType_String (o : N) : string :=
  let os := if o =? 1 then "z/OS"
            else if o =? 2 then "Linux"
            else if o =? 3 then "AIX"
            else "unknown" in
  cat [dec o; " ("; os; ")"].

(** ** EID (clc_proposal_v2.go) *)

(** clc_proposal_v2.go:15-16 *)
Definition EIDLen : nat := 32.

(** the bytes in front of the first zero byte: [e[:end]] of
    clc_proposal_v2.go:28-32 *)
Fixpoint until_zero (e : list byte) : list byte :=
  match e with
  | [] => []
  | b :: rest => if Byte.eqb b x00 then [] else b :: until_zero rest
  end.

(** [bytes.TrimRight(s, " ")] (clc_proposal_v2.go:35) *)
Fixpoint trim_right_spaces (s : list byte) : list byte :=
  match s with
  | [] => []
  | b :: rest =>
    match trim_right_spaces rest with
    | [] => if Byte.eqb b x20 then [] else [b]
    | r => b :: r
    end
  end.

(** clc_proposal_v2.go:26-38 *)
Definition EID_String (e : list byte) : string :=
  bytes_string (trim_right_spaces (until_zero e)).

(** ** clc_accept_smcd_v2.go *)

(** clc_accept_smcd_v2.go:9-14 *)
Definition AcceptSMCDv2Len : N := 78.
Definition AcceptSMCDv2FCELen : N := 114.

(** clc_accept_smcd_v2.go:16-39 *)
Record AcceptSMCDv2 := mkAcceptSMCDv2 {
  a2_Raw : slice;
  a2_Header : Header;
  a2_GID : N;
  a2_Token : N;
  a2_DMBEIdx : N;
  a2_DMBESize : N;
  a2_reserved : N;
  a2_reserved2 : list byte;
  a2_LinkID : N;
  a2_ISMv2VCHID : N;
  a2_EID : list byte;
  a2_reserved3 : list byte;
  a2_reserved4 : N;
  a2_OSType : N;
  a2_Release : N;
  a2_reserved5 : list byte;
  a2_Hostname : list byte;
  a2_Trailer : list byte }.

Definition AcceptSMCDv2_zero : AcceptSMCDv2 :=
  mkAcceptSMCDv2 nil_slice Header_zero 0 0 0 0 0 (zeros 2) 0 0 (zeros 32) (zeros 8)
    0 0 0 (zeros 2) (zeros 32) (zeros 4).

(** clc_accept_smcd_v2.go:41-48 *)
Definition fceString (ac : AcceptSMCDv2) : string :=
  if h_Length (a2_Header ac) <? AcceptSMCDv2FCELen then ""
  else cat [", OS Type: "; OSType_String (a2_OSType ac);
            ", Release: "; dec (a2_Release ac);
            ", Hostname: "; EID_String (a2_Hostname ac)].

(** clc_accept_smcd_v2.go:50-62 *)
Definition AcceptSMCDv2_String (ac : AcceptSMCDv2) : string :=
  cat [Header_String (a2_Header ac); ", SMC-D GID: "; dec (a2_GID ac);
       ", SMC-D Token: "; dec (a2_Token ac); ", DMBE Index: "; dec (a2_DMBEIdx ac);
       ", DMBE Size: "; RMBESize_String (a2_DMBESize ac);
       ", Link ID: "; dec (a2_LinkID ac); ", ISMv2 VCHID: "; dec (a2_ISMv2VCHID ac);
       ", EID: "; EID_String (a2_EID ac); fceString ac;
       ", Trailer: "; Trailer_String (a2_Trailer ac)].

(** clc_accept_smcd_v2.go:64-74 *)
Definition fceReserved (ac : AcceptSMCDv2) : string :=
  if h_Length (a2_Header ac) <? AcceptSMCDv2FCELen then ""
  else cat [", Reserved: "; hexN (a2_reserved4 ac);
            ", OS Type: "; OSType_String (a2_OSType ac);
            ", Release: "; dec (a2_Release ac);
            ", Reserved: "; hexbytes (a2_reserved5 ac);
            ", Hostname: "; EID_String (a2_Hostname ac)].

(** clc_accept_smcd_v2.go:76-91 *)
Definition AcceptSMCDv2_Reserved (ac : AcceptSMCDv2) : string :=
  cat [Header_Reserved (a2_Header ac); ", SMC-D GID: "; dec (a2_GID ac);
       ", SMC-D Token: "; dec (a2_Token ac); ", DMBE Index: "; dec (a2_DMBEIdx ac);
       ", DMBE Size: "; RMBESize_String (a2_DMBESize ac);
       ", Reserved: "; hexN (a2_reserved ac); ", Reserved: "; hexbytes (a2_reserved2 ac);
       ", Link ID: "; dec (a2_LinkID ac); ", ISMv2 VCHID: "; dec (a2_ISMv2VCHID ac);
       ", EID: "; EID_String (a2_EID ac); ", Reserved: "; hexbytes (a2_reserved3 ac);
       fceReserved ac; ", Trailer: "; Trailer_String (a2_Trailer ac)].

(** the First Contact Extension fields and the remaining buffer,
    clc_accept_smcd_v2.go:153-172 *)
Definition fce_Parse (m : mem) (ac : AcceptSMCDv2) (len : N) (buf : slice)
  : M (N * N * N * list byte * list byte * slice) :=
  if len =? AcceptSMCDv2FCELen then
    let* reserved4 := idx m buf 0 in
    let* buf := from buf 1 in
    let* b := idx m buf 0 in
    let osType := N.shiftr (b2n b) 4 in
    let* b := idx m buf 0 in
    let release := N.land (b2n b) 0x0f in
    let* buf := from buf 1 in
    let* reserved5 := copy_from m (a2_reserved5 ac) buf 0 2 in
    let* buf := from buf 2 in
    let* hostname := copy_from m (a2_Hostname ac) buf 0 EIDLen in
    let* buf := from buf EIDLen in
    ret (b2n reserved4, osType, release, reserved5, hostname, buf)
  else
    ret (a2_reserved4 ac, a2_OSType ac, a2_Release ac, a2_reserved5 ac,
         a2_Hostname ac, buf).

(** clc_accept_smcd_v2.go:93-176 *)
Definition AcceptSMCDv2_Parse (m : mem) (ac : AcceptSMCDv2) (buf : slice) : M AcceptSMCDv2 :=
  let raw := buf in
  let* hdr := Header_Parse m (a2_Header ac) buf in
  if (h_Length hdr <? AcceptSMCDv2Len) || (N.of_nat (s_len buf) <? AcceptSMCDv2Len) then
    let err := if h_Type hdr =? TypeConfirm
               then "Error parsing SMC-Dv2 CLC Confirm: message too short"
               else "Error parsing SMC-Dv2 CLC Accept: message too short" in
    log_ln err ;;
    let* d := upto buf (N.to_nat (h_Length hdr)) in
    errDump m d ;;
    ret (mkAcceptSMCDv2 raw hdr (a2_GID ac) (a2_Token ac) (a2_DMBEIdx ac)
           (a2_DMBESize ac) (a2_reserved ac) (a2_reserved2 ac) (a2_LinkID ac)
           (a2_ISMv2VCHID ac) (a2_EID ac) (a2_reserved3 ac) (a2_reserved4 ac)
           (a2_OSType ac) (a2_Release ac) (a2_reserved5 ac) (a2_Hostname ac)
           (a2_Trailer ac))
  else
    let* buf := from buf HeaderLen in
    let* gid := be64 m buf 0 8 in
    let* buf := from buf 8 in
    let* token := be64 m buf 0 8 in
    let* buf := from buf 8 in
    let* dmbeIdx := idx m buf 0 in
    let* buf := from buf 1 in
    let* b := idx m buf 0 in
    let dmbeSize := N.shiftr (N.land (b2n b) 0xf0) 4 in
    let* b := idx m buf 0 in
    let reserved := N.land (b2n b) 0x0f in
    let* buf := from buf 1 in
    let* reserved2 := copy_from m (a2_reserved2 ac) buf 0 2 in
    let* buf := from buf 2 in
    let* linkID := be32 m buf 0 4 in
    let* buf := from buf 4 in
    let* vchid := be16 m buf 0 2 in
    let* buf := from buf 2 in
    let* eid := copy_from m (a2_EID ac) buf 0 EIDLen in
    let* buf := from buf EIDLen in
    let* reserved3 := copy_from m (a2_reserved3 ac) buf 0 8 in
    let* buf := from buf 8 in
    let* fce := fce_Parse m ac (h_Length hdr) buf in
    let '(reserved4, osType, release, reserved5, hostname, buf) := fce in
    let* trailer := Trailer_Parse m (a2_Trailer ac) buf in
    ret (mkAcceptSMCDv2 raw hdr gid token (b2n dmbeIdx) dmbeSize reserved reserved2
           linkID vchid eid reserved3 reserved4 osType release reserved5 hostname trailer).

(** ** clc_confirm_smcd.go:3-7, clc_confirm_smcr.go:3-7, clc_confirm_smcd_v2.go:3-7:
    the Confirm types embed the Accept type and promote all its methods *)
Record ConfirmSMCD := mkConfirmSMCD { cd_Accept : AcceptSMCD }.
Record ConfirmSMCR := mkConfirmSMCR { cr_Accept : AcceptSMCR }.
Record ConfirmSMCDv2 := mkConfirmSMCDv2 { c2_Accept : AcceptSMCDv2 }.

Definition ConfirmSMCD_Parse m (c : ConfirmSMCD) buf : M ConfirmSMCD :=
  let* ac := AcceptSMCD_Parse m (cd_Accept c) buf in ret (mkConfirmSMCD ac).
Definition ConfirmSMCR_Parse m (c : ConfirmSMCR) buf : M ConfirmSMCR :=
  let* ac := AcceptSMCR_Parse m (cr_Accept c) buf in ret (mkConfirmSMCR ac).
Definition ConfirmSMCDv2_Parse m (c : ConfirmSMCDv2) buf : M ConfirmSMCDv2 :=
  let* ac := AcceptSMCDv2_Parse m (c2_Accept c) buf in ret (mkConfirmSMCDv2 ac).

(** ** clc_decline.go *)

(** clc_decline.go:9-12 *)
Definition DeclineLen : N := 28.

(** clc_decline.go:14-46 and the switch in clc_decline.go:55-118 *)
Definition PeerDiagnosis_name (p : N) : string :=
  if p =? 0x01010000 then "insufficient memory resources"
  else if p =? 0x02010000 then "timeout w4 QP confirm link"
  else if p =? 0x02020000 then "timeout w4 QP add link"
  else if p =? 0x03000000 then "configuration error"
  else if p =? 0x03010000 then "peer did not indicate SMC"
  else if p =? 0x03020000 then "IPsec usage"
  else if p =? 0x03030000 then "no SMC device found (R or D)"
  else if p =? 0x03030001 then "no SMC-D device found"
  else if p =? 0x03030002 then "no SMC-R device found"
  else if p =? 0x03030003 then "hardware has no ISMv2 support"
  else if p =? 0x03030004 then "peer sent no clc v2 extension"
  else if p =? 0x03030005 then "peer sent no clc SMC-Dv2 ext."
  else if p =? 0x03030006 then "peer sent no SEID"
  else if p =? 0x03030007 then "no SMC-Dv2 device found"
  else if p =? 0x03040000 then "smc modes do not match (R or D)"
  else if p =? 0x03050000 then "peer has eyecatcher in RMBE"
  else if p =? 0x03060000 then "fastopen sockopt not supported"
  else if p =? 0x03070000 then "IP prefix / subnet mismatch"
  else if p =? 0x03080000 then "err to get vlan id of ip device"
  else if p =? 0x03090000 then "err to reg vlan id on ism dev"
  else if p =? 0x030a0000 then "no active smc-r link in lgr"
  else if p =? 0x030b0000 then "SMC-R link from srv not found"
  else if p =? 0x030c0000 then "SMC version mismatch"
  else if p =? 0x030d0000 then "SMC-D DMB limit exceeded"
  else if p =? 0x04000000 then "synchronization error"
  else if p =? 0x05000000 then "peer declined during handshake"
  else if p =? 0x09990000 then "internal error"
  else if p =? 0x09990001 then "rtoken handling failed"
  else if p =? 0x09990002 then "ib ready link failed"
  else if p =? 0x09990003 then "reg rmb failed"
  else "Unknown".

(** clc_decline.go:51-120 *)
Definition PeerDiagnosis_String (p : N) : string :=
  cat [hexN p; " ("; PeerDiagnosis_name p; ")"].

(** clc_decline.go:122-131 *)
Record Decline := mkDecline {
  d_Raw : slice;
  d_Header : Header;
  d_SenderPeerID : list byte;
  d_PeerDiagnosis : N;
  d_OSType : N;
  d_reserved : list byte;
  d_Trailer : list byte }.

Definition Decline_zero : Decline :=
  mkDecline nil_slice Header_zero (zeros 8) 0 0 (zeros 4) (zeros 4).

(** clc_decline.go:133-142 *)
Definition Decline_String (d : Decline) : string :=
  cat [Header_String (d_Header d); ", Peer ID: "; PeerID_String (d_SenderPeerID d);
       ", Peer Diagnosis: "; PeerDiagnosis_String (d_PeerDiagnosis d);
       ", Trailer: "; Trailer_String (d_Trailer d)].

(** clc_decline.go:144-155 *)
Definition Decline_Reserved (d : Decline) : string :=
  cat [Header_Reserved (d_Header d); ", Peer ID: "; PeerID_String (d_SenderPeerID d);
       ", Peer Diagnosis: "; PeerDiagnosis_String (d_PeerDiagnosis d);
       ", Reserved: "; hexbytes (d_reserved d);
       ", Trailer: "; Trailer_String (d_Trailer d)].

(** clc_decline.go:157-189 *)
Definition Decline_Parse (m : mem) (d : Decline) (buf : slice) : M Decline :=
  let raw := buf in
  let* hdr := Header_Parse m (d_Header d) buf in
  if h_Length hdr <? DeclineLen then
    log_ln "Error parsing CLC Decline: message too short" ;;
    let* s := upto buf (N.to_nat (h_Length hdr)) in
    errDump m s ;;
    ret (mkDecline raw hdr (d_SenderPeerID d) (d_PeerDiagnosis d) (d_OSType d)
           (d_reserved d) (d_Trailer d))
  else
    let* buf := from buf HeaderLen in
    let* peerID := copy_from m (d_SenderPeerID d) buf 0 PeerIDLen in
    let* buf := from buf PeerIDLen in
    let* diag := be32 m buf 0 4 in
    let* buf := from buf 4 in
    let* reserved := copy_from m (d_reserved d) buf 0 4 in
    let* buf := from buf 4 in
    let* trailer := Trailer_Parse m (d_Trailer d) buf in
    ret (mkDecline raw hdr peerID diag (d_OSType d) reserved trailer).

(** ** clc_decline_v2.go *)

(** clc_decline_v2.go:35-44 *)
Record DeclineV2 := mkDeclineV2 {
  d2_Raw : slice;
  d2_Header : Header;
  d2_SenderPeerID : list byte;
  d2_PeerDiagnosis : N;
  d2_OSType : N;
  d2_reserved : list byte;
  d2_Trailer : list byte }.

Definition DeclineV2_zero : DeclineV2 :=
  mkDeclineV2 nil_slice Header_zero (zeros 8) 0 0 (zeros 4) (zeros 4).

(** clc_decline_v2.go:46-56 *)
Definition DeclineV2_String (d : DeclineV2) : string :=
  cat [Header_String (d2_Header d); ", Peer ID: "; PeerID_String (d2_SenderPeerID d);
       ", Peer Diagnosis: "; PeerDiagnosis_String (d2_PeerDiagnosis d);
       ", OS Type: "; OSType_String (d2_OSType d);
       ", Trailer: "; Trailer_String (d2_Trailer d)].

(** clc_decline_v2.go:58-70 *)
Definition DeclineV2_Reserved (d : DeclineV2) : string :=
  cat [Header_Reserved (d2_Header d); ", Peer ID: "; PeerID_String (d2_SenderPeerID d);
       ", Peer Diagnosis: "; PeerDiagnosis_String (d2_PeerDiagnosis d);
       ", OS Type: "; OSType_String (d2_OSType d);
       ", Reserved: "; hexbytes (d2_reserved d);
       ", Trailer: "; Trailer_String (d2_Trailer d)].

(** [a[0] &= 0b00001111] for a non-empty array (clc_decline_v2.go:103) *)
Definition mask_first (a : list byte) : list byte :=
  match a with
  | [] => []
  | b :: rest => n2b (N.land (b2n b) 0x0f) :: rest
  end.

(** clc_decline_v2.go:72-108 *)
Definition DeclineV2_Parse (m : mem) (d : DeclineV2) (buf : slice) : M DeclineV2 :=
  let raw := buf in
  let* hdr := Header_Parse m (d2_Header d) buf in
  if h_Length hdr <? DeclineLen then
    log_ln "Error parsing CLC Decline: message too short" ;;
    let* s := upto buf (N.to_nat (h_Length hdr)) in
    errDump m s ;;
    ret (mkDeclineV2 raw hdr (d2_SenderPeerID d) (d2_PeerDiagnosis d) (d2_OSType d)
           (d2_reserved d) (d2_Trailer d))
  else
    let* buf := from buf HeaderLen in
    let* peerID := copy_from m (d2_SenderPeerID d) buf 0 PeerIDLen in
    let* buf := from buf PeerIDLen in
    let* diag := be32 m buf 0 4 in
    let* buf := from buf 4 in
    let* reserved := copy_from m (d2_reserved d) buf 0 4 in
    let* b := idx m buf 0 in
    let osType := N.shiftr (b2n b) 4 in
    let reserved := mask_first reserved in
    let* buf := from buf 4 in
    let* trailer := Trailer_Parse m (d2_Trailer d) buf in
    ret (mkDeclineV2 raw hdr peerID diag osType reserved trailer).

(** ** clc_proposal.go *)

(** clc_proposal.go:10-15 *)
Definition ProposalLen : N := 52.
Definition IPv6PrefixLen : nat := 17.
Definition SMCDIPAreaOffset : N := 40.

(** clc_proposal.go:17-21 *)
Record IPv6Prefix := mkIPv6Prefix { ip6_prefix : list byte; ip6_prefixLen : N }.

(** clc_proposal.go:23-26 *)
Definition IPv6Prefix_String (p : IPv6Prefix) : string :=
  cat [ip_string (ip6_prefix p); "/"; dec (ip6_prefixLen p)].

(** The "IP/Prefix info" fields of both proposal types (clc_proposal.go:41-46,
    clc_proposal_v2.go:63-68), grouped into one record. *)
Record IPInfo := mkIPInfo {
  i_Prefix : list byte;
  i_PrefixLen : N;
  i_reserved2 : list byte;
  i_IPv6PrefixesCnt : N;
  i_IPv6Prefixes : list IPv6Prefix }.

Definition IPInfo_zero : IPInfo := mkIPInfo [] 0 (zeros 2) 0 [].

(** clc_proposal.go:28-49 *)
Record Proposal := mkProposal {
  p_Raw : slice;
  p_Header : Header;
  p_SenderPeerID : list byte;
  p_IBGID : list byte;
  p_IBMAC : list byte;
  p_IPAreaOffset : N;
  p_SMCDGID : N;
  p_reserved : list byte;
  p_IP : IPInfo;
  p_Trailer : list byte }.

Definition Proposal_zero : Proposal :=
  mkProposal nil_slice Header_zero (zeros 8) [] [] 0 0 (zeros 32) IPInfo_zero (zeros 4).

(** the loop over [p.IPv6Prefixes] of clc_proposal.go:63-67, :90-94 and
    clc_proposal_v2.go:98-100 *)
Definition ipv6_prefixes_string (l : list IPv6Prefix) : string :=
  cat (map (fun p => cat [", IPv6 Prefix: "; IPv6Prefix_String p]) l).

(** clc_proposal.go:51-75 *)
Definition Proposal_String (p : Proposal) : string :=
  let smcdInfo := if p_IPAreaOffset p =? SMCDIPAreaOffset
                  then cat ["SMC-D GID: "; dec (p_SMCDGID p); ", "] else "" in
  let ipv6Prefixes := ipv6_prefixes_string (i_IPv6Prefixes (p_IP p)) in
  cat [Header_String (p_Header p); ", Peer ID: "; PeerID_String (p_SenderPeerID p);
       ", SMC-R GID: "; ip_string (p_IBGID p); ", RoCE MAC: "; mac_string (p_IBMAC p);
       ", IP Area Offset: "; dec (p_IPAreaOffset p); ", "; smcdInfo;
       "IPv4 Prefix: "; ip_string (i_Prefix (p_IP p)); "/"; dec (i_PrefixLen (p_IP p));
       ", IPv6 Prefix Count: "; dec (i_IPv6PrefixesCnt (p_IP p)); ipv6Prefixes;
       ", Trailer: "; Trailer_String (p_Trailer p)].

(** clc_proposal.go:77-103 *)
Definition Proposal_Reserved (p : Proposal) : string :=
  let smcdInfo := if p_IPAreaOffset p =? SMCDIPAreaOffset
                  then cat ["SMC-D GID: "; dec (p_SMCDGID p); ", Reserved: ";
                            hexbytes (p_reserved p); ", "] else "" in
  let ipv6Prefixes := ipv6_prefixes_string (i_IPv6Prefixes (p_IP p)) in
  cat [Header_Reserved (p_Header p); ", Peer ID: "; PeerID_String (p_SenderPeerID p);
       ", SMC-R GID: "; ip_string (p_IBGID p); ", RoCE MAC: "; mac_string (p_IBMAC p);
       ", IP Area Offset: "; dec (p_IPAreaOffset p); ", "; smcdInfo;
       "IPv4 Prefix: "; ip_string (i_Prefix (p_IP p)); "/"; dec (i_PrefixLen (p_IP p));
       ", Reserved: "; hexbytes (i_reserved2 (p_IP p));
       ", IPv6 Prefix Count: "; dec (i_IPv6PrefixesCnt (p_IP p)); ipv6Prefixes;
       ", Trailer: "; Trailer_String (p_Trailer p)].

(** [len] is [int(p.Length)]; the Go comparisons [len-skip < k] on ints are
    written [len < skip + k] *)
Definition short (len skip k : nat) : bool := (len <? skip + k)%nat.

(** the loop of clc_proposal.go:178-203; [n] iterations remain, [acc] is
    [p.IPv6Prefixes] *)
Fixpoint prefixes_v1 (m : mem) (buf : slice) (len skip : nat) (acc : list IPv6Prefix)
    (n : nat) : M (list IPv6Prefix) :=
  match n with
  | O => ret acc
  | S n' =>
    let skip := (skip + 1)%nat in
    if short len skip (IPv6PrefixLen + TrailerLen) then
      log_ln "Error parsing CLC Proposal: IPv6 prefix count too big" ;;
      let* d := upto buf len in
      errDump m d ;;
      ret acc
    else
      let* prefix := copy_from m (zeros 16) buf skip (skip + 16) in
      let skip := (skip + 16)%nat in
      let* plen := idx m buf skip in
      prefixes_v1 m buf len skip (acc ++ [mkIPv6Prefix prefix (b2n plen)])%list n'
  end.

(** clc_proposal.go:154-203: the IP area at [skip]; [None] = Parse returns here *)
Definition ip_area_v1 (m : mem) (buf : slice) (len skip : nat) (ip : IPInfo)
  : M (option IPInfo) :=
  if short len skip (4 + 1 + 2 + 1 + TrailerLen) then
    log_ln "Error parsing CLC Proposal: IP Area Offset too big" ;;
    let* d := upto buf len in
    errDump m d ;;
    ret None
  else
    let* prefix := copy_from m (zeros 4) buf skip (skip + 4) in
    let skip := (skip + 4)%nat in
    let* plen := idx m buf skip in
    let skip := (skip + 1)%nat in
    let* reserved2 := copy_from m (i_reserved2 ip) buf skip (skip + 2) in
    let skip := (skip + 2)%nat in
    let* cnt := idx m buf skip in
    let* prefixes := prefixes_v1 m buf len skip (i_IPv6Prefixes ip) (N.to_nat (b2n cnt)) in
    ret (Some (mkIPInfo prefix (b2n plen) reserved2 (b2n cnt) prefixes)).

(** clc_proposal.go:105-207 *)
Definition Proposal_Parse (m : mem) (p : Proposal) (buf : slice) : M Proposal :=
  let raw := buf in
  let* hdr := Header_Parse m (p_Header p) buf in
  let len := N.to_nat (h_Length hdr) in
  if h_Length hdr <? ProposalLen then
    log_ln "Error parsing CLC Proposal: message too short" ;;
    let* d := upto buf len in
    errDump m d ;;
    ret (mkProposal raw hdr (p_SenderPeerID p) (p_IBGID p) (p_IBMAC p) (p_IPAreaOffset p)
           (p_SMCDGID p) (p_reserved p) (p_IP p) (p_Trailer p))
  else
    let skip := HeaderLen in
    let* peerID := copy_from m (p_SenderPeerID p) buf skip (skip + PeerIDLen) in
    let skip := (skip + PeerIDLen)%nat in
    let* gid := copy_from m (zeros 16) buf skip (skip + 16) in
    let skip := (skip + 16)%nat in
    let* mac := copy_from m (zeros 6) buf skip (skip + 6) in
    let skip := (skip + 6)%nat in
    let* offset := be16 m buf skip (skip + 2) in
    let skip := (skip + 2)%nat in
    let* smcd :=
      (if offset =? SMCDIPAreaOffset then
         let* smcdGID := be64 m buf skip (skip + 8) in
         let skip := (skip + 8)%nat in
         let* reserved := copy_from m (p_reserved p) buf skip (skip + 32) in
         let skip := (skip + 32)%nat in
         ret (smcdGID, reserved, skip)
       else
         ret (p_SMCDGID p, p_reserved p, (skip + N.to_nat offset)%nat)) in
    let '(smcdGID, reserved, skip) := smcd in
    let* ip := ip_area_v1 m buf len skip (p_IP p) in
    match ip with
    | None =>
      ret (mkProposal raw hdr peerID gid mac offset smcdGID reserved (p_IP p) (p_Trailer p))
    | Some ip =>
      let* trailer := Trailer_Parse m (p_Trailer p) buf in
      ret (mkProposal raw hdr peerID gid mac offset smcdGID reserved ip trailer)
    end.

(** ** clc_proposal_v2.go *)

(** clc_proposal_v2.go:11-21 *)
Definition ProposalV2Len : N := 84.
Definition ProposalV2ExtLen : nat := 40.
Definition SMCDv2ExtLen : nat := 48.

(** clc_proposal_v2.go:40-44 *)
Record GIDEntry := mkGIDEntry { g_GID : N; g_VCHID : N }.

(** The "V2 Extension" fields, clc_proposal_v2.go:70-80, grouped *)
Record V2Ext := mkV2Ext {
  x_EIDNumber : N;
  x_GIDNumber : N;
  x_reserved3 : N;
  x_Release : N;
  x_reserved4 : N;
  x_SEIDInd : N;
  x_reserved5 : list byte;
  x_SMCDv2Off : N;
  x_reserved6 : list byte;
  x_EIDArea : list (list byte) }.

(** The "SMC-Dv2 Extension" fields, clc_proposal_v2.go:82-85, grouped *)
Record SMCDExt := mkSMCDExt {
  y_SEID : list byte;
  y_reserved7 : list byte;
  y_GIDArea : list GIDEntry }.

(** clc_proposal_v2.go:46-88 *)
Record ProposalV2 := mkProposalV2 {
  p2_Raw : slice;
  p2_Header : Header;
  p2_SenderPeerID : list byte;
  p2_IBGID : list byte;
  p2_IBMAC : list byte;
  p2_IPAreaOffset : N;
  p2_SMCDGID : N;
  p2_ISMv2VCHID : N;
  p2_SMCv2Offset : N;
  p2_reserved : list byte;
  p2_IP : IPInfo;
  p2_Ext : V2Ext;
  p2_SMCD : SMCDExt;
  p2_Trailer : list byte }.

Definition V2Ext_zero : V2Ext :=
  mkV2Ext 0 0 0 0 0 0 (zeros 2) 0 (zeros 32) (repeat (zeros 32) 8).
Definition SMCDExt_zero : SMCDExt :=
  mkSMCDExt (zeros 32) (zeros 16) (repeat (mkGIDEntry 0 0) 8).
Definition ProposalV2_zero : ProposalV2 :=
  mkProposalV2 nil_slice Header_zero (zeros 8) [] [] 0 0 0 0 (zeros 28)
    IPInfo_zero V2Ext_zero SMCDExt_zero (zeros 4).

(** clc_proposal_v2.go:90-93 *)
Definition ipV4String (ip : IPInfo) : string :=
  cat ["IPv4 Prefix: "; ip_string (i_Prefix ip); "/"; dec (i_PrefixLen ip); ", "].

(** clc_proposal_v2.go:95-102 *)
Definition ipV6String (ip : IPInfo) : string :=
  (cat ["IPv6 Prefix Count: "; dec (i_IPv6PrefixesCnt ip)]
   ++ ipv6_prefixes_string (i_IPv6Prefixes ip))%string.

(** clc_proposal_v2.go:104-111 *)
Definition ipInfoString (p : ProposalV2) : string :=
  if h_Path (p2_Header p) =? SMCTypeN then ""
  else (ipV4String (p2_IP p) ++ ipV6String (p2_IP p))%string.

(** the loop body/loop of clc_proposal_v2.go:113-126 from index [i] *)
Fixpoint eid_area_string (n : nat) (i : nat) (area : list (list byte)) : string :=
  match area with
  | [] => ""
  | eid :: rest =>
    if (n <=? i)%nat then ""
    else cat [if (0 <? i)%nat then ", " else "";
              "EID "; dec (N.of_nat i); ": "; EID_String eid;
              eid_area_string n (S i) rest]
  end.

(** clc_proposal_v2.go:113-126 *)
Definition propV2ExtEIDString (p : ProposalV2) : string :=
  eid_area_string (N.to_nat (x_EIDNumber (p2_Ext p))) 0 (x_EIDArea (p2_Ext p)).

(** clc_proposal_v2.go:128-142 *)
Definition propV2ExtString (p : ProposalV2) : string :=
  if h_Pathv2 (p2_Header p) =? SMCTypeN then ""
  else
    let x := p2_Ext p in
    cat ["EID Number: "; dec (x_EIDNumber x); ", GID Number: "; dec (x_GIDNumber x);
         ", Release: "; dec (x_Release x); ", SEID Indicator: "; dec (x_SEIDInd x);
         ", SMC-Dv2 Extension Offset: "; dec (x_SMCDv2Off x);
         ", EID Area: ["; propV2ExtEIDString p; "]"].

(** the loop of clc_proposal_v2.go:144-158 from index [i] *)
Fixpoint gid_area_string (n : nat) (i : nat) (area : list GIDEntry) : string :=
  match area with
  | [] => ""
  | gid :: rest =>
    if (n <=? i)%nat then ""
    else cat [if (0 <? i)%nat then ", " else "";
              "GID "; dec (N.of_nat i); ": "; dec (g_GID gid);
              ", VCHID "; dec (N.of_nat i); ": "; dec (g_VCHID gid);
              gid_area_string n (S i) rest]
  end.

(** clc_proposal_v2.go:144-158 *)
Definition smcdV2ExtGIDString (p : ProposalV2) : string :=
  gid_area_string (N.to_nat (x_GIDNumber (p2_Ext p))) 0 (y_GIDArea (p2_SMCD p)).

(** clc_proposal_v2.go:160-171 *)
Definition smcdV2ExtString (p : ProposalV2) : string :=
  if negb (h_Pathv2 (p2_Header p) =? SMCTypeD) && negb (h_Pathv2 (p2_Header p) =? SMCTypeB)
  then ""
  else cat ["SEID: "; EID_String (y_SEID (p2_SMCD p));
            ", GID Area: ["; smcdV2ExtGIDString p; "]"].

(** [if s != "" { s = ", " + s }], clc_proposal_v2.go:181-195, :258-272 *)
Definition comma_first (s : string) : string :=
  if (s =? "")%string then s else (", " ++ s)%string.

(** clc_proposal_v2.go:173-203 *)
Definition ProposalV2_String (p : ProposalV2) : string :=
  let ipInfo := comma_first (ipInfoString p) in
  let propV2Ext := comma_first (propV2ExtString p) in
  let smcdV2Ext := comma_first (smcdV2ExtString p) in
  cat [Header_String (p2_Header p); ", Peer ID: "; PeerID_String (p2_SenderPeerID p);
       ", SMC-R GID: "; ip_string (p2_IBGID p); ", RoCE MAC: "; mac_string (p2_IBMAC p);
       ", IP Area Offset: "; dec (p2_IPAreaOffset p); ", SMC-D GID: "; dec (p2_SMCDGID p);
       ", ISMv2 VCHID: "; dec (p2_ISMv2VCHID p);
       ", SMCv2 Extension Offset: "; dec (p2_SMCv2Offset p);
       ipInfo; propV2Ext; smcdV2Ext; ", Trailer: "; Trailer_String (p2_Trailer p)].

(** clc_proposal_v2.go:205-214 *)
Definition ipInfoReserved (p : ProposalV2) : string :=
  if h_Path (p2_Header p) =? SMCTypeN then ""
  else (ipV4String (p2_IP p) ++ cat ["Reserved: "; hexbytes (i_reserved2 (p2_IP p)); ", "]
        ++ ipV6String (p2_IP p))%string.

(** clc_proposal_v2.go:216-233 *)
Definition propV2ExtReserved (p : ProposalV2) : string :=
  if h_Pathv2 (p2_Header p) =? SMCTypeN then ""
  else
    let x := p2_Ext p in
    cat ["EID Number: "; dec (x_EIDNumber x); ", GID Number: "; dec (x_GIDNumber x);
         ", Reserved: "; hexN (x_reserved3 x);
         ", Release: "; dec (x_Release x); ", Reserved: "; hexN (x_reserved4 x);
         ", SEID Indicator: "; dec (x_SEIDInd x);
         ", Reserved: "; hexbytes (x_reserved5 x);
         ", SMC-Dv2 Extension Offset: "; dec (x_SMCDv2Off x);
         ", Reserved: "; hexbytes (x_reserved6 x);
         ", EID Area: ["; propV2ExtEIDString p; "]"].

(** clc_proposal_v2.go:235-247 *)
Definition smcdV2ExtReserved (p : ProposalV2) : string :=
  if negb (h_Pathv2 (p2_Header p) =? SMCTypeD) && negb (h_Pathv2 (p2_Header p) =? SMCTypeB)
  then ""
  else cat ["SEID: "; EID_String (y_SEID (p2_SMCD p));
            ", Reserved: "; hexbytes (y_reserved7 (p2_SMCD p));
            ", GID Area: ["; smcdV2ExtGIDString p; "]"].

(** clc_proposal_v2.go:249-280 *)
Definition ProposalV2_Reserved (p : ProposalV2) : string :=
  let ipInfo := comma_first (ipInfoReserved p) in
  let propV2Ext := comma_first (propV2ExtReserved p) in
  let smcdV2Ext := comma_first (smcdV2ExtReserved p) in
  cat [Header_Reserved (p2_Header p); ", Peer ID: "; PeerID_String (p2_SenderPeerID p);
       ", SMC-R GID: "; ip_string (p2_IBGID p); ", RoCE MAC: "; mac_string (p2_IBMAC p);
       ", IP Area Offset: "; dec (p2_IPAreaOffset p); ", SMC-D GID: "; dec (p2_SMCDGID p);
       ", ISMv2 VCHID: "; dec (p2_ISMv2VCHID p);
       ", SMCv2 Extension Offset: "; dec (p2_SMCv2Offset p);
       ", Reserved: "; hexbytes (p2_reserved p);
       ipInfo; propV2Ext; smcdV2Ext; ", Trailer: "; Trailer_String (p2_Trailer p)].

(** the loop of clc_proposal_v2.go:361-384; also returns the final [skip] *)
Fixpoint prefixes_v2 (m : mem) (buf : slice) (len skip : nat) (acc : list IPv6Prefix)
    (n : nat) : M (list IPv6Prefix * nat) :=
  match n with
  | O => ret (acc, skip)
  | S n' =>
    if short len skip (IPv6PrefixLen + TrailerLen) then
      log_ln "Error parsing CLC Proposal v2: IPv6 prefix count too big" ;;
      let* d := upto buf len in
      errDump m d ;;
      ret (acc, skip)
    else
      let* prefix := copy_from m (zeros 16) buf skip (skip + 16) in
      let skip := (skip + 16)%nat in
      let* plen := idx m buf skip in
      let skip := (skip + 1)%nat in
      prefixes_v2 m buf len skip (acc ++ [mkIPv6Prefix prefix (b2n plen)])%list n'
  end.

(** clc_proposal_v2.go:334-385; [None] = Parse returns here *)
Definition ip_area_v2 (m : mem) (buf : slice) (hdr : Header) (len skip : nat) (ip : IPInfo)
  : M (option (IPInfo * nat)) :=
  if negb (h_Path hdr =? SMCTypeN) then
    if short len skip (4 + 1 + 2 + 1 + TrailerLen) then
      log_ln "Error parsing CLC Proposal v2: IP Area Offset too big" ;;
      let* d := upto buf len in
      errDump m d ;;
      ret None
    else
      let* prefix := copy_from m (zeros 4) buf skip (skip + 4) in
      let skip := (skip + 4)%nat in
      let* plen := idx m buf skip in
      let skip := (skip + 1)%nat in
      let* reserved2 := copy_from m (i_reserved2 ip) buf skip (skip + 2) in
      let skip := (skip + 2)%nat in
      let* cnt := idx m buf skip in
      let skip := (skip + 1)%nat in
      let* r := prefixes_v2 m buf len skip (i_IPv6Prefixes ip) (N.to_nat (b2n cnt)) in
      let (prefixes, skip) := r in
      ret (Some (mkIPInfo prefix (b2n plen) reserved2 (b2n cnt) prefixes, skip))
  else ret (Some (ip, skip)).

(** [a[i] = v] for an array: panics if [i] is out of range *)
Definition set_nth {A} (a : list A) (i : nat) (v : A) : M (list A) :=
  if (i <? List.length a)%nat then ret (firstn i a ++ v :: skipn (S i) a)%list else panic.

(** [a[i]] for an array *)
Definition get_nth {A} (a : list A) (i : nat) : M A :=
  match nth_error a i with Some v => ret v | None => panic end.

(** the loop of clc_proposal_v2.go:429-442 *)
Fixpoint eids_v2 (m : mem) (buf : slice) (len skip : nat) (area : list (list byte))
    (i n : nat) : M (list (list byte) * nat) :=
  match n with
  | O => ret (area, skip)
  | S n' =>
    if short len skip (EIDLen + TrailerLen) then
      log_ln "Error parsing CLC Proposal v2: EID number too big" ;;
      let* d := upto buf len in
      errDump m d ;;
      ret (area, skip)
    else
      let* old := get_nth area i in
      let* eid := copy_from m old buf skip (skip + EIDLen) in
      let* area := set_nth area i eid in
      let skip := (skip + EIDLen)%nat in
      eids_v2 m buf len skip area (S i) n'
  end.

(** clc_proposal_v2.go:387-443; [None] = Parse returns here *)
Definition ext_v2 (m : mem) (buf : slice) (hdr : Header) (len skip : nat) (x : V2Ext)
  : M (option (V2Ext * nat)) :=
  if negb (h_Pathv2 hdr =? SMCTypeN) then
    if short len skip (ProposalV2ExtLen + TrailerLen) then
      log_ln "Error parsing CLC Proposal v2: Not enough space for Proposal v2 Extension" ;;
      let* d := upto buf len in
      errDump m d ;;
      ret None
    else
      let* eidNumber := idx m buf skip in
      let skip := (skip + 1)%nat in
      let* gidNumber := idx m buf skip in
      let skip := (skip + 1)%nat in
      let* reserved3 := idx m buf skip in
      let skip := (skip + 1)%nat in
      let* b := idx m buf skip in
      let release := N.shiftr (b2n b) 4 in
      let* b := idx m buf skip in
      let reserved4 := N.shiftr (N.land (b2n b) 0x0e) 1 in
      let* b := idx m buf skip in
      let seidInd := N.land (b2n b) 0x01 in
      let skip := (skip + 1)%nat in
      let* reserved5 := copy_from m (x_reserved5 x) buf skip (skip + 2) in
      let skip := (skip + 2)%nat in
      let* off := be16 m buf skip (skip + 2) in
      let skip := (skip + 2)%nat in
      let* reserved6 := copy_from m (x_reserved6 x) buf skip (skip + 32) in
      let skip := (skip + 32)%nat in
      let* r := eids_v2 m buf len skip (x_EIDArea x) 0 (N.to_nat (b2n eidNumber)) in
      let (area, skip) := r in
      ret (Some (mkV2Ext (b2n eidNumber) (b2n gidNumber) (b2n reserved3) release reserved4
                   seidInd reserved5 off reserved6 area, skip))
  else ret (Some (x, skip)).

(** the loop of clc_proposal_v2.go:463-482 *)
Fixpoint gids_v2 (m : mem) (buf : slice) (len skip : nat) (area : list GIDEntry)
    (i n : nat) : M (list GIDEntry) :=
  match n with
  | O => ret area
  | S n' =>
    if short len skip (8 + 2 + TrailerLen) then
      log_ln "Error parsing CLC Proposal v2: GID number too big" ;;
      let* d := upto buf len in
      errDump m d ;;
      ret area
    else
      let* gid := be64 m buf skip (skip + 8) in
      let* old := get_nth area i in
      let* area := set_nth area i (mkGIDEntry gid (g_VCHID old)) in
      let skip := (skip + 8)%nat in
      let* vchid := be16 m buf skip (skip + 2) in
      let* old := get_nth area i in
      let* area := set_nth area i (mkGIDEntry (g_GID old) vchid) in
      let skip := (skip + 2)%nat in
      gids_v2 m buf len skip area (S i) n'
  end.

(** clc_proposal_v2.go:445-483; [None] = Parse returns here *)
Definition smcd_v2 (m : mem) (buf : slice) (hdr : Header) (len skip : nat) (gidNumber : N)
    (y : SMCDExt) : M (option SMCDExt) :=
  if (h_Pathv2 hdr =? SMCTypeD) || (h_Pathv2 hdr =? SMCTypeB) then
    if short len skip (SMCDv2ExtLen + TrailerLen) then
      log_ln "Error parsing CLC Proposal v2: Not enough space for SMC-D v2 Extension" ;;
      let* d := upto buf len in
      errDump m d ;;
      ret None
    else
      let* seid := copy_from m (y_SEID y) buf skip (skip + 32) in
      let skip := (skip + 32)%nat in
      let* reserved7 := copy_from m (y_reserved7 y) buf skip (skip + 16) in
      let skip := (skip + 16)%nat in
      let* area := gids_v2 m buf len skip (y_GIDArea y) 0 (N.to_nat gidNumber) in
      ret (Some (mkSMCDExt seid reserved7 area))
  else ret (Some y).

(** clc_proposal_v2.go:282-487 *)
Definition ProposalV2_Parse (m : mem) (p : ProposalV2) (buf : slice) : M ProposalV2 :=
  let raw := buf in
  let* hdr := Header_Parse m (p2_Header p) buf in
  let len := N.to_nat (h_Length hdr) in
  if h_Length hdr <? ProposalV2Len then
    log_ln "Error parsing CLC Proposal v2: message too short" ;;
    let* d := upto buf len in
    errDump m d ;;
    ret (mkProposalV2 raw hdr (p2_SenderPeerID p) (p2_IBGID p) (p2_IBMAC p)
           (p2_IPAreaOffset p) (p2_SMCDGID p) (p2_ISMv2VCHID p) (p2_SMCv2Offset p)
           (p2_reserved p) (p2_IP p) (p2_Ext p) (p2_SMCD p) (p2_Trailer p))
  else
    let skip := HeaderLen in
    let* peerID := copy_from m (p2_SenderPeerID p) buf skip (skip + PeerIDLen) in
    let skip := (skip + PeerIDLen)%nat in
    let* gid := copy_from m (zeros 16) buf skip (skip + 16) in
    let skip := (skip + 16)%nat in
    let* mac := copy_from m (zeros 6) buf skip (skip + 6) in
    let skip := (skip + 6)%nat in
    let* offset := be16 m buf skip (skip + 2) in
    let skip := (skip + 2)%nat in
    let* smcdGID := be64 m buf skip (skip + 8) in
    let skip := (skip + 8)%nat in
    let* vchid := be16 m buf skip (skip + 2) in
    let skip := (skip + 2)%nat in
    let* v2offset := be16 m buf skip (skip + 2) in
    let skip := (skip + 2)%nat in
    let* reserved := copy_from m (p2_reserved p) buf skip (skip + 28) in
    let skip := (skip + 28)%nat in
    let done ip ext smcd trailer :=
      mkProposalV2 raw hdr peerID gid mac offset smcdGID vchid v2offset reserved
        ip ext smcd trailer in
    let* r := ip_area_v2 m buf hdr len skip (p2_IP p) in
    match r with
    | None => ret (done (p2_IP p) (p2_Ext p) (p2_SMCD p) (p2_Trailer p))
    | Some (ip, skip) =>
      let* r := ext_v2 m buf hdr len skip (p2_Ext p) in
      match r with
      | None => ret (done ip (p2_Ext p) (p2_SMCD p) (p2_Trailer p))
      | Some (ext, skip) =>
        let* r := smcd_v2 m buf hdr len skip (x_GIDNumber ext) (p2_SMCD p) in
        match r with
        | None => ret (done ip ext (p2_SMCD p) (p2_Trailer p))
        | Some smcd =>
          let* trailer := Trailer_Parse m (p2_Trailer p) buf in
          ret (done ip ext smcd trailer)
        end
      end
    end.

(** ** message.go *)

(** message.go:8-12 *)
Definition MaxMessageSize : N := 1024.

(** message.go:14-20: the values of interface type [Message] that NewMessage
    can return (non-nil pointers) *)
Inductive Message :=
| MProposal (p : Proposal)
| MProposalV2 (p : ProposalV2)
| MAcceptSMCR (a : AcceptSMCR)
| MAcceptSMCD (a : AcceptSMCD)
| MAcceptSMCDv2 (a : AcceptSMCDv2)
| MConfirmSMCR (c : ConfirmSMCR)
| MConfirmSMCD (c : ConfirmSMCD)
| MConfirmSMCDv2 (c : ConfirmSMCDv2)
| MDecline (d : Decline)
| MDeclineV2 (d : DeclineV2).

(** message.go:22-79; [None] is the nil interface *)
Definition NewMessage (m : mem) (buf : slice) : M (option Message * N) :=
  let* ok := HasEyecatcher m buf in
  if negb ok then ret (None, 0)
  else
    let* length := be16 m buf 5 7 in
    if MaxMessageSize <? length then
      log_ln "Error parsing CLC header: message too big" ;;
      let* d := upto buf HeaderLen in
      errDump m d ;;
      ret (None, 0)
    else
      let* typ := idx m buf 4 in
      let typ := b2n typ in
      let* b := idx m buf 7 in
      let ver := N.shiftr (b2n b) 4 in
      let* b := idx m buf 7 in
      let path := N.land (b2n b) 0x03 in
      if typ =? TypeProposal then
        if ver =? SMCv2 then ret (Some (MProposalV2 ProposalV2_zero), length)
        else ret (Some (MProposal Proposal_zero), length)
      else if typ =? TypeAccept then
        if path =? SMCTypeR then ret (Some (MAcceptSMCR AcceptSMCR_zero), length)
        else if path =? SMCTypeD then
          if ver =? SMCv2 then ret (Some (MAcceptSMCDv2 AcceptSMCDv2_zero), length)
          else ret (Some (MAcceptSMCD AcceptSMCD_zero), length)
        else ret (None, 0)
      else if typ =? TypeConfirm then
        if path =? SMCTypeR then
          ret (Some (MConfirmSMCR (mkConfirmSMCR AcceptSMCR_zero)), length)
        else if path =? SMCTypeD then
          if ver =? SMCv2 then
            ret (Some (MConfirmSMCDv2 (mkConfirmSMCDv2 AcceptSMCDv2_zero)), length)
          else ret (Some (MConfirmSMCD (mkConfirmSMCD AcceptSMCD_zero)), length)
        else ret (None, 0)
      else if typ =? TypeDecline then
        if ver =? SMCv2 then ret (Some (MDeclineV2 DeclineV2_zero), length)
        else ret (Some (MDecline Decline_zero), length)
      else ret (None, 0).

(** The interface methods (message.go:14-20), dispatching on the dynamic type. *)
Definition Message_Parse (m : mem) (msg : Message) (buf : slice) : M Message :=
  match msg with
  | MProposal p => let* p := Proposal_Parse m p buf in ret (MProposal p)
  | MProposalV2 p => let* p := ProposalV2_Parse m p buf in ret (MProposalV2 p)
  | MAcceptSMCR a => let* a := AcceptSMCR_Parse m a buf in ret (MAcceptSMCR a)
  | MAcceptSMCD a => let* a := AcceptSMCD_Parse m a buf in ret (MAcceptSMCD a)
  | MAcceptSMCDv2 a => let* a := AcceptSMCDv2_Parse m a buf in ret (MAcceptSMCDv2 a)
  | MConfirmSMCR c => let* c := ConfirmSMCR_Parse m c buf in ret (MConfirmSMCR c)
  | MConfirmSMCD c => let* c := ConfirmSMCD_Parse m c buf in ret (MConfirmSMCD c)
  | MConfirmSMCDv2 c => let* c := ConfirmSMCDv2_Parse m c buf in ret (MConfirmSMCDv2 c)
  | MDecline d => let* d := Decline_Parse m d buf in ret (MDecline d)
  | MDeclineV2 d => let* d := DeclineV2_Parse m d buf in ret (MDeclineV2 d)
  end.

Definition Message_String (msg : Message) : string :=
  match msg with
  | MProposal p => Proposal_String p
  | MProposalV2 p => ProposalV2_String p
  | MAcceptSMCR a => AcceptSMCR_String a
  | MAcceptSMCD a => AcceptSMCD_String a
  | MAcceptSMCDv2 a => AcceptSMCDv2_String a
  | MConfirmSMCR c => AcceptSMCR_String (cr_Accept c)
  | MConfirmSMCD c => AcceptSMCD_String (cd_Accept c)
  | MConfirmSMCDv2 c => AcceptSMCDv2_String (c2_Accept c)
  | MDecline d => Decline_String d
  | MDeclineV2 d => DeclineV2_String d
  end.

Definition Message_Reserved (msg : Message) : string :=
  match msg with
  | MProposal p => Proposal_Reserved p
  | MProposalV2 p => ProposalV2_Reserved p
  | MAcceptSMCR a => AcceptSMCR_Reserved a
  | MAcceptSMCD a => AcceptSMCD_Reserved a
  | MAcceptSMCDv2 a => AcceptSMCDv2_Reserved a
  | MConfirmSMCR c => AcceptSMCR_Reserved (cr_Accept c)
  | MConfirmSMCD c => AcceptSMCD_Reserved (cd_Accept c)
  | MConfirmSMCDv2 c => AcceptSMCDv2_Reserved (c2_Accept c)
  | MDecline d => Decline_Reserved d
  | MDeclineV2 d => DeclineV2_Reserved d
  end.

Definition Message_Raw (msg : Message) : slice :=
  match msg with
  | MProposal p => p_Raw p
  | MProposalV2 p => p2_Raw p
  | MAcceptSMCR a => ar_Raw a
  | MAcceptSMCD a => ad_Raw a
  | MAcceptSMCDv2 a => a2_Raw a
  | MConfirmSMCR c => ar_Raw (cr_Accept c)
  | MConfirmSMCD c => ad_Raw (cd_Accept c)
  | MConfirmSMCDv2 c => a2_Raw (c2_Accept c)
  | MDecline d => d_Raw d
  | MDeclineV2 d => d2_Raw d
  end.

(** [msg.Dump()] reads the backing array at the time of the call (raw.go:13-16) *)
Definition Message_Dump (m : mem) (msg : Message) : string := Raw_Dump m (Message_Raw msg).
