(** * LlcModel: package llc (/repo/pkg/llc) as Gallina functions.

    Same conventions as ClcModel.v.  [BaseMsg.Raw] is filled by [make]+[copy], so
    it never aliases the caller's buffer and is modelled as a list of bytes.
    The Go [int] fields Type and Length are never negative and modelled as [N]. *)

From Coq Require Import List NArith Bool String Arith.
From Verif Require Import GoBase GoFmt ClcModel.
Import ListNotations.
Local Open Scope string_scope.
Local Open Scope N_scope.

(** [(buffer[0] & mask) > 0] *)
Definition flag (m : mem) (buffer : slice) (mask : N) : M bool :=
  let* b := idx m buffer 0 in ret (0 <? N.land (b2n b) mask).

(** [buffer[0] & mask] *)
Definition masked (m : mem) (buffer : slice) (mask : N) : M N :=
  let* b := idx m buffer 0 in ret (N.land (b2n b) mask).

(** [buffer[0]] as a number *)
Definition byte0 (m : mem) (buffer : slice) : M N :=
  let* b := idx m buffer 0 in ret (b2n b).

(** ** llc.go:3-19 *)
Definition LLCMsgLen : nat := 44.
Definition TypeConfirmLink : N := 1.
Definition TypeAddLink : N := 2.
Definition TypeAddLinkCont : N := 3.
Definition TypeDeleteLink : N := 4.
Definition TypeConfirmRKey : N := 6.
Definition TypeTestLink : N := 7.
Definition TypeConfirmRKeyCont : N := 8.
Definition TypeDeleteRKey : N := 9.
Definition TypeCDC : N := 0xfe.

(** other.go:3-6 *)
Definition TypeOther : N := 0x101.

(** ** base.go *)

(** base.go:5-10 *)
Record BaseMsg := mkBaseMsg { b_Raw : list byte; b_Type : N; b_Length : N }.
Definition BaseMsg_zero : BaseMsg := mkBaseMsg [] 0 0.

(** base.go:12-16 *)
Definition setRaw (m : mem) (buffer : slice) : list byte :=
  go_copy (zeros (s_len buffer)) (s_bytes m buffer).

(** base.go:18-29 *)
Definition SetBaseMsg (m : mem) (buffer : slice) : M BaseMsg :=
  let raw := setRaw m buffer in
  let* typ := byte0 m buffer in
  let* buffer := from buffer 1 in
  let* len := byte0 m buffer in
  ret (mkBaseMsg raw typ len).

(** base.go:31-34 *)
Definition BaseMsg_Hex (b : BaseMsg) : string := hex_dump (b_Raw b).

(** base.go:36-39 *)
Definition BaseMsg_GetType (b : BaseMsg) : N := b_Type b.

(** ** cdc.go *)

(** cdc.go:8-29 *)
Record CDC := mkCDC {
  c_Base : BaseMsg;
  c_SeqNum : N;
  c_AlertTkn : N;
  c_res1 : list byte;
  c_ProdWrap : N;
  c_ProdCurs : N;
  c_res2 : list byte;
  c_ConsWrap : N;
  c_ConsCurs : N;
  c_B : bool; c_P : bool; c_U : bool; c_R : bool; c_F : bool;
  c_res3 : N;
  c_D : bool; c_C : bool; c_A : bool;
  c_res4 : list byte }.

Definition CDC_zero : CDC :=
  mkCDC BaseMsg_zero 0 0 (zeros 2) 0 0 (zeros 2) 0 0 false false false false false 0
    false false false (zeros 19).

(** cdc.go:31-110 *)
Definition CDC_Parse (m : mem) (c : CDC) (buffer : slice) : M CDC :=
  let raw := setRaw m buffer in
  let* typ := byte0 m buffer in
  let* buffer := from buffer 1 in
  let* len := byte0 m buffer in
  let* buffer := from buffer 1 in
  let* seqNum := be16 m buffer 0 2 in
  let* buffer := from buffer 2 in
  let* alertTkn := be32 m buffer 0 4 in
  let* buffer := from buffer 4 in
  let* res1 := copy_from m (c_res1 c) buffer 0 2 in
  let* buffer := from buffer 2 in
  let* prodWrap := be16 m buffer 0 2 in
  let* buffer := from buffer 2 in
  let* prodCurs := be32 m buffer 0 4 in
  let* buffer := from buffer 4 in
  let* res2 := copy_from m (c_res2 c) buffer 0 2 in
  let* buffer := from buffer 2 in
  let* consWrap := be16 m buffer 0 2 in
  let* buffer := from buffer 2 in
  let* consCurs := be32 m buffer 0 4 in
  let* buffer := from buffer 4 in
  let* B := flag m buffer 0x80 in
  let* P := flag m buffer 0x40 in
  let* U := flag m buffer 0x20 in
  let* R := flag m buffer 0x10 in
  let* F := flag m buffer 0x08 in
  let* res3 := masked m buffer 0x07 in
  let* buffer := from buffer 1 in
  let* D := flag m buffer 0x80 in
  let* C := flag m buffer 0x40 in
  let* A := flag m buffer 0x20 in
  let* res4_0 := masked m buffer 0x1f in
  let* buffer := from buffer 1 in
  let res4 := n2b res4_0 :: go_copy (skipn 1 (c_res4 c)) (s_bytes m buffer) in
  ret (mkCDC (mkBaseMsg raw typ len) seqNum alertTkn res1 prodWrap prodCurs res2
         consWrap consCurs B P U R F res3 D C A res4).

(** cdc.go:112-125 *)
Definition CDC_String (c : CDC) : string :=
  cat ["CDC: Type: "; dec (b_Type (c_Base c)); ", Length "; dec (b_Length (c_Base c));
       ", Sequence Number: "; dec (c_SeqNum c); ", Alert Token: "; dec (c_AlertTkn c);
       ", Producer Wrap: "; dec (c_ProdWrap c); ", Producer Cursor: "; dec (c_ProdCurs c);
       ", Consumer Wrap: "; dec (c_ConsWrap c); ", Consumer Cursor: "; dec (c_ConsCurs c);
       ", Writer Blocked: "; tf (c_B c); ", Urgent Data Pending: "; tf (c_P c);
       ", Urgent Data Present: "; tf (c_U c);
       ", Request for Consumer Cursor Update: "; tf (c_R c);
       ", Failover Validation: "; tf (c_F c); ", Sending Done: "; tf (c_D c);
       ", Peer Connection Closed: "; tf (c_C c); ", Abnormal Close: "; tf (c_A c); nl].

(** cdc.go:127-141 *)
Definition CDC_Reserved (c : CDC) : string :=
  cat ["CDC: Type: "; dec (b_Type (c_Base c)); ", Length "; dec (b_Length (c_Base c));
       ", Sequence Number: "; dec (c_SeqNum c); ", Alert Token: "; dec (c_AlertTkn c);
       ", Reserved: "; hexbytes (c_res1 c);
       ", Producer Wrap: "; dec (c_ProdWrap c); ", Producer Cursor: "; dec (c_ProdCurs c);
       ", Reserved: "; hexbytes (c_res2 c);
       ", Consumer Wrap: "; dec (c_ConsWrap c); ", Consumer Cursor: "; dec (c_ConsCurs c);
       ", Writer Blocked: "; tf (c_B c); ", Urgent Data Pending: "; tf (c_P c);
       ", Urgent Data Present: "; tf (c_U c);
       ", Request for Consumer Cursor Update: "; tf (c_R c);
       ", Failover Validation: "; tf (c_F c); ", Reserved: "; hexN (c_res3 c);
       ", Sending Done: "; tf (c_D c);
       ", Peer Connection Closed: "; tf (c_C c); ", Abnormal Close: "; tf (c_A c);
       ", Reserved: "; hexbytes (c_res4 c); nl].

(** cdc.go:143-148 *)
Definition ParseCDC (m : mem) (buffer : slice) : M CDC := CDC_Parse m CDC_zero buffer.

(** ** other.go *)

(** other.go:8-11 *)
Record Other := mkOther { o_Base : BaseMsg }.

(** other.go:13-18 *)
Definition Other_Parse (m : mem) (o : Other) (buffer : slice) : M Other :=
  ret (mkOther (mkBaseMsg (setRaw m buffer) TypeOther (N.of_nat (s_len buffer)))).

(** other.go:20-23 *)
Definition Other_String (o : Other) : string := cat ["Other Payload"; nl].

(** other.go:25-28 *)
Definition Other_Reserved (o : Other) : string := Other_String o.

(** other.go:30-35 *)
Definition ParseOther (m : mem) (buffer : slice) : M Other :=
  Other_Parse m (mkOther BaseMsg_zero) buffer.

(** ** llc_addlink.go *)

(** llc_addlink.go:11-32 *)
Definition llc_QPMTU_String (q : N) : string :=
  let mtu := if q =? 1 then "256"
             else if q =? 2 then "512"
             else if q =? 3 then "1024"
             else if q =? 4 then "2048"
             else if q =? 5 then "4096"
             else "reserved" in
  cat [dec q; " ("; mtu; ")"].

(** llc_addlink.go:37-51 *)
Definition AddLinkRsnCode_String (r : N) : string :=
  let rsn := if r =? 1 then "no alternate path available"
             else if r =? 2 then "invalid MTU value specified"
             else "unknown" in
  cat [dec r; " ("; rsn; ")"].

(** llc_addlink.go:53-70 *)
Record AddLink := mkAddLink {
  al_Base : BaseMsg;
  al_res1 : N;
  al_RsnCode : N;
  al_Reply : bool;
  al_Reject : bool;
  al_res2 : N;
  al_SenderMAC : list byte;
  al_res5 : list byte;
  al_SenderGID : list byte;
  al_SenderQP : N;
  al_Link : N;
  al_res3 : N;
  al_MTU : N;
  al_PSN : N;
  al_res4 : list byte }.

Definition AddLink_zero : AddLink :=
  mkAddLink BaseMsg_zero 0 0 false false 0 [] (zeros 2) [] 0 0 0 0 0 (zeros 10).

(** llc_addlink.go:72-135 *)
Definition AddLink_Parse (m : mem) (a : AddLink) (buffer : slice) : M AddLink :=
  let* base := SetBaseMsg m buffer in
  let* buffer := from buffer 2 in
  let* b := byte0 m buffer in
  let res1 := N.shiftr b 4 in
  let* rsn := masked m buffer 0x0f in
  let* buffer := from buffer 1 in
  let* reply := flag m buffer 0x80 in
  let* reject := flag m buffer 0x40 in
  let* res2 := masked m buffer 0x3f in
  let* buffer := from buffer 1 in
  let* mac := copy_from m (zeros 6) buffer 0 6 in
  let* buffer := from buffer 6 in
  let* res5 := copy_from m (al_res5 a) buffer 0 2 in
  let* buffer := from buffer 2 in
  let* gid := copy_from m (zeros 16) buffer 0 16 in
  let* buffer := from buffer 16 in
  let* qp := be24 m buffer in
  let* buffer := from buffer 3 in
  let* link := byte0 m buffer in
  let* buffer := from buffer 1 in
  let* b := byte0 m buffer in
  let res3 := N.shiftr b 4 in
  let* mtu := masked m buffer 0x0f in
  let* buffer := from buffer 1 in
  let* psn := be24 m buffer in
  let* buffer := from buffer 3 in
  let res4 := go_copy (al_res4 a) (s_bytes m buffer) in
  ret (mkAddLink base res1 rsn reply reject res2 mac res5 gid qp link res3 mtu psn res4).

(** llc_addlink.go:137-144 *)
Definition AddLink_String (a : AddLink) : string :=
  cat ["LLC Add Link: Type: "; dec (b_Type (al_Base a)); ", Length: "; dec (b_Length (al_Base a));
       ", Reason Code: "; AddLinkRsnCode_String (al_RsnCode a);
       ", Reply: "; tf (al_Reply a); ", Rejection: "; tf (al_Reject a);
       ", Sender MAC: "; mac_string (al_SenderMAC a); ", Sender GID: "; ip_string (al_SenderGID a);
       ", Sender QP: "; dec (al_SenderQP a); ", Link: "; dec (al_Link a);
       ", MTU: "; llc_QPMTU_String (al_MTU a); ", Initial PSN: "; dec (al_PSN a); nl].

(** llc_addlink.go:146-156 *)
Definition AddLink_Reserved (a : AddLink) : string :=
  cat ["LLC Add Link: Type: "; dec (b_Type (al_Base a)); ", Length: "; dec (b_Length (al_Base a));
       ", Reserved: "; hexN (al_res1 a);
       ", Reason Code: "; AddLinkRsnCode_String (al_RsnCode a);
       ", Reply: "; tf (al_Reply a); ", Rejection: "; tf (al_Reject a);
       ", Reserved: "; hexN (al_res2 a);
       ", Sender MAC: "; mac_string (al_SenderMAC a); ", Sender GID: "; ip_string (al_SenderGID a);
       ", Sender QP: "; dec (al_SenderQP a); ", Link: "; dec (al_Link a);
       ", Reserved: "; hexN (al_res3 a);
       ", MTU: "; llc_QPMTU_String (al_MTU a); ", Initial PSN: "; dec (al_PSN a);
       ", Reserved: "; hexbytes (al_res4 a); nl].

(** llc_addlink.go:158-163 *)
Definition ParseAddLink (m : mem) (buffer : slice) : M AddLink :=
  AddLink_Parse m AddLink_zero buffer.

(** ** llc_addlinkcont.go *)

(** llc_addlinkcont.go:8-13 *)
Record RKeyPair := mkRKeyPair { rp_ReferenceRKey : N; rp_NewRKey : N; rp_NewVAddr : N }.

(** llc_addlinkcont.go:15-24 *)
Definition RKeyPair_Parse (m : mem) (buffer : slice) : M RKeyPair :=
  let* ref := be32 m buffer 0 4 in
  let* new := be32 m buffer 4 8 in
  let* vaddr := be64 m buffer 8 16 in
  ret (mkRKeyPair ref new vaddr).

(** llc_addlinkcont.go:26-30 *)
Definition RKeyPair_String (r : RKeyPair) : string :=
  cat ["[Reference RKey: "; dec (rp_ReferenceRKey r); ", New RKey: "; dec (rp_NewRKey r);
       ", New Virtual Address: "; hexN (rp_NewVAddr r); "]"].

(** llc_addlinkcont.go:32-43 *)
Record AddLinkCont := mkAddLinkCont {
  ac_Base : BaseMsg;
  ac_res1 : N;
  ac_Reply : bool;
  ac_res2 : N;
  ac_Link : N;
  ac_NumRTokens : N;
  ac_res3 : list byte;
  ac_RKeyPairs : list RKeyPair;   (* [2]RKeyPair *)
  ac_res4 : list byte }.

Definition AddLinkCont_zero : AddLinkCont :=
  mkAddLinkCont BaseMsg_zero 0 false 0 0 0 (zeros 2) (repeat (mkRKeyPair 0 0 0) 2) (zeros 4).

(** the loop of llc_addlinkcont.go:79-82 over an array of [n] entries, every one
    of which is overwritten *)
Fixpoint RKeyPairs_Parse (m : mem) (n : nat) (buffer : slice) : M (list RKeyPair * slice) :=
  match n with
  | O => ret ([], buffer)
  | S n' =>
    let* p := RKeyPair_Parse m buffer in
    let* buffer := from buffer 16 in
    let* r := RKeyPairs_Parse m n' buffer in
    let (ps, buffer) := r in
    ret (p :: ps, buffer)
  end.

(** llc_addlinkcont.go:45-86 *)
Definition AddLinkCont_Parse (m : mem) (a : AddLinkCont) (buffer : slice) : M AddLinkCont :=
  let* base := SetBaseMsg m buffer in
  let* buffer := from buffer 2 in
  let* res1 := byte0 m buffer in
  let* buffer := from buffer 1 in
  let* reply := flag m buffer 0x80 in
  let* res2 := masked m buffer 0x7f in
  let* buffer := from buffer 1 in
  let* link := byte0 m buffer in
  let* buffer := from buffer 1 in
  let* num := byte0 m buffer in
  let* buffer := from buffer 1 in
  let* res3 := copy_from m (ac_res3 a) buffer 0 2 in
  let* buffer := from buffer 2 in
  let* r := RKeyPairs_Parse m (List.length (ac_RKeyPairs a)) buffer in
  let (pairs, buffer) := r in
  let res4 := go_copy (ac_res4 a) (s_bytes m buffer) in
  ret (mkAddLinkCont base res1 reply res2 link num res3 pairs res4).

(** the loop of llc_addlinkcont.go:93-95 (from index [i]); it assigns ([=], not
    [+=]) the variable [pairs] *)
Fixpoint pairs_string (i : nat) (ps : list RKeyPair) (pairs : string) : string :=
  match ps with
  | [] => pairs
  | p :: rest =>
    let pairs := cat [", RKey Pair "; dec (N.of_nat (i + 1)); ": "; RKeyPair_String p] in
    pairs_string (S i) rest pairs
  end.

(** llc_addlinkcont.go:88-101 *)
Definition AddLinkCont_String (a : AddLinkCont) : string :=
  cat ["LLC Add Link Continuation: Type: "; dec (b_Type (ac_Base a));
       ", Length: "; dec (b_Length (ac_Base a)); ", Reply: "; tf (ac_Reply a);
       ", Link: "; dec (ac_Link a); ", Number of RTokens: "; dec (ac_NumRTokens a);
       pairs_string 0 (ac_RKeyPairs a) ""; nl].

(** the loop of llc_addlinkcont.go:109-111 *)
Fixpoint pairs_reserved (i : nat) (ps : list RKeyPair) (pairs : string) : string :=
  match ps with
  | [] => pairs
  | p :: rest =>
    let pairs := cat ["RKey Pair "; dec (N.of_nat (i + 1)); ": "; RKeyPair_String p; ", "] in
    pairs_reserved (S i) rest pairs
  end.

(** llc_addlinkcont.go:103-118 *)
Definition AddLinkCont_Reserved (a : AddLinkCont) : string :=
  cat ["LLC Add Link Continuation: Type: "; dec (b_Type (ac_Base a));
       ", Length: "; dec (b_Length (ac_Base a)); ", Reserved: "; hexN (ac_res1 a);
       ", Reply: "; tf (ac_Reply a); ", Reserved: "; hexN (ac_res2 a);
       ", Link: "; dec (ac_Link a); ", Number of RTokens: "; dec (ac_NumRTokens a);
       ", Reserved: "; hexbytes (ac_res3 a); ", "; pairs_reserved 0 (ac_RKeyPairs a) "";
       "Reserved: "; hexbytes (ac_res4 a); nl].

(** llc_addlinkcont.go:120-125 *)
Definition ParseAddLinkCont (m : mem) (buffer : slice) : M AddLinkCont :=
  AddLinkCont_Parse m AddLinkCont_zero buffer.

(** ** llc_confirmlink.go *)

(** llc_confirmlink.go:9-22 *)
Record ConfirmLink := mkConfirmLink {
  cl_Base : BaseMsg;
  cl_res1 : N;
  cl_Reply : bool;
  cl_res2 : N;
  cl_SenderMAC : list byte;
  cl_SenderGID : list byte;
  cl_SenderQP : N;
  cl_Link : N;
  cl_SenderLinkUserID : N;
  cl_MaxLinks : N;
  cl_res3 : list byte }.

Definition ConfirmLink_zero : ConfirmLink :=
  mkConfirmLink BaseMsg_zero 0 false 0 [] [] 0 0 0 0 (zeros 9).

(** llc_confirmlink.go:24-72 *)
Definition ConfirmLink_Parse (m : mem) (c : ConfirmLink) (buffer : slice) : M ConfirmLink :=
  let* base := SetBaseMsg m buffer in
  let* buffer := from buffer 2 in
  let* res1 := byte0 m buffer in
  let* buffer := from buffer 1 in
  let* reply := flag m buffer 0x80 in
  let* res2 := masked m buffer 0x7f in
  let* buffer := from buffer 1 in
  let* mac := copy_from m (zeros 6) buffer 0 6 in
  let* buffer := from buffer 6 in
  let* gid := copy_from m (zeros 16) buffer 0 16 in
  let* buffer := from buffer 16 in
  let* qp := be24 m buffer in
  let* buffer := from buffer 3 in
  let* link := byte0 m buffer in
  let* buffer := from buffer 1 in
  let* userID := be32 m buffer 0 4 in
  let* buffer := from buffer 4 in
  let* maxLinks := byte0 m buffer in
  let* buffer := from buffer 1 in
  let res3 := go_copy (cl_res3 c) (s_bytes m buffer) in
  ret (mkConfirmLink base res1 reply res2 mac gid qp link userID maxLinks res3).

(** llc_confirmlink.go:74-82 *)
Definition ConfirmLink_String (c : ConfirmLink) : string :=
  cat ["LLC Confirm Link: Type: "; dec (b_Type (cl_Base c)); ", Length: ";
       dec (b_Length (cl_Base c)); ", Reply: "; tf (cl_Reply c);
       ", Sender MAC: "; mac_string (cl_SenderMAC c); ", Sender GID: "; ip_string (cl_SenderGID c);
       ", Sender QP: "; dec (cl_SenderQP c); ", Link: "; dec (cl_Link c);
       ", Sender Link UserID: "; dec (cl_SenderLinkUserID c);
       ", Max Links: "; dec (cl_MaxLinks c); nl].

(** llc_confirmlink.go:84-94 *)
Definition ConfirmLink_Reserved (c : ConfirmLink) : string :=
  cat ["LLC Confirm Link: Type: "; dec (b_Type (cl_Base c)); ", Length: ";
       dec (b_Length (cl_Base c)); ", Reserved: "; hexN (cl_res1 c);
       ", Reply: "; tf (cl_Reply c); ", Reserved: "; hexN (cl_res2 c);
       ", Sender MAC: "; mac_string (cl_SenderMAC c); ", Sender GID: "; ip_string (cl_SenderGID c);
       ", Sender QP: "; dec (cl_SenderQP c); ", Link: "; dec (cl_Link c);
       ", Sender Link UserID: "; dec (cl_SenderLinkUserID c);
       ", Max Links: "; dec (cl_MaxLinks c); ", Reserved: "; hexbytes (cl_res3 c); nl].

(** llc_confirmlink.go:96-101 *)
Definition ParseConfirm (m : mem) (buffer : slice) : M ConfirmLink :=
  ConfirmLink_Parse m ConfirmLink_zero buffer.

(** ** llc_confirmrkey.go *)

(** llc_confirmrkey.go:8-13 *)
Record RMBSpec := mkRMBSpec { rs_Link : N; rs_RKey : N; rs_VAddr : N }.

(** llc_confirmrkey.go:15-24 *)
Definition RMBSpec_Parse (m : mem) (buffer : slice) : M RMBSpec :=
  let* link := byte0 m buffer in
  let* rkey := be32 m buffer 1 5 in
  let* vaddr := be64 m buffer 5 13 in
  ret (mkRMBSpec link rkey vaddr).

(** llc_confirmrkey.go:26-30 *)
Definition RMBSpec_String (r : RMBSpec) : string :=
  cat ["[Link: "; dec (rs_Link r); ", RKey: "; dec (rs_RKey r);
       ", Virtual Address: "; hexN (rs_VAddr r); "]"].

(** the loops of llc_confirmrkey.go:90-93 and llc_confirmrkeycont.go:52-55 *)
Fixpoint RMBSpecs_Parse (m : mem) (n : nat) (buffer : slice) : M (list RMBSpec * slice) :=
  match n with
  | O => ret ([], buffer)
  | S n' =>
    let* r := RMBSpec_Parse m buffer in
    let* buffer := from buffer 13 in
    let* rest := RMBSpecs_Parse m n' buffer in
    let (rs, buffer) := rest in
    ret (r :: rs, buffer)
  end.

(** llc_confirmrkey.go:32-46 *)
Record ConfirmRKey := mkConfirmRKey {
  ck_Base : BaseMsg;
  ck_res1 : N;
  ck_Reply : bool;
  ck_res2 : N;
  ck_Reject : bool;
  ck_Retry : bool;
  ck_res3 : N;
  ck_NumTkns : N;
  ck_RKey : N;
  ck_VAddr : N;
  ck_OtherRMBs : list RMBSpec;   (* [2]RMBSpec *)
  ck_res4 : N }.

Definition ConfirmRKey_zero : ConfirmRKey :=
  mkConfirmRKey BaseMsg_zero 0 false 0 false false 0 0 0 0 (repeat (mkRMBSpec 0 0 0) 2) 0.

(** llc_confirmrkey.go:48-97 *)
Definition ConfirmRKey_Parse (m : mem) (c : ConfirmRKey) (buffer : slice) : M ConfirmRKey :=
  let* base := SetBaseMsg m buffer in
  let* buffer := from buffer 2 in
  let* res1 := byte0 m buffer in
  let* buffer := from buffer 1 in
  let* reply := flag m buffer 0x80 in
  let* b := masked m buffer 0x40 in
  let res2 := N.shiftr b 6 in
  let* reject := flag m buffer 0x20 in
  let* retry := flag m buffer 0x10 in
  let* res3 := masked m buffer 0x0f in
  let* buffer := from buffer 1 in
  let* num := byte0 m buffer in
  let* buffer := from buffer 1 in
  let* rkey := be32 m buffer 0 4 in
  let* buffer := from buffer 4 in
  let* vaddr := be64 m buffer 0 8 in
  let* buffer := from buffer 8 in
  let* r := RMBSpecs_Parse m (List.length (ck_OtherRMBs c)) buffer in
  let (others, buffer) := r in
  let* res4 := byte0 m buffer in
  ret (mkConfirmRKey base res1 reply res2 reject retry res3 num rkey vaddr others res4).

(** the loops of llc_confirmrkey.go:103-106 and llc_confirmrkeycont.go:65-68 *)
Fixpoint others_string (i : nat) (rs : list RMBSpec) : string :=
  match rs with
  | [] => ""
  | r :: rest =>
    cat [", Other Link RMB "; dec (N.of_nat (i + 1)); ": "; RMBSpec_String r;
         others_string (S i) rest]
  end.

(** llc_confirmrkey.go:99-113 *)
Definition ConfirmRKey_String (c : ConfirmRKey) : string :=
  cat ["LLC Confirm RKey: Type: "; dec (b_Type (ck_Base c)); ", Length: ";
       dec (b_Length (ck_Base c)); ", Reply: "; tf (ck_Reply c);
       ", Negative Response: "; tf (ck_Reject c); ", Configuration Retry: "; tf (ck_Retry c);
       ", Number of Tokens: "; dec (ck_NumTkns c); ", This RKey: "; dec (ck_RKey c);
       ", This VAddr: "; hexN (ck_VAddr c); others_string 0 (ck_OtherRMBs c); nl].

(** the loops of llc_confirmrkey.go:120-123 and llc_confirmrkeycont.go:81-84 *)
Fixpoint others_reserved (i : nat) (rs : list RMBSpec) : string :=
  match rs with
  | [] => ""
  | r :: rest =>
    cat ["Other Link RMB "; dec (N.of_nat (i + 1)); ": "; RMBSpec_String r; ", ";
         others_reserved (S i) rest]
  end.

(** llc_confirmrkey.go:115-133 *)
Definition ConfirmRKey_Reserved (c : ConfirmRKey) : string :=
  cat ["LLC Confirm RKey: Type: "; dec (b_Type (ck_Base c)); ", Length: ";
       dec (b_Length (ck_Base c)); ", Reserved: "; hexN (ck_res1 c);
       ", Reply: "; tf (ck_Reply c); ", Reserved: "; hexN (ck_res2 c);
       ", Negative Response: "; tf (ck_Reject c); ", Configuration Retry: "; tf (ck_Retry c);
       ", Reserved: "; hexN (ck_res3 c);
       ", Number of Tokens: "; dec (ck_NumTkns c); ", This RKey: "; dec (ck_RKey c);
       ", This VAddr: "; hexN (ck_VAddr c); ", "; others_reserved 0 (ck_OtherRMBs c);
       "Reserved: "; hexN (ck_res4 c); nl].

(** llc_confirmrkey.go:135-140 *)
Definition ParseConfirmRKey (m : mem) (buffer : slice) : M ConfirmRKey :=
  ConfirmRKey_Parse m ConfirmRKey_zero buffer.

(** ** llc_confirmrkeycont.go *)

(** llc_confirmrkeycont.go:5-16 *)
Record ConfirmRKeyCont := mkConfirmRKeyCont {
  cc_Base : BaseMsg;
  cc_res1 : N;
  cc_Reply : bool;
  cc_res2 : N;
  cc_Reject : bool;
  cc_res3 : N;
  cc_NumTkns : N;
  cc_OtherRMBs : list RMBSpec;   (* [3]RMBSpec *)
  cc_res4 : N }.

Definition ConfirmRKeyCont_zero : ConfirmRKeyCont :=
  mkConfirmRKeyCont BaseMsg_zero 0 false 0 false 0 0 (repeat (mkRMBSpec 0 0 0) 3) 0.

(** llc_confirmrkeycont.go:18-59 *)
Definition ConfirmRKeyCont_Parse (m : mem) (c : ConfirmRKeyCont) (buffer : slice)
  : M ConfirmRKeyCont :=
  let* base := SetBaseMsg m buffer in
  let* buffer := from buffer 2 in
  let* res1 := byte0 m buffer in
  let* buffer := from buffer 1 in
  let* reply := flag m buffer 0x80 in
  let* b := masked m buffer 0x40 in
  let res2 := N.shiftr b 6 in
  let* reject := flag m buffer 0x20 in
  let* res3 := masked m buffer 0x1f in
  let* buffer := from buffer 1 in
  let* num := byte0 m buffer in
  let* buffer := from buffer 1 in
  let* r := RMBSpecs_Parse m (List.length (cc_OtherRMBs c)) buffer in
  let (others, buffer) := r in
  let* res4 := byte0 m buffer in
  ret (mkConfirmRKeyCont base res1 reply res2 reject res3 num others res4).

(** llc_confirmrkeycont.go:61-74 *)
Definition ConfirmRKeyCont_String (c : ConfirmRKeyCont) : string :=
  cat ["LLC Confirm RKey Continuation: Type: "; dec (b_Type (cc_Base c)); ", Length: ";
       dec (b_Length (cc_Base c)); ", Reply: "; tf (cc_Reply c);
       ", Negative Response: "; tf (cc_Reject c); ", Number of Tokens: "; dec (cc_NumTkns c);
       others_string 0 (cc_OtherRMBs c); nl].

(** llc_confirmrkeycont.go:76-92 *)
Definition ConfirmRKeyCont_Reserved (c : ConfirmRKeyCont) : string :=
  cat ["LLC Confirm RKey Continuation: Type: "; dec (b_Type (cc_Base c)); ", Length: ";
       dec (b_Length (cc_Base c)); ", Reserved: "; hexN (cc_res1 c);
       ", Reply: "; tf (cc_Reply c); ", Reserved: "; hexN (cc_res2 c);
       ", Negative Response: "; tf (cc_Reject c); ", Reserved: "; hexN (cc_res3 c);
       ", Number of Tokens: "; dec (cc_NumTkns c); ", "; others_reserved 0 (cc_OtherRMBs c);
       "Reserved: "; hexN (cc_res4 c); nl].

(** llc_confirmrkeycont.go:94-100 *)
Definition ParseConfirmRKeyCont (m : mem) (buffer : slice) : M ConfirmRKeyCont :=
  ConfirmRKeyCont_Parse m ConfirmRKeyCont_zero buffer.

(** ** llc_deletelink.go *)

(** llc_deletelink.go:11-37 *)
Definition DelLinkRsnCode_String (d : N) : string :=
  let rsn := if d =? 0x00010000 then "Lost path"
             else if d =? 0x00020000 then "Operator initiated termination"
             else if d =? 0x00030000 then "Program initiated termination (link inactivity)"
             else if d =? 0x00040000 then "LLC protocol violation"
             else if d =? 0x00050000 then "Asymmetric link no longer needed"
             else if d =? 0x00100000 then "Unknown link ID (no link)"
             else "unknown" in
  cat [dec d; " ("; rsn; ")"].

(** llc_deletelink.go:39-50 *)
Record DeleteLink := mkDeleteLink {
  dl_Base : BaseMsg;
  dl_res1 : N;
  dl_Reply : bool;
  dl_All : bool;
  dl_Orderly : bool;
  dl_res2 : N;
  dl_Link : N;
  dl_RsnCode : N;
  dl_res3 : list byte }.

Definition DeleteLink_zero : DeleteLink :=
  mkDeleteLink BaseMsg_zero 0 false false false 0 0 0 (zeros 35).

(** llc_deletelink.go:52-85 *)
Definition DeleteLink_Parse (m : mem) (d : DeleteLink) (buffer : slice) : M DeleteLink :=
  let* base := SetBaseMsg m buffer in
  let* buffer := from buffer 2 in
  let* res1 := byte0 m buffer in
  let* buffer := from buffer 1 in
  let* reply := flag m buffer 0x80 in
  let* all := flag m buffer 0x40 in
  let* orderly := flag m buffer 0x20 in
  let* res2 := masked m buffer 0x1f in
  let* buffer := from buffer 1 in
  let* link := byte0 m buffer in
  let* buffer := from buffer 1 in
  let* rsn := be32 m buffer 0 4 in
  let* buffer := from buffer 4 in
  let res3 := go_copy (dl_res3 d) (s_bytes m buffer) in
  ret (mkDeleteLink base res1 reply all orderly res2 link rsn res3).

(** llc_deletelink.go:87-93 *)
Definition DeleteLink_String (d : DeleteLink) : string :=
  cat ["LLC Delete Link: Type: "; dec (b_Type (dl_Base d)); ", Length: ";
       dec (b_Length (dl_Base d)); ", Reply: "; tf (dl_Reply d); ", All: "; tf (dl_All d);
       ", Orderly: "; tf (dl_Orderly d); ", Link: "; dec (dl_Link d);
       ", Reason Code: "; DelLinkRsnCode_String (dl_RsnCode d); nl].

(** llc_deletelink.go:95-103 *)
Definition DeleteLink_Reserved (d : DeleteLink) : string :=
  cat ["LLC Delete Link: Type: "; dec (b_Type (dl_Base d)); ", Length: ";
       dec (b_Length (dl_Base d)); ", Reserved: "; hexN (dl_res1 d);
       ", Reply: "; tf (dl_Reply d); ", All: "; tf (dl_All d);
       ", Orderly: "; tf (dl_Orderly d); ", Reserved: "; hexN (dl_res2 d);
       ", Link: "; dec (dl_Link d);
       ", Reason Code: "; DelLinkRsnCode_String (dl_RsnCode d);
       ", Reserved: "; hexbytes (dl_res3 d); nl].

(** llc_deletelink.go:105-110 *)
Definition ParseDeleteLink (m : mem) (buffer : slice) : M DeleteLink :=
  DeleteLink_Parse m DeleteLink_zero buffer.

(** ** llc_deleterkey.go *)

(** llc_deleterkey.go:8-21 *)
Record deleteRKey := mkDeleteRKey {
  dk_Base : BaseMsg;
  dk_res1 : N;
  dk_reply : bool;
  dk_res2 : N;
  dk_reject : bool;
  dk_res3 : N;
  dk_count : N;
  dk_errorMask : N;
  dk_res4 : list byte;
  dk_rkeys : list N;   (* [8]uint32 *)
  dk_res5 : list byte }.

Definition deleteRKey_zero : deleteRKey :=
  mkDeleteRKey BaseMsg_zero 0 false 0 false 0 0 0 (zeros 2) (repeat 0 8) (zeros 4).

(** the loop of llc_deleterkey.go:68-71 *)
Fixpoint rkeys_Parse (m : mem) (n : nat) (buffer : slice) : M (list N * slice) :=
  match n with
  | O => ret ([], buffer)
  | S n' =>
    let* k := be32 m buffer 0 4 in
    let* buffer := from buffer 4 in
    let* r := rkeys_Parse m n' buffer in
    let (ks, buffer) := r in
    ret (k :: ks, buffer)
  end.

(** llc_deleterkey.go:23-75 *)
Definition deleteRKey_Parse (m : mem) (d : deleteRKey) (buffer : slice) : M deleteRKey :=
  let* base := SetBaseMsg m buffer in
  let* buffer := from buffer 2 in
  let* res1 := byte0 m buffer in
  let* buffer := from buffer 1 in
  let* reply := flag m buffer 0x80 in
  let* b := masked m buffer 0x40 in
  let res2 := N.shiftr b 6 in
  let* reject := flag m buffer 0x20 in
  let* res3 := masked m buffer 0x1f in
  let* buffer := from buffer 1 in
  let* count := byte0 m buffer in
  let* buffer := from buffer 1 in
  let* errorMask := byte0 m buffer in
  let* buffer := from buffer 1 in
  let* res4 := copy_from m (dk_res4 d) buffer 0 2 in
  let* buffer := from buffer 2 in
  let* r := rkeys_Parse m (List.length (dk_rkeys d)) buffer in
  let (rkeys, buffer) := r in
  let res5 := go_copy (dk_res5 d) (s_bytes m buffer) in
  ret (mkDeleteRKey base res1 reply res2 reject res3 count errorMask res4 rkeys res5).

(** the loop of llc_deleterkey.go:81-83 *)
Fixpoint rkeys_string (i : nat) (ks : list N) : string :=
  match ks with
  | [] => ""
  | k :: rest => cat [", RKey "; dec (N.of_nat i); ": "; dec k; rkeys_string (S i) rest]
  end.

(** llc_deleterkey.go:77-90 *)
Definition deleteRKey_String (d : deleteRKey) : string :=
  cat ["LLC Delete RKey: Type: "; dec (b_Type (dk_Base d)); ", Length: ";
       dec (b_Length (dk_Base d)); ", Reply: "; tf (dk_reply d);
       ", Negative Response: "; tf (dk_reject d); ", Count: "; dec (dk_count d);
       ", Error Mask: "; binN (dk_errorMask d); rkeys_string 0 (dk_rkeys d); nl].

(** the loop of llc_deleterkey.go:97-99 *)
Fixpoint rkeys_reserved (i : nat) (ks : list N) : string :=
  match ks with
  | [] => ""
  | k :: rest => cat ["RKey "; dec (N.of_nat i); ": "; dec k; ", "; rkeys_reserved (S i) rest]
  end.

(** llc_deleterkey.go:92-107 *)
Definition deleteRKey_Reserved (d : deleteRKey) : string :=
  cat ["LLC Delete RKey: Type: "; dec (b_Type (dk_Base d)); ", Length: ";
       dec (b_Length (dk_Base d)); ", Reserved: "; hexN (dk_res1 d);
       ", Reply: "; tf (dk_reply d); ", Reserved: "; hexN (dk_res2 d);
       ", Negative Response: "; tf (dk_reject d); ", Reserved: "; hexN (dk_res3 d);
       ", Count: "; dec (dk_count d);
       ", Error Mask: "; binN (dk_errorMask d); ", Reserved: "; hexbytes (dk_res4 d);
       ", "; rkeys_reserved 0 (dk_rkeys d); "Reserved: "; hexbytes (dk_res5 d); nl].

(** llc_deleterkey.go:109-114 *)
Definition parseDeleteRKey (m : mem) (buffer : slice) : M deleteRKey :=
  deleteRKey_Parse m deleteRKey_zero buffer.

(** ** llc_testlink.go *)

(** llc_testlink.go:5-13 *)
Record TestLink := mkTestLink {
  tl_Base : BaseMsg;
  tl_res1 : N;
  tl_Reply : bool;
  tl_res2 : N;
  tl_UserData : list byte;
  tl_res3 : list byte }.

Definition TestLink_zero : TestLink :=
  mkTestLink BaseMsg_zero 0 false 0 (zeros 16) (zeros 24).

(** llc_testlink.go:15-38 *)
Definition TestLink_Parse (m : mem) (t : TestLink) (buffer : slice) : M TestLink :=
  let* base := SetBaseMsg m buffer in
  let* buffer := from buffer 2 in
  let* res1 := byte0 m buffer in
  let* buffer := from buffer 1 in
  let* reply := flag m buffer 0x80 in
  let* res2 := masked m buffer 0x7f in
  let* buffer := from buffer 1 in
  let* userData := copy_from m (tl_UserData t) buffer 0 16 in
  let* buffer := from buffer 16 in
  let res3 := go_copy (tl_res3 t) (s_bytes m buffer) in
  ret (mkTestLink base res1 reply res2 userData res3).

(** llc_testlink.go:40-45 *)
Definition TestLink_String (t : TestLink) : string :=
  cat ["LLC Test Link: Type "; dec (b_Type (tl_Base t)); ", Length: ";
       dec (b_Length (tl_Base t)); ", Reply: "; tf (tl_Reply t);
       ", User Data: "; hexbytes (tl_UserData t); nl].

(** llc_testlink.go:47-54 *)
Definition TestLink_Reserved (t : TestLink) : string :=
  cat ["LLC Test Link: Type "; dec (b_Type (tl_Base t)); ", Length: ";
       dec (b_Length (tl_Base t)); ", Reserved: "; hexN (tl_res1 t);
       ", Reply: "; tf (tl_Reply t); ", Reserved: "; hexN (tl_res2 t);
       ", User Data: "; hexbytes (tl_UserData t); ", Reserved: "; hexbytes (tl_res3 t); nl].

(** llc_testlink.go:56-61 *)
Definition ParseTestLink (m : mem) (buffer : slice) : M TestLink :=
  TestLink_Parse m TestLink_zero buffer.

(** ** message.go:3-10: the dynamic types behind the interface *)
Inductive LLCMessage :=
| LConfirm (c : ConfirmLink)
| LAddLink (a : AddLink)
| LAddLinkCont (a : AddLinkCont)
| LDeleteLink (d : DeleteLink)
| LConfirmRKey (c : ConfirmRKey)
| LConfirmRKeyCont (c : ConfirmRKeyCont)
| LDeleteRKey (d : deleteRKey)
| LTestLink (t : TestLink)
| LCDC (c : CDC)
| LOther (o : Other).

(** ** llc.go:21-50 *)
Definition ParseLLC (m : mem) (buffer : slice) : M LLCMessage :=
  if negb (Nat.eqb (s_len buffer) LLCMsgLen) then
    let* o := ParseOther m buffer in ret (LOther o)
  else
    let* t := idx m buffer 0 in
    let t := b2n t in
    if t =? TypeConfirmLink then let* x := ParseConfirm m buffer in ret (LConfirm x)
    else if t =? TypeAddLink then let* x := ParseAddLink m buffer in ret (LAddLink x)
    else if t =? TypeAddLinkCont then let* x := ParseAddLinkCont m buffer in ret (LAddLinkCont x)
    else if t =? TypeDeleteLink then let* x := ParseDeleteLink m buffer in ret (LDeleteLink x)
    else if t =? TypeConfirmRKey then let* x := ParseConfirmRKey m buffer in ret (LConfirmRKey x)
    else if t =? TypeConfirmRKeyCont then
      let* x := ParseConfirmRKeyCont m buffer in ret (LConfirmRKeyCont x)
    else if t =? TypeDeleteRKey then let* x := parseDeleteRKey m buffer in ret (LDeleteRKey x)
    else if t =? TypeTestLink then let* x := ParseTestLink m buffer in ret (LTestLink x)
    else if t =? TypeCDC then let* x := ParseCDC m buffer in ret (LCDC x)
    else let* x := ParseOther m buffer in ret (LOther x).

(** The interface methods (message.go:3-10), dispatching on the dynamic type. *)
Definition LLC_Base (msg : LLCMessage) : BaseMsg :=
  match msg with
  | LConfirm c => cl_Base c
  | LAddLink a => al_Base a
  | LAddLinkCont a => ac_Base a
  | LDeleteLink d => dl_Base d
  | LConfirmRKey c => ck_Base c
  | LConfirmRKeyCont c => cc_Base c
  | LDeleteRKey d => dk_Base d
  | LTestLink t => tl_Base t
  | LCDC c => c_Base c
  | LOther o => o_Base o
  end.

Definition LLC_Hex (msg : LLCMessage) : string := BaseMsg_Hex (LLC_Base msg).
Definition LLC_GetType (msg : LLCMessage) : N := BaseMsg_GetType (LLC_Base msg).

Definition LLC_String (msg : LLCMessage) : string :=
  match msg with
  | LConfirm c => ConfirmLink_String c
  | LAddLink a => AddLink_String a
  | LAddLinkCont a => AddLinkCont_String a
  | LDeleteLink d => DeleteLink_String d
  | LConfirmRKey c => ConfirmRKey_String c
  | LConfirmRKeyCont c => ConfirmRKeyCont_String c
  | LDeleteRKey d => deleteRKey_String d
  | LTestLink t => TestLink_String t
  | LCDC c => CDC_String c
  | LOther o => Other_String o
  end.

Definition LLC_Reserved (msg : LLCMessage) : string :=
  match msg with
  | LConfirm c => ConfirmLink_Reserved c
  | LAddLink a => AddLink_Reserved a
  | LAddLinkCont a => AddLinkCont_Reserved a
  | LDeleteLink d => DeleteLink_Reserved d
  | LConfirmRKey c => ConfirmRKey_Reserved c
  | LConfirmRKeyCont c => ConfirmRKeyCont_Reserved c
  | LDeleteRKey d => deleteRKey_Reserved d
  | LTestLink t => TestLink_Reserved t
  | LCDC c => CDC_Reserved c
  | LOther o => Other_Reserved o
  end.

Definition LLC_Parse (m : mem) (msg : LLCMessage) (buffer : slice) : M LLCMessage :=
  match msg with
  | LConfirm c => let* x := ConfirmLink_Parse m c buffer in ret (LConfirm x)
  | LAddLink a => let* x := AddLink_Parse m a buffer in ret (LAddLink x)
  | LAddLinkCont a => let* x := AddLinkCont_Parse m a buffer in ret (LAddLinkCont x)
  | LDeleteLink d => let* x := DeleteLink_Parse m d buffer in ret (LDeleteLink x)
  | LConfirmRKey c => let* x := ConfirmRKey_Parse m c buffer in ret (LConfirmRKey x)
  | LConfirmRKeyCont c => let* x := ConfirmRKeyCont_Parse m c buffer in ret (LConfirmRKeyCont x)
  | LDeleteRKey d => let* x := deleteRKey_Parse m d buffer in ret (LDeleteRKey x)
  | LTestLink t => let* x := TestLink_Parse m t buffer in ret (LTestLink x)
  | LCDC c => let* x := CDC_Parse m c buffer in ret (LCDC x)
  | LOther o => let* x := Other_Parse m o buffer in ret (LOther x)
  end.
