(** * RoceModel: package roce (/repo/pkg/roce) as Gallina functions.

    Same conventions as ClcModel.v and LlcModel.v.  The IPv6 decoder of gopacket
    (github.com/gopacket/gopacket v1.3, not part of /repo) is modelled by
    [gopacket_IPv6] from its documented behaviour. *)

From Coq Require Import List NArith Bool String Arith.
From Verif Require Import GoBase GoFmt ClcModel LlcModel.
Import ListNotations.
Local Open Scope string_scope.
Local Open Scope N_scope.

(** ** bth.go *)

(** bth.go:9-18 *)
Definition typeBTH : N := 0x103.
Definition BTHNextHeader : N := 0x1b.
Definition BTHLen : nat := 12.

(** [tbl[op]] guarded by [op < len(tbl)], else "Reserved" *)
Definition lookup_op (tbl : list string) (op : N) : string :=
  match nth_error tbl (N.to_nat op) with Some s => s | None => "Reserved" end.

(** bth.go:25-50 *)
Definition rcStrings : list string :=
  ["SEND First"; "SEND Middle"; "SEND Last"; "SEND Last with Immediate"; "SEND Only";
   "SEND Only with Immediate"; "RDMA WRITE First"; "RDMA WRITE Middle"; "RDMA WRITE Last";
   "RDMA WRITE Last with Immediate"; "RDMA WRITE Only"; "RDMA WRITE Only with Immediate";
   "RDMA READ Request"; "RDMA READ response First"; "RDMA READ response Middle";
   "RDMA READ response Last"; "RDMA READ response Only"; "Acknowledge";
   "ATOMIC Acknowledge"; "CmpSwap"; "FetchAdd"; "Reserved"; "SEND Last with Invalidate";
   "SEND Only with Invalidate"].

(** bth.go:23-57 *)
Definition rcString (o : N) : string := lookup_op rcStrings (N.land o 0x1f).

(** bth.go:61-74 *)
Definition ucStrings : list string :=
  ["SEND First"; "SEND Middle"; "SEND Last"; "SEND Last with Immediate"; "SEND Only";
   "SEND Only with Immediate"; "RDMA WRITE First"; "RDMA WRITE Middle"; "RDMA WRITE Last";
   "RDMA WRITE Last with Immediate"; "RDMA WRITE Only"; "RDMA WRITE Only with Immediate"].

(** bth.go:59-81 *)
Definition ucString (o : N) : string := lookup_op ucStrings (N.land o 0x1f).

(** bth.go:85-108 *)
Definition rdStrings : list string :=
  ["SEND First"; "SEND Middle"; "SEND Last"; "SEND Last with Immediate"; "SEND Only";
   "SEND Only with Immediate"; "RDMA WRITE First"; "RDMA WRITE Middle"; "RDMA WRITE Last";
   "RDMA WRITE Last with Immediate"; "RDMA WRITE Only"; "RDMA WRITE Only with Immediate";
   "RDMA READ Request"; "RDMA READ response First"; "RDMA READ response Middle";
   "RDMA READ response Last"; "RDMA READ response Only"; "Acknowledge";
   "ATOMIC Acknowledge"; "CmpSwap"; "FetchAdd"; "RESYNC"].

(** bth.go:83-115 *)
Definition rdString (o : N) : string := lookup_op rdStrings (N.land o 0x1f).

(** bth.go:119-126 *)
Definition udStrings : list string :=
  ["Reserved"; "Reserved"; "Reserved"; "Reserved"; "SEND Only"; "SEND Only with Immediate"].

(** bth.go:117-133 *)
Definition udString (o : N) : string := lookup_op udStrings (N.land o 0x1f).

(** bth.go:135-142 *)
Definition cnpString (o : N) : string := if N.land o 0x1f =? 0 then "CNP" else "Reserved".

(** bth.go:144-148 *)
Definition xrcString (o : N) : string := rcString o.

(** bth.go:150-177 *)
Definition Opcode_String (o : N) : string :=
  let k := N.shiftr o 5 in
  let op := if k =? 0 then ("RC " ++ rcString o)%string
            else if k =? 1 then ("UC " ++ ucString o)%string
            else if k =? 2 then ("RD " ++ rdString o)%string
            else if k =? 3 then ("UD " ++ udString o)%string
            else if k =? 4 then ("CNP " ++ cnpString o)%string
            else if k =? 5 then ("XRC " ++ xrcString o)%string
            else "Manufacturer Specific" in
  cat [binN o; " ("; op; ")"].

(** bth.go:179-195 *)
Record BTH := mkBTH {
  bth_Raw : list byte;
  bth_Opcode : N;
  bth_SE : bool;
  bth_M : bool;
  bth_Pad : N;
  bth_TVer : N;
  bth_PKey : N;
  bth_FECN : bool;
  bth_BECN : bool;
  bth_res1 : N;
  bth_DestQP : N;
  bth_A : bool;
  bth_res2 : N;
  bth_PSN : N }.

Definition BTH_zero : BTH := mkBTH [] 0 false false 0 0 0 false false 0 0 false 0 0.

(** bth.go:197-251 *)
Definition BTH_Parse (m : mem) (b : BTH) (buffer : slice) : M BTH :=
  let raw := go_copy (zeros (s_len buffer)) (s_bytes m buffer) in
  let* opcode := byte0 m buffer in
  let* buffer := from buffer 1 in
  let* se := flag m buffer 0x80 in
  let* mig := flag m buffer 0x40 in
  let* p := masked m buffer 0x30 in
  let pad := N.shiftr p 4 in
  let* tver := masked m buffer 0x0f in
  let* buffer := from buffer 1 in
  let* pkey := be16 m buffer 0 2 in
  let* buffer := from buffer 2 in
  let* fecn := flag m buffer 0x80 in
  let* becn := flag m buffer 0x40 in
  let* res1 := masked m buffer 0x3f in
  let* buffer := from buffer 1 in
  let* destQP := be24 m buffer in
  let* buffer := from buffer 3 in
  let* a := flag m buffer 0x80 in
  let* res2 := masked m buffer 0x7f in
  let* buffer := from buffer 1 in
  let* psn := be24 m buffer in
  ret (mkBTH raw opcode se mig pad tver pkey fecn becn res1 destQP a res2 psn).

(** bth.go:253-259 *)
Definition BTH_String (b : BTH) : string :=
  cat ["BTH: OpCode: "; Opcode_String (bth_Opcode b); ", SE: "; tf (bth_SE b);
       ", M: "; tf (bth_M b); ", Pad: "; dec (bth_Pad b); ", TVer: "; dec (bth_TVer b);
       ", PKey: "; dec (bth_PKey b); ", FECN: "; tf (bth_FECN b); ", BECN: "; tf (bth_BECN b);
       ", DestQP: "; dec (bth_DestQP b); ", A: "; tf (bth_A b); ", PSN: "; dec (bth_PSN b); nl].

(** bth.go:261-268 *)
Definition BTH_Reserved (b : BTH) : string :=
  cat ["BTH: OpCode: "; Opcode_String (bth_Opcode b); ", SE: "; tf (bth_SE b);
       ", M: "; tf (bth_M b); ", Pad: "; dec (bth_Pad b); ", TVer: "; dec (bth_TVer b);
       ", PKey: "; dec (bth_PKey b); ", FECN: "; tf (bth_FECN b); ", BECN: "; tf (bth_BECN b);
       ", Res: "; hexN (bth_res1 b);
       ", DestQP: "; dec (bth_DestQP b); ", A: "; tf (bth_A b);
       ", Res: "; hexN (bth_res2 b); ", PSN: "; dec (bth_PSN b); nl].

(** bth.go:270-273 *)
Definition BTH_Hex (b : BTH) : string := hex_dump (bth_Raw b).

(** bth.go:275-278 *)
Definition BTH_GetType (b : BTH) : N := typeBTH.

(** bth.go:280-285 *)
Definition ParseBTH (m : mem) (buffer : slice) : M BTH := BTH_Parse m BTH_zero buffer.

(** ** grh.go *)

(** grh.go:11-17 *)
Definition typeGRH : N := 0x102.
Definition GRHLen : nat := 40.

(** grh.go:19-20; the fields of layers.IPv6 that grh.go reads *)
Record GRH := mkGRH {
  grh_Contents : list byte;
  grh_Version : N;
  grh_TrafficClass : N;
  grh_FlowLabel : N;
  grh_Length : N;
  grh_NextHeader : N;
  grh_HopLimit : N;
  grh_SrcIP : list byte;
  grh_DstIP : list byte }.

Definition GRH_zero : GRH := mkGRH [] 0 0 0 0 0 0 [] [].

(** big-endian value of a list of bytes (used for the third-party decoder only) *)
Definition be_val (l : list byte) : N := fold_left (fun a b => N.lor (N.shiftl a 8) (b2n b)) l 0.

(** gopacket.NewPacket(data, LayerTypeIPv6, Default).Layer(LayerTypeIPv6), i.e.
    layers.decodeIPv6 / IPv6.DecodeFromBytes on a copy of the data: the layer is
    always added; it stays zero if there are fewer than 40 bytes; panics are
    recovered.  Payload and hop-by-hop options are not modelled (grh.go never
    reads them). *)
Definition gopacket_IPv6 (data : list byte) : GRH :=
  if (List.length data <? 40)%nat then GRH_zero
  else
    let sub lo hi := firstn (hi - lo) (skipn lo data) in
    mkGRH (sub 0 40)%nat
      (N.shiftr (be_val (sub 0 1)%nat) 4)
      (N.land (N.shiftr (be_val (sub 0 2)%nat) 4) 0xff)
      (N.land (be_val (sub 0 4)%nat) 0xfffff)
      (be_val (sub 4 6)%nat)
      (be_val (sub 6 7)%nat)
      (be_val (sub 7 8)%nat)
      (sub 8 24)%nat (sub 24 40)%nat.

(** grh.go:22-33 *)
Definition GRH_Parse (m : mem) (g : GRH) (buffer : slice) : M GRH :=
  ret (gopacket_IPv6 (s_bytes m buffer)).

(** grh.go:35-48; [proto_name] is gopacket's [IPProtocol.String] *)
Definition GRH_String (proto_name : N -> string) (g : GRH) : string :=
  let nextHeader := if negb (grh_NextHeader g =? BTHNextHeader)
                    then proto_name (grh_NextHeader g) else "BTH" in
  cat ["GRH: Version: "; dec (grh_Version g); ", Traffic Class: "; dec (grh_TrafficClass g);
       ", Flow Label: "; dec (grh_FlowLabel g); ", Length: "; dec (grh_Length g);
       ", Next Header: "; nextHeader; ", Hop Limit: "; dec (grh_HopLimit g);
       ", Source: "; ip_string (grh_SrcIP g); ", Destination: "; ip_string (grh_DstIP g); nl].

(** grh.go:50-54 *)
Definition GRH_Reserved (proto_name : N -> string) (g : GRH) : string := GRH_String proto_name g.

(** grh.go:56-59 *)
Definition GRH_Hex (g : GRH) : string := hex_dump (grh_Contents g).

(** grh.go:61-64 *)
Definition GRH_GetType (g : GRH) : N := typeGRH.

(** grh.go:66-71 *)
Definition ParseGRH (m : mem) (buffer : slice) : M GRH := GRH_Parse m GRH_zero buffer.

(** ** roce.go *)

(** roce.go:13-20; a nil *GRH is [None] *)
Record RoCE := mkRoCE {
  r_Type : string;
  r_GRH : option GRH;
  r_BTH : BTH;
  r_LLC : LLCMessage;
  r_ICRC : slice }.

(** roce.go:22-45 *)
Definition ParseRoCEv1 (m : mem) (buffer : slice) : M RoCE :=
  let* s := upto buffer GRHLen in
  let* grh := ParseGRH m s in
  let* buffer := from buffer GRHLen in
  let* s := upto buffer BTHLen in
  let* bth := ParseBTH m s in
  let* buffer := from buffer BTHLen in
  let* icrc := last_n buffer 4 in
  let* buffer := drop_last_n buffer 4 in
  let* llc := ParseLLC m buffer in
  ret (mkRoCE "RoCEv1" (Some grh) bth llc icrc).

(** roce.go:47-66 *)
Definition ParseRoCEv2 (m : mem) (buffer : slice) : M RoCE :=
  let* s := upto buffer BTHLen in
  let* bth := ParseBTH m s in
  let* buffer := from buffer BTHLen in
  let* icrc := last_n buffer 4 in
  let* buffer := drop_last_n buffer 4 in
  let* llc := ParseLLC m buffer in
  ret (mkRoCE "RoCEv2" None bth llc icrc).
