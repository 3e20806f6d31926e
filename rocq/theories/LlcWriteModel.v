(** * LlcWriteModel: the Parse methods of packages llc and roce as sequences of assignments.

    The same as WriteModel.v for the LLC messages and the base transport header: a run ends
    with the value the receiver has at that point, also when the outcome is a panic.  GRH has
    a single assignment and cannot panic (grh.go:22-33). *)

From Coq Require Import List NArith Bool String Arith.
From Verif Require Import GoBase GoFmt ClcModel LlcModel RoceModel Setters WriteModel.
Import ListNotations.
Local Open Scope N_scope.

(** [copy(x.f[:], buffer[:])] *)
Definition copyall {R} (f : R -> list byte) (set : list byte -> R -> R) (m : mem) (buf : slice)
  : W R unit :=
  change (fun r => set (go_copy (f r) (s_bytes m buf)) r).

(** [for i := range x { x[i]..; buffer = .. }] over the array [x], which is the receiver:
    [w] runs on every entry and returns the remaining buffer *)
Fixpoint each {S} (w : slice -> W S slice) (buf : slice) (x : list S)
  : list string * outcome slice * list S :=
  match x with
  | [] => ([], Done buf, [])
  | e :: rest =>
    match w buf e with
    | (l, Done b, e1) =>
      let '(l2, o, rest1) := each w b rest in ((l ++ l2)%list, o, e1 :: rest1)
    | (l, Panicked, e1) => (l, Panicked, e1 :: rest)
    | (l, Exited, e1) => (l, Exited, e1 :: rest)
    end
  end.

(** base.go:18-29, with setRaw (base.go:12-16) *)
Definition BaseMsg_W (m : mem) (buffer : slice) : W BaseMsg unit :=
  change (set_b_Raw (setRaw m buffer)) ;>
  assign set_b_Type (byte0 m buffer) ;>
  let? buffer := lift (from buffer 1) in
  assign set_b_Length (byte0 m buffer).

(** cdc.go:31-110 *)
Definition CDC_W (m : mem) (buffer : slice) : W CDC unit :=
  change (fun c => set_c_Base (set_b_Raw (setRaw m buffer) (c_Base c)) c) ;>
  assign (fun v c => set_c_Base (set_b_Type v (c_Base c)) c) (byte0 m buffer) ;>
  let? buffer := lift (from buffer 1) in
  assign (fun v c => set_c_Base (set_b_Length v (c_Base c)) c) (byte0 m buffer) ;>
  let? buffer := lift (from buffer 1) in
  assign set_c_SeqNum (be16 m buffer 0 2) ;>
  let? buffer := lift (from buffer 2) in
  assign set_c_AlertTkn (be32 m buffer 0 4) ;>
  let? buffer := lift (from buffer 4) in
  copyto c_res1 set_c_res1 m buffer 0 2 ;>
  let? buffer := lift (from buffer 2) in
  assign set_c_ProdWrap (be16 m buffer 0 2) ;>
  let? buffer := lift (from buffer 2) in
  assign set_c_ProdCurs (be32 m buffer 0 4) ;>
  let? buffer := lift (from buffer 4) in
  copyto c_res2 set_c_res2 m buffer 0 2 ;>
  let? buffer := lift (from buffer 2) in
  assign set_c_ConsWrap (be16 m buffer 0 2) ;>
  let? buffer := lift (from buffer 2) in
  assign set_c_ConsCurs (be32 m buffer 0 4) ;>
  let? buffer := lift (from buffer 4) in
  assign set_c_B (flag m buffer 0x80) ;>
  assign set_c_P (flag m buffer 0x40) ;>
  assign set_c_U (flag m buffer 0x20) ;>
  assign set_c_R (flag m buffer 0x10) ;>
  assign set_c_F (flag m buffer 0x08) ;>
  assign set_c_res3 (masked m buffer 0x07) ;>
  let? buffer := lift (from buffer 1) in
  assign set_c_D (flag m buffer 0x80) ;>
  assign set_c_C (flag m buffer 0x40) ;>
  assign set_c_A (flag m buffer 0x20) ;>
  let? b := lift (masked m buffer 0x1f) in
  change (fun c => set_c_res4 (n2b b :: skipn 1 (c_res4 c)) c) ;>
  let? buffer := lift (from buffer 1) in
  change (fun c => set_c_res4
    (firstn 1 (c_res4 c) ++ go_copy (skipn 1 (c_res4 c)) (s_bytes m buffer))%list c).

(** other.go:13-18 *)
Definition Other_W (m : mem) (buffer : slice) : W Other unit :=
  change (fun o => set_o_Base (set_b_Raw (setRaw m buffer) (o_Base o)) o) ;>
  change (fun o => set_o_Base (set_b_Type TypeOther (o_Base o)) o) ;>
  change (fun o => set_o_Base (set_b_Length (N.of_nat (s_len buffer)) (o_Base o)) o).

(** llc_addlink.go:72-135 *)
Definition AddLink_W (m : mem) (buffer : slice) : W AddLink unit :=
  part al_Base set_al_Base (BaseMsg_W m buffer) ;>
  let? buffer := lift (from buffer 2) in
  assignf set_al_res1 (fun b => N.shiftr b 4) (byte0 m buffer) ;>
  assign set_al_RsnCode (masked m buffer 0x0f) ;>
  let? buffer := lift (from buffer 1) in
  assign set_al_Reply (flag m buffer 0x80) ;>
  assign set_al_Reject (flag m buffer 0x40) ;>
  assign set_al_res2 (masked m buffer 0x3f) ;>
  let? buffer := lift (from buffer 1) in
  maketo al_SenderMAC set_al_SenderMAC 6 m buffer 0 6 ;>
  let? buffer := lift (from buffer 6) in
  copyto al_res5 set_al_res5 m buffer 0 2 ;>
  let? buffer := lift (from buffer 2) in
  maketo al_SenderGID set_al_SenderGID 16 m buffer 0 16 ;>
  let? buffer := lift (from buffer 16) in
  write24 al_SenderQP set_al_SenderQP m buffer ;>
  let? buffer := lift (from buffer 3) in
  assign set_al_Link (byte0 m buffer) ;>
  let? buffer := lift (from buffer 1) in
  assignf set_al_res3 (fun b => N.shiftr b 4) (byte0 m buffer) ;>
  assign set_al_MTU (masked m buffer 0x0f) ;>
  let? buffer := lift (from buffer 1) in
  write24 al_PSN set_al_PSN m buffer ;>
  let? buffer := lift (from buffer 3) in
  copyall al_res4 set_al_res4 m buffer.

(** one iteration of llc_addlinkcont.go:79-82, with llc_addlinkcont.go:15-24 *)
Definition RKeyPair_W (m : mem) (buffer : slice) : W RKeyPair slice :=
  assign set_rp_ReferenceRKey (be32 m buffer 0 4) ;>
  assign set_rp_NewRKey (be32 m buffer 4 8) ;>
  assign set_rp_NewVAddr (be64 m buffer 8 16) ;>
  lift (from buffer 16).

(** llc_addlinkcont.go:46-86 *)
Definition AddLinkCont_W (m : mem) (buffer : slice) : W AddLinkCont unit :=
  part ac_Base set_ac_Base (BaseMsg_W m buffer) ;>
  let? buffer := lift (from buffer 2) in
  assign set_ac_res1 (byte0 m buffer) ;>
  let? buffer := lift (from buffer 1) in
  assign set_ac_Reply (flag m buffer 0x80) ;>
  assign set_ac_res2 (masked m buffer 0x7f) ;>
  let? buffer := lift (from buffer 1) in
  assign set_ac_Link (byte0 m buffer) ;>
  let? buffer := lift (from buffer 1) in
  assign set_ac_NumRTokens (byte0 m buffer) ;>
  let? buffer := lift (from buffer 1) in
  copyto ac_res3 set_ac_res3 m buffer 0 2 ;>
  let? buffer := lift (from buffer 2) in
  let? buffer := part ac_RKeyPairs set_ac_RKeyPairs (each (RKeyPair_W m) buffer) in
  copyall ac_res4 set_ac_res4 m buffer.

(** llc_confirmlink.go:25-72 *)
Definition ConfirmLink_W (m : mem) (buffer : slice) : W ConfirmLink unit :=
  part cl_Base set_cl_Base (BaseMsg_W m buffer) ;>
  let? buffer := lift (from buffer 2) in
  assign set_cl_res1 (byte0 m buffer) ;>
  let? buffer := lift (from buffer 1) in
  assign set_cl_Reply (flag m buffer 0x80) ;>
  assign set_cl_res2 (masked m buffer 0x7f) ;>
  let? buffer := lift (from buffer 1) in
  maketo cl_SenderMAC set_cl_SenderMAC 6 m buffer 0 6 ;>
  let? buffer := lift (from buffer 6) in
  maketo cl_SenderGID set_cl_SenderGID 16 m buffer 0 16 ;>
  let? buffer := lift (from buffer 16) in
  write24 cl_SenderQP set_cl_SenderQP m buffer ;>
  let? buffer := lift (from buffer 3) in
  assign set_cl_Link (byte0 m buffer) ;>
  let? buffer := lift (from buffer 1) in
  assign set_cl_SenderLinkUserID (be32 m buffer 0 4) ;>
  let? buffer := lift (from buffer 4) in
  assign set_cl_MaxLinks (byte0 m buffer) ;>
  let? buffer := lift (from buffer 1) in
  copyall cl_res3 set_cl_res3 m buffer.

(** one iteration of llc_confirmrkey.go:90-93 and llc_confirmrkeycont.go:52-55, with
    llc_confirmrkey.go:15-24 *)
Definition RMBSpec_W (m : mem) (buffer : slice) : W RMBSpec slice :=
  assign set_rs_Link (byte0 m buffer) ;>
  assign set_rs_RKey (be32 m buffer 1 5) ;>
  assign set_rs_VAddr (be64 m buffer 5 13) ;>
  lift (from buffer 13).

(** llc_confirmrkey.go:48-97 *)
Definition ConfirmRKey_W (m : mem) (buffer : slice) : W ConfirmRKey unit :=
  part ck_Base set_ck_Base (BaseMsg_W m buffer) ;>
  let? buffer := lift (from buffer 2) in
  assign set_ck_res1 (byte0 m buffer) ;>
  let? buffer := lift (from buffer 1) in
  assign set_ck_Reply (flag m buffer 0x80) ;>
  assignf set_ck_res2 (fun b => N.shiftr b 6) (masked m buffer 0x40) ;>
  assign set_ck_Reject (flag m buffer 0x20) ;>
  assign set_ck_Retry (flag m buffer 0x10) ;>
  assign set_ck_res3 (masked m buffer 0x0f) ;>
  let? buffer := lift (from buffer 1) in
  assign set_ck_NumTkns (byte0 m buffer) ;>
  let? buffer := lift (from buffer 1) in
  assign set_ck_RKey (be32 m buffer 0 4) ;>
  let? buffer := lift (from buffer 4) in
  assign set_ck_VAddr (be64 m buffer 0 8) ;>
  let? buffer := lift (from buffer 8) in
  let? buffer := part ck_OtherRMBs set_ck_OtherRMBs (each (RMBSpec_W m) buffer) in
  assign set_ck_res4 (byte0 m buffer).

(** llc_confirmrkeycont.go:19-59 *)
Definition ConfirmRKeyCont_W (m : mem) (buffer : slice) : W ConfirmRKeyCont unit :=
  part cc_Base set_cc_Base (BaseMsg_W m buffer) ;>
  let? buffer := lift (from buffer 2) in
  assign set_cc_res1 (byte0 m buffer) ;>
  let? buffer := lift (from buffer 1) in
  assign set_cc_Reply (flag m buffer 0x80) ;>
  assignf set_cc_res2 (fun b => N.shiftr b 6) (masked m buffer 0x40) ;>
  assign set_cc_Reject (flag m buffer 0x20) ;>
  assign set_cc_res3 (masked m buffer 0x1f) ;>
  let? buffer := lift (from buffer 1) in
  assign set_cc_NumTkns (byte0 m buffer) ;>
  let? buffer := lift (from buffer 1) in
  let? buffer := part cc_OtherRMBs set_cc_OtherRMBs (each (RMBSpec_W m) buffer) in
  assign set_cc_res4 (byte0 m buffer).

(** llc_deletelink.go:52-85 *)
Definition DeleteLink_W (m : mem) (buffer : slice) : W DeleteLink unit :=
  part dl_Base set_dl_Base (BaseMsg_W m buffer) ;>
  let? buffer := lift (from buffer 2) in
  assign set_dl_res1 (byte0 m buffer) ;>
  let? buffer := lift (from buffer 1) in
  assign set_dl_Reply (flag m buffer 0x80) ;>
  assign set_dl_All (flag m buffer 0x40) ;>
  assign set_dl_Orderly (flag m buffer 0x20) ;>
  assign set_dl_res2 (masked m buffer 0x1f) ;>
  let? buffer := lift (from buffer 1) in
  assign set_dl_Link (byte0 m buffer) ;>
  let? buffer := lift (from buffer 1) in
  assign set_dl_RsnCode (be32 m buffer 0 4) ;>
  let? buffer := lift (from buffer 4) in
  copyall dl_res3 set_dl_res3 m buffer.

(** one iteration of llc_deleterkey.go:68-71 *)
Definition rkey_W (m : mem) (buffer : slice) : W N slice :=
  assign (fun v _ => v) (be32 m buffer 0 4) ;>
  lift (from buffer 4).

(** llc_deleterkey.go:23-75 *)
Definition deleteRKey_W (m : mem) (buffer : slice) : W deleteRKey unit :=
  part dk_Base set_dk_Base (BaseMsg_W m buffer) ;>
  let? buffer := lift (from buffer 2) in
  assign set_dk_res1 (byte0 m buffer) ;>
  let? buffer := lift (from buffer 1) in
  assign set_dk_reply (flag m buffer 0x80) ;>
  assignf set_dk_res2 (fun b => N.shiftr b 6) (masked m buffer 0x40) ;>
  assign set_dk_reject (flag m buffer 0x20) ;>
  assign set_dk_res3 (masked m buffer 0x1f) ;>
  let? buffer := lift (from buffer 1) in
  assign set_dk_count (byte0 m buffer) ;>
  let? buffer := lift (from buffer 1) in
  assign set_dk_errorMask (byte0 m buffer) ;>
  let? buffer := lift (from buffer 1) in
  copyto dk_res4 set_dk_res4 m buffer 0 2 ;>
  let? buffer := lift (from buffer 2) in
  let? buffer := part dk_rkeys set_dk_rkeys (each (rkey_W m) buffer) in
  copyall dk_res5 set_dk_res5 m buffer.

(** llc_testlink.go:15-37 *)
Definition TestLink_W (m : mem) (buffer : slice) : W TestLink unit :=
  part tl_Base set_tl_Base (BaseMsg_W m buffer) ;>
  let? buffer := lift (from buffer 2) in
  assign set_tl_res1 (byte0 m buffer) ;>
  let? buffer := lift (from buffer 1) in
  assign set_tl_Reply (flag m buffer 0x80) ;>
  assign set_tl_res2 (masked m buffer 0x7f) ;>
  let? buffer := lift (from buffer 1) in
  copyto tl_UserData set_tl_UserData m buffer 0 16 ;>
  let? buffer := lift (from buffer 16) in
  copyall tl_res3 set_tl_res3 m buffer.

(** [w] on the object inside an interface value (message.go:3-10) *)
Definition linside {R} (con : R -> LLCMessage) (w : W R unit) (r : R)
  : list string * outcome unit * LLCMessage :=
  let '(l, o, r1) := w r in (l, o, con r1).

(** [msg.Parse(buffer)]: what it logs, how it ends, and the object afterwards *)
Definition LLC_W (m : mem) (buffer : slice) (msg : LLCMessage)
  : list string * outcome unit * LLCMessage :=
  match msg with
  | LConfirm c => linside LConfirm (ConfirmLink_W m buffer) c
  | LAddLink a => linside LAddLink (AddLink_W m buffer) a
  | LAddLinkCont a => linside LAddLinkCont (AddLinkCont_W m buffer) a
  | LDeleteLink d => linside LDeleteLink (DeleteLink_W m buffer) d
  | LConfirmRKey c => linside LConfirmRKey (ConfirmRKey_W m buffer) c
  | LConfirmRKeyCont c => linside LConfirmRKeyCont (ConfirmRKeyCont_W m buffer) c
  | LDeleteRKey d => linside LDeleteRKey (deleteRKey_W m buffer) d
  | LTestLink t => linside LTestLink (TestLink_W m buffer) t
  | LCDC c => linside LCDC (CDC_W m buffer) c
  | LOther o => linside LOther (Other_W m buffer) o
  end.

(** bth.go:197-251 *)
Definition BTH_W (m : mem) (buffer : slice) : W BTH unit :=
  change (set_bth_Raw (go_copy (zeros (s_len buffer)) (s_bytes m buffer))) ;>
  assign set_bth_Opcode (byte0 m buffer) ;>
  let? buffer := lift (from buffer 1) in
  assign set_bth_SE (flag m buffer 0x80) ;>
  assign set_bth_M (flag m buffer 0x40) ;>
  assignf set_bth_Pad (fun b => N.shiftr b 4) (masked m buffer 0x30) ;>
  assign set_bth_TVer (masked m buffer 0x0f) ;>
  let? buffer := lift (from buffer 1) in
  assign set_bth_PKey (be16 m buffer 0 2) ;>
  let? buffer := lift (from buffer 2) in
  assign set_bth_FECN (flag m buffer 0x80) ;>
  assign set_bth_BECN (flag m buffer 0x40) ;>
  assign set_bth_res1 (masked m buffer 0x3f) ;>
  let? buffer := lift (from buffer 1) in
  write24 bth_DestQP set_bth_DestQP m buffer ;>
  let? buffer := lift (from buffer 3) in
  assign set_bth_A (flag m buffer 0x80) ;>
  assign set_bth_res2 (masked m buffer 0x7f) ;>
  let? buffer := lift (from buffer 1) in
  write24 bth_PSN set_bth_PSN m buffer.
