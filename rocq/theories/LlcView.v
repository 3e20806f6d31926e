(** * LlcView: the observable content of LLC/CDC messages and of BTH and GRH.

    For each type: its fields by name in wire order (to be compared with
    [Wire.decode]), the sizes of Go's arrays, the type byte, and the number of
    bytes its parser insists on.  Specification only. *)

From Coq Require Import NArith Bool String Arith List.
From Verif Require Import GoBase ClcModel LlcModel RoceModel WriteModel LlcWriteModel Wire.
Import ListNotations.
Local Open Scope string_scope.
Local Open Scope list_scope.
Local Open Scope nat_scope.

(** a flag as a one-bit number *)
Definition bit (b : bool) : val := VN (if b then 1 else 0)%N.

(** ** Field lists *)

Definition confirm_link_view (c : ConfirmLink) : list (string * val) :=
  [("Type", VN (b_Type (cl_Base c))); ("Length", VN (b_Length (cl_Base c)));
   ("Reserved", VN (cl_res1 c)); ("Reply", bit (cl_Reply c)); ("Reserved", VN (cl_res2 c));
   ("Sender MAC", VB (cl_SenderMAC c)); ("Sender GID", VB (cl_SenderGID c));
   ("Sender QP", VN (cl_SenderQP c)); ("Link", VN (cl_Link c));
   ("Sender Link User ID", VN (cl_SenderLinkUserID c)); ("Max Links", VN (cl_MaxLinks c));
   ("Reserved", VB (cl_res3 c))].

(** the last field has ten bytes in Go but only eight on the wire *)
Definition add_link_view (a : AddLink) : list (string * val) :=
  [("Type", VN (b_Type (al_Base a))); ("Length", VN (b_Length (al_Base a)));
   ("Reserved", VN (al_res1 a)); ("Reason Code", VN (al_RsnCode a));
   ("Reply", bit (al_Reply a)); ("Reject", bit (al_Reject a)); ("Reserved", VN (al_res2 a));
   ("Sender MAC", VB (al_SenderMAC a)); ("Reserved", VB (al_res5 a));
   ("Sender GID", VB (al_SenderGID a)); ("Sender QP", VN (al_SenderQP a));
   ("Link", VN (al_Link a)); ("Reserved", VN (al_res3 a)); ("MTU", VN (al_MTU a));
   ("Initial PSN", VN (al_PSN a)); ("Reserved", VB (firstn 8 (al_res4 a)))].

Definition rkey_pair_view (i : string) (p : RKeyPair) : list (string * val) :=
  [(append "Reference RKey " i, VN (rp_ReferenceRKey p)); (append "New RKey " i, VN (rp_NewRKey p));
   (append "New Virtual Address " i, VN (rp_NewVAddr p))].

Definition add_link_cont_view (a : AddLinkCont) : list (string * val) :=
  [("Type", VN (b_Type (ac_Base a))); ("Length", VN (b_Length (ac_Base a)));
   ("Reserved", VN (ac_res1 a)); ("Reply", bit (ac_Reply a)); ("Reserved", VN (ac_res2 a));
   ("Link", VN (ac_Link a)); ("Number of RTokens", VN (ac_NumRTokens a));
   ("Reserved", VB (ac_res3 a))]
  ++ concat (map (fun ip => rkey_pair_view (fst ip) (snd ip)) (combine ["1"; "2"] (ac_RKeyPairs a)))
  ++ [("Reserved", VB (ac_res4 a))].

Definition delete_link_view (d : DeleteLink) : list (string * val) :=
  [("Type", VN (b_Type (dl_Base d))); ("Length", VN (b_Length (dl_Base d)));
   ("Reserved", VN (dl_res1 d)); ("Reply", bit (dl_Reply d)); ("All", bit (dl_All d));
   ("Orderly", bit (dl_Orderly d)); ("Reserved", VN (dl_res2 d));
   ("Link", VN (dl_Link d)); ("Reason Code", VN (dl_RsnCode d)); ("Reserved", VB (dl_res3 d))].

Definition rmb_spec_view (i : string) (r : RMBSpec) : list (string * val) :=
  [(append "Link " i, VN (rs_Link r)); (append "RKey " i, VN (rs_RKey r));
   (append "Virtual Address " i, VN (rs_VAddr r))].

Definition confirm_rkey_view (c : ConfirmRKey) : list (string * val) :=
  [("Type", VN (b_Type (ck_Base c))); ("Length", VN (b_Length (ck_Base c)));
   ("Reserved", VN (ck_res1 c)); ("Reply", bit (ck_Reply c)); ("Reserved", VN (ck_res2 c));
   ("Reject", bit (ck_Reject c)); ("Retry", bit (ck_Retry c)); ("Reserved", VN (ck_res3 c));
   ("Number of Tokens", VN (ck_NumTkns c)); ("RKey", VN (ck_RKey c));
   ("Virtual Address", VN (ck_VAddr c))]
  ++ concat (map (fun ip => rmb_spec_view (fst ip) (snd ip)) (combine ["1"; "2"] (ck_OtherRMBs c)))
  ++ [("Reserved", VN (ck_res4 c))].

Definition confirm_rkey_cont_view (c : ConfirmRKeyCont) : list (string * val) :=
  [("Type", VN (b_Type (cc_Base c))); ("Length", VN (b_Length (cc_Base c)));
   ("Reserved", VN (cc_res1 c)); ("Reply", bit (cc_Reply c)); ("Reserved", VN (cc_res2 c));
   ("Reject", bit (cc_Reject c)); ("Reserved", VN (cc_res3 c));
   ("Number of Tokens", VN (cc_NumTkns c))]
  ++ concat (map (fun ip => rmb_spec_view (fst ip) (snd ip)) (combine ["1"; "2"; "3"] (cc_OtherRMBs c)))
  ++ [("Reserved", VN (cc_res4 c))].

Definition delete_rkey_view (d : deleteRKey) : list (string * val) :=
  [("Type", VN (b_Type (dk_Base d))); ("Length", VN (b_Length (dk_Base d)));
   ("Reserved", VN (dk_res1 d)); ("Reply", bit (dk_reply d)); ("Reserved", VN (dk_res2 d));
   ("Reject", bit (dk_reject d)); ("Reserved", VN (dk_res3 d)); ("Count", VN (dk_count d));
   ("Error Mask", VN (dk_errorMask d)); ("Reserved", VB (dk_res4 d))]
  ++ map (fun ik => (fst ik, VN (snd ik)))
       (combine ["RKey 0"; "RKey 1"; "RKey 2"; "RKey 3"; "RKey 4"; "RKey 5"; "RKey 6"; "RKey 7"]
                (dk_rkeys d))
  ++ [("Reserved", VB (dk_res5 d))].

Definition test_link_view (t : TestLink) : list (string * val) :=
  [("Type", VN (b_Type (tl_Base t))); ("Length", VN (b_Length (tl_Base t)));
   ("Reserved", VN (tl_res1 t)); ("Reply", bit (tl_Reply t)); ("Reserved", VN (tl_res2 t));
   ("User Data", VB (tl_UserData t)); ("Reserved", VB (tl_res3 t))].

Definition cdc_view (c : CDC) : list (string * val) :=
  [("Type", VN (b_Type (c_Base c))); ("Length", VN (b_Length (c_Base c)));
   ("Sequence Number", VN (c_SeqNum c)); ("Alert Token", VN (c_AlertTkn c));
   ("Reserved", VB (c_res1 c)); ("Producer Wrap", VN (c_ProdWrap c));
   ("Producer Cursor", VN (c_ProdCurs c)); ("Reserved", VB (c_res2 c));
   ("Consumer Wrap", VN (c_ConsWrap c)); ("Consumer Cursor", VN (c_ConsCurs c));
   ("Writer Blocked", bit (c_B c)); ("Urgent Data Pending", bit (c_P c));
   ("Urgent Data Present", bit (c_U c)); ("Request for Consumer Cursor Update", bit (c_R c));
   ("Failover Validation", bit (c_F c)); ("Reserved", VN (c_res3 c));
   ("Sending Done", bit (c_D c)); ("Peer Connection Closed", bit (c_C c));
   ("Abnormal Close", bit (c_A c)); ("Reserved", VN (BE (c_res4 c)))].

Definition bth_view (b : BTH) : list (string * val) :=
  [("OpCode", VN (bth_Opcode b)); ("SE", bit (bth_SE b)); ("M", bit (bth_M b));
   ("Pad", VN (bth_Pad b)); ("TVer", VN (bth_TVer b)); ("PKey", VN (bth_PKey b));
   ("FECN", bit (bth_FECN b)); ("BECN", bit (bth_BECN b)); ("Res", VN (bth_res1 b));
   ("DestQP", VN (bth_DestQP b)); ("A", bit (bth_A b)); ("Res", VN (bth_res2 b));
   ("PSN", VN (bth_PSN b))].

Definition grh_view (g : GRH) : list (string * val) :=
  [("Version", VN (grh_Version g)); ("Traffic Class", VN (grh_TrafficClass g));
   ("Flow Label", VN (grh_FlowLabel g)); ("Length", VN (grh_Length g));
   ("Next Header", VN (grh_NextHeader g)); ("Hop Limit", VN (grh_HopLimit g));
   ("Source", VB (grh_SrcIP g)); ("Destination", VB (grh_DstIP g))].

(** ** Kinds of LLC messages *)

Inductive llc_kind :=
| KConfirmLink | KAddLink | KAddLinkCont | KDeleteLink | KConfirmRKey | KConfirmRKeyCont
| KDeleteRKey | KTestLink | KCDC | KOther.

(** the kind that belongs to a type byte *)
Definition kind_of_type (t : N) : llc_kind :=
  match t with
  | 1 => KConfirmLink | 2 => KAddLink | 3 => KAddLinkCont | 4 => KDeleteLink
  | 6 => KConfirmRKey | 7 => KTestLink | 8 => KConfirmRKeyCont | 9 => KDeleteRKey
  | 254 => KCDC | _ => KOther
  end%N.

Definition llc_kind_of (msg : LLCMessage) : llc_kind :=
  match msg with
  | LConfirm _ => KConfirmLink
  | LAddLink _ => KAddLink
  | LAddLinkCont _ => KAddLinkCont
  | LDeleteLink _ => KDeleteLink
  | LConfirmRKey _ => KConfirmRKey
  | LConfirmRKeyCont _ => KConfirmRKeyCont
  | LDeleteRKey _ => KDeleteRKey
  | LTestLink _ => KTestLink
  | LCDC _ => KCDC
  | LOther _ => KOther
  end.

(** the wire format of a kind; "other" payloads have none *)
Definition llc_layout (k : llc_kind) : layout :=
  match k with
  | KConfirmLink => llc_confirm_link
  | KAddLink => llc_add_link
  | KAddLinkCont => llc_add_link_cont
  | KDeleteLink => llc_delete_link
  | KConfirmRKey => llc_confirm_rkey
  | KConfirmRKeyCont => llc_confirm_rkey_cont
  | KDeleteRKey => llc_delete_rkey
  | KTestLink => llc_test_link
  | KCDC => cdc
  | KOther => []
  end.

Definition llc_view (msg : LLCMessage) : list (string * val) :=
  match msg with
  | LConfirm c => confirm_link_view c
  | LAddLink a => add_link_view a
  | LAddLinkCont a => add_link_cont_view a
  | LDeleteLink d => delete_link_view d
  | LConfirmRKey c => confirm_rkey_view c
  | LConfirmRKeyCont c => confirm_rkey_cont_view c
  | LDeleteRKey d => delete_rkey_view d
  | LTestLink t => test_link_view t
  | LCDC c => cdc_view c
  | LOther o => []
  end.

(** the size of a complete message in bytes *)
Definition llc_size (k : llc_kind) : nat :=
  match k with KConfirmRKeyCont => 45 | KOther => 0 | _ => 44 end.

(** the number of bytes up to the last field in front of the reserved tail *)
Definition llc_min (k : llc_kind) : nat :=
  match k with
  | KConfirmLink => 35 | KAddLink => 36 | KAddLinkCont => 40 | KDeleteLink => 9
  | KConfirmRKey => 44 | KConfirmRKeyCont => 45 | KDeleteRKey => 40 | KTestLink => 20
  | KCDC => 26 | KOther => 0
  end.

(** a new object of the Go type for a kind *)
Definition llc_fresh (k : llc_kind) : LLCMessage :=
  match k with
  | KConfirmLink => LConfirm ConfirmLink_zero
  | KAddLink => LAddLink AddLink_zero
  | KAddLinkCont => LAddLinkCont AddLinkCont_zero
  | KDeleteLink => LDeleteLink DeleteLink_zero
  | KConfirmRKey => LConfirmRKey ConfirmRKey_zero
  | KConfirmRKeyCont => LConfirmRKeyCont ConfirmRKeyCont_zero
  | KDeleteRKey => LDeleteRKey deleteRKey_zero
  | KTestLink => LTestLink TestLink_zero
  | KCDC => LCDC CDC_zero
  | KOther => LOther (mkOther BaseMsg_zero)
  end.

(** the sizes of Go's arrays *)
Definition llc_wf (msg : LLCMessage) : Prop :=
  match msg with
  | LConfirm c => length (cl_res3 c) = 9
  | LAddLink a => length (al_res5 a) = 2 /\ length (al_res4 a) = 10
  | LAddLinkCont a => length (ac_res3 a) = 2 /\ length (ac_RKeyPairs a) = 2 /\ length (ac_res4 a) = 4
  | LDeleteLink d => length (dl_res3 d) = 35
  | LConfirmRKey c => length (ck_OtherRMBs c) = 2
  | LConfirmRKeyCont c => length (cc_OtherRMBs c) = 3
  | LDeleteRKey d => length (dk_res4 d) = 2 /\ length (dk_rkeys d) = 8 /\ length (dk_res5 d) = 4
  | LTestLink t => length (tl_UserData t) = 16 /\ length (tl_res3 t) = 24
  | LCDC c => length (c_res1 c) = 2 /\ length (c_res2 c) = 2 /\ length (c_res4 c) = 19
  | LOther o => True
  end.

(** objects that can exist in a program, which may recover from panics *)
Inductive llc_reachable : LLCMessage -> Prop :=
| llc_reach_fresh k : llc_reachable (llc_fresh k)
| llc_reach_parse m old buf logs new : llc_reachable old -> slice_ok m buf ->
    LLC_Parse m old buf = (logs, Done new) -> llc_reachable new
| llc_reach_panic m old buf logs new : llc_reachable old -> slice_ok m buf ->
    LLC_W m buf old = (logs, Panicked, new) -> llc_reachable new.

(** the names under which the package exports its parsers (all but the Delete RKey one) *)
Definition llc_parser (k : llc_kind) (m : mem) (buf : slice) : M LLCMessage :=
  match k with
  | KConfirmLink => let* x := ParseConfirm m buf in ret (LConfirm x)
  | KAddLink => let* x := ParseAddLink m buf in ret (LAddLink x)
  | KAddLinkCont => let* x := ParseAddLinkCont m buf in ret (LAddLinkCont x)
  | KDeleteLink => let* x := ParseDeleteLink m buf in ret (LDeleteLink x)
  | KConfirmRKey => let* x := ParseConfirmRKey m buf in ret (LConfirmRKey x)
  | KConfirmRKeyCont => let* x := ParseConfirmRKeyCont m buf in ret (LConfirmRKeyCont x)
  | KDeleteRKey => let* x := parseDeleteRKey m buf in ret (LDeleteRKey x)
  | KTestLink => let* x := ParseTestLink m buf in ret (LTestLink x)
  | KCDC => let* x := ParseCDC m buf in ret (LCDC x)
  | KOther => let* x := ParseOther m buf in ret (LOther x)
  end.

(** the reserved tail of an object, its offset and size *)
Definition llc_tail (msg : LLCMessage) : list byte :=
  match msg with
  | LConfirm c => cl_res3 c
  | LAddLink a => al_res4 a
  | LAddLinkCont a => ac_res4 a
  | LDeleteLink d => dl_res3 d
  | LDeleteRKey d => dk_res5 d
  | LTestLink t => tl_res3 t
  | LCDC c => skipn 1 (c_res4 c)
  | _ => []
  end.
