(** * NilModel: methods called through pointers that may be nil

    The messages of the library are used through pointers ([*Proposal], ..., [*GRH]).  The
    other model files describe the methods for pointers to an object.  This file describes
    them for nil pointers too; [None] is a nil pointer of a type.

    Reading or writing a field through a nil pointer panics.  A method that is promoted from
    an embedded struct is called with the address of the embedded struct; computing this
    address through a nil pointer panics as well, before the body of the method runs. *)

From Coq Require Import NArith Bool String List.
From Verif Require Import GoBase GoFmt ClcModel LlcModel RoceModel.
Import ListNotations.
Local Open Scope string_scope.

(** the address of a struct embedded in [*p], or the value of a field of [*p] *)
Definition field {A B} (p : option A) (f : A -> B) : M B :=
  match p with None => panic | Some a => ret (f a) end.

(** ** CLC messages: pkg/clc *)

(** a non-nil value of the interface type [Message]: message.go:6-13 *)
Inductive MessagePtr :=
| PProposal (p : option Proposal)
| PProposalV2 (p : option ProposalV2)
| PAcceptSMCR (p : option AcceptSMCR)
| PAcceptSMCD (p : option AcceptSMCD)
| PAcceptSMCDv2 (p : option AcceptSMCDv2)
| PConfirmSMCR (p : option ConfirmSMCR)
| PConfirmSMCD (p : option ConfirmSMCD)
| PConfirmSMCDv2 (p : option ConfirmSMCDv2)
| PDecline (p : option Decline)
| PDeclineV2 (p : option DeclineV2).

(** clc_proposal.go:52-55, clc_proposal_v2.go:174-177, clc_accept_smcr.go:65-68,
    clc_accept_smcd.go:30-33, clc_accept_smcd_v2.go:51-54, clc_decline.go:134-137,
    clc_decline_v2.go:47-50; the Confirm messages have the methods of the embedded Accept
    message: clc_confirm_smcr.go:3-7, clc_confirm_smcd.go:3-7, clc_confirm_smcd_v2.go:3-7 *)
Definition Ptr_String (p : MessagePtr) : M string :=
  match p with
  | PProposal p => ret (nil_na Proposal_String p)
  | PProposalV2 p => ret (nil_na ProposalV2_String p)
  | PAcceptSMCR p => ret (nil_na AcceptSMCR_String p)
  | PAcceptSMCD p => ret (nil_na AcceptSMCD_String p)
  | PAcceptSMCDv2 p => ret (nil_na AcceptSMCDv2_String p)
  | PConfirmSMCR p => let* a := field p cr_Accept in ret (nil_na AcceptSMCR_String (Some a))
  | PConfirmSMCD p => let* a := field p cd_Accept in ret (nil_na AcceptSMCD_String (Some a))
  | PConfirmSMCDv2 p => let* a := field p c2_Accept in ret (nil_na AcceptSMCDv2_String (Some a))
  | PDecline p => ret (nil_na Decline_String p)
  | PDeclineV2 p => ret (nil_na DeclineV2_String p)
  end.

(** clc_proposal.go:79-82, clc_proposal_v2.go:251-254, clc_accept_smcr.go:83-86,
    clc_accept_smcd.go:43-46, clc_accept_smcd_v2.go:78-81, clc_decline.go:146-149,
    clc_decline_v2.go:60-63 *)
Definition Ptr_Reserved (p : MessagePtr) : M string :=
  match p with
  | PProposal p => ret (nil_na Proposal_Reserved p)
  | PProposalV2 p => ret (nil_na ProposalV2_Reserved p)
  | PAcceptSMCR p => ret (nil_na AcceptSMCR_Reserved p)
  | PAcceptSMCD p => ret (nil_na AcceptSMCD_Reserved p)
  | PAcceptSMCDv2 p => ret (nil_na AcceptSMCDv2_Reserved p)
  | PConfirmSMCR p => let* a := field p cr_Accept in ret (nil_na AcceptSMCR_Reserved (Some a))
  | PConfirmSMCD p => let* a := field p cd_Accept in ret (nil_na AcceptSMCD_Reserved (Some a))
  | PConfirmSMCDv2 p => let* a := field p c2_Accept in ret (nil_na AcceptSMCDv2_Reserved (Some a))
  | PDecline p => ret (nil_na Decline_Reserved p)
  | PDeclineV2 p => ret (nil_na DeclineV2_Reserved p)
  end.

(** the object behind the pointer, if there is one *)
Definition Ptr_object (p : MessagePtr) : option Message :=
  match p with
  | PProposal p => option_map MProposal p
  | PProposalV2 p => option_map MProposalV2 p
  | PAcceptSMCR p => option_map MAcceptSMCR p
  | PAcceptSMCD p => option_map MAcceptSMCD p
  | PAcceptSMCDv2 p => option_map MAcceptSMCDv2 p
  | PConfirmSMCR p => option_map MConfirmSMCR p
  | PConfirmSMCD p => option_map MConfirmSMCD p
  | PConfirmSMCDv2 p => option_map MConfirmSMCDv2 p
  | PDecline p => option_map MDecline p
  | PDeclineV2 p => option_map MDeclineV2 p
  end.

(** raw.go:13-16; all types have [Dump] from the embedded field [Raw], which is read for the
    call *)
Definition Ptr_Dump (m : mem) (p : MessagePtr) : M string :=
  let* raw := field (Ptr_object p) Message_Raw in ret (Raw_Dump m raw).

(** The first statement of every [Parse] is [x.Raw.Parse(buf)], which needs the address of
    the embedded [Raw]: clc_proposal.go:108, clc_proposal_v2.go:285, clc_accept_smcr.go:102,
    clc_accept_smcd.go:59, clc_accept_smcd_v2.go:96, clc_decline.go:160, clc_decline_v2.go:75.
    The result is the object behind the pointer afterwards. *)
Definition Ptr_Parse (m : mem) (p : MessagePtr) (buf : slice) : M Message :=
  let* msg := field (Ptr_object p) (fun msg => msg) in Message_Parse m msg buf.

(** ** LLC messages: pkg/llc *)

(** message.go:3-10 *)
Inductive LLCPtr :=
| QConfirm (p : option ConfirmLink)
| QAddLink (p : option AddLink)
| QAddLinkCont (p : option AddLinkCont)
| QDeleteLink (p : option DeleteLink)
| QConfirmRKey (p : option ConfirmRKey)
| QConfirmRKeyCont (p : option ConfirmRKeyCont)
| QDeleteRKey (p : option deleteRKey)
| QTestLink (p : option TestLink)
| QCDC (p : option CDC)
| QOther (p : option Other).

(** the object behind the pointer, if there is one *)
Definition LLCPtr_object (p : LLCPtr) : option LLCMessage :=
  match p with
  | QConfirm p => option_map LConfirm p
  | QAddLink p => option_map LAddLink p
  | QAddLinkCont p => option_map LAddLinkCont p
  | QDeleteLink p => option_map LDeleteLink p
  | QConfirmRKey p => option_map LConfirmRKey p
  | QConfirmRKeyCont p => option_map LConfirmRKeyCont p
  | QDeleteRKey p => option_map LDeleteRKey p
  | QTestLink p => option_map LTestLink p
  | QCDC p => option_map LCDC p
  | QOther p => option_map LOther p
  end.

(** All [String] methods read fields, but that of [Other]: cdc.go:113-125,
    llc_addlink.go:138-144, llc_addlinkcont.go:89-101, llc_confirmlink.go:75-82,
    llc_confirmrkey.go:100-113, llc_confirmrkeycont.go:62-74, llc_deletelink.go:88-93,
    llc_deleterkey.go:78-90, llc_testlink.go:41-45; other.go:20-23 *)
Definition LLCPtr_String (p : LLCPtr) : M string :=
  match p with
  | QOther _ => ret (cat ["Other Payload"; nl])
  | _ => field (LLCPtr_object p) LLC_String
  end.

(** cdc.go:128-141, llc_addlink.go:148-156, llc_addlinkcont.go:105-118,
    llc_confirmlink.go:86-94, llc_confirmrkey.go:117-133, llc_confirmrkeycont.go:78-92,
    llc_deletelink.go:97-103, llc_deleterkey.go:94-107, llc_testlink.go:48-54;
    other.go:25-28 calls [String] *)
Definition LLCPtr_Reserved (p : LLCPtr) : M string :=
  match p with
  | QOther q => LLCPtr_String (QOther q)
  | _ => field (LLCPtr_object p) LLC_Reserved
  end.

(** base.go:32-35 and 37-40, methods of the embedded [BaseMsg] *)
Definition LLCPtr_Hex (p : LLCPtr) : M string :=
  let* b := field (LLCPtr_object p) LLC_Base in ret (BaseMsg_Hex b).
Definition LLCPtr_GetType (p : LLCPtr) : M N :=
  let* b := field (LLCPtr_object p) LLC_Base in ret (BaseMsg_GetType b).

(** All [Parse] methods begin with a call of [SetBaseMsg] or [setRaw], methods of the
    embedded [BaseMsg] *)
Definition LLCPtr_Parse (m : mem) (p : LLCPtr) (buffer : slice) : M LLCMessage :=
  let* msg := field (LLCPtr_object p) (fun msg => msg) in LLC_Parse m msg buffer.

(** ** BTH and GRH: pkg/roce *)

(** bth.go:253-278 and 197-200: the texts, [Hex] and [Parse] use fields, [GetType] does not *)
Definition BTHPtr_String (p : option BTH) : M string := field p BTH_String.
Definition BTHPtr_Reserved (p : option BTH) : M string := field p BTH_Reserved.
Definition BTHPtr_Hex (p : option BTH) : M string := field p BTH_Hex.
Definition BTHPtr_GetType (p : option BTH) : M N := ret typeBTH.
Definition BTHPtr_Parse (m : mem) (p : option BTH) (buffer : slice) : M BTH :=
  let* b := field p (fun b => b) in BTH_Parse m b buffer.

(** grh.go:22-64; [Parse] assigns to [*g] after gopacket has decoded the buffer *)
Definition GRHPtr_String (proto_name : N -> string) (p : option GRH) : M string :=
  field p (GRH_String proto_name).
Definition GRHPtr_Reserved (proto_name : N -> string) (p : option GRH) : M string :=
  GRHPtr_String proto_name p.
Definition GRHPtr_Hex (p : option GRH) : M string := field p GRH_Hex.
Definition GRHPtr_GetType (p : option GRH) : M N := ret typeGRH.
Definition GRHPtr_Parse (m : mem) (p : option GRH) (buffer : slice) : M GRH :=
  let* g := field p (fun g => g) in GRH_Parse m g buffer.
