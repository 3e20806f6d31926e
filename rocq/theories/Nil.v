(** * Nil: nil pointers and pointers to objects. Specification only. *)

From Coq Require Import NArith Bool String List.
From Verif Require Import GoBase ClcModel LlcModel RoceModel NilModel ClcView LlcView.
Import ListNotations.

Definition panics {A} (x : M A) : Prop := x = ([], Panicked).

Definition nil_of (k : clc_kind) : MessagePtr :=
  match k with
  | KProposal => PProposal None
  | KProposalV2 => PProposalV2 None
  | KAcceptSMCR => PAcceptSMCR None
  | KAcceptSMCD => PAcceptSMCD None
  | KAcceptSMCDv2 => PAcceptSMCDv2 None
  | KConfirmSMCR => PConfirmSMCR None
  | KConfirmSMCD => PConfirmSMCD None
  | KConfirmSMCDv2 => PConfirmSMCDv2 None
  | KDecline => PDecline None
  | KDeclineV2 => PDeclineV2 None
  end.

Definition pointer_to (msg : Message) : MessagePtr :=
  match msg with
  | MProposal a => PProposal (Some a)
  | MProposalV2 a => PProposalV2 (Some a)
  | MAcceptSMCR a => PAcceptSMCR (Some a)
  | MAcceptSMCD a => PAcceptSMCD (Some a)
  | MAcceptSMCDv2 a => PAcceptSMCDv2 (Some a)
  | MConfirmSMCR a => PConfirmSMCR (Some a)
  | MConfirmSMCD a => PConfirmSMCD (Some a)
  | MConfirmSMCDv2 a => PConfirmSMCDv2 (Some a)
  | MDecline a => PDecline (Some a)
  | MDeclineV2 a => PDeclineV2 (Some a)
  end.

Definition is_confirm (k : clc_kind) : bool :=
  match k with KConfirmSMCR | KConfirmSMCD | KConfirmSMCDv2 => true | _ => false end.

Definition llc_nil_of (k : llc_kind) : LLCPtr :=
  match k with
  | KConfirmLink => QConfirm None
  | KAddLink => QAddLink None
  | KAddLinkCont => QAddLinkCont None
  | KDeleteLink => QDeleteLink None
  | KConfirmRKey => QConfirmRKey None
  | KConfirmRKeyCont => QConfirmRKeyCont None
  | KDeleteRKey => QDeleteRKey None
  | KTestLink => QTestLink None
  | KCDC => QCDC None
  | KOther => QOther None
  end.

Definition llc_pointer_to (msg : LLCMessage) : LLCPtr :=
  match msg with
  | LConfirm a => QConfirm (Some a)
  | LAddLink a => QAddLink (Some a)
  | LAddLinkCont a => QAddLinkCont (Some a)
  | LDeleteLink a => QDeleteLink (Some a)
  | LConfirmRKey a => QConfirmRKey (Some a)
  | LConfirmRKeyCont a => QConfirmRKeyCont (Some a)
  | LDeleteRKey a => QDeleteRKey (Some a)
  | LTestLink a => QTestLink (Some a)
  | LCDC a => QCDC (Some a)
  | LOther a => QOther (Some a)
  end.
