(** * Recover: objects that a panicking Parse leaves behind. Specification only. *)

From Coq Require Import NArith Bool String Arith List.
From Verif Require Import GoBase ClcModel LlcModel RoceModel Wire ClcView LlcView.
Import ListNotations.
Local Open Scope string_scope.
Local Open Scope list_scope.
Local Open Scope nat_scope.

(** [bs] contains the first [k] fields of the format [l] and not more *)
Definition complete (l : layout) (bs : list byte) (k : nat) : Prop :=
  k <= length l /\ layout_bits (firstn k l) <= 8 * length bs /\
  (k < length l -> 8 * length bs < layout_bits (firstn (S k) l)).

(** IP and MAC addresses: a new byte slice is stored before the bytes are copied into it *)
Definition is_address (name : string) : bool :=
  existsb (String.eqb name) ["SMC-R GID"; "RoCE MAC"; "IPv4 Prefix"; "Sender GID"; "Sender MAC"].

(** the first field that the buffer does not contain; [rest] are those of its bytes that are
    there.  A number of three bytes is read byte by byte *)
Definition torn_field (f : string * kind) (rest : list byte) (old : string * val) : string * val :=
  match f with
  | (name, A n) => if is_address name then (name, VB (repeat x00 n)) else old
  | (name, U w) =>
    if (w =? 24) && (0 <? length rest)
    then (name, VN (BE (rest ++ repeat x00 (3 - length rest)))) else old
  end.

(** the fields from number [k] on *)
Definition torn_fields (l : layout) (k : nat) (bs : list byte) (old : list (string * val))
  : list (string * val) :=
  match skipn k l, skipn k old with
  | f :: _, v :: r => torn_field f (skipn (layout_bits (firstn k l) / 8) bs) v :: r
  | _, r => r
  end.

(** the fields [old] of an object became [new]: those that the buffer contains are decoded;
    those behind the first that is not contained are as they were, unless the parser can read
    on in the spare capacity of the buffer *)
Definition kept_fields (l : layout) (m : mem) (buf : slice) (old new : list (string * val)) : Prop :=
  exists k, complete l (s_bytes m buf) k /\
    firstn k new = firstn k (decode l (s_bytes m buf)) /\
    (s_cap buf = s_len buf -> skipn k new = torn_fields l k (s_bytes m buf) old).

(** ** CLC *)

(** what the parser reads one after the other; for a Proposal, without the areas of variable
    size.  In a Decline v2 the last two fields are read together *)
Definition read_layout (k : clc_kind) : layout :=
  match k with
  | KProposal => clc_header ++ proposal_body
  | KProposalV2 => clc_header_v2proposal ++ proposalv2_body
  | KAcceptSMCR | KConfirmSMCR => clc_header ++ accept_smcr_body
  | KAcceptSMCD | KConfirmSMCD => clc_header ++ accept_smcd_body
  | KAcceptSMCDv2 | KConfirmSMCDv2 => clc_header ++ accept_smcdv2_body ++ fce_body
  | KDecline => clc_header ++ decline_body
  | KDeclineV2 =>
    clc_header ++ [("Peer ID", A 8); ("Peer Diagnosis", U 32); ("OS Type and Reserved", U 32)]
  end.

Definition read_view (msg : Message) : list (string * val) :=
  match msg with
  | MProposal p => proposal_view p
  | MProposalV2 p => proposalv2_view p
  | MAcceptSMCR a => accept_smcr_view a
  | MAcceptSMCD a => accept_smcd_view a
  | MAcceptSMCDv2 a => accept_smcdv2_view a ++ fce_view a
  | MConfirmSMCR c => accept_smcr_view (cr_Accept c)
  | MConfirmSMCD c => accept_smcd_view (cd_Accept c)
  | MConfirmSMCDv2 c => accept_smcdv2_view (c2_Accept c) ++ fce_view (c2_Accept c)
  | MDecline d => decline_view d
  | MDeclineV2 d =>
    header_view (d2_Header d) ++
    [("Peer ID", VB (d2_SenderPeerID d)); ("Peer Diagnosis", VN (d2_PeerDiagnosis d));
     ("OS Type and Reserved", VN (d2_OSType d * 2 ^ 28 + BE (d2_reserved d)))]
  end.

(** the raw bytes of an object *)
Definition raw_of (msg : Message) : slice :=
  match msg with
  | MProposal p => p_Raw p
  | MProposalV2 p => p2_Raw p
  | MAcceptSMCR a => ar_Raw a
  | MAcceptSMCD a => ad_Raw a
  | MAcceptSMCDv2 a => a2_Raw a
  | MConfirmSMCR c => ar_Raw (cr_Accept c)
  | MConfirmSMCD c => ad_Raw (cd_Accept c)
  | MConfirmSMCDv2 c => a2_Raw (c2_Accept c)
  | MDecline d => d_Raw d
  | MDeclineV2 d => d2_Raw d
  end.

(** behind the header, the rest of a message is read, too *)
Definition reads_on (k : clc_kind) (bs : list byte) : bool :=
  (min_length k <=? declared bs)%N &&
  match k with
  | KAcceptSMCDv2 | KConfirmSMCDv2 => 78 <=? length bs
  | _ => true
  end.

(** a header decoded from [bs] *)
Definition header_from (bs : list byte) (h : Header) : Prop :=
  header_view h = decode clc_header bs /\
  header_v2proposal_view h = decode clc_header_v2proposal bs.

(** [old] became [new] in a [Parse(buf)] that panicked *)
Definition after_panic (m : mem) (buf : slice) (old new : Message) : Prop :=
  let bs := s_bytes m buf in
  raw_of new = buf /\ trailer_of new = trailer_of old /\
  if (length bs <? 8) || reads_on (kind_of old) bs
  then kept_fields (read_layout (kind_of old)) m buf (read_view old) (read_view new)
  else exists h, header_from bs h /\ new = with_header old buf h.

(** ** Runs *)

(** the assignment-by-assignment run [x] behaves like the run [y] of the method *)
Definition same_run {R} (x : list string * outcome unit * R) (y : M R) : Prop :=
  match x with
  | (l, Done _, r) => y = (l, Done r)
  | (l, Panicked, _) => y = (l, Panicked)
  | (l, Exited, _) => y = (l, Exited)
  end.
