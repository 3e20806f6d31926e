(** * ClcView: the observable content of CLC message objects.

    For each message type: the list of its fields, by name, in wire order, to be
    compared with [Wire.decode], and the type invariant that Go's fixed-size
    arrays give every object.  Specification only. *)

From Coq Require Import NArith Bool String Arith List.
From Verif Require Import GoBase ClcModel WriteModel Wire.
Import ListNotations.
Local Open Scope string_scope.
Local Open Scope list_scope.
Local Open Scope nat_scope.

(** ** Field lists *)

Definition header_view (h : Header) : list (string * val) :=
  [("Eyecatcher", VB (h_Eyecatcher h)); ("Type", VN (h_Type h)); ("Length", VN (h_Length h));
   ("Version", VN (h_Version h)); ("Flag", VN (h_Flag h)); ("Reserved", VN (h_reserved h));
   ("Path", VN (h_Path h))].

Definition header_v2proposal_view (h : Header) : list (string * val) :=
  [("Eyecatcher", VB (h_Eyecatcher h)); ("Type", VN (h_Type h)); ("Length", VN (h_Length h));
   ("Version", VN (h_Version h)); ("Pathv2", VN (h_Pathv2 h)); ("Path", VN (h_Path h))].

Definition accept_smcr_view (a : AcceptSMCR) : list (string * val) :=
  header_view (ar_Header a) ++
  [("Peer ID", VB (ar_SenderPeerID a)); ("SMC-R GID", VB (ar_IBGID a));
   ("RoCE MAC", VB (ar_IBMAC a)); ("QP Number", VN (ar_QPN a));
   ("RMB RKey", VN (ar_RMBRKey a)); ("RMBE Index", VN (ar_RMBEIdx a));
   ("RMBE Alert Token", VN (ar_RMBEAlertToken a)); ("RMBE Size", VN (ar_RMBESize a));
   ("QP MTU", VN (ar_QPMTU a)); ("Reserved", VN (ar_reserved a));
   ("RMB Virtual Address", VN (ar_RMBDMAAddr a)); ("Reserved", VN (ar_reserved2 a));
   ("Packet Sequence Number", VN (ar_PSN a))].

Definition accept_smcd_view (a : AcceptSMCD) : list (string * val) :=
  header_view (ad_Header a) ++
  [("SMC-D GID", VN (ad_GID a)); ("SMC-D Token", VN (ad_Token a));
   ("DMBE Index", VN (ad_DMBEIdx a)); ("DMBE Size", VN (ad_DMBESize a));
   ("Reserved", VN (ad_reserved a)); ("Reserved", VB (ad_reserved2 a));
   ("Link ID", VN (ad_LinkID a)); ("Reserved", VB (ad_reserved3 a))].

Definition accept_smcdv2_view (a : AcceptSMCDv2) : list (string * val) :=
  header_view (a2_Header a) ++
  [("SMC-D GID", VN (a2_GID a)); ("SMC-D Token", VN (a2_Token a));
   ("DMBE Index", VN (a2_DMBEIdx a)); ("DMBE Size", VN (a2_DMBESize a));
   ("Reserved", VN (a2_reserved a)); ("Reserved", VB (a2_reserved2 a));
   ("Link ID", VN (a2_LinkID a)); ("ISMv2 VCHID", VN (a2_ISMv2VCHID a));
   ("EID", VB (a2_EID a)); ("Reserved", VB (a2_reserved3 a))].

Definition fce_view (a : AcceptSMCDv2) : list (string * val) :=
  [("Reserved", VN (a2_reserved4 a)); ("OS Type", VN (a2_OSType a));
   ("Release", VN (a2_Release a)); ("Reserved", VB (a2_reserved5 a));
   ("Hostname", VB (a2_Hostname a))].

Definition decline_view (d : Decline) : list (string * val) :=
  header_view (d_Header d) ++
  [("Peer ID", VB (d_SenderPeerID d)); ("Peer Diagnosis", VN (d_PeerDiagnosis d));
   ("Reserved", VB (d_reserved d))].

Definition declinev2_view (d : DeclineV2) : list (string * val) :=
  header_view (d2_Header d) ++
  [("Peer ID", VB (d2_SenderPeerID d)); ("Peer Diagnosis", VN (d2_PeerDiagnosis d));
   ("OS Type", VN (d2_OSType d)); ("Reserved", VN (BE (d2_reserved d)))].

Definition proposal_view (p : Proposal) : list (string * val) :=
  header_view (p_Header p) ++
  [("Peer ID", VB (p_SenderPeerID p)); ("SMC-R GID", VB (p_IBGID p));
   ("RoCE MAC", VB (p_IBMAC p)); ("IP Area Offset", VN (p_IPAreaOffset p))].

Definition proposal_smcd_view (p : Proposal) : list (string * val) :=
  [("SMC-D GID", VN (p_SMCDGID p)); ("Reserved", VB (p_reserved p))].

Definition ip_area_view (i : IPInfo) : list (string * val) :=
  [("IPv4 Prefix", VB (i_Prefix i)); ("Prefix Length", VN (i_PrefixLen i));
   ("Reserved", VB (i_reserved2 i)); ("IPv6 Prefix Count", VN (i_IPv6PrefixesCnt i))].

Definition ipv6_prefix_view (p : IPv6Prefix) : list (string * val) :=
  [("IPv6 Prefix", VB (ip6_prefix p)); ("Prefix Length", VN (ip6_prefixLen p))].

Definition proposalv2_view (p : ProposalV2) : list (string * val) :=
  header_v2proposal_view (p2_Header p) ++
  [("Peer ID", VB (p2_SenderPeerID p)); ("SMC-R GID", VB (p2_IBGID p));
   ("RoCE MAC", VB (p2_IBMAC p)); ("IP Area Offset", VN (p2_IPAreaOffset p));
   ("SMC-D GID", VN (p2_SMCDGID p)); ("ISMv2 VCHID", VN (p2_ISMv2VCHID p));
   ("SMCv2 Extension Offset", VN (p2_SMCv2Offset p)); ("Reserved", VB (p2_reserved p))].

Definition v2_extension_view (x : V2Ext) : list (string * val) :=
  [("EID Number", VN (x_EIDNumber x)); ("GID Number", VN (x_GIDNumber x));
   ("Reserved", VN (x_reserved3 x)); ("Release", VN (x_Release x));
   ("Reserved", VN (x_reserved4 x)); ("SEID Indicator", VN (x_SEIDInd x));
   ("Reserved", VB (x_reserved5 x)); ("SMC-Dv2 Extension Offset", VN (x_SMCDv2Off x));
   ("Reserved", VB (x_reserved6 x))].

Definition smcdv2_extension_view (y : SMCDExt) : list (string * val) :=
  [("SEID", VB (y_SEID y)); ("Reserved", VB (y_reserved7 y))].

Definition gid_entry_view (g : GIDEntry) : list (string * val) :=
  [("GID", VN (g_GID g)); ("VCHID", VN (g_VCHID g))].

(** ** Type invariants: the sizes of Go's arrays *)

Definition header_wf (h : Header) : Prop := length (h_Eyecatcher h) = 4.

Definition accept_smcr_wf (a : AcceptSMCR) : Prop :=
  header_wf (ar_Header a) /\ length (ar_SenderPeerID a) = 8 /\ length (ar_Trailer a) = 4.

Definition accept_smcd_wf (a : AcceptSMCD) : Prop :=
  header_wf (ad_Header a) /\ length (ad_reserved2 a) = 2 /\ length (ad_reserved3 a) = 12 /\
  length (ad_Trailer a) = 4.

Definition accept_smcdv2_wf (a : AcceptSMCDv2) : Prop :=
  header_wf (a2_Header a) /\ length (a2_reserved2 a) = 2 /\ length (a2_EID a) = 32 /\
  length (a2_reserved3 a) = 8 /\ length (a2_reserved5 a) = 2 /\
  length (a2_Hostname a) = 32 /\ length (a2_Trailer a) = 4.

Definition decline_wf (d : Decline) : Prop :=
  header_wf (d_Header d) /\ length (d_SenderPeerID d) = 8 /\ length (d_reserved d) = 4 /\
  length (d_Trailer d) = 4.

Definition declinev2_wf (d : DeclineV2) : Prop :=
  header_wf (d2_Header d) /\ length (d2_SenderPeerID d) = 8 /\ length (d2_reserved d) = 4 /\
  length (d2_Trailer d) = 4.

Definition ipinfo_wf (i : IPInfo) : Prop := length (i_reserved2 i) = 2.

Definition proposal_wf (p : Proposal) : Prop :=
  header_wf (p_Header p) /\ length (p_SenderPeerID p) = 8 /\ length (p_reserved p) = 32 /\
  ipinfo_wf (p_IP p) /\ length (p_Trailer p) = 4.

Definition v2ext_wf (x : V2Ext) : Prop :=
  length (x_reserved5 x) = 2 /\ length (x_reserved6 x) = 32 /\
  length (x_EIDArea x) = 8 /\ Forall (fun e => length e = 32) (x_EIDArea x).

Definition smcdext_wf (y : SMCDExt) : Prop :=
  length (y_SEID y) = 32 /\ length (y_reserved7 y) = 16 /\ length (y_GIDArea y) = 8.

Definition proposalv2_wf (p : ProposalV2) : Prop :=
  header_wf (p2_Header p) /\ length (p2_SenderPeerID p) = 8 /\ length (p2_reserved p) = 28 /\
  ipinfo_wf (p2_IP p) /\ v2ext_wf (p2_Ext p) /\ smcdext_wf (p2_SMCD p) /\
  length (p2_Trailer p) = 4.

(** ** What each object of the interface type [Message] satisfies *)
Definition message_wf (msg : Message) : Prop :=
  match msg with
  | MProposal p => proposal_wf p
  | MProposalV2 p => proposalv2_wf p
  | MAcceptSMCR a => accept_smcr_wf a
  | MAcceptSMCD a => accept_smcd_wf a
  | MAcceptSMCDv2 a => accept_smcdv2_wf a
  | MConfirmSMCR c => accept_smcr_wf (cr_Accept c)
  | MConfirmSMCD c => accept_smcd_wf (cd_Accept c)
  | MConfirmSMCDv2 c => accept_smcdv2_wf (c2_Accept c)
  | MDecline d => decline_wf d
  | MDeclineV2 d => declinev2_wf d
  end.

(** ** Log texts *)

(** what a buffer dump in the log looks like *)
Definition dump_line (bs : list byte) : string :=
  append "Message Buffer Hex Dump:" (append line_end (GoFmt.hex_dump bs)).

(** the log output about the trailer [t] *)
Definition is_eyecatcher (t : list byte) : bool :=
  if list_eq_dec Byte.byte_eq_dec t [xe2; xd4; xc3; xd9] then true
  else if list_eq_dec Byte.byte_eq_dec t [xe2; xd4; xc3; xc4] then true else false.

Definition trailer_log (t : list byte) : list string :=
  if is_eyecatcher t then []
  else ["Error parsing CLC message: invalid trailer"; dump_line t].

(** the last four bytes *)
Definition last4 (bs : list byte) : list byte := skipn (length bs - 4) bs.

(** the declared length of a CLC message: bytes 5 and 6 *)
Definition declared (bs : list byte) : N := bits bs 40 16.
(** its type: byte 4 *)
Definition msg_type (bs : list byte) : N := bits bs 32 8.

(** ** Kinds of CLC messages *)

Inductive clc_kind :=
| KProposal | KProposalV2 | KAcceptSMCR | KAcceptSMCD | KAcceptSMCDv2
| KConfirmSMCR | KConfirmSMCD | KConfirmSMCDv2 | KDecline | KDeclineV2.

(** the version nibble and the path bits of byte 7 *)
Definition msg_version (bs : list byte) : N := bits bs 56 4.
Definition msg_path (bs : list byte) : N := bits bs 62 2.

(** [kind_rel typ version path k]: a message with these header values is of kind [k] *)
Inductive kind_rel : N -> N -> N -> clc_kind -> Prop :=
| kr_proposal_v1 v p : (v <> 2)%N -> kind_rel 1 v p KProposal
| kr_proposal_v2 p : kind_rel 1 2 p KProposalV2
| kr_accept_smcr v : kind_rel 2 v 0 KAcceptSMCR
| kr_accept_smcd_v1 v : (v <> 2)%N -> kind_rel 2 v 1 KAcceptSMCD
| kr_accept_smcd_v2 : kind_rel 2 2 1 KAcceptSMCDv2
| kr_confirm_smcr v : kind_rel 3 v 0 KConfirmSMCR
| kr_confirm_smcd_v1 v : (v <> 2)%N -> kind_rel 3 v 1 KConfirmSMCD
| kr_confirm_smcd_v2 : kind_rel 3 2 1 KConfirmSMCDv2
| kr_decline_v1 v p : (v <> 2)%N -> kind_rel 4 v p KDecline
| kr_decline_v2 p : kind_rel 4 2 p KDeclineV2.

(** a new object of the Go type for a kind: all fields zero *)
Definition fresh (k : clc_kind) : Message :=
  match k with
  | KProposal => MProposal Proposal_zero
  | KProposalV2 => MProposalV2 ProposalV2_zero
  | KAcceptSMCR => MAcceptSMCR AcceptSMCR_zero
  | KAcceptSMCD => MAcceptSMCD AcceptSMCD_zero
  | KAcceptSMCDv2 => MAcceptSMCDv2 AcceptSMCDv2_zero
  | KConfirmSMCR => MConfirmSMCR (mkConfirmSMCR AcceptSMCR_zero)
  | KConfirmSMCD => MConfirmSMCD (mkConfirmSMCD AcceptSMCD_zero)
  | KConfirmSMCDv2 => MConfirmSMCDv2 (mkConfirmSMCDv2 AcceptSMCDv2_zero)
  | KDecline => MDecline Decline_zero
  | KDeclineV2 => MDeclineV2 DeclineV2_zero
  end.

Definition kind_of (msg : Message) : clc_kind :=
  match msg with
  | MProposal _ => KProposal
  | MProposalV2 _ => KProposalV2
  | MAcceptSMCR _ => KAcceptSMCR
  | MAcceptSMCD _ => KAcceptSMCD
  | MAcceptSMCDv2 _ => KAcceptSMCDv2
  | MConfirmSMCR _ => KConfirmSMCR
  | MConfirmSMCD _ => KConfirmSMCD
  | MConfirmSMCDv2 _ => KConfirmSMCDv2
  | MDecline _ => KDecline
  | MDeclineV2 _ => KDeclineV2
  end.

(** the smallest declared length at which a message of a kind is decoded *)
Definition min_length (k : clc_kind) : N :=
  match k with
  | KProposal => 52 | KProposalV2 => 84
  | KAcceptSMCR | KConfirmSMCR => 68
  | KAcceptSMCD | KConfirmSMCD => 48
  | KAcceptSMCDv2 | KConfirmSMCDv2 => 78
  | KDecline | KDeclineV2 => 28
  end.

(** Proposals are the kinds with a variable part *)
Definition is_proposal (k : clc_kind) : bool :=
  match k with KProposal | KProposalV2 => true | _ => false end.

(** the log line about a message of kind [k] with type byte [t] that is too short;
    Accept and Confirm share their parser, which goes by the type byte *)
Definition too_short_line (k : clc_kind) (t : N) : string :=
  match k with
  | KProposal => "Error parsing CLC Proposal: message too short"
  | KProposalV2 => "Error parsing CLC Proposal v2: message too short"
  | KAcceptSMCDv2 | KConfirmSMCDv2 =>
    if (t =? 3)%N then "Error parsing SMC-Dv2 CLC Confirm: message too short"
    else "Error parsing SMC-Dv2 CLC Accept: message too short"
  | KDecline | KDeclineV2 => "Error parsing CLC Decline: message too short"
  | _ => if (t =? 3)%N then "Error parsing CLC Confirm: message too short"
         else "Error parsing CLC Accept: message too short"
  end%string.

(** an object with only raw bytes and header replaced *)
Definition smcr_with_header (a : AcceptSMCR) (raw : slice) (h : Header) : AcceptSMCR :=
  {| ar_Raw := raw; ar_Header := h; ar_SenderPeerID := ar_SenderPeerID a;
     ar_IBGID := ar_IBGID a; ar_IBMAC := ar_IBMAC a; ar_QPN := ar_QPN a;
     ar_RMBRKey := ar_RMBRKey a; ar_RMBEIdx := ar_RMBEIdx a;
     ar_RMBEAlertToken := ar_RMBEAlertToken a; ar_RMBESize := ar_RMBESize a;
     ar_QPMTU := ar_QPMTU a; ar_reserved := ar_reserved a;
     ar_RMBDMAAddr := ar_RMBDMAAddr a; ar_reserved2 := ar_reserved2 a;
     ar_PSN := ar_PSN a; ar_Trailer := ar_Trailer a |}.

Definition smcd_with_header (a : AcceptSMCD) (raw : slice) (h : Header) : AcceptSMCD :=
  {| ad_Raw := raw; ad_Header := h; ad_GID := ad_GID a; ad_Token := ad_Token a;
     ad_DMBEIdx := ad_DMBEIdx a; ad_DMBESize := ad_DMBESize a;
     ad_reserved := ad_reserved a; ad_reserved2 := ad_reserved2 a;
     ad_LinkID := ad_LinkID a; ad_reserved3 := ad_reserved3 a;
     ad_Trailer := ad_Trailer a |}.

Definition smcdv2_with_header (a : AcceptSMCDv2) (raw : slice) (h : Header) : AcceptSMCDv2 :=
  {| a2_Raw := raw; a2_Header := h; a2_GID := a2_GID a; a2_Token := a2_Token a;
     a2_DMBEIdx := a2_DMBEIdx a; a2_DMBESize := a2_DMBESize a;
     a2_reserved := a2_reserved a; a2_reserved2 := a2_reserved2 a;
     a2_LinkID := a2_LinkID a; a2_ISMv2VCHID := a2_ISMv2VCHID a;
     a2_EID := a2_EID a; a2_reserved3 := a2_reserved3 a;
     a2_reserved4 := a2_reserved4 a; a2_OSType := a2_OSType a;
     a2_Release := a2_Release a; a2_reserved5 := a2_reserved5 a;
     a2_Hostname := a2_Hostname a; a2_Trailer := a2_Trailer a |}.

(** what [Parse] changes when it gives up early: raw bytes and header *)
Definition with_header (msg : Message) (raw : slice) (h : Header) : Message :=
  match msg with
  | MProposal p =>
    MProposal {| p_Raw := raw; p_Header := h; p_SenderPeerID := p_SenderPeerID p;
      p_IBGID := p_IBGID p; p_IBMAC := p_IBMAC p; p_IPAreaOffset := p_IPAreaOffset p;
      p_SMCDGID := p_SMCDGID p; p_reserved := p_reserved p; p_IP := p_IP p;
      p_Trailer := p_Trailer p |}
  | MProposalV2 p =>
    MProposalV2 {| p2_Raw := raw; p2_Header := h; p2_SenderPeerID := p2_SenderPeerID p;
      p2_IBGID := p2_IBGID p; p2_IBMAC := p2_IBMAC p; p2_IPAreaOffset := p2_IPAreaOffset p;
      p2_SMCDGID := p2_SMCDGID p; p2_ISMv2VCHID := p2_ISMv2VCHID p;
      p2_SMCv2Offset := p2_SMCv2Offset p; p2_reserved := p2_reserved p; p2_IP := p2_IP p;
      p2_Ext := p2_Ext p; p2_SMCD := p2_SMCD p; p2_Trailer := p2_Trailer p |}
  | MAcceptSMCR a => MAcceptSMCR (smcr_with_header a raw h)
  | MAcceptSMCD a => MAcceptSMCD (smcd_with_header a raw h)
  | MAcceptSMCDv2 a => MAcceptSMCDv2 (smcdv2_with_header a raw h)
  | MConfirmSMCR c => MConfirmSMCR (mkConfirmSMCR (smcr_with_header (cr_Accept c) raw h))
  | MConfirmSMCD c => MConfirmSMCD (mkConfirmSMCD (smcd_with_header (cd_Accept c) raw h))
  | MConfirmSMCDv2 c =>
    MConfirmSMCDv2 (mkConfirmSMCDv2 (smcdv2_with_header (c2_Accept c) raw h))
  | MDecline d =>
    MDecline {| d_Raw := raw; d_Header := h; d_SenderPeerID := d_SenderPeerID d;
      d_PeerDiagnosis := d_PeerDiagnosis d; d_OSType := d_OSType d;
      d_reserved := d_reserved d; d_Trailer := d_Trailer d |}
  | MDeclineV2 d =>
    MDeclineV2 {| d2_Raw := raw; d2_Header := h; d2_SenderPeerID := d2_SenderPeerID d;
      d2_PeerDiagnosis := d2_PeerDiagnosis d; d2_OSType := d2_OSType d;
      d2_reserved := d2_reserved d; d2_Trailer := d2_Trailer d |}
  end.

(** the header of an object *)
Definition header_of (msg : Message) : Header :=
  match msg with
  | MProposal p => p_Header p
  | MProposalV2 p => p2_Header p
  | MAcceptSMCR a => ar_Header a
  | MAcceptSMCD a => ad_Header a
  | MAcceptSMCDv2 a => a2_Header a
  | MConfirmSMCR c => ar_Header (cr_Accept c)
  | MConfirmSMCD c => ad_Header (cd_Accept c)
  | MConfirmSMCDv2 c => a2_Header (c2_Accept c)
  | MDecline d => d_Header d
  | MDeclineV2 d => d2_Header d
  end.

(** the trailer of an object *)
Definition trailer_of (msg : Message) : list byte :=
  match msg with
  | MProposal p => p_Trailer p
  | MProposalV2 p => p2_Trailer p
  | MAcceptSMCR a => ar_Trailer a
  | MAcceptSMCD a => ad_Trailer a
  | MAcceptSMCDv2 a => a2_Trailer a
  | MConfirmSMCR c => ar_Trailer (cr_Accept c)
  | MConfirmSMCD c => ad_Trailer (cd_Accept c)
  | MConfirmSMCDv2 c => a2_Trailer (c2_Accept c)
  | MDecline d => d_Trailer d
  | MDeclineV2 d => d2_Trailer d
  end.

(** objects that can exist in a program: a new object, parsed any number of times,
    each time from any buffer of any memory, where the program may recover from panics and
    go on using the object *)
Inductive reachable : Message -> Prop :=
| reach_fresh k : reachable (fresh k)
| reach_parse m old buf logs new : reachable old -> slice_ok m buf ->
    Message_Parse m old buf = (logs, Done new) -> reachable new
| reach_panic m old buf logs new : reachable old -> slice_ok m buf ->
    Message_W m buf old = (logs, Panicked, new) -> reachable new.

(** when parsing a message of fixed format panics, in terms of the declared length and
    the length and capacity of the slice *)
Definition fixed_panics (k : clc_kind) (decl len cap : nat) : Prop :=
  let n := N.to_nat (min_length k) in
  len < 8 \/
  match k with
  | KAcceptSMCDv2 | KConfirmSMCDv2 =>
    ((decl < n \/ len < n) /\ cap < decl) \/ (decl = 114 /\ n <= len < 114)
  | _ => (decl < n /\ cap < decl) \/ (n <= decl /\ len < n)
  end.

(** ** The variable parts of Proposals *)

(** how many entries of [size] bytes from position [start] fit in front of the
    four trailer bytes of a message of [L] bytes, if [n] are announced *)
Definition fitting (L start size n : nat) : nat := Nat.min n ((L - 4 - start) / size).

(** the first [n] entries with layout [body] of [size] bytes from byte [start] on *)
Definition entries (body : layout) (start size n : nat) (bs : list byte)
  : list (list (string * val)) :=
  map (fun k => decode_at body (8 * (start + size * k)) bs) (seq 0 n).

(** v1 Proposal: bytes 38 and 39 hold the offset of the IP area relative to byte 40;
    offset 40 announces an SMC-D area of 40 bytes in between *)
Definition ip_area_offset (bs : list byte) : N := bits bs 304 16.
Definition ip_area_start (bs : list byte) : nat := 40 + N.to_nat (ip_area_offset bs).
(** the byte behind the IP area: number of IPv6 prefixes announced *)
Definition prefix_count (bs : list byte) (start : nat) : nat :=
  N.to_nat (bits bs (8 * (start + 7)) 8).

(** v2 Proposal: the parts behind the 80 fixed bytes follow each other without gap.
    [L] is the declared length. *)
Definition msg_pathv2 (bs : list byte) : N := bits bs 60 2.
(** path value 2 means "none": the part is absent *)
Definition has_ip (bs : list byte) : bool := negb (msg_path bs =? 2)%N.
Definition has_ext (bs : list byte) : bool := negb (msg_pathv2 bs =? 2)%N.
(** SMC-D or both *)
Definition has_smcd (bs : list byte) : bool := ((msg_pathv2 bs =? 1) || (msg_pathv2 bs =? 3))%N.

Definition v2_prefixes (L : nat) (bs : list byte) : nat := fitting L 88 17 (prefix_count bs 80).
Definition v2_ext_start (L : nat) (bs : list byte) : nat :=
  if has_ip bs then 88 + 17 * v2_prefixes L bs else 80.
Definition v2_eid_count (L : nat) (bs : list byte) : nat :=
  N.to_nat (bits bs (8 * v2_ext_start L bs) 8).
Definition v2_gid_count (L : nat) (bs : list byte) : nat :=
  N.to_nat (bits bs (8 * (v2_ext_start L bs + 1)) 8).
Definition v2_eids (L : nat) (bs : list byte) : nat :=
  fitting L (v2_ext_start L bs + 40) 32 (v2_eid_count L bs).
Definition v2_smcd_start (L : nat) (bs : list byte) : nat :=
  v2_ext_start L bs + 40 + 32 * v2_eids L bs.
Definition v2_gids (L : nat) (bs : list byte) : nat :=
  fitting L (v2_smcd_start L bs + 48) 10 (v2_gid_count L bs).

(** what is logged if only [n] of [c] announced entries fit *)
Definition too_many_log (err : string) (L : nat) (bs : list byte) (n c : nat) : list string :=
  if n <? c then [err; dump_line (bytes_at bs 0 L)] else [].

(** there is room for the fixed part of each announced optional part *)
Definition v2_ip_room (L : nat) (bs : list byte) : Prop := has_ip bs = true -> 92 <= L.
Definition v2_ext_room (L : nat) (bs : list byte) : Prop :=
  has_ext bs = true -> v2_ext_start L bs + 44 <= L.
Definition v2_smcd_room (L : nat) (bs : list byte) : Prop :=
  has_smcd bs = true -> v2_smcd_start L bs + 52 <= L.

(** the logs about entries that do not fit *)
Definition v2_prefix_log (L : nat) (bs : list byte) : list string :=
  if has_ip bs then
    too_many_log "Error parsing CLC Proposal v2: IPv6 prefix count too big" L bs
      (v2_prefixes L bs) (prefix_count bs 80)
  else [].
Definition v2_eid_log (L : nat) (bs : list byte) : list string :=
  if has_ext bs then
    too_many_log "Error parsing CLC Proposal v2: EID number too big" L bs
      (v2_eids L bs) (v2_eid_count L bs)
  else [].
Definition v2_gid_log (L : nat) (bs : list byte) : list string :=
  if has_smcd bs then
    too_many_log "Error parsing CLC Proposal v2: GID number too big" L bs
      (v2_gids L bs) (v2_gid_count L bs)
  else [].

(** what the three optional parts of [p] are after parsing [bs] over [old] *)
Definition v2_ip_decoded (L : nat) (bs : list byte) (old p : ProposalV2) : Prop :=
  if has_ip bs then
    ip_area_view (p2_IP p) = decode_at ip_area_body (8 * 80) bs /\
    exists new, i_IPv6Prefixes (p2_IP p) = i_IPv6Prefixes (p2_IP old) ++ new /\
      map ipv6_prefix_view new = entries ipv6_prefix_body 88 17 (v2_prefixes L bs) bs
  else p2_IP p = p2_IP old.

Definition v2_ext_decoded (L : nat) (bs : list byte) (old p : ProposalV2) : Prop :=
  if has_ext bs then
    v2_extension_view (p2_Ext p) = decode_at v2_extension_body (8 * v2_ext_start L bs) bs /\
    x_EIDArea (p2_Ext p) =
      map (fun k => bytes_at bs (v2_ext_start L bs + 40 + 32 * k) 32) (seq 0 (v2_eids L bs))
      ++ skipn (v2_eids L bs) (x_EIDArea (p2_Ext old))
  else p2_Ext p = p2_Ext old.

Definition v2_smcd_decoded (L : nat) (bs : list byte) (old p : ProposalV2) : Prop :=
  if has_smcd bs then
    smcdv2_extension_view (p2_SMCD p)
      = decode_at smcdv2_extension_body (8 * v2_smcd_start L bs) bs /\
    exists new, y_GIDArea (p2_SMCD p) = new ++ skipn (v2_gids L bs) (y_GIDArea (p2_SMCD old)) /\
      map gid_entry_view new
        = entries gid_entry_body (v2_smcd_start L bs + 48) 10 (v2_gids L bs) bs
  else p2_SMCD p = p2_SMCD old.

(** ** The fields of a message of fixed format are all there *)
Definition fields_present (k : clc_kind) (bs : list byte) : Prop :=
  (min_length k <= declared bs)%N /\ N.to_nat (min_length k) <= length bs /\
  match k with
  | KAcceptSMCDv2 | KConfirmSMCDv2 => declared bs = 114%N -> 114 <= length bs
  | _ => True
  end.

Definition is_smcdv2 (k : clc_kind) : bool :=
  match k with KAcceptSMCDv2 | KConfirmSMCDv2 => true | _ => false end.
