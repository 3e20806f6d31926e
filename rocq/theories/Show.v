(** * Show: the texts of messages. Specification only.

    A text is a title followed by items separated by commas.  What the items of a
    message are is given by a table of rows, which are matched with the fields of
    the message in wire order: a labelled field with the style of its value, a
    reserved field (shown by Reserved() only), or a group of fields in brackets.
    The tables refer to the fields only by position, so that they can be applied
    to [Wire.decode] of received bytes. *)

From Coq Require Import NArith Bool String Arith List.
From Verif Require Import GoBase GoFmt ClcModel LlcModel RoceModel Wire ClcView LlcView Names Opcodes.
Import ListNotations.
Local Open Scope string_scope.
Local Open Scope list_scope.
Local Open Scope nat_scope.

(** ** Values *)

Inductive style :=
| Dec | Hex | Bin | YesNo | Mac | Ip | Peer | Eye | Kind | Path | Text | Size | Mtu
| Diagnosis | OS | AddReason | DelReason | Op | Next.

(** the number of an 8-byte peer ID: the first two bytes *)
Definition peer_text (p : list byte) : string :=
  append (dec (BE (firstn 2 p))) (append "@" (mac_string (skipn 2 p))).

(** the readable part of a blank- or zero-padded text field *)
Fixpoint before_nul (e : list byte) : list byte :=
  match e with
  | [] => []
  | b :: r => if Byte.byte_eq_dec b x00 then [] else b :: before_nul r
  end.
Fixpoint drop_blanks (e : list byte) : list byte :=
  match e with
  | [] => []
  | b :: r => if Byte.byte_eq_dec b x20 then drop_blanks r else e
  end.
Definition padded_text (e : list byte) : string :=
  bytes_string (rev (drop_blanks (rev (before_nul e)))).

(** one of gopacket's protocol names is part of the GRH text *)
Definition next_text (proto_name : N -> string) (n : N) : string :=
  if (n =? 27)%N then "BTH" else proto_name n.

Definition show_number (pn : N -> string) (s : style) (n : N) : string :=
  match s with
  | Dec => dec n
  | Hex => hexN n
  | Bin => binN n
  | YesNo => if (n =? 0)%N then "false" else "true"
  | Kind => named (dec n) (type_text n)
  | Path => path_text n
  | Size => size_text n
  | Mtu => mtu_text n
  | Diagnosis => diagnosis_text n
  | OS => os_text n
  | AddReason => add_link_text n
  | DelReason => delete_link_text n
  | Op => nth (N.to_nat n) opcode_texts ""
  | Next => next_text pn n
  | _ => ""
  end.

Definition show_bytes (s : style) (bs : list byte) : string :=
  match s with
  | Hex => hexbytes bs
  | Mac => mac_string bs
  | Ip => ip_string bs
  | Peer => peer_text bs
  | Eye => eyecatcher_text bs
  | Text => padded_text bs
  | _ => ""
  end.

Definition show (pn : N -> string) (s : style) (v : val) : string :=
  match v with VN n => show_number pn s n | VB bs => show_bytes s bs end.

(** [n] bytes holding the number [x] *)
Fixpoint to_bytes (n : nat) (x : N) : list byte :=
  match n with
  | O => []
  | S n' => n2b (x / 256 ^ N.of_nat n') :: to_bytes n' x
  end.

(** ** Rows *)

Inductive row :=
| F (label : string) (s : style)          (* a field *)
| R                                       (* a reserved field *)
| Rb (n : nat)                            (* a reserved number, shown as [n] bytes *)
| Pre (label : string)                    (* an address and a prefix length: a/l *)
| G (label : string) (fs : list (string * style)). (* a group of fields *)

(** the fields of a group *)
Fixpoint group_items (pn : N -> string) (fs : list (string * style)) (vs : list (string * val))
  : list string :=
  match fs, vs with
  | (label, s) :: fs', (_, v) :: vs' => append label (show pn s v) :: group_items pn fs' vs'
  | _, _ => []
  end.

(** the items of a text; [res] tells whether reserved fields are shown *)
Fixpoint items (pn : N -> string) (res : bool) (t : list row) (vs : list (string * val))
  : list string :=
  match t, vs with
  | F label s :: t', (_, v) :: vs' => append label (show pn s v) :: items pn res t' vs'
  | R :: t', (_, v) :: vs' =>
    (if res then [append "Reserved: " (show pn Hex v)] else []) ++ items pn res t' vs'
  | Rb n :: t', (_, VN x) :: vs' =>
    (if res then [append "Reserved: " (hexbytes (to_bytes n x))] else []) ++ items pn res t' vs'
  | Pre label :: t', (_, a) :: (_, l) :: vs' =>
    append label (append (show pn Ip a) (append "/" (show pn Dec l))) :: items pn res t' vs'
  | G label fs :: t', vs =>
    append label (append "[" (append (String.concat ", " (group_items pn fs vs)) "]"))
    :: items pn res t' (skipn (length fs) vs)
  | _, _ => []
  end.

(** items separated by commas *)
Definition commas (l : list string) : string := String.concat ", " l.

(** ** LLC, CDC and RoCE: one line per message, ending in a newline *)

Definition base_rows : list row := [F "Type: " Dec; F "Length: " Dec].

Definition rmb_row (i : string) : row :=
  G (append "Other Link RMB " (append i ": "))
    [("Link: ", Dec); ("RKey: ", Dec); ("Virtual Address: ", Hex)].

Definition pair_row (i : string) : row :=
  G (append "RKey Pair " (append i ": "))
    [("Reference RKey: ", Dec); ("New RKey: ", Dec); ("New Virtual Address: ", Hex)].

Definition confirm_link_rows : list row :=
  base_rows ++
  [R; F "Reply: " YesNo; R; F "Sender MAC: " Mac; F "Sender GID: " Ip; F "Sender QP: " Dec;
   F "Link: " Dec; F "Sender Link UserID: " Dec; F "Max Links: " Dec; R].

Definition add_link_rows : list row :=
  base_rows ++
  [R; F "Reason Code: " AddReason; F "Reply: " YesNo; F "Rejection: " YesNo; R;
   F "Sender MAC: " Mac; R; F "Sender GID: " Ip; F "Sender QP: " Dec; F "Link: " Dec; R;
   F "MTU: " Mtu; F "Initial PSN: " Dec; R].

Definition add_link_cont_rows : list row :=
  base_rows ++
  [R; F "Reply: " YesNo; R; F "Link: " Dec; F "Number of RTokens: " Dec; R;
   pair_row "1"; pair_row "2"; R].

Definition delete_link_rows : list row :=
  base_rows ++
  [R; F "Reply: " YesNo; F "All: " YesNo; F "Orderly: " YesNo; R; F "Link: " Dec;
   F "Reason Code: " DelReason; R].

Definition confirm_rkey_rows : list row :=
  base_rows ++
  [R; F "Reply: " YesNo; R; F "Negative Response: " YesNo; F "Configuration Retry: " YesNo; R;
   F "Number of Tokens: " Dec; F "This RKey: " Dec; F "This VAddr: " Hex;
   rmb_row "1"; rmb_row "2"; R].

Definition confirm_rkey_cont_rows : list row :=
  base_rows ++
  [R; F "Reply: " YesNo; R; F "Negative Response: " YesNo; R; F "Number of Tokens: " Dec;
   rmb_row "1"; rmb_row "2"; rmb_row "3"; R].

Definition delete_rkey_rows : list row :=
  base_rows ++
  [R; F "Reply: " YesNo; R; F "Negative Response: " YesNo; R; F "Count: " Dec;
   F "Error Mask: " Bin; R;
   F "RKey 0: " Dec; F "RKey 1: " Dec; F "RKey 2: " Dec; F "RKey 3: " Dec;
   F "RKey 4: " Dec; F "RKey 5: " Dec; F "RKey 6: " Dec; F "RKey 7: " Dec; R].

(** no colon behind "Type" in this one *)
Definition test_link_rows : list row :=
  [F "Type " Dec; F "Length: " Dec; R; F "Reply: " YesNo; R; F "User Data: " Hex; R].

(** and none behind "Length" here *)
Definition cdc_rows : list row :=
  [F "Type: " Dec; F "Length " Dec; F "Sequence Number: " Dec; F "Alert Token: " Dec; R;
   F "Producer Wrap: " Dec; F "Producer Cursor: " Dec; R; F "Consumer Wrap: " Dec;
   F "Consumer Cursor: " Dec; F "Writer Blocked: " YesNo; F "Urgent Data Pending: " YesNo;
   F "Urgent Data Present: " YesNo; F "Request for Consumer Cursor Update: " YesNo;
   F "Failover Validation: " YesNo; R; F "Sending Done: " YesNo;
   F "Peer Connection Closed: " YesNo; F "Abnormal Close: " YesNo; Rb 19].

Definition llc_rows (k : llc_kind) : list row :=
  match k with
  | KConfirmLink => confirm_link_rows
  | KAddLink => add_link_rows
  | KAddLinkCont => add_link_cont_rows
  | KDeleteLink => delete_link_rows
  | KConfirmRKey => confirm_rkey_rows
  | KConfirmRKeyCont => confirm_rkey_cont_rows
  | KDeleteRKey => delete_rkey_rows
  | KTestLink => test_link_rows
  | KCDC => cdc_rows
  | KOther => []
  end.

Definition llc_title (k : llc_kind) : string :=
  match k with
  | KConfirmLink => "LLC Confirm Link: "
  | KAddLink => "LLC Add Link: "
  | KAddLinkCont => "LLC Add Link Continuation: "
  | KDeleteLink => "LLC Delete Link: "
  | KConfirmRKey => "LLC Confirm RKey: "
  | KConfirmRKeyCont => "LLC Confirm RKey Continuation: "
  | KDeleteRKey => "LLC Delete RKey: "
  | KTestLink => "LLC Test Link: "
  | KCDC => "CDC: "
  | KOther => "Other Payload"
  end.

(** nothing in LLC texts depends on gopacket *)
Definition no_proto : N -> string := fun _ => "".

Definition line (title : string) (l : list string) : string :=
  append title (append (commas l) line_end).

(** the text of an LLC or CDC message with the given fields *)
Definition llc_text (res : bool) (k : llc_kind) (fields : list (string * val)) : string :=
  line (llc_title k) (items no_proto res (llc_rows k) fields).

(** reserved fields of the BTH are called "Res" *)
Definition bth_rows : list row :=
  [F "OpCode: " Op; F "SE: " YesNo; F "M: " YesNo; F "Pad: " Dec; F "TVer: " Dec;
   F "PKey: " Dec; F "FECN: " YesNo; F "BECN: " YesNo; F "DestQP: " Dec; F "A: " YesNo;
   F "PSN: " Dec].
Definition bth_reserved_rows : list row :=
  [F "OpCode: " Op; F "SE: " YesNo; F "M: " YesNo; F "Pad: " Dec; F "TVer: " Dec;
   F "PKey: " Dec; F "FECN: " YesNo; F "BECN: " YesNo; F "Res: " Hex; F "DestQP: " Dec;
   F "A: " YesNo; F "Res: " Hex; F "PSN: " Dec].
Definition not_res (f : string * val) : bool := negb (String.eqb (fst f) "Res").

Definition bth_text (res : bool) (fields : list (string * val)) : string :=
  line "BTH: "
    (if res then items no_proto true bth_reserved_rows fields
     else items no_proto false bth_rows (filter not_res fields)).

Definition grh_rows : list row :=
  [F "Version: " Dec; F "Traffic Class: " Dec; F "Flow Label: " Dec; F "Length: " Dec;
   F "Next Header: " Next; F "Hop Limit: " Dec; F "Source: " Ip; F "Destination: " Ip].

Definition grh_text (pn : N -> string) (fields : list (string * val)) : string :=
  line "GRH: " (items pn false grh_rows fields).

(** ** CLC *)

(** the meaning of the flag bit *)
Definition flag_label (typ version path : N) : string :=
  (if typ =? 2 then "First Contact: "
   else if (typ =? 3) && (version =? 2) && (path =? 1) then "First Contact: "
   else if typ =? 4 then "Out of Sync: "
   else "Flag: ")%N%bool.

Definition header_rows (typ version path : N) : list row :=
  [F "Eyecatcher: " Eye; F "Type: " Kind; F "Length: " Dec; F "Version: " Dec;
   F (flag_label typ version path) Dec; R; F "Path: " Path].
Definition header_v2proposal_rows : list row :=
  [F "Eyecatcher: " Eye; F "Type: " Kind; F "Length: " Dec; F "Version: " Dec;
   F "Pathv2: " Path; F "Path: " Path].

Definition clc_items := items no_proto.

Definition header_items (res : bool) (h : Header) : list string :=
  if ((h_Type h =? 1) && (h_Version h =? 2))%N%bool
  then clc_items res header_v2proposal_rows (header_v2proposal_view h)
  else clc_items res (header_rows (h_Type h) (h_Version h) (h_Path h)) (header_view h).

Definition accept_smcr_rows : list row :=
  [F "Peer ID: " Peer; F "SMC-R GID: " Ip; F "RoCE MAC: " Mac; F "QP Number: " Dec;
   F "RMB RKey: " Dec; F "RMBE Index: " Dec; F "RMBE Alert Token: " Dec; F "RMBE Size: " Size;
   F "QP MTU: " Mtu; R; F "RMB Virtual Address: " Hex; R; F "Packet Sequence Number: " Dec].

Definition accept_smcd_rows : list row :=
  [F "SMC-D GID: " Dec; F "SMC-D Token: " Dec; F "DMBE Index: " Dec; F "DMBE Size: " Size;
   R; R; F "Link ID: " Dec; R].

Definition accept_smcdv2_rows : list row :=
  [F "SMC-D GID: " Dec; F "SMC-D Token: " Dec; F "DMBE Index: " Dec; F "DMBE Size: " Size;
   R; R; F "Link ID: " Dec; F "ISMv2 VCHID: " Dec; F "EID: " Text; R].

Definition fce_rows : list row :=
  [R; F "OS Type: " OS; F "Release: " Dec; R; F "Hostname: " Text].

Definition decline_rows : list row := [F "Peer ID: " Peer; F "Peer Diagnosis: " Diagnosis; R].
Definition declinev2_rows : list row :=
  [F "Peer ID: " Peer; F "Peer Diagnosis: " Diagnosis; F "OS Type: " OS; Rb 4].

Definition proposal_rows : list row :=
  [F "Peer ID: " Peer; F "SMC-R GID: " Ip; F "RoCE MAC: " Mac; F "IP Area Offset: " Dec].
Definition proposal_smcd_rows : list row := [F "SMC-D GID: " Dec; R].
Definition ip_area_rows : list row := [Pre "IPv4 Prefix: "; R; F "IPv6 Prefix Count: " Dec].
Definition ipv6_prefix_rows : list row := [Pre "IPv6 Prefix: "].

Definition proposalv2_rows : list row :=
  proposal_rows ++
  [F "SMC-D GID: " Dec; F "ISMv2 VCHID: " Dec; F "SMCv2 Extension Offset: " Dec; R].
Definition v2_extension_rows : list row :=
  [F "EID Number: " Dec; F "GID Number: " Dec; R; F "Release: " Dec; R;
   F "SEID Indicator: " Dec; R; F "SMC-Dv2 Extension Offset: " Dec; R].
Definition smcdv2_extension_rows : list row := [F "SEID: " Text; R].

(** the fields behind the header *)
Definition behind_header (vs : list (string * val)) : list (string * val) := skipn 7 vs.

Definition accept_smcr_items (res : bool) (a : AcceptSMCR) : list string :=
  clc_items res accept_smcr_rows (behind_header (accept_smcr_view a)).
Definition accept_smcd_items (res : bool) (a : AcceptSMCD) : list string :=
  clc_items res accept_smcd_rows (behind_header (accept_smcd_view a)).
(** a First Contact Extension is shown if the declared length has room for it *)
Definition accept_smcdv2_items (res : bool) (a : AcceptSMCDv2) : list string :=
  clc_items res accept_smcdv2_rows (behind_header (accept_smcdv2_view a)) ++
  (if (114 <=? h_Length (a2_Header a))%N then clc_items res fce_rows (fce_view a) else []).

Definition prefix_items (res : bool) (ps : list (list (string * val))) : list string :=
  concat (map (clc_items res ipv6_prefix_rows) ps).

Definition proposal_items (res : bool) (p : Proposal) : list string :=
  clc_items res proposal_rows (behind_header (proposal_view p)) ++
  (if (p_IPAreaOffset p =? 40)%N
   then clc_items res proposal_smcd_rows (proposal_smcd_view p) else []) ++
  clc_items res ip_area_rows (ip_area_view (p_IP p)) ++
  prefix_items res (map ipv6_prefix_view (i_IPv6Prefixes (p_IP p))).

(** the first [n] entries of an area, with their index *)
Definition eid_area (n : N) (area : list (list byte)) : string :=
  append "EID Area: [" (append (commas
    (map (fun ie => append "EID " (append (dec (N.of_nat (fst ie)))
                      (append ": " (padded_text (snd ie)))))
       (combine (seq 0 (N.to_nat n)) area))) "]").
Definition gid_area (n : N) (area : list (list (string * val))) : string :=
  append "GID Area: [" (append (commas
    (concat (map (fun ie =>
       let i := dec (N.of_nat (fst ie)) in
       clc_items false [F (append "GID " (append i ": ")) Dec;
                        F (append "VCHID " (append i ": ")) Dec] (snd ie))
       (combine (seq 0 (N.to_nat n)) area)))) "]").

(** the optional parts of a v2 Proposal depend on the two path fields *)
Definition proposalv2_items (res : bool) (p : ProposalV2) : list string :=
  let path := h_Path (p2_Header p) in
  let pathv2 := h_Pathv2 (p2_Header p) in
  let x := p2_Ext p in
  clc_items res proposalv2_rows (skipn 6 (proposalv2_view p)) ++
  (if (path =? 2)%N then []
   else clc_items res ip_area_rows (ip_area_view (p2_IP p)) ++
        prefix_items res (map ipv6_prefix_view (i_IPv6Prefixes (p2_IP p)))) ++
  (if (pathv2 =? 2)%N then []
   else clc_items res v2_extension_rows (v2_extension_view x) ++
        [eid_area (x_EIDNumber x) (x_EIDArea x)]) ++
  (if ((pathv2 =? 1) || (pathv2 =? 3))%N%bool
   then clc_items res smcdv2_extension_rows (smcdv2_extension_view (p2_SMCD p)) ++
        [gid_area (x_GIDNumber x) (map gid_entry_view (y_GIDArea (p2_SMCD p)))]
   else []).

Definition body_items (res : bool) (msg : Message) : list string :=
  match msg with
  | MProposal p => proposal_items res p
  | MProposalV2 p => proposalv2_items res p
  | MAcceptSMCR a => accept_smcr_items res a
  | MAcceptSMCD a => accept_smcd_items res a
  | MAcceptSMCDv2 a => accept_smcdv2_items res a
  | MConfirmSMCR c => accept_smcr_items res (cr_Accept c)
  | MConfirmSMCD c => accept_smcd_items res (cd_Accept c)
  | MConfirmSMCDv2 c => accept_smcdv2_items res (c2_Accept c)
  | MDecline d => clc_items res decline_rows (behind_header (decline_view d))
  | MDeclineV2 d => clc_items res declinev2_rows (behind_header (declinev2_view d))
  end.

Definition trailer_item (t : list byte) : string := append "Trailer: " (eyecatcher_text t).

(** the text of a CLC message *)
Definition clc_text (res : bool) (msg : Message) : string :=
  append (type_text (h_Type (header_of msg))) (append ": "
    (commas (header_items res (header_of msg) ++ body_items res msg
             ++ [trailer_item (trailer_of msg)]))).

(** size codes have four bits on the wire *)
Definition size_ok (msg : Message) : Prop :=
  match msg with
  | MAcceptSMCR a => (ar_RMBESize a < 16)%N
  | MAcceptSMCD a => (ad_DMBESize a < 16)%N
  | MAcceptSMCDv2 a => (a2_DMBESize a < 16)%N
  | MConfirmSMCR c => (ar_RMBESize (cr_Accept c) < 16)%N
  | MConfirmSMCD c => (ad_DMBESize (cd_Accept c) < 16)%N
  | MConfirmSMCDv2 c => (a2_DMBESize (c2_Accept c) < 16)%N
  | _ => True
  end.

(** ** Known deviations of the LLC texts *)

(** Add Link: Reserved() leaves out the two bytes behind the MAC and ends with all ten
    bytes of the Go array *)
Definition add_link_reserved_rows : list row :=
  base_rows ++
  [R; F "Reason Code: " AddReason; F "Reply: " YesNo; F "Rejection: " YesNo; R;
   F "Sender MAC: " Mac; F "Sender GID: " Ip; F "Sender QP: " Dec; F "Link: " Dec; R;
   F "MTU: " Mtu; F "Initial PSN: " Dec; R].
Definition add_link_reserved_fields (a : AddLink) : list (string * val) :=
  firstn 8 (add_link_view a) ++ firstn 6 (skipn 9 (add_link_view a)) ++ [("Reserved", VB (al_res4 a))].

(** Add Link Continuation: only the second pair appears *)
Definition add_link_cont_shown_rows : list row :=
  base_rows ++
  [R; F "Reply: " YesNo; R; F "Link: " Dec; F "Number of RTokens: " Dec; R; pair_row "2"; R].
Definition add_link_cont_shown_fields (a : AddLinkCont) : list (string * val) :=
  firstn 8 (add_link_cont_view a) ++ skipn 11 (add_link_cont_view a).

(** the kinds whose texts are complete *)
Definition text_complete (k : llc_kind) : bool :=
  match k with KAddLink | KAddLinkCont => false | _ => true end.

(** ** The text of a CLC message in terms of the received bytes *)

Definition bytes_header_items (res : bool) (bs : list byte) : list string :=
  if ((msg_type bs =? 1) && (msg_version bs =? 2))%N%bool
  then clc_items res header_v2proposal_rows (decode clc_header_v2proposal bs)
  else clc_items res (header_rows (msg_type bs) (msg_version bs) (msg_path bs)) (decode clc_header bs).

Definition bytes_text (res : bool) (bs : list byte) (body : list string) : string :=
  append (type_text (msg_type bs)) (append ": "
    (commas (bytes_header_items res bs ++ body ++ [trailer_item (last4 bs)]))).

Definition fixed_layout (k : clc_kind) : layout :=
  match k with
  | KAcceptSMCR | KConfirmSMCR => accept_smcr_body
  | KAcceptSMCD | KConfirmSMCD => accept_smcd_body
  | KAcceptSMCDv2 | KConfirmSMCDv2 => accept_smcdv2_body
  | KDecline => decline_body
  | KDeclineV2 => declinev2_body
  | KProposal | KProposalV2 => []
  end.

Definition fixed_rows (k : clc_kind) : list row :=
  match k with
  | KAcceptSMCR | KConfirmSMCR => accept_smcr_rows
  | KAcceptSMCD | KConfirmSMCD => accept_smcd_rows
  | KAcceptSMCDv2 | KConfirmSMCDv2 => accept_smcdv2_rows
  | KDecline => decline_rows
  | KDeclineV2 => declinev2_rows
  | KProposal | KProposalV2 => []
  end.

(** Accept, Confirm and Decline; only an SMC-D v2 message of exactly 114 bytes has an FCE *)
Definition fixed_text (res : bool) (k : clc_kind) (bs : list byte) : string :=
  bytes_text res bs
    (clc_items res (fixed_rows k) (decode_at (fixed_layout k) 64 bs) ++
     (if (is_smcdv2 k && (declared bs =? 114)%N)%bool
      then clc_items res fce_rows (decode_at fce_body (8 * 74) bs) else [])).

(** v1 Proposal *)
Definition proposal_text (res : bool) (bs : list byte) : string :=
  let L := N.to_nat (declared bs) in
  let start := ip_area_start bs in
  bytes_text res bs
    (clc_items res proposal_rows (decode_at proposal_body 64 bs) ++
     (if (ip_area_offset bs =? 40)%N
      then clc_items res proposal_smcd_rows (decode_at proposal_smcd_body (8 * 40) bs) else []) ++
     clc_items res ip_area_rows (decode_at ip_area_body (8 * start) bs) ++
     prefix_items res (entries ipv6_prefix_body (start + 8) 17
       (fitting L (start + 8) 17 (prefix_count bs start)) bs)).

(** v2 Proposal.  Entries of the EID and GID areas that are announced but not contained in
    the message are shown as empty EIDs and zero GIDs. *)
Definition proposalv2_text (res : bool) (bs : list byte) : string :=
  let L := N.to_nat (declared bs) in
  let ext := v2_ext_start L bs in
  let smcd := v2_smcd_start L bs in
  bytes_text res bs
    (clc_items res proposalv2_rows (decode_at proposalv2_body 64 bs) ++
     (if has_ip bs then
        clc_items res ip_area_rows (decode_at ip_area_body (8 * 80) bs) ++
        prefix_items res (entries ipv6_prefix_body 88 17 (v2_prefixes L bs) bs)
      else []) ++
     (if has_ext bs then
        clc_items res v2_extension_rows (decode_at v2_extension_body (8 * ext) bs) ++
        [eid_area (N.of_nat (v2_eid_count L bs))
           (map (fun k => bytes_at bs (ext + 40 + 32 * k) 32) (seq 0 (v2_eids L bs))
            ++ repeat (zeros 32) (8 - v2_eids L bs))]
      else []) ++
     (if has_smcd bs then
        clc_items res smcdv2_extension_rows (decode_at smcdv2_extension_body (8 * smcd) bs) ++
        [gid_area (N.of_nat (v2_gid_count L bs))
           (entries gid_entry_body (smcd + 48) 10 (v2_gids L bs) bs
            ++ repeat [("GID", VN 0); ("VCHID", VN 0)] (8 - v2_gids L bs))]
      else [])).

(** the First Contact Extension fields held by an SMC-D v2 object *)
Definition fce_of (msg : Message) : list (string * val) :=
  match msg with
  | MAcceptSMCDv2 a => fce_view a
  | MConfirmSMCDv2 c => fce_view (c2_Accept c)
  | _ => []
  end.

(** the text of an SMC-D v2 message with the given FCE fields, or none *)
Definition smcdv2_text (res : bool) (bs : list byte) (fce : option (list (string * val))) : string :=
  bytes_text res bs
    (clc_items res accept_smcdv2_rows (decode_at accept_smcdv2_body 64 bs) ++
     match fce with Some vs => clc_items res fce_rows vs | None => [] end).

(** [sub] occurs in [s] *)
Definition shows (s sub : string) : Prop := exists a b, s = append a (append sub b).
