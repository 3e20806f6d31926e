(** * Crash: everything that a panicking Parse does. Specification only.

    With [accepted] (Accepted.v), which describes the runs of Parse that return, this makes the
    description of Parse complete.  As in Spare.v, [back] are the bytes of a buffer up to its
    capacity, [n] is its length; [L] is the declared length of the message. *)

From Coq Require Import NArith Bool String Arith List.
From Verif Require Import GoBase ClcModel LlcModel RoceModel Wire ClcView LlcView Partial Recover Areas
  Accepted Spare.
Import ListNotations.
Local Open Scope string_scope.
Local Open Scope list_scope.
Local Open Scope nat_scope.

(** ** Header *)

(** the second half of the last byte has two names: reserved bits and the path of SMC version 2 *)
Definition header_left (back : list byte) (n : nat) (old new : Header) : Prop :=
  header_view new = left_fields moves_never clc_header back n (header_view old) /\
  h_Pathv2 new = if n <? 8 then h_Pathv2 old else msg_pathv2 back.

(** ** Log output *)

(** An error is logged in two lines, and the second is a dump of the bytes up to the declared
    length.  If that is behind the capacity, then Parse panics between the two lines. *)

Definition v1_last_words (L : nat) (back : list byte) (n : nat) : list string :=
  let cap := length back in
  let start := ip_area_start back in
  if (cap <? 40) || ((ip_area_offset back =? 40)%N && (cap <? 80)) then []
  else if L <? start + 12 then ["Error parsing CLC Proposal: IP Area Offset too big"]
  else if n <? start + 8 + 17 * fitting L (start + 8) 17 (prefix_count back start) then []
  else ["Error parsing CLC Proposal: IPv6 prefix count too big"].

Definition smcd_last_words (L : nat) (back : list byte) : list string :=
  let start := v2_smcd_start L back in
  if L <? start + 52 then ["Error parsing CLC Proposal v2: Not enough space for SMC-D v2 Extension"]
  else if (length back <? start + 48 + 10 * v2_gids L back) || (8 <? v2_gids L back) then []
  else ["Error parsing CLC Proposal v2: GID number too big"].

Definition ext_last_words (L : nat) (back : list byte) (n : nat) : list string :=
  let start := v2_ext_start L back in
  if L <? start + 44 then ["Error parsing CLC Proposal v2: Not enough space for Proposal v2 Extension"]
  else if (n <? start + 4) || (length back <? v2_smcd_start L back) || (8 <? v2_eids L back) then []
  else if (v2_eids L back <? v2_eid_count L back) && (length back <? L) then
    ["Error parsing CLC Proposal v2: EID number too big"]
  else v2_eid_log L back ++ smcd_last_words L back.

Definition v2_last_words (L : nat) (back : list byte) (n : nat) : list string :=
  if length back <? 80 then []
  else if has_ip back then
    if L <? 92 then ["Error parsing CLC Proposal v2: IP Area Offset too big"]
    else if n <? v2_ext_start L back then []
    else if (v2_prefixes L back <? prefix_count back 80) && (length back <? L) then
      ["Error parsing CLC Proposal v2: IPv6 prefix count too big"]
    else v2_prefix_log L back ++ ext_last_words L back n
  else ext_last_words L back n.

(** what is logged by a [Parse(buf)] that panics *)
Definition last_words (k : clc_kind) (m : mem) (buf : slice) : list string :=
  let bs := s_bytes m buf in
  let back := reach m buf in
  let L := N.to_nat (declared bs) in
  if length bs <? 8 then []
  else if gives_up k bs then [too_short_line k (msg_type bs)]
  else
    match k with
    | KProposal => v1_last_words L back (length bs)
    | KProposalV2 => v2_last_words L back (length bs)
    | _ => []
    end.

(** ** Everything *)

(** [old] became [new], and [logs] was logged, in a [Parse(buf)] that panicked *)
Definition crashed (m : mem) (buf : slice) (old : Message) (logs : list string) (new : Message) : Prop :=
  logs = last_words (kind_of old) m buf /\
  left_behind m buf old new /\
  header_left (reach m buf) (s_len buf) (header_of old) (header_of new) /\
  match old, new with
  | MProposal o, MProposal p => v1_after (reach m buf) (s_len buf) o p
  | MProposalV2 o, MProposalV2 p => v2_after (reach m buf) (s_len buf) o p
  | MAcceptSMCR _, MAcceptSMCR _ | MAcceptSMCD _, MAcceptSMCD _
  | MAcceptSMCDv2 _, MAcceptSMCDv2 _ | MConfirmSMCR _, MConfirmSMCR _
  | MConfirmSMCD _, MConfirmSMCD _ | MConfirmSMCDv2 _, MConfirmSMCDv2 _
  | MDeclineV2 _, MDeclineV2 _ => True
  | MDecline o, MDecline d => d_OSType d = d_OSType o
  | _, _ => False
  end.

(** the copy of the buffer that an LLC object keeps *)
Definition llc_raw_of (msg : LLCMessage) : list byte :=
  b_Raw match msg with
        | LConfirm c => cl_Base c
        | LAddLink a => al_Base a
        | LAddLinkCont a => ac_Base a
        | LDeleteLink d => dl_Base d
        | LConfirmRKey c => ck_Base c
        | LConfirmRKeyCont c => cc_Base c
        | LDeleteRKey d => dk_Base d
        | LTestLink t => tl_Base t
        | LCDC c => c_Base c
        | LOther o => o_Base o
        end.

(** ** When Parse panics *)

Definition v1_panics (L : nat) (back : list byte) (n : nat) : Prop :=
  let cap := length back in
  let start := ip_area_start back in
  let cnt := prefix_count back start in
  let c := fitting L (start + 8) 17 cnt in
  cap < 40 \/ (ip_area_offset back = 40%N /\ cap < 80) \/
  if L <? start + 12 then cap < L
  else n < start + 8 + 17 * c \/ (c < cnt /\ cap < L).

Definition v2_panics (L : nat) (back : list byte) (n : nat) : Prop :=
  let cap := length back in
  let np := v2_prefixes L back in
  let es := v2_ext_start L back in
  let ne := v2_eids L back in
  let ss := v2_smcd_start L back in
  let ng := v2_gids L back in
  cap < 80 \/
  (has_ip back = true /\
   if L <? 92 then cap < L else n < es \/ (np < prefix_count back 80 /\ cap < L)) \/
  (v2_ip_room L back /\ has_ext back = true /\
   if L <? es + 44 then cap < L
   else n < es + 4 \/ cap < ss \/ 8 < ne \/ (ne < v2_eid_count L back /\ cap < L)) \/
  (v2_ip_room L back /\ v2_ext_room L back /\ has_smcd back = true /\
   if L <? ss + 52 then cap < L
   else cap < ss + 48 + 10 * ng \/ 8 < ng \/ (ng < v2_gid_count L back /\ cap < L)).

Definition panics (k : clc_kind) (m : mem) (buf : slice) : Prop :=
  let bs := s_bytes m buf in
  let back := reach m buf in
  let L := N.to_nat (declared bs) in
  match k with
  | KProposal | KProposalV2 =>
    length bs < 8 \/
    if gives_up k bs then length back < L
    else match k with
         | KProposal => v1_panics L back (length bs)
         | _ => v2_panics L back (length bs)
         end
  | _ => fixed_panics k L (length bs) (length back)
  end.

(** ** Parse *)

(** all that [Parse(buf)] can do with the object [old]: log [logs], end as [o] says, and make
    the object [new] *)
Definition parses (m : mem) (buf : slice) (old : Message) (logs : list string) (o : outcome unit)
    (new : Message) : Prop :=
  match o with
  | Done _ => ~ panics (kind_of old) m buf /\ message_wf new /\ accepted m buf old logs new
  | Panicked => panics (kind_of old) m buf /\ crashed m buf old logs new
  | Exited => False
  end.

(** the last two bytes of the reserved array of Add Link, for which its format has no room *)
Definition unsent (msg : LLCMessage) : list byte :=
  match msg with LAddLink a => skipn 8 (al_res4 a) | _ => [] end.

(** the same for LLC messages *)
Definition llc_parses (m : mem) (buf : slice) (old : LLCMessage) (logs : list string) (o : outcome unit)
    (new : LLCMessage) : Prop :=
  let bs := s_bytes m buf in
  let k := llc_kind_of old in
  logs = [] /\ llc_kind_of new = k /\ llc_wf new /\ llc_raw_of new = bs /\
  match o with
  | Done _ =>
    llc_min k <= length bs /\ llc_view new = decode (llc_layout k) (completed old bs) /\
    match new with
    | LAddLink _ => unsent new = firstn 2 (skipn 44 bs ++ skipn (length bs - 44) (unsent old))
    | LOther x => b_Type (o_Base x) = 257%N /\ b_Length (o_Base x) = N.of_nat (length bs)
    | _ => True
    end
  | Panicked =>
    length bs < llc_min k /\
    llc_view new = left_fields (llc_joined k) (llc_layout k) (reach m buf) (length bs) (llc_view old) /\
    unsent new = unsent old
  | Exited => False
  end.

(** the same for the base transport header *)
Definition bth_parses (m : mem) (buf : slice) (old : BTH) (logs : list string) (o : outcome unit) (new : BTH)
  : Prop :=
  let bs := s_bytes m buf in
  logs = [] /\ bth_Raw new = bs /\
  match o with
  | Done _ => 12 <= length bs /\ bth_view new = decode bth bs
  | Panicked =>
    length bs < 12 /\ bth_view new = left_fields moves_always bth (reach m buf) (length bs) (bth_view old)
  | Exited => False
  end.
