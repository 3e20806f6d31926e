(** * PropsLossless: texts stand for one message only (C54).

    Vocabulary: as in PropsClc.v, PropsLlc.v and PropsText.v.  Lossless.v says when a CLC
    message fills its buffer ([exact]), when header values fit a kind ([of_kind]), that both
    eyecatchers are known ([eyecatchers]) and which fields are not reserved
    ([named_fields]). *)

From Coq Require Import NArith Bool String Arith List Lia.
From Verif Require Import GoBase GoFmt ClcModel LlcModel RoceModel Samples Wire ClcView LlcView Names Show Lossless.
From Verif Require TextLossless LlcExamples.
Import ListNotations.
Local Open Scope nat_scope.

(** ** C54 *)

(** CLC: two messages with the same Reserved() text are the same bytes, two messages with
    the same String() text agree in kind and in all fields that are not reserved *)
Theorem C54_clc : forall m m' old old' buf buf' logs logs' new new',
  slice_ok m buf -> slice_ok m' buf' -> reachable old -> reachable old' ->
  let bs := s_bytes m buf in let bs' := s_bytes m' buf' in
  let k := kind_of old in let k' := kind_of old' in
  exact k bs -> exact k' bs' -> of_kind k bs -> of_kind k' bs' -> eyecatchers bs -> eyecatchers bs' ->
  (k = KProposal -> old = fresh KProposal) -> (k' = KProposal -> old' = fresh KProposal) ->
  Message_Parse m old buf = (logs, Done new) -> Message_Parse m' old' buf' = (logs', Done new') ->
  (Message_Reserved new = Message_Reserved new' -> bs = bs') /\
  (Message_String new = Message_String new' ->
   k = k' /\ named_fields (decode (whole_layout k bs) bs) = named_fields (decode (whole_layout k' bs') bs')).
Proof. exact TextLossless.parse_lossless. Qed.
Print Assumptions C54_clc.

(** LLC and CDC *)
Theorem C54_llc : forall m m' buf buf' msg msg', slice_ok m buf -> slice_ok m' buf' ->
  let bs := s_bytes m buf in let bs' := s_bytes m' buf' in
  let k := kind_of_type (bits bs 0 8) in let k' := kind_of_type (bits bs' 0 8) in
  length bs = 44 -> length bs' = 44 -> text_complete k = true -> text_complete k' = true -> k <> KOther ->
  ParseLLC m buf = ([], Done msg) -> ParseLLC m' buf' = ([], Done msg') ->
  (LLC_Reserved msg = LLC_Reserved msg' -> bs = bs') /\
  (LLC_String msg = LLC_String msg' ->
   k = k' /\ named_fields (decode (llc_layout k) bs) = named_fields (decode (llc_layout k') bs')).
Proof. exact TextLossless.llc_parse_lossless. Qed.
Print Assumptions C54_llc.

(** BTH *)
Theorem C54_bth : forall m m' old old' buf buf' b b', slice_ok m buf -> slice_ok m' buf' ->
  let bs := s_bytes m buf in let bs' := s_bytes m' buf' in
  length bs = 12 -> length bs' = 12 ->
  BTH_Parse m old buf = ([], Done b) -> BTH_Parse m' old' buf' = ([], Done b') ->
  BTH_Reserved b = BTH_Reserved b' -> bs = bs'.
Proof. exact TextLossless.bth_parse_lossless. Qed.
Print Assumptions C54_bth.

(** not so for the text fields of SMC-D v2 messages: bytes behind a NUL are not shown *)
Theorem C54_smcdv2_refuted : exists m1 m2 buf new1 new2, slice_ok m1 buf /\ slice_ok m2 buf /\
  of_kind KAcceptSMCDv2 (s_bytes m1 buf) /\ of_kind KAcceptSMCDv2 (s_bytes m2 buf) /\
  eyecatchers (s_bytes m1 buf) /\ eyecatchers (s_bytes m2 buf) /\
  Message_Parse m1 (fresh KAcceptSMCDv2) buf = ([], Done new1) /\
  Message_Parse m2 (fresh KAcceptSMCDv2) buf = ([], Done new2) /\
  s_bytes m1 buf <> s_bytes m2 buf /\ Message_Reserved new1 = Message_Reserved new2.
Proof. exact TextLossless.hidden_witness. Qed.
Print Assumptions C54_smcdv2_refuted.

(** messages of all kinds meet the hypotheses *)
Example C54_example_clc :
  Forall (fun kb => let '(k, bs) := kb in
      exact k bs /\ of_kind k bs /\ eyecatchers bs /\
      exists logs new, Message_Parse (mem1 bs) (fresh k) (slice1 bs) = (logs, Done new))
    [(KAcceptSMCR, sample_accept_r); (KConfirmSMCR, sample_confirm_r); (KAcceptSMCD, sample_accept_d);
     (KConfirmSMCD, sample_confirm_d); (KDecline, sample_decline); (KDeclineV2, sample_decline2);
     (KProposal, sample_proposal); (KProposal, sample_proposal_d); (KProposal, sample_proposal_b6)].
Proof.
  repeat (apply Forall_cons; [split; [vm_compute; repeat (split || reflexivity || (left; reflexivity) || (right; reflexivity))|
    split; [vm_compute; constructor; discriminate|split; [split; vm_compute; reflexivity|do 2 eexists; vm_compute; reflexivity]]]|]).
  constructor.
Qed.

(** the whole layout of a Proposal with an SMC-D part and IPv6 prefixes *)
Example C54_example_layout : 
  let bs := sample_proposal_b6 in
  prefix_count bs (ip_area_start bs) = 1 /\ ip_area_offset bs = 40%N /\
  layout_bits (whole_layout KProposal bs) = 8 * length bs /\
  length (named_fields (decode (whole_layout KProposal bs) bs)) = 17.
Proof. vm_compute. repeat split. Qed.

Example C54_example_llc :
  let bs := LlcExamples.sample_confirm_link in
  let k := kind_of_type (bits bs 0 8) in
  length bs = 44 /\ text_complete k = true /\ k <> KOther /\
  (exists msg, ParseLLC (mem1 bs) (slice1 bs) = ([], Done msg)) /\
  length LlcExamples.sample_bth = 12 /\
  (exists b, BTH_Parse (mem1 LlcExamples.sample_bth) BTH_zero (slice1 LlcExamples.sample_bth) = ([], Done b)).
Proof. vm_compute. repeat split; try discriminate; eexists; reflexivity. Qed.
