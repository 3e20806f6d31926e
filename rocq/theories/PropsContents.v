(** * PropsContents: which CLC messages have the same text (C76).

    Vocabulary: as in PropsLossless.v, PropsPadded.v and PropsSound.v; Contents.v says which
    fields a sound message has ([contents]), wherever they are; bytes that belong to no field
    are not among them. *)

From Coq Require Import NArith Bool String Arith List Lia.
From Verif Require Import GoBase GoFmt ClcModel Samples Wire ClcView Names Show Lossless Sound Encode Readable Contents.
From Verif Require ContentsFacts.
Import ListNotations.
Local Open Scope nat_scope.

(** ** C76 *)

(** sound messages have the same Reserved() text exactly when they are of the same kind and
    their fields read the same, and the same String() text exactly when this holds for the
    fields that are not reserved *)
Theorem C76_clc : forall m m' k k' buf buf' logs logs' new new', slice_ok m buf -> slice_ok m' buf' ->
  let bs := s_bytes m buf in let bs' := s_bytes m' buf' in
  of_kind k bs -> of_kind k' bs' -> eyecatchers bs -> eyecatchers bs' ->
  N.to_nat (declared bs) = length bs -> N.to_nat (declared bs') = length bs' -> sound k bs -> sound k' bs' ->
  plain_texts (contents k bs) -> plain_texts (contents k' bs') ->
  Message_Parse m (fresh k) buf = (logs, Done new) -> Message_Parse m' (fresh k') buf' = (logs', Done new') ->
  (Message_Reserved new = Message_Reserved new' <->
   k = k' /\ readable_fields (contents k bs) = readable_fields (contents k' bs')) /\
  (Message_String new = Message_String new' <->
   k = k' /\ named_fields (readable_fields (contents k bs)) = named_fields (readable_fields (contents k' bs'))).
Proof. exact ContentsFacts.clc_same. Qed.
Print Assumptions C76_clc.

(** with separators in text fields one direction remains *)
Theorem C76_same_fields : forall m m' k buf buf' logs logs' new new', slice_ok m buf -> slice_ok m' buf' ->
  let bs := s_bytes m buf in let bs' := s_bytes m' buf' in
  of_kind k bs -> of_kind k bs' ->
  N.to_nat (declared bs) = length bs -> N.to_nat (declared bs') = length bs' -> sound k bs -> sound k bs' ->
  Message_Parse m (fresh k) buf = (logs, Done new) -> Message_Parse m' (fresh k) buf' = (logs', Done new') ->
  (readable_fields (contents k bs) = readable_fields (contents k bs') -> Message_Reserved new = Message_Reserved new') /\
  (named_fields (readable_fields (contents k bs)) = named_fields (readable_fields (contents k bs')) ->
   Message_String new = Message_String new').
Proof. exact ContentsFacts.clc_same_any. Qed.
Print Assumptions C76_same_fields.

(** the fields of a message without gaps are those that follow each other on the wire *)
Theorem C76_whole : forall k bs, whole k bs -> contents k bs = decode (wire_layout k bs) bs.
Proof. exact ContentsFacts.contents_whole. Qed.
Print Assumptions C76_whole.

(** the text of a sound message does not determine its bytes, even if it has no text fields *)
Theorem C76_bytes_refuted : exists m m' buf new new', slice_ok m buf /\ slice_ok m' buf /\
  let bs := s_bytes m buf in let bs' := s_bytes m' buf in let k := KProposal in
  of_kind k bs /\ of_kind k bs' /\ eyecatchers bs /\ eyecatchers bs' /\
  N.to_nat (declared bs) = length bs /\ N.to_nat (declared bs') = length bs' /\ sound k bs /\ sound k bs' /\
  plain_texts (contents k bs) /\ plain_texts (contents k bs') /\
  Message_Parse m (fresh k) buf = ([], Done new) /\ Message_Parse m' (fresh k) buf = ([], Done new') /\
  Message_Reserved new = Message_Reserved new' /\ bs <> bs'.
Proof. exact ContentsFacts.gap_witness. Qed.
Print Assumptions C76_bytes_refuted.

(** a message with a gap meets the hypotheses: an SMC-D v2 Accept of 80 bytes *)
Example C76_example_long :
  let bs := ContentsFacts.long_a in let k := KAcceptSMCDv2 in
  of_kind k bs /\ eyecatchers bs /\ N.to_nat (declared bs) = length bs /\ sound k bs /\ ~ whole k bs /\
  plain_texts (contents k bs) /\ In ("ISMv2 VCHID"%string, VN 291) (contents k bs) /\
  exists new, Message_Parse (mem1 bs) (fresh k) (slice1 bs) = ([], Done new).
Proof. exact ContentsFacts.long_example. Qed.

(** C76_bytes_refuted is an example of two different messages with the same fields; a message
    without gaps is C59_example_proposal *)
Example C76_example_whole : contents KProposal sample_proposal_6 = decode (wire_layout KProposal sample_proposal_6) sample_proposal_6 /\
  length (contents KProposal sample_proposal_6) = 18.
Proof. split; vm_compute; reflexivity. Qed.
