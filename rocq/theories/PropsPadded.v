(** * PropsPadded: texts of messages with text fields (C59).

    Vocabulary: as in PropsLossless.v and PropsWire.v; [decode (wire_layout k bs) bs] are all
    fields of a message, [whole] says that it consists of them.  Readable.v says which part of
    a text field can be read ([readable_fields]), that these parts contain no separators
    ([plain_texts]), and that the rest of these fields is filled with a byte ([filled]). *)

From Coq Require Import NArith Bool String Arith List Lia.
From Verif Require Import GoBase GoFmt ClcModel Samples Wire ClcView Names Show Lossless Sound Encode Readable.
From Verif Require TextPadded.
Import ListNotations.
Local Open Scope nat_scope.

(** ** C59 *)

(** all CLC messages: the texts determine the kind and the readable fields, and together with
    the filling of the text fields every byte *)
Theorem C59_clc : forall m m' k k' buf buf' logs logs' new new', slice_ok m buf -> slice_ok m' buf' ->
  let bs := s_bytes m buf in let bs' := s_bytes m' buf' in
  let vs := decode (wire_layout k bs) bs in let vs' := decode (wire_layout k' bs') bs' in
  whole k bs -> whole k' bs' -> of_kind k bs -> of_kind k' bs' -> eyecatchers bs -> eyecatchers bs' ->
  plain_texts vs -> plain_texts vs' ->
  Message_Parse m (fresh k) buf = (logs, Done new) -> Message_Parse m' (fresh k') buf' = (logs', Done new') ->
  (Message_Reserved new = Message_Reserved new' -> k = k' /\ readable_fields vs = readable_fields vs') /\
  (Message_String new = Message_String new' ->
   k = k' /\ named_fields (readable_fields vs) = named_fields (readable_fields vs')) /\
  (forall b, filled b vs -> filled b vs' -> Message_Reserved new = Message_Reserved new' -> bs = bs').
Proof. exact TextPadded.padded_parse. Qed.
Print Assumptions C59_clc.

(** with separators in text fields one text can stand for different messages *)
Theorem C59_separators_refuted : exists m m' buf new new', slice_ok m buf /\ slice_ok m' buf /\
  let bs := s_bytes m buf in let bs' := s_bytes m' buf in let k := KProposalV2 in
  let vs := decode (wire_layout k bs) bs in let vs' := decode (wire_layout k bs') bs' in
  whole k bs /\ whole k bs' /\ of_kind k bs /\ of_kind k bs' /\ eyecatchers bs /\ eyecatchers bs' /\
  filled x00 vs /\ filled x00 vs' /\
  Message_Parse m (fresh k) buf = ([], Done new) /\ Message_Parse m' (fresh k) buf = ([], Done new') /\
  readable_fields vs <> readable_fields vs' /\ Message_Reserved new = Message_Reserved new'.
Proof. exact TextPadded.separators_witness. Qed.
Print Assumptions C59_separators_refuted.

(** messages with text fields meet the hypotheses *)
Example C59_example_fce : (* an Accept with an EID and a host name *)
  let bs := sample_accept_d2_fce in let k := KAcceptSMCDv2 in let vs := decode (wire_layout k bs) bs in
  whole k bs /\ of_kind k bs /\ eyecatchers bs /\ plain_texts vs /\ filled x00 vs /\
  In ("Hostname"%string, VB (hexs "546869734973486f73746e616d653031")) (readable_fields vs) /\
  exists new, Message_Parse (mem1 bs) (fresh k) (slice1 bs) = ([], Done new).
Proof. exact TextPadded.padded_example_fce. Qed.

Example C59_example_proposal : (* a v2 Proposal with EID and SEID *)
  let bs := sample_prop2_6 in let k := KProposalV2 in let vs := decode (wire_layout k bs) bs in
  whole k bs /\ of_kind k bs /\ eyecatchers bs /\ plain_texts vs /\
  length (filter (fun v => is_text (fst v)) vs) = 2 /\
  exists new, Message_Parse (mem1 bs) (fresh k) (slice1 bs) = ([], Done new).
Proof. exact TextPadded.padded_example_proposal. Qed.
