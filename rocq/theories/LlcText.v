(** * LlcText: the texts of LLC, CDC and RoCE messages. Proofs only. *)

From Coq Require Import NArith ZArith Bool String Ascii Arith List Lia.
From Coq Require Import ZifyBool ZifyNat ZifyN.
From Verif Require Import GoBase GoFmt ClcModel LlcModel RoceModel Slices Wire WireLemmas ClcView LlcView
  ClcParse LlcParse LlcMessage RoceParse Dumps RoceText Names Opcodes Show TextLemmas.
Import ListNotations.
Local Open Scope nat_scope.

(** bring a concatenation of texts into right-associated form *)
Ltac flat :=
  unfold cat, line, commas; cbn [String.concat append List.app]; rewrite ?append_assoc_s, ?append_nil_r;
  repeat (progress (cbn [append]; rewrite ?append_assoc_s, ?append_nil_r)).

Ltac rows :=
  cbn [items group_items show show_number show_bytes List.app List.length skipn List.concat map combine fst snd
    ck_OtherRMBs cc_OtherRMBs dk_rkeys ac_RKeyPairs].

Lemma ConfirmLink_text c :
  ConfirmLink_String c = llc_text false KConfirmLink (confirm_link_view c) /\
  ConfirmLink_Reserved c = llc_text true KConfirmLink (confirm_link_view c).
Proof.
  unfold llc_text, confirm_link_view, ConfirmLink_String, ConfirmLink_Reserved, llc_title, llc_rows,
    confirm_link_rows, base_rows.
  rows. rewrite !tf_bit.
  split; flat; reflexivity.
Qed.

Lemma DeleteLink_text c : 
  DeleteLink_String c = llc_text false KDeleteLink (delete_link_view c) /\
  DeleteLink_Reserved c = llc_text true KDeleteLink (delete_link_view c).
Proof.
  unfold llc_text, delete_link_view, DeleteLink_String, DeleteLink_Reserved, llc_title, llc_rows, delete_link_rows, base_rows.
  rows. rewrite ?tf_bit, ?DelLinkRsn_text.
  split; flat; reflexivity.
Qed.

Lemma ConfirmRKey_text c : length (ck_OtherRMBs c) = 2 ->
  ConfirmRKey_String c = llc_text false KConfirmRKey (confirm_rkey_view c) /\
  ConfirmRKey_Reserved c = llc_text true KConfirmRKey (confirm_rkey_view c).
Proof.
  intros H. destruct c as [? ? ? ? ? ? ? ? ? ? [|p1 [|p2 [|]]] ?]; try discriminate H. clear H.
  unfold llc_text, confirm_rkey_view, ConfirmRKey_String, ConfirmRKey_Reserved, llc_title, llc_rows, confirm_rkey_rows, base_rows, rmb_row, rmb_spec_view, RMBSpec_String.
  rows. cbn [others_string others_reserved ck_OtherRMBs Nat.add N.of_nat]. unfold RMBSpec_String. rewrite ?tf_bit.
  split; flat; reflexivity.
Qed.

Lemma ConfirmRKeyCont_text c : length (cc_OtherRMBs c) = 3 ->
  ConfirmRKeyCont_String c = llc_text false KConfirmRKeyCont (confirm_rkey_cont_view c) /\
  ConfirmRKeyCont_Reserved c = llc_text true KConfirmRKeyCont (confirm_rkey_cont_view c).
Proof.
  intros H. destruct c as [? ? ? ? ? ? ? [|p1 [|p2 [|p3 [|]]]] ?]; try discriminate H. clear H.
  unfold llc_text, confirm_rkey_cont_view, ConfirmRKeyCont_String, ConfirmRKeyCont_Reserved, llc_title, llc_rows, confirm_rkey_cont_rows, base_rows, rmb_row, rmb_spec_view, RMBSpec_String.
  rows. cbn [others_string others_reserved cc_OtherRMBs Nat.add N.of_nat]. unfold RMBSpec_String. rewrite ?tf_bit.
  split; flat; reflexivity.
Qed.

Lemma deleteRKey_text c : length (dk_rkeys c) = 8 ->
  deleteRKey_String c = llc_text false KDeleteRKey (delete_rkey_view c) /\
  deleteRKey_Reserved c = llc_text true KDeleteRKey (delete_rkey_view c).
Proof.
  intros H. destruct c as [? ? ? ? ? ? ? ? ? ks ?]; cbn [dk_rkeys] in H.
  do 8 (destruct ks as [|? ks]; try discriminate H). destruct ks; try discriminate H. clear H.
  unfold llc_text, delete_rkey_view, deleteRKey_String, deleteRKey_Reserved, llc_title, llc_rows, delete_rkey_rows, base_rows.
  rows. cbn [rkeys_string rkeys_reserved dk_rkeys]. rewrite ?tf_bit.
  split; flat; reflexivity.
Qed.

Lemma TestLink_text c : 
  TestLink_String c = llc_text false KTestLink (test_link_view c) /\
  TestLink_Reserved c = llc_text true KTestLink (test_link_view c).
Proof.
  unfold llc_text, test_link_view, TestLink_String, TestLink_Reserved, llc_title, llc_rows, test_link_rows.
  rows. rewrite ?tf_bit.
  split; flat; reflexivity.
Qed.

Lemma CDC_text c : length (c_res4 c) = 19 ->
  CDC_String c = llc_text false KCDC (cdc_view c) /\
  CDC_Reserved c = llc_text true KCDC (cdc_view c).
Proof.
  intros H. unfold llc_text, cdc_view, CDC_String, CDC_Reserved, llc_title, llc_rows, cdc_rows.
  rows. rewrite ?tf_bit. rewrite <- H, to_bytes_BE.
  split; flat; reflexivity.
Qed.

Lemma AddLink_text a :
  AddLink_String a = llc_text false KAddLink (add_link_view a) /\
  AddLink_Reserved a = line (llc_title KAddLink)
    (items no_proto true add_link_reserved_rows (add_link_reserved_fields a)).
Proof.
  unfold llc_text, add_link_reserved_fields, add_link_reserved_rows, add_link_view, AddLink_String,
    AddLink_Reserved, llc_title, llc_rows, add_link_rows, base_rows.
  cbn [firstn skipn].
  rows. rewrite ?tf_bit, ?AddLinkRsn_text, ?llc_QPMTU_text.
  split; flat; reflexivity.
Qed.

Lemma AddLinkCont_text a : length (ac_RKeyPairs a) = 2 ->
  AddLinkCont_String a = line (llc_title KAddLinkCont)
    (items no_proto false add_link_cont_shown_rows (add_link_cont_shown_fields a)) /\
  AddLinkCont_Reserved a = line (llc_title KAddLinkCont)
    (items no_proto true add_link_cont_shown_rows (add_link_cont_shown_fields a)).
Proof.
  intros H. destruct a as [? ? ? ? ? ? ? [|p1 [|p2 [|]]] ?]; try discriminate H. clear H.
  unfold add_link_cont_shown_fields, add_link_cont_shown_rows, add_link_cont_view, AddLinkCont_String,
    AddLinkCont_Reserved, llc_title, base_rows, pair_row, rkey_pair_view.
  cbn [firstn skipn List.app List.concat map combine fst snd ac_RKeyPairs].
  rows. cbn [pairs_string pairs_reserved ac_RKeyPairs]. unfold RKeyPair_String. rewrite ?tf_bit.
  split; flat; reflexivity.
Qed.

Lemma BTH_text b : (bth_Opcode b < 256)%N ->
  BTH_String b = bth_text false (bth_view b) /\ BTH_Reserved b = bth_text true (bth_view b).
Proof.
  intros H. unfold bth_text, bth_view, BTH_String, BTH_Reserved, bth_rows, bth_reserved_rows.
  cbn [filter not_res fst String.eqb Ascii.eqb Bool.eqb negb].
  rows. rewrite ?tf_bit, ?(opcode_text _ H).
  split; flat; reflexivity.
Qed.

Lemma GRH_text pn g :
  GRH_String pn g = grh_text pn (grh_view g) /\ GRH_Reserved pn g = grh_text pn (grh_view g).
Proof.
  assert (E : GRH_String pn g = grh_text pn (grh_view g)).
  { unfold grh_text, grh_view, GRH_String, grh_rows, next_text, BTHNextHeader.
    rows. unfold next_text.
    change 27%N with 0x1b%N. destruct (grh_NextHeader g =? 0x1b)%N; cbn [negb]; flat; reflexivity. }
  split; exact E.
Qed.
