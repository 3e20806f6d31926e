(** * LlcDecode: the LLC/CDC parsers against the wire specification. Proofs only. *)

From Coq Require Import NArith ZArith Bool String Arith List Lia.
From Coq Require Import ZifyBool ZifyNat ZifyN.
From Verif Require Import GoBase GoFmt ClcModel LlcModel RoceModel Slices Wire WireLemmas ClcView LlcView Steps
  ClcParse ClcFixed LlcParse.
Import ListNotations.
Local Open Scope nat_scope.

Lemma tail_full bs o old n : length old = n -> o + n <= length bs -> tail bs o old = seg bs o n.
Proof.
  intros <- H. unfold tail, go_copy. rewrite (skipn_all2 old), app_nil_r; [reflexivity|].
  rewrite skipn_length. lia.
Qed.

(** what is left of the old content when the bytes do not fill the array *)
Lemma tail_part bs o old : length bs <= o + length old ->
  tail bs o old = skipn o bs ++ skipn (length bs - o) old.
Proof.
  intros H. unfold tail, go_copy. rewrite skipn_length.
  rewrite (firstn_all2 (skipn o bs)) by (rewrite skipn_length; lia). reflexivity.
Qed.

Lemma tail_length bs o old : length (tail bs o old) = length old.
Proof. unfold tail, go_copy. rewrite app_length, firstn_length, !skipn_length. lia. Qed.

Lemma land31 b : b2n (n2b (N.land (b2n b) 31)) = (b2n b mod 32)%N.
Proof. byte_sweep b. Qed.

Lemma cdc_tail_bits bs : 44 <= length bs ->
  BE (n2b (mk bs 25 31) :: seg bs 26 18) = bits bs 203 149.
Proof.
  intros H. change 203 with (8 * 25 + 3). rewrite (bits_seg bs 25 19) by lia.
  rewrite (seg_S bs 25 18 x00) by lia. unfold mk, bn. generalize (nth 25 bs x00). intros b.
  assert (Hr : length (seg bs 26 18) = 18) by (apply seg_length; lia).
  revert Hr. generalize (seg bs 26 18). intros r Hr.
  rewrite bits_div by (cbn [length]; lia). cbn [BE length]. rewrite Hr, land31.
  replace (8 * 19 - 3 - 149) with 0 by reflexivity. change (N.of_nat 0) with 0%N. rewrite N.pow_0_r, N.div_1_r.
  pose proof (BE_lt r) as Hlt. rewrite Hr in Hlt.
  change (N.of_nat 18) with 18%N in *. change (N.of_nat 149) with 149%N.
  change (256 ^ 18)%N with (2 ^ 144)%N in *.
  change (2 ^ 149)%N with (2 ^ 144 * 32)%N.
  set (P := (2 ^ 144)%N) in *.
  rewrite N.mod_mul_r by (subst P; discriminate || (apply N.pow_nonzero; discriminate)).
  rewrite (N.add_comm (b2n b * P) (BE r)). rewrite N.mod_add by (apply N.pow_nonzero; discriminate).
  rewrite N.div_add by (apply N.pow_nonzero; discriminate).
  rewrite (N.mod_small (BE r)), (N.div_small (BE r)) by assumption. lia.
Qed.

Lemma ConfirmLink_view bs old : llc_wf (LConfirm old) -> 44 <= length bs ->
  confirm_link_view (ConfirmLink_of bs old) = decode llc_confirm_link bs.
Proof.
  intros Hwf Hlen. cbn [llc_wf] in Hwf. unfold confirm_link_view, ConfirmLink_of.
  cbn -[decode bits seg BE b2n bn num fl mk tail N.land N.shiftr firstn skipn append].
  rewrite (tail_full bs 35 (cl_res3 old) 9) by lia. unfold llc_confirm_link. unfold fl, bit, mk, bn, num. calc_layout. fields.
Qed.

Lemma addlink_tail bs old : length old = 10 -> 44 <= length bs ->
  firstn 8 (tail bs 36 old) = seg bs 36 8.
Proof.
  intros Ho Hb. unfold tail, go_copy, seg. rewrite Ho.
  rewrite firstn_app, firstn_firstn. rewrite firstn_length, skipn_length.
  replace (8 - Nat.min 10 (length bs - 36)) with 0 by lia. rewrite firstn_O, app_nil_r. reflexivity.
Qed.

Lemma AddLink_view bs old : llc_wf (LAddLink old) -> 44 <= length bs ->
  add_link_view (AddLink_of bs old) = decode llc_add_link bs.
Proof.
  intros Hwf Hlen. cbn [llc_wf] in Hwf. unfold add_link_view, AddLink_of.
  cbn -[decode bits seg BE b2n bn num fl mk tail N.land N.shiftr firstn skipn append].
  replace (firstn 8 (tail bs 36 (al_res4 old))) with (seg bs 36 8) by (symmetry; apply addlink_tail; lia). unfold llc_add_link. unfold fl, bit, mk, bn, num. calc_layout. fields.
Qed.

Lemma AddLinkCont_view bs old : llc_wf (LAddLinkCont old) -> 44 <= length bs ->
  add_link_cont_view (AddLinkCont_of bs old) = decode llc_add_link_cont bs.
Proof.
  intros Hwf Hlen. cbn [llc_wf] in Hwf. unfold add_link_cont_view, AddLinkCont_of.
  cbn -[decode bits seg BE b2n bn num fl mk tail N.land N.shiftr firstn skipn append].
  rewrite (tail_full bs 40 (ac_res4 old) 4) by lia. unfold llc_add_link_cont. unfold fl, bit, mk, bn, num. calc_layout. fields.
Qed.

Lemma DeleteLink_view bs old : llc_wf (LDeleteLink old) -> 44 <= length bs ->
  delete_link_view (DeleteLink_of bs old) = decode llc_delete_link bs.
Proof.
  intros Hwf Hlen. cbn [llc_wf] in Hwf. unfold delete_link_view, DeleteLink_of.
  cbn -[decode bits seg BE b2n bn num fl mk tail N.land N.shiftr firstn skipn append].
  rewrite (tail_full bs 9 (dl_res3 old) 35) by lia. unfold llc_delete_link. unfold fl, bit, mk, bn, num. calc_layout. fields.
Qed.

Lemma ConfirmRKey_view bs old : llc_wf (LConfirmRKey old) -> 44 <= length bs ->
  confirm_rkey_view (ConfirmRKey_of bs old) = decode llc_confirm_rkey bs.
Proof.
  intros Hwf Hlen. cbn [llc_wf] in Hwf. unfold confirm_rkey_view, ConfirmRKey_of.
  cbn -[decode bits seg BE b2n bn num fl mk tail N.land N.shiftr firstn skipn append].
  unfold llc_confirm_rkey. unfold fl, bit, mk, bn, num. calc_layout. fields.
Qed.

Lemma ConfirmRKeyCont_view bs old : llc_wf (LConfirmRKeyCont old) -> 45 <= length bs ->
  confirm_rkey_cont_view (ConfirmRKeyCont_of bs old) = decode llc_confirm_rkey_cont bs.
Proof.
  intros Hwf Hlen. cbn [llc_wf] in Hwf. unfold confirm_rkey_cont_view, ConfirmRKeyCont_of.
  cbn -[decode bits seg BE b2n bn num fl mk tail N.land N.shiftr firstn skipn append].
  unfold llc_confirm_rkey_cont. unfold fl, bit, mk, bn, num. calc_layout. fields.
Qed.

Lemma deleteRKey_view bs old : llc_wf (LDeleteRKey old) -> 44 <= length bs ->
  delete_rkey_view (deleteRKey_of bs old) = decode llc_delete_rkey bs.
Proof.
  intros Hwf Hlen. cbn [llc_wf] in Hwf. unfold delete_rkey_view, deleteRKey_of.
  cbn -[decode bits seg BE b2n bn num fl mk tail N.land N.shiftr firstn skipn append].
  rewrite (tail_full bs 40 (dk_res5 old) 4) by lia. unfold llc_delete_rkey. unfold fl, bit, mk, bn, num. calc_layout. fields.
Qed.

Lemma TestLink_view bs old : llc_wf (LTestLink old) -> 44 <= length bs ->
  test_link_view (TestLink_of bs old) = decode llc_test_link bs.
Proof.
  intros Hwf Hlen. cbn [llc_wf] in Hwf. unfold test_link_view, TestLink_of.
  cbn -[decode bits seg BE b2n bn num fl mk tail N.land N.shiftr firstn skipn append].
  rewrite (tail_full bs 20 (tl_res3 old) 24) by lia. unfold llc_test_link. unfold fl, bit, mk, bn, num. calc_layout. fields.
Qed.

Lemma CDC_view bs old : llc_wf (LCDC old) -> 44 <= length bs ->
  cdc_view (CDC_of bs old) = decode cdc bs.
Proof.
  intros Hwf Hlen. cbn [llc_wf] in Hwf. unfold cdc_view, CDC_of.
  cbn -[decode bits seg BE b2n bn num fl mk tail N.land N.shiftr firstn skipn append].
  rewrite (tail_full bs 26 (skipn 1 (c_res4 old)) 18) by (rewrite ?skipn_length; lia). unfold cdc. unfold fl, bit, mk, bn, num. calc_layout. fields. apply cdc_tail_bits; assumption.
Qed.
