(** * ClcOffsets: the offset fields of a v2 Proposal have no influence. Proofs only. *)

From Coq Require Import NArith ZArith Bool String Arith List Lia.
From Coq Require Import ZifyBool ZifyNat ZifyN.
From Verif Require Import GoBase GoFmt ClcModel Slices Wire WireLemmas ClcView Steps ClcParse ClcFixed
  ClcProposal ClcProposalV2 ClcProposalV2Inv Offsets.
Import ListNotations.
Local Open Scope nat_scope.

Section Two.
Context (b1 b2 : list byte) (H : but_offsets b1 b2) (H8 : 8 <= length b1).

Lemma off_nth i : ~ offset_byte b1 i -> nth i b1 x00 = nth i b2 x00.
Proof.
  intros Hi. destruct H as (HL & HN). specialize (HN i Hi).
  destruct (le_lt_dec (length b1) i).
  - rewrite !nth_overflow by lia. reflexivity.
  - rewrite (nth_error_nth' b1 x00), (nth_error_nth' b2 x00) in HN by lia. congruence.
Qed.

Lemma off_bn i : ~ offset_byte b1 i -> bn b1 i = bn b2 i.
Proof. intros Hi. unfold bn. rewrite off_nth by assumption. reflexivity. Qed.

Lemma off_seg o n : (forall i, o <= i < o + n -> ~ offset_byte b1 i) -> seg b1 o n = seg b2 o n.
Proof.
  intros Hi. destruct H as (HL & _). apply (nth_ext _ _ x00 x00).
  - rewrite !seg_length_min, HL. reflexivity.
  - intros i Hlt. rewrite seg_length_min in Hlt. rewrite !nth_seg by lia. apply off_nth, Hi. lia.
Qed.

Lemma off_num o n : (forall i, o <= i < o + n -> ~ offset_byte b1 i) -> num b1 o n = num b2 o n.
Proof. intros Hi. unfold num. rewrite (off_seg o n Hi). reflexivity. Qed.

Lemma early_ok i : i < 38 -> ~ offset_byte b1 i.
Proof. unfold offset_byte, v2_ext_start. intros Hi. destruct (has_ip b1); lia. Qed.

Lemma mid_ok i : 40 <= i < 50 \/ 52 <= i < 80 -> ~ offset_byte b1 i.
Proof. unfold offset_byte, v2_ext_start. intros Hi. destruct (has_ip b1); lia. Qed.

Lemma off_bits o n off w : off = 8 * o -> w = 8 * n -> o + n <= length b1 ->
  (forall i, o <= i < o + n -> ~ offset_byte b1 i) -> bits b1 off w = bits b2 off w.
Proof.
  intros -> -> Hl Hi. pose proof (proj1 H) as HL.
  rewrite !(bits_bytes _ o n) by (reflexivity || lia). rewrite (off_seg o n Hi). reflexivity.
Qed.

Lemma off_declared : declared b1 = declared b2.
Proof. unfold declared. apply (off_bits 5 2); try lia. intros; apply early_ok; lia. Qed.

Lemma off_hdr : hdr_of b1 = hdr_of b2.
Proof.
  unfold hdr_of. rewrite (off_seg 0 4), (off_bn 4), (off_num 5 2), (off_bn 7); try reflexivity;
  intros; apply early_ok; lia.
Qed.

Lemma off_path : msg_path b1 = msg_path b2 /\ msg_pathv2 b1 = msg_pathv2 b2.
Proof.
  pose proof (proj1 H) as HL.
  rewrite <- !hdr_path, <- !hdr_pathv2 by lia. rewrite off_hdr. split; reflexivity.
Qed.

Lemma off_has : has_ip b1 = has_ip b2 /\ has_ext b1 = has_ext b2 /\ has_smcd b1 = has_smcd b2.
Proof. unfold has_ip, has_ext, has_smcd. destruct off_path as (-> & ->). auto. Qed.

Local Notation L := (N.to_nat (declared b1)).

Lemma ip_ok i : has_ip b1 = true -> 52 <= i < v2_ext_start L b1 -> ~ offset_byte b1 i.
Proof. unfold offset_byte. intros E Hi. lia. Qed.

Lemma ext_ok i : v2_ext_start L b1 <= i ->
  i <> v2_ext_start L b1 + 6 -> i <> v2_ext_start L b1 + 7 -> ~ offset_byte b1 i.
Proof.
  intros Hi. assert (80 <= v2_ext_start L b1) by (unfold v2_ext_start; destruct (has_ip b1); lia).
  unfold offset_byte. lia.
Qed.

Lemma noext_ok i : has_ext b1 = false -> 52 <= i -> ~ offset_byte b1 i.
Proof. unfold offset_byte. intros -> Hi. intuition (lia || discriminate). Qed.

Lemma off_prefixes : has_ip b1 = true -> 92 <= L -> L <= length b1 ->
  prefix_count b1 80 = prefix_count b2 80 /\ v2_prefixes L b1 = v2_prefixes L b2.
Proof.
  intros E H92 HL.
  assert (HC : prefix_count b1 80 = prefix_count b2 80).
  { unfold prefix_count. f_equal. apply (off_bits 87 1); try lia.
    intros. apply ip_ok; [assumption|]. unfold v2_ext_start. rewrite E. lia. }
  split; [exact HC|]. unfold v2_prefixes. rewrite HC. reflexivity.
Qed.

Lemma off_ip e old : has_ip b1 = true -> e = v2_prefixes L b1 -> ip_of b1 80 e old = ip_of b2 80 e old.
Proof.
  intros E ->. unfold ip_of. cbn [Nat.add].
  assert (HS : v2_ext_start L b1 = 88 + 17 * v2_prefixes L b1) by (unfold v2_ext_start; rewrite E; reflexivity).
  rewrite (off_seg 80 4), (off_bn 84), (off_seg 85 2), (off_bn 87);
    try (intros; apply ip_ok; [assumption|lia]).
  f_equal. f_equal. unfold prefixes_of. apply map_ext_in. intros k Hk. apply in_seq in Hk.
  unfold prefix_at. rewrite (off_seg (88 + 17 * k) 16), (off_bn (88 + 17 * k + 16)); [reflexivity| |];
    intros; apply ip_ok; try assumption; lia.
Qed.

Lemma off_start : (has_ip b1 = true -> 92 <= L) -> L <= length b1 -> v2_ext_start L b1 = v2_ext_start L b2.
Proof.
  intros H92 HL. destruct off_has as (EI & _). unfold v2_ext_start. rewrite <- EI.
  destruct (has_ip b1) eqn:E; [|reflexivity].
  destruct (off_prefixes E (H92 eq_refl) HL) as (_ & ->). reflexivity.
Qed.

Section Ext.
Context (HI : has_ip b1 = true -> 92 <= L) (HL : L <= length b1).
Local Notation es := (v2_ext_start L b1).
Context (HE : es + 44 <= L).

Lemma off_eid_count : v2_eid_count L b1 = v2_eid_count L b2.
Proof.
  unfold v2_eid_count. f_equal. rewrite <- off_start by assumption.
  apply (off_bits es 1); try lia. intros; apply ext_ok; lia.
Qed.

Lemma off_gid_count : v2_gid_count L b1 = v2_gid_count L b2.
Proof.
  unfold v2_gid_count. f_equal. rewrite <- off_start by assumption.
  apply (off_bits (es + 1) 1); try lia. intros; apply ext_ok; lia.
Qed.

Lemma off_eids : v2_eids L b1 = v2_eids L b2.
Proof. unfold v2_eids. rewrite off_eid_count, off_start by assumption. reflexivity. Qed.

Lemma off_smcd_start : v2_smcd_start L b1 = v2_smcd_start L b2.
Proof. unfold v2_smcd_start. rewrite off_eids, off_start by assumption. reflexivity. Qed.

Lemma off_gids : v2_gids L b1 = v2_gids L b2.
Proof. unfold v2_gids. rewrite off_gid_count, off_smcd_start by assumption. reflexivity. Qed.

Lemma off_ext e x : exists o2, ext_of b2 es e x =
  let y := ext_of b1 es e x in
  mkV2Ext (x_EIDNumber y) (x_GIDNumber y) (x_reserved3 y) (x_Release y) (x_reserved4 y) (x_SEIDInd y)
    (x_reserved5 y) o2 (x_reserved6 y) (x_EIDArea y).
Proof.
  exists (num b2 (es + 6) 2). unfold ext_of.
  cbn [x_EIDNumber x_GIDNumber x_reserved3 x_Release x_reserved4 x_SEIDInd x_reserved5 x_reserved6 x_EIDArea].
  rewrite (off_bn es), (off_bn (es + 1)), (off_bn (es + 2)), (off_bn (es + 3)),
    (off_seg (es + 4) 2), (off_seg (es + 8) 32); try (intros; apply ext_ok; lia).
  f_equal. f_equal. unfold eids_of. apply map_ext_in. intros k _. symmetry.
  apply off_seg. intros; apply ext_ok; lia.
Qed.

Lemma off_smcd e y : smcd_ext_of b2 (v2_smcd_start L b1) e y = smcd_ext_of b1 (v2_smcd_start L b1) e y.
Proof.
  unfold smcd_ext_of.
  assert (es + 40 <= v2_smcd_start L b1) by (unfold v2_smcd_start; lia).
  set (s := v2_smcd_start L b1) in *.
  rewrite (off_seg s 32), (off_seg (s + 32) 16); try (intros; apply ext_ok; lia).
  f_equal. f_equal. unfold gids_of. apply map_ext_in. intros k _. symmetry.
  f_equal; apply off_num; intros; apply ext_ok; lia.
Qed.

End Ext.

Lemma off_last : (has_ext b1 = true -> v2_ext_start L b1 + 44 <= L) -> 84 <= L -> L <= length b1 ->
  last4 b1 = last4 b2.
Proof.
  intros HE H84 HL. rewrite !last4_seg. rewrite <- (proj1 H). apply off_seg. intros i Hi.
  destruct (has_ext b1) eqn:E.
  - specialize (HE eq_refl). apply ext_ok; lia.
  - apply noext_ok; [assumption|lia].
Qed.

Lemma sl_refl l : Forall2 (same_line b1 b2) l l.
Proof. induction l; constructor; auto. left; reflexivity. Qed.

Lemma sl_dump n e : Forall2 (same_line b1 b2) [e; dump_line (bytes_at b1 0 n)] [e; dump_line (bytes_at b2 0 n)].
Proof.
  constructor; [left; reflexivity|]. constructor; [|constructor]. right. exists n. split; reflexivity.
Qed.

Lemma sl_over err n c : Forall2 (same_line b1 b2) (too_many_log err L b1 n c) (too_many_log err L b2 n c).
Proof. unfold too_many_log. destruct (n <? c); [apply sl_dump|constructor]. Qed.

End Two.

Lemma offsets_unused m1 m2 buf old : slice_ok m1 buf -> slice_ok m2 buf -> proposalv2_wf old ->
  but_offsets (s_bytes m1 buf) (s_bytes m2 buf) ->
  N.to_nat (declared (s_bytes m1 buf)) <= s_len buf ->
  Forall2 (same_line (s_bytes m1 buf) (s_bytes m2 buf))
    (fst (ProposalV2_Parse m1 old buf)) (fst (ProposalV2_Parse m2 old buf)) /\
  map_outcome without_offsets (snd (ProposalV2_Parse m1 old buf)) =
  map_outcome without_offsets (snd (ProposalV2_Parse m2 old buf)).
Proof.
  intros Hok1 Hok2 Hwf HB HL.
  destruct (le_lt_dec 8 (s_len buf)) as [H8|H8];
    [|rewrite !ProposalV2_tiny by assumption; split; [constructor|reflexivity]].
  pose proof (s_bytes_length m1 buf Hok1) as Hb1. pose proof (s_bytes_length m2 buf Hok2) as Hb2.
  assert (ED : declared (s_bytes m1 buf) = declared (s_bytes m2 buf)) by (apply off_declared; [assumption|lia]).
  rewrite !ProposalV2_Parse_run by (try assumption; rewrite <- ?ED; assumption).
  unfold p2_run, p2_of, p2_short. rewrite <- ED. clear Hok1 Hok2.
  set (b1 := s_bytes m1 buf) in *. set (b2 := s_bytes m2 buf) in *. clearbody b1 b2.
  assert (H8' : 8 <= length b1) by lia. assert (HL' : N.to_nat (declared b1) <= length b1) by lia.
  destruct (off_has b1 b2 HB H8') as (EI & EX & ES).
  rewrite <- EI, <- EX, <- ES. rewrite <- (off_hdr b1 b2 HB H8').
  rewrite <- (off_seg b1 b2 HB H8' 8 8), <- (off_seg b1 b2 HB H8' 16 16), <- (off_seg b1 b2 HB H8' 32 6)
    by (intros; apply early_ok; [exact H8'|lia]).
  rewrite <- (off_num b1 b2 HB H8' 40 8), <- (off_num b1 b2 HB H8' 48 2), <- (off_seg b1 b2 HB H8' 52 28)
    by (intros; apply mid_ok; [exact H8'|lia]).
  cbv zeta. set (L := N.to_nat (declared b1)) in *.
  destruct (L <? 84) eqn:E84; [split; [apply sl_dump|reflexivity]|].
  destruct (has_ip b1 && (L <? 92)) eqn:E92; [split; [apply sl_dump|reflexivity]|].
  assert (HI : has_ip b1 = true -> 92 <= L) by (intros E; rewrite E in E92; lia).
  assert (EP : has_ip b1 = true -> prefix_count b1 80 = prefix_count b2 80 /\ v2_prefixes L b1 = v2_prefixes L b2)
    by (intros E; apply off_prefixes; auto).
  assert (EIP : (if has_ip b1 then ip_of b2 80 (v2_prefixes L b2) (p2_IP old) else p2_IP old)
              = (if has_ip b1 then ip_of b1 80 (v2_prefixes L b1) (p2_IP old) else p2_IP old)).
  { destruct (has_ip b1) eqn:E; [|reflexivity]. destruct (EP eq_refl) as (_ & <-).
    symmetry. apply off_ip; auto. }
  rewrite EIP. match type of EIP with _ = ?a => set (ip := a) in * end. clearbody ip. clear EIP.
  assert (SL1 : Forall2 (same_line b1 b2)
     (if has_ip b1 then too_many_log v2_prefix_err L b1 (v2_prefixes L b1) (prefix_count b1 80) else [])
     (if has_ip b1 then too_many_log v2_prefix_err L b2 (v2_prefixes L b2) (prefix_count b2 80) else [])).
  { destruct (has_ip b1) eqn:E; [|constructor]. destruct (EP eq_refl) as (<- & <-). apply sl_over. }
  match type of SL1 with Forall2 _ ?a ?b => set (l1 := a) in *; set (l1' := b) in * end. clearbody l1 l1'.
  assert (E0 := off_start b1 b2 HB H8' HI HL'). fold L in E0. rewrite <- E0. set (es := v2_ext_start L b1) in *.
  destruct (has_ext b1 && (L <? es + 44)) eqn:EE.
  { split; [apply Forall2_app; [assumption|apply sl_dump]|reflexivity]. }
  assert (HE : has_ext b1 = true -> es + 44 <= L) by (intros E; rewrite E in EE; lia).
  rewrite <- (off_last b1 b2 HB H8' HE) by lia.
  destruct (has_ext b1) eqn:EXT; cbn [andb].
  2:{ assert (ED' : has_smcd b1 = false).
      { unfold has_smcd, has_ext in *. lia. }
      rewrite ED'. cbn [andb app fst snd map_outcome]. split; [|reflexivity].
      apply Forall2_app; [assumption|apply sl_refl]. }
  specialize (HE eq_refl).
  assert (E1 := off_eids b1 b2 HB H8' HI HL' HE). assert (E2 := off_eid_count b1 b2 HB H8' HI HL' HE).
  assert (E3 := off_gids b1 b2 HB H8' HI HL' HE). assert (E4 := off_gid_count b1 b2 HB H8' HI HL' HE).
  assert (E5 := off_smcd_start b1 b2 HB H8' HI HL' HE). fold L in E1, E2, E3, E4, E5.
  rewrite <- E1, <- E2, <- E3, <- E4, <- E5.
  destruct (off_ext b1 b2 HB H8' HI HL' HE (v2_eids L b1) (p2_Ext old)) as (o2 & EX2). fold L es in EX2. rewrite EX2. cbv zeta.
  fold L.
  destruct (8 <? v2_eids L b1); [split; [assumption|reflexivity]|].
  assert (SL2 := sl_over b1 b2 v2_eid_err (v2_eids L b1) (v2_eid_count L b1)). fold L in SL2.
  destruct (has_smcd b1) eqn:ESM; cbn [andb].
  - destruct (L <? v2_smcd_start L b1 + 52).
    { split; [|reflexivity]. cbn [fst]. repeat apply Forall2_app; try assumption. apply sl_dump. }
    destruct (8 <? v2_gids L b1).
    { split; [|reflexivity]. apply Forall2_app; assumption. }
    assert (EY := off_smcd b1 b2 HB H8' HI HL' HE (v2_gids L b1) (p2_SMCD old)). fold L in EY. rewrite EY.
    split; [|reflexivity]. cbn [fst]. repeat apply Forall2_app; try assumption; [|apply sl_refl].
    apply sl_over.
  - split; [|reflexivity]. cbn [fst app]. repeat apply Forall2_app; try assumption. apply sl_refl.
Qed.

(** contents with other offsets in the fixed part *)
Lemma patched bs b c d e : 52 <= length bs ->
  but_offsets bs (firstn 38 bs ++ [b; c] ++ firstn 10 (skipn 40 bs) ++ [d; e] ++ skipn 52 bs).
Proof.
  intros Hl. split.
  - rewrite !app_length, !firstn_length, !skipn_length. cbn [length]. lia.
  - intros i Hi. unfold offset_byte in Hi.
    assert (N1 : i <> 38) by tauto. assert (N2 : i <> 39) by tauto.
    assert (N3 : i <> 50) by tauto. assert (N4 : i <> 51) by tauto. clear Hi.
    assert (E : bs = firstn 38 bs ++ firstn 2 (skipn 38 bs) ++ firstn 10 (skipn 40 bs)
                  ++ firstn 2 (skipn 50 bs) ++ skipn 52 bs).
    { rewrite <- (firstn_skipn 38 bs) at 1. f_equal.
      rewrite <- (firstn_skipn 2 (skipn 38 bs)) at 1. f_equal. rewrite skipn_skipn. cbn [Nat.add].
      rewrite <- (firstn_skipn 10 (skipn 40 bs)) at 1. f_equal. rewrite skipn_skipn. cbn [Nat.add].
      rewrite <- (firstn_skipn 2 (skipn 50 bs)) at 1. f_equal. rewrite skipn_skipn. reflexivity. }
    rewrite E at 1.
    assert (F1 : length (firstn 38 bs) = 38) by (rewrite firstn_length; lia).
    assert (F2 : length (firstn 2 (skipn 38 bs)) = 2) by (rewrite firstn_length, skipn_length; lia).
    assert (F3 : length (firstn 10 (skipn 40 bs)) = 10) by (rewrite firstn_length, skipn_length; lia).
    assert (F4 : length (firstn 2 (skipn 50 bs)) = 2) by (rewrite firstn_length, skipn_length; lia).
    destruct (le_lt_dec 38 i); [|rewrite !nth_error_app1 by lia; reflexivity].
    rewrite !(nth_error_app2 (firstn 38 bs)) by lia. rewrite F1.
    rewrite (nth_error_app2 (firstn 2 (skipn 38 bs))), (nth_error_app2 [b; c]) by (cbn [length]; lia).
    rewrite F2. change (length [b; c]) with 2.
    destruct (le_lt_dec 50 i); [|rewrite !nth_error_app1 by lia; reflexivity].
    rewrite !(nth_error_app2 (firstn 10 (skipn 40 bs))) by lia. rewrite F3.
    rewrite (nth_error_app2 (firstn 2 (skipn 50 bs))), (nth_error_app2 [d; e]) by (cbn [length]; lia).
    rewrite F4. reflexivity.
Qed.
