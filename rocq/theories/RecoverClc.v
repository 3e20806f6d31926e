(** * RecoverClc: CLC messages after a panic. Proofs only. *)

From Coq Require Import NArith ZArith Bool String Arith List Lia.
From Coq Require Import ZifyBool ZifyNat ZifyN.
From Verif Require Import GoBase GoFmt ClcModel LlcModel RoceModel Setters WriteModel LlcWriteModel Slices Wire
  WireLemmas ClcView LlcView Steps ClcParse ClcFixed ClcSmcdv2 ClcProposal ClcProposalV2 Recover
  RecoverSteps.
From Verif Require Keep WriteFacts.
Import ListNotations.
Local Open Scope nat_scope.

Lemma from_start buf : buf = sub buf 0 (s_len buf - 0).
Proof. rewrite Nat.sub_0_r. apply sub_self. Qed.

(** ** Header *)

Definition header_torn (m : mem) (buf : slice) (z : list byte) (h h' : Header) : Prop :=
  s_len buf < 8 /\
  kept_so_far clc_header m buf (header_view (hdr_of (s_bytes m buf ++ z))) (header_view h) (header_view h') /\
  kept_so_far clc_header_v2proposal m buf (header_v2proposal_view (hdr_of (s_bytes m buf ++ z)))
    (header_v2proposal_view h) (header_v2proposal_view h').

Lemma Header_torn m buf z h : slice_ok m buf -> header_wf h ->
  torn (header_torn m buf z h) (Header_W m buf h).
Proof.
  intros Hok Hwf. unfold header_wf in Hwf. rewrite (from_start buf) at 2. unfold Header_W, EyecatcherLen.
  destruct h as [? ? ? ? ? ? ? ?]. cbn in Hwf.
  repeat torn_step Hok z. all: unfold header_torn; split; [lia|]; split; leaf.
Qed.

Lemma hdr_more m buf z : slice_ok m buf -> 8 <= s_len buf ->
  hdr_of (s_bytes m buf ++ z) = hdr_of (s_bytes m buf).
Proof.
  intros Hok L. unfold hdr_of, bn, num.
  rewrite <- !(seg_more m buf Hok z), <- !(nth_more m buf Hok z) by lia. reflexivity.
Qed.

Lemma Header_step {R B} m buf z (G : R -> Prop) get set (k : unit -> W R B) r :
  slice_ok m buf -> header_wf (get r) ->
  (forall h, header_torn m buf z (get r) h -> G (set h r)) ->
  (8 <= s_len buf -> torn G (k tt (set (hdr_of (s_bytes m buf ++ z)) r))) ->
  torn G (wbind (part get set (Header_W m buf)) k r).
Proof.
  intros Hok Hwf H1 H2. apply torn_part.
  - intros P. apply H1. apply Header_torn; assumption.
  - intros l [] p E. pose proof (WriteFacts.Header_agrees m buf (get r)) as A. rewrite E in A. cbn in A.
    destruct (le_lt_dec 8 (s_len buf)) as [L|L].
    + rewrite Header_Parse_ok in A by assumption. injection A as _ ->. rewrite <- (hdr_more m buf z) by assumption.
      apply H2, L.
    + rewrite Header_Parse_panic in A by assumption. discriminate.
Qed.

Lemma layout_bits_le l : forall k, layout_bits (firstn k l) <= layout_bits l.
Proof.
  induction l as [|[n [w|w]] l IH]; intros [|k]; cbn [firstn layout_bits]; try lia; specialize (IH k); lia.
Qed.

(** a format that ends inside its first part *)
Lemma kept_app l1 l2 m buf w1 w2 o1 n1 x : slice_ok m buf ->
  length w1 = length l1 -> length o1 = length l1 -> length n1 = length l1 ->
  8 * s_len buf < layout_bits l1 ->
  kept_so_far l1 m buf w1 o1 n1 -> kept_so_far (l1 ++ l2) m buf (w1 ++ w2) (o1 ++ x) (n1 ++ x).
Proof.
  intros Hok Ew Eo En L (k & (K1 & K2 & K3) & F & E). rewrite s_bytes_length in * by assumption.
  assert (K : k < length l1).
  { destruct (le_lt_dec (length l1) k); [|assumption]. rewrite firstn_all2 in K2 by assumption. lia. }
  specialize (K3 K). exists k. split; [|split].
  - unfold complete. rewrite app_length, s_bytes_length by assumption. split; [lia|].
    rewrite !firstn_app. replace (k - length l1) with 0 by lia. replace (S k - length l1) with 0 by lia.
    rewrite !firstn_O, !app_nil_r. split; [assumption|]. intros _. assumption.
  - rewrite !firstn_app, En, Ew. replace (k - length l1) with 0 by lia. rewrite !firstn_O, !app_nil_r. assumption.
  - intros C. specialize (E C). rewrite skipn_app, En, E. unfold torn_fields.
    rewrite !skipn_app, firstn_app, Eo. replace (k - length l1) with 0 by lia.
    rewrite firstn_O, app_nil_r, !skipn_O.
    destruct (skipn k l1) as [|f r1] eqn:E1.
    { apply (f_equal (@length _)) in E1. rewrite skipn_length in E1. cbn in E1. lia. }
    destruct (skipn k o1) as [|v r2] eqn:E2.
    { apply (f_equal (@length _)) in E2. rewrite skipn_length in E2. cbn in E2. lia. }
    reflexivity.
Qed.

(** ** Trailer and log output *)

Lemma Trailer_step {R} m buf o (G : R -> Prop) get set r : slice_ok m buf -> o <= s_len buf ->
  length (get r) = 4 ->
  (s_len buf < o + 4 -> G (set (get r) r)) ->
  torn G (part get set (Trailer_W m (sub buf o (s_len buf - o))) r).
Proof.
  intros Hok Ho Ht H. pose proof (len_le_cap _ _ Hok) as Hcap. unfold torn, part.
  destruct (le_lt_dec (o + 4) (s_len buf)) as [L|L].
  - pose proof (WriteFacts.Trailer_agrees m (sub buf o (s_len buf - o)) (get r)) as A.
    rewrite Trailer_sub in A by (assumption || lia).
    destruct (Trailer_W _ _ _) as [[l [a| |]] p]; cbn in *; discriminate.
  - unfold Trailer_W, wbind, lift, last_n. cbn [s_len sub].
    replace (s_len buf - o <? TrailerLen) with true
      by (symmetry; apply Nat.ltb_lt; unfold TrailerLen, EyecatcherLen; lia).
    cbn. intros _. apply H. assumption.
Qed.

Lemma torn_end {R A} (G : R -> Prop) (w : W R A) r : torn G (w r) -> torn G (wbind w wret r).
Proof. unfold torn, wbind. destruct (w r) as [[l [a| |]] r1]; cbn; auto. Qed.

Lemma complain_torn {R} (G : R -> Prop) m t buf n r : G r -> torn G (complain m t buf n r).
Proof. intros H _. exact H. Qed.

Lemma declared_more m buf z : slice_ok m buf -> 8 <= s_len buf ->
  h_Length (hdr_of (s_bytes m buf ++ z)) = declared (s_bytes m buf).
Proof.
  intros Hok L. rewrite hdr_more by assumption. apply declared_hdr. rewrite s_bytes_length by assumption. lia.
Qed.

Ltac the_length m buf z Hok L :=
  match goal with |- context [h_Length ?h] =>
    replace (h_Length h) with (declared (s_bytes m buf))
      by (symmetry; exact (declared_more m buf z Hok L)) end.

(** the next read is from [buf] itself *)
Ltac at_start buf :=
  lazymatch goal with
  | |- torn _ (wbind ?e _ _) =>
    lazymatch e with
    | change _ => fail
    | context [sub buf _ _] => fail
    | context [buf] =>
      let e1 := eval pattern buf in e in
      lazymatch e1 with
      | ?f _ => replace e with (f (sub buf 0 (s_len buf - 0))) by (rewrite <- (from_start buf); reflexivity);
                cbv beta
      end
    end
  end.

Ltac torn_steps buf Hok z := repeat first [at_start buf; torn_step Hok z|torn_step Hok z].

Ltac leaf3 := cbv beta; (split; [reflexivity|]); (split; [reflexivity|]); leaf.

(** ** Accept and Confirm, SMC-D *)

Lemma smcd_of_view buf bs : 48 <= length bs ->
  accept_smcd_view (smcd_of buf bs) = decode (clc_header ++ accept_smcd_body) bs.
Proof.
  intros Hb. unfold accept_smcd_view. change (ad_Header (smcd_of buf bs)) with (hdr_of bs).
  rewrite hdr_view by lia. unfold smcd_of, clc_header, accept_smcd_body, bn, num.
  cbn -[decode app bits seg BE b2n]. calc_layout. fields.
Qed.

Lemma AcceptSMCD_torn m buf old : slice_ok m buf -> accept_smcd_wf old ->
  torn (fun new => after_panic m buf (MAcceptSMCD old) (MAcceptSMCD new)) (AcceptSMCD_W m buf old).
Proof.
  intros Hok Hwf. pose proof (s_bytes_length m buf Hok) as Hl. pose (z := zeros 120).
  enough (H : torn (fun new => ad_Raw new = buf /\ ad_Trailer new = ad_Trailer old /\
    if (s_len buf <? 8) || reads_on KAcceptSMCD (s_bytes m buf)
    then kept_so_far (clc_header ++ accept_smcd_body) m buf
      (read_view (MAcceptSMCD (smcd_of buf (s_bytes m buf ++ z)))) (read_view (MAcceptSMCD old)) (read_view (MAcceptSMCD new))
    else 8 <= s_len buf /\ MAcceptSMCD new = with_header (MAcceptSMCD old) buf (hdr_of (s_bytes m buf ++ z)))
    (AcceptSMCD_W m buf old)).
  { intros P. destruct (H P) as (H1 & H2 & H3). unfold after_panic. cbn [raw_of trailer_of kind_of read_layout].
    split; [exact H1|]. split; [exact H2|]. rewrite Hl.
    destruct ((s_len buf <? 8) || reads_on KAcceptSMCD (s_bytes m buf)).
    - eapply kept_decoded; [|exact H3]. apply smcd_of_view. rewrite app_length. unfold z. rewrite zeros_length. lia.
    - destruct H3 as [L ->]. exists (hdr_of (s_bytes m buf ++ z)). rewrite hdr_more by assumption.
      split; [split; [apply hdr_view|apply hdr_v2_view]; lia|reflexivity]. }
  clearbody z. destruct Hwf as (Hwf1 & Hwf2 & Hwf3 & Hwf4). unfold AcceptSMCD_W.
  destruct old as [? ? ? ? ? ? ? ? ? ? ?]. cbn in Hwf1, Hwf2, Hwf3, Hwf4. apply torn_change. receiver.
  apply (Header_step m buf z); [exact Hok|exact Hwf1|intros h (L & Hh & _)|intros L].
  - split; [reflexivity|]. split; [reflexivity|]. replace (s_len buf <? 8) with true by lia. cbn [orb].
    apply kept_app; [exact Hok|reflexivity..|change (layout_bits clc_header) with 64; lia|exact Hh].
  - receiver. apply torn_get. receiver. the_length m buf z Hok L.
    destruct (declared (s_bytes m buf) <? AcceptSMCDLen)%N eqn:E.
    + apply complain_torn. split; [reflexivity|]. split; [reflexivity|].
      replace (s_len buf <? 8) with false by lia.
      replace (reads_on KAcceptSMCD (s_bytes m buf)) with false.
      2: { unfold reads_on, min_length. unfold AcceptSMCDLen in E. lia. }
      split; [exact L|]. reflexivity.
    + replace ((s_len buf <? 8) || reads_on KAcceptSMCD (s_bytes m buf)) with true.
      2: { unfold reads_on, min_length. unfold AcceptSMCDLen in E. lia. }
      unfold HeaderLen, PeerIDLen. torn_steps buf Hok z. all: try leaf3.
      apply torn_end, Trailer_step; [exact Hok|lia|assumption|intros ?T]. leaf3.
Qed.

(** ** Accept and Confirm, SMC-R *)

Lemma smcr_of_view buf bs : 68 <= length bs ->
  accept_smcr_view (smcr_of buf bs) = decode (clc_header ++ accept_smcr_body) bs.
Proof.
  intros Hb. unfold accept_smcr_view. change (ar_Header (smcr_of buf bs)) with (hdr_of bs).
  rewrite hdr_view by lia. unfold smcr_of, clc_header, accept_smcr_body, bn, num.
  cbn -[decode app bits seg BE b2n]. calc_layout. fields.
Qed.

Lemma AcceptSMCR_torn m buf old : slice_ok m buf -> accept_smcr_wf old ->
  torn (fun new => after_panic m buf (MAcceptSMCR old) (MAcceptSMCR new)) (AcceptSMCR_W m buf old).
Proof.
  intros Hok Hwf. pose proof (s_bytes_length m buf Hok) as Hl. pose (z := zeros 120).
  enough (H : torn (fun new => ar_Raw new = buf /\ ar_Trailer new = ar_Trailer old /\
    if (s_len buf <? 8) || reads_on KAcceptSMCR (s_bytes m buf)
    then kept_so_far (clc_header ++ accept_smcr_body) m buf
      (read_view (MAcceptSMCR (smcr_of buf (s_bytes m buf ++ z)))) (read_view (MAcceptSMCR old)) (read_view (MAcceptSMCR new))
    else 8 <= s_len buf /\ MAcceptSMCR new = with_header (MAcceptSMCR old) buf (hdr_of (s_bytes m buf ++ z)))
    (AcceptSMCR_W m buf old)).
  { intros P. destruct (H P) as (H1 & H2 & H3). unfold after_panic. cbn [raw_of trailer_of kind_of read_layout].
    split; [exact H1|]. split; [exact H2|]. rewrite Hl.
    destruct ((s_len buf <? 8) || reads_on KAcceptSMCR (s_bytes m buf)).
    - eapply kept_decoded; [|exact H3]. apply smcr_of_view. rewrite app_length. unfold z. rewrite zeros_length. lia.
    - destruct H3 as [L ->]. exists (hdr_of (s_bytes m buf ++ z)). rewrite hdr_more by assumption.
      split; [split; [apply hdr_view|apply hdr_v2_view]; lia|reflexivity]. }
  clearbody z. destruct Hwf as (Hwf1 & Hwf2 & Hwf3). unfold AcceptSMCR_W.
  destruct old as [? ? ? ? ? ? ? ? ? ? ? ? ? ? ? ?]. cbn in Hwf1, Hwf2, Hwf3. apply torn_change. receiver.
  apply (Header_step m buf z); [exact Hok|exact Hwf1|intros h (L & Hh & _)|intros L].
  - split; [reflexivity|]. split; [reflexivity|]. replace (s_len buf <? 8) with true by lia. cbn [orb].
    apply kept_app; [exact Hok|reflexivity..|change (layout_bits clc_header) with 64; lia|exact Hh].
  - receiver. apply torn_get. receiver. the_length m buf z Hok L.
    destruct (declared (s_bytes m buf) <? AcceptSMCRLen)%N eqn:E.
    + apply complain_torn. split; [reflexivity|]. split; [reflexivity|].
      replace (s_len buf <? 8) with false by lia.
      replace (reads_on KAcceptSMCR (s_bytes m buf)) with false.
      2: { unfold reads_on, min_length. unfold AcceptSMCRLen in E. lia. }
      split; [exact L|]. reflexivity.
    + replace ((s_len buf <? 8) || reads_on KAcceptSMCR (s_bytes m buf)) with true.
      2: { unfold reads_on, min_length. unfold AcceptSMCRLen in E. lia. }
      unfold HeaderLen, PeerIDLen. torn_steps buf Hok z. all: try leaf3.
      apply torn_end, Trailer_step; [exact Hok|lia|assumption|intros ?T]. leaf3.
Qed.

(** ** Decline *)

Lemma decline_of_view old buf bs : 28 <= length bs ->
  decline_view (decline_of old buf bs) = decode (clc_header ++ decline_body) bs.
Proof.
  intros Hb. unfold decline_view. change (d_Header (decline_of old buf bs)) with (hdr_of bs).
  rewrite hdr_view by lia. unfold decline_of, clc_header, decline_body, bn, num.
  cbn -[decode app bits seg BE b2n]. calc_layout. fields.
Qed.

Lemma Decline_torn m buf old : slice_ok m buf -> decline_wf old ->
  torn (fun new => after_panic m buf (MDecline old) (MDecline new)) (Decline_W m buf old).
Proof.
  intros Hok Hwf. pose proof (s_bytes_length m buf Hok) as Hl. pose (z := zeros 120).
  enough (H : torn (fun new => d_Raw new = buf /\ d_Trailer new = d_Trailer old /\
    if (s_len buf <? 8) || reads_on KDecline (s_bytes m buf)
    then kept_so_far (clc_header ++ decline_body) m buf
      (read_view (MDecline (decline_of old buf (s_bytes m buf ++ z)))) (read_view (MDecline old)) (read_view (MDecline new))
    else 8 <= s_len buf /\ MDecline new = with_header (MDecline old) buf (hdr_of (s_bytes m buf ++ z)))
    (Decline_W m buf old)).
  { intros P. destruct (H P) as (H1 & H2 & H3). unfold after_panic. cbn [raw_of trailer_of kind_of read_layout].
    split; [exact H1|]. split; [exact H2|]. rewrite Hl.
    destruct ((s_len buf <? 8) || reads_on KDecline (s_bytes m buf)).
    - eapply kept_decoded; [|exact H3]. apply decline_of_view. rewrite app_length. unfold z. rewrite zeros_length. lia.
    - destruct H3 as [L ->]. exists (hdr_of (s_bytes m buf ++ z)). rewrite hdr_more by assumption.
      split; [split; [apply hdr_view|apply hdr_v2_view]; lia|reflexivity]. }
  clearbody z. destruct Hwf as (Hwf1 & Hwf2 & Hwf3 & Hwf4). unfold Decline_W.
  destruct old as [? ? ? ? ? ? ?]. cbn in Hwf1, Hwf2, Hwf3, Hwf4. apply torn_change. receiver.
  apply (Header_step m buf z); [exact Hok|exact Hwf1|intros h (L & Hh & _)|intros L].
  - split; [reflexivity|]. split; [reflexivity|]. replace (s_len buf <? 8) with true by lia. cbn [orb].
    apply kept_app; [exact Hok|reflexivity..|change (layout_bits clc_header) with 64; lia|exact Hh].
  - receiver. apply torn_get. receiver. the_length m buf z Hok L.
    destruct (declared (s_bytes m buf) <? DeclineLen)%N eqn:E.
    + apply complain_torn. split; [reflexivity|]. split; [reflexivity|].
      replace (s_len buf <? 8) with false by lia.
      replace (reads_on KDecline (s_bytes m buf)) with false.
      2: { unfold reads_on, min_length. unfold DeclineLen in E. lia. }
      split; [exact L|]. reflexivity.
    + replace ((s_len buf <? 8) || reads_on KDecline (s_bytes m buf)) with true.
      2: { unfold reads_on, min_length. unfold DeclineLen in E. lia. }
      unfold HeaderLen, PeerIDLen. torn_steps buf Hok z. all: try leaf3.
      apply torn_end, Trailer_step; [exact Hok|lia|assumption|intros ?T]. leaf3.
Qed.

(** ** Decline v2 *)

Lemma declinev2_word bs : 24 <= length bs ->
  (N.shiftr (bn bs 20) 4 * 2 ^ 28 + BE (mask_first (seg bs 20 4)))%N = bits bs 160 32.
Proof.
  intros H. rewrite (bits_bytes bs 20 4 160 32) by lia. unfold bn.
  rewrite !(seg_S _ _ _ x00), seg_0 by lia.
  generalize (nth 20 bs x00) (nth 21 bs x00) (nth 22 bs x00) (nth 23 bs x00).
  intros b0 b1 b2 b3. unfold mask_first. cbn [BE length].
  rewrite land15, N.shiftr_div_pow2.
  pose proof (b2n_lt b0); pose proof (b2n_lt b1); pose proof (b2n_lt b2); pose proof (b2n_lt b3).
  change (2 ^ 28)%N with 268435456%N. change (2 ^ 4)%N with 16%N.
  change (256 ^ N.of_nat 3)%N with 16777216%N.
  change (256 ^ N.of_nat 2)%N with 65536%N.
  change (256 ^ N.of_nat 1)%N with 256%N.
  change (256 ^ N.of_nat 0)%N with 1%N. lia.
Qed.

Lemma declinev2_of_view buf bs : 28 <= length bs ->
  read_view (MDeclineV2 (declinev2_of buf bs)) = decode (read_layout KDeclineV2) bs.
Proof.
  intros Hb. cbn [read_view read_layout]. change (d2_Header (declinev2_of buf bs)) with (hdr_of bs).
  rewrite hdr_view by lia. unfold declinev2_of, clc_header, num. cbn [d2_SenderPeerID d2_PeerDiagnosis d2_OSType d2_reserved].
  rewrite declinev2_word by lia. cbn -[decode app bits seg BE b2n]. calc_layout. fields.
Qed.

Lemma DeclineV2_torn m buf old : slice_ok m buf -> declinev2_wf old ->
  torn (fun new => after_panic m buf (MDeclineV2 old) (MDeclineV2 new)) (DeclineV2_W m buf old).
Proof.
  intros Hok Hwf. pose proof (s_bytes_length m buf Hok) as Hl. pose (z := zeros 120).
  enough (H : torn (fun new => d2_Raw new = buf /\ d2_Trailer new = d2_Trailer old /\
    if (s_len buf <? 8) || reads_on KDeclineV2 (s_bytes m buf)
    then kept_so_far (read_layout KDeclineV2) m buf
      (read_view (MDeclineV2 (declinev2_of buf (s_bytes m buf ++ z)))) (read_view (MDeclineV2 old)) (read_view (MDeclineV2 new))
    else 8 <= s_len buf /\ MDeclineV2 new = with_header (MDeclineV2 old) buf (hdr_of (s_bytes m buf ++ z)))
    (DeclineV2_W m buf old)).
  { intros P. destruct (H P) as (H1 & H2 & H3). unfold after_panic. cbn [raw_of trailer_of kind_of read_layout].
    split; [exact H1|]. split; [exact H2|]. rewrite Hl.
    destruct ((s_len buf <? 8) || reads_on KDeclineV2 (s_bytes m buf)).
    - eapply kept_decoded; [|exact H3]. apply declinev2_of_view. rewrite app_length. unfold z. rewrite zeros_length. lia.
    - destruct H3 as [L ->]. exists (hdr_of (s_bytes m buf ++ z)). rewrite hdr_more by assumption.
      split; [split; [apply hdr_view|apply hdr_v2_view]; lia|reflexivity]. }
  clearbody z. destruct Hwf as (Hwf1 & Hwf2 & Hwf3 & Hwf4). unfold DeclineV2_W.
  destruct old as [? ? ? ? ? ? ?]. cbn in Hwf1, Hwf2, Hwf3, Hwf4. apply torn_change. receiver.
  apply (Header_step m buf z); [exact Hok|exact Hwf1|intros h (L & Hh & _)|intros L].
  - split; [reflexivity|]. split; [reflexivity|]. replace (s_len buf <? 8) with true by lia. cbn [orb].
    apply kept_app; [exact Hok|reflexivity..|change (layout_bits clc_header) with 64; lia|exact Hh].
  - receiver. apply torn_get. receiver. the_length m buf z Hok L.
    destruct (declared (s_bytes m buf) <? DeclineLen)%N eqn:E.
    + apply complain_torn. split; [reflexivity|]. split; [reflexivity|].
      replace (s_len buf <? 8) with false by lia.
      replace (reads_on KDeclineV2 (s_bytes m buf)) with false.
      2: { unfold reads_on, min_length. unfold DeclineLen in E. lia. }
      split; [exact L|]. reflexivity.
    + replace ((s_len buf <? 8) || reads_on KDeclineV2 (s_bytes m buf)) with true.
      2: { unfold reads_on, min_length. unfold DeclineLen in E. lia. }
      unfold HeaderLen, PeerIDLen. torn_steps buf Hok z. all: try leaf3.
      apply torn_end, Trailer_step; [exact Hok|lia|assumption|intros ?T]. leaf3.
Qed.


(** ** Accept and Confirm, SMC-D v2 *)

Lemma AcceptSMCDv2_torn m buf old : slice_ok m buf -> accept_smcdv2_wf old ->
  torn (fun new => after_panic m buf (MAcceptSMCDv2 old) (MAcceptSMCDv2 new)) (AcceptSMCDv2_W m buf old).
Proof.
  intros Hok Hwf. pose proof (s_bytes_length m buf Hok) as Hl. pose (z := zeros 120).
  enough (H : torn (fun new => a2_Raw new = buf /\ a2_Trailer new = a2_Trailer old /\
    if (s_len buf <? 8) || reads_on KAcceptSMCDv2 (s_bytes m buf)
    then kept_so_far (clc_header ++ accept_smcdv2_body ++ fce_body) m buf
      (read_view (MAcceptSMCDv2 (smcdv2_fce_of buf (s_bytes m buf ++ z)))) (read_view (MAcceptSMCDv2 old))
      (read_view (MAcceptSMCDv2 new))
    else 8 <= s_len buf /\ MAcceptSMCDv2 new = with_header (MAcceptSMCDv2 old) buf (hdr_of (s_bytes m buf ++ z)))
    (AcceptSMCDv2_W m buf old)).
  { intros P. destruct (H P) as (H1 & H2 & H3). unfold after_panic. cbn [raw_of trailer_of kind_of read_layout].
    split; [exact H1|]. split; [exact H2|]. rewrite Hl.
    destruct ((s_len buf <? 8) || reads_on KAcceptSMCDv2 (s_bytes m buf)).
    - eapply kept_decoded; [|exact H3]. apply smcdv2_fce_of_view. rewrite app_length. unfold z. rewrite zeros_length. lia.
    - destruct H3 as [L ->]. exists (hdr_of (s_bytes m buf ++ z)). rewrite hdr_more by assumption.
      split; [split; [apply hdr_view|apply hdr_v2_view]; lia|reflexivity]. }
  clearbody z. destruct Hwf as (Hwf1 & Hwf2 & Hwf3 & Hwf4 & Hwf5 & Hwf6 & Hwf7). unfold AcceptSMCDv2_W.
  destruct old as [? ? ? ? ? ? ? ? ? ? ? ? ? ? ? ? ? ?].
  cbn in Hwf1, Hwf2, Hwf3, Hwf4, Hwf5, Hwf6, Hwf7. apply torn_change. receiver.
  apply (Header_step m buf z); [exact Hok|exact Hwf1|intros h (L & Hh & _)|intros L].
  - split; [reflexivity|]. split; [reflexivity|]. replace (s_len buf <? 8) with true by lia. cbn [orb].
    cbn [read_view]. unfold accept_smcdv2_view. rewrite <- !app_assoc.
    apply kept_app; [exact Hok|reflexivity..|change (layout_bits clc_header) with 64; lia|exact Hh].
  - receiver. apply torn_get. receiver. the_length m buf z Hok L.
    destruct ((declared (s_bytes m buf) <? AcceptSMCDv2Len)%N || (N.of_nat (s_len buf) <? AcceptSMCDv2Len)%N) eqn:E.
    + apply complain_torn. split; [reflexivity|]. split; [reflexivity|].
      replace (s_len buf <? 8) with false by lia.
      replace (reads_on KAcceptSMCDv2 (s_bytes m buf)) with false.
      2: { unfold reads_on, min_length. unfold AcceptSMCDv2Len in E. lia. }
      split; [exact L|]. reflexivity.
    + assert (L2 : 78 <= s_len buf) by (unfold AcceptSMCDv2Len in E; lia).
      replace ((s_len buf <? 8) || reads_on KAcceptSMCDv2 (s_bytes m buf)) with true.
      2: { unfold reads_on, min_length. unfold AcceptSMCDv2Len in E. lia. }
      unfold HeaderLen, PeerIDLen, EIDLen. torn_steps buf Hok z.
      unfold fce_W at 1. destruct (declared (s_bytes m buf) =? AcceptSMCDv2FCELen)%N.
      * unfold EIDLen. torn_steps buf Hok z. all: try leaf3.
        apply torn_end, Trailer_step; [exact Hok|lia|assumption|intros ?T]. leaf3.
      * eapply torn_ok with (l := []); [reflexivity|]. receiver. torn_steps buf Hok z.
        apply torn_end, Trailer_step; [exact Hok|lia|assumption|intros ?T]. exfalso; lia.
Qed.

(** ** Proposals *)

(** a part of the run that leaves alone what [G] is about *)
Lemma torn_keeps {R A B} (P G : R -> Prop) (x : W R A) (k : A -> W R B) r :
  Keep.keeps P x -> P r -> (forall r, P r -> G r) -> (forall a r, P r -> torn G (k a r)) ->
  torn G (wbind x k r).
Proof.
  intros Kx Hr HG Hk. specialize (Kx r Hr). unfold torn, wbind.
  destruct (x r) as [[l [a| |]] r1]; cbn in *; auto.
  specialize (Hk a r1 Kx). destruct (k a r1) as [[l2 o] r2]. exact Hk.
Qed.

Lemma p1_keep_smcd m buf skip (V : list (string * val)) raw t :
  Keep.keeps (fun p => proposal_view p = V /\ p_Raw p = raw /\ p_Trailer p = t) (smcd_v1_W m buf skip).
Proof.
  unfold smcd_v1_W. apply Keep.keeps_bind; [apply Keep.keeps_get|intros off].
  destruct (off =? SMCDIPAreaOffset)%N; [|apply Keep.keeps_wret].
  apply Keep.keeps_bind; [apply Keep.keeps_assign; intros v [] H; exact H|intros _].
  apply Keep.keeps_bind; [|intros _; apply Keep.keeps_wret].
  unfold copyto. apply Keep.keeps_bind; [apply Keep.keeps_lift|intros s].
  apply Keep.keeps_change. intros [] H. exact H.
Qed.

Lemma keeps_part_other {R S A} (P : R -> Prop) (f : R -> S) s (w : W S A) :
  (forall v r, P r -> P (s v r)) -> Keep.keeps P (part f s w).
Proof.
  intros H r Hr. unfold part. destruct (w (f r)) as [[l o] p]. apply H. exact Hr.
Qed.

Lemma p1_rest m buf (G : Proposal -> Prop) r t : slice_ok m buf -> 8 <= s_len buf -> length t = 4 ->
  (forall p, proposal_view p = proposal_view r -> p_Raw p = buf -> p_Trailer p = t -> G p) ->
  p_Raw r = buf -> p_Trailer r = t -> forall len,
  torn G (wbind (smcd_v1_W m buf 40) (fun skip =>
    wbind (part p_IP set_p_IP (ip_area_v1_W m buf len skip)) (fun go_on : bool =>
      if go_on then part p_Trailer set_p_Trailer (Trailer_W m buf) else wret tt)) r).
Proof.
  intros Hok L Ht HG Hr Hrt len.
  pose (P := fun p => proposal_view p = proposal_view r /\ p_Raw p = buf /\ p_Trailer p = t).
  apply (torn_keeps P); [apply p1_keep_smcd|repeat split; assumption|intros p (H1 & H2 & H3); auto|].
  intros skip p Hp.
  apply (torn_keeps P); [apply keeps_part_other; intros v [] H; exact H|exact Hp|intros q (H1 & H2 & H3); auto|].
  intros go_on q (H1 & H2 & H3). destruct go_on; [|apply torn_wret].
  rewrite (from_start buf). apply Trailer_step; [exact Hok|lia|congruence|lia].
Qed.

Lemma Proposal_torn m buf old : slice_ok m buf -> proposal_wf old ->
  torn (fun new => after_panic m buf (MProposal old) (MProposal new)) (Proposal_W m buf old).
Proof.
  intros Hok Hwf. pose proof (s_bytes_length m buf Hok) as Hl. pose (z := zeros 120).
  enough (H : torn (fun new => p_Raw new = buf /\ p_Trailer new = p_Trailer old /\
    if (s_len buf <? 8) || reads_on KProposal (s_bytes m buf)
    then kept_so_far (clc_header ++ proposal_body) m buf
      (proposal_view (p1_of old buf (hdr_of (s_bytes m buf ++ z)) (s_bytes m buf ++ z) (p_IP old) []))
      (proposal_view old) (proposal_view new)
    else 8 <= s_len buf /\ MProposal new = with_header (MProposal old) buf (hdr_of (s_bytes m buf ++ z)))
    (Proposal_W m buf old)).
  { intros P. destruct (H P) as (H1 & H2 & H3). unfold after_panic. cbn [raw_of trailer_of kind_of read_layout].
    split; [exact H1|]. split; [exact H2|]. rewrite Hl.
    destruct ((s_len buf <? 8) || reads_on KProposal (s_bytes m buf)).
    - eapply kept_decoded; [|exact H3]. apply p1_fixed_view. rewrite app_length. unfold z. rewrite zeros_length. lia.
    - destruct H3 as [L ->]. exists (hdr_of (s_bytes m buf ++ z)). rewrite hdr_more by assumption.
      split; [split; [apply hdr_view|apply hdr_v2_view]; lia|reflexivity]. }
  clearbody z. destruct Hwf as (Hwf1 & Hwf2 & Hwf3 & Hwf4 & Hwf5). unfold Proposal_W.
  destruct old as [? ? ? ? ? ? ? ? ? ?].
  cbn in Hwf1, Hwf2, Hwf3, Hwf4, Hwf5. apply torn_change. receiver.
  apply (Header_step m buf z); [exact Hok|exact Hwf1|intros h (L & Hh & _)|intros L].
  - split; [reflexivity|]. split; [reflexivity|]. replace (s_len buf <? 8) with true by lia. cbn [orb].
    apply kept_app; [exact Hok|reflexivity..|change (layout_bits clc_header) with 64; lia|exact Hh].
  - receiver. apply torn_get. receiver. the_length m buf z Hok L.
    destruct (declared (s_bytes m buf) <? ProposalLen)%N eqn:E.
    + apply complain_torn. split; [reflexivity|]. split; [reflexivity|].
      replace (s_len buf <? 8) with false by lia.
      replace (reads_on KProposal (s_bytes m buf)) with false.
      2: { unfold reads_on, min_length. unfold ProposalLen in E. lia. }
      split; [exact L|]. reflexivity.
    + replace ((s_len buf <? 8) || reads_on KProposal (s_bytes m buf)) with true.
      2: { unfold reads_on, min_length. unfold ProposalLen in E. lia. }
      unfold HeaderLen, PeerIDLen. cbn [Nat.add]. torn_steps buf Hok z. all: try leaf3.
      all: apply (p1_rest m buf _ _ p_Trailer Hok L Hwf5); [|reflexivity..]; intros [] H1 H2 H3;
        cbv beta; rewrite H1; (split; [exact H2|]); (split; [exact H3|]); leaf.
Qed.

(** *** Version 2 *)

Definition p2_fixed (buf : slice) (bs : list byte) (old : ProposalV2) : ProposalV2 :=
  mkProposalV2 buf (hdr_of bs) (seg bs 8 8) (seg bs 16 16) (seg bs 32 6) (num bs 38 2)
    (num bs 40 8) (num bs 48 2) (num bs 50 2) (seg bs 52 28) (p2_IP old) (p2_Ext old) (p2_SMCD old)
    (p2_Trailer old).

Lemma p2_bytes_view buf bs old : 80 <= length bs ->
  proposalv2_view (p2_fixed buf bs old) = decode (clc_header_v2proposal ++ proposalv2_body) bs.
Proof.
  intros H. unfold proposalv2_view. change (p2_Header (p2_fixed buf bs old)) with (hdr_of bs).
  rewrite hdr_v2_view by lia. unfold p2_fixed, num, clc_header_v2proposal, proposalv2_body.
  cbn -[decode app bits seg BE b2n N.eqb]. calc_layout. fields.
Qed.

Lemma p2_rest m buf (G : ProposalV2 -> Prop) r t : slice_ok m buf -> 8 <= s_len buf -> length t = 4 ->
  (forall p, proposalv2_view p = proposalv2_view r -> p2_Raw p = buf -> p2_Trailer p = t -> G p) ->
  p2_Raw r = buf -> p2_Trailer r = t -> forall hdr len skip,
  torn G (wbind (part p2_IP set_p2_IP (ip_area_v2_W m buf hdr len skip)) (fun r =>
    match r with
    | None => wret tt
    | Some skip =>
      let? r := part p2_Ext set_p2_Ext (ext_v2_W m buf hdr len skip) in
      match r with
      | None => wret tt
      | Some skip =>
        let? ext := get p2_Ext in
        let? go_on := part p2_SMCD set_p2_SMCD
                        (smcd_v2_W m buf hdr len skip (x_GIDNumber ext)) in
        if go_on then part p2_Trailer set_p2_Trailer (Trailer_W m buf) else wret tt
      end
    end) r).
Proof.
  intros Hok L Ht HG Hr Hrt hdr len skip.
  pose (P := fun p => proposalv2_view p = proposalv2_view r /\ p2_Raw p = buf /\ p2_Trailer p = t).
  apply (torn_keeps P); [apply keeps_part_other; intros v [] H; exact H|repeat split; assumption
    |intros q (H1 & H2 & H3); auto|].
  intros [skip1|] q1 Hp; [|apply torn_wret].
  apply (torn_keeps P); [apply keeps_part_other; intros v [] H; exact H|exact Hp|intros q (H1 & H2 & H3); auto|].
  intros [skip2|] q2 Hp2; [|apply torn_wret].
  apply (torn_keeps P); [apply Keep.keeps_get|exact Hp2|intros q (H1 & H2 & H3); auto|].
  intros ext q3 Hp3.
  apply (torn_keeps P); [apply keeps_part_other; intros v [] H; exact H|exact Hp3|intros q (H1 & H2 & H3); auto|].
  intros go_on q (H1 & H2 & H3). destruct go_on; [|apply torn_wret].
  rewrite (from_start buf). apply Trailer_step; [exact Hok|lia|congruence|lia].
Qed.

Lemma ProposalV2_torn m buf old : slice_ok m buf -> proposalv2_wf old ->
  torn (fun new => after_panic m buf (MProposalV2 old) (MProposalV2 new)) (ProposalV2_W m buf old).
Proof.
  intros Hok Hwf. pose proof (s_bytes_length m buf Hok) as Hl. pose (z := zeros 120).
  enough (H : torn (fun new => p2_Raw new = buf /\ p2_Trailer new = p2_Trailer old /\
    if (s_len buf <? 8) || reads_on KProposalV2 (s_bytes m buf)
    then kept_so_far (clc_header_v2proposal ++ proposalv2_body) m buf
      (proposalv2_view (p2_fixed buf (s_bytes m buf ++ z) old))
      (proposalv2_view old) (proposalv2_view new)
    else 8 <= s_len buf /\ MProposalV2 new = with_header (MProposalV2 old) buf (hdr_of (s_bytes m buf ++ z)))
    (ProposalV2_W m buf old)).
  { intros P. destruct (H P) as (H1 & H2 & H3). unfold after_panic. cbn [raw_of trailer_of kind_of read_layout].
    split; [exact H1|]. split; [exact H2|]. rewrite Hl.
    destruct ((s_len buf <? 8) || reads_on KProposalV2 (s_bytes m buf)).
    - eapply kept_decoded; [|exact H3]. apply p2_bytes_view. rewrite app_length. unfold z. rewrite zeros_length. lia.
    - destruct H3 as [L ->]. exists (hdr_of (s_bytes m buf ++ z)). rewrite hdr_more by assumption.
      split; [split; [apply hdr_view|apply hdr_v2_view]; lia|reflexivity]. }
  clearbody z. destruct Hwf as (Hwf1 & Hwf2 & Hwf3 & Hwf4 & Hwf5 & Hwf6 & Hwf7). unfold ProposalV2_W.
  destruct old as [? ? ? ? ? ? ? ? ? ? ? ? ? ?].
  cbn in Hwf1, Hwf2, Hwf3, Hwf7. apply torn_change. receiver.
  apply (Header_step m buf z); [exact Hok|exact Hwf1|intros h (L & _ & Hh)|intros L].
  - split; [reflexivity|]. split; [reflexivity|]. replace (s_len buf <? 8) with true by lia. cbn [orb].
    apply kept_app; [exact Hok|reflexivity..|change (layout_bits clc_header_v2proposal) with 64; lia|exact Hh].
  - receiver. apply torn_get. receiver. the_length m buf z Hok L.
    destruct (declared (s_bytes m buf) <? ProposalV2Len)%N eqn:E.
    + apply complain_torn. split; [reflexivity|]. split; [reflexivity|].
      replace (s_len buf <? 8) with false by lia.
      replace (reads_on KProposalV2 (s_bytes m buf)) with false.
      2: { unfold reads_on, min_length. unfold ProposalV2Len in E. lia. }
      split; [exact L|]. reflexivity.
    + replace ((s_len buf <? 8) || reads_on KProposalV2 (s_bytes m buf)) with true.
      2: { unfold reads_on, min_length. unfold ProposalV2Len in E. lia. }
      unfold HeaderLen, PeerIDLen. cbn [Nat.add]. torn_steps buf Hok z. all: try leaf3.
      all: apply (p2_rest m buf _ _ p2_Trailer Hok L Hwf7); [|reflexivity..]; intros [] H1 H2 H3;
        cbv beta; rewrite H1; (split; [exact H2|]); (split; [exact H3|]); leaf.
Qed.

(** ** All CLC messages *)

Lemma inside_torn {R} (G : Message -> Prop) con (w : W R unit) r l new :
  torn (fun x => G (con x)) (w r) -> inside con w r = (l, Panicked, new) -> G new.
Proof.
  unfold torn, inside. destruct (w r) as [[l1 o1] r1]. cbn. intros H [= <- -> <-]. apply H. reflexivity.
Qed.

Ltac same_for_confirm :=
  intros (H1 & H2 & H3); (split; [exact H1|]); (split; [exact H2|]);
  revert H3; cbn [kind_of]; match goal with |- (if ?a then _ else _) -> (if ?b then _ else _) =>
    change b with a; destruct a end;
  [intros H; exact H|intros (h & Hh & En); exists h; split; [exact Hh|]; cbn in En |- *; congruence].

Lemma Message_torn m buf old l new : slice_ok m buf -> message_wf old ->
  Message_W m buf old = (l, Panicked, new) -> after_panic m buf old new.
Proof.
  intros Hok Hwf E.
  destruct old; cbn [Message_W message_wf] in *;
    apply (inside_torn (after_panic m buf _) _ _ _ _ _) with (2 := E).
  - apply Proposal_torn; assumption.
  - apply ProposalV2_torn; assumption.
  - apply AcceptSMCR_torn; assumption.
  - apply AcceptSMCD_torn; assumption.
  - apply AcceptSMCDv2_torn; assumption.
  - intros P. destruct c as [a]. generalize (AcceptSMCR_torn m buf a Hok Hwf P).
    same_for_confirm.
  - intros P. destruct c as [a]. generalize (AcceptSMCD_torn m buf a Hok Hwf P).
    same_for_confirm.
  - intros P. destruct c as [a]. generalize (AcceptSMCDv2_torn m buf a Hok Hwf P).
    same_for_confirm.
  - apply Decline_torn; assumption.
  - apply DeclineV2_torn; assumption.
Qed.
