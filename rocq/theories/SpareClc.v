(** * SpareClc: CLC messages after a panic, with spare capacity. Proofs only. *)

From Coq Require Import NArith ZArith Bool String Arith List Lia.
From Coq Require Import ZifyBool ZifyNat ZifyN.
From Verif Require Import GoBase GoFmt ClcModel LlcModel RoceModel Setters WriteModel LlcWriteModel Slices Wire
  WireLemmas ClcView LlcView Steps ClcParse ClcFixed ClcSmcdv2 ClcProposal ClcProposalV2 Recover
  RecoverSteps RecoverClc Accepted Spare SpareSteps.
From Verif Require Keep WriteFacts.
Import ListNotations.
Local Open Scope nat_scope.

(** ** Header *)

Definition header_spare (m : mem) (buf : slice) (z : list byte) (h h' : Header) : Prop :=
  s_len buf < 8 /\
  spare_so_far moves_always clc_header m buf (header_view (hdr_of (win m buf ++ z))) (header_view h) (header_view h') /\
  spare_so_far moves_never clc_header m buf (header_view (hdr_of (win m buf ++ z))) (header_view h) (header_view h') /\
  spare_so_far moves_never clc_header_v2proposal m buf (header_v2proposal_view (hdr_of (win m buf ++ z)))
    (header_v2proposal_view h) (header_v2proposal_view h').

Lemma Header_spare m buf z h : slice_ok m buf -> header_wf h ->
  torn (header_spare m buf z h) (Header_W m buf h).
Proof.
  intros Hok Hwf. unfold header_wf in Hwf. rewrite (from_start buf) at 2. unfold Header_W, EyecatcherLen.
  pose proof (len_le_cap _ _ Hok) as Hc.
  destruct h as [? ? ? ? ? ? ? ?]. cbn in Hwf.
  repeat spare_step Hok z. all: unfold header_spare; split; [lia|]; split; [spare_leaf|]; split; spare_leaf.
Qed.

Lemma spare_hdr m buf z : slice_ok m buf -> 8 <= s_len buf ->
  hdr_of (win m buf ++ z) = hdr_of (s_bytes m buf).
Proof.
  intros Hok L. pose proof (len_le_cap _ _ Hok). unfold hdr_of, bn, num.
  rewrite <- !(spare_seg m buf Hok z), <- !(spare_nth m buf Hok z) by lia.
  rewrite !(seg_win m buf Hok), !(nth_win m buf Hok) by lia. reflexivity.
Qed.

Lemma spare_Header_step {R B} m buf z (G : R -> Prop) get set (k : unit -> W R B) r :
  slice_ok m buf -> header_wf (get r) ->
  (forall h, header_spare m buf z (get r) h -> G (set h r)) ->
  (8 <= s_len buf -> torn G (k tt (set (hdr_of (win m buf ++ z)) r))) ->
  torn G (wbind (part get set (Header_W m buf)) k r).
Proof.
  intros Hok Hwf H1 H2. apply torn_part.
  - intros P. apply H1. apply Header_spare; assumption.
  - intros l [] p E. pose proof (WriteFacts.Header_agrees m buf (get r)) as A. rewrite E in A. cbn in A.
    destruct (le_lt_dec 8 (s_len buf)) as [L|L].
    + rewrite Header_Parse_ok in A by assumption. injection A as _ ->. rewrite <- (spare_hdr m buf z) by assumption.
      apply H2, L.
    + rewrite Header_Parse_panic in A by assumption. discriminate.
Qed.

Lemma fields_read_le j n cap l : forall off, fields_read j n cap l off <= length l.
Proof.
  induction l as [|[? ?] l IH]; intros off; cbn [fields_read length]; [lia|].
  destruct (field_read _ _ _ _ _); [specialize (IH (off + kind_bits k))|]; lia.
Qed.

Lemma fields_read_short j n cap l : forall off, 8 * n < len_all j l off ->
  fields_read j n cap l off < length l.
Proof.
  induction l as [|[? kd] l IH]; intros off H; cbn [fields_read length len_all] in *; [lia|].
  destruct (field_read j n cap off kd) eqn:E; [|lia]. unfold field_read in E.
  specialize (IH (off + kind_bits kd)). lia.
Qed.

Lemma fields_read_app j n cap l1 l2 : forall off, fields_read j n cap l1 off < length l1 ->
  fields_read j n cap (l1 ++ l2) off = fields_read j n cap l1 off.
Proof.
  induction l1 as [|[? kd] l IH]; intros off H; cbn [fields_read length app] in *; [lia|].
  destruct (field_read j n cap off kd) eqn:E; [|reflexivity]. f_equal. apply IH. lia.
Qed.

(** a format that ends inside its first part *)
Lemma spare_app j l1 l2 m buf w1 w2 o1 n1 x :
  length w1 = length l1 -> length o1 = length l1 ->
  8 * s_len buf < len_all j l1 0 ->
  spare_so_far j l1 m buf w1 o1 n1 -> spare_so_far j (l1 ++ l2) m buf (w1 ++ w2) (o1 ++ x) (n1 ++ x).
Proof.
  intros Ew Eo L H. unfold spare_so_far in *. cbv zeta in *.
  pose proof (fields_read_short j (s_len buf) (s_cap buf) l1 0 L) as K.
  rewrite fields_read_app by assumption. set (k := fields_read _ _ _ l1 0) in *. rewrite H.
  rewrite firstn_app, Ew. replace (k - length l1) with 0 by lia. rewrite firstn_O, app_nil_r, <- app_assoc.
  f_equal. unfold unread. rewrite !skipn_app, firstn_app, Eo. replace (k - length l1) with 0 by lia.
  rewrite firstn_O, app_nil_r, !skipn_O.
  destruct (skipn k l1) as [|f r1] eqn:E1.
  { apply (f_equal (@length _)) in E1. rewrite skipn_length in E1. cbn in E1. lia. }
  destruct (skipn k o1) as [|v r2] eqn:E2.
  { apply (f_equal (@length _)) in E2. rewrite skipn_length in E2. cbn in E2. lia. }
  reflexivity.
Qed.

Lemma spare_declared m buf z : slice_ok m buf -> 8 <= s_len buf ->
  h_Length (hdr_of (win m buf ++ z)) = declared (s_bytes m buf).
Proof.
  intros Hok L. rewrite spare_hdr by assumption. apply declared_hdr. rewrite s_bytes_length by assumption. lia.
Qed.

Ltac spare_length m buf z Hok L :=
  match goal with |- context [h_Length ?h] =>
    replace (h_Length h) with (declared (s_bytes m buf))
      by (symmetry; exact (spare_declared m buf z Hok L)) end.

Ltac spare_steps buf Hok z := repeat first [at_start buf; spare_step Hok z|spare_step Hok z].

Ltac spare_leaf3 := cbv beta; (split; [reflexivity|]); (split; [reflexivity|]); (split; [|exact I]); spare_leaf.

Lemma AcceptSMCD_spare m buf old : slice_ok m buf -> accept_smcd_wf old ->
  torn (fun new => left_behind m buf (MAcceptSMCD old) (MAcceptSMCD new)) (AcceptSMCD_W m buf old).
Proof.
  intros Hok Hwf. pose proof (s_bytes_length m buf Hok) as Hl. pose (z := zeros 120). pose proof (len_le_cap _ _ Hok) as Hc.
  enough (H : torn (fun new => ad_Raw new = buf /\ ad_Trailer new = ad_Trailer old /\
    if (s_len buf <? 8) || reads_on KAcceptSMCD (s_bytes m buf)
    then spare_so_far moves_always (clc_header ++ accept_smcd_body) m buf
      (read_view (MAcceptSMCD (smcd_of buf (win m buf ++ z)))) (read_view (MAcceptSMCD old)) (read_view (MAcceptSMCD new)) /\ True
    else 8 <= s_len buf /\ MAcceptSMCD new = with_header (MAcceptSMCD old) buf (hdr_of (win m buf ++ z)))
    (AcceptSMCD_W m buf old)).
  { intros P. destruct (H P) as (H1 & H2 & H3). unfold left_behind. cbn [raw_of trailer_of kind_of read_layout].
    split; [exact H1|]. split; [exact H2|]. rewrite Hl. cbn [spare_layout clc_joined read_layout spare_view].
    destruct ((s_len buf <? 8) || reads_on KAcceptSMCD (s_bytes m buf)).
    - split; [|exact I]. eapply spare_decoded; [exact Hok| |exact (proj1 H3)]. apply smcd_of_view. rewrite app_length. unfold z. rewrite zeros_length. lia.
    - destruct H3 as [L ->]. exists (hdr_of (win m buf ++ z)). rewrite spare_hdr by assumption.
      split; [split; [apply hdr_view|apply hdr_v2_view]; lia|reflexivity]. }
  clearbody z. destruct Hwf as (Hwf1 & Hwf2 & Hwf3 & Hwf4). unfold AcceptSMCD_W.
  destruct old as [? ? ? ? ? ? ? ? ? ? ?]. cbn in Hwf1, Hwf2, Hwf3, Hwf4. apply torn_change. receiver.
  apply (spare_Header_step m buf z); [exact Hok|exact Hwf1|intros h (L & Hh)|intros L].
  - split; [reflexivity|]. split; [reflexivity|]. replace (s_len buf <? 8) with true by lia. cbn [orb].
    (split; [|exact I]). apply spare_app; [reflexivity..|change (len_all moves_always clc_header 0) with 64; lia|apply Hh].
  - receiver. apply torn_get. receiver. spare_length m buf z Hok L.
    destruct (declared (s_bytes m buf) <? AcceptSMCDLen)%N eqn:E.
    + apply complain_torn. split; [reflexivity|]. split; [reflexivity|].
      replace (s_len buf <? 8) with false by lia.
      replace (reads_on KAcceptSMCD (s_bytes m buf)) with false.
      2: { unfold reads_on, min_length. unfold AcceptSMCDLen in E. lia. }
      split; [exact L|]. reflexivity.
    + replace ((s_len buf <? 8) || reads_on KAcceptSMCD (s_bytes m buf)) with true.
      2: { unfold reads_on, min_length. unfold AcceptSMCDLen in E. lia. }
      unfold HeaderLen, PeerIDLen. spare_steps buf Hok z. all: try spare_leaf3.
      apply torn_end, Trailer_step; [exact Hok|lia|assumption|intros ?T]. spare_leaf3.
Qed.

Lemma AcceptSMCR_spare m buf old : slice_ok m buf -> accept_smcr_wf old ->
  torn (fun new => left_behind m buf (MAcceptSMCR old) (MAcceptSMCR new)) (AcceptSMCR_W m buf old).
Proof.
  intros Hok Hwf. pose proof (s_bytes_length m buf Hok) as Hl. pose (z := zeros 120). pose proof (len_le_cap _ _ Hok) as Hc.
  enough (H : torn (fun new => ar_Raw new = buf /\ ar_Trailer new = ar_Trailer old /\
    if (s_len buf <? 8) || reads_on KAcceptSMCR (s_bytes m buf)
    then spare_so_far moves_always (clc_header ++ accept_smcr_body) m buf
      (read_view (MAcceptSMCR (smcr_of buf (win m buf ++ z)))) (read_view (MAcceptSMCR old)) (read_view (MAcceptSMCR new)) /\ True
    else 8 <= s_len buf /\ MAcceptSMCR new = with_header (MAcceptSMCR old) buf (hdr_of (win m buf ++ z)))
    (AcceptSMCR_W m buf old)).
  { intros P. destruct (H P) as (H1 & H2 & H3). unfold left_behind. cbn [raw_of trailer_of kind_of read_layout].
    split; [exact H1|]. split; [exact H2|]. rewrite Hl. cbn [spare_layout clc_joined read_layout spare_view].
    destruct ((s_len buf <? 8) || reads_on KAcceptSMCR (s_bytes m buf)).
    - split; [|exact I]. eapply spare_decoded; [exact Hok| |exact (proj1 H3)]. apply smcr_of_view. rewrite app_length. unfold z. rewrite zeros_length. lia.
    - destruct H3 as [L ->]. exists (hdr_of (win m buf ++ z)). rewrite spare_hdr by assumption.
      split; [split; [apply hdr_view|apply hdr_v2_view]; lia|reflexivity]. }
  clearbody z. destruct Hwf as (Hwf1 & Hwf2 & Hwf3). unfold AcceptSMCR_W.
  destruct old as [? ? ? ? ? ? ? ? ? ? ? ? ? ? ? ?]. cbn in Hwf1, Hwf2, Hwf3. apply torn_change. receiver.
  apply (spare_Header_step m buf z); [exact Hok|exact Hwf1|intros h (L & Hh)|intros L].
  - split; [reflexivity|]. split; [reflexivity|]. replace (s_len buf <? 8) with true by lia. cbn [orb].
    (split; [|exact I]). apply spare_app; [reflexivity..|change (len_all moves_always clc_header 0) with 64; lia|apply Hh].
  - receiver. apply torn_get. receiver. spare_length m buf z Hok L.
    destruct (declared (s_bytes m buf) <? AcceptSMCRLen)%N eqn:E.
    + apply complain_torn. split; [reflexivity|]. split; [reflexivity|].
      replace (s_len buf <? 8) with false by lia.
      replace (reads_on KAcceptSMCR (s_bytes m buf)) with false.
      2: { unfold reads_on, min_length. unfold AcceptSMCRLen in E. lia. }
      split; [exact L|]. reflexivity.
    + replace ((s_len buf <? 8) || reads_on KAcceptSMCR (s_bytes m buf)) with true.
      2: { unfold reads_on, min_length. unfold AcceptSMCRLen in E. lia. }
      unfold HeaderLen, PeerIDLen. spare_steps buf Hok z. all: try spare_leaf3.
      apply torn_end, Trailer_step; [exact Hok|lia|assumption|intros ?T]. spare_leaf3.
Qed.

Lemma Decline_spare m buf old : slice_ok m buf -> decline_wf old ->
  torn (fun new => left_behind m buf (MDecline old) (MDecline new)) (Decline_W m buf old).
Proof.
  intros Hok Hwf. pose proof (s_bytes_length m buf Hok) as Hl. pose (z := zeros 120). pose proof (len_le_cap _ _ Hok) as Hc.
  enough (H : torn (fun new => d_Raw new = buf /\ d_Trailer new = d_Trailer old /\
    if (s_len buf <? 8) || reads_on KDecline (s_bytes m buf)
    then spare_so_far moves_always (clc_header ++ decline_body) m buf
      (read_view (MDecline (decline_of old buf (win m buf ++ z)))) (read_view (MDecline old)) (read_view (MDecline new)) /\ True
    else 8 <= s_len buf /\ MDecline new = with_header (MDecline old) buf (hdr_of (win m buf ++ z)))
    (Decline_W m buf old)).
  { intros P. destruct (H P) as (H1 & H2 & H3). unfold left_behind. cbn [raw_of trailer_of kind_of read_layout].
    split; [exact H1|]. split; [exact H2|]. rewrite Hl. cbn [spare_layout clc_joined read_layout spare_view].
    destruct ((s_len buf <? 8) || reads_on KDecline (s_bytes m buf)).
    - split; [|exact I]. eapply spare_decoded; [exact Hok| |exact (proj1 H3)]. apply decline_of_view. rewrite app_length. unfold z. rewrite zeros_length. lia.
    - destruct H3 as [L ->]. exists (hdr_of (win m buf ++ z)). rewrite spare_hdr by assumption.
      split; [split; [apply hdr_view|apply hdr_v2_view]; lia|reflexivity]. }
  clearbody z. destruct Hwf as (Hwf1 & Hwf2 & Hwf3 & Hwf4). unfold Decline_W.
  destruct old as [? ? ? ? ? ? ?]. cbn in Hwf1, Hwf2, Hwf3, Hwf4. apply torn_change. receiver.
  apply (spare_Header_step m buf z); [exact Hok|exact Hwf1|intros h (L & Hh)|intros L].
  - split; [reflexivity|]. split; [reflexivity|]. replace (s_len buf <? 8) with true by lia. cbn [orb].
    (split; [|exact I]). apply spare_app; [reflexivity..|change (len_all moves_always clc_header 0) with 64; lia|apply Hh].
  - receiver. apply torn_get. receiver. spare_length m buf z Hok L.
    destruct (declared (s_bytes m buf) <? DeclineLen)%N eqn:E.
    + apply complain_torn. split; [reflexivity|]. split; [reflexivity|].
      replace (s_len buf <? 8) with false by lia.
      replace (reads_on KDecline (s_bytes m buf)) with false.
      2: { unfold reads_on, min_length. unfold DeclineLen in E. lia. }
      split; [exact L|]. reflexivity.
    + replace ((s_len buf <? 8) || reads_on KDecline (s_bytes m buf)) with true.
      2: { unfold reads_on, min_length. unfold DeclineLen in E. lia. }
      unfold HeaderLen, PeerIDLen. spare_steps buf Hok z. all: try spare_leaf3.
      apply torn_end, Trailer_step; [exact Hok|lia|assumption|intros ?T]. spare_leaf3.
Qed.

Lemma AcceptSMCDv2_spare m buf old : slice_ok m buf -> accept_smcdv2_wf old ->
  torn (fun new => left_behind m buf (MAcceptSMCDv2 old) (MAcceptSMCDv2 new)) (AcceptSMCDv2_W m buf old).
Proof.
  intros Hok Hwf. pose proof (s_bytes_length m buf Hok) as Hl. pose (z := zeros 120). pose proof (len_le_cap _ _ Hok) as Hc.
  enough (H : torn (fun new => a2_Raw new = buf /\ a2_Trailer new = a2_Trailer old /\
    if (s_len buf <? 8) || reads_on KAcceptSMCDv2 (s_bytes m buf)
    then spare_so_far moves_always (clc_header ++ accept_smcdv2_body ++ fce_body) m buf
      (read_view (MAcceptSMCDv2 (smcdv2_fce_of buf (win m buf ++ z)))) (read_view (MAcceptSMCDv2 old))
      (read_view (MAcceptSMCDv2 new)) /\ True
    else 8 <= s_len buf /\ MAcceptSMCDv2 new = with_header (MAcceptSMCDv2 old) buf (hdr_of (win m buf ++ z)))
    (AcceptSMCDv2_W m buf old)).
  { intros P. destruct (H P) as (H1 & H2 & H3). unfold left_behind. cbn [raw_of trailer_of kind_of read_layout].
    split; [exact H1|]. split; [exact H2|]. rewrite Hl. cbn [spare_layout clc_joined read_layout spare_view].
    destruct ((s_len buf <? 8) || reads_on KAcceptSMCDv2 (s_bytes m buf)).
    - split; [|exact I]. eapply spare_decoded; [exact Hok| |exact (proj1 H3)]. apply smcdv2_fce_of_view. rewrite app_length. unfold z. rewrite zeros_length. lia.
    - destruct H3 as [L ->]. exists (hdr_of (win m buf ++ z)). rewrite spare_hdr by assumption.
      split; [split; [apply hdr_view|apply hdr_v2_view]; lia|reflexivity]. }
  clearbody z. destruct Hwf as (Hwf1 & Hwf2 & Hwf3 & Hwf4 & Hwf5 & Hwf6 & Hwf7). unfold AcceptSMCDv2_W.
  destruct old as [? ? ? ? ? ? ? ? ? ? ? ? ? ? ? ? ? ?].
  cbn in Hwf1, Hwf2, Hwf3, Hwf4, Hwf5, Hwf6, Hwf7. apply torn_change. receiver.
  apply (spare_Header_step m buf z); [exact Hok|exact Hwf1|intros h (L & Hh)|intros L].
  - split; [reflexivity|]. split; [reflexivity|]. replace (s_len buf <? 8) with true by lia. cbn [orb].
    cbn [read_view]. unfold accept_smcdv2_view. rewrite <- !app_assoc.
    (split; [|exact I]). apply spare_app; [reflexivity..|change (len_all moves_always clc_header 0) with 64; lia|apply Hh].
  - receiver. apply torn_get. receiver. spare_length m buf z Hok L.
    destruct ((declared (s_bytes m buf) <? AcceptSMCDv2Len)%N || (N.of_nat (s_len buf) <? AcceptSMCDv2Len)%N) eqn:E.
    + apply complain_torn. split; [reflexivity|]. split; [reflexivity|].
      replace (s_len buf <? 8) with false by lia.
      replace (reads_on KAcceptSMCDv2 (s_bytes m buf)) with false.
      2: { unfold reads_on, min_length. unfold AcceptSMCDv2Len in E. lia. }
      split; [exact L|]. reflexivity.
    + assert (L2 : 78 <= s_len buf) by (unfold AcceptSMCDv2Len in E; lia).
      replace ((s_len buf <? 8) || reads_on KAcceptSMCDv2 (s_bytes m buf)) with true.
      2: { unfold reads_on, min_length. unfold AcceptSMCDv2Len in E. lia. }
      unfold HeaderLen, PeerIDLen, EIDLen. spare_steps buf Hok z.
      unfold fce_W at 1. destruct (declared (s_bytes m buf) =? AcceptSMCDv2FCELen)%N.
      * unfold EIDLen. spare_steps buf Hok z. all: try spare_leaf3.
        apply torn_end, Trailer_step; [exact Hok|lia|assumption|intros ?T]. spare_leaf3.
      * eapply torn_ok with (l := []); [reflexivity|]. receiver. spare_steps buf Hok z.
        apply torn_end, Trailer_step; [exact Hok|lia|assumption|intros ?T]. exfalso; lia.
Qed.

Lemma Proposal_spare m buf old : slice_ok m buf -> proposal_wf old ->
  torn (fun new => left_behind m buf (MProposal old) (MProposal new)) (Proposal_W m buf old).
Proof.
  intros Hok Hwf. pose proof (s_bytes_length m buf Hok) as Hl. pose (z := zeros 120). pose proof (len_le_cap _ _ Hok) as Hc.
  enough (H : torn (fun new => p_Raw new = buf /\ p_Trailer new = p_Trailer old /\
    if (s_len buf <? 8) || reads_on KProposal (s_bytes m buf)
    then spare_so_far moves_never (clc_header ++ proposal_body) m buf
      (proposal_view (p1_of old buf (hdr_of (win m buf ++ z)) (win m buf ++ z) (p_IP old) []))
      (proposal_view old) (proposal_view new) /\ True
    else 8 <= s_len buf /\ MProposal new = with_header (MProposal old) buf (hdr_of (win m buf ++ z)))
    (Proposal_W m buf old)).
  { intros P. destruct (H P) as (H1 & H2 & H3). unfold left_behind. cbn [raw_of trailer_of kind_of read_layout].
    split; [exact H1|]. split; [exact H2|]. rewrite Hl. cbn [spare_layout clc_joined read_layout spare_view].
    destruct ((s_len buf <? 8) || reads_on KProposal (s_bytes m buf)).
    - split; [|exact I]. eapply spare_decoded; [exact Hok| |exact (proj1 H3)]. apply p1_fixed_view. rewrite app_length. unfold z. rewrite zeros_length. lia.
    - destruct H3 as [L ->]. exists (hdr_of (win m buf ++ z)). rewrite spare_hdr by assumption.
      split; [split; [apply hdr_view|apply hdr_v2_view]; lia|reflexivity]. }
  clearbody z. destruct Hwf as (Hwf1 & Hwf2 & Hwf3 & Hwf4 & Hwf5). unfold Proposal_W.
  destruct old as [? ? ? ? ? ? ? ? ? ?].
  cbn in Hwf1, Hwf2, Hwf3, Hwf4, Hwf5. apply torn_change. receiver.
  apply (spare_Header_step m buf z); [exact Hok|exact Hwf1|intros h (L & Hh)|intros L].
  - split; [reflexivity|]. split; [reflexivity|]. replace (s_len buf <? 8) with true by lia. cbn [orb].
    (split; [|exact I]). apply spare_app; [reflexivity..|change (len_all moves_never clc_header 0) with 64; lia|apply Hh].
  - receiver. apply torn_get. receiver. spare_length m buf z Hok L.
    destruct (declared (s_bytes m buf) <? ProposalLen)%N eqn:E.
    + apply complain_torn. split; [reflexivity|]. split; [reflexivity|].
      replace (s_len buf <? 8) with false by lia.
      replace (reads_on KProposal (s_bytes m buf)) with false.
      2: { unfold reads_on, min_length. unfold ProposalLen in E. lia. }
      split; [exact L|]. reflexivity.
    + replace ((s_len buf <? 8) || reads_on KProposal (s_bytes m buf)) with true.
      2: { unfold reads_on, min_length. unfold ProposalLen in E. lia. }
      unfold HeaderLen, PeerIDLen. cbn [Nat.add]. spare_steps buf Hok z. all: try spare_leaf3.
      all: apply (p1_rest m buf _ _ p_Trailer Hok L Hwf5); [|reflexivity..]; intros [] H1 H2 H3;
        cbv beta; rewrite H1; (split; [exact H2|]); (split; [exact H3|]); (split; [|exact I]); spare_leaf.
Qed.

Lemma ProposalV2_spare m buf old : slice_ok m buf -> proposalv2_wf old ->
  torn (fun new => left_behind m buf (MProposalV2 old) (MProposalV2 new)) (ProposalV2_W m buf old).
Proof.
  intros Hok Hwf. pose proof (s_bytes_length m buf Hok) as Hl. pose (z := zeros 120). pose proof (len_le_cap _ _ Hok) as Hc.
  enough (H : torn (fun new => p2_Raw new = buf /\ p2_Trailer new = p2_Trailer old /\
    if (s_len buf <? 8) || reads_on KProposalV2 (s_bytes m buf)
    then spare_so_far moves_never (clc_header_v2proposal ++ proposalv2_body) m buf
      (proposalv2_view (p2_fixed buf (win m buf ++ z) old))
      (proposalv2_view old) (proposalv2_view new) /\ True
    else 8 <= s_len buf /\ MProposalV2 new = with_header (MProposalV2 old) buf (hdr_of (win m buf ++ z)))
    (ProposalV2_W m buf old)).
  { intros P. destruct (H P) as (H1 & H2 & H3). unfold left_behind. cbn [raw_of trailer_of kind_of read_layout].
    split; [exact H1|]. split; [exact H2|]. rewrite Hl. cbn [spare_layout clc_joined read_layout spare_view].
    destruct ((s_len buf <? 8) || reads_on KProposalV2 (s_bytes m buf)).
    - split; [|exact I]. eapply spare_decoded; [exact Hok| |exact (proj1 H3)]. apply p2_bytes_view. rewrite app_length. unfold z. rewrite zeros_length. lia.
    - destruct H3 as [L ->]. exists (hdr_of (win m buf ++ z)). rewrite spare_hdr by assumption.
      split; [split; [apply hdr_view|apply hdr_v2_view]; lia|reflexivity]. }
  clearbody z. destruct Hwf as (Hwf1 & Hwf2 & Hwf3 & Hwf4 & Hwf5 & Hwf6 & Hwf7). unfold ProposalV2_W.
  destruct old as [? ? ? ? ? ? ? ? ? ? ? ? ? ?].
  cbn in Hwf1, Hwf2, Hwf3, Hwf7. apply torn_change. receiver.
  apply (spare_Header_step m buf z); [exact Hok|exact Hwf1|intros h (L & Hh)|intros L].
  - split; [reflexivity|]. split; [reflexivity|]. replace (s_len buf <? 8) with true by lia. cbn [orb].
    (split; [|exact I]). apply spare_app; [reflexivity..|change (len_all moves_never clc_header_v2proposal 0) with 64; lia|apply Hh].
  - receiver. apply torn_get. receiver. spare_length m buf z Hok L.
    destruct (declared (s_bytes m buf) <? ProposalV2Len)%N eqn:E.
    + apply complain_torn. split; [reflexivity|]. split; [reflexivity|].
      replace (s_len buf <? 8) with false by lia.
      replace (reads_on KProposalV2 (s_bytes m buf)) with false.
      2: { unfold reads_on, min_length. unfold ProposalV2Len in E. lia. }
      split; [exact L|]. reflexivity.
    + replace ((s_len buf <? 8) || reads_on KProposalV2 (s_bytes m buf)) with true.
      2: { unfold reads_on, min_length. unfold ProposalV2Len in E. lia. }
      unfold HeaderLen, PeerIDLen. cbn [Nat.add]. spare_steps buf Hok z. all: try spare_leaf3.
      all: apply (p2_rest m buf _ _ p2_Trailer Hok L Hwf7); [|reflexivity..]; intros [] H1 H2 H3;
        cbv beta; rewrite H1; (split; [exact H2|]); (split; [exact H3|]); (split; [|exact I]); spare_leaf.
Qed.

(** ** Decline v2 *)

Lemma decline_type bs z : 24 <= length bs ->
  N.shiftr (b2n (nth 20 (bs ++ z) x00)) 4 = bits bs 160 4 /\
  length (mask_first (seg (bs ++ z) 20 4)) = 4 /\ BE (mask_first (seg (bs ++ z) 20 4)) = bits bs 164 28.
Proof.
  intros H. assert (H' : 24 <= length (bs ++ z)) by (rewrite app_length; lia). split; [|split].
  - rewrite <- (bits_more bs z 160 4) by lia. fields.
  - unfold mask_first. rewrite !(seg_S _ _ _ x00), seg_0 by lia. reflexivity.
  - rewrite mask_first_bits by assumption. apply bits_more. lia.
Qed.

Lemma spare_declinev2_view buf bs : 28 <= length bs ->
  spare_view (MDeclineV2 (declinev2_of buf bs)) = decode (spare_layout KDeclineV2) bs.
Proof.
  intros Hb. cbn [spare_view spare_layout]. change (d2_Header (declinev2_of buf bs)) with (hdr_of bs).
  rewrite hdr_view by lia. unfold declinev2_of, clc_header, num. cbn [d2_SenderPeerID d2_PeerDiagnosis].
  cbn -[decode app bits seg BE b2n]. calc_layout. fields.
Qed.

Lemma DeclineV2_spare m buf old : slice_ok m buf -> declinev2_wf old ->
  torn (fun new => left_behind m buf (MDeclineV2 old) (MDeclineV2 new)) (DeclineV2_W m buf old).
Proof.
  intros Hok Hwf. pose proof (s_bytes_length m buf Hok) as Hl. pose (z := zeros 120).
  pose proof (len_le_cap _ _ Hok) as Hc. pose proof (win_length m buf Hok) as Hw.
  enough (H : torn (fun new => d2_Raw new = buf /\ d2_Trailer new = d2_Trailer old /\
    if (s_len buf <? 8) || reads_on KDeclineV2 (s_bytes m buf)
    then spare_so_far moves_always (spare_layout KDeclineV2) m buf
      (spare_view (MDeclineV2 (declinev2_of buf (win m buf ++ z)))) (spare_view (MDeclineV2 old))
      (spare_view (MDeclineV2 new)) /\ declinev2_left (win m buf) (s_len buf) old new
    else 8 <= s_len buf /\ MDeclineV2 new = with_header (MDeclineV2 old) buf (hdr_of (win m buf ++ z)))
    (DeclineV2_W m buf old)).
  { intros P. destruct (H P) as (H1 & H2 & H3). unfold left_behind. cbn [raw_of trailer_of kind_of].
    split; [exact H1|]. split; [exact H2|]. rewrite Hl.
    destruct ((s_len buf <? 8) || reads_on KDeclineV2 (s_bytes m buf)).
    - split; [|exact (proj2 H3)]. eapply spare_decoded; [exact Hok| |exact (proj1 H3)].
      apply spare_declinev2_view. rewrite app_length. unfold z. rewrite zeros_length. lia.
    - destruct H3 as [L ->]. exists (hdr_of (win m buf ++ z)). rewrite spare_hdr by assumption.
      split; [split; [apply hdr_view|apply hdr_v2_view]; lia|reflexivity]. }
  clearbody z. destruct Hwf as (Hwf1 & Hwf2 & Hwf3 & Hwf4). unfold DeclineV2_W.
  destruct old as [? ? ? ? ? ? ?]. cbn in Hwf1, Hwf2, Hwf3, Hwf4. apply torn_change. receiver.
  apply (spare_Header_step m buf z); [exact Hok|exact Hwf1|intros h (L & Hh)|intros L].
  - split; [reflexivity|]. split; [reflexivity|]. replace (s_len buf <? 8) with true by lia. cbn [orb].
    split. 2: { unfold declinev2_left. replace (s_len buf <? 20) with true by lia. split; reflexivity. }
    apply spare_app; [reflexivity..|change (len_all moves_always clc_header 0) with 64; lia|apply Hh].
  - receiver. apply torn_get. receiver. spare_length m buf z Hok L.
    destruct (declared (s_bytes m buf) <? DeclineLen)%N eqn:E.
    + apply complain_torn. split; [reflexivity|]. split; [reflexivity|].
      replace (s_len buf <? 8) with false by lia.
      replace (reads_on KDeclineV2 (s_bytes m buf)) with false.
      2: { unfold reads_on, min_length. unfold DeclineLen in E. lia. }
      split; [exact L|]. reflexivity.
    + replace ((s_len buf <? 8) || reads_on KDeclineV2 (s_bytes m buf)) with true.
      2: { unfold reads_on, min_length. unfold DeclineLen in E. lia. }
      unfold HeaderLen, PeerIDLen. spare_steps buf Hok z.
      all: try (apply torn_end, Trailer_step; [exact Hok|lia|assumption|intros ?T]).
      all: cbv beta; (split; [reflexivity|]); (split; [reflexivity|]); (split; [spare_leaf|]).
      all: unfold declinev2_left; rewrite Hw.
      all: try (replace ((s_len buf <? 20) || (s_cap buf <? 24)) with true by lia; split; reflexivity).
      all: replace ((s_len buf <? 20) || (s_cap buf <? 24)) with false by lia.
      all: try (replace (s_len buf =? 20) with false by lia; apply decline_type; lia).
      replace (s_len buf =? 20) with true by lia. split; [reflexivity|].
      symmetry. apply (spare_seg m buf Hok z). lia.
Qed.

(** ** All CLC messages *)

Ltac spare_confirm :=
  intros (H1 & H2 & H3); (split; [exact H1|]); (split; [exact H2|]);
  revert H3; cbn [kind_of]; match goal with |- (if ?a then _ else _) -> (if ?b then _ else _) =>
    change b with a; destruct a end;
  [intros H; exact H|intros (h & Hh & En); exists h; split; [exact Hh|]; cbn in En |- *; congruence].

Lemma Message_spare m buf old l new : slice_ok m buf -> message_wf old ->
  Message_W m buf old = (l, Panicked, new) -> left_behind m buf old new.
Proof.
  intros Hok Hwf E.
  destruct old; cbn [Message_W message_wf] in *;
    apply (inside_torn (left_behind m buf _) _ _ _ _ _) with (2 := E).
  - apply Proposal_spare; assumption.
  - apply ProposalV2_spare; assumption.
  - apply AcceptSMCR_spare; assumption.
  - apply AcceptSMCD_spare; assumption.
  - apply AcceptSMCDv2_spare; assumption.
  - intros P. destruct c as [a]. generalize (AcceptSMCR_spare m buf a Hok Hwf P). spare_confirm.
  - intros P. destruct c as [a]. generalize (AcceptSMCD_spare m buf a Hok Hwf P). spare_confirm.
  - intros P. destruct c as [a]. generalize (AcceptSMCDv2_spare m buf a Hok Hwf P). spare_confirm.
  - apply Decline_spare; assumption.
  - apply DeclineV2_spare; assumption.
Qed.
