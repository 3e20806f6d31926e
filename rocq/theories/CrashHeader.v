(** * CrashHeader: the header after a panic. Proofs only. *)

From Coq Require Import NArith ZArith Bool String Arith List Lia.
From Coq Require Import ZifyBool ZifyNat ZifyN.
From Verif Require Import GoBase GoFmt ClcModel LlcModel Setters WriteModel LlcWriteModel Slices Wire
  WireLemmas ClcView LlcView Steps ClcParse ClcFixed ClcProposalV2 ClcProposalV2Any Recover RecoverSteps RecoverClc Accepted Spare SpareSteps SpareClc Keep Crash.
From Verif Require WriteFacts.
Import ListNotations.
Local Open Scope nat_scope.

(** nothing behind the header writes to the header *)
Lemma header_only {R} (g : R -> Header) s (w : W Header unit) (k : unit -> W R unit) r :
  (forall h r, g (s h r) = h) -> (forall h, keeps (fun r => g r = h) (k tt)) ->
  g (snd (wbind (part g s w) k r)) = snd (w (g r)).
Proof.
  intros H1 H2. unfold wbind, part. destruct (w (g r)) as [[l [[]| |]] h]; cbn [snd]; [|apply H1..].
  specialize (H2 h (s h r) (H1 h r)). destruct (k tt (s h r)) as [[l2 o] r2]. exact H2.
Qed.

Lemma keeps_any {R A} (w : W R A) : keeps (fun _ => True) w.
Proof. intros r _. exact I. Qed.

Ltac keep_rest :=
  repeat first
  [ apply (keeps_part _ (fun _ => True)); [intros; exact I|solve [kept]|apply keeps_any]
  | keep1 ].

Ltac same_header :=
  unfold wbind at 1, change at 1; cbv iota beta;
  match goal with |- context [wbind (part ?g ?s ?w) ?k ?r] =>
    let H := fresh in
    pose proof (header_only g s w k r) as H;
    destruct (wbind (part g s w) k r) as [[? ?] ?]; cbn [snd] in H |- *; apply H; clear H;
    [reflexivity|intros ?; cbv beta; keep_rest]
  end.

Lemma AcceptSMCR_header m buf a :
  ar_Header (snd (AcceptSMCR_W m buf a)) = snd (Header_W m buf (ar_Header a)).
Proof. unfold AcceptSMCR_W. same_header. Qed.

Lemma AcceptSMCD_header m buf a :
  ad_Header (snd (AcceptSMCD_W m buf a)) = snd (Header_W m buf (ad_Header a)).
Proof. unfold AcceptSMCD_W. same_header. Qed.

Lemma AcceptSMCDv2_header m buf a :
  a2_Header (snd (AcceptSMCDv2_W m buf a)) = snd (Header_W m buf (a2_Header a)).
Proof. unfold AcceptSMCDv2_W, fce_W. same_header. Qed.

Lemma Decline_header m buf a :
  d_Header (snd (Decline_W m buf a)) = snd (Header_W m buf (d_Header a)).
Proof. unfold Decline_W. same_header. Qed.

Lemma DeclineV2_header m buf a :
  d2_Header (snd (DeclineV2_W m buf a)) = snd (Header_W m buf (d2_Header a)).
Proof. unfold DeclineV2_W. same_header. Qed.

Lemma Proposal_header m buf a :
  p_Header (snd (Proposal_W m buf a)) = snd (Header_W m buf (p_Header a)).
Proof. unfold Proposal_W, smcd_v1_W. same_header. Qed.

Lemma ProposalV2_header m buf a :
  p2_Header (snd (ProposalV2_W m buf a)) = snd (Header_W m buf (p2_Header a)).
Proof. unfold ProposalV2_W. same_header. Qed.

Lemma inside_snd {R} (con : R -> Message) (w : W R unit) r : snd (inside con w r) = con (snd (w r)).
Proof. unfold inside. destruct (w r) as [[l o] r1]. reflexivity. Qed.

Lemma Message_header m buf old :
  header_of (snd (Message_W m buf old)) = snd (Header_W m buf (header_of old)).
Proof.
  destruct old; cbn [Message_W]; rewrite inside_snd; cbn [header_of cr_Accept cd_Accept c2_Accept].
  - apply Proposal_header.
  - apply ProposalV2_header.
  - apply AcceptSMCR_header.
  - apply AcceptSMCD_header.
  - apply AcceptSMCDv2_header.
  - apply AcceptSMCR_header.
  - apply AcceptSMCD_header.
  - apply AcceptSMCDv2_header.
  - apply Decline_header.
  - apply DeclineV2_header.
Qed.

(** Parse of a v1 Decline never sets the OS type *)
Lemma Decline_os m buf d : d_OSType (snd (Decline_W m buf d)) = d_OSType d.
Proof.
  assert (K : keeps (fun x => d_OSType x = d_OSType d) (Decline_W m buf)).
  { unfold Decline_W. keep_rest. }
  apply K. reflexivity.
Qed.

(** the header *)
Lemma Header_panics m buf h : slice_ok m buf -> header_wf h -> s_len buf < 8 ->
  snd (fst (Header_W m buf h)) = Panicked.
Proof.
  intros Hok Hwf L. pose proof (WriteFacts.Header_agrees m buf h) as A.
  rewrite Header_Parse_panic in A by assumption. destruct (Header_W m buf h) as [[l [[]| |]] h1]; cbn in A; try discriminate. reflexivity.
Qed.

Lemma Pathv2_torn m buf h : slice_ok m buf -> header_wf h -> s_len buf < 8 ->
  torn (fun h' => h_Pathv2 h' = h_Pathv2 h) (Header_W m buf h).
Proof.
  intros Hok Hwf L. unfold header_wf in Hwf. rewrite (from_start buf). unfold Header_W, EyecatcherLen.
  pose proof (len_le_cap _ _ Hok) as Hc. pose (z := zeros 8). clearbody z.
  destruct h as [? ? ? ? ? ? ? ?]. cbn in Hwf.
  repeat spare_step Hok z. all: reflexivity.
Qed.

Lemma Header_left m buf h : slice_ok m buf -> header_wf h ->
  header_left (reach m buf) (s_len buf) h (snd (Header_W m buf h)).
Proof.
  intros Hok Hwf. pose proof (len_le_cap _ _ Hok) as Hc. pose proof (s_bytes_length m buf Hok) as Hl.
  pose proof (win_length m buf Hok) as Hw.
  unfold header_left. destruct (s_len buf <? 8) eqn:E.
  - assert (P : snd (fst (Header_W m buf h)) = Panicked) by (apply Header_panics; [assumption..|lia]).
    pose proof (Header_spare m buf (zeros 8) h Hok Hwf) as S.
    pose proof (Pathv2_torn m buf h Hok Hwf ltac:(lia)) as T.
    unfold torn in S, T. destruct (Header_W m buf h) as [[l o] h1]. cbn [fst snd] in *. subst o.
    split; [|apply T; reflexivity]. destruct (S eq_refl) as (_ & _ & S1 & _).
    eapply spare_decoded; [exact Hok| |exact S1]. apply hdr_view. rewrite app_length, zeros_length. lia.
  - pose proof (WriteFacts.Header_agrees m buf h) as A. rewrite Header_Parse_ok in A by (assumption || lia).
    destruct (Header_W m buf h) as [[l [[]| |]] h1]; cbn in A; try discriminate. injection A as _ ->. cbn [snd].
    rewrite <- (spare_hdr m buf []) by (assumption || lia). rewrite app_nil_r. change (reach m buf) with (win m buf).
    split; [|apply hdr_pathv2; lia].
    rewrite hdr_view by lia. unfold left_fields.
    replace (fields_read moves_never (s_len buf) (length (win m buf)) clc_header 0) with 7.
    2: { symmetry. apply fields_read_is.
         - cbn; lia.
         - change (len_all moves_never (firstn 7 clc_header) 0) with 64. lia.
         - change (layout_bits (firstn 7 clc_header)) with 64. lia.
         - exact I. }
    change (firstn 7 (decode clc_header (win m buf))) with (decode clc_header (win m buf)).
    change (unread moves_never clc_header 7 (win m buf) (s_len buf) (header_view h)) with (@nil (string * val)).
    rewrite app_nil_r. reflexivity.
Qed.
