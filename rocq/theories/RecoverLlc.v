(** * RecoverLlc: LLC messages and BTH after a panic. Proofs only. *)

From Coq Require Import NArith ZArith Bool String Arith List Lia.
From Coq Require Import ZifyBool ZifyNat ZifyN.
From Verif Require Import GoBase GoFmt ClcModel LlcModel RoceModel Setters WriteModel LlcWriteModel Slices Wire
  WireLemmas ClcView LlcView Steps ClcParse ClcFixed LlcParse LlcDecode RoceParse Recover
  RecoverSteps.
Import ListNotations.
Local Open Scope nat_scope.

Lemma BaseMsg_torn {R B} m buf z (G : R -> Prop) get set (k : unit -> W R B) r :
  slice_ok m buf ->
  (s_len buf = 0 -> G (set (mkBaseMsg (s_bytes m buf) (b_Type (get r)) (b_Length (get r))) r)) ->
  (s_len buf = 1 -> G (set (mkBaseMsg (s_bytes m buf) (bn (s_bytes m buf ++ z) 0) (b_Length (get r))) r)) ->
  (2 <= s_len buf ->
   torn G (k tt (set (mkBaseMsg (s_bytes m buf) (bn (s_bytes m buf ++ z) 0) (bn (s_bytes m buf ++ z) 1)) r))) ->
  torn G (wbind (part get set (BaseMsg_W m (sub buf 0 (s_len buf - 0)))) k r).
Proof.
  intros Hok H0 H1 H2. pose proof (len_le_cap _ _ Hok) as Hcap.
  assert (Raw : setRaw m (sub buf 0 (s_len buf - 0)) = s_bytes m buf).
  { rewrite Nat.sub_0_r, <- sub_self. apply setRaw_bytes, Hok. }
  apply torn_part.
  - unfold BaseMsg_W. destruct (get r) as [raw ty len]. apply torn_change. receiver. rewrite Raw.
    repeat torn_step Hok z; cbv beta; [apply H0; lia|apply H1; lia].
  - intros l a p E.
    assert (2 <= s_len buf /\ p = mkBaseMsg (s_bytes m buf) (bn (s_bytes m buf ++ z) 0) (bn (s_bytes m buf ++ z) 1) /\ a = tt)
      as (L & -> & ->); [|apply H2, L].
    revert E. unfold BaseMsg_W, wbind, change, assign, wbind, lift, change, byte0.
    destruct (le_lt_dec 2 (s_len buf)) as [L|L].
    + rewrite (idx_sub m buf Hok) by lia. cbn [bind ret fst snd]. rewrite (from_sub buf) by lia. cbn [bind ret fst snd].
      rewrite (idx_sub m buf Hok) by lia. cbn [bind ret fst snd]. intros [= <- <- <-].
      split; [lia|]. split; [|reflexivity]. rewrite Raw. unfold bn.
      rewrite !(nth_win m buf Hok), !(nth_more m buf Hok z) by (cbn; lia). destruct (get r). reflexivity.
    + destruct (le_lt_dec 1 (s_len buf)) as [L1|L1].
      * rewrite (idx_sub m buf Hok) by lia. cbn [bind ret fst snd]. rewrite (from_sub buf) by lia. cbn [bind ret fst snd].
        rewrite (idx_sub_panic m buf) by lia. discriminate.
      * rewrite (idx_sub_panic m buf) by lia. discriminate.
Qed.

Ltac start m buf w :=
  replace (w m buf) with (w m (sub buf 0 (s_len buf - 0))) by (rewrite Nat.sub_0_r, <- sub_self; reflexivity);
  unfold w.

Lemma ConfirmLink_torn m buf old : slice_ok m buf -> llc_wf (LConfirm old) ->
  torn (fun new => kept_fields llc_confirm_link m buf (confirm_link_view old) (confirm_link_view new))
    (ConfirmLink_W m buf old).
Proof.
  intros Hok Hwf. pose (z := zeros 45). enough (H : torn (fun new => kept_so_far llc_confirm_link m buf
    (confirm_link_view (ConfirmLink_of (s_bytes m buf ++ z) old))
    (confirm_link_view old) (confirm_link_view new)) (ConfirmLink_W m buf old)).
  { intros P. eapply kept_decoded; [|exact (H P)]. apply ConfirmLink_view; [exact Hwf|].
    rewrite app_length. unfold z. rewrite zeros_length. lia. }
  clearbody z. cbn [llc_wf] in Hwf. 
  start m buf ConfirmLink_W. destruct old as [[? ? ?] ? ? ? ? ? ? ? ? ? ?].
  apply (BaseMsg_torn m buf z); [exact Hok|intros L; receiver..].
  1,2: leaf.
  repeat torn_step Hok z. all: leaf.
Qed.

Lemma AddLink_torn m buf old : slice_ok m buf -> llc_wf (LAddLink old) ->
  torn (fun new => kept_fields llc_add_link m buf (add_link_view old) (add_link_view new))
    (AddLink_W m buf old).
Proof.
  intros Hok Hwf. pose (z := zeros 45). enough (H : torn (fun new => kept_so_far llc_add_link m buf
    (add_link_view (AddLink_of (s_bytes m buf ++ z) old))
    (add_link_view old) (add_link_view new)) (AddLink_W m buf old)).
  { intros P. eapply kept_decoded; [|exact (H P)]. apply AddLink_view; [exact Hwf|].
    rewrite app_length. unfold z. rewrite zeros_length. lia. }
  clearbody z. cbn [llc_wf] in Hwf. destruct Hwf as [Hwf1 Hwf2].
  start m buf AddLink_W. destruct old as [[? ? ?] ? ? ? ? ? ? ? ? ? ? ? ? ? ?].
  apply (BaseMsg_torn m buf z); [exact Hok|intros L; receiver..].
  1,2: leaf.
  repeat torn_step Hok z. all: leaf.
Qed.

Lemma AddLinkCont_torn m buf old : slice_ok m buf -> llc_wf (LAddLinkCont old) ->
  torn (fun new => kept_fields llc_add_link_cont m buf (add_link_cont_view old) (add_link_cont_view new))
    (AddLinkCont_W m buf old).
Proof.
  intros Hok Hwf. pose (z := zeros 45). enough (H : torn (fun new => kept_so_far llc_add_link_cont m buf
    (add_link_cont_view (AddLinkCont_of (s_bytes m buf ++ z) old))
    (add_link_cont_view old) (add_link_cont_view new)) (AddLinkCont_W m buf old)).
  { intros P. eapply kept_decoded; [|exact (H P)]. apply AddLinkCont_view; [exact Hwf|].
    rewrite app_length. unfold z. rewrite zeros_length. lia. }
  clearbody z. cbn [llc_wf] in Hwf. destruct Hwf as (Hwf1 & Hwf2 & Hwf3).
  start m buf AddLinkCont_W. destruct old as [[? ? ?] ? ? ? ? ? ? ? ?].
  destruct ac_RKeyPairs as [|e0 [|e1 [|? ?]]]; try discriminate.
  apply (BaseMsg_torn m buf z); [exact Hok|intros L; receiver..].
  1,2: leaf.
  repeat torn_step Hok z. all: leaf.
Qed.

Lemma DeleteLink_torn m buf old : slice_ok m buf -> llc_wf (LDeleteLink old) ->
  torn (fun new => kept_fields llc_delete_link m buf (delete_link_view old) (delete_link_view new))
    (DeleteLink_W m buf old).
Proof.
  intros Hok Hwf. pose (z := zeros 45). enough (H : torn (fun new => kept_so_far llc_delete_link m buf
    (delete_link_view (DeleteLink_of (s_bytes m buf ++ z) old))
    (delete_link_view old) (delete_link_view new)) (DeleteLink_W m buf old)).
  { intros P. eapply kept_decoded; [|exact (H P)]. apply DeleteLink_view; [exact Hwf|].
    rewrite app_length. unfold z. rewrite zeros_length. lia. }
  clearbody z. cbn [llc_wf] in Hwf. 
  start m buf DeleteLink_W. destruct old as [[? ? ?] ? ? ? ? ? ? ? ?].
  apply (BaseMsg_torn m buf z); [exact Hok|intros L; receiver..].
  1,2: leaf.
  repeat torn_step Hok z. all: leaf.
Qed.

Lemma ConfirmRKey_torn m buf old : slice_ok m buf -> llc_wf (LConfirmRKey old) ->
  torn (fun new => kept_fields llc_confirm_rkey m buf (confirm_rkey_view old) (confirm_rkey_view new))
    (ConfirmRKey_W m buf old).
Proof.
  intros Hok Hwf. pose (z := zeros 45). enough (H : torn (fun new => kept_so_far llc_confirm_rkey m buf
    (confirm_rkey_view (ConfirmRKey_of (s_bytes m buf ++ z) old))
    (confirm_rkey_view old) (confirm_rkey_view new)) (ConfirmRKey_W m buf old)).
  { intros P. eapply kept_decoded; [|exact (H P)]. apply ConfirmRKey_view; [exact Hwf|].
    rewrite app_length. unfold z. rewrite zeros_length. lia. }
  clearbody z. cbn [llc_wf] in Hwf. 
  start m buf ConfirmRKey_W. destruct old as [[? ? ?] ? ? ? ? ? ? ? ? ? ? ?].
  destruct ck_OtherRMBs as [|e0 [|e1 [|? ?]]]; try discriminate.
  apply (BaseMsg_torn m buf z); [exact Hok|intros L; receiver..].
  1,2: leaf.
  repeat torn_step Hok z. all: leaf.
Qed.

Lemma ConfirmRKeyCont_torn m buf old : slice_ok m buf -> llc_wf (LConfirmRKeyCont old) ->
  torn (fun new => kept_fields llc_confirm_rkey_cont m buf (confirm_rkey_cont_view old) (confirm_rkey_cont_view new))
    (ConfirmRKeyCont_W m buf old).
Proof.
  intros Hok Hwf. pose (z := zeros 45). enough (H : torn (fun new => kept_so_far llc_confirm_rkey_cont m buf
    (confirm_rkey_cont_view (ConfirmRKeyCont_of (s_bytes m buf ++ z) old))
    (confirm_rkey_cont_view old) (confirm_rkey_cont_view new)) (ConfirmRKeyCont_W m buf old)).
  { intros P. eapply kept_decoded; [|exact (H P)]. apply ConfirmRKeyCont_view; [exact Hwf|].
    rewrite app_length. unfold z. rewrite zeros_length. lia. }
  clearbody z. cbn [llc_wf] in Hwf. 
  start m buf ConfirmRKeyCont_W. destruct old as [[? ? ?] ? ? ? ? ? ? ? ?].
  destruct cc_OtherRMBs as [|e0 [|e1 [|e2 [|? ?]]]]; try discriminate.
  apply (BaseMsg_torn m buf z); [exact Hok|intros L; receiver..].
  1,2: leaf.
  repeat torn_step Hok z. all: leaf.
Qed.

Lemma deleteRKey_torn m buf old : slice_ok m buf -> llc_wf (LDeleteRKey old) ->
  torn (fun new => kept_fields llc_delete_rkey m buf (delete_rkey_view old) (delete_rkey_view new))
    (deleteRKey_W m buf old).
Proof.
  intros Hok Hwf. pose (z := zeros 45). enough (H : torn (fun new => kept_so_far llc_delete_rkey m buf
    (delete_rkey_view (deleteRKey_of (s_bytes m buf ++ z) old))
    (delete_rkey_view old) (delete_rkey_view new)) (deleteRKey_W m buf old)).
  { intros P. eapply kept_decoded; [|exact (H P)]. apply deleteRKey_view; [exact Hwf|].
    rewrite app_length. unfold z. rewrite zeros_length. lia. }
  clearbody z. cbn [llc_wf] in Hwf. destruct Hwf as (Hwf1 & Hwf2 & Hwf3).
  start m buf deleteRKey_W. destruct old as [[? ? ?] ? ? ? ? ? ? ? ? ? ?].
  destruct dk_rkeys as [|e0 [|e1 [|e2 [|e3 [|e4 [|e5 [|e6 [|e7 [|? ?]]]]]]]]]; try discriminate.
  apply (BaseMsg_torn m buf z); [exact Hok|intros L; receiver..].
  1,2: leaf.
  repeat torn_step Hok z. all: leaf.
Qed.

Lemma TestLink_torn m buf old : slice_ok m buf -> llc_wf (LTestLink old) ->
  torn (fun new => kept_fields llc_test_link m buf (test_link_view old) (test_link_view new))
    (TestLink_W m buf old).
Proof.
  intros Hok Hwf. pose (z := zeros 45). enough (H : torn (fun new => kept_so_far llc_test_link m buf
    (test_link_view (TestLink_of (s_bytes m buf ++ z) old))
    (test_link_view old) (test_link_view new)) (TestLink_W m buf old)).
  { intros P. eapply kept_decoded; [|exact (H P)]. apply TestLink_view; [exact Hwf|].
    rewrite app_length. unfold z. rewrite zeros_length. lia. }
  clearbody z. cbn [llc_wf] in Hwf. destruct Hwf as [Hwf1 Hwf2].
  start m buf TestLink_W. destruct old as [[? ? ?] ? ? ? ? ?].
  apply (BaseMsg_torn m buf z); [exact Hok|intros L; receiver..].
  1,2: leaf.
  repeat torn_step Hok z. all: leaf.
Qed.

Lemma CDC_torn m buf old : slice_ok m buf -> llc_wf (LCDC old) ->
  torn (fun new => kept_fields cdc m buf (cdc_view old) (cdc_view new)) (CDC_W m buf old).
Proof.
  intros Hok Hwf. pose (z := zeros 45). enough (H : torn (fun new => kept_so_far cdc m buf
    (cdc_view (CDC_of (s_bytes m buf ++ z) old)) (cdc_view old) (cdc_view new)) (CDC_W m buf old)).
  { intros P. eapply kept_decoded; [|exact (H P)]. apply CDC_view; [exact Hwf|].
    rewrite app_length. unfold z. rewrite zeros_length. lia. }
  clearbody z. cbn [llc_wf] in Hwf. destruct Hwf as (Hwf1 & Hwf2 & Hwf3).
  start m buf CDC_W. destruct old as [[? ? ?] ? ? ? ? ? ? ? ? ? ? ? ? ? ? ? ? ? ?].
  repeat torn_step Hok z. all: leaf.
Qed.

Lemma BTH_torn m buf old : slice_ok m buf ->
  torn (fun new => kept_fields bth m buf (bth_view old) (bth_view new)) (BTH_W m buf old).
Proof.
  intros Hok. pose (z := zeros 45). enough (H : torn (fun new => kept_so_far bth m buf
    (bth_view (BTH_of (s_bytes m buf ++ z))) (bth_view old) (bth_view new)) (BTH_W m buf old)).
  { intros P. eapply kept_decoded; [|exact (H P)]. apply BTH_view.
    rewrite app_length. unfold z. rewrite zeros_length. lia. }
  clearbody z.
  start m buf BTH_W. destruct old as [? ? ? ? ? ? ? ? ? ? ? ? ? ?].
  repeat torn_step Hok z. all: leaf.
Qed.

(** ** All LLC messages *)

Lemma linside_torn {R} (G : LLCMessage -> Prop) con (w : W R unit) r l new :
  torn (fun x => G (con x)) (w r) -> linside con w r = (l, Panicked, new) -> G new.
Proof.
  unfold torn, linside. destruct (w r) as [[l1 o1] r1]. cbn. intros H [= <- -> <-]. apply H. reflexivity.
Qed.

Lemma LLC_torn m buf old l new : slice_ok m buf -> llc_wf old ->
  LLC_W m buf old = (l, Panicked, new) ->
  kept_fields (llc_layout (llc_kind_of old)) m buf (llc_view old) (llc_view new).
Proof.
  intros Hok Hwf E.
  destruct old; cbn [LLC_W llc_kind_of llc_layout] in *.
  all: try (apply (linside_torn (fun new => kept_fields _ m buf _ (llc_view new)) _ _ _ _ _) with (2 := E)).
  - apply ConfirmLink_torn; assumption.
  - apply AddLink_torn; assumption.
  - apply AddLinkCont_torn; assumption.
  - apply DeleteLink_torn; assumption.
  - apply ConfirmRKey_torn; assumption.
  - apply ConfirmRKeyCont_torn; assumption.
  - apply deleteRKey_torn; assumption.
  - apply TestLink_torn; assumption.
  - apply CDC_torn; assumption.
  - discriminate.
Qed.
