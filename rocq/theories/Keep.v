(** * Keep: what every run of a Parse method preserves, however it ends. *)

From Coq Require Import NArith ZArith Bool String Ascii Arith List Lia ZifyBool ZifyNat ZifyN.
From Verif Require Import GoBase ClcModel LlcModel RoceModel Setters WriteModel LlcWriteModel
  ClcView LlcView.
Import ListNotations.
Local Open Scope nat_scope.

Definition keeps {R A} (P : R -> Prop) (w : W R A) : Prop := forall r, P r -> P (snd (w r)).

Section keep.
  Context {R : Type} (P : R -> Prop).

  Lemma keeps_wret {A} (a : A) : keeps P (wret a).
  Proof. intros r H. exact H. Qed.

  Lemma keeps_lift {A} (x : M A) : keeps P (lift x).
  Proof. intros r H. exact H. Qed.

  Lemma keeps_get {A} (f : R -> A) : keeps P (get f).
  Proof. intros r H. exact H. Qed.

  Lemma keeps_bind {A B} (x : W R A) (k : A -> W R B) :
    keeps P x -> (forall a, keeps P (k a)) -> keeps P (wbind x k).
  Proof.
    intros Hx Hk r H. unfold wbind. specialize (Hx r H).
    destruct (x r) as [[l [a| |]] r1]; cbn [snd] in *; [|assumption|assumption].
    specialize (Hk a r1 Hx). destruct (k a r1) as [[l2 o] r2]. exact Hk.
  Qed.

  Lemma keeps_change (f : R -> R) : (forall r, P r -> P (f r)) -> keeps P (change f).
  Proof. intros Hf r H. apply Hf, H. Qed.

  Lemma keeps_assign {A} (s : A -> R -> R) e : (forall v r, P r -> P (s v r)) ->
    keeps P (assign s e).
  Proof.
    intros Hs. apply keeps_bind; [apply keeps_lift|]. intros v. apply keeps_change. intros r. apply Hs.
  Qed.

  Lemma keeps_assignf {A B} (s : A -> R -> R) (g : B -> A) e :
    (forall v r, P r -> P (s (g v) r)) -> keeps P (assignf s g e).
  Proof.
    intros Hs. apply keeps_bind; [apply keeps_lift|]. intros v. apply keeps_change. intros r. apply Hs.
  Qed.

  Lemma go_copy_keeps d s : length (go_copy d s) = length d.
  Proof. unfold go_copy. rewrite app_length, firstn_length, skipn_length. lia. Qed.

  Lemma keeps_copyto f s m buf lo hi :
    (forall l r, length l = length (f r) -> P r -> P (s l r)) ->
    keeps P (copyto f s m buf lo hi).
  Proof.
    intros Hs. apply keeps_bind; [apply keeps_lift|]. intros v. apply keeps_change.
    intros r H. apply Hs; [apply go_copy_keeps|exact H].
  Qed.

  Lemma keeps_maketo f s n m buf lo hi :
    (forall l r, P r -> P (s l r)) -> keeps P (maketo f s n m buf lo hi).
  Proof.
    intros Hs. apply keeps_bind; [apply keeps_change; intros r; apply Hs|]. intros _.
    apply keeps_copyto. intros l r _. apply Hs.
  Qed.

  Lemma keeps_write24 f s m buf :
    (forall l r, P r -> P (s l r)) -> keeps P (write24 f s m buf).
  Proof.
    intros Hs. unfold write24. repeat (apply keeps_bind; [|intros ?]);
      try apply keeps_lift; apply keeps_change; intros r; apply Hs.
  Qed.

  Lemma keeps_complain m t buf n : keeps P (complain m t buf n).
  Proof. apply keeps_lift. Qed.

  Lemma keeps_part {S A} (Q : S -> Prop) (f : R -> S) s (w : W S A) :
    (forall r, P r -> Q (f r)) -> (forall p r, Q p -> P r -> P (s p r)) -> keeps Q w ->
    keeps P (part f s w).
  Proof.
    intros Hf Hs Hw r H. unfold part. specialize (Hw (f r) (Hf r H)).
    destruct (w (f r)) as [[l o] p]. apply Hs; assumption.
  Qed.

  Lemma keeps_copyall f s m buf :
    (forall l r, length l = length (f r) -> P r -> P (s l r)) -> keeps P (copyall f s m buf).
  Proof.
    intros Hs. apply keeps_change. intros r H. apply Hs; [apply go_copy_keeps|exact H].
  Qed.
End keep.

Lemma each_length {S} (w : slice -> W S slice) n buf :
  keeps (fun l => length l = n) (each w buf).
Proof.
  intros l <-. revert buf. induction l as [|e l IH]; intros buf; [reflexivity|]. cbn [each].
  destruct (w buf e) as [[lg [b| |]] e1]; try reflexivity.
  specialize (IH b). destruct (each w b l) as [[l2 o] rest]. cbn in *. lia.
Qed.

Lemma nibble b : (N.shiftr (N.land (b2n b) 0xf0) 4 < 16)%N.
Proof. destruct b; vm_compute; reflexivity. Qed.

Ltac kept :=
  first [ assumption
        | intros; assumption
        | intros; cbv beta; unfold accept_smcr_wf, accept_smcd_wf, accept_smcdv2_wf, decline_wf,
            declinev2_wf, proposal_wf, proposalv2_wf, header_wf, ipinfo_wf, v2ext_wf, smcdext_wf in *;
          cbn in *; repeat (match goal with H : _ /\ _ |- _ => destruct H end);
          repeat split; first [assumption | apply nibble | congruence | lia] ].

Ltac keep1 :=
  cbv zeta;
  lazymatch goal with
  | |- keeps _ (wbind _ _) => apply keeps_bind; [|intros ?]
  | |- keeps _ (lift _) => apply keeps_lift
  | |- keeps _ (wret _) => apply keeps_wret
  | |- keeps _ (get _) => apply keeps_get
  | |- keeps _ (complain _ _ _ _) => apply keeps_complain
  | |- keeps _ (change _) => apply keeps_change; try solve [kept]
  | |- keeps _ (assign _ _) => apply keeps_assign; try solve [kept]
  | |- keeps _ (assignf _ _ _) => apply keeps_assignf; try solve [kept]
  | |- keeps _ (copyto _ _ _ _ _ _) => apply keeps_copyto; try solve [kept]
  | |- keeps _ (copyall _ _ _ _) => apply keeps_copyall; try solve [kept]
  | |- keeps _ (maketo _ _ _ _ _ _ _) => apply keeps_maketo; try solve [kept]
  | |- keeps _ (write24 _ _ _ _) => apply keeps_write24; try solve [kept]
  | |- keeps _ (if ?c then _ else _) => destruct c
  | |- keeps _ (match ?x with _ => _ end) => destruct x
  end.

Lemma Header_keeps m buf : keeps header_wf (Header_W m buf).
Proof. unfold Header_W. repeat keep1. Qed.

Lemma Trailer_keeps m buf : keeps (fun t => length t = 4) (Trailer_W m buf).
Proof.
  unfold Trailer_W. repeat keep1. intros r H. rewrite go_copy_keeps. exact H.
Qed.

Ltac keep2 :=
  cbv zeta;
  lazymatch goal with
  | |- keeps _ (part _ _ (Header_W _ _)) =>
    apply (keeps_part _ header_wf); [solve [kept]|solve [kept]|apply Header_keeps]
  | |- keeps _ (part _ _ (Trailer_W _ _)) =>
    apply (keeps_part _ (fun t => length t = 4)); [solve [kept]|solve [kept]|apply Trailer_keeps]
  | _ => keep1
  end.

Lemma AcceptSMCD_keeps m buf : keeps accept_smcd_wf (AcceptSMCD_W m buf).
Proof. unfold AcceptSMCD_W. repeat keep2. Qed.

Lemma AcceptSMCR_keeps m buf : keeps accept_smcr_wf (AcceptSMCR_W m buf).
Proof. unfold AcceptSMCR_W. repeat keep2. Qed.

Lemma AcceptSMCDv2_keeps m buf : keeps accept_smcdv2_wf (AcceptSMCDv2_W m buf).
Proof. unfold AcceptSMCDv2_W, fce_W. repeat keep2. Qed.

Lemma Decline_keeps m buf : keeps decline_wf (Decline_W m buf).
Proof. unfold Decline_W. repeat keep2. Qed.

Lemma DeclineV2_keeps m buf : keeps declinev2_wf (DeclineV2_W m buf).
Proof.
  unfold DeclineV2_W. repeat keep2. intros r H.
  unfold declinev2_wf in *. cbn. destruct (d2_reserved r) as [|b l] eqn:E; cbn; [exact H|].
  cbn in H. exact H.
Qed.

Lemma prefixes_v1_keeps m buf len n : forall skip, keeps ipinfo_wf (prefixes_v1_W m buf len skip n).
Proof. induction n as [|n IH]; intros skip; cbn [prefixes_v1_W]; repeat keep1. apply IH. Qed.

Lemma prefixes_v2_keeps m buf len n : forall skip, keeps ipinfo_wf (prefixes_v2_W m buf len skip n).
Proof. induction n as [|n IH]; intros skip; cbn [prefixes_v2_W]; repeat keep1. apply IH. Qed.

Lemma ip_area_v1_keeps m buf len skip : keeps ipinfo_wf (ip_area_v1_W m buf len skip).
Proof. unfold ip_area_v1_W. repeat keep1. apply prefixes_v1_keeps. Qed.

Lemma ip_area_v2_keeps m buf hdr len skip : keeps ipinfo_wf (ip_area_v2_W m buf hdr len skip).
Proof. unfold ip_area_v2_W. repeat keep1. apply prefixes_v2_keeps. Qed.

Lemma Proposal_keeps m buf : keeps proposal_wf (Proposal_W m buf).
Proof.
  unfold Proposal_W, smcd_v1_W. repeat keep2.
  apply (keeps_part _ ipinfo_wf); [solve [kept]|solve [kept]|apply ip_area_v1_keeps].
Qed.

Lemma area_length {A} (a : list A) i v logs b : set_nth a i v = (logs, Done b) -> length b = length a.
Proof.
  unfold set_nth, ret. destruct (i <? length a) eqn:E; [|discriminate]. intros H.
  assert (Hb : b = (firstn i a ++ v :: skipn (S i) a)%list) by congruence. rewrite Hb.
  apply Nat.ltb_lt in E. rewrite app_length, firstn_length. cbn [length]. rewrite skipn_length. lia.
Qed.

Lemma area_Forall {A} (Q : A -> Prop) (a : list A) i v logs b : Forall Q a -> Q v ->
  set_nth a i v = (logs, Done b) -> Forall Q b.
Proof.
  unfold set_nth, ret. intros Ha Hv. destruct (i <? length a); [|discriminate]. intros H.
  assert (Hb : b = (firstn i a ++ v :: skipn (S i) a)%list) by congruence. rewrite Hb.
  apply Forall_app. split; [|constructor; [exact Hv|]].
  - rewrite <- (firstn_skipn i a) in Ha. apply Forall_app in Ha. apply Ha.
  - rewrite <- (firstn_skipn (S i) a) in Ha. apply Forall_app in Ha. apply Ha.
Qed.

(** a step that may use the value read *)
Lemma keeps_get_bind {R A B} (P : R -> Prop) (f : R -> A) (k : A -> W R B) :
  (forall r, P r -> P (snd (k (f r) r))) -> keeps P (wbind (get f) k).
Proof.
  intros Hk r H. unfold wbind, get. specialize (Hk r H).
  destruct (k (f r) r) as [[l o] r1]. exact Hk.
Qed.

Lemma snd_lift {R A B} (x : M A) (k : A -> W R B) r (P : R -> Prop) :
  P r -> (forall l a, x = (l, Done a) -> P (snd (k a r))) -> P (snd (wbind (lift x) k r)).
Proof.
  intros H Hk. unfold wbind, lift. destruct x as [l [a| |]]; cbn [fst snd]; try assumption.
  specialize (Hk l a eq_refl). destruct (k a r) as [[l2 o] r1]. exact Hk.
Qed.

Lemma snd_change {R B} (f : R -> R) (k : unit -> W R B) r (P : R -> Prop) :
  P (snd (k tt (f r))) -> P (snd (wbind (change f) k r)).
Proof. unfold wbind, change. destruct (k tt (f r)) as [[l o] r1]. intros H. exact H. Qed.

Lemma snd_assign {R A B} (s : A -> R -> R) e (k : unit -> W R B) r (P : R -> Prop) :
  P r -> (forall l a, e = (l, Done a) -> P (snd (k tt (s a r)))) ->
  P (snd (wbind (assign s e) k r)).
Proof.
  intros H Hk. unfold wbind, assign, wbind, lift, change.
  destruct e as [l [a| |]]; cbn [fst snd]; try assumption.
  specialize (Hk l a eq_refl). destruct (k tt (s a r)) as [[l2 o] r1]. exact Hk.
Qed.

Lemma eids_v2_keeps m buf len n : forall i skip, keeps v2ext_wf (eids_v2_W m buf len skip i n).
Proof.
  induction n as [|n IH]; intros i skip; cbn [eids_v2_W]; [repeat keep1|].
  keep1; [repeat keep1|]. apply keeps_get_bind. intros x H.
  apply snd_lift; [exact H|]. intros l1 old E1. apply snd_lift; [exact H|]. intros l2 eid E2.
  apply snd_assign; [exact H|]. intros l3 area E3. cbv zeta. apply IH.
  destruct H as (H1 & H2 & H3 & H4). repeat split; try assumption; cbn.
  - erewrite area_length by exact E3. exact H3.
  - eapply area_Forall; [exact H4| |exact E3]. cbv beta.
    unfold copy_from in E2. destruct (reslice buf skip (skip + EIDLen)) as [l4 [s| |]]; try discriminate.
    cbn in E2. injection E2 as _ <-. rewrite go_copy_keeps. unfold get_nth in E1.
    destruct (nth_error (x_EIDArea x) i) as [v|] eqn:E; [|discriminate]. injection E1 as _ <-.
    rewrite Forall_forall in H4. apply H4. eapply nth_error_In. exact E.
Qed.

Lemma ext_v2_keeps m buf hdr len skip : keeps v2ext_wf (ext_v2_W m buf hdr len skip).
Proof. unfold ext_v2_W. repeat keep1. apply eids_v2_keeps. Qed.

Lemma gids_v2_keeps m buf len n : forall i skip, keeps smcdext_wf (gids_v2_W m buf len skip i n).
Proof.
  induction n as [|n IH]; intros i skip; cbn [gids_v2_W]; [repeat keep1|].
  keep1; [repeat keep1|]. keep1; [keep1|]. apply keeps_get_bind. intros y H.
  apply snd_lift; [exact H|]. intros l1 old E1.
  apply snd_assign; [exact H|]. intros l3 area E3. cbv zeta.
  assert (H' : smcdext_wf (set_y_GIDArea area y)).
  { destruct H as (H1 & H2 & H3). repeat split; try assumption; cbn.
    erewrite area_length by exact E3. exact H3. }
  clear E3 E1 H. revert H'. generalize (set_y_GIDArea area y). clear y area old. intros y H.
  apply snd_lift; [exact H|]. intros l4 vchid E4. 
  apply (keeps_get_bind smcdext_wf y_GIDArea); [|exact H]. clear y H. intros y H.
  apply snd_lift; [exact H|]. intros l5 old E5.
  apply snd_assign; [exact H|]. intros l6 area E6. apply IH.
  destruct H as (H1 & H2 & H3). repeat split; try assumption; cbn.
  erewrite area_length by exact E6. exact H3.
Qed.

Lemma smcd_v2_keeps m buf hdr len skip g : keeps smcdext_wf (smcd_v2_W m buf hdr len skip g).
Proof. unfold smcd_v2_W. repeat keep1. apply gids_v2_keeps. Qed.

Lemma ProposalV2_keeps m buf : keeps proposalv2_wf (ProposalV2_W m buf).
Proof.
  unfold ProposalV2_W. repeat keep2.
  - apply (keeps_part _ ipinfo_wf); [solve [kept]|solve [kept]|apply ip_area_v2_keeps].
  - apply (keeps_part _ v2ext_wf); [intros r H; apply H| |apply ext_v2_keeps].
    intros x r Hx (H1 & H2 & H3 & H4 & H5 & H6 & H7). repeat split; try assumption; try apply Hx; apply H6.
  - apply (keeps_part _ smcdext_wf); [intros r H; apply H| |apply smcd_v2_keeps].
    intros x r Hx (H1 & H2 & H3 & H4 & H5 & H6 & H7). repeat split; try assumption; try apply Hx; apply H5.
Qed.

(** ** All CLC messages *)

Lemma inside_keeps {R} (Q : Message -> Prop) (P : R -> Prop) con w r l o msg :
  (forall x, P x -> Q (con x)) -> keeps P w -> P r -> inside con w r = (l, o, msg) -> Q msg.
Proof.
  intros HQ Hw H. unfold inside. specialize (Hw r H). destruct (w r) as [[l1 o1] r1].
  intros [= <- <- <-]. apply HQ, Hw.
Qed.

Lemma Message_W_wf m buf old l o new : message_wf old -> Message_W m buf old = (l, o, new) ->
  message_wf new.
Proof.
  intros H E. destruct old; cbn [Message_W message_wf] in *; eapply inside_keeps in E;
    try exact E; try exact H; cbn [message_wf cr_Accept cd_Accept c2_Accept]; try (intros x Hx; exact Hx).
  - apply Proposal_keeps.
  - apply ProposalV2_keeps.
  - apply AcceptSMCR_keeps.
  - apply AcceptSMCD_keeps.
  - apply AcceptSMCDv2_keeps.
  - apply AcceptSMCR_keeps.
  - apply AcceptSMCD_keeps.
  - apply AcceptSMCDv2_keeps.
  - apply Decline_keeps.
  - apply DeclineV2_keeps.
Qed.

Lemma Message_W_kind m buf old l o new : Message_W m buf old = (l, o, new) ->
  kind_of new = kind_of old.
Proof.
  destruct old; cbn [Message_W]; unfold inside;
    match goal with |- context [?f m buf ?r] => destruct (f m buf r) as [[l1 o1] r1] end;
    intros [= <- <- <-]; reflexivity.
Qed.

(** the four bit codes of a message, and the field of a v1 Decline that Parse never writes *)
Definition codes (msg : Message) : Prop :=
  match msg with
  | MAcceptSMCR a => (ar_RMBESize a < 16)%N
  | MAcceptSMCD a => (ad_DMBESize a < 16)%N
  | MAcceptSMCDv2 a => (a2_DMBESize a < 16)%N
  | MConfirmSMCR c => (ar_RMBESize (cr_Accept c) < 16)%N
  | MConfirmSMCD c => (ad_DMBESize (cd_Accept c) < 16)%N
  | MConfirmSMCDv2 c => (a2_DMBESize (c2_Accept c) < 16)%N
  | MDecline d => d_OSType d = 0%N
  | _ => True
  end.

Lemma keeps_any {R S A} (P : R -> Prop) (f : R -> S) s (w : W S A) :
  (forall p r, P r -> P (s p r)) -> keeps P (part f s w).
Proof.
  intros Hs. apply (keeps_part P (fun _ => True)); [intros; exact I|intros p r _; apply Hs|].
  intros r _. exact I.
Qed.

Ltac keep3 := first [ apply keeps_any; solve [kept] | keep1 ].

Lemma AcceptSMCR_code m buf : keeps (fun r => ar_RMBESize r < 16)%N (AcceptSMCR_W m buf).
Proof. unfold AcceptSMCR_W. repeat keep3. Qed.

Lemma AcceptSMCD_code m buf : keeps (fun r => ad_DMBESize r < 16)%N (AcceptSMCD_W m buf).
Proof. unfold AcceptSMCD_W. repeat keep3. Qed.

Lemma AcceptSMCDv2_code m buf : keeps (fun r => a2_DMBESize r < 16)%N (AcceptSMCDv2_W m buf).
Proof. unfold AcceptSMCDv2_W, fce_W. repeat keep3. Qed.

Lemma Decline_code m buf : keeps (fun r => d_OSType r = 0%N) (Decline_W m buf).
Proof. unfold Decline_W. repeat keep3. Qed.

Lemma Message_W_codes m buf old l o new : codes old -> Message_W m buf old = (l, o, new) ->
  codes new.
Proof.
  intros H E. destruct old; cbn [Message_W] in *.
  - apply (inside_keeps codes (fun x => codes (MProposal x)) _ _ _ _ _ _ (fun x Hx => Hx)) in E; try assumption.
    intros r _; exact I.
  - apply (inside_keeps codes (fun x => codes (MProposalV2 x)) _ _ _ _ _ _ (fun x Hx => Hx)) in E; try assumption.
    intros r _; exact I.
  - apply (inside_keeps codes (fun x => codes (MAcceptSMCR x)) _ _ _ _ _ _ (fun x Hx => Hx)) in E; try assumption.
    apply AcceptSMCR_code.
  - apply (inside_keeps codes (fun x => codes (MAcceptSMCD x)) _ _ _ _ _ _ (fun x Hx => Hx)) in E; try assumption.
    apply AcceptSMCD_code.
  - apply (inside_keeps codes (fun x => codes (MAcceptSMCDv2 x)) _ _ _ _ _ _ (fun x Hx => Hx)) in E; try assumption.
    apply AcceptSMCDv2_code.
  - apply (inside_keeps codes (fun x => codes ((fun a => MConfirmSMCR (mkConfirmSMCR a)) x)) _ _ _ _ _ _ (fun x Hx => Hx)) in E; try assumption.
    apply AcceptSMCR_code.
  - apply (inside_keeps codes (fun x => codes ((fun a => MConfirmSMCD (mkConfirmSMCD a)) x)) _ _ _ _ _ _ (fun x Hx => Hx)) in E; try assumption.
    apply AcceptSMCD_code.
  - apply (inside_keeps codes (fun x => codes ((fun a => MConfirmSMCDv2 (mkConfirmSMCDv2 a)) x)) _ _ _ _ _ _ (fun x Hx => Hx)) in E; try assumption.
    apply AcceptSMCDv2_code.
  - apply (inside_keeps codes (fun x => codes (MDecline x)) _ _ _ _ _ _ (fun x Hx => Hx)) in E; try assumption.
    apply Decline_code.
  - apply (inside_keeps codes (fun x => codes (MDeclineV2 x)) _ _ _ _ _ _ (fun x Hx => Hx)) in E; try assumption.
    intros r _; exact I.
Qed.

(** ** All LLC messages *)

Lemma linside_keeps {R} (Q : LLCMessage -> Prop) (P : R -> Prop) con w r l o msg :
  (forall x, P x -> Q (con x)) -> keeps P w -> P r -> linside con w r = (l, o, msg) -> Q msg.
Proof.
  intros HQ Hw H. unfold linside. specialize (Hw r H). destruct (w r) as [[l1 o1] r1].
  intros [= <- <- <-]. apply HQ, Hw.
Qed.

Ltac keep4 :=
  first [ match goal with |- keeps _ (part _ _ (BaseMsg_W _ _)) => apply keeps_any; solve [kept] end
        | keep1 ].

Lemma ConfirmLink_keeps m buf : keeps (fun c => length (cl_res3 c) = 9) (ConfirmLink_W m buf).
Proof. unfold ConfirmLink_W. repeat keep4. Qed.

Lemma AddLink_keeps m buf :
  keeps (fun a => length (al_res5 a) = 2 /\ length (al_res4 a) = 10) (AddLink_W m buf).
Proof. unfold AddLink_W. repeat keep4. Qed.

Lemma AddLinkCont_keeps m buf :
  keeps (fun a => length (ac_res3 a) = 2 /\ length (ac_RKeyPairs a) = 2 /\ length (ac_res4 a) = 4)
    (AddLinkCont_W m buf).
Proof.
  unfold AddLinkCont_W. repeat keep4.
  apply (keeps_part _ (fun l => length l = 2)); [solve [kept]|solve [kept]|apply each_length].
Qed.

Lemma DeleteLink_keeps m buf : keeps (fun d => length (dl_res3 d) = 35) (DeleteLink_W m buf).
Proof. unfold DeleteLink_W. repeat keep4. Qed.

Lemma ConfirmRKey_keeps m buf : keeps (fun c => length (ck_OtherRMBs c) = 2) (ConfirmRKey_W m buf).
Proof.
  unfold ConfirmRKey_W. repeat keep4.
  apply (keeps_part _ (fun l => length l = 2)); [solve [kept]|solve [kept]|apply each_length].
Qed.

Lemma ConfirmRKeyCont_keeps m buf :
  keeps (fun c => length (cc_OtherRMBs c) = 3) (ConfirmRKeyCont_W m buf).
Proof.
  unfold ConfirmRKeyCont_W. repeat keep4.
  apply (keeps_part _ (fun l => length l = 3)); [solve [kept]|solve [kept]|apply each_length].
Qed.

Lemma deleteRKey_keeps m buf :
  keeps (fun d => length (dk_res4 d) = 2 /\ length (dk_rkeys d) = 8 /\ length (dk_res5 d) = 4)
    (deleteRKey_W m buf).
Proof.
  unfold deleteRKey_W. repeat keep4.
  apply (keeps_part _ (fun l => length l = 8)); [solve [kept]|solve [kept]|apply each_length].
Qed.

Lemma TestLink_keeps m buf :
  keeps (fun t => length (tl_UserData t) = 16 /\ length (tl_res3 t) = 24) (TestLink_W m buf).
Proof. unfold TestLink_W. repeat keep4. Qed.

Lemma CDC_keeps m buf :
  keeps (fun c => length (c_res1 c) = 2 /\ length (c_res2 c) = 2 /\ length (c_res4 c) = 19)
    (CDC_W m buf).
Proof.
  unfold CDC_W. repeat keep4; intros c (H1 & H2 & H3); (split; [exact H1|split; [exact H2|]]);
    cbn [set_c_res4 c_res4]; destruct (c_res4 c) as [|b t]; try discriminate;
    cbn [skipn firstn app length] in *; [exact H3|rewrite go_copy_keeps; exact H3].
Qed.

Lemma LLC_W_wf m buf old l o new : llc_wf old -> LLC_W m buf old = (l, o, new) -> llc_wf new.
Proof.
  intros H E. destruct old; cbn [LLC_W] in *.
  - apply (linside_keeps llc_wf (fun x => llc_wf (LConfirm x)) _ _ _ _ _ _ (fun x Hx => Hx)) in E; try assumption.
    apply ConfirmLink_keeps.
  - apply (linside_keeps llc_wf (fun x => llc_wf (LAddLink x)) _ _ _ _ _ _ (fun x Hx => Hx)) in E; try assumption.
    apply AddLink_keeps.
  - apply (linside_keeps llc_wf (fun x => llc_wf (LAddLinkCont x)) _ _ _ _ _ _ (fun x Hx => Hx)) in E; try assumption.
    apply AddLinkCont_keeps.
  - apply (linside_keeps llc_wf (fun x => llc_wf (LDeleteLink x)) _ _ _ _ _ _ (fun x Hx => Hx)) in E; try assumption.
    apply DeleteLink_keeps.
  - apply (linside_keeps llc_wf (fun x => llc_wf (LConfirmRKey x)) _ _ _ _ _ _ (fun x Hx => Hx)) in E; try assumption.
    apply ConfirmRKey_keeps.
  - apply (linside_keeps llc_wf (fun x => llc_wf (LConfirmRKeyCont x)) _ _ _ _ _ _ (fun x Hx => Hx)) in E; try assumption.
    apply ConfirmRKeyCont_keeps.
  - apply (linside_keeps llc_wf (fun x => llc_wf (LDeleteRKey x)) _ _ _ _ _ _ (fun x Hx => Hx)) in E; try assumption.
    apply deleteRKey_keeps.
  - apply (linside_keeps llc_wf (fun x => llc_wf (LTestLink x)) _ _ _ _ _ _ (fun x Hx => Hx)) in E; try assumption.
    apply TestLink_keeps.
  - apply (linside_keeps llc_wf (fun x => llc_wf (LCDC x)) _ _ _ _ _ _ (fun x Hx => Hx)) in E; try assumption.
    apply CDC_keeps.
  - apply (linside_keeps llc_wf (fun x => llc_wf (LOther x)) _ _ _ _ _ _ (fun x Hx => Hx)) in E; try assumption.
    intros r _; exact I.
Qed.

Lemma LLC_W_kind m buf old l o new : LLC_W m buf old = (l, o, new) ->
  llc_kind_of new = llc_kind_of old.
Proof.
  destruct old; cbn [LLC_W]; unfold linside;
    match goal with |- context [?f m buf ?r] => destruct (f m buf r) as [[l1 o1] r1] end;
    intros [= <- <- <-]; reflexivity.
Qed.
