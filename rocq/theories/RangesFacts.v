(** * RangesFacts: the fields of every object fit their formats. Proofs only. *)

From Coq Require Import NArith ZArith Bool String Ascii Arith List Lia ZifyBool ZifyNat ZifyN.
From Verif Require Import GoBase ClcModel LlcModel RoceModel Setters WriteModel LlcWriteModel
  Wire WireLemmas ClcView LlcView Encode Recover Keep Dumps Ranges.
From Verif Require RecoverFacts EncodeFacts LlcMessage RoceText Samples Slices.
Import ListNotations.
Local Open Scope nat_scope.

Local Arguments N.pow : simpl never.
Local Arguments N.of_nat : simpl never.
Local Arguments N.shiftr : simpl never.
Local Arguments N.shiftl : simpl never.
Local Arguments N.land : simpl never.
Local Arguments b2n : simpl never.

(** ** Values that are read *)

Lemma b2n_lt b : (b2n b < 2 ^ N.of_nat 8)%N.
Proof. destruct b; reflexivity. Qed.

Lemma shiftl_lt a k w : (a < 2 ^ w)%N -> (N.shiftl a k < 2 ^ (w + k))%N.
Proof.
  intros H. rewrite N.shiftl_mul_pow2, N.pow_add_r. apply N.mul_lt_mono_pos_r; [|exact H].
  apply N.neq_0_lt_0, N.pow_nonzero. discriminate.
Qed.

Lemma lor_lt a b w : (a < 2 ^ w)%N -> (b < 2 ^ w)%N -> (N.lor a b < 2 ^ w)%N.
Proof.
  intros Ha Hb. destruct (N.eq_0_gt_0_cases (N.lor a b)) as [E|E].
  - rewrite E. apply N.neq_0_lt_0, N.pow_nonzero. discriminate.
  - apply N.log2_lt_pow2; [exact E|]. rewrite N.log2_lor.
    destruct (N.eq_0_gt_0_cases a) as [->|A]; destruct (N.eq_0_gt_0_cases b) as [->|B];
      [cbn in E; lia|..].
    + rewrite N.max_r by apply N.le_0_l. apply N.log2_lt_pow2; assumption.
    + rewrite N.max_l by apply N.le_0_l. apply N.log2_lt_pow2; assumption.
    + apply N.max_lub_lt; apply N.log2_lt_pow2; assumption.
Qed.

Lemma byte_up b k w : (k + 8 <= w)%N -> (N.shiftl (b2n b) k < 2 ^ w)%N.
Proof.
  intros H. eapply N.lt_le_trans; [apply (shiftl_lt _ _ 8); apply b2n_lt|].
  apply N.pow_le_mono_r; [discriminate|lia].
Qed.

Lemma byte_lt b w : (8 <= w)%N -> (b2n b < 2 ^ w)%N.
Proof. intros H. eapply N.lt_le_trans; [apply b2n_lt|]. apply N.pow_le_mono_r; [discriminate|exact H]. Qed.

Lemma post_ret {A} (P : A -> Prop) a : P a -> post P (ret a).
Proof. intros H l b [= _ <-]. exact H. Qed.

Ltac posts := repeat first [ apply post_bind; intros ? | apply post_ret ].

Lemma be16_lt m s lo hi : post (fun v => v < 2 ^ N.of_nat 16)%N (be16 m s lo hi).
Proof. unfold be16, Uint16. posts. repeat apply lor_lt; first [apply byte_lt|apply byte_up]; vm_compute; discriminate. Qed.

Lemma be32_lt m s lo hi : post (fun v => v < 2 ^ N.of_nat 32)%N (be32 m s lo hi).
Proof. unfold be32, Uint32. posts. repeat apply lor_lt; first [apply byte_lt|apply byte_up]; vm_compute; discriminate. Qed.

Lemma be64_lt m s lo hi : post (fun v => v < 2 ^ N.of_nat 64)%N (be64 m s lo hi).
Proof. unfold be64, Uint64. posts. repeat apply lor_lt; first [apply byte_lt|apply byte_up]; vm_compute; discriminate. Qed.

Lemma byte0_lt m s : post (fun v => v < 2 ^ N.of_nat 8)%N (byte0 m s).
Proof. unfold byte0. posts. apply b2n_lt. Qed.

Lemma land_le a b : (N.land a b <= b)%N.
Proof.
  apply N.ldiff_le. apply N.bits_inj. intros n. rewrite N.ldiff_spec, N.land_spec, N.bits_0.
  destruct (N.testbit a n), (N.testbit b n); reflexivity.
Qed.

Lemma masked_le m s k : post (fun v => v <= k)%N (masked m s k).
Proof. unfold masked. posts. apply land_le. Qed.

Lemma flag_any m s k : post (fun _ => True) (flag m s k).
Proof. intros l v _. exact I. Qed.

Lemma idx_any m s i : post (fun _ => True) (idx m s i).
Proof. intros l v _. exact I. Qed.

Lemma bit_lt (b : bool) : ((if b then 1 else 0) < 2 ^ N.of_nat 1)%N.
Proof. destruct b; reflexivity. Qed.

(** ** Writes *)

Section keep.
  Context {R : Type} (P : R -> Prop).

  Lemma keeps_assign_in {A} (Q : A -> Prop) (s : A -> R -> R) e :
    post Q e -> (forall v r, Q v -> P r -> P (s v r)) -> keeps P (assign s e).
  Proof.
    intros Hq Hs r H. unfold assign, wbind, lift, change.
    destruct e as [l [v| |]]; cbn; try exact H. apply Hs; [eapply Hq; reflexivity|exact H].
  Qed.

  Lemma keeps_assignf_in {A B} (Q : B -> Prop) (s : A -> R -> R) (g : B -> A) e :
    post Q e -> (forall v r, Q v -> P r -> P (s (g v) r)) -> keeps P (assignf s g e).
  Proof.
    intros Hq Hs r H. unfold assignf, wbind, lift, change.
    destruct e as [l [v| |]]; cbn; try exact H. apply Hs; [eapply Hq; reflexivity|exact H].
  Qed.

  Lemma keeps_lift_bind {A B} (Q : A -> Prop) e (k : A -> W R B) :
    post Q e -> (forall v, Q v -> keeps P (k v)) -> keeps P (wbind (lift e) k).
  Proof.
    intros Hq Hk r H. apply snd_lift; [exact H|]. intros l v E. apply Hk; [|exact H].
    eapply Hq. exact E.
  Qed.

  Lemma keeps_make f s n m buf lo hi :
    (forall l r, f (s l r) = l) -> (forall l r, length l = n -> P r -> P (s l r)) ->
    keeps P (maketo f s n m buf lo hi).
  Proof.
    intros Hf Hs r H. unfold maketo, copyto, wbind, change, lift. cbn.
    destruct (reslice buf lo hi) as [l [v| |]]; cbn.
    - apply Hs; [rewrite go_copy_keeps, Hf; apply repeat_length|].
      apply Hs; [apply repeat_length|exact H].
    - apply Hs; [apply repeat_length|exact H].
    - apply Hs; [apply repeat_length|exact H].
  Qed.

  Lemma keeps_write24_in f s m buf :
    (forall r, P r -> (f r < 2 ^ N.of_nat 24)%N) ->
    (forall v r, (v < 2 ^ N.of_nat 24)%N -> P r -> P (s v r)) ->
    keeps P (write24 f s m buf).
  Proof.
    intros Hf Hs. unfold write24. apply keeps_bind; [apply keeps_lift|]. intros b0.
    apply keeps_bind.
    { apply keeps_change. intros r. apply Hs. apply byte_up. vm_compute. discriminate. }
    intros _. apply keeps_bind; [apply keeps_lift|]. intros b1. apply keeps_bind.
    { apply keeps_change. intros r H. apply Hs; [|exact H]. apply lor_lt; [apply Hf, H|].
      apply byte_up. vm_compute. discriminate. }
    intros _. apply keeps_bind; [apply keeps_lift|]. intros b2.
    apply keeps_change. intros r H. apply Hs; [|exact H]. apply lor_lt; [apply Hf, H|].
    apply byte_lt. vm_compute. discriminate.
  Qed.
End keep.

(** ** Each field *)

Lemma small_le v k w : (v <= k)%N -> (k < 2 ^ N.of_nat w)%N -> (v < 2 ^ N.of_nat w)%N.
Proof. apply N.le_lt_trans. Qed.

Lemma shiftr_lt v k w x : (v < x)%N -> (x <= 2 ^ N.of_nat w * 2 ^ k)%N -> (N.shiftr v k < 2 ^ N.of_nat w)%N.
Proof.
  intros H E. rewrite N.shiftr_div_pow2. apply N.div_lt_upper_bound; [apply N.pow_nonzero; discriminate|].
  lia.
Qed.

Lemma shiftr_le v k w x : (v <= x)%N -> (x < 2 ^ N.of_nat w * 2 ^ k)%N -> (N.shiftr v k < 2 ^ N.of_nat w)%N.
Proof. intros H E. apply (shiftr_lt v k w (x + 1)); lia. Qed.

(** ** The widths of the fields of each Go type *)

Definition lt2 (w : nat) (v : N) : Prop := (v < 2 ^ N.of_nat w)%N.
Definition addr (n : nat) (l : list byte) : Prop := length l = n \/ l = [].
Definition area_ok {S} (n : nat) (Q : S -> Prop) (l : list S) : Prop := length l = n /\ Forall Q l.
Definition tail_ok (l : list byte) : Prop :=
  match l with b :: t => (b2n b < 32)%N /\ length t = 18 | [] => False end.

Definition header_ok (h : Header) : Prop :=
  length (h_Eyecatcher h) = 4 /\ lt2 8 (h_Type h) /\ lt2 16 (h_Length h) /\
  lt2 4 (h_Version h) /\ lt2 1 (h_Flag h) /\ lt2 1 (h_reserved h) /\ lt2 2 (h_Pathv2 h) /\
  lt2 2 (h_Path h).

Definition smcr_ok (r : AcceptSMCR) : Prop :=
  header_ok (ar_Header r) /\ length (ar_Trailer r) = 4 /\ length (ar_SenderPeerID r) = 8 /\
  addr 16 (ar_IBGID r) /\ addr 6 (ar_IBMAC r) /\ lt2 24 (ar_QPN r) /\ lt2 32 (ar_RMBRKey r) /\
  lt2 8 (ar_RMBEIdx r) /\ lt2 32 (ar_RMBEAlertToken r) /\ lt2 4 (ar_RMBESize r) /\
  lt2 4 (ar_QPMTU r) /\ lt2 8 (ar_reserved r) /\ lt2 64 (ar_RMBDMAAddr r) /\
  lt2 8 (ar_reserved2 r) /\ lt2 24 (ar_PSN r).

Definition smcd_ok (r : AcceptSMCD) : Prop :=
  header_ok (ad_Header r) /\ length (ad_Trailer r) = 4 /\ lt2 64 (ad_GID r) /\
  lt2 64 (ad_Token r) /\ lt2 8 (ad_DMBEIdx r) /\ lt2 4 (ad_DMBESize r) /\
  lt2 4 (ad_reserved r) /\ length (ad_reserved2 r) = 2 /\ lt2 32 (ad_LinkID r) /\
  length (ad_reserved3 r) = 12.

Definition smcdv2_ok (r : AcceptSMCDv2) : Prop :=
  header_ok (a2_Header r) /\ length (a2_Trailer r) = 4 /\ lt2 64 (a2_GID r) /\
  lt2 64 (a2_Token r) /\ lt2 8 (a2_DMBEIdx r) /\ lt2 4 (a2_DMBESize r) /\
  lt2 4 (a2_reserved r) /\ length (a2_reserved2 r) = 2 /\ lt2 32 (a2_LinkID r) /\
  lt2 16 (a2_ISMv2VCHID r) /\ length (a2_EID r) = 32 /\ length (a2_reserved3 r) = 8 /\
  lt2 8 (a2_reserved4 r) /\ lt2 4 (a2_OSType r) /\ lt2 4 (a2_Release r) /\
  length (a2_reserved5 r) = 2 /\ length (a2_Hostname r) = 32.

Definition decline_ok (r : Decline) : Prop :=
  header_ok (d_Header r) /\ length (d_Trailer r) = 4 /\ length (d_SenderPeerID r) = 8 /\
  lt2 32 (d_PeerDiagnosis r) /\ length (d_reserved r) = 4 /\ d_OSType r = 0%N.

Definition declinev2_ok (r : DeclineV2) : Prop :=
  header_ok (d2_Header r) /\ length (d2_Trailer r) = 4 /\ length (d2_SenderPeerID r) = 8 /\
  lt2 32 (d2_PeerDiagnosis r) /\ lt2 4 (d2_OSType r) /\ length (d2_reserved r) = 4.

Definition ip_ok (r : IPInfo) : Prop :=
  addr 4 (i_Prefix r) /\ lt2 8 (i_PrefixLen r) /\ length (i_reserved2 r) = 2 /\
  lt2 8 (i_IPv6PrefixesCnt r) /\
  Forall (fun e => length (ip6_prefix e) = 16 /\ lt2 8 (ip6_prefixLen e)) (i_IPv6Prefixes r).

Definition ext_ok (r : V2Ext) : Prop :=
  lt2 8 (x_EIDNumber r) /\ lt2 8 (x_GIDNumber r) /\ lt2 8 (x_reserved3 r) /\
  lt2 4 (x_Release r) /\ lt2 3 (x_reserved4 r) /\ lt2 1 (x_SEIDInd r) /\
  length (x_reserved5 r) = 2 /\ lt2 16 (x_SMCDv2Off r) /\ length (x_reserved6 r) = 32 /\
  length (x_EIDArea r) = 8 /\ Forall (fun e => length e = 32) (x_EIDArea r).

Definition dext_ok (r : SMCDExt) : Prop :=
  length (y_SEID r) = 32 /\ length (y_reserved7 r) = 16 /\ length (y_GIDArea r) = 8 /\
  Forall (fun g => lt2 64 (g_GID g) /\ lt2 16 (g_VCHID g)) (y_GIDArea r).

Definition proposal_ok (r : Proposal) : Prop :=
  header_ok (p_Header r) /\ length (p_Trailer r) = 4 /\ length (p_SenderPeerID r) = 8 /\
  addr 16 (p_IBGID r) /\ addr 6 (p_IBMAC r) /\ lt2 16 (p_IPAreaOffset r) /\
  lt2 64 (p_SMCDGID r) /\ length (p_reserved r) = 32 /\ ip_ok (p_IP r).

Definition proposalv2_ok (r : ProposalV2) : Prop :=
  header_ok (p2_Header r) /\ length (p2_Trailer r) = 4 /\ length (p2_SenderPeerID r) = 8 /\
  addr 16 (p2_IBGID r) /\ addr 6 (p2_IBMAC r) /\ lt2 16 (p2_IPAreaOffset r) /\
  lt2 64 (p2_SMCDGID r) /\ lt2 16 (p2_ISMv2VCHID r) /\ lt2 16 (p2_SMCv2Offset r) /\
  length (p2_reserved r) = 28 /\ ip_ok (p2_IP r) /\ ext_ok (p2_Ext r) /\ dext_ok (p2_SMCD r).

Definition base_ok (r : BaseMsg) : Prop :=
  lt2 8 (b_Type r) /\ lt2 8 (b_Length r).

Definition cl_ok (r : ConfirmLink) : Prop :=
  base_ok (cl_Base r) /\ lt2 8 (cl_res1 r) /\ lt2 7 (cl_res2 r) /\ addr 6 (cl_SenderMAC r) /\
  addr 16 (cl_SenderGID r) /\ lt2 24 (cl_SenderQP r) /\ lt2 8 (cl_Link r) /\
  lt2 32 (cl_SenderLinkUserID r) /\ lt2 8 (cl_MaxLinks r) /\ length (cl_res3 r) = 9.

Definition al_ok (r : AddLink) : Prop :=
  base_ok (al_Base r) /\ lt2 4 (al_res1 r) /\ lt2 4 (al_RsnCode r) /\ lt2 6 (al_res2 r) /\
  addr 6 (al_SenderMAC r) /\ length (al_res5 r) = 2 /\ addr 16 (al_SenderGID r) /\
  lt2 24 (al_SenderQP r) /\ lt2 8 (al_Link r) /\ lt2 4 (al_res3 r) /\ lt2 4 (al_MTU r) /\
  lt2 24 (al_PSN r) /\ length (al_res4 r) = 10.

Definition rp_ok (r : RKeyPair) : Prop :=
  lt2 32 (rp_ReferenceRKey r) /\ lt2 32 (rp_NewRKey r) /\ lt2 64 (rp_NewVAddr r).

Definition ac_ok (r : AddLinkCont) : Prop :=
  base_ok (ac_Base r) /\ lt2 8 (ac_res1 r) /\ lt2 7 (ac_res2 r) /\ lt2 8 (ac_Link r) /\
  lt2 8 (ac_NumRTokens r) /\ length (ac_res3 r) = 2 /\ area_ok 2 rp_ok (ac_RKeyPairs r) /\
  length (ac_res4 r) = 4.

Definition dl_ok (r : DeleteLink) : Prop :=
  base_ok (dl_Base r) /\ lt2 8 (dl_res1 r) /\ lt2 5 (dl_res2 r) /\ lt2 8 (dl_Link r) /\
  lt2 32 (dl_RsnCode r) /\ length (dl_res3 r) = 35.

Definition rs_ok (r : RMBSpec) : Prop :=
  lt2 8 (rs_Link r) /\ lt2 32 (rs_RKey r) /\ lt2 64 (rs_VAddr r).

Definition ck_ok (r : ConfirmRKey) : Prop :=
  base_ok (ck_Base r) /\ lt2 8 (ck_res1 r) /\ lt2 1 (ck_res2 r) /\ lt2 4 (ck_res3 r) /\
  lt2 8 (ck_NumTkns r) /\ lt2 32 (ck_RKey r) /\ lt2 64 (ck_VAddr r) /\
  area_ok 2 rs_ok (ck_OtherRMBs r) /\ lt2 8 (ck_res4 r).

Definition cc_ok (r : ConfirmRKeyCont) : Prop :=
  base_ok (cc_Base r) /\ lt2 8 (cc_res1 r) /\ lt2 1 (cc_res2 r) /\ lt2 5 (cc_res3 r) /\
  lt2 8 (cc_NumTkns r) /\ area_ok 3 rs_ok (cc_OtherRMBs r) /\ lt2 8 (cc_res4 r).

Definition dk_ok (r : deleteRKey) : Prop :=
  base_ok (dk_Base r) /\ lt2 8 (dk_res1 r) /\ lt2 1 (dk_res2 r) /\ lt2 5 (dk_res3 r) /\
  lt2 8 (dk_count r) /\ lt2 8 (dk_errorMask r) /\ length (dk_res4 r) = 2 /\
  area_ok 8 (lt2 32) (dk_rkeys r) /\ length (dk_res5 r) = 4.

Definition tl_ok (r : TestLink) : Prop :=
  base_ok (tl_Base r) /\ lt2 8 (tl_res1 r) /\ lt2 7 (tl_res2 r) /\ length (tl_UserData r) = 16 /\
  length (tl_res3 r) = 24.

Definition c_ok (r : CDC) : Prop :=
  base_ok (c_Base r) /\ lt2 16 (c_SeqNum r) /\ lt2 32 (c_AlertTkn r) /\ length (c_res1 r) = 2 /\
  lt2 16 (c_ProdWrap r) /\ lt2 32 (c_ProdCurs r) /\ length (c_res2 r) = 2 /\
  lt2 16 (c_ConsWrap r) /\ lt2 32 (c_ConsCurs r) /\ lt2 3 (c_res3 r) /\ tail_ok (c_res4 r).

Definition bth_ok (r : BTH) : Prop :=
  lt2 8 (bth_Opcode r) /\ lt2 2 (bth_Pad r) /\ lt2 4 (bth_TVer r) /\ lt2 16 (bth_PKey r) /\
  lt2 6 (bth_res1 r) /\ lt2 24 (bth_DestQP r) /\ lt2 7 (bth_res2 r) /\ lt2 24 (bth_PSN r).

Lemma lt2_lt w v : (v < 2 ^ N.of_nat w)%N -> lt2 w v.
Proof. exact (fun H => H). Qed.

Lemma lt2_le w v k : (v <= k)%N -> (k < 2 ^ N.of_nat w)%N -> lt2 w v.
Proof. apply N.le_lt_trans. Qed.

Ltac fit1 :=
  first
  [ assumption
  | apply b2n_lt
  | apply lt2_lt; assumption
  | left; assumption
  | eapply lt2_le; [apply land_le|reflexivity]
  | eapply lt2_le; [eassumption|reflexivity]
  | apply lt2_lt; eapply shiftr_le; [apply land_le|reflexivity]
  | apply lt2_lt; eapply shiftr_lt; [eassumption|vm_compute; discriminate]
  | apply lt2_lt; eapply shiftr_le; [eassumption|reflexivity]
  | apply lt2_lt; eapply shiftr_lt; [apply b2n_lt|vm_compute; discriminate]
  | etransitivity; eassumption
  | reflexivity
  | exact I ].

Ltac fit_in f :=
  intros; unfold f in *; cbn in *;
  repeat match goal with H : _ /\ _ |- _ => destruct H end;
  repeat match goal with |- _ /\ _ => split end; fit1.

Ltac into f :=
  cbv zeta;
  lazymatch goal with
  | |- keeps _ (assign _ (be16 _ _ _ _)) => eapply keeps_assign_in; [apply be16_lt|try solve [fit_in f]]
  | |- keeps _ (assign _ (be32 _ _ _ _)) => eapply keeps_assign_in; [apply be32_lt|try solve [fit_in f]]
  | |- keeps _ (assign _ (be64 _ _ _ _)) => eapply keeps_assign_in; [apply be64_lt|try solve [fit_in f]]
  | |- keeps _ (assign _ (byte0 _ _)) => eapply keeps_assign_in; [apply byte0_lt|try solve [fit_in f]]
  | |- keeps _ (assign _ (masked _ _ _)) => eapply keeps_assign_in; [apply masked_le|try solve [fit_in f]]
  | |- keeps _ (assign _ (flag _ _ _)) => eapply keeps_assign_in; [apply flag_any|try solve [fit_in f]]
  | |- keeps _ (assignf _ _ (idx _ _ _)) => eapply keeps_assignf_in; [apply idx_any|try solve [fit_in f]]
  | |- keeps _ (assignf _ _ (byte0 _ _)) => eapply keeps_assignf_in; [apply byte0_lt|try solve [fit_in f]]
  | |- keeps _ (assignf _ _ (masked _ _ _)) => eapply keeps_assignf_in; [apply masked_le|try solve [fit_in f]]
  | |- keeps _ (maketo _ _ _ _ _ _ _) => apply keeps_make; [reflexivity|try solve [fit_in f]]
  | |- keeps _ (write24 _ _ _ _) => apply keeps_write24_in; [try solve [fit_in f]|try solve [fit_in f]]
  | |- keeps _ (copyto _ _ _ _ _ _) => apply keeps_copyto; try solve [fit_in f]
  | |- keeps _ (copyall _ _ _ _) => apply keeps_copyall; try solve [fit_in f]
  | |- keeps _ (change _) => apply keeps_change; try solve [fit_in f]
  | |- keeps _ (wbind _ _) => apply keeps_bind; [|intros ?]
  | |- keeps _ (lift _) => apply keeps_lift
  | |- keeps _ (wret _) => apply keeps_wret
  | |- keeps _ (get _) => apply keeps_get
  | |- keeps _ (complain _ _ _ _) => apply keeps_complain
  | |- keeps _ (if ?c then _ else _) => destruct c
  | |- keeps _ (match ?x with _ => _ end) => destruct x
  end.

(** ** CLC *)

Lemma Header_fits m buf : keeps header_ok (Header_W m buf).
Proof. unfold Header_W. repeat into header_ok. Qed.

Ltac into2 f :=
  cbv zeta;
  lazymatch goal with
  | |- keeps _ (part _ _ (Header_W _ _)) =>
    apply (keeps_part _ header_ok); [try solve [fit_in f]|try solve [fit_in f]|apply Header_fits]
  | |- keeps _ (part _ _ (Trailer_W _ _)) =>
    apply (keeps_part _ (fun t => length t = 4)); [try solve [fit_in f]|try solve [fit_in f]|apply Trailer_keeps]
  | |- _ => into f
  end.

Lemma AcceptSMCD_fits m buf : keeps smcd_ok (AcceptSMCD_W m buf).
Proof. unfold AcceptSMCD_W. repeat into2 smcd_ok. Qed.

Lemma AcceptSMCR_fits m buf : keeps smcr_ok (AcceptSMCR_W m buf).
Proof. unfold AcceptSMCR_W. repeat into2 smcr_ok. Qed.

Lemma AcceptSMCDv2_fits m buf : keeps smcdv2_ok (AcceptSMCDv2_W m buf).
Proof. unfold AcceptSMCDv2_W, fce_W. repeat into2 smcdv2_ok. Qed.

Lemma Decline_fits m buf : keeps decline_ok (Decline_W m buf).
Proof. unfold Decline_W. repeat into2 decline_ok. Qed.

Ltac halves := repeat match goal with |- _ /\ _ => split end.

Lemma DeclineV2_fits m buf : keeps declinev2_ok (DeclineV2_W m buf).
Proof.
  unfold DeclineV2_W. repeat into2 declinev2_ok. intros r (H1 & H2 & H3 & H4 & H5 & H6).
  unfold declinev2_ok. cbn. halves; try assumption.
  destruct (d2_reserved r) as [|b l]; cbn in *; exact H6.
Qed.

Lemma prefix_fits ip e n : ip_ok ip -> length e = 16 ->
  ip_ok (set_i_IPv6Prefixes (i_IPv6Prefixes ip ++ [mkIPv6Prefix e (b2n n)]) ip).
Proof.
  intros (H1 & H2 & H3 & H4 & H5) H6. unfold ip_ok. cbn. halves; try assumption.
  apply Forall_app. split; [exact H5|]. constructor; [|constructor]. split; [exact H6|apply b2n_lt].
Qed.

Lemma copy_from_length m d buf lo hi : post (fun v => length v = length d) (copy_from m d buf lo hi).
Proof. unfold copy_from. apply post_bind. intros a. apply post_ret. apply go_copy_keeps. Qed.

Lemma prefixes_v1_fits m buf len n : forall skip, keeps ip_ok (prefixes_v1_W m buf len skip n).
Proof.
  induction n as [|n IH]; intros skip; cbn [prefixes_v1_W]; [into ip_ok|]. into ip_ok; [into ip_ok|].
  eapply keeps_lift_bind; [apply copy_from_length|]. intros e He. cbv zeta.
  into ip_ok; [into ip_ok|]. into ip_ok; [|apply IH]. into ip_ok. intros ip H. apply prefix_fits; assumption.
Qed.

Lemma prefixes_v2_fits m buf len n : forall skip, keeps ip_ok (prefixes_v2_W m buf len skip n).
Proof.
  induction n as [|n IH]; intros skip; cbn [prefixes_v2_W]; [into ip_ok|]. into ip_ok; [repeat into ip_ok|].
  eapply keeps_lift_bind; [apply copy_from_length|]. intros e He. cbv zeta.
  into ip_ok; [into ip_ok|]. into ip_ok; [|apply IH]. into ip_ok. intros ip H. apply prefix_fits; assumption.
Qed.

Lemma ip_area_v1_fits m buf len skip : keeps ip_ok (ip_area_v1_W m buf len skip).
Proof. unfold ip_area_v1_W. repeat into ip_ok. apply prefixes_v1_fits. Qed.

Lemma ip_area_v2_fits m buf hdr len skip : keeps ip_ok (ip_area_v2_W m buf hdr len skip).
Proof. unfold ip_area_v2_W. repeat into ip_ok. apply prefixes_v2_fits. Qed.

Lemma Proposal_fits m buf : keeps proposal_ok (Proposal_W m buf).
Proof.
  unfold Proposal_W, smcd_v1_W. repeat into2 proposal_ok.
  apply (keeps_part _ ip_ok); [fit_in proposal_ok|fit_in proposal_ok|apply ip_area_v1_fits].
Qed.

Lemma eids_v2_fits m buf len n : forall i skip, keeps ext_ok (eids_v2_W m buf len skip i n).
Proof.
  induction n as [|n IH]; intros i skip; cbn [eids_v2_W]; [repeat into ext_ok|].
  into ext_ok; [repeat into ext_ok|]. apply keeps_get_bind. intros x H.
  apply snd_lift; [exact H|]. intros l1 old E1. apply snd_lift; [exact H|]. intros l2 eid E2.
  apply snd_assign; [exact H|]. intros l3 area E3. cbv zeta. apply IH.
  unfold ext_ok in *. cbn. destruct H as (? & ? & ? & ? & ? & ? & ? & ? & ? & H3 & H4).
  halves; try assumption; cbn.
  - erewrite area_length by exact E3. exact H3.
  - eapply area_Forall; [exact H4| |exact E3]. cbv beta.
    apply copy_from_length in E2. rewrite E2. unfold get_nth in E1.
    destruct (nth_error (x_EIDArea x) i) as [v|] eqn:E; [|discriminate]. injection E1 as _ <-.
    rewrite Forall_forall in H4. apply H4. eapply nth_error_In. exact E.
Qed.

Lemma ext_v2_fits m buf hdr len skip : keeps ext_ok (ext_v2_W m buf hdr len skip).
Proof. unfold ext_v2_W. repeat into ext_ok. apply eids_v2_fits. Qed.

Lemma nth_Forall {A} (Q : A -> Prop) a i l v : Forall Q a -> get_nth a i = (l, Done v) -> Q v.
Proof.
  unfold get_nth. intros H E. destruct (nth_error a i) as [w|] eqn:En; [|discriminate].
  injection E as _ <-. rewrite Forall_forall in H. apply H. eapply nth_error_In. exact En.
Qed.

Lemma gids_v2_fits m buf len n : forall i skip, keeps dext_ok (gids_v2_W m buf len skip i n).
Proof.
  induction n as [|n IH]; intros i skip; cbn [gids_v2_W]; [repeat into dext_ok|].
  into dext_ok; [repeat into dext_ok|]. eapply keeps_lift_bind; [apply be64_lt|]. cbv beta.
  intros gid Hg. apply keeps_get_bind. intros y H.
  apply snd_lift; [exact H|]. intros l1 old E1.
  apply snd_assign; [exact H|]. intros l3 area E3. cbv zeta.
  assert (H' : dext_ok (set_y_GIDArea area y)).
  { destruct H as (H1 & H2 & H3 & H4). unfold dext_ok. cbn. halves; try assumption.
    - erewrite area_length by exact E3. exact H3.
    - eapply area_Forall; [exact H4| |exact E3]. cbn. split; [exact Hg|].
      apply (nth_Forall _ _ _ _ _ H4 E1). }
  clear E3 E1 H. revert H'. generalize (set_y_GIDArea area y). clear y area old. intros y H.
  apply snd_lift; [exact H|]. intros l4 vchid E4. apply be16_lt in E4.
  apply (keeps_get_bind dext_ok y_GIDArea); [|exact H]. clear y H. intros y H.
  apply snd_lift; [exact H|]. intros l5 old E5.
  apply snd_assign; [exact H|]. intros l6 area E6. apply IH.
  destruct H as (H1 & H2 & H3 & H4). unfold dext_ok. cbn. halves; try assumption.
  - erewrite area_length by exact E6. exact H3.
  - eapply area_Forall; [exact H4| |exact E6]. cbn. split; [|exact E4].
    apply (nth_Forall _ _ _ _ _ H4 E5).
Qed.

Lemma smcd_v2_fits m buf hdr len skip g : keeps dext_ok (smcd_v2_W m buf hdr len skip g).
Proof. unfold smcd_v2_W. repeat into dext_ok. apply gids_v2_fits. Qed.

Lemma ProposalV2_fits m buf : keeps proposalv2_ok (ProposalV2_W m buf).
Proof.
  unfold ProposalV2_W. repeat into2 proposalv2_ok.
  - apply (keeps_part _ ip_ok); [fit_in proposalv2_ok|fit_in proposalv2_ok|apply ip_area_v2_fits].
  - apply (keeps_part _ ext_ok); [fit_in proposalv2_ok|fit_in proposalv2_ok|apply ext_v2_fits].
  - apply (keeps_part _ dext_ok); [fit_in proposalv2_ok|fit_in proposalv2_ok|apply smcd_v2_fits].
Qed.

Definition clc_ok (msg : Message) : Prop :=
  match msg with
  | MProposal p => proposal_ok p
  | MProposalV2 p => proposalv2_ok p
  | MAcceptSMCR a => smcr_ok a
  | MAcceptSMCD a => smcd_ok a
  | MAcceptSMCDv2 a => smcdv2_ok a
  | MConfirmSMCR c => smcr_ok (cr_Accept c)
  | MConfirmSMCD c => smcd_ok (cd_Accept c)
  | MConfirmSMCDv2 c => smcdv2_ok (c2_Accept c)
  | MDecline d => decline_ok d
  | MDeclineV2 d => declinev2_ok d
  end.

Lemma Message_W_ok m buf old l o new : clc_ok old -> Message_W m buf old = (l, o, new) -> clc_ok new.
Proof.
  intros H E. destruct old; cbn [Message_W clc_ok] in *; eapply inside_keeps in E;
    try exact E; try exact H; cbn [clc_ok cr_Accept cd_Accept c2_Accept]; try (intros x Hx; exact Hx).
  - apply Proposal_fits.
  - apply ProposalV2_fits.
  - apply AcceptSMCR_fits.
  - apply AcceptSMCD_fits.
  - apply AcceptSMCDv2_fits.
  - apply AcceptSMCR_fits.
  - apply AcceptSMCD_fits.
  - apply AcceptSMCDv2_fits.
  - apply Decline_fits.
  - apply DeclineV2_fits.
Qed.

(** ** LLC *)

Lemma BaseMsg_fits m buf : keeps base_ok (BaseMsg_W m buf).
Proof. unfold BaseMsg_W. repeat into base_ok. Qed.

Lemma each_fits {S} (Q : S -> Prop) (w : slice -> W S slice) n buf : (forall b, keeps Q (w b)) ->
  keeps (area_ok n Q) (each w buf).
Proof.
  intros Hw l [Hn Hl]. split.
  - apply (each_length w n buf l Hn).
  - clear Hn. revert buf. induction Hl as [|e l He Hl IH]; intros buf; [constructor|]. cbn [each].
    specialize (Hw buf e He).
    destruct (w buf e) as [[lg [b| |]] e1]; try (constructor; assumption).
    specialize (IH b). destruct (each w b l) as [[l2 o] rest]. constructor; assumption.
Qed.

Ltac into3 f :=
  cbv zeta;
  lazymatch goal with
  | |- keeps _ (wbind (lift (masked _ _ _)) _) =>
    eapply keeps_lift_bind; [apply masked_le|intros ? ?]
  | |- keeps _ (part _ _ (BaseMsg_W _ _)) =>
    apply (keeps_part _ base_ok); [try solve [fit_in f]|try solve [fit_in f]|apply BaseMsg_fits]
  | |- _ => into f
  end.

Lemma ConfirmLink_fits m buf : keeps cl_ok (ConfirmLink_W m buf).
Proof. unfold ConfirmLink_W. repeat into3 cl_ok. Qed.

Lemma AddLink_fits m buf : keeps al_ok (AddLink_W m buf).
Proof. unfold AddLink_W. repeat into3 al_ok. Qed.

Lemma RKeyPair_fits m buf : keeps rp_ok (RKeyPair_W m buf).
Proof. unfold RKeyPair_W. repeat into rp_ok. Qed.

Lemma AddLinkCont_fits m buf : keeps ac_ok (AddLinkCont_W m buf).
Proof.
  unfold AddLinkCont_W. repeat into3 ac_ok.
  apply (keeps_part _ (area_ok 2 rp_ok)); [fit_in ac_ok|fit_in ac_ok|].
  apply each_fits. apply RKeyPair_fits.
Qed.

Lemma DeleteLink_fits m buf : keeps dl_ok (DeleteLink_W m buf).
Proof. unfold DeleteLink_W. repeat into3 dl_ok. Qed.

Lemma RMBSpec_fits m buf : keeps rs_ok (RMBSpec_W m buf).
Proof. unfold RMBSpec_W. repeat into rs_ok. Qed.

Lemma ConfirmRKey_fits m buf : keeps ck_ok (ConfirmRKey_W m buf).
Proof.
  unfold ConfirmRKey_W. repeat into3 ck_ok.
  apply (keeps_part _ (area_ok 2 rs_ok)); [fit_in ck_ok|fit_in ck_ok|].
  apply each_fits. apply RMBSpec_fits.
Qed.

Lemma ConfirmRKeyCont_fits m buf : keeps cc_ok (ConfirmRKeyCont_W m buf).
Proof.
  unfold ConfirmRKeyCont_W. repeat into3 cc_ok.
  apply (keeps_part _ (area_ok 3 rs_ok)); [fit_in cc_ok|fit_in cc_ok|].
  apply each_fits. apply RMBSpec_fits.
Qed.

Lemma rkey_fits m buf : keeps (lt2 32) (rkey_W m buf).
Proof. unfold rkey_W. repeat into lt2. Qed.

Lemma deleteRKey_fits m buf : keeps dk_ok (deleteRKey_W m buf).
Proof.
  unfold deleteRKey_W. repeat into3 dk_ok.
  apply (keeps_part _ (area_ok 8 (lt2 32))); [fit_in dk_ok|fit_in dk_ok|].
  apply each_fits. apply rkey_fits.
Qed.

Lemma TestLink_fits m buf : keeps tl_ok (TestLink_W m buf).
Proof. unfold TestLink_W. repeat into3 tl_ok. Qed.

Lemma CDC_fits m buf : keeps c_ok (CDC_W m buf).
Proof.
  unfold CDC_W.
  repeat into3 c_ok; [intros v r Hv Hr|intros v r Hv Hr|intros r Hr|intros r Hr];
    unfold c_ok in *; cbn [set_c_Base set_c_res4 c_Base c_SeqNum c_AlertTkn c_res1 c_ProdWrap
      c_ProdCurs c_res2 c_ConsWrap c_ConsCurs c_res3 c_res4];
    destruct Hr as (Hb & ? & ? & ? & ? & ? & ? & ? & ? & ? & Ht); halves; try assumption.
  - destruct Hb as [Hb Hx]. split; [exact Hv|exact Hx].
  - destruct Hb as [Hb Hx]. split; [exact Hb|exact Hv].
  - cbv beta in *. destruct (c_res4 r) as [|b t]; [destruct Ht|]. destruct Ht as [Ht Hx]. cbn.
    split; [|exact Hx]. rewrite EncodeFacts.b2n_n2b. rewrite N.mod_small; lia.
  - destruct (c_res4 r) as [|b t]; [destruct Ht|]. destruct Ht as [Ht Hx].
    cbn [firstn skipn app tail_ok].
    split; [exact Ht|]. rewrite go_copy_keeps. exact Hx.
Qed.

Definition llc_ok (msg : LLCMessage) : Prop :=
  match msg with
  | LConfirm c => cl_ok c
  | LAddLink a => al_ok a
  | LAddLinkCont a => ac_ok a
  | LDeleteLink d => dl_ok d
  | LConfirmRKey c => ck_ok c
  | LConfirmRKeyCont c => cc_ok c
  | LDeleteRKey d => dk_ok d
  | LTestLink t => tl_ok t
  | LCDC c => c_ok c
  | LOther o => True
  end.

Lemma LLC_W_ok m buf old l o new : llc_ok old -> LLC_W m buf old = (l, o, new) -> llc_ok new.
Proof.
  intros H E. destruct old; cbn [LLC_W llc_ok] in *; eapply linside_keeps in E;
    try exact E; try exact H; cbn [llc_ok]; try (intros x Hx; exact Hx).
  - apply ConfirmLink_fits.
  - apply AddLink_fits.
  - apply AddLinkCont_fits.
  - apply DeleteLink_fits.
  - apply ConfirmRKey_fits.
  - apply ConfirmRKeyCont_fits.
  - apply deleteRKey_fits.
  - apply TestLink_fits.
  - apply CDC_fits.
Qed.

(** ** RoCE *)

Lemma BTH_fits m buf : keeps bth_ok (BTH_W m buf).
Proof. unfold BTH_W. repeat into bth_ok. Qed.

(** ** Reachable objects *)

Ltac zeros :=
  halves; try reflexivity; try (right; reflexivity); try (left; reflexivity);
  repeat (apply Forall_nil || (apply Forall_cons; [halves; reflexivity|])).

Lemma clc_reachable_ok msg : reachable msg -> clc_ok msg.
Proof.
  induction 1 as [k|m old buf logs new _ IH _ E|m old buf logs new _ IH _ E].
  - destruct k; cbn; unfold proposal_ok, proposalv2_ok, smcr_ok, smcd_ok, smcdv2_ok, decline_ok,
      declinev2_ok, ip_ok, ext_ok, dext_ok, header_ok, lt2; cbn; zeros.
  - pose proof (RecoverFacts.clc_run m buf old) as Hs. unfold same_run in Hs.
    destruct (Message_W m buf old) as [[l [u| |]] r] eqn:Ew; rewrite E in Hs; try discriminate.
    injection Hs as _ ->. eapply Message_W_ok; eassumption.
  - eapply Message_W_ok; eassumption.
Qed.

Lemma llc_reachable_ok msg : llc_reachable msg -> llc_ok msg.
Proof.
  induction 1 as [k|m old buf logs new _ IH _ E|m old buf logs new _ IH _ E].
  - destruct k; cbn; unfold cl_ok, al_ok, ac_ok, dl_ok, ck_ok, cc_ok, dk_ok, tl_ok, c_ok, area_ok,
      rp_ok, rs_ok, base_ok, tail_ok, lt2; cbn; zeros; exact I.
  - pose proof (RecoverFacts.llc_run m buf old) as Hs. unfold same_run in Hs.
    destruct (LLC_W m buf old) as [[l [u| |]] r] eqn:Ew; rewrite E in Hs; try discriminate.
    injection Hs as _ ->. eapply LLC_W_ok; eassumption.
  - eapply LLC_W_ok; eassumption.
Qed.

Lemma bth_reachable_ok b : bth_reachable b -> bth_ok b.
Proof.
  induction 1 as [|m old buf logs new _ IH _ E|m old buf logs new _ IH _ E].
  - unfold bth_ok, lt2. cbn. zeros.
  - pose proof (RecoverFacts.bth_run m buf old) as Hs. unfold same_run in Hs.
    pose proof (BTH_fits m buf old IH) as Hf.
    destruct (BTH_W m buf old) as [[l [u| |]] r] eqn:Ew; rewrite E in Hs; try discriminate.
    injection Hs as _ ->. exact Hf.
  - pose proof (BTH_fits m buf old IH) as Hf. rewrite E in Hf. exact Hf.
Qed.

(** ** The formats *)

Lemma first8 (l : list byte) : length l = 10 -> length (firstn 8 l) = 8.
Proof. intros H. rewrite firstn_length, H. reflexivity. Qed.

Ltac formed :=
  cbn [in_format app String.eqb Ascii.eqb Bool.eqb is_address existsb orb concat map combine fst snd append];
  halves; try exact eq_refl;
  first [ assumption | left; assumption | left; apply bit_lt | left; apply first8; assumption
        | match goal with H : addr _ _ |- _ => destruct H as [H|H];
            [left; exact H|right; split; [reflexivity|rewrite H; reflexivity]] end
        | exact I ].

Lemma header_formed h : header_ok h -> header_in_format h.
Proof.
  intros (H1 & H2 & H3 & H4 & H5 & H6 & H7 & H8). unfold header_in_format, header_view,
    header_v2proposal_view, clc_header, clc_header_v2proposal. formed.
Qed.

Lemma in_format_app a b va vb : in_format a va -> in_format b vb -> in_format (a ++ b) (va ++ vb).
Proof.
  revert va. induction a as [|[n k] a IH]; intros [|[n' v] va]; cbn; try tauto.
  intros (H1 & H2 & H3) H4. split; [exact H1|]. split; [exact H2|]. apply IH; assumption.
Qed.

Lemma with_header h l vs : header_ok h -> in_format l vs -> in_format (clc_header ++ l) (header_view h ++ vs).
Proof. intros H1 H2. apply in_format_app; [apply header_formed, H1|exact H2]. Qed.

Lemma ip_formed i : ip_ok i -> ip_in_format i.
Proof.
  intros (H1 & H2 & H3 & H4 & H5). split.
  - unfold ip_area_view, ip_area_body. formed.
  - eapply Forall_impl; [|exact H5]. intros e [He1 He2]. unfold ipv6_prefix_view, ipv6_prefix_body. formed.
Qed.

Lemma ext_formed x : ext_ok x -> ext_in_format x.
Proof.
  intros (H1 & H2 & H3 & H4 & H5 & H6 & H7 & H8 & H9 & H10 & H11). split; [|split; assumption].
  unfold v2_extension_view, v2_extension_body. formed.
Qed.

Lemma dext_formed y : dext_ok y -> smcd_in_format y.
Proof.
  intros (H1 & H2 & H3 & H4). split; [|split; [exact H3|]].
  - unfold smcdv2_extension_view, smcdv2_extension_body. formed.
  - eapply Forall_impl; [|exact H4]. intros e [He1 He2]. unfold gid_entry_view, gid_entry_body. formed.
Qed.

Lemma smcr_formed a : smcr_ok a ->
  in_format (clc_header ++ accept_smcr_body) (accept_smcr_view a).
Proof.
  intros (H0 & H1 & H2 & H3 & H4 & H5 & H6 & H7 & H8 & H9 & H10 & H11 & H12 & H13 & H14).
  apply with_header; [exact H0|]. unfold accept_smcr_body. formed.
Qed.

Lemma smcd_formed a : smcd_ok a ->
  in_format (clc_header ++ accept_smcd_body) (accept_smcd_view a).
Proof.
  intros (H0 & H1 & H2 & H3 & H4 & H5 & H6 & H7 & H8 & H9).
  apply with_header; [exact H0|]. unfold accept_smcd_body. formed.
Qed.

Lemma smcdv2_formed a : smcdv2_ok a ->
  in_format (clc_header ++ accept_smcdv2_body ++ fce_body) (accept_smcdv2_view a ++ fce_view a).
Proof.
  intros (H0 & H1 & H2 & H3 & H4 & H5 & H6 & H7 & H8 & H9 & H10 & H11 & H12 & H13 & H14 & H15 & H16).
  unfold accept_smcdv2_view. rewrite <- app_assoc. apply with_header; [exact H0|].
  apply in_format_app; [unfold accept_smcdv2_body; formed|unfold fce_body, fce_view; formed].
Qed.

Lemma clc_formed msg : reachable msg -> clc_in_format msg.
Proof.
  intros H. apply clc_reachable_ok in H. unfold clc_in_format.
  destruct msg as [p|p|a|a|a|c|c|c|d|d];
    cbn [clc_ok header_of trailer_of kind_of read_layout read_view] in *.
  - destruct H as (H0 & H1 & H2 & H3 & H4 & H5 & H6 & H7 & H8).
    split; [apply header_formed, H0|]. split; [exact H1|]. split; [|split; [|apply ip_formed, H8]].
    + apply with_header; [exact H0|]. unfold proposal_body. formed.
    + unfold proposal_smcd_view, proposal_smcd_body. formed.
  - destruct H as (H0 & H1 & H2 & H3 & H4 & H5 & H6 & H7 & H8 & H9 & H10 & H11 & H12).
    split; [apply header_formed, H0|]. split; [exact H1|].
    split; [|split; [apply ip_formed, H10|split; [apply ext_formed, H11|apply dext_formed, H12]]].
    apply in_format_app; [apply header_formed, H0|]. unfold proposalv2_body. formed.
  - split; [apply header_formed, H|]. split; [apply H|]. apply smcr_formed, H.
  - split; [apply header_formed, H|]. split; [apply H|]. apply smcd_formed, H.
  - split; [apply header_formed, H|]. split; [apply H|]. apply smcdv2_formed, H.
  - split; [apply header_formed, H|]. split; [apply H|]. apply smcr_formed, H.
  - split; [apply header_formed, H|]. split; [apply H|]. apply smcd_formed, H.
  - split; [apply header_formed, H|]. split; [apply H|]. apply smcdv2_formed, H.
  - destruct H as (H0 & H1 & H2 & H3 & H4 & H5).
    split; [apply header_formed, H0|]. split; [exact H1|]. split; [|exact H5].
    apply with_header; [exact H0|]. unfold decline_body. formed.
  - destruct H as (H0 & H1 & H2 & H3 & H4 & H5).
    split; [apply header_formed, H0|]. split; [exact H1|]. split; [|exact H5].
    apply with_header; [exact H0|].
    assert (H6 : (BE (d2_reserved d) < 2 ^ N.of_nat 32)%N).
    { eapply N.lt_le_trans; [apply BE_lt|]. rewrite H5. vm_compute. discriminate. }
    formed.
Qed.

Lemma two {A} (l : list A) : length l = 2 -> exists a b, l = [a; b].
Proof. destruct l as [|a [|b [|c l]]]; try discriminate. eauto. Qed.

Lemma three {A} (l : list A) : length l = 3 -> exists a b c, l = [a; b; c].
Proof. destruct l as [|a [|b [|c [|d l]]]]; try discriminate. eauto. Qed.

Lemma eight {A} (l : list A) : length l = 8 -> exists a b c d e f g h, l = [a; b; c; d; e; f; g; h].
Proof.
  destruct l as [|a [|b [|c [|d [|e [|f [|g [|h [|i l]]]]]]]]]; try discriminate. intros _.
  exists a, b, c, d, e, f, g, h. reflexivity.
Qed.

Ltac lists := repeat match goal with H : Forall _ (_ :: _) |- _ => inversion H; clear H; subst end.

Lemma llc_formed msg : llc_reachable msg -> llc_in_format msg.
Proof.
  intros H. pose proof (LlcMessage.llc_reachable_wf _ H) as Hwf. split; [|exact Hwf]. clear Hwf.
  apply llc_reachable_ok in H.
  destruct msg as [c|a|a|d|c|c|d|t|c|o]; cbn [llc_ok llc_view llc_layout llc_kind_of] in *;
    try (unfold cl_ok, al_ok, ac_ok, dl_ok, ck_ok, cc_ok, dk_ok, tl_ok, c_ok, base_ok, area_ok in H);
    repeat match goal with H : _ /\ _ |- _ => destruct H end.
  - unfold confirm_link_view, llc_confirm_link, bit. formed.
  - unfold add_link_view, llc_add_link, bit. formed.
  - destruct (two (ac_RKeyPairs a)) as (p & q & E); [assumption|].
    unfold add_link_cont_view, llc_add_link_cont, rkey_pair_view, rkey_pair, bit. rewrite E in *. lists.
    unfold rp_ok in *. repeat match goal with H : _ /\ _ |- _ => destruct H end. formed.
  - unfold delete_link_view, llc_delete_link, bit. formed.
  - destruct (two (ck_OtherRMBs c)) as (p & q & E); [assumption|].
    unfold confirm_rkey_view, llc_confirm_rkey, rmb_spec_view, rmb_spec, bit. rewrite E in *. lists.
    unfold rs_ok in *. repeat match goal with H : _ /\ _ |- _ => destruct H end. formed.
  - destruct (three (cc_OtherRMBs c)) as (p & q & r & E); [assumption|].
    unfold confirm_rkey_cont_view, llc_confirm_rkey_cont, rmb_spec_view, rmb_spec, bit. rewrite E in *. lists.
    unfold rs_ok in *. repeat match goal with H : _ /\ _ |- _ => destruct H end. formed.
  - destruct (eight (dk_rkeys d)) as (k1 & k2 & k3 & k4 & k5 & k6 & k7 & k8 & E); [assumption|].
    unfold delete_rkey_view, llc_delete_rkey, bit. rewrite E in *. lists. formed.
  - unfold test_link_view, llc_test_link, bit. formed.
  - assert (Hc : (BE (c_res4 c) < 2 ^ N.of_nat 149)%N).
    { match goal with H : tail_ok _ |- _ => revert H end. destruct (c_res4 c) as [|b t]; [intros []|].
      intros [Hb Ht]. change (b :: t) with ([b] ++ t). rewrite BE_app, Ht.
      pose proof (BE_lt t) as Hl. rewrite Ht in Hl.
      replace (BE [b]) with (b2n b) by (cbn; lia).
      replace (2 ^ N.of_nat 149)%N with (32 * 256 ^ N.of_nat 18)%N by reflexivity.
      apply N.lt_le_trans with (b2n b * 256 ^ N.of_nat 18 + 256 ^ N.of_nat 18)%N; [lia|].
      replace (b2n b * 256 ^ N.of_nat 18 + 256 ^ N.of_nat 18)%N
        with ((b2n b + 1) * 256 ^ N.of_nat 18)%N by ring.
      apply N.mul_le_mono_r. lia. }
    unfold cdc_view, cdc, bit. formed.
  - exact I.
Qed.

Lemma bth_formed b : bth_reachable b -> in_format bth (bth_view b).
Proof.
  intros H. apply bth_reachable_ok in H. unfold bth_ok in H.
  repeat match goal with H : _ /\ _ |- _ => destruct H end. unfold bth, bth_view, bit. formed.
Qed.

Lemma grh_formed m old buf logs new : slice_ok m buf -> 40 <= s_len buf ->
  GRH_Parse m old buf = (logs, Done new) -> values_for grh (grh_view new).
Proof.
  intros Hok Hl E. destruct (RoceText.GRH_decode m old buf Hok Hl) as (g & E' & V & _).
  rewrite E in E'. injection E' as _ ->. rewrite V. apply EncodeFacts.decode_values; [reflexivity|].
  rewrite Slices.s_bytes_length by exact Hok. change (layout_bits grh) with (8 * 40). lia.
Qed.

(** ** Examples *)

Import Samples.

Definition largest : list byte :=
  Eval vm_compute in (hexs "e2d4c3d902004418" ++ repeat xff 56 ++ hexs "e2d4c3d9")%list.

Lemma largest_example :
  let bs := largest in
  exists a, Message_Parse (mem1 bs) (fresh KAcceptSMCR) (slice1 bs) = ([], Done (MAcceptSMCR a)) /\
    reachable (MAcceptSMCR a) /\
    (ar_QPN a = 2 ^ 24 - 1 /\ ar_RMBESize a = 15 /\ ar_QPMTU a = 15 /\ ar_RMBDMAAddr a = 2 ^ 64 - 1)%N /\
    ar_IBMAC a = repeat xff 6.
Proof.
  intros bs.
  assert (E : exists a, Message_Parse (mem1 bs) (fresh KAcceptSMCR) (slice1 bs) = ([], Done (MAcceptSMCR a)) /\
    (ar_QPN a = 2 ^ 24 - 1 /\ ar_RMBESize a = 15 /\ ar_QPMTU a = 15 /\ ar_RMBDMAAddr a = 2 ^ 64 - 1)%N /\
    ar_IBMAC a = repeat xff 6).
  { eexists. split; [vm_compute; reflexivity|]. vm_compute. auto. }
  destruct E as (a & E & H). exists a. split; [exact E|]. split; [|exact H].
  eapply reach_parse; [apply (reach_fresh KAcceptSMCR)|apply slice1_ok|exact E].
Qed.

Definition cut_decline : list byte :=
  Eval vm_compute in hexs "e2d4c3d904001c20252525252525250003030000f0000000e2d4c3d9".

Lemma cut_decline_example :
  let bs := cut_decline in
  let s := slice_n bs 20 in
  exists d, Message_W (mem1 bs) s (fresh KDeclineV2) = ([], Panicked, MDeclineV2 d) /\
    reachable (MDeclineV2 d) /\ BE (d2_reserved d) = 4026531840%N.
Proof.
  intros bs s.
  assert (E : exists d, Message_W (mem1 bs) s (fresh KDeclineV2) = ([], Panicked, MDeclineV2 d) /\
    BE (d2_reserved d) = 4026531840%N).
  { eexists. split; [vm_compute; reflexivity|]. vm_compute. reflexivity. }
  destruct E as (d & E & H). exists d. split; [exact E|]. split; [|exact H].
  eapply reach_panic; [apply (reach_fresh KDeclineV2)| |exact E].
  apply slice_n_ok. apply Nat.leb_le. reflexivity.
Qed.
