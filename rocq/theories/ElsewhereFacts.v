(** * ElsewhereFacts: proofs about buffers with the same contents at different places. *)

From Coq Require Import NArith ZArith Bool String Ascii Arith List Lia.
From Verif Require Import GoBase GoFmt ClcModel LlcModel RoceModel Setters Elsewhere.
Import ListNotations.
Local Open Scope nat_scope.

(** the two buffers are slices of Go *)
Definition twins (m1 : mem) (s1 : slice) (m2 : mem) (s2 : slice) : Prop :=
  slice_ok m1 s1 /\ slice_ok m2 s2 /\ same_window m1 s1 m2 s2.

(** ** Results that are alike *)

Lemma alike_refl {A} (x : M A) : alike eq x x.
Proof. split; [reflexivity|]. destruct (snd x); auto. Qed.

Lemma alike_eq {A} (x y : M A) : alike eq x y -> x = y.
Proof.
  destruct x as [l [a| |]], y as [l' [a'| |]]; intros [E H]; cbn in *; subst; try contradiction; reflexivity.
Qed.

Lemma alike_ret {A B} (R : A -> B -> Prop) a b : R a b -> alike R (ret a) (ret b).
Proof. intros H. split; [reflexivity|exact H]. Qed.

Lemma alike_bind {A1 A2 B1 B2} (Q : A1 -> A2 -> Prop) (R : B1 -> B2 -> Prop) x1 x2 f1 f2 :
  alike Q x1 x2 -> (forall a1 a2, Q a1 a2 -> alike R (f1 a1) (f2 a2)) -> alike R (bind x1 f1) (bind x2 f2).
Proof.
  destruct x1 as [l1 o1], x2 as [l2 o2]. intros [E H] F. cbn in E, H. subst l2.
  destruct o1 as [a1| |], o2 as [a2| |]; try contradiction; try (split; [reflexivity|exact I]).
  specialize (F a1 a2 H). unfold alike in *. cbn [bind].
  destruct (f1 a1) as [k1 p1], (f2 a2) as [k2 p2]. cbn [fst snd] in *. destruct F as [-> F]. auto.
Qed.

Lemma alike_weaken {A B} (Q R : A -> B -> Prop) x y : alike Q x y -> (forall a b, Q a b -> R a b) -> alike R x y.
Proof. intros [E H] W. split; [exact E|]. destruct (snd x), (snd y); auto. Qed.

(** ** Reading *)

Lemma window_bytes m s : s_len s <= s_cap s -> s_bytes m s = firstn (s_len s) (window m s).
Proof. intros H. unfold s_bytes, window. rewrite firstn_firstn, Nat.min_l by exact H. reflexivity. Qed.

Lemma window_nth m s i : i < s_cap s -> nth_error (m (s_arr s)) (s_off s + i) = nth_error (window m s) i.
Proof.
  intros H. unfold window. generalize (m (s_arr s)); intros l. revert H.
  generalize (s_cap s); intros c H.
  assert (A : forall (k : list byte) c i, i < c -> nth_error (firstn c k) i = nth_error k i).
  { clear. induction k; intros [|c] [|i] H; try reflexivity; try lia. cbn. apply IHk. lia. }
  rewrite A by exact H. generalize (s_off s). clear. induction l; intros [|n]; cbn; try reflexivity.
  - destruct i; reflexivity.
  - apply IHl.
Qed.

Lemma twins_len m1 s1 m2 s2 : twins m1 s1 m2 s2 -> s_len s1 = s_len s2.
Proof. intros (_ & _ & H & _). exact H. Qed.

Lemma twins_bytes m1 s1 m2 s2 : twins m1 s1 m2 s2 -> s_bytes m1 s1 = s_bytes m2 s2.
Proof.
  intros ([L1 _] & [L2 _] & E & _ & W). rewrite !window_bytes by assumption. rewrite E, W. reflexivity.
Qed.

Lemma twins_idx m1 s1 m2 s2 i : twins m1 s1 m2 s2 -> alike eq (idx m1 s1 i) (idx m2 s2 i).
Proof.
  intros ([L1 _] & [L2 _] & E & C & W). unfold idx. rewrite E. destruct (i <? s_len s2) eqn:B; [|apply alike_refl].
  apply Nat.ltb_lt in B. rewrite !window_nth by lia. rewrite W. apply alike_refl.
Qed.

Lemma window_reslice m s lo n : s_off s + s_cap s <= length (m (s_arr s)) -> lo <= s_cap s ->
  window m (mkslice (s_arr s) (s_off s + lo) n (s_cap s - lo)) = skipn lo (window m s).
Proof.
  intros H L. unfold window. cbn [s_arr s_off s_cap]. rewrite skipn_firstn_comm. f_equal.
  generalize (m (s_arr s)). generalize (s_off s). clear. induction n; intros l; [reflexivity|].
  destruct l; [cbn; destruct lo; reflexivity|]. cbn. apply IHn.
Qed.

Lemma twins_reslice m1 s1 m2 s2 lo hi : twins m1 s1 m2 s2 ->
  alike (fun t1 t2 => twins m1 t1 m2 t2) (reslice s1 lo hi) (reslice s2 lo hi).
Proof.
  intros ([L1 B1] & [L2 B2] & E & C & W). unfold reslice. rewrite C.
  destruct ((lo <=? hi) && (hi <=? s_cap s2)) eqn:B; [|split; [reflexivity|exact I]].
  apply andb_true_iff in B. destruct B as [X Y]. apply Nat.leb_le in X, Y.
  apply alike_ret. repeat split; cbn [s_len s_cap s_off s_arr]; try lia.
  pose proof (window_reslice m1 s1 lo (hi - lo) B1 ltac:(lia)) as W1.
  pose proof (window_reslice m2 s2 lo (hi - lo) B2 ltac:(lia)) as W2. rewrite C in W1.
  rewrite W1, W2, W. reflexivity.
Qed.

Lemma twins_from m1 s1 m2 s2 lo : twins m1 s1 m2 s2 ->
  alike (fun t1 t2 => twins m1 t1 m2 t2) (from s1 lo) (from s2 lo).
Proof. intros T. unfold from. rewrite (twins_len _ _ _ _ T). apply twins_reslice, T. Qed.

Lemma twins_upto m1 s1 m2 s2 hi : twins m1 s1 m2 s2 ->
  alike (fun t1 t2 => twins m1 t1 m2 t2) (upto s1 hi) (upto s2 hi).
Proof. apply twins_reslice. Qed.

Lemma twins_last_n m1 s1 m2 s2 n : twins m1 s1 m2 s2 ->
  alike (fun t1 t2 => twins m1 t1 m2 t2) (last_n s1 n) (last_n s2 n).
Proof.
  intros T. unfold last_n. rewrite (twins_len _ _ _ _ T). destruct (s_len s2 <? n); [split; [reflexivity|exact I]|].
  apply twins_from, T.
Qed.

Lemma twins_drop_last_n m1 s1 m2 s2 n : twins m1 s1 m2 s2 ->
  alike (fun t1 t2 => twins m1 t1 m2 t2) (drop_last_n s1 n) (drop_last_n s2 n).
Proof.
  intros T. unfold drop_last_n. rewrite (twins_len _ _ _ _ T).
  destruct (s_len s2 <? n); [split; [reflexivity|exact I]|]. apply twins_upto, T.
Qed.

Create HintDb twin discriminated.
#[local] Hint Resolve twins_idx twins_reslice twins_from twins_upto twins_last_n twins_drop_last_n : twin.

(** a value and the rest of the buffer *)
Definition both {A} (m1 m2 : mem) (x1 x2 : A * slice) : Prop :=
  fst x1 = fst x2 /\ twins m1 (snd x1) m2 (snd x2).

Lemma both_pair {A} m1 m2 (a : A) s1 s2 : twins m1 s1 m2 s2 -> both m1 m2 (a, s1) (a, s2).
Proof. intros T. split; [reflexivity|exact T]. Qed.
#[local] Hint Resolve both_pair : twin.

Ltac learn := repeat match goal with
  | H : both _ _ ?x ?y |- _ => destruct x, y, H; cbn [fst snd] in *
  | H : ?a = ?b |- _ => first [subst a | subst b]
  end.

(** one step through two programs of the same shape *)
Ltac step := cbv beta zeta; match goal with
  | |- alike _ (ret _) (ret _) => apply alike_ret
  | |- alike _ (bind (log_ln _) _) (bind (log_ln _) _) =>
      eapply (alike_bind eq); [apply alike_refl|let h := fresh "H" in intros ? ? h; cbv beta in h; learn]
  | |- alike _ (bind _ _) (bind _ _) =>
      eapply alike_bind; [solve [eauto with twin | apply alike_refl]|let h := fresh "H" in intros ? ? h; cbv beta in h; learn]
  | |- alike _ (if ?c then _ else _) (if ?c then _ else _) => destruct c
  | |- alike _ (match ?c with None => _ | Some _ => _ end) (match ?c with None => _ | Some _ => _ end) => destruct c
  | |- alike _ (match ?c with (_, _) => _ end) (match ?c with (_, _) => _ end) => destruct c
  | |- alike eq _ _ => solve [eauto with twin | apply alike_refl]
  end.
Ltac steps := repeat step; try reflexivity; eauto with twin.

Lemma twins_Uint16 m1 s1 m2 s2 : twins m1 s1 m2 s2 -> alike eq (Uint16 m1 s1) (Uint16 m2 s2).
Proof. intros T. unfold Uint16. steps. Qed.
Lemma twins_Uint32 m1 s1 m2 s2 : twins m1 s1 m2 s2 -> alike eq (Uint32 m1 s1) (Uint32 m2 s2).
Proof. intros T. unfold Uint32. steps. Qed.
Lemma twins_Uint64 m1 s1 m2 s2 : twins m1 s1 m2 s2 -> alike eq (Uint64 m1 s1) (Uint64 m2 s2).
Proof. intros T. unfold Uint64. steps. Qed.
#[local] Hint Resolve twins_Uint16 twins_Uint32 twins_Uint64 : twin.

Lemma twins_be16 m1 s1 m2 s2 a b : twins m1 s1 m2 s2 -> alike eq (be16 m1 s1 a b) (be16 m2 s2 a b).
Proof. intros T. unfold be16. steps. Qed.
Lemma twins_be32 m1 s1 m2 s2 a b : twins m1 s1 m2 s2 -> alike eq (be32 m1 s1 a b) (be32 m2 s2 a b).
Proof. intros T. unfold be32. steps. Qed.
Lemma twins_be64 m1 s1 m2 s2 a b : twins m1 s1 m2 s2 -> alike eq (be64 m1 s1 a b) (be64 m2 s2 a b).
Proof. intros T. unfold be64. steps. Qed.
Lemma twins_be24 m1 s1 m2 s2 : twins m1 s1 m2 s2 -> alike eq (be24 m1 s1) (be24 m2 s2).
Proof. intros T. unfold be24. steps. Qed.
Lemma twins_copy m1 s1 m2 s2 d a b : twins m1 s1 m2 s2 -> alike eq (copy_from m1 d s1 a b) (copy_from m2 d s2 a b).
Proof. intros T. unfold copy_from. steps. rewrite (twins_bytes _ _ _ _ H). reflexivity. Qed.
Lemma twins_errDump m1 s1 m2 s2 : twins m1 s1 m2 s2 -> alike eq (errDump m1 s1) (errDump m2 s2).
Proof. intros T. unfold errDump. rewrite (twins_bytes _ _ _ _ T). apply alike_refl. Qed.
#[local] Hint Resolve twins_be16 twins_be32 twins_be64 twins_be24 twins_copy twins_errDump : twin.

(** ** CLC *)

Lemma twins_HasEyecatcher m1 s1 m2 s2 : twins m1 s1 m2 s2 -> alike eq (HasEyecatcher m1 s1) (HasEyecatcher m2 s2).
Proof.
  intros T. unfold HasEyecatcher. steps. rewrite (twins_bytes _ _ _ _ H). steps.
  rewrite (twins_bytes _ _ _ _ H0). steps.
Qed.

Lemma twins_Trailer m1 s1 m2 s2 t : twins m1 s1 m2 s2 -> alike eq (Trailer_Parse m1 t s1) (Trailer_Parse m2 t s2).
Proof.
  intros T. unfold Trailer_Parse. steps. rewrite (twins_bytes _ _ _ _ H). steps.
Qed.

Lemma twins_Header m1 s1 m2 s2 h : twins m1 s1 m2 s2 -> alike eq (Header_Parse m1 h s1) (Header_Parse m2 h s2).
Proof. intros T. unfold Header_Parse. steps. Qed.
#[local] Hint Resolve twins_HasEyecatcher twins_Trailer twins_Header : twin.

Lemma twins_NewMessage m1 s1 m2 s2 : twins m1 s1 m2 s2 -> NewMessage m1 s1 = NewMessage m2 s2.
Proof. intros T. apply alike_eq. unfold NewMessage. steps. Qed.

Ltac objects := repeat split; reflexivity.

Lemma twins_AcceptSMCD m1 s1 m2 s2 o : twins m1 s1 m2 s2 ->
  alike (fun n1 n2 => ad_Raw n1 = s1 /\ ad_Raw n2 = s2 /\ set_ad_Raw s2 n1 = n2)
    (AcceptSMCD_Parse m1 o s1) (AcceptSMCD_Parse m2 o s2).
Proof. intros T. unfold AcceptSMCD_Parse. steps; objects. Qed.

Lemma twins_AcceptSMCR m1 s1 m2 s2 o : twins m1 s1 m2 s2 ->
  alike (fun n1 n2 => ar_Raw n1 = s1 /\ ar_Raw n2 = s2 /\ set_ar_Raw s2 n1 = n2)
    (AcceptSMCR_Parse m1 o s1) (AcceptSMCR_Parse m2 o s2).
Proof. intros T. unfold AcceptSMCR_Parse. steps; objects. Qed.


Lemma twins_fce m1 s1 m2 s2 o n : twins m1 s1 m2 s2 ->
  alike (both m1 m2) (fce_Parse m1 o n s1) (fce_Parse m2 o n s2).
Proof. intros T. unfold fce_Parse. steps. Qed.
#[local] Hint Resolve twins_fce : twin.

Lemma twins_AcceptSMCDv2 m1 s1 m2 s2 o : twins m1 s1 m2 s2 ->
  alike (fun n1 n2 => a2_Raw n1 = s1 /\ a2_Raw n2 = s2 /\ set_a2_Raw s2 n1 = n2)
    (AcceptSMCDv2_Parse m1 o s1) (AcceptSMCDv2_Parse m2 o s2).
Proof.
  intros T. unfold AcceptSMCDv2_Parse. rewrite (twins_len _ _ _ _ T).
  steps; repeat match goal with x : (_ * _)%type |- _ => destruct x end; steps; objects.
Qed.

Lemma twins_Decline m1 s1 m2 s2 o : twins m1 s1 m2 s2 ->
  alike (fun n1 n2 => d_Raw n1 = s1 /\ d_Raw n2 = s2 /\ set_d_Raw s2 n1 = n2)
    (Decline_Parse m1 o s1) (Decline_Parse m2 o s2).
Proof. intros T. unfold Decline_Parse. steps; objects. Qed.

Lemma twins_DeclineV2 m1 s1 m2 s2 o : twins m1 s1 m2 s2 ->
  alike (fun n1 n2 => d2_Raw n1 = s1 /\ d2_Raw n2 = s2 /\ set_d2_Raw s2 n1 = n2)
    (DeclineV2_Parse m1 o s1) (DeclineV2_Parse m2 o s2).
Proof. intros T. unfold DeclineV2_Parse. steps; objects. Qed.

Lemma twins_prefixes_v1 m1 s1 m2 s2 len : twins m1 s1 m2 s2 -> forall n skip acc,
  alike eq (prefixes_v1 m1 s1 len skip acc n) (prefixes_v1 m2 s2 len skip acc n).
Proof. intros T. induction n; intros; cbn [prefixes_v1]; steps. Qed.
#[local] Hint Resolve twins_prefixes_v1 : twin.

Lemma twins_ip_area_v1 m1 s1 m2 s2 len skip ip : twins m1 s1 m2 s2 ->
  alike eq (ip_area_v1 m1 s1 len skip ip) (ip_area_v1 m2 s2 len skip ip).
Proof. intros T. unfold ip_area_v1. steps. Qed.
#[local] Hint Resolve twins_ip_area_v1 : twin.

Lemma twins_Proposal m1 s1 m2 s2 o : twins m1 s1 m2 s2 ->
  alike (fun n1 n2 => p_Raw n1 = s1 /\ p_Raw n2 = s2 /\ set_p_Raw s2 n1 = n2)
    (Proposal_Parse m1 o s1) (Proposal_Parse m2 o s2).
Proof.
  intros T. unfold Proposal_Parse. do 10 (try step); [objects|]. repeat step.
  all: try objects.
  eapply (alike_bind eq).
  - destruct (_ =? _)%N; steps.
  - intros x y ->. steps; objects.
Qed.

Lemma twins_prefixes_v2 m1 s1 m2 s2 len : twins m1 s1 m2 s2 -> forall n skip acc,
  alike eq (prefixes_v2 m1 s1 len skip acc n) (prefixes_v2 m2 s2 len skip acc n).
Proof. intros T. induction n; intros; cbn [prefixes_v2]; steps. Qed.
#[local] Hint Resolve twins_prefixes_v2 : twin.

Lemma twins_ip_area_v2 m1 s1 m2 s2 h len skip ip : twins m1 s1 m2 s2 ->
  alike eq (ip_area_v2 m1 s1 h len skip ip) (ip_area_v2 m2 s2 h len skip ip).
Proof. intros T. unfold ip_area_v2. steps. Qed.

Lemma twins_eids_v2 m1 s1 m2 s2 len : twins m1 s1 m2 s2 -> forall n skip area i,
  alike eq (eids_v2 m1 s1 len skip area i n) (eids_v2 m2 s2 len skip area i n).
Proof. intros T. induction n; intros; cbn [eids_v2]; steps. Qed.
#[local] Hint Resolve twins_ip_area_v2 twins_eids_v2 : twin.

Lemma twins_ext_v2 m1 s1 m2 s2 h len skip x : twins m1 s1 m2 s2 ->
  alike eq (ext_v2 m1 s1 h len skip x) (ext_v2 m2 s2 h len skip x).
Proof. intros T. unfold ext_v2. steps. Qed.

Lemma twins_gids_v2 m1 s1 m2 s2 len : twins m1 s1 m2 s2 -> forall n skip area i,
  alike eq (gids_v2 m1 s1 len skip area i n) (gids_v2 m2 s2 len skip area i n).
Proof. intros T. induction n; intros; cbn [gids_v2]; steps. Qed.
#[local] Hint Resolve twins_ext_v2 twins_gids_v2 : twin.

Lemma twins_smcd_v2 m1 s1 m2 s2 h len skip g y : twins m1 s1 m2 s2 ->
  alike eq (smcd_v2 m1 s1 h len skip g y) (smcd_v2 m2 s2 h len skip g y).
Proof. intros T. unfold smcd_v2. steps. Qed.
#[local] Hint Resolve twins_smcd_v2 : twin.

Lemma twins_ProposalV2 m1 s1 m2 s2 o : twins m1 s1 m2 s2 ->
  alike (fun n1 n2 => p2_Raw n1 = s1 /\ p2_Raw n2 = s2 /\ set_p2_Raw s2 n1 = n2)
    (ProposalV2_Parse m1 o s1) (ProposalV2_Parse m2 o s2).
Proof. intros T. unfold ProposalV2_Parse. steps; objects. Qed.

Theorem clc_elsewhere m1 s1 m2 s2 old : slice_ok m1 s1 -> slice_ok m2 s2 -> same_window m1 s1 m2 s2 ->
  alike (same_clc s1 s2) (Message_Parse m1 old s1) (Message_Parse m2 old s2).
Proof.
  intros O1 O2 W. assert (T : twins m1 s1 m2 s2) by (split; [|split]; assumption).
  destruct old as [p|p|a|a|a|c|c|c|d|d]; cbn [Message_Parse];
    unfold ConfirmSMCR_Parse, ConfirmSMCD_Parse, ConfirmSMCDv2_Parse.
  1: eapply alike_bind; [apply (twins_Proposal _ _ _ _ _ T)|].
  2: eapply alike_bind; [apply (twins_ProposalV2 _ _ _ _ _ T)|].
  3: eapply alike_bind; [apply (twins_AcceptSMCR _ _ _ _ _ T)|].
  4: eapply alike_bind; [apply (twins_AcceptSMCD _ _ _ _ _ T)|].
  5: eapply alike_bind; [apply (twins_AcceptSMCDv2 _ _ _ _ _ T)|].
  9: eapply alike_bind; [apply (twins_Decline _ _ _ _ _ T)|].
  10: eapply alike_bind; [apply (twins_DeclineV2 _ _ _ _ _ T)|].
  6: eapply (alike_bind (fun n1 n2 => ar_Raw (cr_Accept n1) = s1 /\ ar_Raw (cr_Accept n2) = s2 /\
      set_ar_Raw s2 (cr_Accept n1) = cr_Accept n2));
    [eapply alike_bind; [apply (twins_AcceptSMCR _ _ _ _ _ T)|intros; apply alike_ret; assumption]|].
  7: eapply (alike_bind (fun n1 n2 => ad_Raw (cd_Accept n1) = s1 /\ ad_Raw (cd_Accept n2) = s2 /\
      set_ad_Raw s2 (cd_Accept n1) = cd_Accept n2));
    [eapply alike_bind; [apply (twins_AcceptSMCD _ _ _ _ _ T)|intros; apply alike_ret; assumption]|].
  8: eapply (alike_bind (fun n1 n2 => a2_Raw (c2_Accept n1) = s1 /\ a2_Raw (c2_Accept n2) = s2 /\
      set_a2_Raw s2 (c2_Accept n1) = c2_Accept n2));
    [eapply alike_bind; [apply (twins_AcceptSMCDv2 _ _ _ _ _ T)|intros; apply alike_ret; assumption]|].
  all: intros n1 n2 (E1 & E2 & E3); apply alike_ret; split; [|split]; cbn [Message_Raw with_Raw]; try assumption.
  all: try (rewrite E3; reflexivity).
  all: destruct n1 as [a1], n2 as [a2]; simpl in *; subst a2; reflexivity.
Qed.

(** the texts and the dump *)
Lemma same_clc_texts m1 s1 m2 s2 n1 n2 : slice_ok m1 s1 -> slice_ok m2 s2 -> same_window m1 s1 m2 s2 ->
  same_clc s1 s2 n1 n2 ->
  Message_String n1 = Message_String n2 /\ Message_Reserved n1 = Message_Reserved n2 /\
  Message_Dump m1 n1 = Message_Dump m2 n2.
Proof.
  intros O1 O2 W (E1 & E2 & E3). assert (T : twins m1 s1 m2 s2) by (split; [|split]; assumption).
  split; [|split].
  - rewrite <- E3. destruct n1; reflexivity.
  - rewrite <- E3. destruct n1; reflexivity.
  - unfold Message_Dump, Raw_Dump. rewrite E1, E2, (twins_bytes _ _ _ _ T). reflexivity.
Qed.

(** ** LLC *)

Lemma twins_flag m1 s1 m2 s2 k : twins m1 s1 m2 s2 -> alike eq (flag m1 s1 k) (flag m2 s2 k).
Proof. intros T. unfold flag. steps. Qed.
Lemma twins_masked m1 s1 m2 s2 k : twins m1 s1 m2 s2 -> alike eq (masked m1 s1 k) (masked m2 s2 k).
Proof. intros T. unfold masked. steps. Qed.
Lemma twins_byte0 m1 s1 m2 s2 : twins m1 s1 m2 s2 -> alike eq (byte0 m1 s1) (byte0 m2 s2).
Proof. intros T. unfold byte0. steps. Qed.
#[local] Hint Resolve twins_flag twins_masked twins_byte0 : twin.

Lemma twins_setRaw m1 s1 m2 s2 : twins m1 s1 m2 s2 -> setRaw m1 s1 = setRaw m2 s2.
Proof. intros T. unfold setRaw. rewrite (twins_len _ _ _ _ T), (twins_bytes _ _ _ _ T). reflexivity. Qed.

Lemma twins_SetBaseMsg m1 s1 m2 s2 : twins m1 s1 m2 s2 -> alike eq (SetBaseMsg m1 s1) (SetBaseMsg m2 s2).
Proof. intros T. unfold SetBaseMsg. rewrite (twins_setRaw _ _ _ _ T). steps. Qed.
#[local] Hint Resolve twins_SetBaseMsg : twin.

(** the rest of the buffer is copied *)
Ltac rest := repeat match goal with T : twins _ ?s _ _ |- context [s_bytes _ ?s] => rewrite (twins_bytes _ _ _ _ T) end.

Lemma twins_CDC m1 s1 m2 s2 o : twins m1 s1 m2 s2 -> alike eq (CDC_Parse m1 o s1) (CDC_Parse m2 o s2).
Proof. intros T. unfold CDC_Parse. rewrite (twins_setRaw _ _ _ _ T). steps; rest; reflexivity. Qed.
Lemma twins_Other m1 s1 m2 s2 o : twins m1 s1 m2 s2 -> alike eq (Other_Parse m1 o s1) (Other_Parse m2 o s2).
Proof. intros T. unfold Other_Parse. rewrite (twins_setRaw _ _ _ _ T), (twins_len _ _ _ _ T). apply alike_refl. Qed.
Lemma twins_AddLink m1 s1 m2 s2 o : twins m1 s1 m2 s2 -> alike eq (AddLink_Parse m1 o s1) (AddLink_Parse m2 o s2).
Proof. intros T. unfold AddLink_Parse. steps; rest; reflexivity. Qed.
Lemma twins_RKeyPair m1 s1 m2 s2 : twins m1 s1 m2 s2 -> alike eq (RKeyPair_Parse m1 s1) (RKeyPair_Parse m2 s2).
Proof. intros T. unfold RKeyPair_Parse. steps. Qed.
Lemma twins_RMBSpec m1 s1 m2 s2 : twins m1 s1 m2 s2 -> alike eq (RMBSpec_Parse m1 s1) (RMBSpec_Parse m2 s2).
Proof. intros T. unfold RMBSpec_Parse. steps. Qed.
#[local] Hint Resolve twins_CDC twins_Other twins_AddLink twins_RKeyPair twins_RMBSpec : twin.
Lemma twins_RKeyPairs m1 m2 : forall n s1 s2, twins m1 s1 m2 s2 ->
  alike (both m1 m2) (RKeyPairs_Parse m1 n s1) (RKeyPairs_Parse m2 n s2).
Proof. induction n; intros s1 s2 T; cbn [RKeyPairs_Parse]; steps. Qed.
Lemma twins_RMBSpecs m1 m2 : forall n s1 s2, twins m1 s1 m2 s2 ->
  alike (both m1 m2) (RMBSpecs_Parse m1 n s1) (RMBSpecs_Parse m2 n s2).
Proof. induction n; intros s1 s2 T; cbn [RMBSpecs_Parse]; steps. Qed.
Lemma twins_rkeys m1 m2 : forall n s1 s2, twins m1 s1 m2 s2 ->
  alike (both m1 m2) (rkeys_Parse m1 n s1) (rkeys_Parse m2 n s2).
Proof. induction n; intros s1 s2 T; cbn [rkeys_Parse]; steps. Qed.
#[local] Hint Resolve twins_RKeyPairs twins_RMBSpecs twins_rkeys : twin.
Lemma twins_AddLinkCont m1 s1 m2 s2 o : twins m1 s1 m2 s2 ->
  alike eq (AddLinkCont_Parse m1 o s1) (AddLinkCont_Parse m2 o s2).
Proof. intros T. unfold AddLinkCont_Parse. steps; rest; reflexivity. Qed.
Lemma twins_ConfirmLink m1 s1 m2 s2 o : twins m1 s1 m2 s2 ->
  alike eq (ConfirmLink_Parse m1 o s1) (ConfirmLink_Parse m2 o s2).
Proof. intros T. unfold ConfirmLink_Parse. steps; rest; reflexivity. Qed.
Lemma twins_ConfirmRKey m1 s1 m2 s2 o : twins m1 s1 m2 s2 ->
  alike eq (ConfirmRKey_Parse m1 o s1) (ConfirmRKey_Parse m2 o s2).
Proof. intros T. unfold ConfirmRKey_Parse. steps. Qed.
Lemma twins_ConfirmRKeyCont m1 s1 m2 s2 o : twins m1 s1 m2 s2 ->
  alike eq (ConfirmRKeyCont_Parse m1 o s1) (ConfirmRKeyCont_Parse m2 o s2).
Proof. intros T. unfold ConfirmRKeyCont_Parse. steps; rest; reflexivity. Qed.
Lemma twins_DeleteLink m1 s1 m2 s2 o : twins m1 s1 m2 s2 ->
  alike eq (DeleteLink_Parse m1 o s1) (DeleteLink_Parse m2 o s2).
Proof. intros T. unfold DeleteLink_Parse. steps; rest; reflexivity. Qed.
Lemma twins_deleteRKey m1 s1 m2 s2 o : twins m1 s1 m2 s2 ->
  alike eq (deleteRKey_Parse m1 o s1) (deleteRKey_Parse m2 o s2).
Proof. intros T. unfold deleteRKey_Parse. steps; rest; reflexivity. Qed.
Lemma twins_TestLink m1 s1 m2 s2 o : twins m1 s1 m2 s2 ->
  alike eq (TestLink_Parse m1 o s1) (TestLink_Parse m2 o s2).
Proof. intros T. unfold TestLink_Parse. steps; rest; reflexivity. Qed.
#[local] Hint Resolve twins_AddLinkCont twins_ConfirmLink twins_ConfirmRKey twins_ConfirmRKeyCont
  twins_DeleteLink twins_deleteRKey twins_TestLink : twin.

Lemma twins_LLC m1 s1 m2 s2 old : twins m1 s1 m2 s2 -> alike eq (LLC_Parse m1 old s1) (LLC_Parse m2 old s2).
Proof. intros T. destruct old; cbn [LLC_Parse]; steps. Qed.

Lemma twins_ParseLLC m1 s1 m2 s2 : twins m1 s1 m2 s2 -> alike eq (ParseLLC m1 s1) (ParseLLC m2 s2).
Proof.
  intros T. unfold ParseLLC. rewrite (twins_len _ _ _ _ T).
  unfold ParseOther, ParseConfirm, ParseAddLink, ParseAddLinkCont, ParseDeleteLink, ParseConfirmRKey,
    ParseConfirmRKeyCont, parseDeleteRKey, ParseTestLink, ParseCDC. steps.
Qed.

Lemma twins_BTH m1 s1 m2 s2 old : twins m1 s1 m2 s2 -> alike eq (BTH_Parse m1 old s1) (BTH_Parse m2 old s2).
Proof.
  intros T. unfold BTH_Parse. rewrite (twins_len _ _ _ _ T), (twins_bytes _ _ _ _ T). steps.
Qed.

Lemma twins_GRH m1 s1 m2 s2 old : twins m1 s1 m2 s2 -> alike eq (GRH_Parse m1 old s1) (GRH_Parse m2 old s2).
Proof. intros T. unfold GRH_Parse. rewrite (twins_bytes _ _ _ _ T). apply alike_refl. Qed.
#[local] Hint Resolve twins_ParseLLC twins_BTH twins_GRH : twin.

Theorem llc_elsewhere m1 s1 m2 s2 : slice_ok m1 s1 -> slice_ok m2 s2 -> same_window m1 s1 m2 s2 ->
  ParseLLC m1 s1 = ParseLLC m2 s2 /\
  (forall old, LLC_Parse m1 old s1 = LLC_Parse m2 old s2) /\
  (forall old, BTH_Parse m1 old s1 = BTH_Parse m2 old s2) /\
  (forall old, GRH_Parse m1 old s1 = GRH_Parse m2 old s2).
Proof.
  intros O1 O2 W. assert (T : twins m1 s1 m2 s2) by (split; [|split]; assumption).
  split; [|split; [|split]]; intros; apply alike_eq.
  - apply twins_ParseLLC, T.
  - apply twins_LLC, T.
  - apply twins_BTH, T.
  - apply twins_GRH, T.
Qed.

Theorem roce_elsewhere m1 s1 m2 s2 : slice_ok m1 s1 -> slice_ok m2 s2 -> same_window m1 s1 m2 s2 ->
  alike (same_packet m1 m2) (ParseRoCEv1 m1 s1) (ParseRoCEv1 m2 s2) /\
  alike (same_packet m1 m2) (ParseRoCEv2 m1 s1) (ParseRoCEv2 m2 s2).
Proof.
  intros O1 O2 W. assert (T : twins m1 s1 m2 s2) by (split; [|split]; assumption).
  split; unfold ParseRoCEv1, ParseRoCEv2, ParseGRH, ParseBTH; steps;
    (repeat split; cbn [r_ICRC]; try reflexivity;
     match goal with H : twins _ ?a _ ?b |- context [window _ ?a] => destruct H as (_ & _ & _ & _ & H); exact H
     | H : twins _ ?a _ ?b |- context [s_len ?a] => destruct H as (_ & _ & H & _ & _); exact H
     | H : twins _ ?a _ ?b |- context [s_cap ?a] => destruct H as (_ & _ & _ & H & _); exact H end).
Qed.

Theorem new_elsewhere m1 s1 m2 s2 : slice_ok m1 s1 -> slice_ok m2 s2 -> same_window m1 s1 m2 s2 ->
  NewMessage m1 s1 = NewMessage m2 s2 /\ HasEyecatcher m1 s1 = HasEyecatcher m2 s2.
Proof.
  intros O1 O2 W. assert (T : twins m1 s1 m2 s2) by (split; [|split]; assumption).
  split; [apply twins_NewMessage, T|apply alike_eq, twins_HasEyecatcher, T].
Qed.
