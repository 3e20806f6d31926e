(** * ElsewhereWrite: proofs about buffers with the same contents at different places, for Parse
    as a sequence of assignments. *)

From Coq Require Import NArith ZArith Bool String Ascii Arith List Lia.
From Verif Require Import GoBase GoFmt ClcModel LlcModel RoceModel Setters WriteModel LlcWriteModel
  Elsewhere ElsewhereFacts.
Import ListNotations.
Local Open Scope nat_scope.

#[local] Hint Resolve twins_idx twins_reslice twins_from twins_upto twins_last_n twins_drop_last_n
  both_pair twins_Uint16 twins_Uint32 twins_Uint64 twins_be16 twins_be32 twins_be64 twins_be24
  twins_copy twins_errDump twins_flag twins_masked twins_byte0 : twin.

(** two runs with the same lines, the same end, related results and related receivers *)
Definition runs {R1 R2 A1 A2} (S : R1 -> R2 -> Prop) (Q : A1 -> A2 -> Prop) (w1 : W R1 A1) (w2 : W R2 A2) : Prop :=
  forall r1 r2, S r1 r2 ->
  let '(l1, o1, n1) := w1 r1 in let '(l2, o2, n2) := w2 r2 in
  alike Q (l1, o1) (l2, o2) /\ S n1 n2.

Lemma runs_ret {R1 R2 A1 A2} (S : R1 -> R2 -> Prop) (Q : A1 -> A2 -> Prop) a1 a2 : Q a1 a2 -> runs S Q (wret a1) (wret a2).
Proof. intros H r1 r2 E. cbn. split; [split; [reflexivity|exact H]|exact E]. Qed.

Lemma runs_lift {R1 R2 A1 A2} (S : R1 -> R2 -> Prop) (Q : A1 -> A2 -> Prop) x1 x2 : alike Q x1 x2 -> runs S Q (lift x1) (lift x2).
Proof. intros H r1 r2 E. unfold lift. split; [destruct x1, x2; exact H|exact E]. Qed.

Lemma runs_bind {R1 R2 A1 A2 B1 B2} (S : R1 -> R2 -> Prop) (Q : A1 -> A2 -> Prop) (P : B1 -> B2 -> Prop) x1 x2 f1 f2 :
  runs S Q x1 x2 -> (forall a1 a2, Q a1 a2 -> runs S P (f1 a1) (f2 a2)) -> runs S P (wbind x1 f1) (wbind x2 f2).
Proof.
  intros H F r1 r2 E. unfold wbind. specialize (H r1 r2 E).
  destruct (x1 r1) as [[l1 o1] n1], (x2 r2) as [[l2 o2] n2]. destruct H as [[EL H] E']. cbn [fst snd] in EL, H.
  subst l2. destruct o1 as [a1| |], o2 as [a2| |]; try contradiction;
    try (split; [split; [reflexivity|exact I]|exact E']).
  specialize (F a1 a2 H n1 n2 E'). destruct (f1 a1 n1) as [[k1 p1] q1], (f2 a2 n2) as [[k2 p2] q2].
  destruct F as [[EK K] E2]. cbn [fst snd] in EK, K. subst k2. split; [split; [reflexivity|exact K]|exact E2].
Qed.

Lemma runs_get {R1 R2 A1 A2} (S : R1 -> R2 -> Prop) (Q : A1 -> A2 -> Prop) f1 f2 :
  (forall r1 r2, S r1 r2 -> Q (f1 r1) (f2 r2)) -> runs S Q (get f1) (get f2).
Proof. intros H r1 r2 E. cbn. split; [split; [reflexivity|exact (H _ _ E)]|exact E]. Qed.

Lemma runs_change {R1 R2} (S : R1 -> R2 -> Prop) f1 f2 :
  (forall r1 r2, S r1 r2 -> S (f1 r1) (f2 r2)) -> runs S eq (change f1) (change f2).
Proof. intros H r1 r2 E. cbn. split; [split; reflexivity|exact (H _ _ E)]. Qed.

Lemma runs_assign {R1 R2 A} (S : R1 -> R2 -> Prop) (set1 : A -> R1 -> R1) (set2 : A -> R2 -> R2) e1 e2 :
  alike eq e1 e2 -> (forall v r1 r2, S r1 r2 -> S (set1 v r1) (set2 v r2)) -> runs S eq (assign set1 e1) (assign set2 e2).
Proof. intros E H. eapply runs_bind; [apply runs_lift, E|]. intros a ? <-. apply runs_change, H. Qed.

Lemma runs_assignf {R1 R2 A B} (S : R1 -> R2 -> Prop) (set1 : B -> R1 -> R1) (set2 : B -> R2 -> R2) (g : A -> B) e1 e2 :
  alike eq e1 e2 -> (forall v r1 r2, S r1 r2 -> S (set1 v r1) (set2 v r2)) -> runs S eq (assignf set1 g e1) (assignf set2 g e2).
Proof. intros E H. eapply runs_bind; [apply runs_lift, E|]. intros a ? <-. apply runs_change, H. Qed.

Lemma runs_copyto {R1 R2} (S : R1 -> R2 -> Prop) f1 f2 (set1 : list byte -> R1 -> R1) (set2 : list byte -> R2 -> R2)
    m1 s1 m2 s2 lo hi : twins m1 s1 m2 s2 ->
  (forall v r1 r2, S r1 r2 -> S (set1 v r1) (set2 v r2)) -> (forall r1 r2, S r1 r2 -> f1 r1 = f2 r2) ->
  runs S eq (copyto f1 set1 m1 s1 lo hi) (copyto f2 set2 m2 s2 lo hi).
Proof.
  intros T H G. eapply runs_bind; [apply runs_lift, twins_reslice, T|]. cbv beta. intros t1 t2 T'.
  apply runs_change. intros r1 r2 E. rewrite (twins_bytes _ _ _ _ T'), (G _ _ E). apply H, E.
Qed.

Lemma runs_maketo {R1 R2} (S : R1 -> R2 -> Prop) f1 f2 (set1 : list byte -> R1 -> R1) (set2 : list byte -> R2 -> R2)
    n m1 s1 m2 s2 lo hi : twins m1 s1 m2 s2 ->
  (forall v r1 r2, S r1 r2 -> S (set1 v r1) (set2 v r2)) -> (forall r1 r2, S r1 r2 -> f1 r1 = f2 r2) ->
  runs S eq (maketo f1 set1 n m1 s1 lo hi) (maketo f2 set2 n m2 s2 lo hi).
Proof.
  intros T H G. eapply runs_bind; [apply runs_change; intros; apply H; assumption|].
  intros ? ? _. apply runs_copyto; assumption.
Qed.

Lemma runs_write24 {R1 R2} (S : R1 -> R2 -> Prop) f1 f2 (set1 : N -> R1 -> R1) (set2 : N -> R2 -> R2)
    m1 s1 m2 s2 : twins m1 s1 m2 s2 ->
  (forall v r1 r2, S r1 r2 -> S (set1 v r1) (set2 v r2)) -> (forall r1 r2, S r1 r2 -> f1 r1 = f2 r2) ->
  runs S eq (write24 f1 set1 m1 s1) (write24 f2 set2 m2 s2).
Proof.
  intros T H G. unfold write24.
  eapply runs_bind; [apply runs_lift, twins_idx, T|]. intros a ? <-.
  eapply runs_bind; [apply runs_change; intros; apply H; assumption|]. intros ? ? _.
  eapply runs_bind; [apply runs_lift, twins_idx, T|]. intros b ? <-.
  eapply runs_bind; [apply runs_change; intros r1 r2 E; rewrite (G _ _ E); apply H, E|]. intros ? ? _.
  eapply runs_bind; [apply runs_lift, twins_idx, T|]. intros c ? <-.
  apply runs_change; intros r1 r2 E; rewrite (G _ _ E); apply H, E.
Qed.

Lemma runs_part {R1 R2 P1 P2 A1 A2} (S : R1 -> R2 -> Prop) (U : P1 -> P2 -> Prop) (Q : A1 -> A2 -> Prop) f1 f2
    (set1 : P1 -> R1 -> R1) (set2 : P2 -> R2 -> R2) w1 w2 :
  runs U Q w1 w2 -> (forall r1 r2, S r1 r2 -> U (f1 r1) (f2 r2)) ->
  (forall p1 p2 r1 r2, U p1 p2 -> S r1 r2 -> S (set1 p1 r1) (set2 p2 r2)) ->
  runs S Q (part f1 set1 w1) (part f2 set2 w2).
Proof.
  intros H G K r1 r2 E. unfold part. specialize (H _ _ (G _ _ E)).
  destruct (w1 (f1 r1)) as [[l1 o1] n1], (w2 (f2 r2)) as [[l2 o2] n2]. destruct H as [H HU].
  split; [exact H|apply K; assumption].
Qed.

Lemma runs_complain {R1 R2} (S : R1 -> R2 -> Prop) m1 s1 m2 s2 t n : twins m1 s1 m2 s2 ->
  runs S eq (complain m1 t s1 n) (complain m2 t s2 n).
Proof.
  intros T. apply runs_lift. eapply (alike_bind eq); [apply alike_refl|]. intros ? ? _.
  eapply alike_bind; [apply twins_upto, T|]. cbv beta. intros t1 t2 T'. apply twins_errDump, T'.
Qed.

Lemma runs_copyall {R1 R2} (S : R1 -> R2 -> Prop) f1 f2 (set1 : list byte -> R1 -> R1) (set2 : list byte -> R2 -> R2)
    m1 s1 m2 s2 : twins m1 s1 m2 s2 ->
  (forall v r1 r2, S r1 r2 -> S (set1 v r1) (set2 v r2)) -> (forall r1 r2, S r1 r2 -> f1 r1 = f2 r2) ->
  runs S eq (copyall f1 set1 m1 s1) (copyall f2 set2 m2 s2).
Proof. intros T H G. apply runs_change. intros r1 r2 E. rewrite (twins_bytes _ _ _ _ T), (G _ _ E). apply H, E. Qed.

Lemma runs_each {P} m1 m2 (w1 w2 : slice -> W P slice) :
  (forall s1 s2, twins m1 s1 m2 s2 -> runs eq (fun t1 t2 => twins m1 t1 m2 t2) (w1 s1) (w2 s2)) ->
  forall s1 s2, twins m1 s1 m2 s2 -> runs eq (fun t1 t2 => twins m1 t1 m2 t2) (each w1 s1) (each w2 s2).
Proof.
  intros H s1 s2 T x ? <-. revert s1 s2 T. induction x as [|e x IH]; intros s1 s2 T; cbn [each].
  - split; [split; [reflexivity|exact T]|reflexivity].
  - specialize (H s1 s2 T e e eq_refl). destruct (w1 s1 e) as [[l1 o1] e1], (w2 s2 e) as [[l2 o2] e2].
    destruct H as [[EL H] <-]. cbn [fst snd] in EL, H. subst l2.
    destruct o1 as [t1| |], o2 as [t2| |]; try contradiction;
      try (split; [split; [reflexivity|exact I]|reflexivity]).
    specialize (IH t1 t2 H). destruct (each w1 t1 x) as [[k1 p1] x1], (each w2 t2 x) as [[k2 p2] x2].
    destruct IH as [[EK K] <-]. cbn [fst snd] in EK, K. subst k2. split; [split; [reflexivity|exact K]|reflexivity].
Qed.

(** ** Objects without a slice *)

Ltac exchange := repeat match goal with
  | T : twins _ ?s _ _ |- context [s_bytes _ ?s] => rewrite (twins_bytes _ _ _ _ T)
  | T : twins _ ?s _ _ |- context [setRaw _ ?s] => rewrite (twins_setRaw _ _ _ _ T)
  | T : twins _ ?s _ _ |- context [s_len ?s] => rewrite (twins_len _ _ _ _ T)
  end.
Ltac plain := cbv beta zeta; repeat match goal with H : ?a = ?b |- _ => first [subst a | subst b] end;
  exchange; try reflexivity; eauto with twin.
Ltac wlearn := repeat match goal with
  | H : both _ _ ?x ?y |- _ => destruct x, y, H; cbn [fst snd] in *
  | H : ?a = ?b |- _ => first [subst a | subst b]
  end.

Create HintDb runs discriminated.

(** [fin] proves that setters keep the relation of the receivers *)
Ltac wstep fin := cbv beta zeta; match goal with
  | |- runs _ _ (wbind _ _) (wbind _ _) =>
      eapply runs_bind; [wpart fin|let h := fresh "H" in intros ? ? h; cbv beta in h; wlearn]
  | |- runs _ _ (if ?c then _ else _) (if ?c then _ else _) => destruct c
  | |- runs _ _ (match ?c with None => _ | Some _ => _ end) (match ?c with None => _ | Some _ => _ end) => destruct c
  | |- runs _ _ (match ?c with (_, _) => _ end) (match ?c with (_, _) => _ end) => destruct c
  | |- runs _ _ _ _ => wpart fin
  end
with wpart fin := cbv beta zeta; match goal with
  | |- runs _ _ (wret _) (wret _) => apply runs_ret; eauto with twin
  | |- runs _ _ (lift _) (lift _) => apply runs_lift; solve [eauto with twin | apply alike_refl]
  | |- runs _ _ (get _) (get _) => eapply (runs_get _ eq); fin
  | |- runs _ _ (change _) (change _) => apply runs_change; fin
  | |- runs _ _ (assign _ _) (assign _ _) => apply runs_assign; [solve [eauto with twin | apply alike_refl]|fin]
  | |- runs _ _ (assignf _ _ _) (assignf _ _ _) => apply runs_assignf; [solve [eauto with twin | apply alike_refl]|fin]
  | |- runs _ _ (copyto _ _ _ _ _ _) _ => apply runs_copyto; [eassumption|fin|fin]
  | |- runs _ _ (maketo _ _ _ _ _ _ _) _ => apply runs_maketo; [eassumption|fin|fin]
  | |- runs _ _ (write24 _ _ _ _) _ => apply runs_write24; [eassumption|fin|fin]
  | |- runs _ _ (copyall _ _ _ _) _ => apply runs_copyall; [eassumption|fin|fin]
  | |- runs _ _ (complain _ _ _ _) _ => apply runs_complain; eassumption
  | |- runs _ _ (part _ _ _) _ => eapply (runs_part _ eq); [solve [eauto with runs]|fin|fin]
  | |- runs _ _ _ _ => solve [eauto with runs]
  end.

Ltac same := intros; plain.
Ltac wsteps := repeat wstep same.

Lemma run_Header m1 s1 m2 s2 : twins m1 s1 m2 s2 -> runs eq eq (Header_W m1 s1) (Header_W m2 s2).
Proof. intros T. unfold Header_W. wsteps. Qed.
#[local] Hint Resolve run_Header : runs.

Lemma run_Trailer m1 s1 m2 s2 : twins m1 s1 m2 s2 -> runs eq eq (Trailer_W m1 s1) (Trailer_W m2 s2).
Proof.
  intros T. unfold Trailer_W. wsteps.
  apply runs_lift. eapply (alike_bind eq); [apply alike_refl|]. intros ? ? _.
  eapply alike_bind; [apply twins_last_n, T|]. cbv beta. intros t1 t2 T'. apply twins_errDump, T'.
Qed.
#[local] Hint Resolve run_Trailer : runs.

Lemma run_prefixes_v1 m1 s1 m2 s2 len : twins m1 s1 m2 s2 -> forall n skip,
  runs eq eq (prefixes_v1_W m1 s1 len skip n) (prefixes_v1_W m2 s2 len skip n).
Proof. intros T. induction n; intros; cbn [prefixes_v1_W]; wsteps. Qed.
#[local] Hint Resolve run_prefixes_v1 : runs.
Lemma run_ip_area_v1 m1 s1 m2 s2 len skip : twins m1 s1 m2 s2 ->
  runs eq eq (ip_area_v1_W m1 s1 len skip) (ip_area_v1_W m2 s2 len skip).
Proof. intros T. unfold ip_area_v1_W. wsteps. Qed.
Lemma run_prefixes_v2 m1 s1 m2 s2 len : twins m1 s1 m2 s2 -> forall n skip,
  runs eq eq (prefixes_v2_W m1 s1 len skip n) (prefixes_v2_W m2 s2 len skip n).
Proof. intros T. induction n; intros; cbn [prefixes_v2_W]; wsteps. Qed.
#[local] Hint Resolve run_ip_area_v1 run_prefixes_v2 : runs.
Lemma run_ip_area_v2 m1 s1 m2 s2 h len skip : twins m1 s1 m2 s2 ->
  runs eq eq (ip_area_v2_W m1 s1 h len skip) (ip_area_v2_W m2 s2 h len skip).
Proof. intros T. unfold ip_area_v2_W. wsteps. Qed.
Lemma run_eids m1 s1 m2 s2 len : twins m1 s1 m2 s2 -> forall n skip i,
  runs eq eq (eids_v2_W m1 s1 len skip i n) (eids_v2_W m2 s2 len skip i n).
Proof. intros T. induction n; intros; cbn [eids_v2_W]; wsteps. Qed.
#[local] Hint Resolve run_ip_area_v2 run_eids : runs.
Lemma run_ext m1 s1 m2 s2 h len skip : twins m1 s1 m2 s2 ->
  runs eq eq (ext_v2_W m1 s1 h len skip) (ext_v2_W m2 s2 h len skip).
Proof. intros T. unfold ext_v2_W. wsteps. Qed.
Lemma run_gids m1 s1 m2 s2 len : twins m1 s1 m2 s2 -> forall n skip i,
  runs eq eq (gids_v2_W m1 s1 len skip i n) (gids_v2_W m2 s2 len skip i n).
Proof. intros T. induction n; intros; cbn [gids_v2_W]; wsteps. Qed.
#[local] Hint Resolve run_ext run_gids : runs.
Lemma run_smcd m1 s1 m2 s2 h len skip g : twins m1 s1 m2 s2 ->
  runs eq eq (smcd_v2_W m1 s1 h len skip g) (smcd_v2_W m2 s2 h len skip g).
Proof. intros T. unfold smcd_v2_W. wsteps. Qed.
#[local] Hint Resolve run_smcd : runs.

(** ** CLC messages: the receivers differ in Raw *)

Definition apart {R} (raw : R -> slice) (set : slice -> R -> R) (s1 s2 : slice) (r1 r2 : R) : Prop :=
  raw r1 = s1 /\ raw r2 = s2 /\ set s2 r1 = r2.

(** the first assignment of Parse is that of Raw *)
Lemma runs_first {R} (raw : R -> slice) (set : slice -> R -> R) s1 s2 (w1 w2 : W R unit) :
  (forall s r, raw (set s r) = s) -> (forall s t r, set s (set t r) = set s r) ->
  runs (apart raw set s1 s2) eq w1 w2 ->
  forall r, let '(l1, o1, n1) := (change (set s1) ;> w1) r in let '(l2, o2, n2) := (change (set s2) ;> w2) r in
  alike eq (l1, o1) (l2, o2) /\ apart raw set s1 s2 n1 n2.
Proof.
  intros G K H r. unfold wbind, change. cbv beta iota.
  assert (A : apart raw set s1 s2 (set s1 r) (set s2 r)) by (repeat split; auto).
  specialize (H _ _ A). destruct (w1 (set s1 r)) as [[l1 o1] n1], (w2 (set s2 r)) as [[l2 o2] n2]. exact H.
Qed.

(** setters of other fields keep the receivers apart; getters see no difference *)
Ltac record := intros; repeat match goal with H : apart _ _ _ _ ?r1 ?r2 |- _ => destruct H as (? & ? & <-) end;
  wlearn; repeat split; repeat match goal with r : ?R |- _ => is_var r; destruct r; [] end; reflexivity.
Ltac wsteps_apart := repeat wstep record.

Lemma run_AcceptSMCD m1 s1 m2 s2 r : twins m1 s1 m2 s2 ->
  let '(l1, o1, n1) := AcceptSMCD_W m1 s1 r in let '(l2, o2, n2) := AcceptSMCD_W m2 s2 r in
  alike eq (l1, o1) (l2, o2) /\ apart ad_Raw set_ad_Raw s1 s2 n1 n2.
Proof.
  intros T. revert r. apply runs_first; [reflexivity|reflexivity|]. wsteps_apart.
Qed.

Lemma run_AcceptSMCR m1 s1 m2 s2 r : twins m1 s1 m2 s2 ->
  let '(l1, o1, n1) := AcceptSMCR_W m1 s1 r in let '(l2, o2, n2) := AcceptSMCR_W m2 s2 r in
  alike eq (l1, o1) (l2, o2) /\ apart ar_Raw set_ar_Raw s1 s2 n1 n2.
Proof. intros T. revert r. unfold AcceptSMCR_W. apply runs_first; [reflexivity|reflexivity|]. wsteps_apart. Qed.

Lemma run_fce m1 s1 m2 s2 t1 t2 len : twins m1 s1 m2 s2 ->
  runs (apart a2_Raw set_a2_Raw t1 t2) (fun u1 u2 => twins m1 u1 m2 u2) (fce_W m1 len s1) (fce_W m2 len s2).
Proof. intros T. unfold fce_W. wsteps_apart. Qed.
#[local] Hint Resolve run_fce : runs.

Lemma run_AcceptSMCDv2 m1 s1 m2 s2 r : twins m1 s1 m2 s2 ->
  let '(l1, o1, n1) := AcceptSMCDv2_W m1 s1 r in let '(l2, o2, n2) := AcceptSMCDv2_W m2 s2 r in
  alike eq (l1, o1) (l2, o2) /\ apart a2_Raw set_a2_Raw s1 s2 n1 n2.
Proof. intros T. revert r. unfold AcceptSMCDv2_W. rewrite (twins_len _ _ _ _ T). apply runs_first; [reflexivity|reflexivity|]. wsteps_apart. Qed.

Lemma run_Decline m1 s1 m2 s2 r : twins m1 s1 m2 s2 ->
  let '(l1, o1, n1) := Decline_W m1 s1 r in let '(l2, o2, n2) := Decline_W m2 s2 r in
  alike eq (l1, o1) (l2, o2) /\ apart d_Raw set_d_Raw s1 s2 n1 n2.
Proof. intros T. revert r. unfold Decline_W. apply runs_first; [reflexivity|reflexivity|]. wsteps_apart. Qed.

Lemma run_DeclineV2 m1 s1 m2 s2 r : twins m1 s1 m2 s2 ->
  let '(l1, o1, n1) := DeclineV2_W m1 s1 r in let '(l2, o2, n2) := DeclineV2_W m2 s2 r in
  alike eq (l1, o1) (l2, o2) /\ apart d2_Raw set_d2_Raw s1 s2 n1 n2.
Proof. intros T. revert r. unfold DeclineV2_W. apply runs_first; [reflexivity|reflexivity|]. wsteps_apart. Qed.

Lemma run_smcd_v1 m1 s1 m2 s2 t1 t2 skip : twins m1 s1 m2 s2 ->
  runs (apart p_Raw set_p_Raw t1 t2) eq (smcd_v1_W m1 s1 skip) (smcd_v1_W m2 s2 skip).
Proof. intros T. unfold smcd_v1_W. wsteps_apart. Qed.
#[local] Hint Resolve run_smcd_v1 : runs.

Lemma run_Proposal m1 s1 m2 s2 r : twins m1 s1 m2 s2 ->
  let '(l1, o1, n1) := Proposal_W m1 s1 r in let '(l2, o2, n2) := Proposal_W m2 s2 r in
  alike eq (l1, o1) (l2, o2) /\ apart p_Raw set_p_Raw s1 s2 n1 n2.
Proof. intros T. revert r. unfold Proposal_W. apply runs_first; [reflexivity|reflexivity|]. wsteps_apart. Qed.

Lemma run_ProposalV2 m1 s1 m2 s2 r : twins m1 s1 m2 s2 ->
  let '(l1, o1, n1) := ProposalV2_W m1 s1 r in let '(l2, o2, n2) := ProposalV2_W m2 s2 r in
  alike eq (l1, o1) (l2, o2) /\ apart p2_Raw set_p2_Raw s1 s2 n1 n2.
Proof. intros T. revert r. unfold ProposalV2_W. apply runs_first; [reflexivity|reflexivity|]. wsteps_apart. Qed.

(** logs, end and the object afterwards *)
Theorem clc_write_elsewhere m1 s1 m2 s2 old : slice_ok m1 s1 -> slice_ok m2 s2 -> same_window m1 s1 m2 s2 ->
  let '(l1, o1, n1) := Message_W m1 s1 old in let '(l2, o2, n2) := Message_W m2 s2 old in
  l1 = l2 /\ o1 = o2 /\ same_clc s1 s2 n1 n2.
Proof.
  intros O1 O2 W. assert (T : twins m1 s1 m2 s2) by (split; [|split]; assumption).
  destruct old as [p|p|a|a|a|c|c|c|d|d]; cbn [Message_W]; unfold inside.
  1: pose proof (run_Proposal _ _ _ _ p T) as H; destruct (Proposal_W m1 s1 p) as [[l1 o1] n1], (Proposal_W m2 s2 p) as [[l2 o2] n2].
  2: pose proof (run_ProposalV2 _ _ _ _ p T) as H; destruct (ProposalV2_W m1 s1 p) as [[l1 o1] n1], (ProposalV2_W m2 s2 p) as [[l2 o2] n2].
  3: pose proof (run_AcceptSMCR _ _ _ _ a T) as H; destruct (AcceptSMCR_W m1 s1 a) as [[l1 o1] n1], (AcceptSMCR_W m2 s2 a) as [[l2 o2] n2].
  4: pose proof (run_AcceptSMCD _ _ _ _ a T) as H; destruct (AcceptSMCD_W m1 s1 a) as [[l1 o1] n1], (AcceptSMCD_W m2 s2 a) as [[l2 o2] n2].
  5: pose proof (run_AcceptSMCDv2 _ _ _ _ a T) as H; destruct (AcceptSMCDv2_W m1 s1 a) as [[l1 o1] n1], (AcceptSMCDv2_W m2 s2 a) as [[l2 o2] n2].
  6: pose proof (run_AcceptSMCR _ _ _ _ (cr_Accept c) T) as H; destruct (AcceptSMCR_W m1 s1 (cr_Accept c)) as [[l1 o1] n1], (AcceptSMCR_W m2 s2 (cr_Accept c)) as [[l2 o2] n2].
  7: pose proof (run_AcceptSMCD _ _ _ _ (cd_Accept c) T) as H; destruct (AcceptSMCD_W m1 s1 (cd_Accept c)) as [[l1 o1] n1], (AcceptSMCD_W m2 s2 (cd_Accept c)) as [[l2 o2] n2].
  8: pose proof (run_AcceptSMCDv2 _ _ _ _ (c2_Accept c) T) as H; destruct (AcceptSMCDv2_W m1 s1 (c2_Accept c)) as [[l1 o1] n1], (AcceptSMCDv2_W m2 s2 (c2_Accept c)) as [[l2 o2] n2].
  9: pose proof (run_Decline _ _ _ _ d T) as H; destruct (Decline_W m1 s1 d) as [[l1 o1] n1], (Decline_W m2 s2 d) as [[l2 o2] n2].
  10: pose proof (run_DeclineV2 _ _ _ _ d T) as H; destruct (DeclineV2_W m1 s1 d) as [[l1 o1] n1], (DeclineV2_W m2 s2 d) as [[l2 o2] n2].
  all: destruct H as [H (E1 & E2 & E3)]; apply alike_eq in H; injection H as -> ->; split; [reflexivity|split; [reflexivity|]].
  all: split; [exact E1|split; [exact E2|]]; cbn [with_Raw]; rewrite <- E3; reflexivity.
Qed.

(** ** LLC and RoCE *)

Lemma run_BaseMsg m1 s1 m2 s2 : twins m1 s1 m2 s2 -> runs eq eq (BaseMsg_W m1 s1) (BaseMsg_W m2 s2).
Proof. intros T. unfold BaseMsg_W. wsteps. Qed.
Lemma run_RKeyPair m1 m2 s1 s2 : twins m1 s1 m2 s2 ->
  runs eq (fun t1 t2 => twins m1 t1 m2 t2) (RKeyPair_W m1 s1) (RKeyPair_W m2 s2).
Proof. intros T. unfold RKeyPair_W. wsteps. Qed.
Lemma run_RMBSpec m1 m2 s1 s2 : twins m1 s1 m2 s2 ->
  runs eq (fun t1 t2 => twins m1 t1 m2 t2) (RMBSpec_W m1 s1) (RMBSpec_W m2 s2).
Proof. intros T. unfold RMBSpec_W. wsteps. Qed.
Lemma run_rkey m1 m2 s1 s2 : twins m1 s1 m2 s2 ->
  runs eq (fun t1 t2 => twins m1 t1 m2 t2) (rkey_W m1 s1) (rkey_W m2 s2).
Proof. intros T. unfold rkey_W. wsteps. Qed.
Lemma run_RKeyPairs m1 m2 s1 s2 : twins m1 s1 m2 s2 ->
  runs eq (fun t1 t2 => twins m1 t1 m2 t2) (each (RKeyPair_W m1) s1) (each (RKeyPair_W m2) s2).
Proof. apply runs_each. apply run_RKeyPair. Qed.
Lemma run_RMBSpecs m1 m2 s1 s2 : twins m1 s1 m2 s2 ->
  runs eq (fun t1 t2 => twins m1 t1 m2 t2) (each (RMBSpec_W m1) s1) (each (RMBSpec_W m2) s2).
Proof. apply runs_each. apply run_RMBSpec. Qed.
Lemma run_rkeys m1 m2 s1 s2 : twins m1 s1 m2 s2 ->
  runs eq (fun t1 t2 => twins m1 t1 m2 t2) (each (rkey_W m1) s1) (each (rkey_W m2) s2).
Proof. apply runs_each. apply run_rkey. Qed.
#[local] Hint Resolve run_BaseMsg run_RKeyPairs run_RMBSpecs run_rkeys : runs.

Lemma runs_eq {R A} (w1 w2 : W R A) : runs eq eq w1 w2 -> forall r, w1 r = w2 r.
Proof.
  intros H r. specialize (H r r eq_refl). destruct (w1 r) as [[l1 o1] n1], (w2 r) as [[l2 o2] n2].
  destruct H as [H ->]. apply alike_eq in H. injection H as -> ->. reflexivity.
Qed.

Theorem llc_write_elsewhere m1 s1 m2 s2 : slice_ok m1 s1 -> slice_ok m2 s2 -> same_window m1 s1 m2 s2 ->
  (forall old, LLC_W m1 s1 old = LLC_W m2 s2 old) /\ (forall old, BTH_W m1 s1 old = BTH_W m2 s2 old).
Proof.
  intros O1 O2 W. assert (T : twins m1 s1 m2 s2) by (split; [|split]; assumption). split.
  - intros old. destruct old as [x|x|x|x|x|x|x|x|x|x]; cbn [LLC_W]; unfold linside.
    + rewrite (runs_eq (ConfirmLink_W m1 s1) (ConfirmLink_W m2 s2)); [reflexivity|]. unfold ConfirmLink_W. wsteps.
    + rewrite (runs_eq (AddLink_W m1 s1) (AddLink_W m2 s2)); [reflexivity|]. unfold AddLink_W. wsteps.
    + rewrite (runs_eq (AddLinkCont_W m1 s1) (AddLinkCont_W m2 s2)); [reflexivity|]. unfold AddLinkCont_W. wsteps.
    + rewrite (runs_eq (DeleteLink_W m1 s1) (DeleteLink_W m2 s2)); [reflexivity|]. unfold DeleteLink_W. wsteps.
    + rewrite (runs_eq (ConfirmRKey_W m1 s1) (ConfirmRKey_W m2 s2)); [reflexivity|]. unfold ConfirmRKey_W. wsteps.
    + rewrite (runs_eq (ConfirmRKeyCont_W m1 s1) (ConfirmRKeyCont_W m2 s2)); [reflexivity|]. unfold ConfirmRKeyCont_W. wsteps.
    + rewrite (runs_eq (deleteRKey_W m1 s1) (deleteRKey_W m2 s2)); [reflexivity|]. unfold deleteRKey_W. wsteps.
    + rewrite (runs_eq (TestLink_W m1 s1) (TestLink_W m2 s2)); [reflexivity|]. unfold TestLink_W. wsteps.
    + rewrite (runs_eq (CDC_W m1 s1) (CDC_W m2 s2)); [reflexivity|]. unfold CDC_W. wsteps.
    + rewrite (runs_eq (Other_W m1 s1) (Other_W m2 s2)); [reflexivity|]. unfold Other_W. wsteps.
  - apply runs_eq. unfold BTH_W. wsteps.
Qed.
