(** * HttpLin: every execution of the buffer of pkg/http is linearizable. *)

From Coq Require Import NArith Bool String Arith List Lia.
From Verif Require Import GoBase QueryModel HttpModel HttpSpec.
Import ListNotations.
Local Open Scope nat_scope.

(** ** Lists *)

Lemma set_nth_length l i b : List.length (set_nth l i b) = List.length l.
Proof.
  unfold set_nth. rewrite app_length, firstn_length.
  pose proof (skipn_length i l) as H.
  destruct (skipn i l); cbn [List.length] in *; lia.
Qed.

Lemma set_nth_firstn l i b : firstn i (set_nth l i b) = firstn i l.
Proof.
  unfold set_nth. destruct (le_lt_dec (List.length l) i) as [H|H].
  - rewrite (skipn_all2 l H), app_nil_r, firstn_firstn, Nat.min_id. reflexivity.
  - rewrite firstn_app, firstn_firstn, Nat.min_id, firstn_length, Nat.min_l by lia.
    rewrite Nat.sub_diag. cbn [firstn]. apply app_nil_r.
Qed.

Lemma set_nth_firstn_S l i b : i < List.length l ->
  firstn (S i) (set_nth l i b) = firstn i l ++ [b].
Proof.
  intros H. unfold set_nth.
  pose proof (skipn_length i l) as K.
  destruct (skipn i l) as [|x t]; cbn [List.length] in K; [lia|].
  rewrite firstn_app, firstn_length, Nat.min_l by lia.
  rewrite (firstn_all2 (n := S i)) by (rewrite firstn_length; lia).
  replace (S i - i) with 1 by lia. reflexivity.
Qed.

Lemma set_nth_nil i b : set_nth [] i b = [].
Proof. unfold set_nth. rewrite firstn_nil, skipn_nil. reflexivity. Qed.

Lemma firstn_S_nth (l : list byte) i d : i < List.length l ->
  firstn (S i) l = firstn i l ++ [nth i l d].
Proof.
  revert i; induction l as [|x l IH]; intros i H; cbn [List.length] in H; [lia|].
  destruct i; [reflexivity|].
  change (firstn (S (S i)) (x :: l)) with (x :: firstn (S i) l).
  rewrite IH by lia. reflexivity.
Qed.

Lemma nth_firstn_lt (l : list byte) n i d : i < n -> nth i (firstn n l) d = nth i l d.
Proof.
  revert n i; induction l as [|x l IH]; intros n i H.
  - rewrite firstn_nil. reflexivity.
  - destruct n; [lia|]. destruct i; [reflexivity|]. cbn. apply IH. lia.
Qed.

Lemma upd_same {A} (f : nat -> A) k v : upd f k v k = v.
Proof. unfold upd. rewrite Nat.eqb_refl. reflexivity. Qed.

Lemma upd_other {A} (f : nat -> A) k v x : x <> k -> upd f k v x = f x.
Proof. unfold upd. intros H. apply Nat.eqb_neq in H. rewrite H. reflexivity. Qed.

Lemma precedes_app_l {A} (l l' : list A) x y :
  precedes l x y -> precedes (l ++ l') x y.
Proof.
  intros (a & b & -> & Hx & Hy). exists a, (b ++ l').
  rewrite app_assoc. repeat split; auto. apply in_app_iff; auto.
Qed.

Lemma precedes_snoc {A} (l : list A) z x y : precedes (l ++ [z]) x y ->
  precedes l x y \/ (y = z /\ In x l).
Proof.
  intros (a & b & E & Hx & Hy).
  destruct (exists_last (l := b)) as (b' & w & ->); [intros ->; destruct Hy|].
  rewrite app_assoc in E. apply app_inj_tail in E as [-> ->].
  apply in_app_iff in Hy as [Hy|[<-|[]]].
  - left. exists a, b'. auto.
  - right. split; auto. apply in_app_iff; auto.
Qed.

Lemma precedes_in {A} (l : list A) x y : precedes l x y -> In x l /\ In y l.
Proof. intros (a & b & -> & Hx & Hy). split; apply in_app_iff; auto. Qed.

(** ** Sequential runs *)

Lemma legal_snoc s l s' e s'' :
  legal s l s' -> legal s' [e] s'' -> legal s (l ++ [e]) s''.
Proof.
  induction 1; intros H'; cbn [app]; auto; constructor; auto.
Qed.

Lemma legal_app_inv l1 : forall s l2 s'', legal s (l1 ++ l2) s'' ->
  exists s', legal s l1 s' /\ legal s' l2 s''.
Proof.
  induction l1 as [|e l1 IH]; intros s l2 s'' H.
  - exists s. split; [constructor|exact H].
  - inversion H; subst; match goal with K : legal _ (l1 ++ l2) _ |- _ =>
      apply IH in K as (s' & H1 & H2) end;
    exists s'; (split; [constructor; auto|auto]).
Qed.

Lemma legal_fun s l a : legal s l a -> forall b, legal s l b -> a = b.
Proof. induction 1; intros b Hb; inversion Hb; subst; auto. Qed.

(** ** The invariant *)

Definition critical (x : pc) : bool :=
  match x with
  | Grow _ _ _ | Move _ _ _ _ _ | Append _ _ _ _ _ | Make _ _
  | Copy _ _ _ _ _ _ | Clear _ _ | Unlock _ _ _ _ => true
  | _ => false
  end.

(** The call a goroutine is in. *)
Definition pending (x : pc) : option (nat * call * origin) :=
  match x with
  | Idle | Deliver _ _ _ _ | Decide _ _ => None
  | Lock id c o => Some (id, c, o)
  | Grow id p o | Move id p o _ _ | Append id p o _ _ => Some (id, Write p, o)
  | Make id o | Copy id o _ _ _ _ => Some (id, CopyBuffer, o)
  | Clear id o => Some (id, Reset, o)
  | Unlock id c o _ | Return id c o _ => Some (id, c, o)
  end.

(** The array only this goroutine knows. *)
Definition private (x : pc) : option nat :=
  match x with
  | Move _ _ _ a _ | Copy _ _ _ _ a _ | Deliver _ _ a _ => Some a
  | Unlock _ _ _ (RefCopy a _) | Return _ _ _ (RefCopy a _) => Some a
  | _ => None
  end.

(** The arrays client code knows. *)
Definition own_arrs (s : state) : list nat := map (fun x => fst (snd x)) (owned s).

(** What holds at each program point; [A] is the sequential buffer. *)
Definition at_pc (s : state) (l : list entry) (A : list byte) (x : pc) : Prop :=
  match x with
  | Idle | Lock _ _ _ | Decide _ _ => True
  | Grow _ _ _ | Make _ _ | Clear _ _ => contents s = A
  | Move _ p _ a i =>
    contents s = A /\ i <= List.length A /\
    firstn i (heap s a) = firstn i A /\
    List.length A + List.length p <= List.length (heap s a)
  | Append _ p _ m i =>
    m = List.length A /\ b_len (buf s) = m + List.length p /\
    i <= List.length p /\
    firstn (m + i) (heap s (b_arr (buf s))) = A ++ firstn i p
  | Copy _ _ src n a i =>
    contents s = A /\ src = b_arr (buf s) /\ n = List.length A /\
    List.length (heap s a) = n /\ i <= n /\ firstn i (heap s a) = firstn i A
  | Unlock _ c _ r =>
    match c, r with
    | Write p, RefWrite n => n = List.length p /\ contents s = A ++ p
    | CopyBuffer, RefCopy a n =>
      contents s = A /\ n = List.length (heap s a) /\ heap s a = A
    | Reset, RefReset => contents s = []
    | _, _ => False
    end
  | Return id c _ r => In (id, c, observe s r) l
  | Deliver cid _ a n => In (cid, CopyBuffer, ResCopy (firstn n (heap s a))) l
  end.

Record inv (tr : list event) (s : state) (l : list entry) (A : list byte) : Prop := {
  i_legal : legal [] l A;
  i_nodup : NoDup (map e_id l);
  i_called : forall id c r, In (id, c, r) l -> exists t o, In (Inv id t c o) tr;
  i_ret : forall id r, In (Ret id r) tr -> exists c, In (id, c, r) l;
  i_order : forall id1 r1 id2 t2 c2 o2,
      precedes tr (Ret id1 r1) (Inv id2 t2 c2 o2) ->
      In id2 (map e_id l) -> precedes (map e_id l) id1 id2;
  i_ids : forall id, In id (invoked tr) -> id < ids s;
  i_once : NoDup (invoked tr);
  i_pend : forall t id c o, pending (thr s t) = Some (id, c, o) ->
      In (Inv id t c o) tr;
  i_new : forall t id c o, pending (thr s t) = Some (id, c, o) ->
      (forall r, thr s t <> Return id c o r) -> ~ In id (map e_id l);
  i_lock : forall t, lock s = Some t <-> critical (thr s t) = true;
  i_free : lock s = None -> contents s = A;
  i_null : heap s 0 = [];
  i_fresh : 0 < fresh s;
  i_arr : b_arr (buf s) < fresh s;
  i_cap : b_cap (buf s) = List.length (heap s (b_arr (buf s)));
  i_len : b_len (buf s) <= b_cap (buf s);
  i_owned : forall a, In a (own_arrs s) ->
      0 < a < fresh s /\ a <> b_arr (buf s);
  i_priv : forall t a, private (thr s t) = Some a ->
      0 < a < fresh s /\ a <> b_arr (buf s) /\ ~ In a (own_arrs s);
  i_sep : forall t1 t2 a, private (thr s t1) = Some a ->
      private (thr s t2) = Some a -> t1 = t2;
  i_at : forall t, at_pc s l A (thr s t) }.

Lemma invoked_app a b : invoked (a ++ b) = invoked a ++ invoked b.
Proof. unfold invoked. apply flat_map_app. Qed.

Lemma in_invoked id tr :
  In id (invoked tr) <-> exists t c o, In (Inv id t c o) tr.
Proof.
  unfold invoked. rewrite in_flat_map. split.
  - intros (e & He & Hi). destruct e; cbn in Hi; try tauto.
    destruct Hi as [<-|[]]. eauto.
  - intros (t & c & o & H). eexists; split; [exact H|]. cbn. auto.
Qed.

(** One identity, one call. *)
Lemma invoked_unique tr : NoDup (invoked tr) ->
  forall id t c o t' c' o', In (Inv id t c o) tr -> In (Inv id t' c' o') tr ->
  t = t' /\ c = c' /\ o = o'.
Proof.
  induction tr as [|e tr IH]; intros N id t c o t' c' o' H H'; [destruct H|].
  change (e :: tr) with ([e] ++ tr) in N. rewrite invoked_app in N.
  destruct e; try (cbn in N; destruct H as [H|H]; [discriminate|];
    destruct H' as [H'|H']; [discriminate|]; eauto; fail).
  cbn in N. inversion N; subst.
  destruct H as [H|H], H' as [H'|H'].
  - inversion H; inversion H'; subst; auto.
  - inversion H; subst. exfalso. apply H2. apply in_invoked; eauto.
  - inversion H'; subst. exfalso. apply H2. apply in_invoked; eauto.
  - eauto.
Qed.

Lemma inv_start : inv [] start [] [].
Proof.
  constructor; cbn; try discriminate; try tauto; try lia.
  - constructor.
  - constructor.
  - constructor.
  - intros t; split; discriminate.
Qed.

Lemma pend_lt tr s l A t id c o : inv tr s l A ->
  pending (thr s t) = Some (id, c, o) -> id < ids s.
Proof.
  intros I H. apply (i_ids _ _ _ _ I). apply in_invoked.
  apply (i_pend _ _ _ _ I) in H. eauto.
Qed.

(** Two goroutines are never in the same call. *)
Lemma pend_inj tr s l A t t' id c o c' o' : inv tr s l A ->
  pending (thr s t) = Some (id, c, o) -> pending (thr s t') = Some (id, c', o') ->
  t = t'.
Proof.
  intros I H H'. apply (i_pend _ _ _ _ I) in H. apply (i_pend _ _ _ _ I) in H'.
  eapply (invoked_unique tr (i_once _ _ _ _ I)) in H as (E & _); [|exact H']. auto.
Qed.

Lemma others tr s l A t t' : inv tr s l A -> critical (thr s t) = true ->
  t' <> t -> critical (thr s t') = false.
Proof.
  intros I C N. destruct (critical (thr s t')) eqn:E; auto.
  apply (i_lock _ _ _ _ I) in C. apply (i_lock _ _ _ _ I) in E. congruence.
Qed.

Lemma at_pc_frame s l A s' l' A' x : critical x = false ->
  (forall a, private x = Some a -> heap s' a = heap s a) ->
  incl l l' -> at_pc s l A x -> at_pc s' l' A' x.
Proof.
  intros C H L K. destruct x; cbn in *; try discriminate; auto.
  - destruct r; cbn in *; auto. rewrite H by reflexivity. auto.
  - rewrite H by reflexivity. auto.
Qed.

(** A step inside the critical section that does not end it. *)
Lemma silent tr s l A s' t x' :
  inv tr s l A ->
  critical (thr s t) = true -> critical x' = true ->
  pending x' = pending (thr s t) ->
  thr s' = upd (thr s) t x' -> ids s' = ids s -> owned s' = owned s ->
  lock s' = lock s -> fresh s <= fresh s' ->
  (forall t' a, t' <> t -> private (thr s t') = Some a -> heap s' a = heap s a) ->
  heap s' 0 = [] ->
  b_arr (buf s') < fresh s' ->
  b_cap (buf s') = List.length (heap s' (b_arr (buf s'))) ->
  b_len (buf s') <= b_cap (buf s') ->
  (forall a, In a (own_arrs s) -> a <> b_arr (buf s')) ->
  (forall t' a, t' <> t -> private (thr s t') = Some a -> a <> b_arr (buf s')) ->
  (forall a, private x' = Some a ->
     0 < a < fresh s' /\ a <> b_arr (buf s') /\ ~ In a (own_arrs s) /\
     forall t', t' <> t -> private (thr s t') <> Some a) ->
  at_pc s' l A x' ->
  inv tr s' l A.
Proof.
  intros I Ct Cx Ep Et Ei Eo' El Hf Hh H0 Ha Hc Hl Ho Hp Hx At.
  assert (Eo : own_arrs s' = own_arrs s) by (unfold own_arrs; rewrite Eo'; reflexivity).
  pose proof (others tr s l A t) as Hot.
  constructor; try (eapply I; fail).
  - rewrite Ei. apply I.
  - intros t1 id c o. rewrite Et. destruct (Nat.eq_dec t1 t) as [->|N].
    + rewrite upd_same, Ep. apply I.
    + rewrite upd_other by auto. apply I.
  - intros t1 id c o. rewrite Et. destruct (Nat.eq_dec t1 t) as [->|N].
    + rewrite upd_same, Ep. intros H _.
      eapply (i_new _ _ _ _ I); eauto. intros r E. rewrite E in Ct. discriminate Ct.
    + rewrite upd_other by auto. apply I.
  - intros t1. rewrite El, Et. destruct (Nat.eq_dec t1 t) as [->|N].
    + rewrite upd_same, (i_lock _ _ _ _ I), Ct, Cx. tauto.
    + rewrite upd_other by auto. apply I.
  - rewrite El. intros E. exfalso. apply (i_lock _ _ _ _ I) in Ct. congruence.
  - exact H0.
  - pose proof (i_fresh _ _ _ _ I). lia.
  - exact Ha.
  - exact Hc.
  - exact Hl.
  - intros a. rewrite Eo. intros Hin. split; [|auto].
    pose proof (i_owned _ _ _ _ I a Hin). lia.
  - intros t1 a. rewrite Et, Eo. destruct (Nat.eq_dec t1 t) as [->|N].
    + rewrite upd_same. intros E. destruct (Hx a E) as (? & ? & ? & _). auto.
    + rewrite upd_other by auto. intros E.
      destruct (i_priv _ _ _ _ I _ _ E) as (? & ? & ?). split; [lia|]. eauto.
  - intros t1 t2 a. rewrite Et.
    destruct (Nat.eq_dec t1 t) as [->|N1], (Nat.eq_dec t2 t) as [->|N2]; auto.
    + rewrite upd_same, upd_other by auto. intros E E'. exfalso.
      destruct (Hx a E) as (_ & _ & _ & K). eapply K; eauto.
    + rewrite upd_same, upd_other by auto. intros E E'. exfalso.
      destruct (Hx a E') as (_ & _ & _ & K). eapply K; eauto.
    + rewrite !upd_other by auto. apply I.
  - intros t1. rewrite Et. destruct (Nat.eq_dec t1 t) as [->|N].
    + rewrite upd_same. exact At.
    + rewrite upd_other by auto. eapply at_pc_frame; [eauto| |apply incl_refl|apply I].
      intros a E. eauto.
Qed.

(** [t] gets the mutex. *)
Lemma acquire tr s l A t id c o x' :
  inv tr s l A -> thr s t = Lock id c o -> lock s = None ->
  critical x' = true -> pending x' = Some (id, c, o) -> private x' = None ->
  at_pc s l A x' ->
  inv tr (set_pc (set_lock s (Some t)) t x') l A.
Proof.
  intros I E L Cx Px Nx At.
  assert (Nc : forall t1, critical (thr s t1) = false).
  { intros t1. destruct (critical (thr s t1)) eqn:K; auto.
    apply (i_lock _ _ _ _ I) in K. congruence. }
  constructor; cbn; try (eapply I; fail).
  - intros t1 id1 c1 o1. destruct (Nat.eq_dec t1 t) as [->|N].
    + rewrite upd_same, Px. intros H. apply (i_pend _ _ _ _ I). rewrite E. exact H.
    + rewrite upd_other by auto. apply I.
  - intros t1 id1 c1 o1. destruct (Nat.eq_dec t1 t) as [->|N].
    + rewrite upd_same, Px. intros H _. eapply (i_new _ _ _ _ I t).
      * rewrite E. exact H.
      * rewrite E. discriminate.
    + rewrite upd_other by auto. apply I.
  - intros t1. destruct (Nat.eq_dec t1 t) as [->|N].
    + rewrite upd_same, Cx. tauto.
    + rewrite upd_other, Nc by auto. split; [congruence|discriminate].
  - discriminate.
  - intros t1 a. destruct (Nat.eq_dec t1 t) as [->|N].
    + rewrite upd_same, Nx. discriminate.
    + rewrite upd_other by auto. apply I.
  - intros t1 t2 a.
    destruct (Nat.eq_dec t1 t) as [->|N1], (Nat.eq_dec t2 t) as [->|N2]; auto;
      rewrite ?upd_same, ?Nx; try discriminate.
    rewrite !upd_other by auto. apply I.
  - intros t1. destruct (Nat.eq_dec t1 t) as [->|N].
    + rewrite upd_same. destruct x'; exact At.
    + rewrite upd_other by auto. eapply at_pc_frame; [auto| |apply incl_refl|apply I].
      reflexivity.
Qed.

(** A goroutine that is in no call makes one. *)
Lemma inv_invoke tr s l A t c o s' ev :
  inv tr s l A -> pending (thr s t) = None -> critical (thr s t) = false ->
  invoke s t c o = (s', ev) -> inv (tr ++ ev) s' l A.
Proof.
  intros I Pn Cn E. unfold invoke in E. inversion E; subst; clear E.
  constructor; cbn; try (eapply I; fail).
  - intros id c0 r H. destruct (i_called _ _ _ _ I _ _ _ H) as (t' & o' & H').
    exists t', o'. apply in_app_iff; auto.
  - intros id r H. apply in_app_iff in H as [H|[H|[]]]; [|discriminate].
    eapply I; eauto.
  - intros id1 r1 id2 t2 c2 o2 H Hin. apply precedes_snoc in H as [H|[H _]].
    + eapply I; eauto.
    + inversion H; subst; clear H. exfalso.
      apply in_map_iff in Hin as ([[i c'] r'] & Ei & Hin). cbn in Ei. subst i.
      apply (i_called _ _ _ _ I) in Hin as (t' & o' & Hin).
      assert (K : In (ids s) (invoked tr)) by (apply in_invoked; eauto).
      apply (i_ids _ _ _ _ I) in K. lia.
  - intros id H. rewrite invoked_app in H. apply in_app_iff in H as [H|H].
    + apply (i_ids _ _ _ _ I) in H. lia.
    + cbn in H. destruct H as [<-|[]]. lia.
  - rewrite invoked_app. cbn. 
    pose proof (i_once _ _ _ _ I) as N.
    apply (NoDup_Add (a := ids s) (l := invoked tr)).
    + rewrite <- (app_nil_r (invoked tr)) at 1. apply Add_app.
    + split; auto. intros K. apply (i_ids _ _ _ _ I) in K. lia.
  - intros t1 id1 c1 o1. destruct (Nat.eq_dec t1 t) as [->|N].
    + rewrite upd_same. cbn. intros H. inversion H; subst. apply in_app_iff. cbn; auto.
    + rewrite upd_other by auto. intros H. apply (i_pend _ _ _ _ I) in H.
      apply in_app_iff; auto.
  - intros t1 id1 c1 o1. destruct (Nat.eq_dec t1 t) as [->|N].
    + rewrite upd_same. cbn. intros H _. inversion H; subst. intros Hin.
      apply in_map_iff in Hin as ([[i c'] r'] & Ei & Hin). cbn in Ei. subst i.
      apply (i_called _ _ _ _ I) in Hin as (t' & o' & Hin).
      assert (K : In (ids s) (invoked tr)) by (apply in_invoked; eauto).
      apply (i_ids _ _ _ _ I) in K. lia.
    + rewrite upd_other by auto. apply I.
  - intros t1. destruct (Nat.eq_dec t1 t) as [->|N].
    + rewrite upd_same. cbn. rewrite (i_lock _ _ _ _ I), Cn. tauto.
    + rewrite upd_other by auto. apply I.
  - intros t1 a. destruct (Nat.eq_dec t1 t) as [->|N].
    + rewrite upd_same. discriminate.
    + rewrite upd_other by auto. apply I.
  - intros t1 t2 a.
    destruct (Nat.eq_dec t1 t) as [->|N1], (Nat.eq_dec t2 t) as [->|N2]; auto;
      rewrite ?upd_same; try discriminate.
    rewrite !upd_other by auto. apply I.
  - intros t1. destruct (Nat.eq_dec t1 t) as [->|N].
    + rewrite upd_same. exact Logic.I.
    + rewrite upd_other by auto. pose proof (i_at _ _ _ _ I t1) as H.
      destruct (thr s t1); exact H.
Qed.

(** The call takes effect, in the sequential order, when the mutex is
    released. *)
Lemma release tr s l A t id c o r :
  inv tr s l A -> thr s t = Unlock id c o r ->
  exists A', inv tr (set_pc (set_lock s None) t (Return id c o r))
                 (l ++ [(id, c, observe s r)]) A'.
Proof.
  intros I E.
  pose proof (i_at _ _ _ _ I t) as At. rewrite E in At. cbn in At.
  assert (Ct : critical (thr s t) = true) by (rewrite E; reflexivity).
  assert (Pt : pending (thr s t) = Some (id, c, o)) by (rewrite E; reflexivity).
  assert (New : ~ In id (map e_id l)).
  { eapply (i_new _ _ _ _ I); [exact Pt|]. rewrite E. discriminate. }
  assert (LA : exists A', legal A [(id, c, observe s r)] A' /\ contents s = A').
  { destruct c, r; try contradiction; cbn.
    - destruct At as [-> At]. exists (A ++ p). split; auto. repeat constructor.
    - destruct At as (At & -> & Ha). exists A. rewrite firstn_all, Ha.
      split; auto. repeat constructor.
    - exists []. split; auto. repeat constructor. }
  destruct LA as (A' & LA & CA). exists A'.
  constructor; cbn; try (eapply I; fail); auto.
  - eapply legal_snoc; [apply I|exact LA].
  - rewrite map_app. cbn. apply (NoDup_Add (a := id) (l := map e_id l)).
    + rewrite <- (app_nil_r (map e_id l)) at 1. apply Add_app.
    + split; [apply I|auto].
  - intros id1 c1 r1 H. apply in_app_iff in H as [H|[H|[]]]; [eapply I; eauto|].
    inversion H; subst. exists t, o. apply (i_pend _ _ _ _ I). exact Pt.
  - intros id1 r1 H. apply (i_ret _ _ _ _ I) in H as (c1 & H). exists c1.
    apply in_app_iff; auto.
  - intros id1 r1 id2 t2 c2 o2 H Hin. rewrite map_app in *. cbn in *.
    apply in_app_iff in Hin as [Hin|[<-|[]]].
    + apply precedes_app_l. eapply I; eauto.
    + apply precedes_in in H as [H _]. apply (i_ret _ _ _ _ I) in H as (c1 & H).
      exists (map e_id l), [id]. repeat split; cbn; auto.
      change id1 with (e_id (id1, c1, r1)). apply in_map, H.
  - intros t1 id1 c1 o1. destruct (Nat.eq_dec t1 t) as [->|N].
    + rewrite upd_same. cbn. intros H. apply (i_pend _ _ _ _ I). rewrite Pt. exact H.
    + rewrite upd_other by auto. apply I.
  - intros t1 id1 c1 o1. destruct (Nat.eq_dec t1 t) as [->|N].
    + rewrite upd_same. cbn. intros H K. inversion H; subst. exfalso.
      apply (K r). reflexivity.
    + rewrite upd_other by auto. intros H K. rewrite map_app, in_app_iff. cbn.
      intros [Hin|[Hin|[]]]; [revert Hin; eapply I; eauto|].
      subst id1. apply N. eapply pend_inj; eauto.
  - intros t1. split; [discriminate|]. destruct (Nat.eq_dec t1 t) as [->|N].
    + rewrite upd_same. discriminate.
    + rewrite upd_other by auto. rewrite (others tr s l A t t1) by auto. discriminate.
  - intros t1 a. destruct (Nat.eq_dec t1 t) as [->|N].
    + rewrite upd_same. intros H. apply (i_priv _ _ _ _ I t). rewrite E. exact H.
    + rewrite upd_other by auto. apply I.
  - intros t1 t2 a H1 H2. apply (i_sep _ _ _ _ I t1 t2 a).
    + destruct (Nat.eq_dec t1 t) as [->|N]; [rewrite E; rewrite upd_same in H1; exact H1|].
      rewrite upd_other in H1 by auto. exact H1.
    + destruct (Nat.eq_dec t2 t) as [->|N]; [rewrite E; rewrite upd_same in H2; exact H2|].
      rewrite upd_other in H2 by auto. exact H2.
  - intros t1. destruct (Nat.eq_dec t1 t) as [->|N].
    + rewrite upd_same. cbn. apply in_app_iff. right. left.
      destruct r; reflexivity.
    + rewrite upd_other by auto.
      eapply at_pc_frame with (s := s) (l := l) (A := A).
      * eapply others; eauto.
      * reflexivity.
      * intros e He. apply in_app_iff; auto.
      * apply I.
Qed.

(** Events that are no calls do not matter. *)
Lemma inv_more tr s l A ev : inv tr s l A ->
  (forall e, In e ev -> match e with
     | Inv _ _ _ _ => False
     | Ret id r => exists c, In (id, c, r) l
     | _ => True end) ->
  inv (tr ++ ev) s l A.
Proof.
  intros I H.
  assert (Z : invoked ev = []).
  { clear I. induction ev as [|e ev IH]; auto.
    change (e :: ev) with ([e] ++ ev). rewrite invoked_app, IH by (intros; apply H; cbn; auto).
    specialize (H e (or_introl eq_refl)). destruct e; try contradiction; reflexivity. }
  constructor; try (eapply I; fail).
  - intros id c r K. apply (i_called _ _ _ _ I) in K as (t & o & K).
    exists t, o. apply in_app_iff; auto.
  - intros id r K. apply in_app_iff in K as [K|K]; [eapply I; eauto|].
    apply (H _ K).
  - intros id1 r1 id2 t2 c2 o2 K. apply (i_order _ _ _ _ I id1 r1 id2 t2 c2 o2).
    clear Z. induction ev as [|e ev IH] using rev_ind; [rewrite app_nil_r in K; exact K|].
    rewrite app_assoc in K. apply precedes_snoc in K as [K|[K _]].
    + apply IH; auto. intros e' He'. apply H. apply in_app_iff; auto.
    + subst e. exfalso. apply (H (Inv id2 t2 c2 o2)). apply in_app_iff; cbn; auto.
  - rewrite invoked_app, Z, app_nil_r. apply I.
  - rewrite invoked_app, Z, app_nil_r. apply I.
  - intros t id c o K. apply in_app_iff. left. apply I. exact K.
Qed.

(** A goroutine outside of the critical section gets to [x'], without a new
    call; its array may go to client code. *)
Lemma inv_move tr s l A t x' own :
  inv tr s l A -> critical (thr s t) = false ->
  critical x' = false -> pending x' = None ->
  (forall a, private x' = Some a -> private (thr s t) = Some a /\ own = []) ->
  (forall a, In a (map (fun x => fst (snd x)) own) -> private (thr s t) = Some a) ->
  at_pc s l A x' ->
  inv tr (set_pc (set_owned s (own ++ owned s)) t x') l A.
Proof.
  intros I Ct Cx Px Vx Ow At.
  constructor; cbn; try (eapply I; fail).
  - intros t1 id1 c1 o1. destruct (Nat.eq_dec t1 t) as [->|N].
    + rewrite upd_same, Px. discriminate.
    + rewrite upd_other by auto. apply I.
  - intros t1 id1 c1 o1. destruct (Nat.eq_dec t1 t) as [->|N].
    + rewrite upd_same, Px. discriminate.
    + rewrite upd_other by auto. apply I.
  - intros t1. destruct (Nat.eq_dec t1 t) as [->|N].
    + rewrite upd_same, Cx, (i_lock _ _ _ _ I), Ct. tauto.
    + rewrite upd_other by auto. apply I.
  - intros a H. unfold own_arrs in H. cbn in H. rewrite map_app in H.
    apply in_app_iff in H as [H|H]; [|apply I; exact H].
    apply Ow in H. apply (i_priv _ _ _ _ I) in H. tauto.
  - intros t1 a. destruct (Nat.eq_dec t1 t) as [->|N].
    + rewrite upd_same. intros H. apply Vx in H as [H ->]. apply (i_priv _ _ _ _ I t).
      exact H.
    + rewrite upd_other by auto. intros H.
      destruct (i_priv _ _ _ _ I _ _ H) as (? & ? & ?). repeat split; try tauto.
      unfold own_arrs. cbn. rewrite map_app, in_app_iff. intros [K|K]; [|auto]. apply Ow in K.
      apply N. eapply (i_sep _ _ _ _ I); eauto.
  - intros t1 t2 a H1 H2. apply (i_sep _ _ _ _ I t1 t2 a).
    + destruct (Nat.eq_dec t1 t) as [->|N];
        [rewrite upd_same in H1; apply Vx in H1; tauto|].
      rewrite upd_other in H1 by auto. exact H1.
    + destruct (Nat.eq_dec t2 t) as [->|N];
        [rewrite upd_same in H2; apply Vx in H2; tauto|].
      rewrite upd_other in H2 by auto. exact H2.
  - intros t1. destruct (Nat.eq_dec t1 t) as [->|N].
    + rewrite upd_same. destruct x'; exact At.
    + rewrite upd_other by auto. pose proof (i_at _ _ _ _ I t1) as H.
      destruct (thr s t1); exact H.
Qed.

Lemma inv_move0 tr s l A t x' :
  inv tr s l A -> critical (thr s t) = false ->
  critical x' = false -> pending x' = None ->
  (forall a, private x' = Some a -> private (thr s t) = Some a) ->
  at_pc s l A x' ->
  inv tr (set_pc s t x') l A.
Proof.
  intros I Ct Cx Px Vx At.
  assert (Sh : set_owned s ([] ++ owned s) = s) by (destruct s; reflexivity).
  rewrite <- Sh. apply inv_move; auto. intros a [].
Qed.

(** Client code changes one of its copies. *)
Lemma inv_poke tr s l A a i b :
  inv tr s l A -> In a (own_arrs s) -> inv tr (store s a i b) l A.
Proof.
  intros I O. destruct (i_owned _ _ _ _ I a O) as [B D].
  assert (C : contents (store s a i b) = contents s).
  { unfold contents. cbn. rewrite upd_other by auto. reflexivity. }
  constructor; cbn; try (eapply I; fail).
  - intros L. rewrite C. apply I. exact L.
  - rewrite upd_other by lia. apply I.
  - rewrite upd_other by auto. apply I.
  - intros t. pose proof (i_at _ _ _ _ I t) as H.
    assert (Pv : forall a', private (thr s t) = Some a' -> a' <> a).
    { intros a' K ->. apply (i_priv _ _ _ _ I) in K. tauto. }
    destruct (thr s t); cbn in *; rewrite ?C; auto.
    + rewrite upd_other by (apply Pv; reflexivity). exact H.
    + rewrite upd_other by auto. exact H.
    + rewrite upd_other by (apply Pv; reflexivity). exact H.
    + destruct c, r; auto. rewrite upd_other by (apply Pv; reflexivity). exact H.
    + destruct r; cbn in *; auto. rewrite upd_other by (apply Pv; reflexivity). exact H.
    + rewrite upd_other by (apply Pv; reflexivity). exact H.
Qed.

Lemma contents_length tr s l A : inv tr s l A ->
  List.length (contents s) = b_len (buf s).
Proof.
  intros I. unfold contents. rewrite firstn_length.
  pose proof (i_len _ _ _ _ I). pose proof (i_cap _ _ _ _ I). lia.
Qed.

(** ** Every step keeps the invariant *)

Lemma inv_step tr s l A ch s' ev : inv tr s l A -> step s ch = Some (s', ev) ->
  exists l' A', inv (tr ++ ev) s' (l ++ l') A'.
Proof.
  intros I S.
  assert (SAME : inv (tr ++ ev) s' l A -> exists l' A', inv (tr ++ ev) s' (l ++ l') A').
  { intros H. exists [], A. rewrite app_nil_r. exact H. }
  pose proof (contents_length _ _ _ _ I) as LC.
  pose proof (i_fresh _ _ _ _ I) as FR. pose proof (i_arr _ _ _ _ I) as AR.
  pose proof (i_cap _ _ _ _ I) as CP. pose proof (i_len _ _ _ _ I) as LE.
  pose proof (i_null _ _ _ _ I) as NU.
  destruct ch as [t c|t raw|t n|a i b]; cbn in S.
  - destruct (thr s t) eqn:E; try discriminate. inversion S; subst. apply SAME.
    eapply inv_invoke; try exact I; try (rewrite E; reflexivity). reflexivity.
  - destruct (thr s t) eqn:E; try discriminate. inversion S; subst. apply SAME.
    eapply inv_invoke; try exact I; try (rewrite E; reflexivity). reflexivity.
  - pose proof (i_at _ _ _ _ I t) as At.
    destruct (thr s t) eqn:E; cbn -[Nat.ltb Nat.leb firstn Nat.add] in S, At; try discriminate.
    + (* Lock *)
      destruct (lock s) eqn:L; try discriminate.
      pose proof (i_free _ _ _ _ I L) as F.
      destruct c; inversion S; subst ev s'; apply SAME; rewrite app_nil_r;
        eapply acquire; eauto.
    + (* Grow *)
      destruct (b_len (buf s) + List.length p <=? b_cap (buf s)) eqn:G;
        inversion S; subst ev s'; apply SAME; rewrite app_nil_r.
      * apply Nat.leb_le in G.
        eapply silent with (x' := Append id p o (b_len (buf s)) 0);
          try exact I; try reflexivity; cbn; rewrite ?E; try reflexivity; auto.
        -- apply I.
        -- intros t' a _ H. apply (i_priv _ _ _ _ I) in H. tauto.
        -- discriminate.
        -- rewrite <- At, LC, app_nil_r. repeat split; try lia.
           unfold contents. rewrite Nat.add_0_r. reflexivity.
      * eapply silent with (x' := Move id p o (fresh s) 0);
          try exact I; try reflexivity; cbn; rewrite ?E; try reflexivity; auto.
        -- intros t' a _ H. apply (i_priv _ _ _ _ I) in H.
           rewrite upd_other by lia. reflexivity.
        -- rewrite upd_other by lia. auto.
        -- rewrite upd_other by lia. auto.
        -- apply I.
        -- intros t' a _ H. apply (i_priv _ _ _ _ I) in H. tauto.
        -- intros a H. inversion H; subst a. repeat split; try lia.
           ++ intros K. apply (i_owned _ _ _ _ I) in K. lia.
           ++ intros t' _ K. apply (i_priv _ _ _ _ I) in K. lia.
        -- rewrite upd_same. unfold contents. cbn. rewrite upd_other by lia.
           fold (contents s). rewrite At. repeat split; try lia.
           unfold zeros. rewrite repeat_length, <- At, LC. lia.
    + (* Move *)
      destruct At as (C & Hi & Hf & Hr).
      assert (Pv : private (thr s t) = Some a) by (rewrite E; reflexivity).
      destruct (i_priv _ _ _ _ I _ _ Pv) as (B & D & O).
      assert (LA : b_len (buf s) = List.length A) by (rewrite <- C, LC; reflexivity).
      destruct (i <? b_len (buf s)) eqn:G;
        inversion S; subst ev s'; apply SAME; rewrite app_nil_r.
      * apply Nat.ltb_lt in G.
        eapply silent with (x' := Move id p o a (Datatypes.S i));
          try exact I; try reflexivity; cbn; rewrite ?E; try reflexivity; auto.
        -- intros t' a' N H. rewrite upd_other; auto. intros ->. apply N.
           eapply (i_sep _ _ _ _ I); eauto.
        -- rewrite upd_other by lia. auto.
        -- rewrite upd_other by auto. auto.
        -- apply I.
        -- intros t' a' _ H. apply (i_priv _ _ _ _ I) in H. tauto.
        -- intros a' H. inversion H; subst a'. repeat split; try lia; auto.
           intros t' N K. apply N. eapply (i_sep _ _ _ _ I); eauto.
        -- rewrite upd_same. unfold contents. cbn. rewrite upd_other by auto.
           fold (contents s). rewrite C, set_nth_length. repeat split; try lia.
           change (match set_nth (heap s a) i (load s (b_arr (buf s)) i) with
                   | [] => [] | a0 :: l0 => a0 :: firstn i l0 end)
             with (firstn (Datatypes.S i) (set_nth (heap s a) i (load s (b_arr (buf s)) i))).
           change (match A with [] => [] | a0 :: l0 => a0 :: firstn i l0 end)
             with (firstn (Datatypes.S i) A).
           rewrite set_nth_firstn_S by lia. rewrite (firstn_S_nth A i x00) by lia.
           rewrite Hf. f_equal. f_equal. unfold load. rewrite <- C. unfold contents.
           rewrite nth_firstn_lt by lia. reflexivity.
      * apply Nat.ltb_ge in G.
        eapply silent with (x' := Append id p o (b_len (buf s)) 0);
          try exact I; try reflexivity; cbn; rewrite ?E; try reflexivity; auto; try lia.
        -- intros a' K <-. auto.
        -- intros t' a' N K <-. apply N. eapply (i_sep _ _ _ _ I); eauto.
        -- discriminate.
        -- repeat split; try lia. rewrite LA, Nat.add_0_r, app_nil_r.
           replace (List.length A) with i by lia. rewrite Hf. apply firstn_all2. lia.
    + (* Append *)
      destruct At as (Hm & Hb & Hi & Hf).
      destruct (i <? List.length p) eqn:G;
        inversion S; subst ev s'; apply SAME; rewrite app_nil_r.
      * apply Nat.ltb_lt in G.
        eapply silent with (x' := Append id p o m (Datatypes.S i));
          try exact I; try reflexivity; cbn; rewrite ?E; try reflexivity; auto.
        -- intros t' a' _ H. apply (i_priv _ _ _ _ I) in H.
           rewrite upd_other by tauto. reflexivity.
        -- destruct (Nat.eq_dec 0 (b_arr (buf s))) as [Z|Z].
           ++ rewrite <- Z, upd_same, NU. apply set_nth_nil.
           ++ rewrite upd_other; auto.
        -- rewrite upd_same, set_nth_length. exact CP.
        -- apply I.
        -- intros t' a' _ H. apply (i_priv _ _ _ _ I) in H. tauto.
        -- discriminate.
        -- rewrite upd_same. repeat split; auto.
           change (match p with [] => [] | a0 :: l0 => a0 :: firstn i l0 end)
             with (firstn (Datatypes.S i) p).
           rewrite Nat.add_succ_r, set_nth_firstn_S by lia.
           rewrite Hf, (firstn_S_nth p i x00) by lia. rewrite app_assoc. reflexivity.
      * apply Nat.ltb_ge in G.
        eapply silent with (x' := Unlock id (Write p) o (RefWrite (List.length p)));
          try exact I; try reflexivity; cbn; rewrite ?E; try reflexivity; auto.
        -- apply I.
        -- intros t' a' _ H. apply (i_priv _ _ _ _ I) in H. tauto.
        -- discriminate.
        -- split; auto. unfold contents. cbn. rewrite Hb.
           replace (List.length p) with i by lia. rewrite Hf. f_equal.
           apply firstn_all2. lia.
    + (* Make *)
      inversion S; subst ev s'; apply SAME; rewrite app_nil_r.
      eapply silent with (x' := Copy id o (b_arr (buf s)) (b_len (buf s)) (fresh s) 0);
        try exact I; try reflexivity; cbn; rewrite ?E; try reflexivity; auto.
      -- intros t' a _ H. apply (i_priv _ _ _ _ I) in H.
         rewrite upd_other by lia. reflexivity.
      -- rewrite upd_other by lia. auto.
      -- rewrite upd_other by lia. auto.
      -- apply I.
      -- intros t' a _ H. apply (i_priv _ _ _ _ I) in H. tauto.
      -- intros a H. inversion H; subst a. repeat split; try lia.
         ++ intros K. apply (i_owned _ _ _ _ I) in K. lia.
         ++ intros t' _ K. apply (i_priv _ _ _ _ I) in K. lia.
      -- rewrite upd_same. unfold contents. cbn. rewrite upd_other by lia.
         fold (contents s). rewrite At. repeat split; try lia.
         ++ rewrite <- At, LC. reflexivity.
         ++ unfold zeros. rewrite repeat_length. reflexivity.
    + (* Copy *)
      destruct At as (C & Hs & Hn & Hl & Hi & Hf).
      assert (Pv : private (thr s t) = Some a) by (rewrite E; reflexivity).
      destruct (i_priv _ _ _ _ I _ _ Pv) as (B & D & O).
      assert (LA : b_len (buf s) = List.length A) by (rewrite <- C, LC; reflexivity).
      destruct (i <? n0) eqn:G;
        inversion S; subst ev s'; apply SAME; rewrite app_nil_r.
      * apply Nat.ltb_lt in G.
        eapply silent with (x' := Copy id o src n0 a (Datatypes.S i));
          try exact I; try reflexivity; cbn; rewrite ?E; try reflexivity; auto.
        -- intros t' a' N H. rewrite upd_other; auto. intros ->. apply N.
           eapply (i_sep _ _ _ _ I); eauto.
        -- rewrite upd_other by lia. auto.
        -- rewrite upd_other by auto. auto.
        -- apply I.
        -- intros t' a' _ H. apply (i_priv _ _ _ _ I) in H. tauto.
        -- intros a' H. inversion H; subst a'. repeat split; try lia; auto.
           intros t' N K. apply N. eapply (i_sep _ _ _ _ I); eauto.
        -- rewrite upd_same. unfold contents. cbn. rewrite upd_other by auto.
           fold (contents s). rewrite C, set_nth_length. repeat split; try lia; auto.
           change (match set_nth (heap s a) i (load s src i) with
                   | [] => [] | a0 :: l0 => a0 :: firstn i l0 end)
             with (firstn (Datatypes.S i) (set_nth (heap s a) i (load s src i))).
           change (match A with [] => [] | a0 :: l0 => a0 :: firstn i l0 end)
             with (firstn (Datatypes.S i) A).
           rewrite set_nth_firstn_S by lia. rewrite (firstn_S_nth A i x00) by lia.
           rewrite Hf. f_equal. f_equal. unfold load. rewrite <- C. unfold contents.
           rewrite nth_firstn_lt by lia. rewrite Hs. reflexivity.
      * apply Nat.ltb_ge in G.
        eapply silent with (x' := Unlock id CopyBuffer o (RefCopy a n0));
          try exact I; try reflexivity; cbn; rewrite ?E; try reflexivity; auto.
        -- apply I.
        -- intros t' a' N H. apply (i_priv _ _ _ _ I) in H. tauto.
        -- intros a' H. inversion H; subst a'. repeat split; try lia; auto.
           intros t' N K. apply N. eapply (i_sep _ _ _ _ I); eauto.
        -- repeat split; auto. rewrite <- (firstn_all2 (n := i) (heap s a)) by lia.
           rewrite Hf. apply firstn_all2. lia.
    + (* Clear *)
      inversion S; subst ev s'; apply SAME; rewrite app_nil_r.
      eapply silent with (x' := Unlock id Reset o RefReset);
        try exact I; try reflexivity; cbn; rewrite ?E; try reflexivity; auto.
      -- rewrite NU. reflexivity.
      -- intros a K. apply (i_owned _ _ _ _ I) in K. lia.
      -- intros t' a _ K. apply (i_priv _ _ _ _ I) in K. lia.
      -- discriminate.
    + (* Unlock *)
      inversion S; subst ev s'. rewrite app_nil_r.
      destruct (release _ _ _ _ _ _ _ _ _ I E) as (A' & H). eauto.
    + (* Return *)
      assert (Z : inv (tr ++ ev) s' l A); [|auto].
      assert (Cn : critical (thr s t) = false) by (rewrite E; reflexivity).
      assert (M : forall ev', (forall e, In e ev' -> e = Ret id (observe s r) \/
                                exists cid, e = Served cid) ->
                  inv (tr ++ ev') s l A).
      { intros ev' H. apply inv_more; auto. intros e He.
        destruct (H e He) as [->|[cid ->]]; eauto. }
      destruct o; [destruct r|destruct r; try discriminate|]; inversion S; subst ev s'.
      * apply (inv_move0 _ s l A t Idle); cbn; auto; try discriminate.
        apply M. cbn. intros e [<-|[]]; auto.
      * apply (inv_move _ s l A t Idle [(id, (a, n0))]); cbn; auto; try discriminate.
        -- apply M. cbn. intros e [<-|[]]; auto.
        -- intros a' [<-|[]]. rewrite E. reflexivity.
      * apply (inv_move0 _ s l A t Idle); cbn; auto; try discriminate.
        apply M. cbn. intros e [<-|[]]; auto.
      * apply (inv_move0 _ s l A t (Deliver id raw a n0)); cbn; auto.
        -- apply M. cbn. intros e [<-|[]]; auto.
        -- rewrite E. cbn. auto.
        -- apply (i_called _ _ _ _ I) in At as At'. destruct At' as (t' & o' & K).
           assert (P : pending (thr s t) = Some (id, c, ForRequest raw))
             by (rewrite E; reflexivity).
           pose proof (i_legal _ _ _ _ I) as L.
           apply in_split in At as (l1 & l2 & Q). rewrite Q in L.
           apply legal_app_inv in L as (A1 & _ & L).
           rewrite Q. apply in_app_iff. right. left. cbn in L. inversion L; subst. reflexivity.
      * apply (inv_move0 _ s l A t Idle); cbn; auto; try discriminate.
        apply M. cbn. intros e [<-|[<-|[]]]; eauto.
    + (* Deliver *)
      inversion S; subst ev s'; apply SAME.
      apply (inv_move0 _ s l A t (Decide cid raw)); cbn; auto; try discriminate; try (rewrite E; reflexivity).
      apply inv_more; auto. cbn. intros e [<-|[]]. exact Logic.I.
    + (* Decide *)
      destruct (flushes raw).
      * inversion S; subst; apply SAME.
        eapply inv_invoke; try exact I; try (rewrite E; reflexivity). reflexivity.
      * inversion S; subst ev s'; apply SAME.
        apply (inv_move0 _ s l A t Idle); cbn; auto; try discriminate; try (rewrite E; reflexivity).
        apply inv_more; auto. cbn. intros e [<-|[]]. exact Logic.I.
  - (* Poke *)
    destruct (find _ (owned s)) as [[id [a' k]]|] eqn:O; try discriminate.
    inversion S; subst. apply SAME. rewrite app_nil_r. apply inv_poke; auto.
    apply find_some in O as [O _]. unfold own_arrs. apply in_map_iff.
    exists (id, (a', k)). auto.
Qed.
