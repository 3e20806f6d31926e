(** * HttpMain: progress, accounting of bytes, flushing, StartServer. *)

From Coq Require Import NArith Bool String Arith List Lia.
From Verif Require Import GoBase QueryModel HttpModel HttpSpec HttpLin HttpFacts QueryFacts.
Import ListNotations.
Local Open Scope nat_scope.

(** ** Every call can return *)

Definition is_step (ch : choice) : Prop :=
  match ch with Step _ _ => True | _ => False end.

(** Upper bound for the number of steps until the mutex is released. *)
Definition rank (s : state) (x : pc) : nat :=
  match x with
  | Unlock _ _ _ _ => 1
  | Append _ p _ _ i => 2 + (List.length p - i)
  | Move _ p _ _ i => 3 + List.length p + (b_len (buf s) - i)
  | Grow _ p _ => 4 + List.length p + b_len (buf s)
  | Copy _ _ _ k _ i => 2 + (k - i)
  | Make _ _ => 3 + b_len (buf s)
  | Clear _ _ => 2
  | _ => 0
  end.

Lemma holder_step s t : critical (thr s t) = true ->
  exists s', step s (Step t 0) = Some (s', []) /\
    (forall t', t' <> t -> thr s' t' = thr s t') /\
    pending (thr s' t) = pending (thr s t) /\
    ((critical (thr s' t) = true /\ rank s' (thr s' t) < rank s (thr s t)) \/
     (lock s' = None /\ exists id c o r, thr s' t = Return id c o r)).
Proof.
  intros C. cbn [step].
  destruct (thr s t) as [|id c o|id p o|id p o a i|id p o m i|id o
       |id o src k a i|id o|id c o r|id c o r|cid raw a k|cid raw] eqn:E;
    try discriminate C; cbn -[Nat.ltb Nat.leb Nat.add].
  - destruct (_ <=? _) eqn:G; eexists; (split; [reflexivity|]);
      (split; [intros; cbn; apply upd_other; auto|]);
      cbn -[Nat.add]; rewrite upd_same; (split; [reflexivity|left]);
      (split; [reflexivity|]); cbn; lia.
  - destruct (_ <? _) eqn:G; eexists; (split; [reflexivity|]);
      (split; [intros; cbn; apply upd_other; auto|]);
      cbn -[Nat.add]; rewrite upd_same; (split; [reflexivity|left]);
      (split; [reflexivity|]); cbn.
    + apply Nat.ltb_lt in G. lia.
    + lia.
  - destruct (_ <? _) eqn:G; eexists; (split; [reflexivity|]);
      (split; [intros; cbn; apply upd_other; auto|]);
      cbn -[Nat.add]; rewrite upd_same; (split; [reflexivity|left]);
      (split; [reflexivity|]); cbn.
    + apply Nat.ltb_lt in G. lia.
    + lia.
  - eexists; (split; [reflexivity|]);
      (split; [intros; cbn; apply upd_other; auto|]);
      cbn -[Nat.add]; rewrite upd_same; (split; [reflexivity|left]);
      (split; [reflexivity|]); cbn; lia.
  - destruct (_ <? _) eqn:G; eexists; (split; [reflexivity|]);
      (split; [intros; cbn; apply upd_other; auto|]);
      cbn -[Nat.add]; rewrite upd_same; (split; [reflexivity|left]);
      (split; [reflexivity|]); cbn.
    + apply Nat.ltb_lt in G. lia.
    + lia.
  - eexists; (split; [reflexivity|]);
      (split; [intros; cbn; apply upd_other; auto|]);
      cbn -[Nat.add]; rewrite upd_same; (split; [reflexivity|left]);
      (split; [reflexivity|]); cbn; lia.
  - eexists; (split; [reflexivity|]);
      (split; [intros; cbn; apply upd_other; auto|]);
      cbn -[Nat.add]; rewrite upd_same; (split; [reflexivity|right]).
    split; [reflexivity|]. eauto.
Qed.

(** The holder of the mutex, running alone, releases it. *)
Lemma holder_release n : forall s t, rank s (thr s t) <= n -> critical (thr s t) = true ->
  exists k s', exec s (repeat (Step t 0) k) = Some (s', []) /\
    (forall t', t' <> t -> thr s' t' = thr s t') /\
    pending (thr s' t) = pending (thr s t) /\ lock s' = None /\
    exists id c o r, thr s' t = Return id c o r.
Proof.
  induction n as [|n IH]; intros s t L C;
    destruct (holder_step s t C) as (s1 & S & O & P & [[C1 R1]|[K Q]]); try lia.
  - exists 1, s1. cbn. cbn in S. rewrite S. auto.
  - destruct (IH s1 t) as (k & s2 & X & O2 & P2 & K2 & Q2); [lia|auto|].
    exists (Datatypes.S k), s2. cbn [repeat exec]. rewrite S, X.
    split; [reflexivity|]. split; [|rewrite P2; auto].
    intros t' N. rewrite O2, O by auto. reflexivity.
  - exists 1, s1. cbn [repeat exec]. rewrite S. auto.
Qed.

Lemma mutex_released cs s tr t : exec start cs = Some (s, tr) -> lock s = Some t ->
  exists k s', exec s (repeat (Step t 0) k) = Some (s', []) /\ lock s' = None /\
    forall t', t' <> t -> thr s' t' = thr s t'.
Proof.
  intros E L. destruct (inv_reach _ _ _ E) as (l & A & I).
  apply (i_lock _ _ _ _ I) in L.
  destruct (holder_release _ s t (le_n _) L) as (k & s' & X & O & _ & L' & _).
  exists k, s'. auto.
Qed.

Lemma steps_forall t k : Forall is_step (repeat (Step t 0) k).
Proof. induction k; cbn; constructor; auto. exact Logic.I. Qed.

(** A pending call is in progress. *)
Lemma pend_step s ch s' ev t id c o : step s ch = Some (s', ev) ->
  pending (thr s t) = Some (id, c, o) ->
  pending (thr s' t) = Some (id, c, o) \/ exists r, In (Ret id r) ev.
Proof.
  intros S P. destruct ch as [t1 c1|t1 raw|t1 n|id1 i b]; cbn in S.
  - destruct (Nat.eq_dec t t1) as [<-|N].
    + destruct (thr s t); discriminate.
    + step_cases S. cbn. rewrite upd_other by auto. auto.
  - destruct (Nat.eq_dec t t1) as [<-|N].
    + destruct (thr s t); discriminate.
    + step_cases S. cbn. rewrite upd_other by auto. auto.
  - destruct (Nat.eq_dec t t1) as [<-|N].
    + unfold step_thread in S. step_cases S; cbn; rewrite ?upd_same; cbn; auto;
        cbn in P; try discriminate; inversion P; subst; eauto.
    + unfold step_thread in S. step_cases S; cbn; rewrite ?upd_other by auto; auto.
  - step_cases S. auto.
Qed.

Lemma inv_event_step s ch s' ev t id c o : step s ch = Some (s', ev) ->
  In (Inv id t c o) ev -> pending (thr s' t) = Some (id, c, o).
Proof.
  intros S H. destruct ch as [t1 c1|t1 raw|t1 n|id1 i b]; cbn in S.
  - step_cases S. cbn in H. destruct H as [H|[]]. inversion H; subst. cbn.
    rewrite upd_same. reflexivity.
  - step_cases S. cbn in H. destruct H as [H|[]]. inversion H; subst. cbn.
    rewrite upd_same. reflexivity.
  - unfold step_thread in S. step_cases S; cbn in H; try tauto;
      repeat (destruct H as [H|H]; [try discriminate|]); try tauto.
    inversion H; subst. cbn. rewrite upd_same. reflexivity.
  - step_cases S. destruct H.
Qed.

Lemma pending_or_returned cs : forall tr s s' evs,
  (forall id t c o, In (Inv id t c o) tr ->
     pending (thr s t) = Some (id, c, o) \/ exists r, In (Ret id r) tr) ->
  exec s cs = Some (s', evs) ->
  forall id t c o, In (Inv id t c o) (tr ++ evs) ->
     pending (thr s' t) = Some (id, c, o) \/ exists r, In (Ret id r) (tr ++ evs).
Proof.
  induction cs as [|ch cs IH]; intros tr s s' evs H E; cbn in E.
  - inversion E; subst. rewrite app_nil_r. exact H.
  - destruct (step s ch) as [[s1 ev]|] eqn:S; [|discriminate].
    destruct (exec s1 cs) as [[s2 evs2]|] eqn:X; [|discriminate].
    inversion E; subst. rewrite app_assoc. apply (IH _ s1); auto.
    intros id t c o K. apply in_app_iff in K as [K|K].
    + destruct (H _ _ _ _ K) as [P|[r P]].
      * destruct (pend_step _ _ _ _ _ _ _ _ S P) as [Q|[r Q]]; auto.
        right. exists r. apply in_app_iff. auto.
      * right. exists r. apply in_app_iff. auto.
    + left. eapply inv_event_step; eauto.
Qed.

Lemma return_step tr s l A t id c o r : inv tr s l A -> rinv tr s ->
  thr s t = Return id c o r ->
  exists s' evs, exec s [Step t 0] = Some (s', evs) /\ In (Ret id (observe s r)) evs.
Proof.
  intros I R E.
  pose proof (i_at _ _ _ _ I t) as At. rewrite E in At. cbn in At.
  pose proof (legal_fits _ _ _ _ _ _ (i_legal _ _ _ _ I) At) as Fit.
  assert (P : pending (thr s t) = Some (id, c, o)) by (rewrite E; reflexivity).
  apply (i_pend _ _ _ _ I) in P. pose proof (r_call _ _ R _ _ _ _ P) as K.
  cbn. rewrite E. cbn.
  destruct o as [|raw|cid]; cbn in K.
  - destruct r; do 2 eexists; (split; [reflexivity|cbn; auto]).
  - subst c. destruct r; cbn in Fit; try contradiction.
    do 2 eexists; (split; [reflexivity|cbn; auto]).
  - destruct r; do 2 eexists; (split; [reflexivity|cbn; auto]).
Qed.

Lemma calls_can_return cs s tr id t c o : exec start cs = Some (s, tr) ->
  In (Inv id t c o) tr -> (forall r, ~ In (Ret id r) tr) ->
  exists cs' s' evs r, Forall is_step cs' /\ exec s cs' = Some (s', evs) /\
    In (Ret id r) evs.
Proof.
  intros E H N. destruct (inv_reach _ _ _ E) as (l & A & I).
  pose proof (rinv_reach _ _ _ E) as R.
  assert (P : pending (thr s t) = Some (id, c, o)).
  { destruct (pending_or_returned cs [] start s tr) with (id := id) (t := t) (c := c) (o := o)
      as [P|[r P]]; auto.
    - cbn. tauto.
    - exfalso. eapply N; eauto. }
  clear E N H cs.
  (* from a state in which t is about to return *)
  assert (RET : forall tr s l A, inv tr s l A -> rinv tr s ->
     pending (thr s t) = Some (id, c, o) -> (exists id' c' o' r, thr s t = Return id' c' o' r) ->
     exists cs' s' evs r, Forall is_step cs' /\ exec s cs' = Some (s', evs) /\ In (Ret id r) evs).
  { clear. intros tr s l A I R P (id' & c' & o' & r & E). rewrite E in P. cbn in P.
    inversion P; subst. destruct (return_step _ _ _ _ _ _ _ _ _ I R E) as (s' & evs & X & K).
    exists [Step t 0], s', evs, (observe s r). split; [repeat constructor|auto]. }
  (* from a state in which t holds the mutex *)
  assert (CRIT : forall tr s l A, inv tr s l A -> rinv tr s ->
     pending (thr s t) = Some (id, c, o) -> critical (thr s t) = true ->
     exists cs' s' evs r, Forall is_step cs' /\ exec s cs' = Some (s', evs) /\ In (Ret id r) evs).
  { intros tr0 s0 l0 A0 I0 R0 P0 C0.
    destruct (holder_release _ s0 t (le_n _) C0) as (k & s1 & X & _ & P1 & _ & Q).
    destruct (inv_exec _ _ _ _ _ _ _ I0 X) as (l1 & A1 & I1).
    pose proof (rinv_exec _ _ _ _ _ _ _ I0 R0 X) as R1.
    destruct (RET _ _ _ _ I1 R1) as (cs' & s' & evs & r & F & X' & K); auto.
    { rewrite P1. exact P0. }
    exists (repeat (Step t 0) k ++ cs'), s', evs, r.
    split; [apply Forall_app; split; auto; apply steps_forall|].
    rewrite exec_app, X, X'. auto. }
  (* from a state in which t waits and the mutex is free *)
  assert (FREE : forall tr s l A, inv tr s l A -> rinv tr s ->
     pending (thr s t) = Some (id, c, o) -> (exists id' c' o', thr s t = Lock id' c' o') ->
     lock s = None ->
     exists cs' s' evs r, Forall is_step cs' /\ exec s cs' = Some (s', evs) /\ In (Ret id r) evs).
  { intros tr0 s0 l0 A0 I0 R0 P0 (id' & c' & o' & E0) L0.
    rewrite E0 in P0. cbn in P0. inversion P0; subst.
    assert (X : exists s1, exec s0 [Step t 0] = Some (s1, []) /\ critical (thr s1 t) = true /\
                  pending (thr s1 t) = Some (id, c, o)).
    { cbn. rewrite E0. cbn. rewrite L0.
      destruct c; eexists; (split; [reflexivity|]); cbn; rewrite upd_same; auto. }
    destruct X as (s1 & X & C1 & P1).
    destruct (inv_exec _ _ _ _ _ _ _ I0 X) as (l1 & A1 & I1).
    pose proof (rinv_exec _ _ _ _ _ _ _ I0 R0 X) as R1.
    destruct (CRIT _ _ _ _ I1 R1 P1 C1) as (cs' & s' & evs & r & F & X' & K).
    exists ([Step t 0] ++ cs'), s', evs, r.
    split; [apply Forall_app; split; auto; repeat constructor|].
    rewrite exec_app, X, X'. auto. }
  destruct (critical (thr s t)) eqn:C; [eapply CRIT; eauto|].
  destruct (thr s t) as [|id' c' o'|id' p o'|id' p o' a i|id' p o' m i|id' o'
       |id' o' src k a i|id' o'|id' c' o' r|id' c' o' r|cid raw a k|cid raw] eqn:Et;
    try discriminate.
  - destruct (lock s) as [t0|] eqn:L.
    + pose proof L as C0. apply (i_lock _ _ _ _ I) in C0.
      assert (Nt : t <> t0) by (intros ->; rewrite Et in C0; discriminate).
      destruct (holder_release _ s t0 (le_n _) C0) as (k & s1 & X & O & _ & L1 & _).
      destruct (inv_exec _ _ _ _ _ _ _ I X) as (l1 & A1 & I1).
      pose proof (rinv_exec _ _ _ _ _ _ _ I R X) as R1.
      destruct (FREE _ _ _ _ I1 R1) as (cs' & s' & evs & r & F & X' & K); auto.
      { rewrite O, Et by auto. exact P. }
      { rewrite O, Et by auto. eauto. }
      exists (repeat (Step t0 0) k ++ cs'), s', evs, r.
      split; [apply Forall_app; split; auto; apply steps_forall|].
      rewrite exec_app, X, X'. auto.
    + eapply FREE; eauto; rewrite Et; eauto.
  - eapply RET; eauto; rewrite Et; eauto.
Qed.

(** ** Accounting *)

Lemma accounting s l s' : legal s l s' -> s ++ written l = removed s l ++ s'.
Proof.
  induction 1; cbn [removed written flat_map fst snd app].
  - apply app_nil_r.
  - fold (written l). rewrite app_assoc. exact IHlegal.
  - fold (written l). exact IHlegal.
  - fold (written l). cbn in IHlegal. rewrite IHlegal, app_assoc. reflexivity.
Qed.

(** Who resets. *)
Lemma resets_from tr s l A id r : inv tr s l A -> rinv tr s ->
  In (id, Reset, r) l ->
  exists t, In (Inv id t Reset Client) tr \/
    exists cid raw, In (Inv id t Reset (ForFlush cid)) tr /\
      In (Inv cid t CopyBuffer (ForRequest raw)) tr /\ wants_flush raw.
Proof.
  intros I R H. apply (i_called _ _ _ _ I) in H as (t & o & H). exists t.
  pose proof (r_call _ _ R _ _ _ _ H) as K. destruct o as [|raw|cid]; cbn in K.
  - auto.
  - discriminate.
  - right. destruct K as (_ & raw & bs & k & F & Hi & _). exists cid, raw.
    apply flushes_spec in F. auto.
Qed.

Lemma bytes_accounted cs s tr : exec start cs = Some (s, tr) ->
  exists l A, legal [] l A /\ explains l tr /\ (lock s = None -> contents s = A) /\
    written l = removed [] l ++ A /\
    forall id r, In (id, Reset, r) l ->
      exists t, In (Inv id t Reset Client) tr \/
        exists cid raw, In (Inv id t Reset (ForFlush cid)) tr /\
          In (Inv cid t CopyBuffer (ForRequest raw)) tr /\ wants_flush raw.
Proof.
  intros E. destruct (inv_reach _ _ _ E) as (l & A & I).
  pose proof (rinv_reach _ _ _ E) as R.
  exists l, A. split; [apply I|]. split; [eapply inv_explains; eauto|].
  split; [apply I|]. split; [apply (accounting [] l A); apply I|].
  intros id r H. eapply resets_from; eauto.
Qed.

(** ** Flushing *)

Lemma split_two (l : list entry) x y :
  NoDup (map e_id l) -> precedes (map e_id l) (e_id x) (e_id y) -> In x l -> In y l ->
  exists l1 l2 l3, l = l1 ++ x :: l2 ++ y :: l3.
Proof.
  intros N (a & b & E & Ha & Hb) Hx Hy.
  apply map_eq_app in E as (la & lb & -> & <- & <-).
  assert (X : In x la).
  { apply in_map_iff in Ha as (x' & Ex & Ha).
    replace x with x'; auto. eapply (nodup_map_inj e_id); eauto. apply in_app_iff; auto. }
  assert (Y : In y lb).
  { apply in_map_iff in Hb as (y' & Ey & Hb).
    replace y with y'; auto. eapply (nodup_map_inj e_id); eauto. apply in_app_iff; auto. }
  apply in_split in X as (l1 & l2 & ->). apply in_split in Y as (l3 & l4 & ->).
  exists l1, (l2 ++ l3), l4. rewrite <- !app_assoc. cbn. rewrite <- ?app_assoc. reflexivity.
Qed.

Lemma flush_removes cs s tr : exec start cs = Some (s, tr) ->
  exists l A, legal [] l A /\ explains l tr /\
  forall rid t cid, In (Inv rid t Reset (ForFlush cid)) tr -> In (Ret rid ResReset) tr ->
  exists l1 bs l2 l3 k,
    l = l1 ++ (cid, CopyBuffer, ResCopy bs) :: l2 ++ (rid, Reset, ResReset) :: l3 /\
    In (Sent cid (firstn k bs)) tr /\
    (forall d, In (Sent cid d) tr -> d = firstn k bs) /\
    forall R, legal [] (l1 ++ (cid, CopyBuffer, ResCopy bs) :: l2) R ->
      R = (if existsb is_reset l2 then [] else bs) ++ written (since_reset l2).
Proof.
  intros E. destruct (inv_reach _ _ _ E) as (l & A & I).
  pose proof (rinv_reach _ _ _ E) as R.
  exists l, A. split; [apply I|]. split; [eapply inv_explains; eauto|].
  intros rid t cid H Hr.
  destruct (r_call _ _ R _ _ _ _ H) as (_ & raw & bs & k & F & Hi & Pr & Ps).
  pose proof (precedes_in _ _ _ Pr) as [Hc _].
  pose proof (precedes_in _ _ _ Ps) as [Hs _].
  destruct (i_ret _ _ _ _ I _ _ Hr) as (c & Lr).
  destruct (i_ret _ _ _ _ I _ _ Hc) as (c' & Lc).
  pose proof (legal_fits _ _ _ _ _ _ (i_legal _ _ _ _ I) Lr) as Fr.
  pose proof (legal_fits _ _ _ _ _ _ (i_legal _ _ _ _ I) Lc) as Fc.
  destruct c; try contradiction. destruct c'; try contradiction.
  assert (O : precedes (map e_id l) cid rid).
  { eapply (i_order _ _ _ _ I); eauto. change rid with (e_id (rid, Reset, ResReset)).
    apply in_map, Lr. }
  destruct (split_two l (cid, CopyBuffer, ResCopy bs) (rid, Reset, ResReset)
              (i_nodup _ _ _ _ I) O Lc Lr) as (l1 & l2 & l3 & El).
  exists l1, bs, l2, l3, k. split; [exact El|]. split; [exact Hs|]. split.
  - intros d Hd. eapply (r_one_sent _ _ R); eauto.
  - intros R0 L. pose proof (i_legal _ _ _ _ I) as LA. rewrite El in LA.
    apply legal_app_inv in L as (B & L1 & L2). inversion L2; subst.
    match goal with K : legal _ l2 _ |- _ => apply legal_since in K; exact K end.
Qed.

(** A request resets exactly when its query asks for it. *)
Lemma request_flushes cs s tr cid : exec start cs = Some (s, tr) -> In (Served cid) tr ->
  exists t raw d, In (Inv cid t CopyBuffer (ForRequest raw)) tr /\ In (Sent cid d) tr /\
    (wants_flush raw -> exists rid, In (Inv rid t Reset (ForFlush cid)) tr /\
                                    precedes tr (Ret rid ResReset) (Served cid)) /\
    (~ wants_flush raw -> forall rid t' c, ~ In (Inv rid t' c (ForFlush cid)) tr).
Proof.
  intros E H. destruct (inv_reach _ _ _ E) as (l & A & I).
  pose proof (rinv_reach _ _ _ E) as R.
  destruct (r_served _ _ R _ H) as (t & raw & Hi & (d & Hd) & Hf).
  exists t, raw, d. split; auto. apply precedes_in in Hd as [Hd _]. split; auto. split.
  - intros W. apply flushes_spec in W. auto.
  - intros W rid t' c K. apply W. apply flushes_spec.
    destruct (r_call _ _ R _ _ _ _ K) as (_ & raw' & bs & k & F & Hi' & _).
    eapply (invoked_unique tr (i_once _ _ _ _ I)) in Hi' as (_ & _ & Q); [|exact Hi].
    inversion Q; subst. exact F.
Qed.

(** The response is a part of the copy. *)
Lemma response_is_copy cs s tr cid d : exec start cs = Some (s, tr) ->
  In (Sent cid d) tr ->
  exists t raw bs k, In (Inv cid t CopyBuffer (ForRequest raw)) tr /\
    precedes tr (Ret cid (ResCopy bs)) (Sent cid d) /\ d = firstn k bs.
Proof. intros E H. exact (r_sent _ _ (rinv_reach _ _ _ E) _ _ H). Qed.

Lemma one_response cs s tr cid d d' : exec start cs = Some (s, tr) ->
  In (Sent cid d) tr -> In (Sent cid d') tr -> d = d'.
Proof. intros E. exact (r_one_sent _ _ (rinv_reach _ _ _ E) cid d d'). Qed.

Lemma one_flush cs s tr cid r1 t1 c1 r2 t2 c2 : exec start cs = Some (s, tr) ->
  In (Inv r1 t1 c1 (ForFlush cid)) tr -> In (Inv r2 t2 c2 (ForFlush cid)) tr -> r1 = r2.
Proof. intros E. exact (r_one_flush _ _ (rinv_reach _ _ _ E) cid r1 t1 c1 r2 t2 c2). Qed.

Lemma copies_recorded cs s tr id t bs : exec start cs = Some (s, tr) ->
  In (Inv id t CopyBuffer Client) tr -> In (Ret id (ResCopy bs)) tr ->
  exists a k, In (id, (a, k)) (owned s).
Proof. intros E. exact (r_owned _ _ (rinv_reach _ _ _ E) id t bs). Qed.

(** ** StartServer *)

Lemma started_again ls : forall a l0,
  StartServers (map Some ls) (mkglobals (Some a) true l0) =
  (mkglobals (Some (last ls a)) true l0, repeat Panicked (List.length ls)).
Proof.
  induction ls as [|l ls IH]; intros a l0; [reflexivity|].
  cbn [map StartServers StartServer g_handler g_serving]. rewrite IH.
  cbn [List.length repeat]. f_equal. f_equal. f_equal.
  destruct ls as [|l' ls]; [reflexivity|].
  cbn [last]. clear. revert l'. induction ls as [|x ls IH]; intros; [reflexivity|].
  cbn [last] in *. apply IH.
Qed.

Lemma started l ls : StartServers (map Some (l :: ls)) globals0 =
  (mkglobals (Some (last ls l)) true [l], Done tt :: repeat Panicked (List.length ls)).
Proof. cbn [map StartServers StartServer globals0 g_handler g_serving g_listener].
  rewrite started_again. reflexivity. Qed.

Lemma started_fatal ls1 ls2 : exists os,
  snd (StartServers (map Some ls1 ++ None :: ls2) globals0) = os ++ [Exited] /\
  List.length os = List.length ls1.
Proof.
  assert (G : forall ls1 g, exists os,
    snd (StartServers (map Some ls1 ++ None :: ls2) g) = os ++ [Exited] /\
    List.length os = List.length ls1).
  { clear. induction ls1 as [|l ls1 IH]; intros g.
    - exists []. split; reflexivity.
    - cbn [map app StartServers].
      destruct (StartServer (Some l) g) as [g1 o] eqn:S1.
      destruct (IH g1) as (os & E & L).
      destruct (StartServers (map Some ls1 ++ None :: ls2) g1) as [g' os'].
      cbn in E. subst os'. exists (o :: os).
      destruct o; cbn; rewrite L; auto.
      exfalso. cbn in S1. destruct (g_handler g); inversion S1. }
  apply G.
Qed.

(** ** Schedules *)

(** Goroutine [t] takes [k] steps. *)
Definition go (t k : nat) : list choice := repeat (Step t 0) k.

Local Open Scope string_scope.

(** A flushing request copies the empty buffer; before it resets the buffer,
    "a" is written. *)
Definition lost_write : list choice :=
  [Request 2 "flush=true"] ++ go 2 5 ++ [Call 1 (Write [x61])] ++ go 1 7 ++ go 2 6.

(** "a" is written; a flushing request comes, the client gets nothing. *)
Definition lost_response : list choice :=
  [Call 1 (Write [x61])] ++ go 1 7 ++ [Request 2 "flush=true"] ++ go 2 12.

(** The same with a client that gets the response. *)
Definition good_flush : list choice :=
  [Call 1 (Write [x61])] ++ go 1 7 ++ [Request 2 "flush=true"] ++ go 2 6 ++
  [Step 2 1] ++ go 2 5.
