(** * HttpFacts: consequences of the invariant, requests and flushing. *)

From Coq Require Import NArith Bool String Arith List Lia.
From Verif Require Import GoBase QueryModel HttpModel HttpSpec HttpLin.
Import ListNotations.
Local Open Scope nat_scope.

(** ** Executions *)

Lemma inv_exec cs : forall tr s l A s' evs, inv tr s l A ->
  exec s cs = Some (s', evs) ->
  exists l' A', inv (tr ++ evs) s' (l ++ l') A'.
Proof.
  induction cs as [|ch cs IH]; intros tr s l A s' evs I E; cbn in E.
  - inversion E; subst. exists [], A. rewrite !app_nil_r. exact I.
  - destruct (step s ch) as [[s1 ev]|] eqn:S; [|discriminate].
    destruct (exec s1 cs) as [[s2 evs2]|] eqn:X; [|discriminate].
    inversion E; subst.
    destruct (inv_step _ _ _ _ _ _ _ I S) as (l1 & A1 & I1).
    destruct (IH _ _ _ _ _ _ I1 X) as (l2 & A2 & I2).
    exists (l1 ++ l2), A2. rewrite <- !app_assoc in I2. exact I2.
Qed.

Lemma inv_reach cs s tr : exec start cs = Some (s, tr) ->
  exists l A, inv tr s l A.
Proof.
  intros E. destruct (inv_exec cs [] start [] [] s tr inv_start E) as (l & A & I).
  exists l, A. exact I.
Qed.

Lemma exec_app cs1 : forall s cs2, exec s (cs1 ++ cs2) =
  match exec s cs1 with
  | None => None
  | Some (s1, ev1) => match exec s1 cs2 with
                      | None => None
                      | Some (s2, ev2) => Some (s2, ev1 ++ ev2)
                      end
  end.
Proof.
  induction cs1 as [|ch cs1 IH]; intros s cs2; cbn.
  - destruct (exec s cs2) as [[? ?]|]; reflexivity.
  - destruct (step s ch) as [[s1 ev]|]; [|reflexivity].
    rewrite IH. destruct (exec s1 cs1) as [[s2 ev2]|]; [|reflexivity].
    destruct (exec s2 cs2) as [[s3 ev3]|]; [|reflexivity].
    rewrite app_assoc. reflexivity.
Qed.

(** ** Linearizability *)

Lemma inv_explains tr s l A : inv tr s l A -> explains l tr.
Proof. intros I. repeat split; apply I. Qed.

(** Bytes since the last reset *)
Lemma since_no_reset l : existsb is_reset l = false -> since_reset l = l.
Proof.
  destruct l as [|e l]; auto. cbn. intros H. apply orb_false_iff in H as [-> ->].
  reflexivity.
Qed.

Lemma written_cons e l : written (e :: l) = written [e] ++ written l.
Proof. unfold written. cbn. rewrite app_nil_r. reflexivity. Qed.

Lemma legal_since l : forall s s', legal s l s' ->
  s' = (if existsb is_reset l then [] else s) ++ written (since_reset l).
Proof.
  induction l as [|e l IH]; intros s s' H.
  - inversion H; subst. cbn. rewrite app_nil_r. reflexivity.
  - inversion H; subst; cbn [existsb is_reset snd fst orb since_reset];
      match goal with K : legal _ l _ |- _ => apply IH in K; rewrite K end;
      destruct (existsb is_reset l) eqn:R; auto;
      rewrite (since_no_reset l R); try rewrite (written_cons _ l); cbn;
      rewrite ?app_nil_r, ?app_assoc; reflexivity.
Qed.

Lemma linearizable cs s tr : exec start cs = Some (s, tr) ->
  NoDup (invoked tr) /\
  exists l A, legal [] l A /\ explains l tr /\
    (lock s = None -> contents s = A) /\
    forall id bs, In (Ret id (ResCopy bs)) tr ->
      exists l1 l2, l = l1 ++ (id, CopyBuffer, ResCopy bs) :: l2 /\
                    bs = written (since_reset l1).
Proof.
  intros E. destruct (inv_reach _ _ _ E) as (l & A & I).
  split; [apply I|]. exists l, A. split; [apply I|].
  split; [eapply inv_explains; eauto|]. split; [apply I|].
  intros id bs H. apply (i_ret _ _ _ _ I) in H as (c & H).
  apply in_split in H as (l1 & l2 & ->). exists l1, l2.
  pose proof (i_legal _ _ _ _ I) as L. apply legal_app_inv in L as (B & L1 & L2).
  inversion L2; subst. split; auto. apply legal_since in L1.
  destruct (existsb is_reset l1); exact L1.
Qed.

Lemma linearizable_prefix cs1 cs2 s1 tr1 s2 tr2 :
  exec start cs1 = Some (s1, tr1) -> exec s1 cs2 = Some (s2, tr2) ->
  exists l1 A1 l2 A2, legal [] l1 A1 /\ explains l1 tr1 /\
    legal A1 l2 A2 /\ explains (l1 ++ l2) (tr1 ++ tr2).
Proof.
  intros E1 E2. destruct (inv_reach _ _ _ E1) as (l1 & A1 & I1).
  destruct (inv_exec _ _ _ _ _ _ _ I1 E2) as (l2 & A2 & I2).
  exists l1, A1, l2, A2. split; [apply I1|]. split; [eapply inv_explains; eauto|].
  split; [|eapply inv_explains; eauto].
  pose proof (i_legal _ _ _ _ I2) as L. apply legal_app_inv in L as (B & La & Lb).
  rewrite (legal_fun _ _ _ (i_legal _ _ _ _ I1) _ La). exact Lb.
Qed.

(** ** Case analysis of a step *)

Ltac step_cases S :=
  cbn -[Nat.ltb Nat.leb Nat.add] in S;
  repeat match type of S with
  | None = Some _ => discriminate S
  | match ?x with _ => _ end = Some _ => destruct x eqn:?; try discriminate S
  | (if ?x then _ else _) = Some _ => destruct x eqn:?; try discriminate S
  end;
  inversion S; clear S; subst.

(** ** Copies are isolated *)

Lemma nodup_map_inj {A B} (f : A -> B) l x y :
  NoDup (map f l) -> In x l -> In y l -> f x = f y -> x = y.
Proof.
  induction l as [|z l IH]; cbn; intros N Hx Hy E; [tauto|].
  inversion N; subst.
  destruct Hx as [->|Hx], Hy as [->|Hy]; auto.
  - exfalso. apply H1. rewrite E. apply in_map, Hy.
  - exfalso. apply H1. rewrite <- E. apply in_map, Hx.
Qed.

(** A call returns one result. *)
Lemma ret_unique tr s l A id r r' : inv tr s l A ->
  In (Ret id r) tr -> In (Ret id r') tr -> r = r'.
Proof.
  intros I H H'. apply (i_ret _ _ _ _ I) in H as (c & H).
  apply (i_ret _ _ _ _ I) in H' as (c' & H').
  assert (E : (id, c, r) = (id, c', r')).
  { eapply (nodup_map_inj e_id); eauto. apply I. }
  inversion E. reflexivity.
Qed.

(** How a step changes the arrays of client code. *)
Lemma step_heap tr s l A ch s' ev a : inv tr s l A -> step s ch = Some (s', ev) ->
  In a (own_arrs s) ->
  heap s' a = heap s a \/
  exists id i b k, ch = Poke id i b /\ In (id, (a, k)) (owned s).
Proof.
  intros I S O. destruct (i_owned _ _ _ _ I a O) as [B D].
  destruct ch as [t c|t raw|t n|id i b]; cbn in S.
  - left. step_cases S. reflexivity.
  - left. step_cases S. reflexivity.
  - left. assert (Pv : forall a', private (thr s t) = Some a' -> a <> a').
    { intros a' K <-. apply (i_priv _ _ _ _ I) in K. tauto. }
    unfold step_thread in S. step_cases S; cbn; auto; apply upd_other; auto; lia.
  - destruct (find _ _) as [[id' [a' k]]|] eqn:F; inversion S; subst; clear S.
    apply find_some in F as [F Q]. cbn in Q. apply Nat.eqb_eq in Q. subst id'.
    destruct (Nat.eq_dec a a') as [<-|N].
    + right. exists id, i, b, k. auto.
    + left. cbn. apply upd_other. auto.
Qed.

(** How a step changes the copies client code holds. *)
Lemma step_owned s ch s' ev : step s ch = Some (s', ev) ->
  owned s' = owned s \/
  exists t id c a k, thr s t = Return id c Client (RefCopy a k) /\
    owned s' = (id, (a, k)) :: owned s /\ heap s' = heap s /\
    ev = [Ret id (ResCopy (firstn k (heap s a)))].
Proof.
  intros S. destruct ch as [t c|t raw|t n|id i b]; cbn in S.
  - left. step_cases S. reflexivity.
  - left. step_cases S. reflexivity.
  - unfold step_thread in S. step_cases S; cbn; auto.
    right. exists t, id, c, a, n0. auto.
  - left. step_cases S. reflexivity.
Qed.

Record oinv (cs : list choice) (tr : list event) (s : state) : Prop := {
  o_nodup : NoDup (own_arrs s);
  o_ret : forall id a k, In (id, (a, k)) (owned s) ->
    exists bs, In (Ret id (ResCopy bs)) tr /\
      ((forall i b, ~ In (Poke id i b) cs) -> firstn k (heap s a) = bs) }.

Lemma oinv_step cs tr s l A ch s' ev : inv tr s l A -> oinv cs tr s ->
  step s ch = Some (s', ev) -> oinv (cs ++ [ch]) (tr ++ ev) s'.
Proof.
  intros I O S.
  assert (OLD : forall id a k, In (id, (a, k)) (owned s) ->
    exists bs, In (Ret id (ResCopy bs)) (tr ++ ev) /\
      ((forall i b, ~ In (Poke id i b) (cs ++ [ch])) -> firstn k (heap s' a) = bs)).
  { intros id a k H. destruct (o_ret _ _ _ O _ _ _ H) as (bs & Hr & Hb).
    exists bs. split; [apply in_app_iff; auto|]. intros N.
    rewrite <- Hb; [|intros i b K; apply (N i b), in_app_iff; auto].
    assert (Ha : In a (own_arrs s)) by (apply in_map_iff; exists (id, (a, k)); auto).
    destruct (step_heap _ _ _ _ _ _ _ _ I S Ha) as [-> | (id' & i & b & k' & -> & H')];
      [reflexivity|].
    exfalso.
    assert (E : (id, (a, k)) = (id', (a, k'))).
    { eapply (nodup_map_inj (fun x => fst (snd x))); eauto. apply O. }
    inversion E; subst. apply (N i b). apply in_app_iff. cbn. auto. }
  destruct (step_owned _ _ _ _ S) as [E|(t & id & c & a & k & Et & E & Eh & Ee)].
  - constructor; unfold own_arrs; rewrite E; [apply O|exact OLD].
  - constructor; unfold own_arrs; rewrite E.
    + cbn. constructor; [|apply O].
      apply (i_priv _ _ _ _ I t). rewrite Et. reflexivity.
    + intros id1 a1 k1 [H|H]; [|apply OLD; exact H].
      inversion H; subst. exists (firstn k1 (heap s a1)). split.
      * apply in_app_iff. cbn. auto.
      * intros _. rewrite Eh. reflexivity.
Qed.

Lemma oinv_exec cs2 : forall cs1 tr s l A s' evs, inv tr s l A -> oinv cs1 tr s ->
  exec s cs2 = Some (s', evs) -> oinv (cs1 ++ cs2) (tr ++ evs) s'.
Proof.
  induction cs2 as [|ch cs IH]; intros cs1 tr s l A s' evs I O E; cbn in E.
  - inversion E; subst. rewrite !app_nil_r. exact O.
  - destruct (step s ch) as [[s1 ev]|] eqn:S; [|discriminate].
    destruct (exec s1 cs) as [[s2 evs2]|] eqn:X; [|discriminate].
    inversion E; subst.
    destruct (inv_step _ _ _ _ _ _ _ I S) as (l1 & A1 & I1).
    pose proof (oinv_step _ _ _ _ _ _ _ _ I O S) as O1.
    pose proof (IH _ _ _ _ _ _ _ I1 O1 X) as K.
    rewrite <- !app_assoc in K. exact K.
Qed.

Lemma copies_isolated cs s tr id a k bs : exec start cs = Some (s, tr) ->
  In (id, (a, k)) (owned s) -> In (Ret id (ResCopy bs)) tr ->
  (forall i b, ~ In (Poke id i b) cs) -> firstn k (heap s a) = bs.
Proof.
  intros E H R N. destruct (inv_reach _ _ _ E) as (l & A & I).
  assert (O0 : oinv [] [] start) by (constructor; cbn; [constructor|tauto]).
  pose proof (oinv_exec _ _ _ _ _ _ _ _ inv_start O0 E) as O.
  destruct (o_ret _ _ _ O _ _ _ H) as (bs' & R' & K). cbn in R'.
  assert (Q : ResCopy bs = ResCopy bs') by (eapply ret_unique; eauto).
  inversion Q; subst. apply K. exact N.
Qed.

(** Every copy returned to client code is recorded in [owned]. *)
Lemma owned_exec cs : forall s s' evs, exec s cs = Some (s', evs) ->
  forall x, In x (owned s) -> In x (owned s').
Proof.
  induction cs as [|ch cs IH]; intros s s' evs E x H; cbn in E.
  - inversion E; subst; auto.
  - destruct (step s ch) as [[s1 ev]|] eqn:S; [|discriminate].
    destruct (exec s1 cs) as [[s2 evs2]|] eqn:X; [|discriminate].
    inversion E; subst. apply (IH _ _ _ X).
    destruct (step_owned _ _ _ _ S) as [->|(t & id & c & a & k & _ & -> & _)]; cbn; auto.
Qed.

Lemma poke_harmless cs s tr id i b s' ev : exec start cs = Some (s, tr) ->
  step s (Poke id i b) = Some (s', ev) ->
  contents s' = contents s /\ ev = [] /\
  forall id' a' k', In (id', (a', k')) (owned s) -> id' <> id ->
    heap s' a' = heap s a'.
Proof.
  intros E S. destruct (inv_reach _ _ _ E) as (l & A & I).
  assert (O0 : oinv [] [] start) by (constructor; cbn; [constructor|tauto]).
  pose proof (oinv_exec _ _ _ _ _ _ _ _ inv_start O0 E) as O.
  assert (Ee : ev = []) by (clear - S; step_cases S; reflexivity).
  split; [|split; [exact Ee|]].
  - cbn in S. destruct (find _ _) as [[id0 [a k]]|] eqn:F; inversion S; subst.
    apply find_some in F as [F _].
    assert (Ha : In a (own_arrs s)) by (apply in_map_iff; exists (id0, (a, k)); auto).
    apply (i_owned _ _ _ _ I) in Ha. unfold contents. cbn.
    rewrite upd_other by (intros K; symmetry in K; tauto). reflexivity.
  - intros id' a' k' H N.
    assert (Ha : In a' (own_arrs s)) by (apply in_map_iff; exists (id', (a', k')); auto).
    destruct (step_heap _ _ _ _ _ _ _ _ I S Ha) as [K|(id1 & i1 & b1 & k1 & Q & H1)];
      [exact K|].
    inversion Q; subst. exfalso. apply N.
    assert (E' : (id', (a', k')) = (id1, (a', k1))).
    { eapply (nodup_map_inj (fun x => fst (snd x))); eauto. apply O. }
    inversion E'. reflexivity.
Qed.

(** ** Requests *)

(** What holds for a call, depending on who made it. *)
Definition call_ok (tr : list event) (id t : nat) (c : call) (o : origin) : Prop :=
  match o with
  | Client => True
  | ForRequest _ => c = CopyBuffer
  | ForFlush cid => c = Reset /\
    exists raw bs k, flushes raw = true /\
      In (Inv cid t CopyBuffer (ForRequest raw)) tr /\
      precedes tr (Ret cid (ResCopy bs)) (Inv id t c o) /\
      precedes tr (Sent cid (firstn k bs)) (Inv id t c o)
  end.

Record rinv (tr : list event) (s : state) : Prop := {
  r_call : forall id t c o, In (Inv id t c o) tr -> call_ok tr id t c o;
  r_pend : forall t id c o r, pending (thr s t) = Some (id, c, o) ->
    ~ In (Ret id r) tr;
  r_deliver : forall t cid raw a n, thr s t = Deliver cid raw a n ->
    In (Inv cid t CopyBuffer (ForRequest raw)) tr /\
    In (Ret cid (ResCopy (firstn n (heap s a)))) tr /\
    forall d, ~ In (Sent cid d) tr;
  r_decide : forall t cid raw, thr s t = Decide cid raw ->
    In (Inv cid t CopyBuffer (ForRequest raw)) tr /\
    (exists bs k, In (Ret cid (ResCopy bs)) tr /\ In (Sent cid (firstn k bs)) tr) /\
    forall rid t' c, ~ In (Inv rid t' c (ForFlush cid)) tr;
  r_sent : forall cid d, In (Sent cid d) tr ->
    exists t raw bs k, In (Inv cid t CopyBuffer (ForRequest raw)) tr /\
      precedes tr (Ret cid (ResCopy bs)) (Sent cid d) /\ d = firstn k bs;
  r_served : forall cid, In (Served cid) tr ->
    exists t raw, In (Inv cid t CopyBuffer (ForRequest raw)) tr /\
      (exists d, precedes tr (Sent cid d) (Served cid)) /\
      (flushes raw = true -> exists rid, In (Inv rid t Reset (ForFlush cid)) tr /\
        precedes tr (Ret rid ResReset) (Served cid));
  r_one_sent : forall cid d d', In (Sent cid d) tr -> In (Sent cid d') tr -> d = d';
  r_one_flush : forall cid r1 t1 c1 r2 t2 c2,
    In (Inv r1 t1 c1 (ForFlush cid)) tr -> In (Inv r2 t2 c2 (ForFlush cid)) tr ->
    r1 = r2;
  r_owned : forall id t bs, In (Inv id t CopyBuffer Client) tr ->
    In (Ret id (ResCopy bs)) tr -> exists a k, In (id, (a, k)) (owned s) }.

Lemma rinv_start : rinv [] start.
Proof. constructor; cbn; try tauto; discriminate. Qed.

Lemma precedes_last {A} (l m : list A) x y : In x l -> In y m -> precedes (l ++ m) x y.
Proof. intros H K. exists l, m. auto. Qed.

Lemma call_ok_more tr ev id t c o : call_ok tr id t c o -> call_ok (tr ++ ev) id t c o.
Proof.
  destruct o; cbn; auto.
  intros (Hc & raw & bs & k & Hf & Hi & Hp & Hq). split; auto.
  exists raw, bs, k. split; auto. split; [apply in_app_iff; auto|].
  split; apply precedes_app_l; auto.
Qed.

(** The result of a call fits the call. *)
Lemma legal_fits s l s' id c r : legal s l s' -> In (id, c, r) l ->
  match c, r with
  | Write p, ResWrite n => n = List.length p
  | CopyBuffer, ResCopy _ => True
  | Reset, ResReset => True
  | _, _ => False
  end.
Proof.
  induction 1; cbn; intros K; [tauto|..];
    (destruct K as [K|K]; [inversion K; subst; auto|exact (IHlegal K)]).
Qed.

(** The rest of the system while a goroutine [t] moves without an event. *)
Lemma rinv_silent tr s s' t x' : rinv tr s ->
  thr s' = upd (thr s) t x' -> owned s' = owned s ->
  pending x' = pending (thr s t) ->
  (forall cid raw a n, x' <> Deliver cid raw a n) ->
  (forall cid raw, x' <> Decide cid raw) ->
  (forall t' cid raw a n, t' <> t -> thr s t' = Deliver cid raw a n ->
     heap s' a = heap s a) ->
  rinv tr s'.
Proof.
  intros R Et Eo Ep N1 N2 Hh. constructor; try (eapply R; fail).
  - intros t1 id c o r. rewrite Et. destruct (Nat.eq_dec t1 t) as [->|N].
    + rewrite upd_same, Ep. apply R.
    + rewrite upd_other by auto. apply R.
  - intros t1 cid raw a n. rewrite Et. destruct (Nat.eq_dec t1 t) as [->|N].
    + rewrite upd_same. intros E. exfalso. eapply N1; eauto.
    + rewrite upd_other by auto. intros E. rewrite (Hh t1 cid raw a n) by auto.
      eapply R; eauto.
  - intros t1 cid raw. rewrite Et. destruct (Nat.eq_dec t1 t) as [->|N].
    + rewrite upd_same. intros E. exfalso. eapply N2; eauto.
    + rewrite upd_other by auto. intros E. eapply R; eauto.
  - rewrite Eo. apply R.
Qed.

(** Calls are new. *)
Lemma fresh_call tr s l A : inv tr s l A ->
  (forall t c o, ~ In (Inv (ids s) t c o) tr) /\ (forall r, ~ In (Ret (ids s) r) tr).
Proof.
  intros I. assert (K : forall t c o, ~ In (Inv (ids s) t c o) tr).
  { intros t c o H. assert (In (ids s) (invoked tr)) by (apply in_invoked; eauto).
    apply (i_ids _ _ _ _ I) in H0. lia. }
  split; auto. intros r H. apply (i_ret _ _ _ _ I) in H as (c & H).
  apply (i_called _ _ _ _ I) in H as (t & o & H). eapply K; eauto.
Qed.

Lemma rinv_invoke tr s l A t c o s' ev : inv tr s l A -> rinv tr s ->
  pending (thr s t) = None ->
  (o = Client \/ (exists raw, o = ForRequest raw /\ c = CopyBuffer) \/
   exists cid raw, o = ForFlush cid /\ c = Reset /\ thr s t = Decide cid raw /\
                   flushes raw = true) ->
  invoke s t c o = (s', ev) -> rinv (tr ++ ev) s'.
Proof.
  intros I R Pn Ho E. destruct (fresh_call _ _ _ _ I) as [F1 F2].
  unfold invoke in E. inversion E; subst; clear E.
  constructor; cbn.
  - intros id t1 c1 o1 H. apply in_app_iff in H as [H|[H|[]]].
    + apply call_ok_more. apply R. exact H.
    + inversion H; subst. destruct Ho as [->|[(raw & -> & ->)|(cid & raw & -> & -> & Et & Ef)]];
        cbn; auto. split; auto.
      destruct (r_decide _ _ R _ _ _ Et) as (Hi & (bs & k & Hr & Hs) & _).
      exists raw, bs, k. split; auto. split; [apply in_app_iff; auto|].
      split; apply precedes_last; cbn; auto.
  - intros t1 id c1 o1 r. rewrite in_app_iff. destruct (Nat.eq_dec t1 t) as [->|N].
    + rewrite upd_same. cbn. intros H. inversion H; subst.
      intros [K|[K|[]]]; [eapply F2; eauto|discriminate].
    + rewrite upd_other by auto. intros H [K|[K|[]]]; [|discriminate].
      revert K. eapply R. exact H.
  - intros t1 cid raw a n. destruct (Nat.eq_dec t1 t) as [->|N].
    + rewrite upd_same. discriminate.
    + rewrite upd_other by auto. intros H.
      destruct (r_deliver _ _ R _ _ _ _ _ H) as (H1 & H2 & H3).
      split; [apply in_app_iff; auto|]. split; [apply in_app_iff; auto|].
      intros d K. apply in_app_iff in K as [K|[K|[]]]; [|discriminate]. eapply H3; eauto.
  - intros t1 cid raw. destruct (Nat.eq_dec t1 t) as [->|N].
    + rewrite upd_same. discriminate.
    + rewrite upd_other by auto. intros H.
      destruct (r_decide _ _ R _ _ _ H) as (H1 & (bs & k & H2 & H2') & H3).
      split; [apply in_app_iff; auto|].
      split; [exists bs, k; split; apply in_app_iff; auto|].
      intros rid t' c' K. apply in_app_iff in K as [K|[K|[]]]; [eapply H3; eauto|].
      inversion K; subst.
      destruct Ho as [Ho|[(raw' & Ho & _)|(cid' & raw' & Ho & -> & Et & Ef)]]; try discriminate.
      inversion Ho; subst. apply N.
      destruct (r_decide _ _ R _ _ _ Et) as (H4 & _).
      eapply (invoked_unique tr (i_once _ _ _ _ I)) in H4 as (Q & _); [|exact H1]. auto.
  - intros cid d H. apply in_app_iff in H as [H|[H|[]]]; [|discriminate].
    destruct (r_sent _ _ R _ _ H) as (t1 & raw & bs & k & H1 & H2 & H3).
    exists t1, raw, bs, k. split; [apply in_app_iff; auto|].
    split; [apply precedes_app_l; auto|auto].
  - intros cid H. apply in_app_iff in H as [H|[H|[]]]; [|discriminate].
    destruct (r_served _ _ R _ H) as (t1 & raw & H1 & (d & H2) & H3).
    exists t1, raw. split; [apply in_app_iff; auto|].
    split; [exists d; apply precedes_app_l; auto|].
    intros Hf. destruct (H3 Hf) as (rid & H4 & H5). exists rid.
    split; [apply in_app_iff; auto|apply precedes_app_l; auto].
  - intros cid d d' H H'. apply in_app_iff in H as [H|[H|[]]]; [|discriminate].
    apply in_app_iff in H' as [H'|[H'|[]]]; [|discriminate]. eapply R; eauto.
  - intros cid r1 t1 c1 r2 t2 c2 H H'.
    assert (NEW : forall r t' c', In (Inv r t' c' (ForFlush cid)) tr ->
              Inv (ids s) t c o = Inv (ids s) t c (ForFlush cid) -> False).
    { intros r t' c' K Q. inversion Q; subst.
      destruct Ho as [Ho|[(raw' & Ho & _)|(cid' & raw' & Ho & -> & Et & Ef)]]; try discriminate.
      inversion Ho; subst.
      destruct (r_decide _ _ R _ _ _ Et) as (_ & _ & H4). eapply H4; eauto. }
    apply in_app_iff in H as [H|[H|[]]]; apply in_app_iff in H' as [H'|[H'|[]]].
    + eapply R; eauto.
    + exfalso. eapply NEW; [exact H|]. inversion H'; subst. reflexivity.
    + exfalso. eapply NEW; [exact H'|]. inversion H; subst. reflexivity.
    + inversion H; inversion H'; subst. reflexivity.
  - intros id t1 bs H H'. apply in_app_iff in H' as [H'|[H'|[]]]; [|discriminate].
    apply in_app_iff in H as [H|[H|[]]]; [eapply R; eauto|].
    inversion H; subst. exfalso. eapply F2; eauto.
Qed.

Lemma in_snoc_other {A} (x y : A) l : In x (l ++ [y]) -> x <> y -> In x l.
Proof. intros H N. apply in_app_iff in H as [H|[H|[]]]; auto. congruence. Qed.

(** The return of a call (by client code or in a request). *)
Lemma rinv_ret tr s l A t id c o r x' own : inv tr s l A -> rinv tr s ->
  thr s t = Return id c o r ->
  pending x' = None ->
  (forall cid raw, x' <> Decide cid raw) ->
  (forall cid raw a n, x' = Deliver cid raw a n ->
     cid = id /\ o = ForRequest raw /\ r = RefCopy a n) ->
  (forall a n, o = Client -> r = RefCopy a n -> In (id, (a, n)) own) ->
  rinv (tr ++ [Ret id (observe s r)]) (set_pc (set_owned s (own ++ owned s)) t x').
Proof.
  intros I R Et Px Nx Dx Ow.
  assert (Pt : pending (thr s t) = Some (id, c, o)) by (rewrite Et; reflexivity).
  pose proof (i_pend _ _ _ _ I _ _ _ _ Pt) as Hinv.
  pose proof (i_at _ _ _ _ I t) as At. rewrite Et in At. cbn in At.
  pose proof (legal_fits _ _ _ _ _ _ (i_legal _ _ _ _ I) At) as Fit.
  constructor; cbn.
  - intros id1 t1 c1 o1 H. apply in_snoc_other in H; [|discriminate].
    apply call_ok_more. apply R. exact H.
  - intros t1 id1 c1 o1 r1. destruct (Nat.eq_dec t1 t) as [->|N].
    + rewrite upd_same, Px. discriminate.
    + rewrite upd_other by auto. intros H K. apply in_app_iff in K as [K|[K|[]]].
      * eapply R; eauto.
      * inversion K; subst. apply N. eapply pend_inj; eauto.
  - intros t1 cid raw a n. destruct (Nat.eq_dec t1 t) as [->|N].
    + rewrite upd_same. intros H. destruct (Dx _ _ _ _ H) as (-> & -> & ->).
      pose proof (r_call _ _ R _ _ _ _ Hinv) as Hc. cbn in Hc. subst c.
      split; [apply in_app_iff; auto|]. split; [apply in_app_iff; cbn; auto|].
      intros d K. apply in_snoc_other in K; [|discriminate].
      destruct (r_sent _ _ R _ _ K) as (t2 & raw2 & bs & k & _ & K2 & _).
      apply precedes_in in K2 as [K2 _]. eapply R; eauto.
    + rewrite upd_other by auto. intros H.
      destruct (r_deliver _ _ R _ _ _ _ _ H) as (H1 & H2 & H3).
      split; [apply in_app_iff; auto|]. split; [apply in_app_iff; auto|].
      intros d K. apply in_snoc_other in K; [|discriminate]. eapply H3; eauto.
  - intros t1 cid raw. destruct (Nat.eq_dec t1 t) as [->|N].
    + rewrite upd_same. intros H. exfalso. eapply Nx; eauto.
    + rewrite upd_other by auto. intros H.
      destruct (r_decide _ _ R _ _ _ H) as (H1 & (bs & k & H2 & H2') & H3).
      split; [apply in_app_iff; auto|].
      split; [exists bs, k; split; apply in_app_iff; auto|].
      intros rid t' c' K. apply in_snoc_other in K; [|discriminate]. eapply H3; eauto.
  - intros cid d H. apply in_snoc_other in H; [|discriminate].
    destruct (r_sent _ _ R _ _ H) as (t1 & raw & bs & k & H1 & H2 & H3).
    exists t1, raw, bs, k. split; [apply in_app_iff; auto|].
    split; [apply precedes_app_l; auto|auto].
  - intros cid H. apply in_snoc_other in H; [|discriminate].
    destruct (r_served _ _ R _ H) as (t1 & raw & H1 & (d & H2) & H3).
    exists t1, raw. split; [apply in_app_iff; auto|].
    split; [exists d; apply precedes_app_l; auto|].
    intros Hf. destruct (H3 Hf) as (rid & H4 & H5). exists rid.
    split; [apply in_app_iff; auto|apply precedes_app_l; auto].
  - intros cid d d' H H'. apply in_snoc_other in H; [|discriminate].
    apply in_snoc_other in H'; [|discriminate]. eapply R; eauto.
  - intros cid r1 t1 c1 r2 t2 c2 H H'. apply in_snoc_other in H; [|discriminate].
    apply in_snoc_other in H'; [|discriminate]. eapply R; eauto.
  - intros id1 t1 bs H H'. apply in_snoc_other in H; [|discriminate].
    apply in_app_iff in H' as [H'|[H'|[]]].
    + destruct (r_owned _ _ R _ _ _ H H') as (a & k & K). exists a, k.
      apply in_app_iff. auto.
    + inversion H'; subst. destruct r as [n|a n|]; try discriminate.
      exists a, n. apply in_app_iff. left. apply Ow; auto.
      eapply (invoked_unique tr (i_once _ _ _ _ I)) in H as (_ & _ & Q); [|exact Hinv].
      exact Q.
Qed.

(** The end of a request. *)
Lemma rinv_served tr s cid t raw d : rinv tr s ->
  In (Inv cid t CopyBuffer (ForRequest raw)) tr -> In (Sent cid d) tr ->
  (flushes raw = true -> exists rid, In (Inv rid t Reset (ForFlush cid)) tr /\
     In (Ret rid ResReset) tr) ->
  rinv (tr ++ [Served cid]) s.
Proof.
  intros R Hi Hs Hf. constructor.
  - intros id1 t1 c1 o1 H. apply in_snoc_other in H; [|discriminate].
    apply call_ok_more. apply R. exact H.
  - intros t1 id1 c1 o1 r1 H K. apply in_snoc_other in K; [|discriminate].
    eapply R; eauto.
  - intros t1 cid1 raw1 a n H.
    destruct (r_deliver _ _ R _ _ _ _ _ H) as (H1 & H2 & H3).
    split; [apply in_app_iff; auto|]. split; [apply in_app_iff; auto|].
    intros d1 K. apply in_snoc_other in K; [|discriminate]. eapply H3; eauto.
  - intros t1 cid1 raw1 H.
    destruct (r_decide _ _ R _ _ _ H) as (H1 & (bs & k & H2 & H2') & H3).
    split; [apply in_app_iff; auto|].
    split; [exists bs, k; split; apply in_app_iff; auto|].
    intros rid t' c' K. apply in_snoc_other in K; [|discriminate]. eapply H3; eauto.
  - intros cid1 d1 H. apply in_snoc_other in H; [|discriminate].
    destruct (r_sent _ _ R _ _ H) as (t1 & raw1 & bs & k & H1 & H2 & H3).
    exists t1, raw1, bs, k. split; [apply in_app_iff; auto|].
    split; [apply precedes_app_l; auto|auto].
  - intros cid1 H. apply in_app_iff in H as [H|[H|[]]].
    + destruct (r_served _ _ R _ H) as (t1 & raw1 & H1 & (d1 & H2) & H3).
      exists t1, raw1. split; [apply in_app_iff; auto|].
      split; [exists d1; apply precedes_app_l; auto|].
      intros Hf'. destruct (H3 Hf') as (rid & H4 & H5). exists rid.
      split; [apply in_app_iff; auto|apply precedes_app_l; auto].
    + inversion H; subst cid1. exists t, raw. split; [apply in_app_iff; auto|].
      split; [exists d; apply precedes_last; cbn; auto|].
      intros Hf'. destruct (Hf Hf') as (rid & H4 & H5). exists rid.
      split; [apply in_app_iff; auto|apply precedes_last; cbn; auto].
  - intros cid1 d1 d' H H'. apply in_snoc_other in H; [|discriminate].
    apply in_snoc_other in H'; [|discriminate]. eapply R; eauto.
  - intros cid1 r1 t1 c1 r2 t2 c2 H H'. apply in_snoc_other in H; [|discriminate].
    apply in_snoc_other in H'; [|discriminate]. eapply R; eauto.
  - intros id1 t1 bs H H'. apply in_snoc_other in H; [|discriminate].
    apply in_snoc_other in H'; [|discriminate]. eapply R; eauto.
Qed.

(** The response of a request. *)
Lemma rinv_sent tr s l A t cid raw a n k : inv tr s l A -> rinv tr s ->
  thr s t = Deliver cid raw a n ->
  rinv (tr ++ [Sent cid (firstn k (firstn n (heap s a)))]) (set_pc s t (Decide cid raw)).
Proof.
  intros I R Et. destruct (r_deliver _ _ R _ _ _ _ _ Et) as (D1 & D2 & D3).
  constructor; cbn.
  - intros id1 t1 c1 o1 H. apply in_snoc_other in H; [|discriminate].
    apply call_ok_more. apply R. exact H.
  - intros t1 id1 c1 o1 r1. destruct (Nat.eq_dec t1 t) as [->|N].
    + rewrite upd_same. discriminate.
    + rewrite upd_other by auto. intros H K. apply in_snoc_other in K; [|discriminate].
      eapply R; eauto.
  - intros t1 cid1 raw1 a1 n1. destruct (Nat.eq_dec t1 t) as [->|N].
    + rewrite upd_same. discriminate.
    + rewrite upd_other by auto. intros H.
      destruct (r_deliver _ _ R _ _ _ _ _ H) as (H1 & H2 & H3).
      split; [apply in_app_iff; auto|]. split; [apply in_app_iff; auto|].
      intros d1 K. apply in_app_iff in K as [K|[K|[]]]; [eapply H3; eauto|].
      inversion K; subst. apply N.
      eapply (invoked_unique tr (i_once _ _ _ _ I)) in D1 as (Q & _); [|exact H1]. auto.
  - intros t1 cid1 raw1. destruct (Nat.eq_dec t1 t) as [->|N].
    + rewrite upd_same. intros H. inversion H; subst.
      split; [apply in_app_iff; auto|]. split.
      * exists (firstn n (heap s a)), k. split; apply in_app_iff; cbn; auto.
      * intros rid t' c' K. apply in_snoc_other in K; [|discriminate].
        pose proof (r_call _ _ R _ _ _ _ K) as (_ & raw2 & bs & k2 & _ & _ & _ & P).
        apply precedes_in in P as [P _]. eapply D3; eauto.
    + rewrite upd_other by auto. intros H.
      destruct (r_decide _ _ R _ _ _ H) as (H1 & (bs & k1 & H2 & H2') & H3).
      split; [apply in_app_iff; auto|].
      split; [exists bs, k1; split; apply in_app_iff; auto|].
      intros rid t' c' K. apply in_snoc_other in K; [|discriminate]. eapply H3; eauto.
  - intros cid1 d1 H. apply in_app_iff in H as [H|[H|[]]].
    + destruct (r_sent _ _ R _ _ H) as (t1 & raw1 & bs & k1 & H1 & H2 & H3).
      exists t1, raw1, bs, k1. split; [apply in_app_iff; auto|].
      split; [apply precedes_app_l; auto|auto].
    + inversion H; subst. exists t, raw, (firstn n (heap s a)), k.
      split; [apply in_app_iff; auto|]. split; [apply precedes_last; cbn; auto|auto].
  - intros cid1 H. apply in_snoc_other in H; [|discriminate].
    destruct (r_served _ _ R _ H) as (t1 & raw1 & H1 & (d & H2) & H3).
    exists t1, raw1. split; [apply in_app_iff; auto|].
    split; [exists d; apply precedes_app_l; auto|].
    intros Hf. destruct (H3 Hf) as (rid & H4 & H5). exists rid.
    split; [apply in_app_iff; auto|apply precedes_app_l; auto].
  - intros cid1 d1 d' H H'.
    apply in_app_iff in H as [H|[H|[]]]; apply in_app_iff in H' as [H'|[H'|[]]].
    + eapply R; eauto.
    + inversion H'; subst. exfalso. eapply D3; eauto.
    + inversion H; subst. exfalso. eapply D3; eauto.
    + inversion H; inversion H'; subst. reflexivity.
  - intros cid1 r1 t1 c1 r2 t2 c2 H H'. apply in_snoc_other in H; [|discriminate].
    apply in_snoc_other in H'; [|discriminate]. eapply R; eauto.
  - intros id1 t1 bs H H'. apply in_snoc_other in H; [|discriminate].
    apply in_snoc_other in H'; [|discriminate]. eapply R; eauto.
Qed.

Lemma rinv_step tr s l A ch s' ev : inv tr s l A -> rinv tr s ->
  step s ch = Some (s', ev) -> rinv (tr ++ ev) s'.
Proof.
  intros I R S.
  destruct ch as [t c|t raw|t n|id i b]; cbn in S.
  - destruct (thr s t) eqn:E; try discriminate. inversion S; subst.
    eapply rinv_invoke with (c := c) (o := Client);
      [eauto|eauto|rewrite E; reflexivity|auto|reflexivity].
  - destruct (thr s t) eqn:E; try discriminate. inversion S; subst.
    eapply rinv_invoke with (c := CopyBuffer) (o := ForRequest raw);
      [eauto|eauto|rewrite E; reflexivity|eauto|reflexivity].
  - assert (D : forall x, private (thr s t) = Some x ->
              forall t' cid raw a k, t' <> t -> thr s t' = Deliver cid raw a k -> a <> x).
    { intros x Hx t' cid raw a k N Ht' ->. apply N. eapply (i_sep _ _ _ _ I); eauto.
      rewrite Ht'. reflexivity. }
    assert (D0 : forall t' cid raw a k, t' <> t -> thr s t' = Deliver cid raw a k ->
              a <> fresh s /\ a <> b_arr (buf s)).
    { intros t' cid raw a k N Ht'.
      assert (P : private (thr s t') = Some a) by (rewrite Ht'; reflexivity).
      apply (i_priv _ _ _ _ I) in P. split; [lia|tauto]. }
    destruct (thr s t) as [|id c o|id p o|id p o a i|id p o m i|id o
       |id o src k a i|id o|id c o r|id c o r|cid raw a k|cid raw] eqn:E;
      cbn -[Nat.ltb Nat.leb firstn Nat.add] in S; try discriminate.
    + destruct (lock s); [discriminate|].
      destruct c; inversion S; subst; rewrite app_nil_r;
        (eapply rinv_silent; [exact R|reflexivity|reflexivity| |discriminate|discriminate
                             |reflexivity]; rewrite E; reflexivity).
    + destruct (_ <=? _); inversion S; subst; rewrite app_nil_r;
        (eapply rinv_silent; [exact R|reflexivity|reflexivity| |discriminate|discriminate|];
         [rewrite E; reflexivity|]); intros; cbn; auto.
      apply upd_other. eapply D0; eauto.
    + destruct (_ <? _); inversion S; subst; rewrite app_nil_r;
        (eapply rinv_silent; [exact R|reflexivity|reflexivity| |discriminate|discriminate|];
         [rewrite E; reflexivity|]); intros; cbn; auto.
      apply upd_other. eapply D; eauto; reflexivity.
    + destruct (_ <? _); inversion S; subst; rewrite app_nil_r;
        (eapply rinv_silent; [exact R|reflexivity|reflexivity| |discriminate|discriminate|];
         [rewrite E; reflexivity|]); intros; cbn; auto.
      apply upd_other. eapply D0; eauto.
    + inversion S; subst; rewrite app_nil_r;
        (eapply rinv_silent; [exact R|reflexivity|reflexivity| |discriminate|discriminate|];
         [rewrite E; reflexivity|]); intros; cbn; auto.
      apply upd_other. eapply D0; eauto.
    + destruct (_ <? _); inversion S; subst; rewrite app_nil_r;
        (eapply rinv_silent; [exact R|reflexivity|reflexivity| |discriminate|discriminate|];
         [rewrite E; reflexivity|]); intros; cbn; auto.
      apply upd_other. eapply D; eauto; reflexivity.
    + inversion S; subst; rewrite app_nil_r;
        (eapply rinv_silent; [exact R|reflexivity|reflexivity| |discriminate|discriminate|];
         [rewrite E; reflexivity|]); intros; cbn; auto.
    + inversion S; subst; rewrite app_nil_r;
        (eapply rinv_silent; [exact R|reflexivity|reflexivity| |discriminate|discriminate|];
         [rewrite E; reflexivity|]); intros; cbn; auto.
    + pose proof (i_at _ _ _ _ I t) as At. rewrite E in At. cbn in At.
      pose proof (legal_fits _ _ _ _ _ _ (i_legal _ _ _ _ I) At) as Fit.
      destruct o as [|raw|cid]; [destruct r|destruct r; try discriminate|];
        inversion S; subst.
      * apply (rinv_ret tr s l A t id c Client (RefWrite n0) Idle []); auto; discriminate.
      * apply (rinv_ret tr s l A t id c Client (RefCopy a n0) Idle [(id, (a, n0))]); auto;
          try discriminate.
        intros a' n' _ Q. inversion Q; subst. cbn. auto.
      * apply (rinv_ret tr s l A t id c Client RefReset Idle []); auto; discriminate.
      * apply (rinv_ret tr s l A t id c (ForRequest raw) (RefCopy a n0)
                 (Deliver id raw a n0) []); auto; try discriminate.
        intros cid raw' a' n' Q. inversion Q; subst. auto.
      * assert (P : pending (thr s t) = Some (id, c, ForFlush cid)) by (rewrite E; reflexivity).
        apply (i_pend _ _ _ _ I) in P.
        pose proof (r_call _ _ R _ _ _ _ P) as (Hc & raw & bs & k & Hf & Hi & Hr & Hs).
        subst c. destruct r; try contradiction.
        match goal with |- rinv ?x _ =>
          replace x with ((tr ++ [Ret id (observe s RefReset)]) ++ [Served cid])
            by (rewrite <- app_assoc; reflexivity) end.
        assert (R1 : rinv (tr ++ [Ret id (observe s RefReset)]) (set_pc s t Idle)).
        { apply (rinv_ret tr s l A t id Reset (ForFlush cid) RefReset Idle []); auto;
            discriminate. }
        apply precedes_in in Hs as [Hs _].
        eapply rinv_served; [exact R1| | |].
        -- apply in_app_iff. left. exact Hi.
        -- apply in_app_iff. left. exact Hs.
        -- intros _. exists id. split; apply in_app_iff; cbn; auto.
    + inversion S; subst. eapply rinv_sent; eauto.
    + destruct (r_decide _ _ R _ _ _ E) as (H1 & (bs & k & H2 & H2') & H3).
      destruct (flushes raw) eqn:F; inversion S; subst.
      * eapply rinv_invoke with (c := Reset) (o := ForFlush cid);
          [eauto|eauto|rewrite E; reflexivity| |reflexivity].
        right. right. exists cid, raw. auto.
      * assert (R1 : rinv (tr ++ [Served cid]) s).
        { eapply rinv_served; eauto. congruence. }
        eapply rinv_silent; [exact R1|reflexivity|reflexivity| |discriminate|discriminate
                            |reflexivity]. rewrite E. reflexivity.
  - destruct (find _ _) as [[id' [a k]]|] eqn:F; inversion S; subst. rewrite app_nil_r.
    apply find_some in F as [F _].
    assert (O : In a (own_arrs s)) by (apply in_map_iff; exists (id', (a, k)); auto).
    constructor; try (eapply R; fail).
    intros t cid raw a' n H. cbn in H.
    assert (P : private (thr s t) = Some a') by (rewrite H; reflexivity).
    apply (i_priv _ _ _ _ I) in P. cbn. rewrite upd_other.
    + eapply R; eauto.
    + intros ->. tauto.
Qed.

Lemma rinv_exec cs : forall tr s l A s' evs, inv tr s l A -> rinv tr s ->
  exec s cs = Some (s', evs) -> rinv (tr ++ evs) s'.
Proof.
  induction cs as [|ch cs IH]; intros tr s l A s' evs I R E; cbn in E.
  - inversion E; subst. rewrite app_nil_r. exact R.
  - destruct (step s ch) as [[s1 ev]|] eqn:S; [|discriminate].
    destruct (exec s1 cs) as [[s2 evs2]|] eqn:X; [|discriminate].
    inversion E; subst.
    destruct (inv_step _ _ _ _ _ _ _ I S) as (l1 & A1 & I1).
    pose proof (rinv_step _ _ _ _ _ _ _ I R S) as R1.
    pose proof (IH _ _ _ _ _ _ I1 R1 X) as K.
    rewrite <- !app_assoc in K. exact K.
Qed.

Lemma rinv_reach cs s tr : exec start cs = Some (s, tr) -> rinv tr s.
Proof. intros E. exact (rinv_exec _ _ _ _ _ _ _ inv_start rinv_start E). Qed.
