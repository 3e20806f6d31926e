(** * RaceFacts: the accesses of every step, and that none of them race. *)

From Coq Require Import NArith Bool String Arith List Lia.
From Verif Require Import GoBase QueryModel HttpModel HttpSpec HttpLin HttpFacts HttpMain RaceSpec.
Import ListNotations.
Local Open Scope nat_scope.

Lemma list_ext (l m : list byte) : (forall i, nth_error l i = nth_error m i) -> l = m.
Proof.
  revert m. induction l as [|x l IH]; intros [|y m] H; auto.
  - discriminate (H 0).
  - discriminate (H 0).
  - pose proof (H 0) as H0. cbn in H0. injection H0 as ->. f_equal. apply IH.
    intros i. exact (H (S i)).
Qed.

(** Which memory a step may touch. *)
Definition may_access (s : state) (ch : choice) (l : loc) : Prop :=
  match ch, l with
  | Step t _, TheBuffer => critical (thr s t) = true
  | Step t _, Elem a _ =>
    private (thr s t) = Some a \/
    critical (thr s t) = true /\
      (a = b_arr (buf s) \/ fresh s <= a \/
       exists id o n a' i, thr s t = Copy id o a n a' i)
  | Poke _ _ _, Elem a _ => In a (own_arrs s)
  | _, _ => False
  end.

Lemma od_heap l s s0 a : only_differ l s s0 -> (forall i, l <> Elem a i) ->
  heap s a = heap s0 a.
Proof.
  intros D N. apply list_ext. intros i.
  assert (K : value s (Elem a i) = value s0 (Elem a i))
    by (apply (od_value _ _ _ D); intro E; apply (N i); auto).
  cbn in K. congruence.
Qed.

Lemma od_buf l s s0 : only_differ l s s0 -> l <> TheBuffer -> buf s = buf s0.
Proof.
  intros D N. assert (K := od_value _ _ _ D TheBuffer (not_eq_sym N)). cbn in K. congruence.
Qed.

Lemma od_sym l s s0 : only_differ l s s0 -> only_differ l s0 s.
Proof. intros []; constructor; auto. intros; symmetry; auto. Qed.

Lemma own_in s id id' a k : find (fun x => fst x =? id) (owned s) = Some (id', (a, k)) ->
  In a (own_arrs s).
Proof. intros F. apply find_some in F as [F _]. apply in_map_iff. exists (id', (a, k)). auto. Qed.

Lemma set_nth_nth l i b j : nth_error (set_nth l i b) j =
  if (j =? i) && (i <? List.length l) then Some b else nth_error l j.
Proof.
  revert i j. induction l as [|x l IH]; intros i j.
  - rewrite set_nth_nil, andb_comm. destruct j; reflexivity.
  - destruct i as [|i].
    + destruct j as [|j]; reflexivity.
    + destruct j as [|j]; [reflexivity|].
      change (nth_error (set_nth l i b) j =
        if (j =? i) && (i <? List.length l) then Some b else nth_error l j).
      apply IH.
Qed.

(** ** The same change on both sides *)

Lemma od_set_pc l s s0 t x : only_differ l s s0 ->
  only_differ l (set_pc s t x) (set_pc s0 t x).
Proof.
  intros [? T ? ? ? ? V]; constructor; cbn; auto.
  intros t'. unfold upd. destruct (t' =? t); auto.
Qed.

Lemma od_set_lock l s s0 x : only_differ l s s0 ->
  only_differ l (set_lock s x) (set_lock s0 x).
Proof. intros [? T ? ? ? ? V]; constructor; cbn; auto. Qed.

Lemma od_next_id l s s0 : only_differ l s s0 -> only_differ l (next_id s) (next_id s0).
Proof. intros [? T ? ? ? ? V]; constructor; cbn; auto. Qed.

Lemma od_set_owned l s s0 x : only_differ l s s0 ->
  only_differ l (set_owned s x) (set_owned s0 x).
Proof. intros [? T ? ? ? ? V]; constructor; cbn; auto. Qed.

Lemma od_set_buf l s s0 x : only_differ l s s0 ->
  only_differ l (set_buf s x) (set_buf s0 x).
Proof.
  intros [? T ? ? ? ? V]; constructor; cbn; auto.
  intros [|a i] N; [reflexivity|]. exact (V _ N).
Qed.

Lemma od_store l s s0 a i b : only_differ l s s0 ->
  only_differ l (store s a i b) (store s0 a i b).
Proof.
  intros [? T ? ? ? Z V]; constructor; cbn; auto.
  - intros a'. unfold upd. destruct (a' =? a); auto. rewrite !set_nth_length. apply Z.
  - intros [|a' j] N; [exact (V _ N)|]. assert (K := V _ N). cbn in K |- *. unfold upd.
    destruct (Nat.eqb_spec a' a) as [->|]; auto.
    rewrite !set_nth_nth, Z. destruct ((j =? i) && _); auto.
Qed.

Lemma od_alloc l s s0 n : only_differ l s s0 -> only_differ l (alloc s n) (alloc s0 n).
Proof.
  intros [? T ? ? F Z V]; constructor; cbn; auto.
  - intros a'. rewrite F. unfold upd. destruct (a' =? fresh s0); auto.
  - intros [|a' j] N; [exact (V _ N)|]. assert (K := V _ N). cbn in K |- *.
    rewrite F. unfold upd. destruct (a' =? fresh s0); auto.
Qed.

Lemma od_invoke l s s0 t c o : only_differ l s s0 ->
  same_effect l (Some (invoke s t c o)) (Some (invoke s0 t c o)).
Proof.
  intros D. unfold invoke. rewrite (od_ids _ _ _ D). split; [|reflexivity].
  apply od_next_id, od_set_pc, D.
Qed.

(** ** What is written *)

Lemma writes_access s ch l : writes s ch l -> may_access s ch l.
Proof.
  intros (s0 & s0' & ev & D & S & C).
  destruct ch as [t c|t raw|t n|id i b]; cbn in S.
  - exfalso. step_cases S. apply C. reflexivity.
  - exfalso. step_cases S. apply C. reflexivity.
  - assert (T := od_thr _ _ _ D t). destruct (thr s0 t) eqn:E; unfold step_thread in S; cbn in S.
    all: destruct l as [|a' i'];
      [try (cbn; rewrite T; reflexivity);
       exfalso; step_cases S; apply C; reflexivity|].
    all: assert (B : buf s = buf s0) by (apply (od_buf _ _ _ D); discriminate).
    all: assert (F := od_fresh _ _ _ D).
    all: cbn; rewrite T, B, F; cbn.
    all: step_cases S.
    all: try (exfalso; apply C; reflexivity).
    all: match type of C with
         | context [upd _ ?k _] => destruct (Nat.eq_dec a' k) as [->|N]
         | context [store _ ?k _ _] => destruct (Nat.eq_dec a' k) as [->|N]
         | context [alloc ?s _] => destruct (Nat.eq_dec a' (fresh s)) as [->|N]
         end.
    all: try (exfalso; apply C; cbn; rewrite upd_other by exact N; reflexivity).
    all: auto 6.
  - destruct (find _ _) as [[id' [a' k]]|] eqn:F; inversion S; subst; clear S.
    assert (O : In a' (own_arrs s)).
    { unfold own_arrs. rewrite (od_owned _ _ _ D). apply (own_in _ _ _ _ _ F). }
    destruct l as [|a j].
    + exfalso. apply C. reflexivity.
    + cbn. destruct (Nat.eq_dec a a') as [->|N]; [exact O|].
      exfalso. apply C. cbn. rewrite upd_other by exact N. reflexivity.
Qed.

(** ** What is read *)

Lemma access_or_same s s0 ch l : only_differ l s s0 ->
  may_access s ch l \/ same_effect l (step s ch) (step s0 ch).
Proof.
  intros D. destruct ch as [t c|t raw|t n|id i b].
  - right. cbn -[same_effect invoke]. rewrite <- (od_thr _ _ _ D t).
    destruct (thr s t); try exact I. apply od_invoke, D.
  - right. cbn -[same_effect invoke]. rewrite <- (od_thr _ _ _ D t).
    destruct (thr s t); try exact I. apply od_invoke, D.
  - cbn [step]. rewrite <- (od_thr _ _ _ D t). destruct l as [|a0 i0].
    + unfold may_access.
      assert (H : forall a, heap s a = heap s0 a)
        by (intro a; apply (od_heap _ _ _ _ D); discriminate).
      destruct (thr s t) as [|id c o| | | | | | | |id c o r|cid raw a k|cid raw] eqn:T; auto; right;
        unfold step_thread; cbn -[same_effect invoke Nat.ltb].
      * exact I.
      * rewrite (od_lock _ _ _ D). destruct (lock s0); [exact I|].
        destruct c; (split; [apply od_set_pc, od_set_lock, D|reflexivity]).
      * assert (V : observe s r = observe s0 r) by (destruct r; cbn; rewrite ?H; reflexivity).
        rewrite V, (od_owned _ _ _ D).
        destruct o, r; try exact I;
          (split; [|reflexivity]); try apply od_set_pc; try apply od_set_owned; exact D.
      * rewrite H. split; [apply od_set_pc, D|reflexivity].
      * destruct (flushes raw); [apply od_invoke, D|]. split; [apply od_set_pc, D|reflexivity].
    + assert (B : buf s = buf s0) by (apply (od_buf _ _ _ D); discriminate).
      assert (H : forall a, a <> a0 -> heap s a = heap s0 a).
      { intros a N. apply (od_heap _ _ _ _ D). intros j E. injection E as ->. auto. }
      unfold may_access.
      destruct (thr s t) as [|id c o|id p o|id p o a i|id p o m i|id o|id o src k a i|id o
                            |id c o r|id c o r|cid raw a k|cid raw] eqn:T;
        unfold step_thread; cbn -[same_effect invoke Nat.ltb Nat.leb].
      * right. exact I.
      * right. rewrite (od_lock _ _ _ D). destruct (lock s0); [exact I|].
        destruct c; (split; [apply od_set_pc, od_set_lock, D|reflexivity]).
      * right. rewrite B, (od_fresh _ _ _ D). destruct (_ <=? _);
          (split; [|reflexivity]); apply od_set_pc; [apply od_set_buf|apply od_alloc]; exact D.
      * destruct (Nat.eq_dec a0 (b_arr (buf s))) as [->|N]; [left; right; auto|].
        right. unfold load. rewrite B in N |- *. rewrite (H (b_arr (buf s0))) by auto.
        rewrite (od_size _ _ _ D a).
        destruct (_ <? _); (split; [|reflexivity]); apply od_set_pc;
          [apply od_store|apply od_set_buf]; exact D.
      * right. rewrite B. destruct (_ <? _); (split; [|reflexivity]); apply od_set_pc;
          [apply od_store|]; exact D.
      * right. rewrite B, (od_fresh _ _ _ D). split; [|reflexivity].
        apply od_set_pc, od_alloc, D.
      * destruct (Nat.eq_dec a0 src) as [->|N].
        { left. right. split; [reflexivity|]. right. right. eauto 8. }
        right. unfold load. rewrite (H src) by auto.
        destruct (_ <? _); (split; [|reflexivity]); apply od_set_pc; [apply od_store|]; exact D.
      * right. split; [|reflexivity]. apply od_set_pc, od_set_buf, D.
      * right. split; [|reflexivity]. apply od_set_pc, od_set_lock, D.
      * destruct r as [k|a k|].
        2: { destruct (Nat.eq_dec a0 a) as [->|N]; [left; left; reflexivity|]. right.
             cbn. rewrite (H a) by auto. rewrite (od_owned _ _ _ D).
             destruct o; (split; [|reflexivity]); try apply od_set_pc; try apply od_set_owned;
               exact D. }
        all: right; cbn; destruct o; try exact I; (split; [|reflexivity]); apply od_set_pc, D.
      * destruct (Nat.eq_dec a0 a) as [->|N]; [left; left; reflexivity|]. right.
        rewrite (H a) by auto. split; [apply od_set_pc, D|reflexivity].
      * right. destruct (flushes raw); [apply od_invoke, D|].
        split; [apply od_set_pc, D|reflexivity].
  - right. cbn -[same_effect]. rewrite (od_owned _ _ _ D). destruct (find _ _) as [[id' [a k]]|];
      [|exact I]. split; [apply od_store, D|reflexivity].
Qed.

Lemma reads_access s ch l : reads s ch l -> may_access s ch l.
Proof.
  intros (s0 & D & R). destruct (access_or_same s s0 ch l D); [assumption|contradiction].
Qed.

(** ** No races *)

Lemma access_once tr s l A ch1 ch2 x : inv tr s l A -> actor ch1 <> actor ch2 ->
  may_access s ch1 x -> may_access s ch2 x -> False.
Proof.
  intros I N P Q.
  assert (Sr : forall t id o a n a' i, thr s t = Copy id o a n a' i -> a = b_arr (buf s)).
  { intros t id o a n a' i T. assert (K := i_at _ _ _ _ I t). rewrite T in K. apply K. }
  destruct ch1 as [t1 ?|t1 ?|t1 n1|id1 i1 b1], ch2 as [t2 ?|t2 ?|t2 n2|id2 i2 b2];
    try contradiction P; try contradiction Q; cbn in N; [| | |congruence].
  - assert (N' : t2 <> t1) by congruence.
    assert (O : critical (thr s t1) = true -> critical (thr s t2) = true -> False).
    { intros C C'. rewrite (others _ _ _ _ _ _ I C N') in C'. discriminate. }
    destruct x as [|a i]; cbn in P, Q; [auto|].
    destruct P as [P|[C P]], Q as [Q|[C' Q]]; auto.
    + apply N'. symmetry. apply (i_sep _ _ _ _ I t1 t2 a P Q).
    + destruct (i_priv _ _ _ _ I _ _ P) as (L & K & _).
      destruct Q as [Q|[Q|(? & ? & ? & ? & ? & Q)]]; [auto|lia|]. apply K, (Sr _ _ _ _ _ _ _ Q).
    + destruct (i_priv _ _ _ _ I _ _ Q) as (L & K & _).
      destruct P as [P|[P|(? & ? & ? & ? & ? & P)]]; [auto|lia|]. apply K, (Sr _ _ _ _ _ _ _ P).
  - destruct x as [|a i]; [contradiction|]. cbn in P, Q.
    destruct (i_owned _ _ _ _ I _ Q) as (L & K). destruct P as [P|[C P]].
    + apply (i_priv _ _ _ _ I) in P. tauto.
    + destruct P as [P|[P|(? & ? & ? & ? & ? & P)]]; [auto|lia|]. apply K, (Sr _ _ _ _ _ _ _ P).
  - destruct x as [|a i]; [contradiction|]. cbn in P, Q.
    destruct (i_owned _ _ _ _ I _ P) as (L & K). destruct Q as [Q|[C Q]].
    + apply (i_priv _ _ _ _ I) in Q. tauto.
    + destruct Q as [Q|[Q|(? & ? & ? & ? & ? & Q)]]; [auto|lia|]. apply K, (Sr _ _ _ _ _ _ _ Q).
Qed.

Lemma no_race cs s tr ch1 ch2 l : exec start cs = Some (s, tr) ->
  actor ch1 <> actor ch2 -> ~ race s ch1 ch2 l.
Proof.
  intros E N [W A]. destruct (inv_reach _ _ _ E) as (k & B & I).
  apply writes_access in W.
  assert (Q : may_access s ch2 l) by (destruct A; [apply writes_access|apply reads_access]; assumption).
  exact (access_once _ _ _ _ _ _ _ I N W Q).
Qed.

(** Who touches the server's buffer holds the mutex. *)
Lemma buffer_needs_mutex cs s tr ch : exec start cs = Some (s, tr) ->
  writes s ch TheBuffer \/ reads s ch TheBuffer ->
  exists t, actor ch = Some t /\ lock s = Some t.
Proof.
  intros E A. destruct (inv_reach _ _ _ E) as (k & B & I).
  assert (Q : may_access s ch TheBuffer) by (destruct A; [apply writes_access|apply reads_access]; assumption).
  destruct ch; try contradiction. eexists; split; [reflexivity|].
  apply (i_lock _ _ _ _ I). exact Q.
Qed.

(** So does who touches a byte of the array behind it. *)
Lemma bytes_need_mutex cs s tr ch i : exec start cs = Some (s, tr) ->
  writes s ch (Elem (b_arr (buf s)) i) \/ reads s ch (Elem (b_arr (buf s)) i) ->
  exists t, actor ch = Some t /\ lock s = Some t.
Proof.
  intros E A. destruct (inv_reach _ _ _ E) as (k & B & I).
  assert (Q : may_access s ch (Elem (b_arr (buf s)) i))
    by (destruct A; [apply writes_access|apply reads_access]; assumption).
  destruct ch as [t c|t raw|t n|id j b]; try contradiction; cbn in Q.
  - destruct Q as [Q|[Q _]].
    + exfalso. apply (i_priv _ _ _ _ I) in Q. tauto.
    + exists t. split; [reflexivity|]. apply (i_lock _ _ _ _ I). exact Q.
  - exfalso. apply (i_owned _ _ _ _ I) in Q. tauto.
Qed.

(** ** For examples *)

Lemma od_refl l s : only_differ l s s.
Proof. constructor; auto. Qed.

Lemma od_change s a i b : only_differ (Elem a i) s (store s a i b).
Proof.
  constructor; cbn; auto.
  - intros a'. unfold upd. destruct (Nat.eqb_spec a' a) as [->|]; auto. rewrite set_nth_length. auto.
  - intros [|a' j] N; [reflexivity|]. cbn. unfold upd. destruct (Nat.eqb_spec a' a) as [->|]; auto.
    rewrite set_nth_nth. destruct (Nat.eqb_spec j i) as [->|]; [contradiction N; auto|reflexivity].
Qed.

Lemma reads_by s ch l s0 l' s1 s2 ev1 ev2 : only_differ l s s0 ->
  step s ch = Some (s1, ev1) -> step s0 ch = Some (s2, ev2) ->
  l' <> l -> value s1 l' <> value s2 l' -> reads s ch l.
Proof.
  intros D E1 E2 N V. exists s0. split; [assumption|]. rewrite E1, E2. intros [K _].
  apply V. apply (od_value _ _ _ K _ N).
Qed.

Definition run_to (cs : list choice) : state :=
  match exec start cs with Some (s, _) => s | None => start end.

(** Goroutine 1 stores "a" into the buffer, goroutine 2 waits for the mutex. *)
Definition at_append : list choice :=
  [Call 1 (Write [x61]); Call 2 CopyBuffer] ++ go 1 3.

(** Goroutine 2 copies it. *)
Definition at_copy : list choice := at_append ++ go 1 4 ++ go 2 2.

(** What would happen without the mutex: goroutine 2 is already copying. *)
Definition no_mutex : state :=
  let s := run_to at_append in
  set_pc (alloc s 1) 2 (Copy 1 Client (b_arr (buf s)) 1 (fresh s) 0).
