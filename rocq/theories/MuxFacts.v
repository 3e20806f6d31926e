(** * MuxFacts: proofs about MuxModel. *)

From Coq Require Import NArith Bool String Ascii Arith List Lia.
From Verif Require Import GoBase QueryModel HttpSpec QueryFacts MuxModel MuxSpec.
Import ListNotations.
Local Open Scope list_scope.

Definition noslash (s : str) : Prop := ~ In slash s.

Lemma seg_cons : forall p, segments p <> [].
Proof. destruct p as [|c r]; simpl; [congruence|]. destruct (ascii_dec c "/"); [congruence|]. destruct (segments r); congruence. Qed.

Lemma seg_noslash : forall p, Forall noslash (segments p).
Proof.
  induction p as [|c r IH]; simpl.
  - constructor; [intros []|constructor].
  - destruct (ascii_dec c "/") as [E|E].
    + constructor; [intros []|assumption].
    + destruct (segments r) as [|s ss]; inversion IH; subst; constructor; auto.
      * intros [H|[]]. apply E. exact H.
      * intros [H|H]; [apply E; exact H|contradiction].
Qed.

Lemma seg_app : forall s p, noslash s -> segments (s ++ slash :: p) = s :: segments p.
Proof.
  induction s as [|c s IH]; intros p H; simpl app.
  - reflexivity.
  - cbn [segments]. destruct (ascii_dec c "/") as [E|E].
    + exfalso. apply H. left. exact E.
    + rewrite IH; [reflexivity|]. intro K. apply H. right. exact K.
Qed.

Lemma seg_one : forall s, noslash s -> segments s = [s].
Proof.
  induction s as [|c s IH]; intros H; [reflexivity|].
  cbn [segments]. destruct (ascii_dec c "/") as [E|E].
  - exfalso. apply H. left. exact E.
  - rewrite IH; [reflexivity|]. intro K. apply H. right. exact K.
Qed.

Lemma join_cons : forall s ss, ss <> [] -> join (s :: ss) = s ++ slash :: join ss.
Proof. intros s [|t ss] H; [congruence|reflexivity]. Qed.

Lemma join_segments : forall p, join (segments p) = p.
Proof.
  induction p as [|c r IH]; [reflexivity|].
  cbn [segments]. destruct (ascii_dec c "/") as [E|E].
  - rewrite join_cons by apply seg_cons. rewrite IH, E. reflexivity.
  - pose proof (seg_cons r) as Hn. destruct (segments r) as [|s ss]; [congruence|].
    destruct ss as [|t ss].
    + simpl in IH |- *. rewrite IH. reflexivity.
    + rewrite join_cons by congruence. rewrite join_cons in IH by congruence.
      rewrite <- app_comm_cons. rewrite IH. reflexivity.
Qed.

Lemma seg_join : forall ss, ss <> [] -> Forall noslash ss -> segments (join ss) = ss.
Proof.
  induction ss as [|s ss IH]; intros Hn H; [congruence|].
  inversion H; subst. destruct ss as [|t ss].
  - simpl. apply seg_one. assumption.
  - rewrite join_cons by congruence. rewrite seg_app by assumption. rewrite IH; [reflexivity|congruence|assumption].
Qed.

Lemma join_snoc : forall ss s, ss <> [] -> join (ss ++ [s]) = join ss ++ slash :: s.
Proof.
  induction ss as [|t ss IH]; intros s H; [congruence|].
  destruct ss as [|u ss]; [reflexivity|].
  change ((t :: u :: ss) ++ [s]) with (t :: ((u :: ss) ++ [s])).
  rewrite join_cons by (simpl; congruence). rewrite IH by congruence.
  rewrite (join_cons t (u :: ss)) by congruence. rewrite <- app_assoc. reflexivity.
Qed.

(** ** the loop *)

Fixpoint outp (st : list str) : str :=
  match st with
  | [] => []
  | [e] => rev e
  | e :: r => rev e ++ slash :: outp r
  end.

Definition stk (st : list str) : Prop := Forall (fun e => e <> [] /\ noslash e) st.

Lemma outp_nil : forall st, stk st -> outp st = [] -> st = [].
Proof.
  intros [|e [|f st]] H E; auto; inversion H; subst; simpl in E.
  - apply (f_equal (@rev _)) in E. rewrite rev_involutive in E. simpl in E. destruct H2; congruence.
  - destruct (rev e); discriminate.
Qed.

Lemma outp_push : forall st e, stk st ->
  rev e ++ match outp st with [] => [] | _ => slash :: outp st end = outp (e :: st).
Proof.
  intros st e H. destruct st as [|f st].
  - simpl. apply app_nil_r.
  - change (outp (e :: f :: st)) with (rev e ++ slash :: outp (f :: st)).
    destruct (outp (f :: st)) eqn:E; [|reflexivity].
    apply outp_nil in E; [discriminate|assumption].
Qed.

Lemma back_noslash : forall s r, noslash s -> backtrack (s ++ slash :: r) = r.
Proof.
  induction s as [|c s IH]; intros r H; simpl; [reflexivity|].
  destruct (Ascii.eqb_spec c slash) as [E|E].
  - exfalso. apply H. left. exact E.
  - apply IH. intro K. apply H. right. exact K.
Qed.

Lemma back_all : forall s, noslash s -> backtrack s = [].
Proof.
  induction s as [|c s IH]; intros H; simpl; [reflexivity|].
  destruct (Ascii.eqb_spec c slash) as [E|E].
  - exfalso. apply H. left. exact E.
  - apply IH. intro K. apply H. right. exact K.
Qed.

Lemma noslash_rev : forall s, noslash s -> noslash (rev s).
Proof. intros s H K. apply H. apply in_rev. exact K. Qed.

Lemma outp_back : forall st, stk st -> backtrack (outp st) = outp (tl st).
Proof.
  intros [|e [|f st]] H; [reflexivity| |]; inversion H; subst; destruct H2.
  - apply back_all. apply noslash_rev. assumption.
  - change (outp (e :: f :: st)) with (rev e ++ slash :: outp (f :: st)).
    apply back_noslash. apply noslash_rev. assumption.
Qed.

Lemma element_ok : forall p e rest, element p = (e, rest) ->
  p = e ++ rest /\ noslash e /\ at_end rest = true.
Proof.
  induction p as [|c r IH]; intros e rest H; simpl in H.
  - inversion H. repeat split. intros [].
  - destruct (Ascii.eqb_spec c slash) as [E|E].
    + inversion H; subst. repeat split. intros [].
    + destruct (element r) as [e' rest'] eqn:Er. inversion H; subst.
      destruct (IH _ _ eq_refl) as (A & B & C). subst r. repeat split; auto.
      intros [K|K]; [apply E; exact K|contradiction].
Qed.

Lemma fold_end : forall e rest st, noslash e -> at_end rest = true ->
  fold_left walk (segments (e ++ rest)) st = fold_left walk (segments rest) (walk st e).
Proof.
  intros e rest st He Hr. destruct rest as [|c r].
  - rewrite app_nil_r, seg_one by assumption. reflexivity.
  - simpl in Hr. apply Ascii.eqb_eq in Hr. subst c.
    rewrite seg_app by assumption. reflexivity.
Qed.

Lemma walk_stk : forall st e, noslash e -> stk st -> stk (walk st e).
Proof.
  intros st e He H. unfold walk.
  destruct (list_eq_dec _ e []); [assumption|].
  destruct (list_eq_dec _ e _); [assumption|].
  destruct (list_eq_dec _ e _); [destruct H; [constructor|assumption]|].
  constructor; [split; assumption|assumption].
Qed.

Lemma loop_ok : forall n p st, length p <= n -> stk st ->
  clean_loop n p (outp st) = outp (fold_left walk (segments p) st).
Proof.
  induction n as [|n IH]; intros p st Hn Hst.
  - destruct p; [reflexivity|simpl in Hn; lia].
  - destruct p as [|c r]; [reflexivity|].
    cbn [clean_loop].
    destruct (Ascii.eqb_spec c slash) as [E|E].
    { subst c. rewrite IH by (simpl in Hn; lia || assumption).
      change (segments (slash :: r)) with ([] :: segments r). reflexivity. }
    destruct (Ascii.eqb c dot && at_end r) eqn:D1.
    { apply andb_true_iff in D1. destruct D1 as [D1 D2]. apply Ascii.eqb_eq in D1. subst c.
      rewrite IH by (simpl in Hn; lia || assumption).
      change (dot :: r) with ([dot] ++ r). rewrite fold_end; [reflexivity| |assumption].
      intros [K|[]]. discriminate K. }
    assert (Hel : (c <> dot \/ at_end r = false)).
    { apply andb_false_iff in D1. destruct D1 as [D1|D1]; [left; apply Ascii.eqb_neq; assumption|right; assumption]. }
    assert (Hgen : (forall r', r = dot :: r' -> c = dot -> at_end r' = true -> False) ->
      (let (e, rest) := element (c :: r) in
       clean_loop n rest (rev e ++ match outp st with [] => [] | _ => slash :: outp st end)) =
      outp (fold_left walk (segments (c :: r)) st)).
    { intros Hdd. destruct (element (c :: r)) as [e rest] eqn:Ee.
      pose proof (element_ok _ _ _ Ee) as (A & B & C).
      assert (He : name e).
      { split; [|split]; intro K; subst e; simpl in A.
        - subst rest. simpl in C. apply Ascii.eqb_eq in C. contradiction.
        - inversion A; subst. destruct Hel as [Hel|Hel]; [apply Hel; reflexivity|congruence].
        - inversion A; subst. eapply Hdd; eauto. }
      rewrite outp_push by assumption.
      assert (Hw : walk st e = e :: st).
      { unfold walk. destruct He as (a & b & d).
        destruct (list_eq_dec _ e []); [contradiction|].
        destruct (list_eq_dec _ e _); [contradiction|].
        destruct (list_eq_dec _ e _); [contradiction|reflexivity]. }
      rewrite A, fold_end by assumption. rewrite Hw. apply IH.
      - apply (f_equal (@length _)) in A. rewrite app_length in A. destruct He as [He _].
        destruct e; [congruence|]. simpl in A, Hn. lia.
      - constructor; [split; [apply He|assumption]|assumption]. }
    destruct r as [|c' r'].
    { apply Hgen. intros r' K. discriminate K. }
    destruct (Ascii.eqb c dot && Ascii.eqb c' dot && at_end r') eqn:D2.
    { apply andb_true_iff in D2. destruct D2 as [D2 D3]. apply andb_true_iff in D2. destruct D2 as [Da Db].
      apply Ascii.eqb_eq in Da. apply Ascii.eqb_eq in Db. subst c c'.
      rewrite outp_back by assumption.
      change (dot :: dot :: r') with ([dot; dot] ++ r'). rewrite fold_end; [| |assumption].
      - apply IH; [simpl in Hn; lia|]. destruct Hst; [constructor|assumption].
      - intros [K|[K|[]]]; discriminate K. }
    { apply Hgen. intros r'' K1 K2 K3. inversion K1; subst. rewrite K3 in D2. discriminate D2. }
Qed.

Lemma outp_join : forall st, rev (outp st) = join (rev st).
Proof.
  induction st as [|e st IH]; [reflexivity|].
  destruct st as [|f st]; [simpl; apply rev_involutive|].
  change (outp (e :: f :: st)) with (rev e ++ slash :: outp (f :: st)).
  change (rev (e :: f :: st)) with (rev (f :: st) ++ [e]).
  rewrite join_snoc.
  - rewrite rev_app_distr, rev_involutive. rewrite <- IH.
    change (rev (slash :: outp (f :: st))) with (rev (outp (f :: st)) ++ [slash]).
    rewrite <- app_assoc. reflexivity.
  - simpl. destruct (rev st); discriminate.
Qed.

Lemma Clean_ok : forall q, Clean (slash :: q) = slash :: join (resolved q).
Proof.
  intro q. unfold Clean, resolved. cbn [tl]. f_equal.
  change (@nil ascii) with (outp []) at 1. rewrite loop_ok; [apply outp_join|simpl; lia|constructor].
Qed.

Lemma fold_walk_stk : forall ss st, Forall noslash ss -> stk st -> stk (fold_left walk ss st).
Proof.
  induction ss as [|s ss IH]; intros st H K; [assumption|].
  inversion H; subst. simpl. apply IH; [assumption|]. apply walk_stk; assumption.
Qed.

Lemma name_walk : forall st e, Forall name st -> Forall name (walk st e).
Proof.
  intros st e H. unfold walk.
  destruct (list_eq_dec _ e []); [assumption|].
  destruct (list_eq_dec _ e _); [assumption|].
  destruct (list_eq_dec _ e _); [destruct H; [constructor|assumption]|].
  constructor; [repeat split; assumption|assumption].
Qed.

Lemma fold_walk_name : forall ss st, Forall name st -> Forall name (fold_left walk ss st).
Proof. induction ss as [|s ss IH]; intros st H; [assumption|]. simpl. apply IH, name_walk, H. Qed.

Lemma resolved_name : forall p, Forall name (resolved p).
Proof. intro p. apply Forall_rev, fold_walk_name. constructor. Qed.

Lemma resolved_noslash : forall p, Forall noslash (resolved p).
Proof.
  intro p. apply Forall_rev.
  eapply Forall_impl; [|apply fold_walk_stk; [apply seg_noslash|constructor]].
  intros a [_ H]. exact H.
Qed.

Lemma fold_names : forall ss st, Forall name ss -> fold_left walk ss st = rev ss ++ st.
Proof.
  induction ss as [|s ss IH]; intros st H; [reflexivity|].
  inversion H; subst. simpl. rewrite IH by assumption. rewrite <- app_assoc. simpl. f_equal.
  unfold walk. destruct H2 as (a & b & c).
  destruct (list_eq_dec _ s []); [contradiction|].
  destruct (list_eq_dec _ s _); [contradiction|].
  destruct (list_eq_dec _ s _); [contradiction|reflexivity].
Qed.

Lemma resolved_slash : forall q, resolved (slash :: q) = resolved q.
Proof. reflexivity. Qed.

Lemma join_nonempty : forall ss, Forall name ss -> ss <> [] -> join ss <> [].
Proof.
  intros [|s [|t ss]] H Hn; [congruence| |]; inversion H; subst; destruct H2 as [A _]; simpl.
  - assumption.
  - destruct s; [congruence|discriminate].
Qed.

Lemma cleanPath_rooted : forall q, cleanPath (slash :: q) = clean_form (slash :: q).
Proof.
  intro q. unfold cleanPath. change (Ascii.eqb slash slash) with true. cbv iota zeta.
  rewrite Clean_ok. unfold clean_form, ends_with_slash. rewrite resolved_slash.
  destruct (list_eq_dec ascii_dec (slash :: join (resolved q)) [slash]) as [E|E].
  - simpl negb. rewrite andb_false_r.
    destruct (resolved q) eqn:R; [reflexivity|].
    exfalso. inversion E. eapply (join_nonempty (resolved q)); [apply resolved_name|congruence|].
    rewrite R. assumption.
  - simpl negb. rewrite andb_true_r.
    destruct (resolved q) eqn:R; [exfalso; apply E; reflexivity|].
    destruct (ascii_dec (last (slash :: q) " "%char) "/") as [L|L].
    + rewrite L. reflexivity.
    + apply Ascii.eqb_neq in L. unfold slash at 2. rewrite L. rewrite app_nil_r. reflexivity.
Qed.

Lemma last_cons_cons : forall (A : Type) (a b : A) l d, last (a :: b :: l) d = last (b :: l) d.
Proof. reflexivity. Qed.

Lemma form_ok : forall p, cleanPath p = clean_form p.
Proof.
  intros [|c r]; [reflexivity|].
  destruct (ascii_dec c slash) as [E|E].
  - subst c. apply cleanPath_rooted.
  - transitivity (cleanPath (slash :: c :: r)).
    + unfold cleanPath. pose proof E as E'. apply Ascii.eqb_neq in E'. rewrite E'. reflexivity.
    + rewrite cleanPath_rooted. unfold clean_form. rewrite resolved_slash, last_cons_cons. reflexivity.
Qed.

Lemma form_clean : forall p, is_clean (clean_form p).
Proof.
  intro p. unfold clean_form. eexists. split; [reflexivity|].
  pose proof (resolved_name p) as Hn. pose proof (resolved_noslash p) as Hs.
  destruct (resolved p) as [|s ss] eqn:R.
  - exists [], []. repeat split; [constructor|right; reflexivity].
  - destruct (ascii_dec (last p " "%char) "/").
    + exists (s :: ss), []. split; [|split; [assumption|right; reflexivity]].
      change (["/"%char]) with (slash :: []). rewrite <- join_snoc by congruence.
      apply seg_join; [destruct ss; discriminate|].
      apply Forall_app. split; [assumption|]. constructor; [intros []|constructor].
    + rewrite app_nil_r. destruct (@exists_last _ (s :: ss)) as (init & z & E); [congruence|].
      rewrite E in *. exists init, z. apply Forall_app in Hn. destruct Hn as [Ha Hb].
      split; [apply seg_join; [destruct init; discriminate|assumption]|].
      split; [assumption|]. left. inversion Hb; assumption.
Qed.

Lemma last_app_ne : forall (l m : str) d, m <> [] -> last (l ++ m) d = last m d.
Proof.
  induction l as [|a l IH]; intros m d H; [reflexivity|].
  simpl app. destruct (l ++ m) eqn:E.
  - destruct l; [simpl in E; congruence|discriminate].
  - rewrite last_cons_cons. rewrite <- E. apply IH. assumption.
Qed.

Lemma last_in : forall (l : str) d, l <> [] -> In (last l d) l.
Proof.
  induction l as [|a l IH]; intros d H; [congruence|].
  destruct l as [|b l]; [left; reflexivity|]. right. rewrite last_cons_cons. apply IH. congruence.
Qed.

Lemma clean_fixed : forall p, is_clean p -> clean_form p = p.
Proof.
  intros p (q & -> & init & z & Hq & Hi & Hz).
  unfold clean_form. change "/"%char with slash. rewrite resolved_slash.
  assert (Hns : Forall noslash (init ++ [z])) by (rewrite <- Hq; apply seg_noslash).
  apply Forall_app in Hns. destruct Hns as [_ Hzs]. inversion Hzs as [|? ? Hz' _]; subst. clear Hzs.
  pose proof (join_segments q) as Hj. rewrite Hq in Hj.
  destruct Hz as [Hz| ->].
  - assert (R : resolved q = init ++ [z]).
    { unfold resolved. rewrite Hq, fold_names, app_nil_r; [apply rev_involutive|].
      apply Forall_app. split; [assumption|constructor; [assumption|constructor]]. }
    rewrite R, Hj. assert (Hne : init ++ [z] <> []) by (destruct init; discriminate).
    assert (L : last (slash :: q) " "%char <> slash).
    { destruct Hz as [Hz _]. 
      assert (exists l, slash :: q = l ++ z) as [pre Hl].
      { destruct init as [|i init].
        - simpl in Hj. subst q. exists [slash]. reflexivity.
        - rewrite join_snoc in Hj by congruence. exists (slash :: join (i :: init) ++ [slash]).
          rewrite <- Hj. simpl. rewrite <- app_assoc. reflexivity. }
      rewrite Hl, last_app_ne by assumption. intro K. apply Hz'. rewrite <- K. apply last_in. assumption. }
    destruct (ascii_dec (last (slash :: q) " "%char) slash); [contradiction|].
    destruct (init ++ [z]); rewrite app_nil_r; reflexivity.
  - assert (R : resolved q = init).
    { unfold resolved. rewrite Hq, fold_left_app, (fold_names init), app_nil_r by assumption.
      simpl. apply rev_involutive. }
    rewrite R. destruct init as [|i init].
    + simpl in Hj. subst q. reflexivity.
    + rewrite join_snoc in Hj by congruence.
      assert (L : last (slash :: q) " "%char = slash).
      { rewrite <- Hj. change (slash :: join (i :: init) ++ [slash]) with ((slash :: join (i :: init)) ++ [slash]).
        rewrite last_app_ne by congruence. reflexivity. }
      destruct (ascii_dec (last (slash :: q) " "%char) slash); [|contradiction]. rewrite Hj. reflexivity.
Qed.

Lemma fixed_iff : forall p, cleanPath p = p <-> is_clean p.
Proof.
  intro p. rewrite form_ok. split; [|apply clean_fixed].
  intro H. rewrite <- H. apply form_clean.
Qed.

Lemma handled_ok : forall r q, ServeMux r = Handled q <-> q_star r = false /\ is_clean (q_path r) /\ q = q_query r.
Proof.
  intros r q. unfold ServeMux. destruct (q_star r).
  - split; [discriminate|intros (H & _); discriminate].
  - cbv zeta. destruct (list_eq_dec ascii_dec (cleanPath (q_path r)) (q_path r)) as [E|E].
    + apply fixed_iff in E. split; [intro H; inversion H; auto|intros (_ & _ & ->); reflexivity].
    + split; [discriminate|]. intros (_ & H & _). apply fixed_iff in H. contradiction.
Qed.

Lemma moved_ok : forall r p q, ServeMux r = Moved p q <->
  q_star r = false /\ ~ is_clean (q_path r) /\ p = clean_form (q_path r) /\ q = q_query r.
Proof.
  intros r p q. unfold ServeMux. destruct (q_star r).
  - split; [discriminate|intros (H & _); discriminate].
  - cbv zeta. rewrite <- fixed_iff, <- form_ok.
    destruct (list_eq_dec ascii_dec (cleanPath (q_path r)) (q_path r)) as [E|E].
    + split; [discriminate|]. intros (_ & H & _). contradiction.
    + split; [intro H; inversion H; auto|intros (_ & _ & -> & ->); reflexivity].
Qed.

(** ** following a redirect *)

Lemma hex_noslash : forall n, (n < 16)%N -> upper_hex n <> slash.
Proof.
  intros n H K. apply (f_equal N_of_ascii) in K. unfold upper_hex in K.
  rewrite N_ascii_embedding in K by (destruct (N.ltb_spec n 10); lia).
  change (N_of_ascii slash) with 47%N in K. destruct (N.ltb_spec n 10); lia.
Qed.

Lemma esc_cases : forall c, escape_char c = [c] \/
  (c <> slash /\ exists a b, escape_char c = ["%"%char; a; b] /\ a <> slash /\ b <> slash).
Proof.
  intro c. unfold escape_char. destruct (should_escape c) eqn:E; [right|left; reflexivity].
  split; [intros ->; discriminate E|].
  eexists _, _. split; [reflexivity|].
  assert (N_of_ascii c < 256)%N by (apply N_ascii_bounded).
  split; apply hex_noslash; [apply N.div_lt_upper_bound; lia|apply N.mod_lt; lia].
Qed.

Lemma esc_noslash : forall c, c <> slash -> noslash (escape_char c).
Proof.
  intros c H. destruct (esc_cases c) as [->|(_ & a & b & -> & A & B)].
  - intros [K|[]]. contradiction.
  - intros [K|[K|[K|[]]]]; [discriminate|congruence|congruence].
Qed.

Lemma seg_pre : forall e p s ss, noslash e -> segments p = s :: ss -> segments (e ++ p) = (e ++ s) :: ss.
Proof.
  induction e as [|c e IH]; intros p s ss H K; [assumption|].
  simpl app. cbn [segments]. destruct (ascii_dec c "/") as [E|E].
  - exfalso. apply H. left. exact E.
  - rewrite (IH p s ss); [reflexivity| |assumption]. intro J. apply H. right. exact J.
Qed.

Lemma seg_escape : forall p, segments (escape p) = map escape (segments p).
Proof.
  induction p as [|c r IH]; [reflexivity|].
  change (escape (c :: r)) with (escape_char c ++ escape r).
  cbn [segments]. destruct (ascii_dec c "/") as [E|E].
  - subst c. change (escape_char "/"%char ++ escape r) with (slash :: escape r).
    change (segments (slash :: escape r)) with ([] :: segments (escape r)). rewrite IH. reflexivity.
  - pose proof (seg_cons r) as Hn. destruct (segments r) as [|s ss]; [congruence|].
    simpl map in *. apply seg_pre; [apply esc_noslash; exact E|assumption].
Qed.

Lemma esc_len : forall c, escape_char c <> [].
Proof. intros c. destruct (esc_cases c) as [->|(_ & a & b & -> & _)]; discriminate. Qed.

Lemma esc_dot : forall c r l, escape_char c ++ r = dot :: l -> c = dot /\ r = l.
Proof.
  intros c r l H. destruct (esc_cases c) as [E|(_ & a & b & E & _)]; rewrite E in H; simpl in H.
  - inversion H. auto.
  - discriminate.
Qed.

Lemma escape_nil : forall s, escape s = [] -> s = [].
Proof.
  intros [|c s] H; [reflexivity|]. change (escape_char c ++ escape s = []) in H.
  apply app_eq_nil in H. destruct H as [H _]. exfalso. exact (esc_len c H).
Qed.

Lemma escape_name : forall s, name s -> name (escape s).
Proof.
  intros s (A & B & C). split; [|split]; intro K.
  - apply A, escape_nil, K.
  - destruct s as [|c s]; [discriminate|]. apply esc_dot in K. destruct K as [-> K].
    apply escape_nil in K. subst s. apply B. reflexivity.
  - destruct s as [|c s]; [discriminate|]. apply esc_dot in K. destruct K as [-> K].
    destruct s as [|d s]; [discriminate|]. apply esc_dot in K. destruct K as [-> K].
    apply escape_nil in K. subst s. apply C. reflexivity.
Qed.

Lemma escape_clean : forall p, is_clean p -> is_clean (escape p).
Proof.
  intros p (q & -> & init & z & Hq & Hi & Hz). exists (escape q). split; [reflexivity|].
  exists (map escape init), (escape z). rewrite seg_escape, Hq, map_app. split; [reflexivity|].
  split.
  - apply Forall_map. eapply Forall_impl; [|exact Hi]. apply escape_name.
  - destruct Hz as [Hz| ->]; [left; apply escape_name; assumption|right; reflexivity].
Qed.

Lemma ends_join : forall ss, Forall name ss -> Forall noslash ss -> ss <> [] ->
  ends_with_slash (slash :: join ss) = false.
Proof.
  intros ss Hn Hs H. destruct (exists_last H) as (init & z & ->).
  apply Forall_app in Hn. apply Forall_app in Hs. destruct Hn as [_ Hn]. destruct Hs as [_ Hs].
  inversion Hn as [|? ? Zn _]. inversion Hs as [|? ? Zs _]. subst. destruct Zn as [Zn _].
  assert (exists pre, slash :: join (init ++ [z]) = pre ++ z) as [pre Hl].
  { destruct init as [|i init].
    - exists [slash]. reflexivity.
    - exists (slash :: join (i :: init) ++ [slash]). rewrite join_snoc by congruence.
      rewrite <- app_comm_cons, <- app_assoc. reflexivity. }
  unfold ends_with_slash. rewrite Hl, last_app_ne by assumption.
  apply Ascii.eqb_neq. intro M. apply Zs. rewrite <- M. apply last_in. assumption.
Qed.

Lemma Redirect_clean : forall p, is_clean p -> Redirect p = p.
Proof.
  intros p H. pose proof H as (q & E & _). apply clean_fixed in H. subst p.
  unfold clean_form in H. change "/"%char with slash in *. rewrite resolved_slash in H.
  unfold Redirect. rewrite Clean_ok. cbv zeta.
  pose proof (resolved_name q) as Hn. pose proof (resolved_noslash q) as Hs.
  pose proof (ends_join _ Hn Hs) as He.
  destruct (resolved q) as [|s ss].
  - change (ends_with_slash (slash :: join [])) with true. rewrite andb_false_r. exact H.
  - rewrite He by congruence. rewrite andb_true_r. unfold ends_with_slash.
    destruct (ascii_dec (last (slash :: q) " "%char) slash) as [L|L].
    + rewrite L. exact H.
    + apply Ascii.eqb_neq in L. rewrite L. rewrite app_nil_r in H. exact H.
Qed.

Lemma sent_ascii : forall q, ascii_query q -> sent q = q.
Proof.
  intros q H. unfold sent. rewrite <- (string_of_list_ascii_of_string q) at 2. f_equal.
  unfold ascii_query in H. induction H as [|c r [A B] _ IH]; [reflexivity|].
  cbn [flat_map]. unfold hex_char at 1.
  destruct (N.ltb_spec (N_of_ascii c) 128) as [L|L].
  - cbn [app no_fragment]. apply Ascii.eqb_neq in A. rewrite A. f_equal. exact IH.
  - unfold nat_of_ascii in B. lia.
Qed.

Lemma follow_ok : forall r p q, ServeMux r = Moved p q -> ServeMux (follow p q) = Handled (sent (q_query r)).
Proof.
  intros r p q H. apply moved_ok in H. destruct H as (_ & _ & -> & ->).
  apply handled_ok. simpl. split; [reflexivity|]. split; [|reflexivity].
  pose proof (escape_clean _ (form_clean (q_path r))) as E.
  rewrite Redirect_clean; assumption.
Qed.

Lemma follow_ascii : forall r p q, ServeMux r = Moved p q -> ascii_query (q_query r) ->
  ServeMux (follow p q) = Handled (q_query r).
Proof. intros r p q H A. rewrite (follow_ok _ _ _ H). rewrite sent_ascii by assumption. reflexivity. Qed.

Lemma refused_ok : forall r, ServeMux r = BadRequest <-> q_star r = true.
Proof.
  intro r. unfold ServeMux. destruct (q_star r); [tauto|]. cbv zeta.
  destruct (list_eq_dec _ _ _); split; discriminate.
Qed.

Lemma same_query_refuted : exists r p q,
  ServeMux r = Moved p q /\ flushes (q_query r) = true /\
  exists q', ServeMux (follow p q) = Handled q' /\ flushes q' = false.
Proof.
  exists (mkrequest false [slash; slash] "a#b&flush=true"%string), [slash], "a#b&flush=true"%string.
  split; [reflexivity|]. split; [vm_compute; reflexivity|].
  exists "a"%string. split; vm_compute; reflexivity.
Qed.

(** ** queries of any characters but '#' *)

Definition hx (q : string) : string := string_of_list_ascii (flat_map hex_char (list_ascii_of_string q)).

Lemma hx_nil : hx "" = EmptyString.
Proof. reflexivity. Qed.

Lemma hx_low : forall c s, (N_of_ascii c < 128)%N -> hx (String c s) = String c (hx s).
Proof.
  intros c s H. unfold hx. cbn [list_ascii_of_string flat_map]. unfold hex_char at 1.
  apply N.ltb_lt in H. rewrite H. reflexivity.
Qed.

Lemma hx_high : forall c s, (128 <= N_of_ascii c)%N -> hx (String c s) =
  String "%" (String (lower_hex (N_of_ascii c / 16)) (String (lower_hex (N_of_ascii c mod 16)) (hx s))).
Proof.
  intros c s H. unfold hx. cbn [list_ascii_of_string flat_map]. unfold hex_char at 1.
  apply N.ltb_ge in H. rewrite H. reflexivity.
Qed.

Lemma hx_eq_nil : forall s, hx s = EmptyString -> s = EmptyString.
Proof.
  intros [|c s] H; [reflexivity|]. destruct (N.lt_ge_cases (N_of_ascii c) 128).
  - rewrite hx_low in H by assumption. discriminate.
  - rewrite hx_high in H by assumption. discriminate.
Qed.

Lemma lower_N : forall n, (n < 16)%N -> N_of_ascii (lower_hex n) = (if n <? 10 then 48 + n else 87 + n)%N.
Proof. intros n H. unfold lower_hex. apply N_ascii_embedding. destruct (N.ltb_spec n 10); lia. Qed.

Lemma unhex_lower : forall n, (n < 16)%N -> unhex (lower_hex n) = Some n.
Proof.
  intros n H. unfold unhex. rewrite lower_N by assumption.
  destruct (N.ltb_spec n 10).
  - replace ((48 <=? 48 + n) && (48 + n <=? 57))%N with true.
    + f_equal. lia.
    + symmetry. apply andb_true_iff. rewrite !N.leb_le. lia.
  - replace ((48 <=? 87 + n) && (87 + n <=? 57))%N with false.
    + replace ((97 <=? 87 + n) && (87 + n <=? 102))%N with true.
      * f_equal. lia.
      * symmetry. apply andb_true_iff. rewrite !N.leb_le. lia.
    + symmetry. apply andb_false_iff. right. apply N.leb_gt. lia.
Qed.

Lemma halves : forall c, (N_of_ascii c / 16 < 16 /\ N_of_ascii c mod 16 < 16)%N.
Proof.
  intro c. assert (N_of_ascii c < 256)%N by apply N_ascii_bounded.
  split; [apply N.div_lt_upper_bound; lia|apply N.mod_lt; lia].
Qed.

(** separators are neither '%' nor digits *)
Definition sepa (x : ascii) : Prop := x <> "%"%char /\ (forall n, (n < 16)%N -> lower_hex n <> x) /\ (N_of_ascii x < 128)%N.

Lemma sepa_small : forall x, x <> "%"%char -> (N_of_ascii x < 48 \/ 57 < N_of_ascii x < 97)%N -> sepa x.
Proof.
  intros x A B. split; [assumption|]. split; [|lia].
  intros n H K. apply (f_equal N_of_ascii) in K. rewrite lower_N in K by assumption.
  destruct (N.ltb_spec n 10); lia.
Qed.

Lemma cut_hx : forall x s b a f, sepa x -> cut x s = (b, a, f) -> cut x (hx s) = (hx b, hx a, f).
Proof.
  intros x s b a f (S1 & S2 & S3). revert b a f.
  induction s as [|c s IH]; intros b a f H; simpl in H.
  - inversion H; subst. reflexivity.
  - destruct (Ascii.eqb c x) eqn:E.
    + apply Ascii.eqb_eq in E. subst c. inversion H; subst. rewrite hx_low by assumption.
      simpl. rewrite Ascii.eqb_refl. reflexivity.
    + destruct (cut x s) as [[b' a'] f'] eqn:Ec. inversion H; subst.
      specialize (IH _ _ _ eq_refl).
      destruct (N.lt_ge_cases (N_of_ascii c) 128) as [L|L].
      * rewrite !hx_low by assumption. cbn [cut]. rewrite E, IH. reflexivity.
      * rewrite !hx_high by assumption. destruct (halves c) as [H1 H2]. cbn [cut].
        assert (Ep : Ascii.eqb "%" x = false) by (apply Ascii.eqb_neq; congruence).
        pose proof (S2 _ H1) as E1. pose proof (S2 _ H2) as E2.
        apply Ascii.eqb_neq in E1. apply Ascii.eqb_neq in E2.
        rewrite Ep, E1, E2, IH. reflexivity.
Qed.

Lemma contains_hx : forall x s, sepa x -> contains x (hx s) = contains x s.
Proof.
  intros x s (S1 & S2 & S3). induction s as [|c s IH]; [reflexivity|].
  destruct (N.lt_ge_cases (N_of_ascii c) 128) as [L|L].
  - rewrite hx_low by assumption. cbn [contains]. rewrite IH. reflexivity.
  - rewrite hx_high by assumption. destruct (halves c) as [H1 H2]. cbn [contains].
    assert (Ep : Ascii.eqb "%" x = false) by (apply Ascii.eqb_neq; congruence).
    assert (Ec : Ascii.eqb c x = false) by (apply Ascii.eqb_neq; intros ->; lia).
    pose proof (S2 _ H1) as E1. pose proof (S2 _ H2) as E2.
    apply Ascii.eqb_neq in E1. apply Ascii.eqb_neq in E2.
    rewrite Ep, Ec, E1, E2, IH. reflexivity.
Qed.

Lemma unhex_high : forall c, (128 <= N_of_ascii c)%N -> unhex c = None.
Proof.
  intros c H. unfold unhex.
  replace (N_of_ascii c <=? 57)%N with false by (symmetry; apply N.leb_gt; lia).
  replace (N_of_ascii c <=? 102)%N with false by (symmetry; apply N.leb_gt; lia).
  replace (N_of_ascii c <=? 70)%N with false by (symmetry; apply N.leb_gt; lia).
  rewrite !andb_false_r. reflexivity.
Qed.

Lemma unescape_hex : forall h l vh vl s, unhex h = Some vh -> unhex l = Some vl ->
  QueryUnescape (String "%" (String h (String l s))) =
  match QueryUnescape s with Some t => Some (String (ascii_of_N (vh * 16 + vl)) t) | None => None end.
Proof. intros h l vh vl s A B. cbn [QueryUnescape]. rewrite A, B. reflexivity. Qed.

Lemma unescape_hx : forall n s, String.length s <= n -> QueryUnescape (hx s) = QueryUnescape s.
Proof.
  induction n as [|n IH]; intros s Hn.
  - destruct s; [reflexivity|simpl in Hn; lia].
  - destruct s as [|c s]; [reflexivity|]. simpl in Hn.
    destruct (N.lt_ge_cases (N_of_ascii c) 128) as [L|L].
    + rewrite hx_low by assumption.
      destruct (Ascii.eqb_spec c "%"%char) as [->|E].
      * destruct s as [|h s]; [reflexivity|].
        destruct (N.lt_ge_cases (N_of_ascii h) 128) as [Lh|Lh].
        -- rewrite hx_low by assumption.
           destruct s as [|l s]; [reflexivity|].
           destruct (N.lt_ge_cases (N_of_ascii l) 128) as [Ll|Ll].
           ++ rewrite hx_low by assumption. cbn [QueryUnescape]. rewrite IH by (simpl in Hn; lia). reflexivity.
           ++ rewrite hx_high by assumption. cbn [QueryUnescape]. change (Ascii.eqb "%" "%") with true.
              cbv iota. rewrite (unhex_high l) by assumption. change (unhex "%") with (@None N).
              destruct (unhex h); reflexivity.
        -- rewrite hx_high by assumption. cbn [QueryUnescape]. change (Ascii.eqb "%" "%") with true. cbv iota.
           change (unhex "%") with (@None N). rewrite (unhex_high h) by assumption.
           destruct s; reflexivity.
      * apply Ascii.eqb_neq in E. cbn [QueryUnescape]. rewrite E, IH by lia. reflexivity.
    + rewrite hx_high by assumption. destruct (halves c) as [H1 H2].
      rewrite (unescape_hex _ _ _ _ _ (unhex_lower _ H1) (unhex_lower _ H2)). rewrite IH by lia.
      assert (E1 : Ascii.eqb c "%" = false) by (apply Ascii.eqb_neq; intros ->; change (N_of_ascii "%") with 37%N in L; lia).
      assert (E2 : Ascii.eqb c "+" = false) by (apply Ascii.eqb_neq; intros ->; change (N_of_ascii "+") with 43%N in L; lia).
      cbn [QueryUnescape]. rewrite E1, E2.
      replace (N_of_ascii c / 16 * 16 + N_of_ascii c mod 16)%N with (N_of_ascii c).
      * rewrite ascii_N_embedding. reflexivity.
      * rewrite N.mul_comm. apply N.div_mod. lia.
Qed.

Lemma cut_shorter : forall x s b a f, cut x s = (b, a, f) -> s <> EmptyString -> String.length a < String.length s.
Proof.
  intros x s. induction s as [|c s IH]; intros b a f H Hn; [congruence|].
  simpl in H. destruct (Ascii.eqb c x).
  - inversion H; subst. simpl. lia.
  - destruct (cut x s) as [[b' a'] f'] eqn:E. inversion H; subst.
    destruct s as [|d s]; [simpl in E; inversion E; simpl; lia|].
    specialize (IH _ _ _ eq_refl ltac:(congruence)). simpl in *. lia.
Qed.

Lemma eqb_hx : forall s, String.eqb (hx s) EmptyString = String.eqb s EmptyString.
Proof.
  intro s. destruct (String.eqb_spec s EmptyString) as [->|E]; [reflexivity|].
  apply String.eqb_neq. intro K. apply E, hx_eq_nil, K.
Qed.

Lemma parse_hx : forall n n' q m, String.length q <= n -> String.length q <= n' ->
  parseQuery n' (hx q) m = parseQuery n q m.
Proof.
  assert (Sa : sepa "&") by (apply sepa_small; [discriminate|left; reflexivity]).
  assert (Se : sepa "=") by (apply sepa_small; [discriminate|right; split; reflexivity]).
  assert (Ss : sepa ";") by (apply sepa_small; [discriminate|right; split; reflexivity]).
  induction n as [|n IH]; intros n' q m H H'.
  - destruct q; [|simpl in H; lia]. destruct n'; reflexivity.
  - destruct n' as [|n']; [destruct q; [reflexivity|simpl in H'; lia]|].
    cbn [parseQuery]. rewrite eqb_hx. destruct (String.eqb_spec q EmptyString) as [|Hq]; [reflexivity|].
    destruct (cut "&" q) as [[key q'] f] eqn:Ec.
    rewrite (cut_hx _ _ _ _ _ Sa Ec). pose proof (cut_shorter _ _ _ _ _ Ec Hq) as Hl.
    rewrite contains_hx by assumption. rewrite eqb_hx.
    assert (R : forall m, parseQuery n' (hx q') m = parseQuery n q' m) by (intro; apply IH; lia).
    destruct (contains ";" key); [apply R|]. destruct (String.eqb key EmptyString); [apply R|].
    destruct (cut "=" key) as [[k v] f'] eqn:Ek. rewrite (cut_hx _ _ _ _ _ Se Ek).
    rewrite (unescape_hx _ k (le_n _)), (unescape_hx _ v (le_n _)).
    destruct (QueryUnescape k); [|apply R]. destruct (QueryUnescape v); apply R.
Qed.

Lemma hx_length : forall s, String.length s <= String.length (hx s).
Proof.
  induction s as [|c s IH]; [simpl; lia|]. destruct (N.lt_ge_cases (N_of_ascii c) 128).
  - rewrite hx_low by assumption. simpl. lia.
  - rewrite hx_high by assumption. simpl. lia.
Qed.

Lemma no_fragment_free : forall l, ~ In "#"%char l -> no_fragment l = l.
Proof.
  induction l as [|c l IH]; intro H; [reflexivity|]. simpl.
  destruct (Ascii.eqb_spec c "#"%char) as [E|E]; [exfalso; apply H; left; exact E|].
  rewrite IH; [reflexivity|]. intro K. apply H. right. exact K.
Qed.

Lemma sent_hx : forall q, free "#" q -> sent q = hx q.
Proof.
  intros q H. unfold sent, hx. rewrite no_fragment_free; [reflexivity|].
  assert (S : sepa "#") by (apply sepa_small; [discriminate|left; reflexivity]).
  destruct S as (S1 & S2 & S3).
  induction q as [|c q IH]; [intros []|]. destruct H as [Hc Hq].
  cbn [list_ascii_of_string flat_map]. intro K. apply in_app_or in K. destruct K as [K|K]; [|exact (IH Hq K)].
  unfold hex_char in K. destruct (N_of_ascii c <? 128)%N.
  - destruct K as [K|[]]. contradiction.
  - destruct (halves c) as [H1 H2]. destruct K as [K|[K|[K|[]]]]; [discriminate|exact (S2 _ H1 K)|exact (S2 _ H2 K)].
Qed.

Lemma Query_sent : forall q, free "#" q -> Query (sent q) = Query q.
Proof.
  intros q H. rewrite sent_hx by assumption. unfold Query.
  apply parse_hx; [lia|apply hx_length].
Qed.

Lemma follow_flush : forall r p q, ServeMux r = Moved p q -> free "#" (q_query r) ->
  exists q', ServeMux (follow p q) = Handled q' /\ Query q' = Query (q_query r) /\
             (flushes q' = true <-> wants_flush (q_query r)).
Proof.
  intros r p q H F. exists (sent (q_query r)). split; [apply follow_ok; assumption|].
  split; [apply Query_sent; assumption|].
  rewrite <- flushes_spec. unfold flushes. rewrite Query_sent by assumption. reflexivity.
Qed.

Lemma escape_char_coded : forall c, escape_char c = coded c.
Proof. intros [[] [] [] [] [] [] [] []]; vm_compute; reflexivity. Qed.

Lemma escape_coded : forall p, escape p = flat_map coded p.
Proof. induction p as [|c p IH]; [reflexivity|]. cbn [escape flat_map]. rewrite escape_char_coded. f_equal. exact IH. Qed.

Lemma follow_location : forall r p q, ServeMux r = Moved p q ->
  q_path (follow p q) = flat_map coded (clean_form (q_path r)).
Proof.
  intros r p q H. apply moved_ok in H. destruct H as (_ & _ & -> & _).
  change (Redirect (escape (clean_form (q_path r))) = flat_map coded (clean_form (q_path r))).
  rewrite Redirect_clean by (apply escape_clean, form_clean). apply escape_coded.
Qed.
