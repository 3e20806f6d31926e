(** * SocketDesc: descriptors of concurrent Dial and Listen calls. *)

From Coq Require Import NArith Bool String Ascii Arith List Lia.
From Verif Require Import GoBase SocketModel SocketSpec SocketFacts.
Import ListNotations.

(** [held] is the socket the program has to close, [conn] the connection it has
    made: a program in order closes its socket before it returns, uses only
    its socket and hands over its connection. *)
Inductive in_order : option nat -> option nat -> prog -> Prop :=
| io_return : forall log c err, (c = None <-> err <> None) ->
    in_order None c (Return log (Done (c, err)))
| io_panic : forall log, in_order None None (Return log Panicked)
| io_exit : forall log, in_order None None (Return log Exited)
| io_socket : forall d t p k,
    (forall e, in_order None None (k (Err e))) ->
    (forall fd, in_order (Some fd) None (k (Ok fd))) ->
    in_order None None (Sys (Socket d t p) k)
| io_use : forall fd c conn k,
    ((exists sa, c = Connect fd sa) \/ (exists sa, c = Bind fd sa) \/
     (exists n, c = ListenFd fd n) \/ c = NewFile fd) ->
    (forall r, in_order (Some fd) conn (k r)) ->
    in_order (Some fd) conn (Sys c k)
| io_file : forall fd k,
    (forall e, in_order (Some fd) None (k (Err e))) ->
    (forall n, in_order (Some fd) (Some n) (k (Ok n))) ->
    in_order (Some fd) None (Sys (FileConn fd) k)
| io_close : forall fd conn k,
    (forall r, in_order None conn (k r)) ->
    in_order (Some fd) conn (Sys (Close fd) k).

Lemma close_in_order : forall fd c err, (c = None <-> err <> None) ->
  in_order (Some fd) c (close_and_return fd (c, err)).
Proof. intros. apply io_close. intros _. now apply io_return. Qed.

Lemma finish_in_order : forall fd, in_order (Some fd) None (finish fd).
Proof.
  intros fd. unfold finish. apply io_use; [auto|]. intros _. apply io_file.
  - intros e. apply close_in_order. split; congruence.
  - intros n. apply close_in_order. split; congruence.
Qed.

Lemma calls_in_order : forall p e address, (p = Dial \/ p = Listen) ->
  in_order None None (p e address).
Proof.
  intros p e address P.
  destruct (with_sockaddr_cases e address) as [[sa [T E]]|C].
  - destruct P as [-> | ->]; unfold Dial, Listen; rewrite E, with_socket_family; apply io_socket.
    + intros err. apply io_return. split; congruence.
    + intros fd. apply io_use; [eauto|]. intros [v|err].
      * apply finish_in_order.
      * apply close_in_order. split; congruence.
    + intros err. apply io_return. split; congruence.
    + intros fd. apply io_use; [eauto|]. intros [v|err].
      * apply io_use; [eauto|]. intros [w|err].
        { apply finish_in_order. }
        { apply close_in_order. split; congruence. }
      * apply close_in_order. split; congruence.
  - destruct P as [-> | ->]; unfold Dial, Listen;
      (destruct C as [[_ E]|[[_ E]|[_ [err E]]]]; rewrite E;
       [apply io_return; split; congruence|apply io_panic|apply io_exit]).
Qed.

(** ** The invariant *)

Record dinv (s : ostate) (evs : list oevent) : Prop := {
  d_run : forall t id p, running s t = Some (id, p) ->
    id < calls s /\ ~ In id (returned s) /\
    exists held conn, in_order held conn p /\
      (forall fd, tab s fd = Some (OSock id) <-> held = Some fd) /\
      (forall fd, tab s fd = Some (OConn id) <-> conn = Some fd) /\
      (conn <> None -> exists f, In (f, id) (garbage s));
  d_one : forall t t' id p p', running s t = Some (id, p) -> running s t' = Some (id, p') -> t = t';
  d_sock : forall fd id, tab s fd = Some (OSock id) ->
    id < calls s /\ exists t p, running s t = Some (id, p);
  d_conn : forall fd id, tab s fd = Some (OConn id) ->
    id < calls s /\
    ((exists t p, running s t = Some (id, p)) \/
     In (EReturned id (Done (Some fd, None))) evs);
  d_ret : forall id, In id (returned s) -> id < calls s;
  d_evret : forall id r, In (EReturned id r) evs -> In id (returned s);
  d_close : forall fd o id, In (EClosed fd o (ByCall id)) evs -> o = Some (OSock id);
  d_keep : forall fd id, In (EReturned id (Done (Some fd, None))) evs ->
    tab s fd = Some (OConn id) \/ In (EClosed fd (Some (OConn id)) ByUser) evs;
  d_garbage : forall fd id, In (EReturned id (Done (Some fd, None))) evs ->
    exists f, In (f, id) (garbage s) }.

Lemma oupd_same : forall A (f : nat -> A) k v, oupd f k v k = v.
Proof. intros. unfold oupd. now rewrite Nat.eqb_refl. Qed.

Lemma oupd_other : forall A (f : nat -> A) k v x, x <> k -> oupd f k v x = f x.
Proof. intros. unfold oupd. destruct (Nat.eqb_spec x k); congruence. Qed.

Lemma owner_eqb_eq : forall a b, owner_eqb a b = true -> a = b.
Proof.
  intros [] [] H; cbn in H; try discriminate; apply Nat.eqb_eq in H; congruence.
Qed.

Lemma is_free_iff : forall s fd, is_free s fd = true -> tab s fd = None.
Proof. intros s fd. unfold is_free. destruct (tab s fd); congruence. Qed.

Ltac upd x y := destruct (Nat.eq_dec x y) as [->|];
  [rewrite ?oupd_same in *|rewrite ?oupd_other in * by assumption].

(** A call begins. *)
Lemma dinv_call : forall s evs t p s' ev,
  dinv s evs -> in_order None None p -> ocall s t p = Some (s', ev) -> dinv s' (evs ++ ev).
Proof.
  intros s evs t p s' ev I O H. unfold ocall in H.
  destruct (running s t) as [?|] eqn:R; [discriminate|]. injection H as <- <-.
  constructor; cbn [tab running calls returned garbage].
  - intros t' id q Hr. upd t' t.
    + injection Hr as <- <-. split; [lia|]. split.
      { intros X. apply (d_ret _ _ I) in X. lia. }
      exists None, None. split; [exact O|]. repeat split; try discriminate.
      * intros X. apply (d_sock _ _ I) in X. lia.
      * intros X. apply (d_conn _ _ I) in X. lia.
      * congruence.
    + destruct (d_run _ _ I _ _ _ Hr) as [A [B C]]. split; [lia|]. split; [exact B|exact C].
  - intros t1 t2 id p1 p2 H1 H2.
    destruct (Nat.eq_dec t1 t) as [->|N1]; destruct (Nat.eq_dec t2 t) as [->|N2]; auto.
    + rewrite oupd_same in H1. rewrite oupd_other in H2 by assumption. injection H1 as <- <-.
      apply (d_run _ _ I) in H2. lia.
    + rewrite oupd_same in H2. rewrite oupd_other in H1 by assumption. injection H2 as <- <-.
      apply (d_run _ _ I) in H1. lia.
    + rewrite oupd_other in H1, H2 by assumption. eapply (d_one _ _ I); eauto.
  - intros fd id X. destruct (d_sock _ _ I _ _ X) as [A [t' [q B]]]. split; [lia|].
    exists t', q. rewrite oupd_other; [exact B|]. congruence.
  - intros fd id X. destruct (d_conn _ _ I _ _ X) as [A [[t' [q B]]|B]]; (split; [lia|]).
    + left. exists t', q. rewrite oupd_other; [exact B|]. congruence.
    + right. apply in_or_app. now left.
  - intros id X. apply (d_ret _ _ I) in X. lia.
  - intros id r X. apply in_app_or in X. destruct X as [X|[X|[]]]; [|discriminate].
    eapply (d_evret _ _ I); eauto.
  - intros fd o id X. apply in_app_or in X. destruct X as [X|[X|[]]]; [|discriminate].
    eapply (d_close _ _ I); eauto.
  - intros fd id X. apply in_app_or in X. destruct X as [X|[X|[]]]; [|discriminate].
    destruct (d_keep _ _ I _ _ X); [now left|]. right. apply in_or_app. now left.
  - intros fd id X. apply in_app_or in X. destruct X as [X|[X|[]]]; [|discriminate].
    eapply (d_garbage _ _ I); eauto.
Qed.

(** A descriptor of other code or a connection in use is closed. *)
Lemma dinv_close_own : forall s evs fd o s' ev,
  dinv s evs ->
  match o with OOther _ => True | OConn id => In id (returned s) | OSock _ => False end ->
  close_own s fd o = Some (s', ev) -> dinv s' (evs ++ ev).
Proof.
  intros s evs fd o s' ev I O H. unfold close_own, owns in H.
  destruct (tab s fd) as [o'|] eqn:T; [|discriminate].
  destruct (owner_eqb o o') eqn:E; [|discriminate]. apply owner_eqb_eq in E. subst o'.
  injection H as <- <-.
  assert (K : forall x v, oupd (tab s) fd None x = Some v -> x <> fd /\ tab s x = Some v).
  { intros x v X. upd x fd; [discriminate|]. auto. }
  constructor; cbn [tab running calls returned garbage].
  - intros t id p Hr. destruct (d_run _ _ I _ _ _ Hr) as [A [B [h [c [C1 [C2 [C3 C4]]]]]]].
    split; [exact A|]. split; [exact B|]. exists h, c. split; [exact C1|]. split; [|split; [|exact C4]].
    + intros x. rewrite <- C2. upd x fd; [|reflexivity]. rewrite T. split; [discriminate|].
      intros X. injection X as ->. destruct O.
    + intros x. rewrite <- C3. upd x fd; [|reflexivity]. rewrite T. split; [discriminate|].
      intros X. injection X as ->. contradiction.
  - apply (d_one _ _ I).
  - intros x id X. apply K in X. apply (d_sock _ _ I x id), X.
  - intros x id X. apply K in X. destruct X as [_ X].
    destruct (d_conn _ _ I _ _ X) as [A [B|B]]; (split; [exact A|]); [now left|].
    right. apply in_or_app. now left.
  - apply (d_ret _ _ I).
  - intros id r X. apply in_app_or in X. destruct X as [X|[X|[]]]; [|discriminate].
    eapply (d_evret _ _ I); eauto.
  - intros x o' id X. apply in_app_or in X. destruct X as [X|[X|[]]]; [|discriminate].
    eapply (d_close _ _ I); eauto.
  - intros x id X. apply in_app_or in X. destruct X as [X|[X|[]]]; [|discriminate].
    destruct (d_keep _ _ I _ _ X) as [Y|Y].
    + destruct (Nat.eq_dec x fd) as [->|N].
      * right. apply in_or_app. right. left. congruence.
      * left. now rewrite oupd_other.
    + right. apply in_or_app. now left.
  - intros x id X. apply in_app_or in X. destruct X as [X|[X|[]]]; [|discriminate].
    eapply (d_garbage _ _ I); eauto.
Qed.

(** Other code opens a descriptor. *)
Lemma dinv_open : forall s evs fd j, dinv s evs -> tab s fd = None ->
  dinv (mkostate (oupd (tab s) fd (Some (OOther j))) (running s) (calls s) (returned s) (garbage s))
       (evs ++ []).
Proof.
  intros s evs fd j I T. rewrite app_nil_r.
  assert (K : forall x v, (forall i, v <> OOther i) ->
     (oupd (tab s) fd (Some (OOther j)) x = Some v <-> tab s x = Some v)).
  { intros x v Nv. upd x fd; [|reflexivity]. rewrite T. split; [|discriminate].
    intros X. injection X as <-. exfalso. now apply (Nv j). }
  constructor; cbn [tab running calls returned garbage].
  - intros t id p Hr. destruct (d_run _ _ I _ _ _ Hr) as [A [B [h [c [C1 [C2 [C3 C4]]]]]]].
    split; [exact A|]. split; [exact B|]. exists h, c. split; [exact C1|]. split; [|split; [|exact C4]].
    + intros x. rewrite K by discriminate. apply C2.
    + intros x. rewrite K by discriminate. apply C3.
  - apply (d_one _ _ I).
  - intros x id X. apply K in X; [|discriminate]. eapply (d_sock _ _ I); eauto.
  - intros x id X. apply K in X; [|discriminate]. eapply (d_conn _ _ I); eauto.
  - apply (d_ret _ _ I).
  - apply (d_evret _ _ I).
  - apply (d_close _ _ I).
  - intros x id X. rewrite K by discriminate. eapply (d_keep _ _ I); eauto.
  - apply (d_garbage _ _ I).
Qed.

(** A call returns. *)
Lemma dinv_return : forall s evs t id log r, dinv s evs ->
  running s t = Some (id, Return log r) ->
  dinv (mkostate (tab s) (oupd (running s) t None) (calls s) (id :: returned s) (garbage s))
       (evs ++ [EReturned id r]).
Proof.
  intros s evs t id log r I R.
  destruct (d_run _ _ I _ _ _ R) as [A [B [h [c [C1 [C2 [C3 C4]]]]]]].
  assert (h = None) as -> by (inversion C1; reflexivity).
  assert (Hr : forall fd, r = Done (Some fd, None) <-> c = Some fd).
  { intros fd. inversion C1; subst; split; try congruence.
    intros ->. f_equal. f_equal. destruct err as [x|]; [|reflexivity].
    exfalso. match goal with H : Some fd = None <-> _ |- _ => destruct H as [_ H]; discriminate H; discriminate end. }
  constructor; cbn [tab running calls returned garbage].
  - intros t' id' q Hq. upd t' t; [discriminate|].
    destruct (d_run _ _ I _ _ _ Hq) as [A' [B' C']]. split; [exact A'|]. split; [|exact C'].
    intros [<-|X]; [|contradiction]. apply n. eapply (d_one _ _ I); eauto.
  - intros t1 t2 id' p1 p2 H1 H2. upd t1 t; [discriminate|]. upd t2 t; [discriminate|].
    eapply (d_one _ _ I); eauto.
  - intros fd id' X. destruct (d_sock _ _ I _ _ X) as [A' [t' [q B']]]. split; [exact A'|].
    exists t', q. upd t' t; [|exact B'].
    rewrite R in B'. injection B' as <- <-. apply C2 in X. discriminate X.
  - intros fd id' X. destruct (d_conn _ _ I _ _ X) as [A' [[t' [q B']]|B']]; (split; [exact A'|]).
    + destruct (Nat.eq_dec t' t) as [->|N].
      * rewrite R in B'. injection B' as <- <-. right. apply in_or_app. right. left.
        apply C3, Hr in X. now rewrite X.
      * left. exists t', q. now rewrite oupd_other.
    + right. apply in_or_app. now left.
  - intros id' [<-|X]; [exact A|]. now apply (d_ret _ _ I).
  - intros id' r' X. apply in_app_or in X. destruct X as [X|[X|[]]].
    + right. eapply (d_evret _ _ I); eauto.
    + injection X as <- <-. now left.
  - intros fd o id' X. apply in_app_or in X. destruct X as [X|[X|[]]]; [|discriminate].
    eapply (d_close _ _ I); eauto.
  - intros fd id' X. apply in_app_or in X. destruct X as [X|[X|[]]].
    + destruct (d_keep _ _ I _ _ X); [now left|]. right. apply in_or_app. now left.
    + injection X as <- X. left. apply C3, Hr, X.
  - intros fd id' X. apply in_app_or in X. destruct X as [X|[X|[]]].
    + eapply (d_garbage _ _ I); eauto.
    + injection X as <- X. apply C4. apply Hr in X. congruence.
Qed.

(** A call makes a request. *)
Lemma dinv_request : forall s evs t id c k r tab' garbage' ev, dinv s evs ->
  running s t = Some (id, Sys c k) -> effect s id c r = Some (tab', garbage', ev) ->
  dinv (mkostate tab' (oupd (running s) t (Some (id, k r))) (calls s) (returned s) garbage')
       (evs ++ ev).
Proof.
  intros s evs t id c k r tab' garbage' ev I R E.
  destruct (d_run _ _ I _ _ _ R) as [A [B [h [cn [C1 [C2 [C3 C4]]]]]]].
  (* what there is to know about the effect *)
  assert (G : exists h' cn', in_order h' cn' (k r) /\
    (forall fd, tab' fd = Some (OSock id) <-> h' = Some fd) /\
    (forall fd, tab' fd = Some (OConn id) <-> cn' = Some fd) /\
    (forall fd o, (o <> OSock id /\ o <> OConn id) -> (tab' fd = Some o <-> tab s fd = Some o)) /\
    (cn' <> None -> exists f, In (f, id) garbage') /\
    (forall x, In x (garbage s) -> In x garbage') /\
    (forall e, In e ev -> exists fd, e = EClosed fd (Some (OSock id)) (ByCall id))).
  { inversion C1; subst; cbn in E.
    - (* socket *)
      destruct r as [fd|err].
      + destruct (is_free s fd) eqn:F; [|discriminate]. apply is_free_iff in F.
        injection E as <- <- <-. exists (Some fd), None. split; [auto|].
        split; [|split; [|split; [|split; [|split]]]].
        * intros x. upd x fd; [tauto|]. rewrite C2. split; congruence.
        * intros x. upd x fd; [split; discriminate|]. apply C3.
        * intros x o [N1 N2]. upd x fd; [|reflexivity]. rewrite F. split; congruence.
        * congruence.
        * auto.
        * intros e [].
      + injection E as <- <- <-. exists None, None. repeat split; auto; try apply C2; try apply C3; try congruence.
        intros e [].
    - (* use *)
      assert (E' : Some (tab s, garbage s, @nil oevent) = Some (tab', garbage', ev)).
      { match goal with H : _ \/ _ |- _ => rename H into U end.
        destruct U as [[sa ->]|[[sa ->]|[[n ->]| ->]]]; destruct r; exact E. }
      injection E' as <- <- <-. exists (Some fd), cn. split; [auto|]. split; [exact C2|]. split; [exact C3|].
      split; [reflexivity|]. split; [exact C4|]. split; [auto|]. intros e [].
    - (* FileConn *)
      destruct r as [n|err].
      + destruct (is_free s n) eqn:F; [|discriminate]. apply is_free_iff in F.
        injection E as <- <- <-. exists (Some fd), (Some n). split; [auto|].
        split; [|split; [|split; [|split; [|split]]]].
        * intros x. upd x n; [|apply C2]. split; [discriminate|]. intros X. apply C2 in X. congruence.
        * intros x. upd x n; [tauto|]. rewrite C3. split; congruence.
        * intros x o [N1 N2]. upd x n; [|reflexivity]. rewrite F. split; congruence.
        * intros _. exists fd. now left.
        * intros x X. now right.
        * intros e [].
      + injection E as <- <- <-. exists (Some fd), None. split; [auto|]. split; [exact C2|]. split; [exact C3|].
        split; [reflexivity|]. split; [congruence|]. split; [intros x X; now right|]. intros e [].
    - (* Close *)
      assert (T : tab s fd = Some (OSock id)) by now apply C2.
      injection E as <- <- <-. exists None, cn. split; [auto|].
      split; [|split; [|split; [|split; [|split]]]].
      + intros x. upd x fd; [split; discriminate|]. rewrite C2. split; congruence.
      + intros x. upd x fd; [|apply C3]. rewrite <- C3, T. split; congruence.
      + intros x o [N1 N2]. upd x fd; [|reflexivity]. rewrite T. split; congruence.
      + exact C4.
      + auto.
      + intros e [<-|[]]. exists fd. now rewrite T. }
  destruct G as [h' [cn' [G1 [G2 [G3 [G4 [G5 [G6 G7]]]]]]]].
  assert (EV : forall id' r', In (EReturned id' r') (evs ++ ev) -> In (EReturned id' r') evs).
  { intros id' r' X. apply in_app_or in X. destruct X as [X|X]; [exact X|].
    apply G7 in X. destruct X as [fd X]. discriminate X. }
  assert (NR : forall r', ~ In (EReturned id r') evs).
  { intros r' X. apply (d_evret _ _ I) in X. contradiction. }
  constructor; cbn [tab running calls returned garbage].
  - intros t' id' q Hq. upd t' t.
    + injection Hq as <- <-. split; [exact A|]. split; [exact B|]. exists h', cn'. auto.
    + assert (id' <> id) by (intros ->; apply n; eapply (d_one _ _ I); eauto).
      destruct (d_run _ _ I _ _ _ Hq) as [A' [B' [h1 [c1 [D1 [D2 [D3 D4]]]]]]].
      split; [exact A'|]. split; [exact B'|]. exists h1, c1. split; [exact D1|].
      split; [|split].
      * intros fd. rewrite G4 by (split; congruence). apply D2.
      * intros fd. rewrite G4 by (split; congruence). apply D3.
      * intros X. destruct (D4 X) as [f F]. exists f. auto.
  - intros t1 t2 id' p1 p2 H1 H2. upd t1 t; upd t2 t; auto.
    + injection H1 as <- <-. symmetry. eapply (d_one _ _ I); eauto.
    + injection H2 as <- <-. eapply (d_one _ _ I); eauto.
    + eapply (d_one _ _ I); eauto.
  - intros fd id' X. destruct (Nat.eq_dec id' id) as [->|N].
    + split; [exact A|]. exists t, (k r). apply oupd_same.
    + apply G4 in X; [|split; congruence]. destruct (d_sock _ _ I _ _ X) as [A' [t' [q B']]].
      split; [exact A'|]. exists t', q. rewrite oupd_other; [exact B'|]. congruence.
  - intros fd id' X. destruct (Nat.eq_dec id' id) as [->|N].
    + split; [exact A|]. left. exists t, (k r). apply oupd_same.
    + apply G4 in X; [|split; congruence]. destruct (d_conn _ _ I _ _ X) as [A' [[t' [q B']]|B']]; (split; [exact A'|]).
      * left. exists t', q. rewrite oupd_other; [exact B'|]. congruence.
      * right. apply in_or_app. now left.
  - apply (d_ret _ _ I).
  - intros id' r' X. apply EV in X. eapply (d_evret _ _ I); eauto.
  - intros fd o id' X. apply in_app_or in X. destruct X as [X|X].
    + eapply (d_close _ _ I); eauto.
    + apply G7 in X. destruct X as [fd' X]. congruence.
  - intros fd id' X. apply EV in X. destruct (Nat.eq_dec id' id) as [->|N]; [now apply NR in X|].
    destruct (d_keep _ _ I _ _ X) as [Y|Y].
    + left. apply G4; [split; congruence|exact Y].
    + right. apply in_or_app. now left.
  - intros fd id' X. apply EV in X. destruct (d_garbage _ _ I _ _ X) as [f F]. exists f. auto.
Qed.

Lemma dinv_step : forall s evs ch s' ev, dinv s evs -> (forall fd id, ch <> Finalize fd id) ->
  ostep s ch = Some (s', ev) -> dinv s' (evs ++ ev).
Proof.
  intros s evs ch s' ev I N H. destruct ch; cbn in H.
  - eapply dinv_call; eauto. apply calls_in_order. auto.
  - eapply dinv_call; eauto. apply calls_in_order. auto.
  - destruct (running s t) as [[id [log res|c k]]|] eqn:R; [| |discriminate].
    + injection H as <- <-. eapply dinv_return; eauto.
    + destruct (effect s id c r) as [[[tab' garbage'] ev']|] eqn:E; [|discriminate].
      injection H as <- <-. eapply dinv_request; eauto.
  - destruct (is_free s fd) eqn:F; [|discriminate]. injection H as <- <-.
    apply dinv_open; [assumption|]. now apply is_free_iff.
  - eapply dinv_close_own; eauto. exact Logic.I.
  - destruct (existsb (Nat.eqb id) (returned s)) eqn:X; [|discriminate].
    apply existsb_exists in X. destruct X as [y [X1 X2]]. apply Nat.eqb_eq in X2. subst y.
    eapply dinv_close_own; eauto. exact X1.
  - exfalso. eapply N; eauto.
Qed.

Lemma dinv_exec : forall cs s evs s' ev, dinv s evs -> no_finalizer cs ->
  oexec s cs = Some (s', ev) -> dinv s' (evs ++ ev).
Proof.
  induction cs as [|ch cs IH]; intros s evs s' ev I N H; cbn in H.
  - injection H as <- <-. now rewrite app_nil_r.
  - destruct (ostep s ch) as [[s1 ev1]|] eqn:S; [|discriminate].
    destruct (oexec s1 cs) as [[s2 ev2]|] eqn:X; [|discriminate]. injection H as <- <-.
    rewrite app_assoc. eapply IH; [| |exact X].
    + eapply dinv_step; eauto. intros fd id ->. apply (N fd id). now left.
    + intros fd id F. apply (N fd id). now right.
Qed.

Lemma dinv_start : forall t, dinv (ostart t) [].
Proof.
  intros t. constructor; cbn; try discriminate; try contradiction.
  - intros fd id. destruct (t fd); discriminate.
  - intros fd id. destruct (t fd); discriminate.
Qed.

Lemma dinv_reach : forall t cs s evs, no_finalizer cs ->
  oexec (ostart t) cs = Some (s, evs) -> dinv s evs.
Proof.
  intros t cs s evs N H. apply (dinv_exec cs (ostart t) [] s evs); auto. apply dinv_start.
Qed.

(** ** Without finalizers *)

Lemma no_leak : forall t cs s evs, no_finalizer cs -> oexec (ostart t) cs = Some (s, evs) ->
  forall id r, In (EReturned id r) evs ->
  (forall fd, tab s fd <> Some (OSock id)) /\
  (forall fd, tab s fd = Some (OConn id) -> In (EReturned id (Done (Some fd, None))) evs).
Proof.
  intros t cs s evs N H id r R. assert (I := dinv_reach _ _ _ _ N H).
  apply (d_evret _ _ I) in R.
  assert (K : forall u p, running s u = Some (id, p) -> False).
  { intros u p X. apply (d_run _ _ I) in X. tauto. }
  split.
  - intros fd X. apply (d_sock _ _ I) in X. destruct X as [_ [u [p X]]]. eauto.
  - intros fd X. apply (d_conn _ _ I) in X. destruct X as [_ [[u [p X]]|X]]; [|exact X].
    exfalso. eauto.
Qed.

Lemma closes_own : forall t cs s evs, no_finalizer cs -> oexec (ostart t) cs = Some (s, evs) ->
  forall fd o id, In (EClosed fd o (ByCall id)) evs -> o = Some (OSock id).
Proof. intros t cs s evs N H. apply (d_close _ _ (dinv_reach _ _ _ _ N H)). Qed.

Lemma conn_stays : forall t cs s evs, no_finalizer cs -> oexec (ostart t) cs = Some (s, evs) ->
  forall fd id, In (EReturned id (Done (Some fd, None))) evs ->
  tab s fd = Some (OConn id) \/ In (EClosed fd (Some (OConn id)) ByUser) evs.
Proof. intros t cs s evs N H. apply (d_keep _ _ (dinv_reach _ _ _ _ N H)). Qed.

(** ** With finalizers *)

Lemma remove_one_in : forall x l m, remove_one x l = Some m -> In x l.
Proof.
  intros [a b]. induction l as [|[c d] l IH]; cbn; intros m H; [discriminate|].
  destruct (Nat.eqb_spec a c) as [Ea|]; destruct (Nat.eqb_spec b d) as [Eb|]; cbn in H;
    [left; congruence| | |];
    (destruct (remove_one (a, b) l) eqn:E; [|discriminate]; right; eauto).
Qed.

Lemma in_remove_one : forall x l, In x l -> exists m, remove_one x l = Some m.
Proof.
  intros [a b]. induction l as [|[c d] l IH]; cbn; intros H; [destruct H|].
  destruct (Nat.eqb_spec a c) as [->|N1]; destruct (Nat.eqb_spec b d) as [->|N2]; cbn; eauto;
    (destruct H as [H|H]; [congruence|]; destruct (IH H) as [m ->]; eauto).
Qed.

(** Every successful call leaves a finalizer behind, and once all calls have
    returned, no finalizer can find the descriptor that it was made for. *)
Lemma stray_finalizer : forall t cs s evs, no_finalizer cs -> oexec (ostart t) cs = Some (s, evs) ->
  forall c id, In (EReturned id (Done (Some c, None))) evs ->
  exists fd s', ostep s (Finalize fd id) = Some (s', [EClosed fd (tab s fd) ByFinalizer]) /\
    tab s fd <> Some (OSock id) /\ tab s' fd = None.
Proof.
  intros t cs s evs N H c id R. assert (I := dinv_reach _ _ _ _ N H).
  destruct (d_garbage _ _ I _ _ R) as [fd G]. destruct (in_remove_one _ _ G) as [m M].
  exists fd. cbn. rewrite M. eexists. split; [reflexivity|]. split.
  - apply (no_leak _ _ _ _ N H _ _ R).
  - cbn. apply oupd_same.
Qed.
