(** * SocketEx: an environment and schedules for the examples and witnesses. *)

From Coq Require Import NArith Bool String Ascii Arith List Lia.
From Verif Require Import GoBase SocketModel SocketSpec SocketFacts SocketDesc.
Import ListNotations.
Local Open Scope string_scope.

Definition v4 (a b c d : byte) : list byte :=
  [x00; x00; x00; x00; x00; x00; x00; x00; x00; x00; xff; xff; a; b; c; d].
Definition loopback6 : list byte :=
  [x00; x00; x00; x00; x00; x00; x00; x00; x00; x00; x00; x00; x00; x00; x00; x01].

(** A machine as the unit tests expect it. *)
Definition machine : env := mkenv
  (fun p => if String.eqb p "50101" then inl 50101%N
            else if String.eqb p "50102" then inl 50102%N
            else if String.eqb p "0" then inl 0%N
            else if String.eqb p "inspider" then inl 49150%N
            else inr ("lookup tcp/" ++ p ++ ": unknown port"))
  (fun h => if String.eqb h "localhost"
            then Some [mkIPAddr (v4 x7f x00 x00 x01) ""; mkIPAddr loopback6 ""]
            else if String.eqb h "127.0.0.1" then Some [mkIPAddr [x7f; x00; x00; x01] ""]
            else if String.eqb h "0.0.0.0" then Some [mkIPAddr (v4 x00 x00 x00 x00) ""]
            else if String.eqb h "::1" then Some [mkIPAddr loopback6 ""]
            else if String.eqb h "::1%lo" then Some [mkIPAddr loopback6 "lo"]
            else if String.eqb h "::1%eth9" then Some [mkIPAddr loopback6 "eth9"]
            else if String.eqb h "nothing" then Some []
            else None)
  (fun i => if String.eqb i "lo" then Some 1%N else None).

Lemma splits_by_computation : forall address h p,
  SplitHostPort address = inl (h, p) -> splits address h p.
Proof. apply split_sound. Qed.

(** [target] can be shown by computation. *)
Lemma target_by_computation : forall e address typ sa,
  createSockaddr e address = ret (typ, Some sa) -> target e address sa.
Proof.
  intros e address typ sa H.
  destruct (createSockaddr_spec e address) as [[sa' [T E]]|[[_ E]|[[_ E]|[_ [err E]]]]];
    rewrite E in H; try discriminate. unfold ret in H. injection H as _ <-. exact T.
Qed.

Lemma malformed_by_computation : forall e address err,
  createSockaddr e address = ([err], Exited) -> malformed e address.
Proof.
  intros e address err H.
  destruct (createSockaddr_spec e address) as [[sa' [T E]]|[[_ E]|[[_ E]|[M _]]]];
    try (rewrite E in H; discriminate). exact M.
Qed.

Lemma unresolved_by_computation : forall e address,
  createSockaddr e address = ret ("err", None) -> unresolved e address.
Proof.
  intros e address H.
  destruct (createSockaddr_spec e address) as [[sa' [T E]]|[[U _]|[[_ E]|[M [err E]]]]];
    try (rewrite E in H; discriminate). exact U.
Qed.

(** No descriptors, except standard input, output and error. *)
Definition standard (fd : nat) : option nat := if (fd <? 3)%nat then Some fd else None.

(** A dial that works: socket 3, connection 4. *)
Definition a_dial : list ochoice :=
  [CallDial 0 machine "localhost:50101"; Go 0 (Ok 3); Go 0 (Ok 0); Go 0 (Ok 0);
   Go 0 (Ok 4); Go 0 (Ok 0); Go 0 (Ok 0)].

(** Afterwards other code opens a file, which gets number 3, and then the garbage
    collector finds the os.File. *)
Definition after_dial : list ochoice := (a_dial ++ [Open 3 7; Finalize 3 0])%list.

(** The garbage collector runs before the deferred close. *)
Definition during_dial : list ochoice :=
  [CallDial 0 machine "localhost:50101"; Go 0 (Ok 3); Go 0 (Ok 0); Go 0 (Ok 0);
   Go 0 (Ok 4); Finalize 3 0; Open 3 7; Go 0 (Ok 0); Go 0 (Ok 0)].

(** Two dials: the finalizer of the first closes the connection of the second. *)
Definition two_dials : list ochoice :=
  (a_dial ++ [CallDial 0 machine "localhost:50101"; Go 0 (Ok 5); Go 0 (Ok 0); Go 0 (Ok 0);
              Go 0 (Ok 3); Go 0 (Ok 0); Go 0 (Ok 0); Finalize 3 0])%list.

Lemma events_of : forall s cs evs,
  option_map snd (oexec s cs) = Some evs -> exists s', oexec s cs = Some (s', evs).
Proof.
  intros s cs evs H. destruct (oexec s cs) as [[s' evs']|]; [|discriminate].
  injection H as <-. eauto.
Qed.

Lemma after_dial_closes : exists s,
  oexec (ostart standard) after_dial = Some (s,
    [ECalled 0; EClosed 3 (Some (OSock 0)) (ByCall 0); EReturned 0 (Done (Some 4, None));
     EClosed 3 (Some (OOther 7)) ByFinalizer]).
Proof. apply events_of. vm_compute. reflexivity. Qed.

Lemma during_dial_closes : exists s,
  oexec (ostart standard) during_dial = Some (s,
    [ECalled 0; EClosed 3 (Some (OSock 0)) ByFinalizer;
     EClosed 3 (Some (OOther 7)) (ByCall 0); EReturned 0 (Done (Some 4, None))]).
Proof. apply events_of. vm_compute. reflexivity. Qed.

Lemma two_dials_close : exists s,
  oexec (ostart standard) two_dials = Some (s,
    [ECalled 0; EClosed 3 (Some (OSock 0)) (ByCall 0); EReturned 0 (Done (Some 4, None));
     ECalled 1; EClosed 5 (Some (OSock 1)) (ByCall 1); EReturned 1 (Done (Some 3, None));
     EClosed 3 (Some (OConn 1)) ByFinalizer]).
Proof. apply events_of. vm_compute. reflexivity. Qed.

Lemma finalizers_harm :
  (exists t cs s evs fd j, oexec (ostart t) cs = Some (s, evs) /\
     In (EClosed fd (Some (OOther j)) ByFinalizer) evs) /\
  (exists t cs s evs fd id, oexec (ostart t) cs = Some (s, evs) /\
     In (EReturned id (Done (Some fd, None))) evs /\
     In (EClosed fd (Some (OConn id)) ByFinalizer) evs) /\
  (exists t cs s evs fd j id, oexec (ostart t) cs = Some (s, evs) /\
     In (EClosed fd (Some (OOther j)) (ByCall id)) evs).
Proof.
  destruct after_dial_closes as [s1 E1]. destruct two_dials_close as [s2 E2].
  destruct during_dial_closes as [s3 E3]. split; [|split].
  - eexists _, _, _, _, 3, 7. split; [exact E1|]. cbn. tauto.
  - eexists _, _, _, _, 3, 1. split; [exact E2|]. cbn. tauto.
  - eexists _, _, _, _, 3, 7, 0. split; [exact E3|]. cbn. tauto.
Qed.
