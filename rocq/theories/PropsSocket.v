(** * PropsSocket: the properties of pkg/socket (C40-C43). *)

From Coq Require Import NArith Bool String Arith List.
From Verif Require Import GoBase SocketModel SocketSpec SocketFacts SocketDesc SocketEx.
Import ListNotations.
Local Open Scope string_scope.

(** ** C40: the requests of Dial and Listen *)

(** An address stands for at most one socket address. *)
Theorem C40_target_unique : forall e address sa sa',
  target e address sa -> target e address sa' -> sa = sa'.
Proof. exact target_det. Qed.
Print Assumptions C40_target_unique.

(** Dial does what [attempt] says for the socket address, and nothing else. *)
Theorem C40_dial : forall e address sa rs tr log o, target e address sa ->
  run (Dial e address) rs = Some (tr, log, o) ->
  map snd tr = rs /\ log = [] /\ exists r, o = Done r /\ attempt sa (dial_setup sa) tr r.
Proof. exact dial_attempts. Qed.
Print Assumptions C40_dial.

Theorem C40_listen : forall e address sa rs tr log o, target e address sa ->
  run (Listen e address) rs = Some (tr, log, o) ->
  map snd tr = rs /\ log = [] /\ exists r, o = Done r /\ attempt sa (listen_setup sa) tr r.
Proof. exact listen_attempts. Qed.
Print Assumptions C40_listen.

(** All attempts are possible. *)
Theorem C40_dial_all : forall e address sa tr r, target e address sa ->
  attempt sa (dial_setup sa) tr r ->
  run (Dial e address) (map snd tr) = Some (tr, [], Done r).
Proof. exact attempts_dial. Qed.
Print Assumptions C40_dial_all.

Theorem C40_listen_all : forall e address sa tr r, target e address sa ->
  attempt sa (listen_setup sa) tr r ->
  run (Listen e address) (map snd tr) = Some (tr, [], Done r).
Proof. exact attempts_listen. Qed.
Print Assumptions C40_listen_all.

Example C40_cases : (* a connection that is refused *)
  let sa := SockaddrInet6 50102 1 loopback6 in
  target machine "[::1%lo]:50102" sa /\
  exists tr, run (Dial machine "[::1%lo]:50102") [Ok 3; Err 111; Ok 0] =
    Some (tr, [], Done (None, Some (SysErr 111))) /\
  attempt sa (dial_setup sa) tr (None, Some (SysErr 111)).
Proof.
  cbv zeta. split; [apply target_by_computation with "ipv6"; reflexivity|].
  assert (T : target machine "[::1%lo]:50102" (SockaddrInet6 50102 1 loopback6))
    by (apply target_by_computation with "ipv6"; reflexivity).
  eexists. split; [reflexivity|].
  destruct (dial_attempts _ _ _ [Ok 3; Err 111; Ok 0] _ _ _ T eq_refl) as (_ & _ & r & E & H).
  injection E as <-. exact H.
Qed.

(** The addresses of dial_test.go and listen_test.go *)
Example C40_hostname : target machine "localhost:50101" (SockaddrInet4 50101 [x7f; x00; x00; x01]).
Proof. apply target_by_computation with "ipv4". reflexivity. Qed.

Example C40_zone : target machine "[::1%lo]:50102" (SockaddrInet6 50102 1 loopback6).
Proof. apply target_by_computation with "ipv6". reflexivity. Qed.

Example C40_no_host : target machine ":50101" (SockaddrInet4 50101 [x00; x00; x00; x00]).
Proof. apply target_by_computation with "ipv4". reflexivity. Qed.

Example C40_no_port : target machine "127.0.0.1:" (SockaddrInet4 0 [x7f; x00; x00; x01]).
Proof. apply target_by_computation with "ipv4". reflexivity. Qed.

Example C40_no_host_no_port : target machine ":" (SockaddrInet4 0 [x00; x00; x00; x00]).
Proof. apply target_by_computation with "ipv4". reflexivity. Qed.

Example C40_service : target machine "[::1]:inspider" (SockaddrInet6 49150 0 loopback6).
Proof. apply target_by_computation with "ipv6". reflexivity. Qed.

Example C40_dial_run :
  run (Dial machine "[::1%lo]:50102") [Ok 3; Ok 0; Ok 0; Ok 4; Ok 0] =
  Some ([(Socket 43 1 1, Ok 3);
         (Connect 3 (SockaddrInet6 50102 1 loopback6), Ok 0);
         (NewFile 3, Ok 0); (FileConn 3, Ok 4); (Close 3, Ok 0)],
        [], Done (Some 4, None)).
Proof. reflexivity. Qed.

Example C40_listen_run :
  run (Listen machine "127.0.0.1:") [Ok 3; Ok 0; Err 98; Ok 0] =
  Some ([(Socket 43 1 0, Ok 3);
         (Bind 3 (SockaddrInet4 0 [x7f; x00; x00; x01]), Ok 0);
         (ListenFd 3 1, Err 98); (Close 3, Ok 0)],
        [], Done (None, Some (SysErr 98))).
Proof. reflexivity. Qed.

(** ** C41: how Dial and Listen end *)

(** They exit exactly for malformed addresses and unknown ports, panic exactly
    if the resolver succeeds without any address, and otherwise return either a
    connection or an error, never both and never neither; without a target no
    request is made. *)
Theorem C41_outcomes : forall p e address, (p = Dial \/ p = Listen) ->
  forall rs tr log o, run (p e address) rs = Some (tr, log, o) ->
  (o = Exited <-> malformed e address) /\
  (o = Panicked <-> resolved_to_nothing e address) /\
  (o = Done (None, Some ParsingIP) <-> unresolved e address) /\
  ((exists sa, target e address sa) \/ tr = []) /\
  (forall r, o = Done r -> (fst r = None <-> snd r <> None)).
Proof. exact outcomes. Qed.
Print Assumptions C41_outcomes.

(** Whatever the operating system responds, both come to an end. *)
Theorem C41_terminates : forall p e address, (p = Dial \/ p = Listen) ->
  forall f : nat -> response, exists n tr log o,
    run (p e address) (map f (seq 0 n)) = Some (tr, log, o).
Proof. exact runs. Qed.
Print Assumptions C41_terminates.

Example C41_terminates_case : (* every request fails *)
  run (Dial machine "localhost:50101") (map (fun _ => Err 1) (seq 0 1)) =
  Some ([(Socket 43 1 0, Err 1)], [], Done (None, Some (SysErr 1))).
Proof. reflexivity. Qed.

(** "Every failure is reported as an error" is wrong. *)
Theorem C41_error_refuted :
  exists e a1 a2,
    (* no port *)
    run (Dial e a1) [] = Some ([], ["address localhost: missing port in address"], Exited) /\
    run (Listen e a1) [] = Some ([], ["address localhost: missing port in address"], Exited) /\
    (* unknown port *)
    run (Dial e a2) [] = Some ([], ["lookup tcp/nosuch: unknown port"], Exited) /\
    run (Listen e a2) [] = Some ([], ["lookup tcp/nosuch: unknown port"], Exited).
Proof. exists machine, "localhost", "localhost:nosuch". repeat split. Qed.
Print Assumptions C41_error_refuted.

Example C41_malformed : malformed machine "::1:50102".
Proof. eapply malformed_by_computation. reflexivity. Qed.

Example C41_unknown_host : unresolved machine "nosuchhost:50101".
Proof. apply unresolved_by_computation. reflexivity. Qed.

Example C41_unknown_zone : unresolved machine "[::1%eth9]:50101".
Proof. apply unresolved_by_computation. reflexivity. Qed.

Example C41_nothing : run (Dial machine "nothing:50101") [] = Some ([], [], Panicked).
Proof. reflexivity. Qed.

(** ** C42: host:port *)

Theorem C42_split : forall address host port,
  SplitHostPort address = inl (host, port) <-> splits address host port.
Proof. exact split_spec. Qed.
Print Assumptions C42_split.

(** Joining host and port, with brackets if the host has colons, and splitting
    gives them back. *)
Theorem C42_round_trip : forall host port,
  no_brackets host -> no_brackets port -> no_colon port ->
  SplitHostPort ("[" ++ host ++ "]:" ++ port) = inl (host, port) /\
  (no_colon host -> SplitHostPort (host ++ ":" ++ port) = inl (host, port)).
Proof. exact round_trip. Qed.
Print Assumptions C42_round_trip.

Example C42_round_trip_case : no_brackets "fe80::1%eth0" /\ no_brackets "80" /\ no_colon "80".
Proof.
  assert (S : splits "[fe80::1%eth0]:80" "fe80::1%eth0" "80") by (apply splits_by_computation; reflexivity).
  destruct S as (Hh & Hp & Hc & _). exact (conj Hh (conj Hp Hc)).
Qed.

(** There is at most one way to split an address. *)
Theorem C42_unique : forall address h p h' p',
  splits address h p -> splits address h' p' -> h = h' /\ p = p'.
Proof. exact splits_det. Qed.
Print Assumptions C42_unique.

(** What parseAddress makes of it. *)
Theorem C42_parse : forall e address,
  (exists host p port, names address host p /\ LookupPort e p = inl port /\
     parseAddress e address = ret (host, port)) \/
  (malformed e address /\ exists err, parseAddress e address = ([err], Exited)).
Proof. exact parseAddress_spec. Qed.
Print Assumptions C42_parse.

Example C42_ex_plain : splits "localhost:http" "localhost" "http".
Proof. apply splits_by_computation. reflexivity. Qed.

Example C42_ex_ipv6 : splits "[fe80::1%eth0]:80" "fe80::1%eth0" "80".
Proof. apply splits_by_computation. reflexivity. Qed.

Example C42_ex_no_port : splits "[::1]:" "::1" "".
Proof. apply splits_by_computation. reflexivity. Qed.

Example C42_ex_bad : map SplitHostPort ["a"; "a:b:c"; "[a]b:c"; "[a:1"; "a]:1"; "[a]:b:c"; "[a]"; ":["] =
  [inr "address a: missing port in address";
   inr "address a:b:c: too many colons in address";
   inr "address [a]b:c: missing port in address";
   inr "address [a:1: missing ']' in address";
   inr "address a]:1: unexpected ']' in address";
   inr "address [a]:b:c: too many colons in address";
   inr "address [a]: missing port in address";
   inr "address :[: unexpected '[' in address"].
Proof. reflexivity. Qed.

(** ** C43: descriptors *)

(** As long as no finalizer runs, whatever else happens in the process:
    a call closes nothing but the socket it has made, *)
Theorem C43_closes_own : forall t cs s evs, no_finalizer cs ->
  oexec (ostart t) cs = Some (s, evs) ->
  forall fd o id, In (EClosed fd o (ByCall id)) evs -> o = Some (OSock id).
Proof. exact closes_own. Qed.
Print Assumptions C43_closes_own.

(** once it has returned, its socket is closed, and nothing is left of it but
    the connection it has returned, *)
Theorem C43_no_leak : forall t cs s evs, no_finalizer cs ->
  oexec (ostart t) cs = Some (s, evs) ->
  forall id r, In (EReturned id r) evs ->
  (forall fd, tab s fd <> Some (OSock id)) /\
  (forall fd, tab s fd = Some (OConn id) -> In (EReturned id (Done (Some fd, None))) evs).
Proof. exact no_leak. Qed.
Print Assumptions C43_no_leak.

(** which stays open until its user closes it. *)
Theorem C43_conn_stays : forall t cs s evs, no_finalizer cs ->
  oexec (ostart t) cs = Some (s, evs) ->
  forall fd id, In (EReturned id (Done (Some fd, None))) evs ->
  tab s fd = Some (OConn id) \/ In (EClosed fd (Some (OConn id)) ByUser) evs.
Proof. exact conn_stays. Qed.
Print Assumptions C43_conn_stays.

(** But every successful call leaves a finalizer behind that closes a descriptor
    number that no longer belongs to the call. *)
Theorem C43_stray_finalizer : forall t cs s evs, no_finalizer cs ->
  oexec (ostart t) cs = Some (s, evs) ->
  forall c id, In (EReturned id (Done (Some c, None))) evs ->
  exists fd s', ostep s (Finalize fd id) = Some (s', [EClosed fd (tab s fd) ByFinalizer]) /\
    tab s fd <> Some (OSock id) /\ tab s' fd = None.
Proof. exact stray_finalizer. Qed.
Print Assumptions C43_stray_finalizer.

(** The finalizer closes a descriptor of other code, or the connection of another
    call; and when it runs early, it is the deferred close that does so. *)
Theorem C43_refuted :
  (exists t cs s evs fd j, oexec (ostart t) cs = Some (s, evs) /\
     In (EClosed fd (Some (OOther j)) ByFinalizer) evs) /\
  (exists t cs s evs fd id, oexec (ostart t) cs = Some (s, evs) /\
     In (EReturned id (Done (Some fd, None))) evs /\
     In (EClosed fd (Some (OConn id)) ByFinalizer) evs) /\
  (exists t cs s evs fd j id, oexec (ostart t) cs = Some (s, evs) /\
     In (EClosed fd (Some (OOther j)) (ByCall id)) evs).
Proof. exact finalizers_harm. Qed.
Print Assumptions C43_refuted.

Example C43_dial : no_finalizer a_dial /\
  option_map snd (oexec (ostart standard) a_dial) = Some
  [ECalled 0; EClosed 3 (Some (OSock 0)) (ByCall 0); EReturned 0 (Done (Some 4, None))].
Proof.
  split; [|vm_compute; reflexivity]. intros fd id H. cbn in H.
  repeat (destruct H as [H|H]; [discriminate|]). exact H.
Qed.
