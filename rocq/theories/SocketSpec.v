(** * SocketSpec: what addresses mean and how Dial and Listen should behave.

    Independent of the functions of SocketModel; only its types are used. *)

From Coq Require Import NArith Bool String Ascii Arith List.
From Verif Require Import GoBase SocketModel.
Import ListNotations.
Local Open Scope string_scope.

(** Character [c] occurs in [s]. *)
Fixpoint occurs (c : ascii) (s : string) : Prop :=
  match s with
  | EmptyString => False
  | String d s' => d = c \/ occurs c s'
  end.

Definition no_brackets (s : string) : Prop := ~ occurs "[" s /\ ~ occurs "]" s.
Definition no_colon (s : string) : Prop := ~ occurs ":" s.

(** [address] is "host:port" or "[host]:port"; without brackets the host must
    not contain colons. *)
Definition splits (address host port : string) : Prop :=
  no_brackets host /\ no_brackets port /\ no_colon port /\
  ((address = host ++ ":" ++ port /\ no_colon host) \/
   address = "[" ++ host ++ "]:" ++ port).

Definition default (d s : string) : string := if String.eqb s "" then d else s.

(** The host name and port name that an address is about. *)
Definition names (address host port : string) : Prop :=
  exists h p, splits address h p /\ host = default "0.0.0.0" h /\ port = default "0" p.

(** [b] is the IPv4 address denoted by [ip], either as such or IPv4-mapped. *)
Definition ipv4_of (ip b : list byte) : Prop :=
  List.length b = 4 /\
  (ip = b \/ ip = ([x00; x00; x00; x00; x00; x00; x00; x00; x00; x00; xff; xff] ++ b)%list).

(** The scope of an IPv6 address. *)
Definition scope_of (e : env) (zone : string) (id : N) : Prop :=
  (zone = "" /\ id = 0%N) \/
  (zone <> "" /\ exists index, InterfaceByName e zone = Some index /\ id = (index mod 2 ^ 32)%N).

(** The socket address for port [port] of the IP address [a]. *)
Definition endpoint (e : env) (port : N) (a : IPAddr) (sa : Sockaddr) : Prop :=
  (exists b, ipv4_of (IP a) b /\ sa = SockaddrInet4 port b) \/
  (List.length (IP a) = 16 /\ (forall b, ~ ipv4_of (IP a) b) /\
   exists id, scope_of e (Zone a) id /\ sa = SockaddrInet6 port id (IP a)).

(** The socket address that [address] stands for. *)
Definition target (e : env) (address : string) (sa : Sockaddr) : Prop :=
  exists host p port a others,
    names address host p /\ LookupPort e p = inl port /\
    LookupIPAddr e host = Some (a :: others) /\ endpoint e port a sa.

(** There is no host and port, or no such port, in [address]. *)
Definition malformed (e : env) (address : string) : Prop :=
  (forall host p, ~ names address host p) \/
  (exists host p err, names address host p /\ LookupPort e p = inr err).

(** Host and port are fine but the host cannot be resolved to an address that
    can be used. *)
Definition unresolved (e : env) (address : string) : Prop :=
  exists host p port,
    names address host p /\ LookupPort e p = inl port /\
    (LookupIPAddr e host = None \/
     exists a others, LookupIPAddr e host = Some (a :: others) /\
                      forall sa, ~ endpoint e port a sa).

(** The resolver reports success without any address. *)
Definition resolved_to_nothing (e : env) (address : string) : Prop :=
  exists host p port,
    names address host p /\ LookupPort e p = inl port /\ LookupIPAddr e host = Some [].

(** The SMC protocol number for a socket address: 0 over IPv4, 1 over IPv6. *)
Definition family (sa : Sockaddr) : N :=
  match sa with SockaddrInet4 _ _ => 0 | SockaddrInet6 _ _ _ => 1 end.

Definition ok (r : response) : Prop := match r with Ok _ => True | Err _ => False end.

(** An attempt to get a connection or listener for [sa]: an SMC stream socket is
    made, set up by the requests [setup], and turned into a connection; the
    first failure ends the attempt and is reported, and the socket is closed in
    any case. *)
Inductive attempt (sa : Sockaddr) (setup : nat -> list sys)
  : list (sys * response) -> dial_result -> Prop :=
| attempt_no_socket : forall e,
    attempt sa setup [(Socket 43 1 (family sa), Err e)] (None, Some (SysErr e))
| attempt_setup_fails : forall fd done c todo e r,
    setup fd = (map fst done ++ c :: todo)%list -> Forall (fun x => ok (snd x)) done ->
    attempt sa setup
      ((Socket 43 1 (family sa), Ok fd) :: done ++ [(c, Err e); (Close fd, r)])%list
      (None, Some (SysErr e))
| attempt_no_conn : forall fd done r0 e r,
    setup fd = map fst done -> Forall (fun x => ok (snd x)) done ->
    attempt sa setup
      ((Socket 43 1 (family sa), Ok fd) :: done
       ++ [(NewFile fd, r0); (FileConn fd, Err e); (Close fd, r)])%list
      (None, Some (SysErr e))
| attempt_conn : forall fd done r0 conn r,
    setup fd = map fst done -> Forall (fun x => ok (snd x)) done ->
    attempt sa setup
      ((Socket 43 1 (family sa), Ok fd) :: done
       ++ [(NewFile fd, r0); (FileConn fd, Ok conn); (Close fd, r)])%list
      (Some conn, None).

Definition dial_setup (sa : Sockaddr) (fd : nat) : list sys := [Connect fd sa].
Definition listen_setup (sa : Sockaddr) (fd : nat) : list sys := [Bind fd sa; ListenFd fd 1].

(** ** Descriptors *)

(** No finalizer runs. *)
Definition no_finalizer (cs : list ochoice) : Prop := forall fd id, ~ In (Finalize fd id) cs.
