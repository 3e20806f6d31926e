(** * SocketModel: pkg/socket.

    Address handling is a function of the environment (resolver, services,
    network interfaces), about which nothing is assumed.  [Dial] and [Listen]
    are programs whose interaction with the operating system is explicit, so
    that they can be run alone against arbitrary responses ([run]) and
    interleaved with everything else that happens to descriptors in the process
    ([oexec]). *)

From Coq Require Import NArith Bool String Ascii Arith List.
From Verif Require Import GoBase.
Import ListNotations.
Local Open Scope string_scope.

(** ** net.SplitHostPort (Go 1.23) *)

(** [bytealg.IndexByteString(s, c)]; [None] is -1 *)
Fixpoint index_byte (c : ascii) (s : string) : option nat :=
  match s with
  | EmptyString => None
  | String d s' =>
    if Ascii.eqb d c then Some 0
    else match index_byte c s' with Some i => Some (S i) | None => None end
  end.

(** [bytealg.LastIndexByteString(s, c)]; [None] is -1 *)
Fixpoint last_index_byte (c : ascii) (s : string) : option nat :=
  match s with
  | EmptyString => None
  | String d s' =>
    match last_index_byte c s' with
    | Some i => Some (S i)
    | None => if Ascii.eqb d c then Some 0 else None
    end
  end.

(** [s[i:]] *)
Definition str_from (s : string) (i : nat) : string :=
  substring i (String.length s - i) s.

(** [s[lo:hi]] *)
Definition str_slice (s : string) (lo hi : nat) : string := substring lo (hi - lo) s.

Definition missingPort : string := "missing port in address".
Definition tooManyColons : string := "too many colons in address".

(** The error text is that of [net.AddrError]. *)
Definition addrErr (addr why : string) : (string * string) + string :=
  inr ("address " ++ addr ++ ": " ++ why).

(** The result is host and port, or an error. *)
Definition SplitHostPort (hostport : string) : (string * string) + string :=
  match last_index_byte ":" hostport with
  | None =>
    inr (if String.eqb hostport "" then missingPort
         else "address " ++ hostport ++ ": " ++ missingPort)
  | Some i =>
    let rest (host : string) (j k : nat) :=
      match index_byte "[" (str_from hostport j) with
      | Some _ => addrErr hostport "unexpected '[' in address"
      | None =>
        match index_byte "]" (str_from hostport k) with
        | Some _ => addrErr hostport "unexpected ']' in address"
        | None => inl (host, str_from hostport (i + 1))
        end
      end in
    match String.get 0 hostport with
    | Some "["%char =>
      match index_byte "]" hostport with
      | None => addrErr hostport "missing ']' in address"
      | Some e =>
        if (e + 1 =? String.length hostport)%nat then addrErr hostport missingPort
        else if (e + 1 =? i)%nat then rest (str_slice hostport 1 e) 1 (e + 1)
        else match String.get (e + 1) hostport with
             | Some ":"%char => addrErr hostport tooManyColons
             | _ => addrErr hostport missingPort
             end
      end
    | _ =>
      let host := str_slice hostport 0 i in
      match index_byte ":" host with
      | Some _ => addrErr hostport tooManyColons
      | None => rest host 0 0
      end
    end
  end.

(** ** The environment *)

(** [net.IPAddr]: the bytes of the IP, and the zone *)
Record IPAddr := mkIPAddr { IP : list byte; Zone : string }.

Record env := mkenv {
  (* net.LookupPort("tcp", p): port or error text *)
  LookupPort : string -> N + string;
  (* net.DefaultResolver.LookupIPAddr(ctx, host): addresses, or [None] for an
     error *)
  LookupIPAddr : string -> option (list IPAddr);
  (* net.InterfaceByName(name): index, or [None] for an error *)
  InterfaceByName : string -> option N }.

(** net.IP.To4 *)
Definition To4 (ip : list byte) : option (list byte) :=
  if (List.length ip =? 4)%nat then Some ip
  else if (List.length ip =? 16)%nat &&
          forallb (fun b => Byte.eqb b x00) (firstn 10 ip) &&
          Byte.eqb (nth 10 ip x00) xff && Byte.eqb (nth 11 ip x00) xff
       then Some (skipn 12 ip)
       else None.

(** net.IP.To16 *)
Definition To16 (ip : list byte) : option (list byte) :=
  if (List.length ip =? 4)%nat
  then Some ([x00; x00; x00; x00; x00; x00; x00; x00; x00; x00; xff; xff] ++ ip)%list
  else if (List.length ip =? 16)%nat then Some ip
  else None.

(** unix.SockaddrInet4 and unix.SockaddrInet6 *)
Inductive Sockaddr :=
| SockaddrInet4 (Port : N) (Addr : list byte)
| SockaddrInet6 (Port : N) (ZoneId : N) (Addr : list byte).

(** pkg/socket/socket.go:12-15 *)
Definition protoIPv4 : N := 0.
Definition protoIPv6 : N := 1.

(** parseAddress, pkg/socket/socket.go:19-38 *)
Definition parseAddress (e : env) (address : string) : M (string * N) :=
  match SplitHostPort address with
  | inr err => log_ln err ;; exit                          (* log.Fatal, :21-23 *)
  | inl (host, p) =>
    let host := if String.eqb host "" then "0.0.0.0" else host in     (* :24-27 *)
    let p := if String.eqb p "" then "0" else p in                    (* :28-31 *)
    match LookupPort e p with                                         (* :33 *)
    | inr err => log_ln err ;; exit                        (* log.Fatal, :34-36 *)
    | inl port => ret (host, port)
    end
  end.

(** parseIP, pkg/socket/socket.go:42-49: [None] is nil; [&ipaddrs[0]] panics
    when there are no addresses. *)
Definition parseIP (e : env) (address : string) : M (option IPAddr) :=
  match LookupIPAddr e address with
  | None => ret None
  | Some [] => panic
  | Some (a :: _) => ret (Some a)
  end.

(** createSockaddr, pkg/socket/socket.go:52-82 *)
Definition createSockaddr (e : env) (address : string)
  : M (string * option Sockaddr) :=
  let* (host, port) := parseAddress e address in                     (* :53 *)
  let* ipaddr := parseIP e host in                                    (* :54 *)
  match ipaddr with
  | None => ret ("err", None)                                         (* :55-57 *)
  | Some ip =>
    match To4 (IP ip) with
    | Some ipv4 =>                                                    (* :60-65 *)
      ret ("ipv4", Some (SockaddrInet4 port (go_copy (zeros 4) (firstn 4 ipv4))))
    | None =>
      match To16 (IP ip) with
      | Some ipv6 =>                                                  (* :66-79 *)
        if negb (String.eqb (Zone ip) "") then
          match InterfaceByName e (Zone ip) with
          | None => ret ("err", None)
          | Some index =>
            ret ("ipv6", Some (SockaddrInet6 port (index mod 2 ^ 32)
                                 (go_copy (zeros 16) (firstn 16 ipv6))))
          end
        else ret ("ipv6", Some (SockaddrInet6 port 0 (go_copy (zeros 16) (firstn 16 ipv6))))
      | None => ret ("err", None)                                     (* :81 *)
      end
    end
  end.

(** ** Programs that use descriptors *)

(** Requests to the operating system and to the runtime.  [NewFile] is
    os.NewFile, which sets a finalizer; [FileConn] stands for net.FileConn and
    net.FileListener, which duplicate the descriptor.  From then on the os.File
    is garbage. *)
Inductive sys :=
| Socket (domain typ proto : N)
| Connect (fd : nat) (sa : Sockaddr)
| Bind (fd : nat) (sa : Sockaddr)
| ListenFd (fd : nat) (backlog : N)
| NewFile (fd : nat)
| FileConn (fd : nat)
| Close (fd : nat).

(** Success with a value (a new descriptor, where this makes sense) or an
    error. *)
Inductive response := Ok (v : nat) | Err (e : nat).

(** Errors returned by [Dial] and [Listen]. *)
Inductive goerr := ParsingIP | SysErr (e : nat).

(** The results of [Dial] and [Listen]: a connection or listener, identified by
    its descriptor, and an error. *)
Definition dial_result := (option nat * option goerr)%type.

Inductive prog :=
| Return (log : list string) (r : outcome dial_result)
| Sys (c : sys) (k : response -> prog).

(** The constants of golang.org/x/sys/unix for Linux *)
Definition AF_SMC : N := 43.
Definition SOCK_STREAM : N := 1.

(** The deferred [unix.Close(fd)] (dial.go:35, listen.go:34), then the return *)
Definition close_and_return (fd : nat) (r : dial_result) : prog :=
  Sys (Close fd) (fun _ => Return [] (Done r)).

(** dial.go:44-46, listen.go:49-51 *)
Definition finish (fd : nat) : prog :=
  Sys (NewFile fd) (fun _ =>
  Sys (FileConn fd) (fun r =>
  close_and_return fd (match r with
                       | Ok c => (Some c, None)
                       | Err e => (None, Some (SysErr e))
                       end))).

(** dial.go:24-34, listen.go:24-33: create the socket, then [k] *)
Definition with_socket (typ : string) (k : nat -> prog) : prog :=
  Sys (Socket AF_SMC SOCK_STREAM
        (if String.eqb typ "ipv4" then protoIPv4 else protoIPv6)) (fun r =>
  match r with
  | Err e => Return [] (Done (None, Some (SysErr e)))
  | Ok fd => k fd
  end).

(** The first part of both, dial.go:18-21, listen.go:18-21.  A nil [Sockaddr]
    only comes with "err". *)
Definition with_sockaddr (e : env) (address : string)
  (k : string -> Sockaddr -> prog) : prog :=
  match createSockaddr e address with
  | (log, Done (typ, sa)) =>
    if String.eqb typ "err" then Return log (Done (None, Some ParsingIP))
    else match sa with
         | Some sa => k typ sa
         | None => Return log Panicked
         end
  | (log, Panicked) => Return log Panicked
  | (log, Exited) => Return log Exited
  end.

(** Dial, pkg/socket/dial.go:12-47 *)
Definition Dial (e : env) (address : string) : prog :=
  with_sockaddr e address (fun typ sa =>
  with_socket typ (fun fd =>
  Sys (Connect fd sa) (fun r =>                            (* dial.go:38-41 *)
  match r with
  | Err e => close_and_return fd (None, Some (SysErr e))
  | Ok _ => finish fd
  end))).

(** Listen, pkg/socket/listen.go:12-52 *)
Definition Listen (e : env) (address : string) : prog :=
  with_sockaddr e address (fun typ sa =>
  with_socket typ (fun fd =>
  Sys (Bind fd sa) (fun r =>                               (* listen.go:37-40 *)
  match r with
  | Err e => close_and_return fd (None, Some (SysErr e))
  | Ok _ =>
    Sys (ListenFd fd 1) (fun r =>                          (* listen.go:43-46 *)
    match r with
    | Err e => close_and_return fd (None, Some (SysErr e))
    | Ok _ => finish fd
    end)
  end))).

(** Run a program alone, with given responses. *)
Fixpoint run (p : prog) (rs : list response)
  : option (list (sys * response) * list string * outcome dial_result) :=
  match p, rs with
  | Return log r, [] => Some ([], log, r)
  | Sys c k, r :: rs' =>
    match run (k r) rs' with
    | Some (tr, log, o) => Some ((c, r) :: tr, log, o)
    | None => None
    end
  | _, _ => None
  end.

(** ** Descriptors of a process

    Any number of goroutines run [Dial] and [Listen], while other code opens
    and closes descriptors of its own, connections are closed by their users,
    and the garbage collector runs finalizers. *)

(** What an open descriptor is for: the socket made by call [id], the
    connection or listener made by call [id], or something else. *)
Inductive owner := OSock (id : nat) | OConn (id : nat) | OOther (j : nat).

Record ostate := mkostate {
  tab : nat -> option owner;              (* the descriptor table *)
  running : nat -> option (nat * prog);   (* goroutine: its call, what is left *)
  calls : nat;                            (* number of calls so far *)
  returned : list nat;                    (* calls that have returned *)
  garbage : list (nat * nat) }.           (* descriptor and call of garbage os.Files *)

(** Who closes a descriptor. *)
Inductive closer := ByCall (id : nat) | ByFinalizer | ByUser.

Inductive oevent :=
| ECalled (id : nat)
| EClosed (fd : nat) (what : option owner) (who : closer)
| EReturned (id : nat) (r : outcome dial_result).

Inductive ochoice :=
| CallDial (t : nat) (e : env) (address : string)
| CallListen (t : nat) (e : env) (address : string)
| Go (t : nat) (r : response)        (* goroutine [t]: next request, response *)
| Open (fd j : nat)                  (* other code opens a descriptor *)
| CloseOther (fd j : nat)            (* other code closes its descriptor *)
| CloseConn (fd id : nat)            (* a user closes a connection *)
| Finalize (fd id : nat).            (* os.File.close by the garbage collector *)

Definition oupd {A} (f : nat -> A) (k : nat) (v : A) : nat -> A :=
  fun x => if (x =? k)%nat then v else f x.

Definition is_free (s : ostate) (fd : nat) : bool :=
  match tab s fd with None => true | Some _ => false end.

(** The effect of request [c] of call [id] with response [r]; [None] if the
    operating system cannot respond like this. *)
Definition effect (s : ostate) (id : nat) (c : sys) (r : response)
  : option ((nat -> option owner) * list (nat * nat) * list oevent) :=
  match c, r with
  | Socket _ _ _, Ok fd =>
    if is_free s fd then Some (oupd (tab s) fd (Some (OSock id)), garbage s, [])
    else None
  | FileConn fd, Ok n =>
    if is_free s n
    then Some (oupd (tab s) n (Some (OConn id)), (fd, id) :: garbage s, [])
    else None
  | FileConn fd, Err _ => Some (tab s, (fd, id) :: garbage s, [])
  | Close fd, _ =>
    Some (oupd (tab s) fd None, garbage s, [EClosed fd (tab s fd) (ByCall id)])
  | _, _ => Some (tab s, garbage s, [])
  end.

Definition ocall (s : ostate) (t : nat) (p : prog) : option (ostate * list oevent) :=
  match running s t with
  | Some _ => None
  | None => Some (mkostate (tab s) (oupd (running s) t (Some (calls s, p)))
                           (S (calls s)) (returned s) (garbage s), [ECalled (calls s)])
  end.

(** Remove one occurrence. *)
Fixpoint remove_one (x : nat * nat) (l : list (nat * nat)) : option (list (nat * nat)) :=
  match l with
  | [] => None
  | y :: l' => if ((fst x =? fst y) && (snd x =? snd y))%nat then Some l'
               else match remove_one x l' with Some m => Some (y :: m) | None => None end
  end.

Definition owner_eqb (a b : owner) : bool :=
  match a, b with
  | OSock i, OSock j | OConn i, OConn j | OOther i, OOther j => (i =? j)%nat
  | _, _ => false
  end.

Definition owns (s : ostate) (fd : nat) (o : owner) : bool :=
  match tab s fd with Some o' => owner_eqb o o' | None => false end.

Definition close_own (s : ostate) (fd : nat) (o : owner) : option (ostate * list oevent) :=
  if owns s fd o
  then Some (mkostate (oupd (tab s) fd None) (running s) (calls s) (returned s) (garbage s),
             [EClosed fd (tab s fd) ByUser])
  else None.

Definition ostep (s : ostate) (ch : ochoice) : option (ostate * list oevent) :=
  match ch with
  | CallDial t e address => ocall s t (Dial e address)
  | CallListen t e address => ocall s t (Listen e address)
  | Go t r =>
    match running s t with
    | Some (id, Return _ res) =>
      Some (mkostate (tab s) (oupd (running s) t None) (calls s) (id :: returned s) (garbage s),
            [EReturned id res])
    | Some (id, Sys c k) =>
      match effect s id c r with
      | Some (tab', garbage', ev) =>
        Some (mkostate tab' (oupd (running s) t (Some (id, k r))) (calls s)
                       (returned s) garbage', ev)
      | None => None
      end
    | None => None
    end
  | Open fd j =>
    if is_free s fd
    then Some (mkostate (oupd (tab s) fd (Some (OOther j))) (running s) (calls s) (returned s) (garbage s), [])
    else None
  | CloseOther fd j => close_own s fd (OOther j)
  | CloseConn fd id =>
    if existsb (Nat.eqb id) (returned s) then close_own s fd (OConn id) else None
  | Finalize fd id =>
    match remove_one (fd, id) (garbage s) with
    | Some g => Some (mkostate (oupd (tab s) fd None) (running s) (calls s) (returned s) g,
                      [EClosed fd (tab s fd) ByFinalizer])
    | None => None
    end
  end.

Fixpoint oexec (s : ostate) (cs : list ochoice) : option (ostate * list oevent) :=
  match cs with
  | [] => Some (s, [])
  | ch :: cs' =>
    match ostep s ch with
    | None => None
    | Some (s', ev) =>
      match oexec s' cs' with
      | None => None
      | Some (s'', evs) => Some (s'', (ev ++ evs)%list)
      end
    end
  end.

(** A process with the descriptors [t] of other code. *)
Definition ostart (t : nat -> option nat) : ostate :=
  mkostate (fun fd => match t fd with Some j => Some (OOther j) | None => None end)
           (fun _ => None) 0 [] [].
