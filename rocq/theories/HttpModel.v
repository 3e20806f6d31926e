(** * HttpModel: the output buffer and the request handler of pkg/http.

    Goroutines are interleaved at the level of single byte copies.  A program
    is not fixed: at any time any goroutine that is not inside a call may call
    any method with any argument or start to serve any request, so the model
    covers every program using the package.

    Simplifications, all stated again in DESIGN.md:
    - Interleaving (sequentially consistent) semantics: sound here because all
      accesses to shared memory are made under the mutex.
    - The argument of [Write] is a value: the caller does not change its bytes
      during the call (the contract of io.Writer).
    - The read offset of the server's [bytes.Buffer] stays 0, because nothing
      reads from it; [bytes.Buffer] is therefore a slice.
    - Memory is not exhausted ([bytes.ErrTooLarge] is not modelled).
    - [net/http] may deliver any part of a response, and reports what it
      likes. *)

From Coq Require Import NArith Bool String Arith List.
From Verif Require Import GoBase QueryModel.
Import ListNotations.
Local Open Scope nat_scope.

(** The methods of pkg/http/buffer.go *)
Inductive call :=
| Write (p : list byte)        (* buffer.go:15-19 *)
| CopyBuffer                   (* buffer.go:22-29 *)
| Reset.                       (* buffer.go:32-36 *)

(** What a call returns.  [CopyBuffer] returns a new [bytes.Buffer] whose slice
    has the given array and length. *)
Inductive ref_result :=
| RefWrite (n : nat)
| RefCopy (a n : nat)
| RefReset.

(** The observable result: for [CopyBuffer] the bytes in the returned buffer
    at the time of the return. *)
Inductive result :=
| ResWrite (n : nat)
| ResCopy (bs : list byte)
| ResReset.

(** Who makes a call: client code, the copy in [handleRequest] for a request
    with the given raw query (http.go:25), or the reset in [handleRequest]
    (http.go:31) of the request whose copy was call [cid]. *)
Inductive origin :=
| Client
| ForRequest (raw : string)
| ForFlush (cid : nat).

(** Where a goroutine is.  [id] identifies the call. *)
Inductive pc :=
| Idle
| Lock (id : nat) (c : call) (o : origin)
    (* at [b.lock.Lock()], buffer.go:16, 23, 33 *)
| Grow (id : nat) (p : list byte) (o : origin)
    (* holds the mutex, at [b.buffer.Write(p)], buffer.go:18 *)
| Move (id : nat) (p : list byte) (o : origin) (a i : nat)
    (* bytes.Buffer.grow: the first [i] bytes are copied to the new array [a] *)
| Append (id : nat) (p : list byte) (o : origin) (m i : nat)
    (* bytes.Buffer.Write: the first [i] bytes of [p] are copied to [m..] *)
| Make (id : nat) (o : origin)
    (* holds the mutex, at buffer.go:25-26 *)
| Copy (id : nat) (o : origin) (src n a i : nat)
    (* buffer.go:27: the first [i] of [n] bytes are copied from [src] to [a] *)
| Clear (id : nat) (o : origin)
    (* holds the mutex, at buffer.go:35 *)
| Unlock (id : nat) (c : call) (o : origin) (r : ref_result)
    (* at the deferred [b.lock.Unlock()], buffer.go:17, 24, 34 *)
| Return (id : nat) (c : call) (o : origin) (r : ref_result)
| Deliver (cid : nat) (raw : string) (a n : nat)
    (* http.go:26, the copy is the array [a] with [n] bytes *)
| Decide (cid : nat) (raw : string).
    (* http.go:29-30 *)

(** [bytes.Buffer] of the server: slice [buf] with array, length, capacity. *)
Record bbuf := mkbbuf { b_arr : nat; b_len : nat; b_cap : nat }.

(** The state of the process.  [owned] are the copies that client code holds:
    which call returned it, and the array and length of its slice. *)
Record state := mkstate {
  heap : nat -> list byte;
  fresh : nat;                  (* all arrays from here on are unused *)
  buf : bbuf;                   (* Buffer.buffer, buffer.go:11 *)
  lock : option nat;            (* Buffer.lock, buffer.go:10: its holder *)
  thr : nat -> pc;
  ids : nat;                    (* number of calls so far *)
  owned : list (nat * (nat * nat)) }.

(** The observable events. *)
Inductive event :=
| Inv (id t : nat) (c : call) (o : origin)
| Ret (id : nat) (r : result)
| Sent (cid : nat) (bs : list byte)     (* bytes the client of a request got *)
| Served (cid : nat).                   (* [handleRequest] returned *)

(** What can happen next. *)
Inductive choice :=
| Call (t : nat) (c : call)             (* client code in goroutine [t] *)
| Request (t : nat) (raw : string)      (* net/http starts goroutine [t] *)
| Step (t n : nat)                      (* [t] continues; [n] see below *)
| Poke (id i : nat) (b : byte).         (* client code changes the copy it
                                           got from call [id] *)

Definition upd {A} (f : nat -> A) (k : nat) (v : A) : nat -> A :=
  fun x => if x =? k then v else f x.

Definition set_nth (l : list byte) (i : nat) (b : byte) : list byte :=
  firstn i l ++ match skipn i l with [] => [] | _ :: t => b :: t end.

Definition set_pc (s : state) (t : nat) (x : pc) : state :=
  mkstate (heap s) (fresh s) (buf s) (lock s) (upd (thr s) t x) (ids s) (owned s).
Definition set_lock (s : state) (l : option nat) : state :=
  mkstate (heap s) (fresh s) (buf s) l (thr s) (ids s) (owned s).
Definition set_buf (s : state) (b : bbuf) : state :=
  mkstate (heap s) (fresh s) b (lock s) (thr s) (ids s) (owned s).
Definition set_heap (s : state) (h : nat -> list byte) : state :=
  mkstate h (fresh s) (buf s) (lock s) (thr s) (ids s) (owned s).
Definition set_owned (s : state) (o : list (nat * (nat * nat))) : state :=
  mkstate (heap s) (fresh s) (buf s) (lock s) (thr s) (ids s) o.
Definition next_id (s : state) : state :=
  mkstate (heap s) (fresh s) (buf s) (lock s) (thr s) (S (ids s)) (owned s).

(** [make([]byte, n)]: a new array; its identity is the old [fresh s]. *)
Definition alloc (s : state) (n : nat) : state :=
  mkstate (upd (heap s) (fresh s) (zeros n)) (S (fresh s)) (buf s) (lock s)
          (thr s) (ids s) (owned s).

(** [heap s a[i] := b] *)
Definition store (s : state) (a i : nat) (b : byte) : state :=
  set_heap s (upd (heap s) a (set_nth (heap s a) i b)).

(** [heap s a[i]] *)
Definition load (s : state) (a i : nat) : byte := nth i (heap s a) x00.

(** Goroutine [t] calls a method. *)
Definition invoke (s : state) (t : nat) (c : call) (o : origin)
  : state * list event :=
  (next_id (set_pc s t (Lock (ids s) c o)), [Inv (ids s) t c o]).

(** The observable result at the time of return. *)
Definition observe (s : state) (r : ref_result) : result :=
  match r with
  | RefWrite n => ResWrite n
  | RefCopy a n => ResCopy (firstn n (heap s a))
  | RefReset => ResReset
  end.

(** The next step of goroutine [t], which is at [x].  [n] resolves what the
    code leaves open: how much more than necessary [bytes.Buffer] allocates
    when it grows, and how many bytes of a response reach the client. *)
Definition step_thread (s : state) (t n : nat) (x : pc)
  : option (state * list event) :=
  match x with
  | Idle => None
  (* sync.Mutex.Lock: blocks while the mutex is held *)
  | Lock id c o =>
    match lock s with
    | Some _ => None
    | None =>
      let s' := set_lock s (Some t) in
      match c with
      | Write p => Some (set_pc s' t (Grow id p o), [])
      | CopyBuffer => Some (set_pc s' t (Make id o), [])
      | Reset => Some (set_pc s' t (Clear id o), [])
      end
    end
  (* bytes.Buffer.Write: tryGrowByReslice, or else grow into a new array of
     at least the needed capacity *)
  | Grow id p o =>
    let b := buf s in
    let m := b_len b in
    let need := m + List.length p in
    if need <=? b_cap b then
      Some (set_pc (set_buf s (mkbbuf (b_arr b) need (b_cap b))) t
                   (Append id p o m 0), [])
    else
      Some (set_pc (alloc s (need + n)) t (Move id p o (fresh s) 0), [])
  | Move id p o a i =>
    let b := buf s in
    let m := b_len b in
    if i <? m then
      Some (set_pc (store s a i (load s (b_arr b) i)) t (Move id p o a (S i)), [])
    else
      Some (set_pc (set_buf s (mkbbuf a (m + List.length p)
                                      (List.length (heap s a)))) t
                   (Append id p o m 0), [])
  | Append id p o m i =>
    if i <? List.length p then
      Some (set_pc (store s (b_arr (buf s)) (m + i) (nth i p x00)) t
                   (Append id p o m (S i)), [])
    else Some (set_pc s t (Unlock id (Write p) o (RefWrite (List.length p))), [])
  (* buffer.go:25-26: oldBuf := b.buffer.Bytes(); newBuf := make([]byte, len(oldBuf)) *)
  | Make id o =>
    let b := buf s in
    Some (set_pc (alloc s (b_len b)) t (Copy id o (b_arr b) (b_len b) (fresh s) 0), [])
  (* buffer.go:27: copy(newBuf, oldBuf) *)
  | Copy id o src k a i =>
    if i <? k then
      Some (set_pc (store s a i (load s src i)) t (Copy id o src k a (S i)), [])
    else Some (set_pc s t (Unlock id CopyBuffer o (RefCopy a k)), [])
  (* buffer.go:35: b.buffer = bytes.Buffer{} *)
  | Clear id o =>
    Some (set_pc (set_buf s (mkbbuf 0 0 0)) t (Unlock id Reset o RefReset), [])
  (* the deferred Unlock *)
  | Unlock id c o r =>
    Some (set_pc (set_lock s None) t (Return id c o r), [])
  (* return to the caller: client code, or handleRequest *)
  | Return id c o r =>
    let ev := Ret id (observe s r) in
    match o, r with
    | Client, RefCopy a k =>
      Some (set_pc (set_owned s ((id, (a, k)) :: owned s)) t Idle, [ev])
    | Client, _ => Some (set_pc s t Idle, [ev])
    | ForRequest raw, RefCopy a k => Some (set_pc s t (Deliver id raw a k), [ev])
    | ForRequest _, _ => None
    | ForFlush cid, _ => Some (set_pc s t Idle, [ev; Served cid])
    end
  (* http.go:26-28: io.Copy(w, b), which may fail half-way; then http.go goes
     on in either case *)
  | Deliver cid raw a k =>
    Some (set_pc s t (Decide cid raw), [Sent cid (firstn n (firstn k (heap s a)))])
  (* http.go:29-32 *)
  | Decide cid raw =>
    if flushes raw then Some (invoke s t Reset (ForFlush cid))
    else Some (set_pc s t Idle, [Served cid])
  end.

(** One step of the process. *)
Definition step (s : state) (ch : choice) : option (state * list event) :=
  match ch with
  | Call t c =>
    match thr s t with
    | Idle => Some (invoke s t c Client)
    | _ => None
    end
  | Request t raw =>
    match thr s t with
    | Idle => Some (invoke s t CopyBuffer (ForRequest raw))   (* http.go:25 *)
    | _ => None
    end
  | Step t n => step_thread s t n (thr s t)
  | Poke id i b =>
    match find (fun x => fst x =? id) (owned s) with
    | Some (_, (a, _)) => Some (store s a i b, [])
    | None => None
    end
  end.

(** The process starts with the zero value of [Server] (http.go:13). *)
Definition start : state :=
  mkstate (fun _ => []) 1 (mkbbuf 0 0 0) None (fun _ => Idle) 0 [].

(** Executions: the state and the events after a sequence of choices, [None]
    if one of them is not possible. *)
Fixpoint exec (s : state) (cs : list choice) : option (state * list event) :=
  match cs with
  | [] => Some (s, [])
  | ch :: cs' =>
    match step s ch with
    | None => None
    | Some (s', ev) =>
      match exec s' cs' with
      | None => None
      | Some (s'', evs) => Some (s'', ev ++ evs)
      end
    end
  end.

(** The bytes in the server's buffer: [b.buffer.Bytes()]. *)
Definition contents (s : state) : list byte :=
  firstn (b_len (buf s)) (heap s (b_arr (buf s))).

(** ** StartServer

    pkg/http/http.go:37-50, with the state it depends on: the [Listener] field
    of the global [server], and whether a handler for "/" is registered
    with the default ServeMux.  [listen] is the result of [net.Listen("tcp",
    addr)] (http.go:39).  The result is the address of the global [server],
    i.e. nothing of interest beyond the changed globals, and whether a
    goroutine serves the listener (http.go:47). *)
Record globals := mkglobals {
  g_listener : option nat;      (* server.Listener *)
  g_handler : bool;             (* a handler for "/" is registered *)
  g_serving : list nat }.       (* listeners with a goroutine in http.Serve *)

(** Globals at the start of the process. *)
Definition globals0 : globals := mkglobals None false [].

(** The globals after the call (also after a panic, where the caller may
    recover) and how it ended. *)
Definition StartServer (listen : option nat) (g : globals)
  : globals * outcome unit :=
  match listen with
  | None => (g, Exited)                           (* log.Fatal, http.go:40-42 *)
  | Some l =>
    let g1 := mkglobals (Some l) (g_handler g) (g_serving g) in   (* http.go:43 *)
    if g_handler g1 then
      (* http.HandleFunc panics for a pattern that is registered already *)
      (g1, Panicked)
    else
      (mkglobals (g_listener g1) true (l :: g_serving g1), Done tt)
  end.

(** Several calls of [StartServer] in one process, whose panics are recovered;
    nothing follows the exit of the process. *)
Fixpoint StartServers (listens : list (option nat)) (g : globals)
  : globals * list (outcome unit) :=
  match listens with
  | [] => (g, [])
  | l :: rest =>
    let (g', o) := StartServer l g in
    match o with
    | Exited => (g', [o])
    | _ => let (g'', os) := StartServers rest g' in (g'', o :: os)
    end
  end.
