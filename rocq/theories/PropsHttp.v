(** * PropsHttp: the properties of pkg/http (C36-C39, C49-C51). *)

From Coq Require Import NArith Bool String Arith List.
From Verif Require Import GoBase QueryModel HttpModel HttpSpec HttpLin HttpFacts
  QueryFacts HttpMain.
Import ListNotations.
Local Open Scope nat_scope.

(** ** C36: linearizability *)

Theorem C36_linearizable : forall cs s tr, exec start cs = Some (s, tr) ->
  NoDup (invoked tr) /\
  exists l A, legal [] l A /\ explains l tr /\
    (lock s = None -> contents s = A) /\
    forall id bs, In (Ret id (ResCopy bs)) tr ->
      exists l1 l2, l = l1 ++ (id, CopyBuffer, ResCopy bs) :: l2 /\
                    bs = written (since_reset l1).
Proof. exact linearizable. Qed.
Print Assumptions C36_linearizable.

(** The order of an execution extends the order of any earlier part of it. *)
Theorem C36_order_is_stable : forall cs1 cs2 s1 tr1 s2 tr2,
  exec start cs1 = Some (s1, tr1) -> exec s1 cs2 = Some (s2, tr2) ->
  exists l1 A1 l2 A2, legal [] l1 A1 /\ explains l1 tr1 /\
    legal A1 l2 A2 /\ explains (l1 ++ l2) (tr1 ++ tr2).
Proof. exact linearizable_prefix. Qed.
Print Assumptions C36_order_is_stable.

Example C36_order_is_stable_case : (* cut in the middle of both calls *)
  let cs1 := [Call 1 (Write [x61]); Call 2 CopyBuffer] ++ go 1 3 in let cs2 := go 1 4 ++ go 2 6 in
  exists s1 tr1 s2 tr2, exec start cs1 = Some (s1, tr1) /\ exec s1 cs2 = Some (s2, tr2) /\
    tr1 = [Inv 0 1 (Write [x61]) Client; Inv 1 2 CopyBuffer Client] /\
    tr2 = [Ret 0 (ResWrite 1); Ret 1 (ResCopy [x61])].
Proof. do 4 eexists. split; [vm_compute; reflexivity|]. split; [vm_compute; reflexivity|]. split; reflexivity. Qed.

(** Two overlapping writes and a copy. *)
Definition ex_overlap : list choice :=
  [Call 1 (Write [x61; x62]); Call 2 (Write [x63])] ++ go 2 4 ++
  [Call 3 CopyBuffer] ++ go 2 3 ++ go 1 9 ++ go 3 8.

Example C36_ex : option_map snd (exec start ex_overlap) = Some
  [Inv 0 1 (Write [x61; x62]) Client; Inv 1 2 (Write [x63]) Client;
   Inv 2 3 CopyBuffer Client; Ret 1 (ResWrite 1); Ret 0 (ResWrite 2);
   Ret 2 (ResCopy [x63; x61; x62])].
Proof. vm_compute. reflexivity. Qed.

(** The mutex is needed to get there: while it is held, nobody else gets in. *)
Example C36_ex_blocked :
  exec start ([Call 1 (Write [x61]); Call 2 (Write [x63])] ++ go 1 2 ++ go 2 1) = None.
Proof. vm_compute. reflexivity. Qed.

(** pkg/http/buffer_test.go:8-42 *)
Example C36_ex_test : option_map snd (exec start
  ([Call 0 CopyBuffer] ++ go 0 5 ++ [Call 0 (Write [x68; x69])] ++ go 0 8 ++
   [Call 0 CopyBuffer] ++ go 0 7 ++ [Call 0 (Write [x68; x69])] ++ go 0 10 ++
   [Call 0 CopyBuffer] ++ go 0 9 ++ [Call 0 Reset] ++ go 0 4 ++
   [Call 0 CopyBuffer] ++ go 0 5)) = Some
  [Inv 0 0 CopyBuffer Client; Ret 0 (ResCopy []);
   Inv 1 0 (Write [x68; x69]) Client; Ret 1 (ResWrite 2);
   Inv 2 0 CopyBuffer Client; Ret 2 (ResCopy [x68; x69]);
   Inv 3 0 (Write [x68; x69]) Client; Ret 3 (ResWrite 2);
   Inv 4 0 CopyBuffer Client; Ret 4 (ResCopy [x68; x69; x68; x69]);
   Inv 5 0 Reset Client; Ret 5 ResReset;
   Inv 6 0 CopyBuffer Client; Ret 6 (ResCopy [])].
Proof. vm_compute. reflexivity. Qed.

(** ** C37: isolation of copies *)

(** At any later time the copy returned by call [id] holds the bytes it held at
    the return, unless client code changed this very copy. *)
Theorem C37_copies_do_not_change : forall cs s tr id a k bs,
  exec start cs = Some (s, tr) ->
  In (id, (a, k)) (owned s) -> In (Ret id (ResCopy bs)) tr ->
  (forall i b, ~ In (Poke id i b) cs) -> firstn k (heap s a) = bs.
Proof. exact copies_isolated. Qed.
Print Assumptions C37_copies_do_not_change.

(** This covers all copies returned to client code. *)
Theorem C37_all_copies : forall cs s tr id t bs, exec start cs = Some (s, tr) ->
  In (Inv id t CopyBuffer Client) tr -> In (Ret id (ResCopy bs)) tr ->
  exists a k, In (id, (a, k)) (owned s).
Proof. exact copies_recorded. Qed.
Print Assumptions C37_all_copies.

(** Changing a copy changes neither the buffer nor another copy. *)
Theorem C37_changing_a_copy_is_harmless : forall cs s tr id i b s' ev,
  exec start cs = Some (s, tr) -> step s (Poke id i b) = Some (s', ev) ->
  contents s' = contents s /\ ev = [] /\
  forall id' a' k', In (id', (a', k')) (owned s) -> id' <> id ->
    heap s' a' = heap s a'.
Proof. exact poke_harmless. Qed.
Print Assumptions C37_changing_a_copy_is_harmless.

Example C37_cases : (* a copy that is not changed, then one that is *)
  let cs := [Call 1 (Write [x61; x62])] ++ go 1 8 ++ [Call 2 CopyBuffer] ++ go 2 7 ++
    [Call 1 (Write [x63])] ++ go 1 9 in
  exists s tr a k, exec start cs = Some (s, tr) /\
    In (1, (a, k)) (owned s) /\ In (Inv 1 2 CopyBuffer Client) tr /\ In (Ret 1 (ResCopy [x61; x62])) tr /\
    (forall i b, ~ In (Poke 1 i b) cs) /\
    exists s', step s (Poke 1 1 x7a) = Some (s', []) /\ firstn k (heap s' a) = [x61; x7a].
Proof.
  do 4 eexists. split; [vm_compute; reflexivity|]. split; [vm_compute; left; reflexivity|].
  split; [vm_compute; tauto|]. split; [vm_compute; tauto|]. split.
  - intros i b H. vm_compute in H. repeat (destruct H as [H|H]; [discriminate H|]). exact H.
  - eexists. split; vm_compute; reflexivity.
Qed.

(** Two copies, of which one is changed, and writes and a reset around them. *)
Definition ex_copies : list choice :=
  [Call 1 (Write [x61; x62])] ++ go 1 8 ++ [Call 2 CopyBuffer] ++ go 2 7 ++
  [Call 3 CopyBuffer] ++ go 3 7 ++ [Poke 2 0 x7a] ++
  [Call 1 (Write [x63])] ++ go 1 9 ++ [Call 1 Reset] ++ go 1 4 ++
  [Call 1 (Write [x64])] ++ go 1 7.

Example C37_ex : match exec start ex_copies with
  | Some (s, tr) => map (fun x => (fst x, firstn (snd (snd x)) (heap s (fst (snd x)))))
                        (owned s) = [(2, [x7a; x62]); (1, [x61; x62])] /\
                    contents s = [x64]
  | None => False
  end.
Proof. vm_compute. auto. Qed.

(** ** C38: what a flushing request removes *)

(** What the reset of a request removes is what the request copied, followed by
    everything written between its copy and its reset; if there was another
    reset in between, it is what was written after it.  The client got a prefix
    of the copy. *)
Theorem C38_what_a_flush_removes : forall cs s tr, exec start cs = Some (s, tr) ->
  exists l A, legal [] l A /\ explains l tr /\
  forall rid t cid, In (Inv rid t Reset (ForFlush cid)) tr -> In (Ret rid ResReset) tr ->
  exists l1 bs l2 l3 k,
    l = l1 ++ (cid, CopyBuffer, ResCopy bs) :: l2 ++ (rid, Reset, ResReset) :: l3 /\
    In (Sent cid (firstn k bs)) tr /\
    (forall d, In (Sent cid d) tr -> d = firstn k bs) /\
    forall R, legal [] (l1 ++ (cid, CopyBuffer, ResCopy bs) :: l2) R ->
      R = (if existsb is_reset l2 then [] else bs) ++ written (since_reset l2).
Proof. exact flush_removes. Qed.
Print Assumptions C38_what_a_flush_removes.

Example C38_what_a_flush_removes_case : exists s tr, exec start lost_write = Some (s, tr) /\
  In (Inv 2 2 Reset (ForFlush 0)) tr /\ In (Ret 2 ResReset) tr.
Proof. do 2 eexists. split; [vm_compute; reflexivity|]. vm_compute. tauto. Qed.

(** A byte that was written successfully can be lost although all requests got
    complete responses and nobody but requests resets the buffer: at the end all
    goroutines are idle, the buffer is empty and no response contained it. *)
Theorem C38_flush_race_refuted : exists cs s tr id t,
  exec start cs = Some (s, tr) /\
  In (Inv id t (Write [x61]) Client) tr /\ In (Ret id (ResWrite 1)) tr /\
  (forall t', thr s t' = Idle) /\ contents s = [] /\
  (forall id' t' c o, In (Inv id' t' c o) tr -> c = Reset -> exists cid, o = ForFlush cid) /\
  (forall cid d, In (Sent cid d) tr -> d = [] /\ In (Ret cid (ResCopy d)) tr).
Proof.
  destruct (exec start lost_write) as [[s tr]|] eqn:E; [|vm_compute in E; discriminate E].
  exists lost_write, s, tr, 1, 1. split; [exact E|].
  vm_compute in E. inversion E; subst; clear E. cbn.
  split; [tauto|]. split; [tauto|].
  split. { intros [|[|[|t]]]; reflexivity. }
  split; [reflexivity|]. split.
  - intros id' t' c o H ->.
    repeat (destruct H as [H|H]; [try discriminate H; inversion H; subst; eauto|]).
    destruct H.
  - intros cid d H.
    repeat (destruct H as [H|H]; [try discriminate H; inversion H; subst; tauto|]).
    destruct H.
Qed.
Print Assumptions C38_flush_race_refuted.

(** The same happens without any concurrency if the response does not reach
    the client. *)
Theorem C38_failed_response_refuted : exists cs s tr id t,
  exec start cs = Some (s, tr) /\
  In (Inv id t (Write [x61]) Client) tr /\ In (Ret id (ResWrite 1)) tr /\
  (forall t', thr s t' = Idle) /\ contents s = [] /\
  (forall id' t' c o, In (Inv id' t' c o) tr -> c = Reset -> exists cid, o = ForFlush cid) /\
  (forall cid d, In (Sent cid d) tr -> d = [] /\ In (Ret cid (ResCopy [x61])) tr).
Proof.
  destruct (exec start lost_response) as [[s tr]|] eqn:E; [|vm_compute in E; discriminate E].
  exists lost_response, s, tr, 0, 1. split; [exact E|].
  vm_compute in E. inversion E; subst; clear E. cbn.
  split; [tauto|]. split; [tauto|].
  split. { intros [|[|[|t]]]; reflexivity. }
  split; [reflexivity|]. split.
  - intros id' t' c o H ->.
    repeat (destruct H as [H|H]; [try discriminate H; inversion H; subst; eauto|]).
    destruct H.
  - intros cid d H.
    repeat (destruct H as [H|H]; [try discriminate H; inversion H; subst; tauto|]).
    destruct H.
Qed.
Print Assumptions C38_failed_response_refuted.

(** A flush whose response arrives and in whose window nothing happens. *)
Example C38_ex : option_map snd (exec start good_flush) = Some
  [Inv 0 1 (Write [x61]) Client; Ret 0 (ResWrite 1);
   Inv 1 2 CopyBuffer (ForRequest "flush=true"); Ret 1 (ResCopy [x61]);
   Sent 1 [x61]; Inv 2 2 Reset (ForFlush 1); Ret 2 ResReset; Served 1].
Proof. vm_compute. reflexivity. Qed.

(** A response is a prefix of the copy made for this request, and there is one
    response and at most one reset per request. *)
Theorem C38_response : forall cs s tr cid d, exec start cs = Some (s, tr) ->
  In (Sent cid d) tr ->
  exists t raw bs k, In (Inv cid t CopyBuffer (ForRequest raw)) tr /\
    precedes tr (Ret cid (ResCopy bs)) (Sent cid d) /\ d = firstn k bs.
Proof. exact response_is_copy. Qed.
Print Assumptions C38_response.

Theorem C38_one_response : forall cs s tr cid d d', exec start cs = Some (s, tr) ->
  In (Sent cid d) tr -> In (Sent cid d') tr -> d = d'.
Proof. exact one_response. Qed.
Print Assumptions C38_one_response.

Theorem C38_one_reset : forall cs s tr cid r1 t1 c1 r2 t2 c2,
  exec start cs = Some (s, tr) ->
  In (Inv r1 t1 c1 (ForFlush cid)) tr -> In (Inv r2 t2 c2 (ForFlush cid)) tr -> r1 = r2.
Proof. exact one_flush. Qed.
Print Assumptions C38_one_reset.

Example C38_response_case : exists s tr, exec start good_flush = Some (s, tr) /\
  In (Sent 1 [x61]) tr /\ In (Inv 2 2 Reset (ForFlush 1)) tr.
Proof. do 2 eexists. split; [vm_compute; reflexivity|]. vm_compute. tauto. Qed.

(** ** C39: the flush parameter *)

Theorem C39_flush_parameter : forall raw, flushes raw = true <-> wants_flush raw.
Proof. exact flushes_spec. Qed.
Print Assumptions C39_flush_parameter.

(** Every served request whose query asks for it has reset the buffer before it
    ended, any other request never does. *)
Theorem C39_request : forall cs s tr cid, exec start cs = Some (s, tr) ->
  In (Served cid) tr ->
  exists t raw d, In (Inv cid t CopyBuffer (ForRequest raw)) tr /\ In (Sent cid d) tr /\
    (wants_flush raw -> exists rid, In (Inv rid t Reset (ForFlush cid)) tr /\
                                    precedes tr (Ret rid ResReset) (Served cid)) /\
    (~ wants_flush raw -> forall rid t' c, ~ In (Inv rid t' c (ForFlush cid)) tr).
Proof. exact request_flushes. Qed.
Print Assumptions C39_request.

Example C39_ex_yes : map flushes
  ["flush=true"; "a=b&flush=true"; "fl%75sh=tr%75e"; "flush=tr;ue&flush=true";
   "flush=%zz&flush=true"; "&&flush=true&"; "flush=true&flush=false"]%string
  = [true; true; true; true; true; true; true].
Proof. vm_compute. reflexivity. Qed.

Example C39_ex_no : map flushes
  [""; "flush"; "flush=wrong"; "flush=True"; "flush=true+"; "flush=false&flush=true";
   "flush=true;a=b"; "Flush=true"; "flush&flush=true"; "flush==true"]%string
  = [false; false; false; false; false; false; false; false; false; false].
Proof. vm_compute. reflexivity. Qed.

(** pkg/http/http_test.go:28-75: wrong flush twice, flush, and again. *)
Example C39_ex_test : option_map (fun x => flat_map (fun e =>
    match e with Sent _ d => [d] | _ => [] end) (snd x)) (exec start
  ([Request 2 ""] ++ go 2 7 ++ [Call 1 (Write [x68; x69])] ++ go 1 8 ++
   [Request 2 "flush=wrong"] ++ go 2 7 ++ [Step 2 9; Step 2 0] ++
   [Request 2 "flush=wrong"] ++ go 2 7 ++ [Step 2 9; Step 2 0] ++
   [Request 2 "flush=true"] ++ go 2 7 ++ [Step 2 9] ++ go 2 5 ++
   [Request 2 ""] ++ go 2 7))
  = Some [[]; [x68; x69]; [x68; x69]; [x68; x69]; []].
Proof. vm_compute. reflexivity. Qed.

(** ** C49: every call can return *)

(** Whatever happened before, goroutines can be scheduled such that a call that
    was made and did not return yet returns, without any new call. *)
Theorem C49_calls_can_return : forall cs s tr id t c o, exec start cs = Some (s, tr) ->
  In (Inv id t c o) tr -> (forall r, ~ In (Ret id r) tr) ->
  exists cs' s' evs r, Forall is_step cs' /\ exec s cs' = Some (s', evs) /\
    In (Ret id r) evs.
Proof. exact calls_can_return. Qed.
Print Assumptions C49_calls_can_return.

(** The goroutine that holds the mutex gives it back within a bounded number of
    its own steps, whatever the others do: it is never blocked. *)
Theorem C49_mutex_is_released : forall cs s tr t, exec start cs = Some (s, tr) ->
  lock s = Some t ->
  exists k s', exec s (repeat (Step t 0) k) = Some (s', []) /\ lock s' = None /\
    forall t', t' <> t -> thr s' t' = thr s t'.
Proof. exact mutex_released. Qed.
Print Assumptions C49_mutex_is_released.

(** A goroutine that waits for the mutex held by another one. *)
Example C49_ex : exists s tr,
  exec start ([Call 1 (Write [x61]); Call 2 CopyBuffer] ++ go 1 2) = Some (s, tr) /\
  In (Inv 1 2 CopyBuffer Client) tr /\ (forall r, ~ In (Ret 1 r) tr) /\
  lock s = Some 1.
Proof.
  eexists. eexists. split; [vm_compute; reflexivity|]. cbn.
  split; [tauto|]. split; [|reflexivity].
  intros r [H|[H|[]]]; discriminate.
Qed.

(** ** C50: accounting of all bytes *)

(** The bytes written are, in order, the bytes removed and the bytes still
    there; and only resets by client code and by flushing requests remove
    anything. *)
Theorem C50_bytes_are_accounted_for : forall cs s tr, exec start cs = Some (s, tr) ->
  exists l A, legal [] l A /\ explains l tr /\ (lock s = None -> contents s = A) /\
    written l = removed [] l ++ A /\
    forall id r, In (id, Reset, r) l ->
      exists t, In (Inv id t Reset Client) tr \/
        exists cid raw, In (Inv id t Reset (ForFlush cid)) tr /\
          In (Inv cid t CopyBuffer (ForRequest raw)) tr /\ wants_flush raw.
Proof. exact bytes_accounted. Qed.
Print Assumptions C50_bytes_are_accounted_for.

Example C50_ex : match exec start ex_copies with
  | Some (s, tr) => contents s = [x64] /\ lock s = None
  | None => False
  end.
Proof. vm_compute. auto. Qed.

(** ** C51: StartServer *)

(** The first call in a process works; every further one panics, after it has
    replaced the listener of the server by one that is not served. *)
Theorem C51_StartServer_works_once : forall l ls,
  StartServers (map Some (l :: ls)) globals0 =
  (mkglobals (Some (last ls l)) true [l], Done tt :: repeat Panicked (List.length ls)).
Proof. exact started. Qed.
Print Assumptions C51_StartServer_works_once.

(** The process exits as soon as an address cannot be listened on. *)
Theorem C51_StartServer_exits : forall ls1 ls2, exists os,
  snd (StartServers (map Some ls1 ++ None :: ls2) globals0) = os ++ [Exited] /\
  List.length os = List.length ls1.
Proof. exact started_fatal. Qed.
Print Assumptions C51_StartServer_exits.

Example C51_ex : StartServers [Some 4; Some 7] globals0 =
  (mkglobals (Some 7) true [4], [Done tt; Panicked]).
Proof. reflexivity. Qed.
