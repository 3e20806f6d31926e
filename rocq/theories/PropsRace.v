(** * PropsRace: the HTTP output buffer is free of data races (C66). *)

From Coq Require Import NArith Bool String Arith List.
From Verif Require Import GoBase HttpModel HttpMain RaceSpec RaceFacts.
Import ListNotations.
Local Open Scope nat_scope.

(** Of two goroutines, or a goroutine and client code that changes a copy it
    got, never is one about to write what the other is about to access. *)
Theorem C66_no_data_race : forall cs s tr ch1 ch2 l, exec start cs = Some (s, tr) ->
  actor ch1 <> actor ch2 -> ~ race s ch1 ch2 l.
Proof. exact no_race. Qed.
Print Assumptions C66_no_data_race.

(** The buffer is only accessed by the goroutine that holds the mutex. *)
Theorem C66_buffer_needs_mutex : forall cs s tr ch, exec start cs = Some (s, tr) ->
  writes s ch TheBuffer \/ reads s ch TheBuffer ->
  exists t, actor ch = Some t /\ lock s = Some t.
Proof. exact buffer_needs_mutex. Qed.
Print Assumptions C66_buffer_needs_mutex.

Theorem C66_bytes_need_mutex : forall cs s tr ch i, exec start cs = Some (s, tr) ->
  writes s ch (Elem (b_arr (buf s)) i) \/ reads s ch (Elem (b_arr (buf s)) i) ->
  exists t, actor ch = Some t /\ lock s = Some t.
Proof. exact bytes_need_mutex. Qed.
Print Assumptions C66_bytes_need_mutex.

(** In a reachable state a goroutine writes a byte of the buffer while another
    one waits, *)
Example C66_ex_writes : exists tr,
  exec start at_append = Some (run_to at_append, tr) /\
  writes (run_to at_append) (Step 1 0) (Elem 1 0) /\
  thr (run_to at_append) 2 = Lock 1 CopyBuffer Client.
Proof.
  eexists. split; [vm_compute; reflexivity|]. split; [|vm_compute; reflexivity].
  exists (run_to at_append). do 2 eexists. split; [apply od_refl|].
  split; [vm_compute; reflexivity|vm_compute; discriminate].
Qed.

(** later the other one reads it, *)
Example C66_ex_reads : exists tr,
  exec start at_copy = Some (run_to at_copy, tr) /\
  reads (run_to at_copy) (Step 2 0) (Elem 1 0) /\
  b_arr (buf (run_to at_copy)) = 1.
Proof.
  eexists. split; [vm_compute; reflexivity|]. split; [|vm_compute; reflexivity].
  eapply (reads_by _ _ _ (store (run_to at_copy) 1 0 x62) (Elem 2 0));
    [apply od_change|vm_compute; reflexivity|vm_compute; reflexivity| |]; vm_compute; discriminate.
Qed.

(** and both at once, which only the mutex prevents, were a race. *)
Example C66_ex_race : race no_mutex (Step 1 0) (Step 2 0) (Elem 1 0).
Proof.
  split.
  - exists no_mutex. do 2 eexists. split; [apply od_refl|].
    split; [vm_compute; reflexivity|vm_compute; discriminate].
  - right. eapply (reads_by _ _ _ (store no_mutex 1 0 x62) (Elem 2 0));
    [apply od_change|vm_compute; reflexivity|vm_compute; reflexivity| |]; vm_compute; discriminate.
Qed.
