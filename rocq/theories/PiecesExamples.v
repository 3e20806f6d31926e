(** * PiecesExamples: concrete buffers and streams for C77 and C78. *)

From Coq Require Import NArith ZArith Bool String Arith List Lia.
From Verif Require Import GoBase GoFmt ClcModel LlcModel RoceModel Samples Wire ClcView Show Sound Setters Stream WriteModel
  Elsewhere Pieces LlcExamples.
From Verif Require Import Witness.
Import ListNotations.
Local Open Scope nat_scope.

(** the bytes [bs] behind [before] and in front of [after] in array 7 *)
Definition mem_at (before bs after : list byte) : mem :=
  fun a => if a =? 7 then before ++ bs ++ after else [].
Definition slice_at (before bs : list byte) (len : nat) : slice := mkslice 7 (length before) len (length bs).

Lemma slice_at_ok before bs after len : len <= length bs -> slice_ok (mem_at before bs after) (slice_at before bs len).
Proof. intros H. split; [exact H|]. cbn. rewrite !app_length. lia. Qed.

Lemma window_at before bs after len : window (mem_at before bs after) (slice_at before bs len) = bs.
Proof.
  unfold window. cbn [s_cap s_off s_arr slice_at mem_at Nat.eqb]. unfold mem_at. cbn [Nat.eqb].
  rewrite skipn_app, skipn_all, Nat.sub_diag. cbn [app skipn]. rewrite firstn_app, Nat.sub_diag, firstn_all.
  apply app_nil_r.
Qed.

Lemma elsewhere_at before bs after len :
  same_window (mem1 bs) (slice_n bs len) (mem_at before bs after) (slice_at before bs len).
Proof.
  split; [reflexivity|split; [reflexivity|]]. rewrite window_at. unfold window. cbn. apply firstn_all.
Qed.

(** every piece in a new array that holds nothing else *)
Definition new_array (i : nat) (bs : list byte) : mem * slice := (mem1 bs, slice1 bs).

Lemma new_array_keeps : keeps new_array.
Proof. intros i bs. split; [apply slice1_ok|apply slice1_bytes]. Qed.

(** all pieces in one big array with spare capacity *)
Definition big_array (i : nat) (bs : list byte) : mem * slice :=
  (mem_at (zeros i) (bs ++ repeat xff 100) [x07], mkslice 7 i (length bs) (length bs + 100)).

Lemma big_array_keeps : keeps big_array.
Proof.
  intros i bs. unfold big_array. cbn [fst snd]. split.
  - split; cbn [s_len s_cap s_off s_arr mem_at Nat.eqb]; [lia|]. unfold mem_at. cbn [Nat.eqb].
    rewrite !app_length. unfold zeros. rewrite !repeat_length. cbn [length]. lia.
  - unfold s_bytes. cbn [s_len s_off s_arr]. unfold mem_at. cbn [Nat.eqb].
    rewrite skipn_app. unfold zeros at 1 2. rewrite skipn_all2 by (rewrite repeat_length; lia).
    rewrite repeat_length, Nat.sub_diag. cbn [app skipn]. rewrite <- app_assoc, firstn_app, Nat.sub_diag, firstn_all.
    apply app_nil_r.
Qed.

(** a v1 Proposal of 52 bytes whose IP area offset says that it has an SMC-D area of 40 bytes *)
Definition short_proposal_d : list byte := Eval vm_compute in
  firstn 39 sample_proposal ++ [x28] ++ skipn 40 sample_proposal.

(** the same bytes with another capacity can make Parse panic *)
Lemma capacity_matters : exists m1 s1 m2 s2 new, slice_ok m1 s1 /\ slice_ok m2 s2 /\ s_len s1 = s_len s2 /\
  s_bytes m1 s1 = s_bytes m2 s2 /\
  snd (Message_Parse m1 (fresh KProposal) s1) = Done new /\ snd (Message_Parse m2 (fresh KProposal) s2) = Panicked.
Proof.
  exists (mem1 (short_proposal_d ++ sample_accept_r)), (slice_n (short_proposal_d ++ sample_accept_r) 52),
    (mem1 short_proposal_d), (slice1 short_proposal_d). eexists.
  split; [apply slice_n_ok, Nat.leb_le; vm_compute; reflexivity|]. split; [apply slice1_ok|].
  split; [vm_compute; reflexivity|]. split; [vm_compute; reflexivity|].
  split; vm_compute; reflexivity.
Qed.

Ltac is_entire := split; [vm_compute; reflexivity|];
  split; [match goal with |- kind_rel (msg_type ?b) (msg_version ?b) (msg_path ?b) _ =>
    let t := eval vm_compute in (msg_type b) in replace (msg_type b) with t by (vm_compute; reflexivity);
    let t := eval vm_compute in (msg_version b) in replace (msg_version b) with t by (vm_compute; reflexivity);
    let t := eval vm_compute in (msg_path b) in replace (msg_path b) with t by (vm_compute; reflexivity);
    constructor; discriminate end|];
  split; [vm_compute; reflexivity|split; apply Nat.leb_le; vm_compute; reflexivity].

Lemma short_stream_entire : Forall (fun kb => entire (fst kb) (snd kb))
  [(KProposal, short_proposal_d); (KAcceptSMCR, sample_accept_r)].
Proof. repeat (apply Forall_cons; [cbn [fst snd]; is_entire|]). apply Forall_nil. Qed.

(** without limited capacity the pieces matter *)
Lemma pieces_matter : exists ms pieces1 pieces2 rs, Forall (fun kb => entire (fst kb) (snd kb)) ms /\
  concat pieces1 = concat (map snd ms) /\ concat pieces2 = concat (map snd ms) /\
  snd (receive false new_array 0 [] pieces1) = Done rs /\
  snd (receive false new_array 0 [] pieces2) = Panicked.
Proof.
  exists [(KProposal, short_proposal_d); (KAcceptSMCR, sample_accept_r)],
    [short_proposal_d ++ sample_accept_r], [short_proposal_d; sample_accept_r]. eexists.
  split; [apply short_stream_entire|]. split; [vm_compute; reflexivity|]. split; [vm_compute; reflexivity|].
  split; vm_compute; reflexivity.
Qed.
