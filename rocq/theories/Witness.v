(** * Witness: a tactic for the examples beside the theorems. *)

From Coq Require Import NArith Arith String Ascii List.
From Verif Require Import GoBase ClcModel ClcView LlcView Show Samples.

Lemma prefix_shows t : forall s, String.prefix t s = true -> exists b, s = append t b.
Proof.
  induction t as [|a t IH]; intros s H; [exists s; reflexivity|].
  destruct s as [|c s]; [discriminate|]. cbn in H. destruct (ascii_dec a c) as [<-|]; [|discriminate].
  destruct (IH s H) as [b ->]. exists b. reflexivity.
Qed.

Fixpoint contains (t s : string) : bool :=
  String.prefix t s || match s with String _ s' => contains t s' | EmptyString => false end.

Lemma contains_shows t : forall s, contains t s = true -> shows s t.
Proof.
  induction s as [|c s IH]; cbn [contains]; intros H; apply Bool.orb_true_iff in H; destruct H as [H|H].
  - destruct (prefix_shows _ _ H) as [b E]. exists EmptyString, b. exact E.
  - discriminate.
  - destruct (prefix_shows _ _ H) as [b E]. exists EmptyString, b. exact E.
  - destruct (IH H) as (a & b & ->). exists (String c a), b. reflexivity.
Qed.

(** what a parsed message leaves is reachable *)
Lemma reach_parsed bs k l new :
  Message_Parse (mem1 bs) (fresh k) (slice1 bs) = (l, Done new) -> reachable new.
Proof. intros E. eapply reach_parse; [apply (reach_fresh k)|apply (slice1_ok bs)|exact E]. Qed.

Ltac refuted := let H := fresh in intros H;
  specialize (H ltac:(vm_compute; reflexivity)); apply Nat.leb_le in H; vm_compute in H; discriminate H.
Ltac sizes := vm_compute; repeat constructor.

Ltac computes_le := match goal with
  | |- (_ <= _)%nat => apply Nat.leb_le; vm_compute; reflexivity
  | |- (_ <= _)%N => apply N.leb_le; vm_compute; reflexivity
  end.

(** a goal without variables: conjunctions and existentials of comparisons of computable terms *)
Ltac computes :=
  cbv zeta;
  repeat lazymatch goal with
  | |- _ /\ _ => split
  | |- ex _ => eexists
  | |- slice_ok _ (slice1 _) => apply slice1_ok
  | |- slice_ok _ (slice_n _ _) => apply slice_n_ok
  | |- reachable (fresh _) => apply reach_fresh
  | |- llc_reachable (llc_fresh _) => apply llc_reach_fresh
  | |- message_wf _ => sizes
  | |- llc_wf _ => sizes
  | |- accept_smcr_wf _ => sizes
  | |- accept_smcd_wf _ => sizes
  | |- accept_smcdv2_wf _ => sizes
  | |- decline_wf _ => sizes
  | |- declinev2_wf _ => sizes
  | |- proposal_wf _ => sizes
  | |- proposalv2_wf _ => sizes
  | |- v2_ip_room _ _ => intros _
  | |- v2_ext_room _ _ => intros _
  | |- v2_smcd_room _ _ => intros _
  | |- ~ v2_ip_room _ _ => refuted
  | |- ~ v2_ext_room _ _ => refuted
  | |- ~ v2_smcd_room _ _ => refuted
  | |- (_ <= _)%nat => apply Nat.leb_le; vm_compute; reflexivity
  | |- (_ < _)%nat => apply Nat.ltb_lt; vm_compute; reflexivity
  | |- (_ <= _)%N => apply N.leb_le; vm_compute; reflexivity
  | |- (_ < _)%N => apply N.ltb_lt; vm_compute; reflexivity
  | |- @eq _ _ _ => vm_compute; reflexivity
  | |- In _ _ => vm_compute; tauto
  | |- _ <> _ => vm_compute; discriminate
  | |- _ = _ -> _ => first [intros _; computes_le | let H := fresh in intros H; vm_compute in H; discriminate H | intros _]
  | |- size_ok _ => first [exact I | vm_compute; reflexivity]
  | |- fields_present _ _ => unfold fields_present; cbn [kind_of fresh]
  | |- match _ with _ => _ end => vm_compute
  | |- True => exact I
  | |- shows _ _ => apply contains_shows; vm_compute; reflexivity
  end.
