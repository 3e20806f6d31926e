(** * RecoverRaw: the copy of the bytes in LLC objects, also after a panic. Proofs only. *)

From Coq Require Import NArith ZArith Bool String Arith List Lia.
From Verif Require Import GoBase GoFmt ClcModel LlcModel RoceModel Setters WriteModel LlcWriteModel Slices Wire
  ClcView LlcView LlcParse RoceParse Keep.
Import ListNotations.
Local Open Scope nat_scope.

(** [w] makes [P] true, however it ends *)
Definition sets {R A} (P : R -> Prop) (w : W R A) : Prop := forall r, P (snd (w r)).

Lemma sets_bind {R A B} (P : R -> Prop) (x : W R A) (k : A -> W R B) :
  sets P x -> (forall a, keeps P (k a)) -> sets P (wbind x k).
Proof.
  intros Hx Hk r. unfold wbind. specialize (Hx r). destruct (x r) as [[l [a| |]] r1]; cbn in *; auto.
  specialize (Hk a r1 Hx). destruct (k a r1) as [[l2 o] r2]. exact Hk.
Qed.

Lemma sets_part {R S A} (P : R -> Prop) (Q : S -> Prop) (f : R -> S) s (w : W S A) :
  (forall q r, Q q -> P (s q r)) -> sets Q w -> sets P (part f s w).
Proof.
  intros H Hw r. unfold part. specialize (Hw (f r)). destruct (w (f r)) as [[l o] q]. apply H, Hw.
Qed.

Lemma sets_change {R} (P : R -> Prop) (f : R -> R) : (forall r, P (f r)) -> sets P (change f).
Proof. intros H r. apply H. Qed.

Ltac raw_kept := intros ? [] ?; cbn in *; assumption.

Ltac keep_raw :=
  cbv zeta;
  lazymatch goal with
  | |- keeps _ (wbind _ _) => apply keeps_bind; [|intros ?]
  | |- keeps _ (lift _) => apply keeps_lift
  | |- keeps _ (wret _) => apply keeps_wret
  | |- keeps _ (get _) => apply keeps_get
  | |- keeps _ (change _) => apply keeps_change; intros [] ?; cbn in *; assumption
  | |- keeps _ (assign _ _) => apply keeps_assign; raw_kept
  | |- keeps _ (assignf _ _ _) => apply keeps_assignf; raw_kept
  | |- keeps _ (part _ _ _) => apply keeps_any; raw_kept
  | |- keeps _ (copyto _ _ _ _ _ _) => unfold copyto
  | |- keeps _ (copyall _ _ _ _) => unfold copyall
  | |- keeps _ (maketo _ _ _ _ _ _ _) => unfold maketo
  | |- keeps _ (write24 _ _ _ _) => unfold write24
  | |- keeps _ (if ?c then _ else _) => destruct c
  | |- keeps _ (match ?x with _ => _ end) => destruct x
  end.

Section raw.
  Context (m : mem) (buf : slice) (Hok : slice_ok m buf).
  Local Notation bs := (s_bytes m buf).
  Local Notation raw := (fun b => b_Raw b = bs).

  Lemma BaseMsg_sets : sets raw (BaseMsg_W m buf).
  Proof.
    unfold BaseMsg_W. apply sets_bind; [apply sets_change; intros []; apply setRaw_bytes, Hok|].
    intros _. repeat keep_raw.
  Qed.

  Ltac by_base := apply sets_bind; [apply (sets_part _ raw); [intros ? [] ?; assumption|apply BaseMsg_sets]|];
    intros _; repeat keep_raw.

  Lemma LLC_W_bytes old l o new : LLC_W m buf old = (l, o, new) -> b_Raw (LLC_Base new) = bs.
  Proof.
    destruct old as [x|x|x|x|x|x|x|x|x|x]; cbn [LLC_W]; unfold linside;
    [ assert (H : sets (fun r => b_Raw (cl_Base r) = bs) (ConfirmLink_W m buf))
    | assert (H : sets (fun r => b_Raw (al_Base r) = bs) (AddLink_W m buf))
    | assert (H : sets (fun r => b_Raw (ac_Base r) = bs) (AddLinkCont_W m buf))
    | assert (H : sets (fun r => b_Raw (dl_Base r) = bs) (DeleteLink_W m buf))
    | assert (H : sets (fun r => b_Raw (ck_Base r) = bs) (ConfirmRKey_W m buf))
    | assert (H : sets (fun r => b_Raw (cc_Base r) = bs) (ConfirmRKeyCont_W m buf))
    | assert (H : sets (fun r => b_Raw (dk_Base r) = bs) (deleteRKey_W m buf))
    | assert (H : sets (fun r => b_Raw (tl_Base r) = bs) (TestLink_W m buf))
    | assert (H : sets (fun r => b_Raw (c_Base r) = bs) (CDC_W m buf))
    | assert (H : sets (fun r => b_Raw (o_Base r) = bs) (Other_W m buf))].
    all: try (match goal with H : sets _ ?w |- context [?w ?r] =>
        specialize (H r); destruct (w r) as [[l1 o1] r1]; cbn in H;
        intros [= <- <- <-]; exact H end).
    - unfold ConfirmLink_W. by_base.
    - unfold AddLink_W. by_base.
    - unfold AddLinkCont_W. by_base.
    - unfold DeleteLink_W. by_base.
    - unfold ConfirmRKey_W. by_base.
    - unfold ConfirmRKeyCont_W. by_base.
    - unfold deleteRKey_W. by_base.
    - unfold TestLink_W. by_base.
    - unfold CDC_W. apply sets_bind; [apply sets_change; intros [[] ? ? ? ? ? ? ? ? ? ? ? ? ? ? ? ? ? ?]; apply setRaw_bytes, Hok|].
      intros _. repeat keep_raw.
    - unfold Other_W. apply sets_bind; [apply sets_change; intros [[]]; apply setRaw_bytes, Hok|].
      intros _. repeat keep_raw.
  Qed.

  Lemma LLC_W_raw old l o new : LLC_W m buf old = (l, o, new) -> LLC_Hex new = hex_dump bs.
  Proof. intros E. unfold LLC_Hex, BaseMsg_Hex. rewrite (LLC_W_bytes old l o new E). reflexivity. Qed.

  Lemma BTH_W_bytes old : bth_Raw (snd (BTH_W m buf old)) = bs.
  Proof.
    assert (H : sets (fun r => bth_Raw r = bs) (BTH_W m buf)); [|apply H].
    unfold BTH_W. apply sets_bind; [apply sets_change; intros []|intros _; repeat keep_raw].
    cbn. apply (setRaw_bytes m buf Hok).
  Qed.

  Lemma BTH_W_raw old : BTH_Hex (snd (BTH_W m buf old)) = hex_dump bs.
  Proof. unfold BTH_Hex. rewrite BTH_W_bytes. reflexivity. Qed.
End raw.
