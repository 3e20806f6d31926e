(** * LlcWriteFacts: the runs of LlcWriteModel.v agree with LlcModel.v and RoceModel.v. *)

From Coq Require Import NArith ZArith Bool String Ascii Arith List Lia ZifyBool ZifyNat ZifyN.
From Verif Require Import GoBase GoFmt ClcModel LlcModel RoceModel Setters WriteModel WriteFacts
  LlcWriteModel.
Import ListNotations.
Local Open Scope nat_scope.

Lemma each_cons {S} (w : slice -> W S slice) b e rest :
  res pair (each w b (e :: rest))
  = let* p := res pair (w b e) in
    let* q := res pair (each w (fst p) rest) in
    ret (fst q, snd p :: snd q).
Proof.
  cbn [each]. destruct (w b e) as [[l [b1| |]] e1]; cbn; try reflexivity.
  destruct (each w b1 rest) as [[l2 [b2| |]] rest1]; cbn; rewrite ?app_nil_r; reflexivity.
Qed.

Lemma BaseMsg_agrees m buf b :
  res (fun _ x => x) (BaseMsg_W m buf b) = SetBaseMsg m buf.
Proof.
  unfold BaseMsg_W, SetBaseMsg. destruct b. repeat step. rewrite res_last. repeat step.
Qed.

Lemma res_copyall {R B C} (f : B -> R -> C) g s m buf (k : unit -> W R B) r :
  res f (wbind (copyall g s m buf) k r) = res f (k tt (s (go_copy (g r) (s_bytes m buf)) r)).
Proof. unfold copyall. rewrite res_change. reflexivity. Qed.

Lemma pair_step m b e :
  res pair (RKeyPair_W m b e)
  = let* p := RKeyPair_Parse m b in let* b1 := from b 16 in ret (b1, p).
Proof.
  unfold RKeyPair_W, RKeyPair_Parse. destruct e. repeat step. rewrite res_last. repeat step.
Qed.

Lemma pairs_agree m l : forall b,
  res pair (each (RKeyPair_W m) b l)
  = let* r := RKeyPairs_Parse m (length l) b in ret (snd r, fst r).
Proof.
  induction l as [|e l IH]; intros b; [reflexivity|].
  rewrite each_cons, pair_step. cbn [length RKeyPairs_Parse]. rewrite !bind_assoc.
  apply bind_ext. intros p. rewrite !bind_assoc. apply bind_ext. intros b1. rewrite ret_bind.
  cbn [fst snd]. rewrite IH, !bind_assoc. apply bind_ext. intros [ps b2].
  rewrite !ret_bind. reflexivity.
Qed.

Lemma spec_step m b e :
  res pair (RMBSpec_W m b e)
  = let* p := RMBSpec_Parse m b in let* b1 := from b 13 in ret (b1, p).
Proof.
  unfold RMBSpec_W, RMBSpec_Parse. destruct e. repeat step. rewrite res_last. repeat step.
Qed.

Lemma specs_agree m l : forall b,
  res pair (each (RMBSpec_W m) b l)
  = let* r := RMBSpecs_Parse m (length l) b in ret (snd r, fst r).
Proof.
  induction l as [|e l IH]; intros b; [reflexivity|].
  rewrite each_cons, spec_step. cbn [length RMBSpecs_Parse]. rewrite !bind_assoc.
  apply bind_ext. intros p. rewrite !bind_assoc. apply bind_ext. intros b1. rewrite ret_bind.
  cbn [fst snd]. rewrite IH, !bind_assoc. apply bind_ext. intros [ps b2].
  rewrite !ret_bind. reflexivity.
Qed.

Lemma rkey_step m b e :
  res pair (rkey_W m b e) = let* k := be32 m b 0 4 in let* b1 := from b 4 in ret (b1, k).
Proof. unfold rkey_W. repeat step. rewrite res_last. repeat step. Qed.

Lemma rkeys_agree m l : forall b,
  res pair (each (rkey_W m) b l)
  = let* r := rkeys_Parse m (length l) b in ret (snd r, fst r).
Proof.
  induction l as [|e l IH]; intros b; [reflexivity|].
  rewrite each_cons, rkey_step. cbn [length rkeys_Parse]. rewrite !bind_assoc.
  apply bind_ext. intros p. rewrite !bind_assoc. apply bind_ext. intros b1. rewrite ret_bind.
  cbn [fst snd]. rewrite IH, !bind_assoc. apply bind_ext. intros [ps b2].
  rewrite !ret_bind. reflexivity.
Qed.

Ltac lstep :=
  cbv zeta; try compute_receiver;
  match goal with
  | |- res _ (wbind (part _ _ (BaseMsg_W ?m ?b)) _ _) = _ =>
    rewrite (res_part_unit _ _ _ _ (fun _ => SetBaseMsg m b)) by apply BaseMsg_agrees;
    apply bind_ext; intros ?
  | |- res _ (wbind (copyall _ _ _ _) _ _) = _ => rewrite res_copyall
  | |- res _ (wbind (part _ _ (each (RKeyPair_W _) _)) _ _) = _ =>
    rewrite (res_part2 _ _ _ _ _ _ _ (pairs_agree _ _ _)), bind_assoc;
    apply bind_ext; intros [? ?]; rewrite ret_bind; cbn [fst snd]
  | |- res _ (wbind (part _ _ (each (RMBSpec_W _) _)) _ _) = _ =>
    rewrite (res_part2 _ _ _ _ _ _ _ (specs_agree _ _ _)), bind_assoc;
    apply bind_ext; intros [? ?]; rewrite ret_bind; cbn [fst snd]
  | |- res _ (wbind (part _ _ (each (rkey_W _) _)) _ _) = _ =>
    rewrite (res_part2 _ _ _ _ _ _ _ (rkeys_agree _ _ _)), bind_assoc;
    apply bind_ext; intros [? ?]; rewrite ret_bind; cbn [fst snd]
  | |- res _ (copyall _ _ _ _ _) = _ => rewrite res_last
  | |- res _ (assign _ _ _) = _ => rewrite res_last
  | |- res _ (change _ _) = _ => rewrite res_last
  | |- res _ (write24 _ _ _ _ _) = _ => rewrite res_last
  | _ => step
  end.

Lemma CDC_agrees m buf r :
  res (fun _ x => x) (CDC_W m buf r) = CDC_Parse m r buf.
Proof. destruct r as [[]]. unfold CDC_W, CDC_Parse. repeat lstep. Qed.

Lemma Other_agrees m buf r :
  res (fun _ x => x) (Other_W m buf r) = Other_Parse m r buf.
Proof. destruct r as [[]]. unfold Other_W, Other_Parse. repeat lstep. Qed.

Lemma AddLink_agrees m buf r :
  res (fun _ x => x) (AddLink_W m buf r) = AddLink_Parse m r buf.
Proof. destruct r. unfold AddLink_W, AddLink_Parse. repeat lstep. Qed.

Lemma AddLinkCont_agrees m buf r :
  res (fun _ x => x) (AddLinkCont_W m buf r) = AddLinkCont_Parse m r buf.
Proof. destruct r. unfold AddLinkCont_W, AddLinkCont_Parse. repeat lstep. Qed.

Lemma ConfirmLink_agrees m buf r :
  res (fun _ x => x) (ConfirmLink_W m buf r) = ConfirmLink_Parse m r buf.
Proof. destruct r. unfold ConfirmLink_W, ConfirmLink_Parse. repeat lstep. Qed.

Lemma ConfirmRKey_agrees m buf r :
  res (fun _ x => x) (ConfirmRKey_W m buf r) = ConfirmRKey_Parse m r buf.
Proof. destruct r. unfold ConfirmRKey_W, ConfirmRKey_Parse. repeat lstep. Qed.

Lemma ConfirmRKeyCont_agrees m buf r :
  res (fun _ x => x) (ConfirmRKeyCont_W m buf r) = ConfirmRKeyCont_Parse m r buf.
Proof. destruct r. unfold ConfirmRKeyCont_W, ConfirmRKeyCont_Parse. repeat lstep. Qed.

Lemma DeleteLink_agrees m buf r :
  res (fun _ x => x) (DeleteLink_W m buf r) = DeleteLink_Parse m r buf.
Proof. destruct r. unfold DeleteLink_W, DeleteLink_Parse. repeat lstep. Qed.

Lemma deleteRKey_agrees m buf r :
  res (fun _ x => x) (deleteRKey_W m buf r) = deleteRKey_Parse m r buf.
Proof. destruct r. unfold deleteRKey_W, deleteRKey_Parse. repeat lstep. Qed.

Lemma TestLink_agrees m buf r :
  res (fun _ x => x) (TestLink_W m buf r) = TestLink_Parse m r buf.
Proof. destruct r. unfold TestLink_W, TestLink_Parse. repeat lstep. Qed.

Lemma BTH_agrees m buf r :
  res (fun _ x => x) (BTH_W m buf r) = BTH_Parse m r buf.
Proof. destruct r. unfold BTH_W, BTH_Parse. repeat lstep. Qed.

Lemma linside_res {R} con (w : W R unit) r :
  res (fun _ x => x) (linside con w r) = let* x := res (fun _ x => x) (w r) in ret (con x).
Proof. unfold linside. destruct (w r) as [[l [[]| |]] r1]; cbn; rewrite ?app_nil_r; reflexivity. Qed.

Lemma LLC_agrees m buf msg :
  res (fun _ x => x) (LLC_W m buf msg) = LLC_Parse m msg buf.
Proof.
  destruct msg; cbn [LLC_W LLC_Parse]; rewrite linside_res.
  - rewrite ConfirmLink_agrees. reflexivity.
  - rewrite AddLink_agrees. reflexivity.
  - rewrite AddLinkCont_agrees. reflexivity.
  - rewrite DeleteLink_agrees. reflexivity.
  - rewrite ConfirmRKey_agrees. reflexivity.
  - rewrite ConfirmRKeyCont_agrees. reflexivity.
  - rewrite deleteRKey_agrees. reflexivity.
  - rewrite TestLink_agrees. reflexivity.
  - rewrite CDC_agrees. reflexivity.
  - rewrite Other_agrees. reflexivity.
Qed.
