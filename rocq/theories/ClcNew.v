(** * ClcNew: what NewMessage computes. Proofs only. *)

From Coq Require Import NArith ZArith Bool String Arith List Lia.
From Coq Require Import ZifyBool ZifyNat ZifyN.
From Verif Require Import GoBase GoFmt ClcModel Slices Wire WireLemmas ClcView Steps ClcParse ClcFixed.
Import ListNotations.
Local Open Scope nat_scope.

(** the eyecatcher test, on the bytes up to the capacity *)
Lemma HasEyecatcher_ok m buf : slice_ok m buf -> 4 <= s_cap buf ->
  HasEyecatcher m buf = ret (is_eyecatcher (seg (win m buf) 0 4)).
Proof.
  intros Hok H. unfold HasEyecatcher, EyecatcherLen. rewrite (sub_self buf).
  rewrite (upto_sub buf) by lia. rewrite !bind_ret, (s_bytes_sub m buf) by lia.
  rewrite <- sub_self.
  rewrite <- HasEyecatcher_arr_spec
    by (rewrite seg_length; [reflexivity|rewrite (win_length m buf Hok); lia]).
  unfold HasEyecatcher_arr, EyecatcherLen.
  rewrite firstn_all2 by (rewrite seg_length_min; lia).
  destruct (bytes_eq _ SMCREyecatcher); [reflexivity|]. cbn [orb].
  destruct (bytes_eq _ SMCDEyecatcher); reflexivity.
Qed.

Lemma HasEyecatcher_panic m buf : s_cap buf < 4 -> HasEyecatcher m buf = panic.
Proof.
  intros H. unfold HasEyecatcher, EyecatcherLen. rewrite (sub_self buf).
  rewrite (upto_sub_panic buf) by lia. reflexivity.
Qed.

(** the decision behind the length check, with literals *)
Definition pick (typ ver path : N) : option clc_kind :=
  match typ with
  | 1 => Some (if ver =? 2 then KProposalV2 else KProposal)
  | 2 => match path with
         | 0 => Some KAcceptSMCR
         | 1 => Some (if ver =? 2 then KAcceptSMCDv2 else KAcceptSMCD)
         | _ => None end
  | 3 => match path with
         | 0 => Some KConfirmSMCR
         | 1 => Some (if ver =? 2 then KConfirmSMCDv2 else KConfirmSMCD)
         | _ => None end
  | 4 => Some (if ver =? 2 then KDeclineV2 else KDecline)
  | _ => None
  end%N.

Lemma pick_rel t v p k : pick t v p = Some k <-> kind_rel t v p k.
Proof.
  split.
  - unfold pick. intros H.
    repeat match goal with
           | H : context [match ?x with _ => _ end] |- _ => destruct x eqn:?; try discriminate
           | H : Some _ = Some _ |- _ => injection H as <-
           | H : (_ =? _)%N = true |- _ => apply N.eqb_eq in H; subst
           | H : (_ =? _)%N = false |- _ => apply N.eqb_neq in H
           end; subst; constructor; assumption.
  - destruct 1; cbn; try reflexivity;
      try (match goal with H : _ <> _ |- _ => apply N.eqb_neq in H; rewrite H end; reflexivity).
Qed.

(** the results behind the length check *)
Lemma NewMessage_8 m buf : slice_ok m buf -> 8 <= s_len buf ->
  let bs := s_bytes m buf in
  NewMessage m buf =
  if is_eyecatcher (bytes_at bs 0 4) then
    if (1024 <? declared bs)%N then
      (["Error parsing CLC header: message too big"%string; dump_line (bytes_at bs 0 8)], Done (None, 0%N))
    else match pick (msg_type bs) (msg_version bs) (msg_path bs) with
         | Some k => ret (Some (fresh k), declared bs)
         | None => ret (None, 0%N)
         end
  else ret (None, 0%N).
Proof.
  intros Hok Hlen bs. pose proof (len_le_cap _ _ Hok) as Hcap.
  pose proof (s_bytes_length m buf Hok) as Hb. fold bs in Hb.
  unfold NewMessage. rewrite HasEyecatcher_ok, bind_ret by (assumption || lia).
  rewrite (seg_win m buf Hok) by lia. fold bs. change (bytes_at bs 0 4) with (seg bs 0 4).
  destruct (is_eyecatcher (seg bs 0 4)); [|reflexivity]. cbn [negb].
  assert (EL : be16 m buf 5 7 = ret (declared bs)).
  { rewrite (sub_self buf). rewrite (be16_sub m buf Hok) by lia. rewrite be_acc0.
    rewrite (seg_win m buf Hok) by lia. fold bs. rewrite <- declared_hdr by lia. reflexivity. }
  rewrite EL, bind_ret. unfold MaxMessageSize. destruct (1024 <? declared bs)%N eqn:EM.
  - rewrite bind_log. unfold HeaderLen. rewrite (sub_self buf). rewrite (upto_sub buf) by lia.
    rewrite bind_ret. unfold errDump. rewrite bind_log, (s_bytes_sub m buf) by lia.
    rewrite (seg_win m buf Hok) by lia. reflexivity.
  - assert (ET : idx m buf 4 = ret (nth 4 bs x00)).
    { rewrite (sub_self buf). rewrite (idx_sub m buf Hok) by lia. rewrite (nth_win m buf Hok) by lia. reflexivity. }
    assert (EV : idx m buf 7 = ret (nth 7 bs x00)).
    { rewrite (sub_self buf). rewrite (idx_sub m buf Hok) by lia. rewrite (nth_win m buf Hok) by lia. reflexivity. }
    rewrite ET, bind_ret, EV, !bind_ret.
    change (b2n (nth 4 bs x00)) with (bn bs 4). rewrite msg_type_hdr by lia.
    replace (N.shiftr (b2n (nth 7 bs x00)) 4) with (msg_version bs)
      by (unfold msg_version; symmetry; bits_in_byte).
    replace (N.land (b2n (nth 7 bs x00)) 3) with (msg_path bs)
      by (unfold msg_path; symmetry; bits_in_byte).
    cbv zeta. generalize (msg_type bs) (msg_version bs) (msg_path bs). intros t v p.
    unfold pick, TypeProposal, TypeAccept, TypeConfirm, TypeDecline, SMCTypeR, SMCTypeD, SMCv2.
    destruct (N.eqb_spec t 1) as [->|N1]; [destruct (N.eqb_spec v 2); reflexivity|].
    destruct (N.eqb_spec t 2) as [->|N2].
    { destruct (N.eqb_spec p 0) as [->|P0]; [reflexivity|].
      destruct (N.eqb_spec p 1) as [->|P1]; [destruct (N.eqb_spec v 2); reflexivity|].
      destruct p as [|[?|?|]]; try contradiction; reflexivity. }
    destruct (N.eqb_spec t 3) as [->|N3].
    { destruct (N.eqb_spec p 0) as [->|P0]; [reflexivity|].
      destruct (N.eqb_spec p 1) as [->|P1]; [destruct (N.eqb_spec v 2); reflexivity|].
      destruct p as [|[?|?|]]; try contradiction; reflexivity. }
    destruct (N.eqb_spec t 4) as [->|N4]; [destruct (N.eqb_spec v 2); reflexivity|].
    destruct t as [|[[?|?|]|[[?|?|]|[?|?|]|]|]]; try contradiction; reflexivity.
Qed.

Lemma is_eyecatcher_iff t :
  is_eyecatcher t = true <-> t = [xe2; xd4; xc3; xd9] \/ t = [xe2; xd4; xc3; xc4].
Proof.
  unfold is_eyecatcher.
  destruct (list_eq_dec _ t _) as [->|n]; [tauto|].
  destruct (list_eq_dec _ t _) as [->|n']; [tauto|].
  split; [discriminate|tauto].
Qed.

(** which calls succeed on fewer than 8 bytes *)
Lemma NewMessage_short m buf : slice_ok m buf -> s_len buf < 8 ->
  let back := bytes_at (m (s_arr buf)) (s_off buf) (s_cap buf) in
  (snd (NewMessage m buf) = Panicked <->
   length back < 4 \/
   (is_eyecatcher (bytes_at back 0 4) = true /\
    (length back < 8 \/ (bits back 40 16 <= 1024)%N))) /\
  snd (NewMessage m buf) <> Exited.
Proof.
  intros Hok Hlen back. pose proof (len_le_cap _ _ Hok) as Hcap.
  assert (Eb : back = win m buf) by reflexivity.
  pose proof (win_length m buf Hok) as Hw. rewrite <- Eb in Hw.
  unfold NewMessage. destruct (le_lt_dec 4 (s_cap buf)) as [C4|C4].
  2:{ rewrite HasEyecatcher_panic by lia. cbn. split; [split; [intros; lia|reflexivity]|discriminate]. }
  rewrite HasEyecatcher_ok, bind_ret by (assumption || lia). rewrite <- Eb.
  change (seg back 0 4) with (bytes_at back 0 4).
  destruct (is_eyecatcher (bytes_at back 0 4)); cbn [negb].
  2:{ cbn. split; [split; [discriminate|intros [?|[? _]]; [lia|discriminate]]|discriminate]. }
  destruct (le_lt_dec 7 (s_cap buf)) as [C7|C7].
  2:{ rewrite (sub_self buf), (be16_sub_panic m buf) by lia. cbn.
      split; [split; [intros; lia|reflexivity]|discriminate]. }
  assert (EL : be16 m buf 5 7 = ret (bits back 40 16)).
  { rewrite (sub_self buf). rewrite (be16_sub m buf Hok) by lia. rewrite be_acc0.
    rewrite <- Eb. change 40 with (8 * 5). rewrite (bits_bytes back 5 2 (8 * 5) 16) by lia. reflexivity. }
  rewrite EL, bind_ret. unfold MaxMessageSize. destruct (1024 <? bits back 40 16)%N eqn:EM.
  - rewrite bind_log. cbn [snd]. unfold HeaderLen. rewrite (sub_self buf).
    destruct (le_lt_dec 8 (s_cap buf)) as [C8|C8].
    + rewrite (upto_sub buf) by lia. cbn. split; [split; [discriminate|intros; lia]|discriminate].
    + rewrite (upto_sub_panic buf) by lia. cbn. split; [split; [intros; lia|reflexivity]|discriminate].
  - destruct (le_lt_dec (s_len buf) 4) as [L4|L4].
    + rewrite (sub_self buf), (idx_sub_panic m buf) by lia. cbn. split; [split; [intros; lia|reflexivity]|discriminate].
    + rewrite (sub_self buf), (idx_sub m buf Hok), bind_ret by lia.
      rewrite (idx_sub_panic m buf) by lia. cbn. split; [split; [intros; lia|reflexivity]|discriminate].
Qed.
