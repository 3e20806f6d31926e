(** * LlcParse: what the LLC/CDC parsers compute, in closed form. Proofs only. *)

From Coq Require Import NArith ZArith Bool String Arith List Lia.
From Coq Require Import ZifyBool ZifyNat ZifyN.
From Verif Require Import GoBase GoFmt ClcModel LlcModel RoceModel Slices Wire WireLemmas ClcView LlcView Steps
  ClcParse.
Import ListNotations.
Local Open Scope nat_scope.

Definition fl (bs : list byte) (i : nat) (mask : N) : bool := (0 <? N.land (bn bs i) mask)%N.
Definition mk (bs : list byte) (i : nat) (mask : N) : N := N.land (bn bs i) mask.
Definition base_of (bs : list byte) : BaseMsg := mkBaseMsg bs (bn bs 0) (bn bs 1).
(** an array filled from the bytes behind offset [o] *)
Definition tail (bs : list byte) (o : nat) (old : list byte) : list byte :=
  go_copy old (skipn o bs).

Lemma setRaw_bytes m buf : slice_ok m buf -> setRaw m buf = s_bytes m buf.
Proof.
  intros Hok. unfold setRaw, go_copy. pose proof (s_bytes_length m buf Hok) as H.
  rewrite zeros_length, skipn_all2, app_nil_r by (rewrite zeros_length; lia).
  apply firstn_all2. lia.
Qed.

Lemma rest_bytes m buf o l : slice_ok m buf -> o + l = s_len buf ->
  s_bytes m (sub buf o l) = skipn o (s_bytes m buf).
Proof.
  intros Hok Ho. pose proof (len_le_cap _ _ Hok). rewrite (s_bytes_sub m buf) by lia.
  rewrite (seg_win m buf Hok) by lia. unfold seg. apply firstn_all2.
  rewrite skipn_length, (s_bytes_length m buf Hok). lia.
Qed.

Lemma SetBaseMsg_ok m buf : slice_ok m buf -> 2 <= s_len buf ->
  SetBaseMsg m buf = ret (base_of (s_bytes m buf)).
Proof.
  intros Hok Hlen. pose proof (len_le_cap _ _ Hok) as Hcap.
  unfold SetBaseMsg. rewrite (setRaw_bytes m buf Hok). unfold byte0. rewrite (sub_self buf).
  run m buf Hok. rewrite <- sub_self. unfold base_of, bn. rewrite !(nth_win m buf Hok) by lia. reflexivity.
Qed.

Lemma SetBaseMsg_panic m buf : slice_ok m buf -> s_len buf < 2 -> SetBaseMsg m buf = panic.
Proof.
  intros Hok Hlen. pose proof (len_le_cap _ _ Hok) as Hcap.
  unfold SetBaseMsg, byte0. rewrite (sub_self buf). run_panic m buf Hok.
Qed.

Ltac llc_close m buf Hok :=
  rewrite <- ?sub_self;
  rewrite ?(rest_bytes m buf) by (assumption || lia);
  rewrite ?(seg_win m buf Hok), ?(nth_win m buf Hok), ?be_acc0 by lia;
  reflexivity.

(** ** ConfirmLink *)

Definition ConfirmLink_of (bs : list byte) (old : ConfirmLink) : ConfirmLink :=
  mkConfirmLink (base_of bs) (bn bs 2) (fl bs 3 0x80) (mk bs 3 0x7f) (seg bs 4 6) (seg bs 10 16) (num bs 26 3) (bn bs 29) (num bs 30 4) (bn bs 34) (tail bs 35 (cl_res3 old)).

Lemma ConfirmLink_ok m buf old : slice_ok m buf -> llc_wf (LConfirm old) -> 35 <= s_len buf ->
  ConfirmLink_Parse m old buf = ret (ConfirmLink_of (s_bytes m buf) old).
Proof.
  intros Hok Hwf Hlen. pose proof (len_le_cap _ _ Hok) as Hcap. cbn [llc_wf] in Hwf.
  unfold ConfirmLink_Parse. rewrite (SetBaseMsg_ok m buf Hok) by lia. rewrite bind_ret. unfold byte0, flag, masked. rewrite (sub_self buf).
  run m buf Hok. unfold ConfirmLink_of, base_of, bn, num, fl, mk, tail, bn. llc_close m buf Hok.
Qed.

Lemma ConfirmLink_panic m buf old : slice_ok m buf -> llc_wf (LConfirm old) -> s_len buf < 35 ->
  ConfirmLink_Parse m old buf = panic.
Proof.
  intros Hok Hwf Hlen. pose proof (len_le_cap _ _ Hok) as Hcap. cbn [llc_wf] in Hwf.
  unfold ConfirmLink_Parse. destruct (le_lt_dec 2 (s_len buf)); [|rewrite (SetBaseMsg_panic m buf Hok) by lia; reflexivity]. rewrite (SetBaseMsg_ok m buf Hok) by lia. rewrite bind_ret. unfold byte0, flag, masked. rewrite (sub_self buf).
  run_panic m buf Hok.
Qed.

(** ** AddLink *)

Definition AddLink_of (bs : list byte) (old : AddLink) : AddLink :=
  mkAddLink (base_of bs) (N.shiftr (bn bs 2) 4) (mk bs 2 0x0f) (fl bs 3 0x80) (fl bs 3 0x40) (mk bs 3 0x3f) (seg bs 4 6) (seg bs 10 2) (seg bs 12 16) (num bs 28 3) (bn bs 31) (N.shiftr (bn bs 32) 4) (mk bs 32 0x0f) (num bs 33 3) (tail bs 36 (al_res4 old)).

Lemma AddLink_ok m buf old : slice_ok m buf -> llc_wf (LAddLink old) -> 36 <= s_len buf ->
  AddLink_Parse m old buf = ret (AddLink_of (s_bytes m buf) old).
Proof.
  intros Hok Hwf Hlen. pose proof (len_le_cap _ _ Hok) as Hcap. cbn [llc_wf] in Hwf.
  unfold AddLink_Parse. rewrite (SetBaseMsg_ok m buf Hok) by lia. rewrite bind_ret. unfold byte0, flag, masked. rewrite (sub_self buf).
  run m buf Hok. unfold AddLink_of, base_of, bn, num, fl, mk, tail, bn. llc_close m buf Hok.
Qed.

Lemma AddLink_panic m buf old : slice_ok m buf -> llc_wf (LAddLink old) -> s_len buf < 36 ->
  AddLink_Parse m old buf = panic.
Proof.
  intros Hok Hwf Hlen. pose proof (len_le_cap _ _ Hok) as Hcap. cbn [llc_wf] in Hwf.
  unfold AddLink_Parse. destruct (le_lt_dec 2 (s_len buf)); [|rewrite (SetBaseMsg_panic m buf Hok) by lia; reflexivity]. rewrite (SetBaseMsg_ok m buf Hok) by lia. rewrite bind_ret. unfold byte0, flag, masked. rewrite (sub_self buf).
  run_panic m buf Hok.
Qed.

(** ** AddLinkCont *)

Definition AddLinkCont_of (bs : list byte) (old : AddLinkCont) : AddLinkCont :=
  mkAddLinkCont (base_of bs) (bn bs 2) (fl bs 3 0x80) (mk bs 3 0x7f) (bn bs 4) (bn bs 5) (seg bs 6 2) [mkRKeyPair (num bs 8 4) (num bs 12 4) (num bs 16 8); mkRKeyPair (num bs 24 4) (num bs 28 4) (num bs 32 8)] (tail bs 40 (ac_res4 old)).

Lemma AddLinkCont_ok m buf old : slice_ok m buf -> llc_wf (LAddLinkCont old) -> 40 <= s_len buf ->
  AddLinkCont_Parse m old buf = ret (AddLinkCont_of (s_bytes m buf) old).
Proof.
  intros Hok Hwf Hlen. pose proof (len_le_cap _ _ Hok) as Hcap. cbn [llc_wf] in Hwf.
  unfold AddLinkCont_Parse. rewrite (SetBaseMsg_ok m buf Hok) by lia. rewrite bind_ret. replace (length (ac_RKeyPairs old)) with 2 by lia. cbn [RKeyPairs_Parse]. unfold RKeyPair_Parse. unfold byte0, flag, masked. rewrite (sub_self buf).
  run m buf Hok. unfold AddLinkCont_of, base_of, bn, num, fl, mk, tail, bn. llc_close m buf Hok.
Qed.

Lemma AddLinkCont_panic m buf old : slice_ok m buf -> llc_wf (LAddLinkCont old) -> s_len buf < 40 ->
  AddLinkCont_Parse m old buf = panic.
Proof.
  intros Hok Hwf Hlen. pose proof (len_le_cap _ _ Hok) as Hcap. cbn [llc_wf] in Hwf.
  unfold AddLinkCont_Parse. destruct (le_lt_dec 2 (s_len buf)); [|rewrite (SetBaseMsg_panic m buf Hok) by lia; reflexivity]. rewrite (SetBaseMsg_ok m buf Hok) by lia. rewrite bind_ret. replace (length (ac_RKeyPairs old)) with 2 by lia. cbn [RKeyPairs_Parse]. unfold RKeyPair_Parse. unfold byte0, flag, masked. rewrite (sub_self buf).
  run_panic m buf Hok.
Qed.

(** ** DeleteLink *)

Definition DeleteLink_of (bs : list byte) (old : DeleteLink) : DeleteLink :=
  mkDeleteLink (base_of bs) (bn bs 2) (fl bs 3 0x80) (fl bs 3 0x40) (fl bs 3 0x20) (mk bs 3 0x1f) (bn bs 4) (num bs 5 4) (tail bs 9 (dl_res3 old)).

Lemma DeleteLink_ok m buf old : slice_ok m buf -> llc_wf (LDeleteLink old) -> 9 <= s_len buf ->
  DeleteLink_Parse m old buf = ret (DeleteLink_of (s_bytes m buf) old).
Proof.
  intros Hok Hwf Hlen. pose proof (len_le_cap _ _ Hok) as Hcap. cbn [llc_wf] in Hwf.
  unfold DeleteLink_Parse. rewrite (SetBaseMsg_ok m buf Hok) by lia. rewrite bind_ret. unfold byte0, flag, masked. rewrite (sub_self buf).
  run m buf Hok. unfold DeleteLink_of, base_of, bn, num, fl, mk, tail, bn. llc_close m buf Hok.
Qed.

Lemma DeleteLink_panic m buf old : slice_ok m buf -> llc_wf (LDeleteLink old) -> s_len buf < 9 ->
  DeleteLink_Parse m old buf = panic.
Proof.
  intros Hok Hwf Hlen. pose proof (len_le_cap _ _ Hok) as Hcap. cbn [llc_wf] in Hwf.
  unfold DeleteLink_Parse. destruct (le_lt_dec 2 (s_len buf)); [|rewrite (SetBaseMsg_panic m buf Hok) by lia; reflexivity]. rewrite (SetBaseMsg_ok m buf Hok) by lia. rewrite bind_ret. unfold byte0, flag, masked. rewrite (sub_self buf).
  run_panic m buf Hok.
Qed.

(** ** ConfirmRKey *)

Definition ConfirmRKey_of (bs : list byte) (old : ConfirmRKey) : ConfirmRKey :=
  mkConfirmRKey (base_of bs) (bn bs 2) (fl bs 3 0x80) (N.shiftr (mk bs 3 0x40) 6) (fl bs 3 0x20) (fl bs 3 0x10) (mk bs 3 0x0f) (bn bs 4) (num bs 5 4) (num bs 9 8) [mkRMBSpec (bn bs 17) (num bs 18 4) (num bs 22 8); mkRMBSpec (bn bs 30) (num bs 31 4) (num bs 35 8)] (bn bs 43).

Lemma ConfirmRKey_ok m buf old : slice_ok m buf -> llc_wf (LConfirmRKey old) -> 44 <= s_len buf ->
  ConfirmRKey_Parse m old buf = ret (ConfirmRKey_of (s_bytes m buf) old).
Proof.
  intros Hok Hwf Hlen. pose proof (len_le_cap _ _ Hok) as Hcap. cbn [llc_wf] in Hwf.
  unfold ConfirmRKey_Parse. rewrite (SetBaseMsg_ok m buf Hok) by lia. rewrite bind_ret. replace (length (ck_OtherRMBs old)) with 2 by lia. cbn [RMBSpecs_Parse]. unfold RMBSpec_Parse. unfold byte0, flag, masked. rewrite (sub_self buf).
  run m buf Hok. unfold ConfirmRKey_of, base_of, bn, num, fl, mk, tail, bn. llc_close m buf Hok.
Qed.

Lemma ConfirmRKey_panic m buf old : slice_ok m buf -> llc_wf (LConfirmRKey old) -> s_len buf < 44 ->
  ConfirmRKey_Parse m old buf = panic.
Proof.
  intros Hok Hwf Hlen. pose proof (len_le_cap _ _ Hok) as Hcap. cbn [llc_wf] in Hwf.
  unfold ConfirmRKey_Parse. destruct (le_lt_dec 2 (s_len buf)); [|rewrite (SetBaseMsg_panic m buf Hok) by lia; reflexivity]. rewrite (SetBaseMsg_ok m buf Hok) by lia. rewrite bind_ret. replace (length (ck_OtherRMBs old)) with 2 by lia. cbn [RMBSpecs_Parse]. unfold RMBSpec_Parse. unfold byte0, flag, masked. rewrite (sub_self buf).
  run_panic m buf Hok.
Qed.

(** ** ConfirmRKeyCont *)

Definition ConfirmRKeyCont_of (bs : list byte) (old : ConfirmRKeyCont) : ConfirmRKeyCont :=
  mkConfirmRKeyCont (base_of bs) (bn bs 2) (fl bs 3 0x80) (N.shiftr (mk bs 3 0x40) 6) (fl bs 3 0x20) (mk bs 3 0x1f) (bn bs 4) [mkRMBSpec (bn bs 5) (num bs 6 4) (num bs 10 8); mkRMBSpec (bn bs 18) (num bs 19 4) (num bs 23 8); mkRMBSpec (bn bs 31) (num bs 32 4) (num bs 36 8)] (bn bs 44).

Lemma ConfirmRKeyCont_ok m buf old : slice_ok m buf -> llc_wf (LConfirmRKeyCont old) -> 45 <= s_len buf ->
  ConfirmRKeyCont_Parse m old buf = ret (ConfirmRKeyCont_of (s_bytes m buf) old).
Proof.
  intros Hok Hwf Hlen. pose proof (len_le_cap _ _ Hok) as Hcap. cbn [llc_wf] in Hwf.
  unfold ConfirmRKeyCont_Parse. rewrite (SetBaseMsg_ok m buf Hok) by lia. rewrite bind_ret. replace (length (cc_OtherRMBs old)) with 3 by lia. cbn [RMBSpecs_Parse]. unfold RMBSpec_Parse. unfold byte0, flag, masked. rewrite (sub_self buf).
  run m buf Hok. unfold ConfirmRKeyCont_of, base_of, bn, num, fl, mk, tail, bn. llc_close m buf Hok.
Qed.

Lemma ConfirmRKeyCont_panic m buf old : slice_ok m buf -> llc_wf (LConfirmRKeyCont old) -> s_len buf < 45 ->
  ConfirmRKeyCont_Parse m old buf = panic.
Proof.
  intros Hok Hwf Hlen. pose proof (len_le_cap _ _ Hok) as Hcap. cbn [llc_wf] in Hwf.
  unfold ConfirmRKeyCont_Parse. destruct (le_lt_dec 2 (s_len buf)); [|rewrite (SetBaseMsg_panic m buf Hok) by lia; reflexivity]. rewrite (SetBaseMsg_ok m buf Hok) by lia. rewrite bind_ret. replace (length (cc_OtherRMBs old)) with 3 by lia. cbn [RMBSpecs_Parse]. unfold RMBSpec_Parse. unfold byte0, flag, masked. rewrite (sub_self buf).
  run_panic m buf Hok.
Qed.

(** ** deleteRKey *)

Definition deleteRKey_of (bs : list byte) (old : deleteRKey) : deleteRKey :=
  mkDeleteRKey (base_of bs) (bn bs 2) (fl bs 3 0x80) (N.shiftr (mk bs 3 0x40) 6) (fl bs 3 0x20) (mk bs 3 0x1f) (bn bs 4) (bn bs 5) (seg bs 6 2) [num bs 8 4; num bs 12 4; num bs 16 4; num bs 20 4; num bs 24 4; num bs 28 4; num bs 32 4; num bs 36 4] (tail bs 40 (dk_res5 old)).

Lemma deleteRKey_ok m buf old : slice_ok m buf -> llc_wf (LDeleteRKey old) -> 40 <= s_len buf ->
  deleteRKey_Parse m old buf = ret (deleteRKey_of (s_bytes m buf) old).
Proof.
  intros Hok Hwf Hlen. pose proof (len_le_cap _ _ Hok) as Hcap. cbn [llc_wf] in Hwf.
  unfold deleteRKey_Parse. rewrite (SetBaseMsg_ok m buf Hok) by lia. rewrite bind_ret. replace (length (dk_rkeys old)) with 8 by lia. cbn [rkeys_Parse]. unfold byte0, flag, masked. rewrite (sub_self buf).
  run m buf Hok. unfold deleteRKey_of, base_of, bn, num, fl, mk, tail, bn. llc_close m buf Hok.
Qed.

Lemma deleteRKey_panic m buf old : slice_ok m buf -> llc_wf (LDeleteRKey old) -> s_len buf < 40 ->
  deleteRKey_Parse m old buf = panic.
Proof.
  intros Hok Hwf Hlen. pose proof (len_le_cap _ _ Hok) as Hcap. cbn [llc_wf] in Hwf.
  unfold deleteRKey_Parse. destruct (le_lt_dec 2 (s_len buf)); [|rewrite (SetBaseMsg_panic m buf Hok) by lia; reflexivity]. rewrite (SetBaseMsg_ok m buf Hok) by lia. rewrite bind_ret. replace (length (dk_rkeys old)) with 8 by lia. cbn [rkeys_Parse]. unfold byte0, flag, masked. rewrite (sub_self buf).
  run_panic m buf Hok.
Qed.

(** ** TestLink *)

Definition TestLink_of (bs : list byte) (old : TestLink) : TestLink :=
  mkTestLink (base_of bs) (bn bs 2) (fl bs 3 0x80) (mk bs 3 0x7f) (seg bs 4 16) (tail bs 20 (tl_res3 old)).

Lemma TestLink_ok m buf old : slice_ok m buf -> llc_wf (LTestLink old) -> 20 <= s_len buf ->
  TestLink_Parse m old buf = ret (TestLink_of (s_bytes m buf) old).
Proof.
  intros Hok Hwf Hlen. pose proof (len_le_cap _ _ Hok) as Hcap. cbn [llc_wf] in Hwf.
  unfold TestLink_Parse. rewrite (SetBaseMsg_ok m buf Hok) by lia. rewrite bind_ret. unfold byte0, flag, masked. rewrite (sub_self buf).
  run m buf Hok. unfold TestLink_of, base_of, bn, num, fl, mk, tail, bn. llc_close m buf Hok.
Qed.

Lemma TestLink_panic m buf old : slice_ok m buf -> llc_wf (LTestLink old) -> s_len buf < 20 ->
  TestLink_Parse m old buf = panic.
Proof.
  intros Hok Hwf Hlen. pose proof (len_le_cap _ _ Hok) as Hcap. cbn [llc_wf] in Hwf.
  unfold TestLink_Parse. destruct (le_lt_dec 2 (s_len buf)); [|rewrite (SetBaseMsg_panic m buf Hok) by lia; reflexivity]. rewrite (SetBaseMsg_ok m buf Hok) by lia. rewrite bind_ret. unfold byte0, flag, masked. rewrite (sub_self buf).
  run_panic m buf Hok.
Qed.

(** ** CDC *)

Definition CDC_of (bs : list byte) (old : CDC) : CDC :=
  mkCDC (base_of bs) (num bs 2 2) (num bs 4 4) (seg bs 8 2) (num bs 10 2) (num bs 12 4) (seg bs 16 2) (num bs 18 2) (num bs 20 4) (fl bs 24 0x80) (fl bs 24 0x40) (fl bs 24 0x20) (fl bs 24 0x10) (fl bs 24 0x08) (mk bs 24 0x07) (fl bs 25 0x80) (fl bs 25 0x40) (fl bs 25 0x20) (n2b (mk bs 25 0x1f) :: tail bs 26 (skipn 1 (c_res4 old))).

Lemma CDC_ok m buf old : slice_ok m buf -> llc_wf (LCDC old) -> 26 <= s_len buf ->
  CDC_Parse m old buf = ret (CDC_of (s_bytes m buf) old).
Proof.
  intros Hok Hwf Hlen. pose proof (len_le_cap _ _ Hok) as Hcap. cbn [llc_wf] in Hwf.
  unfold CDC_Parse. rewrite (setRaw_bytes m buf Hok). unfold byte0, flag, masked. rewrite (sub_self buf).
  run m buf Hok. unfold CDC_of, base_of, bn, num, fl, mk, tail, bn. llc_close m buf Hok.
Qed.

Lemma CDC_panic m buf old : slice_ok m buf -> llc_wf (LCDC old) -> s_len buf < 26 ->
  CDC_Parse m old buf = panic.
Proof.
  intros Hok Hwf Hlen. pose proof (len_le_cap _ _ Hok) as Hcap. cbn [llc_wf] in Hwf.
  unfold CDC_Parse. unfold byte0, flag, masked. rewrite (sub_self buf).
  run_panic m buf Hok.
Qed.
