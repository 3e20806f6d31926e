(** * ClcParse: what the fixed-format CLC parsers compute, in closed form.
    Proofs only. *)

From Coq Require Import NArith ZArith Bool String Arith List Lia.
From Coq Require Import ZifyBool ZifyNat ZifyN.
From Verif Require Import GoBase GoFmt ClcModel Slices Wire WireLemmas ClcView Steps.
Import ListNotations.
Local Open Scope nat_scope.

Definition bn (bs : list byte) (i : nat) : N := b2n (nth i bs x00).
Definition num (bs : list byte) (o n : nat) : N := BE (seg bs o n).

Definition hdr_of (bs : list byte) : Header :=
  mkHeader (seg bs 0 4) (bn bs 4) (num bs 5 2)
    (N.shiftr (N.land (bn bs 7) 0xf0) 4)
    (N.shiftr (N.land (bn bs 7) 0x08) 3)
    (N.shiftr (N.land (bn bs 7) 0x04) 2)
    (N.shiftr (N.land (bn bs 7) 0x0c) 2)
    (N.land (bn bs 7) 0x03).

Lemma Header_Parse_ok m buf h : slice_ok m buf -> header_wf h -> 8 <= s_len buf ->
  Header_Parse m h buf = ret (hdr_of (s_bytes m buf)).
Proof.
  intros Hok Hwf Hlen. pose proof (len_le_cap _ _ Hok) as Hcap.
  unfold Header_Parse, EyecatcherLen. rewrite (sub_self buf).
  run m buf Hok.
  rewrite <- sub_self. unfold hdr_of, bn, num.
  rewrite !(seg_win m buf Hok), !(nth_win m buf Hok), be_acc0 by lia.
  reflexivity.
Qed.

Lemma Header_Parse_panic m buf h : slice_ok m buf -> header_wf h -> s_len buf < 8 ->
  Header_Parse m h buf = panic.
Proof.
  intros Hok Hwf Hlen. pose proof (len_le_cap _ _ Hok) as Hcap.
  unfold Header_Parse, EyecatcherLen. rewrite (sub_self buf).
  run_panic m buf Hok.
Qed.

(** ** Trailer *)

Lemma bytes_eq_true a b : bytes_eq a b = true <-> a = b.
Proof.
  revert b; induction a as [|x a IH]; intros [|y b]; cbn; try (split; congruence).
  rewrite andb_true_iff, IH. split.
  - intros [H ->]. f_equal. apply Byte.byte_dec_bl; exact H.
  - intros H; injection H as -> ->. split; [apply Byte.byte_dec_lb|]; reflexivity.
Qed.

Lemma HasEyecatcher_arr_spec t : length t = 4 -> HasEyecatcher_arr t = is_eyecatcher t.
Proof.
  intros Hl. unfold HasEyecatcher_arr, is_eyecatcher, EyecatcherLen.
  rewrite firstn_all2 by lia.
  change [xe2; xd4; xc3; xd9] with SMCREyecatcher.
  change [xe2; xd4; xc3; xc4] with SMCDEyecatcher.
  destruct (bytes_eq t SMCREyecatcher) eqn:E1.
  - apply bytes_eq_true in E1. destruct (list_eq_dec _ t SMCREyecatcher); [reflexivity|contradiction].
  - destruct (list_eq_dec _ t SMCREyecatcher) as [->|]; [vm_compute in E1; discriminate|].
    destruct (bytes_eq t SMCDEyecatcher) eqn:E2.
    + apply bytes_eq_true in E2. destruct (list_eq_dec _ t SMCDEyecatcher); [reflexivity|contradiction].
    + destruct (list_eq_dec _ t SMCDEyecatcher) as [->|]; [vm_compute in E2; discriminate|]. reflexivity.
Qed.

Lemma Trailer_sub m buf o l t : slice_ok m buf -> o + l <= s_cap buf -> 4 <= l -> length t = 4 ->
  Trailer_Parse m t (sub buf o l) =
  (trailer_log (seg (win m buf) (o + l - 4) 4), Done (seg (win m buf) (o + l - 4) 4)).
Proof.
  intros Hok Hc Hl Ht. unfold Trailer_Parse, TrailerLen, EyecatcherLen.
  rewrite last_sub by lia. rewrite bind_ret.
  rewrite (s_bytes_sub m buf) by lia.
  set (t' := seg (win m buf) (o + l - 4) 4).
  assert (Ht' : length t' = 4) by (unfold t'; rewrite seg_length; [lia|rewrite (win_length m buf Hok); lia]).
  assert (E : go_copy t t' = t').
  { unfold go_copy. rewrite Ht, Ht'. rewrite skipn_all2, app_nil_r by lia.
    apply firstn_all2; lia. }
  rewrite E. unfold trailer_log. rewrite (HasEyecatcher_arr_spec t' Ht').
  destruct (is_eyecatcher t'); [reflexivity|].
  rewrite bind_log, bind_ret. unfold errDump. rewrite (s_bytes_sub m buf) by lia. fold t'.
  rewrite bind_log. reflexivity.
Qed.

Lemma Trailer_sub_panic m buf o l t : l < 4 -> Trailer_Parse m t (sub buf o l) = panic.
Proof.
  intros Hl. unfold Trailer_Parse, TrailerLen, EyecatcherLen.
  rewrite last_sub_panic by lia. reflexivity.
Qed.

Lemma last4_seg (bs : list byte) : last4 bs = seg bs (length bs - 4) 4.
Proof.
  unfold last4, seg. rewrite firstn_all2; [reflexivity|]. rewrite skipn_length; lia.
Qed.

(** the trailer of a rest of the buffer that reaches to its end *)
Lemma Trailer_end m buf o l t : slice_ok m buf -> o + l = s_len buf -> 4 <= l -> length t = 4 ->
  Trailer_Parse m t (sub buf o l) =
  (trailer_log (last4 (s_bytes m buf)), Done (last4 (s_bytes m buf))).
Proof.
  intros Hok Ho Hl Ht. pose proof (len_le_cap _ _ Hok) as Hcap.
  rewrite Trailer_sub by (assumption || lia).
  rewrite last4_seg, (s_bytes_length m buf Hok), Ho.
  rewrite !(seg_win m buf Hok) by lia. reflexivity.
Qed.

Lemma bind_done {A B} l (a : A) (f : A -> M B) : bind (l, Done a) f = (l ++ fst (f a), snd (f a)).
Proof. cbn. destruct (f a); reflexivity. Qed.

(** ** The early exit for too short messages *)

Definition short_run {A} (err : string) (m : mem) (buf : slice) (a : A) : M A :=
  let L := N.to_nat (h_Length (hdr_of (s_bytes m buf))) in
  if (L <=? s_cap buf) then ([err; dump_line (seg (win m buf) 0 L)], Done a)
  else ([err], Panicked).

Lemma short_run_eq {A} err m buf (a : A) : slice_ok m buf ->
  (log_ln err ;;
   let* d := upto buf (N.to_nat (h_Length (hdr_of (s_bytes m buf)))) in
   errDump m d ;; ret a) = short_run err m buf a.
Proof.
  intros Hok. unfold short_run.
  set (L := N.to_nat (h_Length (hdr_of (s_bytes m buf)))).
  rewrite bind_log, (sub_self buf).
  destruct (Nat.leb_spec L (s_cap (sub buf 0 (s_len buf)))) as [H|H]; cbn [s_cap sub] in H.
  - rewrite upto_sub by lia. rewrite bind_ret. unfold errDump. rewrite bind_log.
    rewrite (s_bytes_sub m buf) by lia. rewrite <- sub_self. reflexivity.
  - rewrite upto_sub_panic by lia. reflexivity.
Qed.

(** ** Accept SMC-R *)

Definition short_err (t : N) : string :=
  if (t =? TypeConfirm)%N then "Error parsing CLC Confirm: message too short"%string
  else "Error parsing CLC Accept: message too short"%string.

Definition smcr_of (buf : slice) (bs : list byte) : AcceptSMCR :=
  mkAcceptSMCR buf (hdr_of bs) (seg bs 8 8) (seg bs 16 16) (seg bs 32 6) (num bs 38 3)
    (num bs 41 4) (bn bs 45) (num bs 46 4)
    (N.shiftr (N.land (bn bs 50) 0xf0) 4) (N.land (bn bs 50) 0x0f) (bn bs 51)
    (num bs 52 8) (bn bs 60) (num bs 61 3) (last4 bs).

Definition smcr_short (old : AcceptSMCR) (buf : slice) (bs : list byte) : AcceptSMCR :=
  mkAcceptSMCR buf (hdr_of bs) (ar_SenderPeerID old) (ar_IBGID old) (ar_IBMAC old)
           (ar_QPN old) (ar_RMBRKey old) (ar_RMBEIdx old) (ar_RMBEAlertToken old)
           (ar_RMBESize old) (ar_QPMTU old) (ar_reserved old) (ar_RMBDMAAddr old)
           (ar_reserved2 old) (ar_PSN old) (ar_Trailer old).

Ltac to_bytes m buf Hok :=
  repeat first
    [ rewrite (seg_win m buf Hok) by lia
    | rewrite (nth_win m buf Hok) by lia ].

Lemma AcceptSMCR_short m buf old : slice_ok m buf -> accept_smcr_wf old -> 8 <= s_len buf ->
  let bs := s_bytes m buf in
  (h_Length (hdr_of bs) < 68)%N ->
  AcceptSMCR_Parse m old buf = short_run (short_err (bn bs 4)) m buf (smcr_short old buf bs).
Proof.
  intros Hok (Hh & Hp & Ht) Hlen bs HL. unfold AcceptSMCR_Parse.
  rewrite Header_Parse_ok, bind_ret by assumption. fold bs.
  replace (h_Length (hdr_of bs) <? AcceptSMCRLen)%N with true by (unfold AcceptSMCRLen; lia).
  cbv zeta. apply short_run_eq; assumption.
Qed.

Lemma AcceptSMCR_full m buf old : slice_ok m buf -> accept_smcr_wf old -> 68 <= s_len buf ->
  let bs := s_bytes m buf in
  (68 <= h_Length (hdr_of bs))%N ->
  AcceptSMCR_Parse m old buf = (trailer_log (last4 bs), Done (smcr_of buf bs)).
Proof.
  intros Hok (Hh & Hp & Ht) Hlen bs HL. pose proof (len_le_cap _ _ Hok) as Hcap.
  unfold AcceptSMCR_Parse.
  rewrite Header_Parse_ok, bind_ret by (assumption || lia). fold bs.
  replace (h_Length (hdr_of bs) <? AcceptSMCRLen)%N with false by (unfold AcceptSMCRLen; lia).
  cbv zeta. unfold HeaderLen, PeerIDLen.
  rewrite (from_buf m buf Hok), bind_ret by lia. run m buf Hok.
  rewrite (Trailer_end m buf) by (assumption || lia). rewrite bind_done. cbn [fst snd ret].
  rewrite app_nil_r. unfold smcr_of, bn, num. to_bytes m buf Hok. rewrite !be_acc0. reflexivity.
Qed.

Lemma AcceptSMCR_panic m buf old : slice_ok m buf -> accept_smcr_wf old ->
  8 <= s_len buf < 68 -> (68 <= h_Length (hdr_of (s_bytes m buf)))%N ->
  AcceptSMCR_Parse m old buf = panic.
Proof.
  intros Hok (Hh & Hp & Ht) Hlen HL. pose proof (len_le_cap _ _ Hok) as Hcap.
  unfold AcceptSMCR_Parse.
  rewrite Header_Parse_ok, bind_ret by (assumption || lia).
  set (bs := s_bytes m buf) in *.
  replace (h_Length (hdr_of bs) <? AcceptSMCRLen)%N with false by (unfold AcceptSMCRLen; lia).
  cbv zeta. unfold HeaderLen, PeerIDLen.
  rewrite (from_buf m buf Hok), bind_ret by lia. run_panic m buf Hok.
  rewrite (Trailer_sub_panic m buf) by lia. reflexivity.
Qed.

(** ** Accept SMC-D *)

Definition smcd_of (buf : slice) (bs : list byte) : AcceptSMCD :=
  mkAcceptSMCD buf (hdr_of bs) (num bs 8 8) (num bs 16 8) (bn bs 24)
    (N.shiftr (N.land (bn bs 25) 0xf0) 4) (N.land (bn bs 25) 0x0f) (seg bs 26 2)
    (num bs 28 4) (seg bs 32 12) (last4 bs).

Definition smcd_short (old : AcceptSMCD) (buf : slice) (bs : list byte) : AcceptSMCD :=
  mkAcceptSMCD buf (hdr_of bs) (ad_GID old) (ad_Token old) (ad_DMBEIdx old)
           (ad_DMBESize old) (ad_reserved old) (ad_reserved2 old) (ad_LinkID old)
           (ad_reserved3 old) (ad_Trailer old).

Lemma AcceptSMCD_short m buf old : slice_ok m buf -> accept_smcd_wf old -> 8 <= s_len buf ->
  let bs := s_bytes m buf in
  (h_Length (hdr_of bs) < 48)%N ->
  AcceptSMCD_Parse m old buf = short_run (short_err (bn bs 4)) m buf (smcd_short old buf bs).
Proof.
  intros Hok (Hh & H2 & H3 & Ht) Hlen bs HL. unfold AcceptSMCD_Parse.
  rewrite Header_Parse_ok, bind_ret by assumption. fold bs.
  replace (h_Length (hdr_of bs) <? AcceptSMCDLen)%N with true by (unfold AcceptSMCDLen; lia).
  cbv zeta. apply short_run_eq; assumption.
Qed.

Lemma AcceptSMCD_full m buf old : slice_ok m buf -> accept_smcd_wf old -> 48 <= s_len buf ->
  let bs := s_bytes m buf in
  (48 <= h_Length (hdr_of bs))%N ->
  AcceptSMCD_Parse m old buf = (trailer_log (last4 bs), Done (smcd_of buf bs)).
Proof.
  intros Hok (Hh & H2 & H3 & Ht) Hlen bs HL. pose proof (len_le_cap _ _ Hok) as Hcap.
  unfold AcceptSMCD_Parse.
  rewrite Header_Parse_ok, bind_ret by (assumption || lia). fold bs.
  replace (h_Length (hdr_of bs) <? AcceptSMCDLen)%N with false by (unfold AcceptSMCDLen; lia).
  cbv zeta. unfold HeaderLen, PeerIDLen.
  rewrite (from_buf m buf Hok), bind_ret by lia. run m buf Hok.
  rewrite (Trailer_end m buf) by (assumption || lia). rewrite bind_done. cbn [fst snd ret].
  rewrite app_nil_r. unfold smcd_of, bn, num. to_bytes m buf Hok. rewrite !be_acc0. reflexivity.
Qed.

Lemma AcceptSMCD_panic m buf old : slice_ok m buf -> accept_smcd_wf old ->
  8 <= s_len buf < 48 -> (48 <= h_Length (hdr_of (s_bytes m buf)))%N ->
  AcceptSMCD_Parse m old buf = panic.
Proof.
  intros Hok (Hh & H2 & H3 & Ht) Hlen HL. pose proof (len_le_cap _ _ Hok) as Hcap.
  unfold AcceptSMCD_Parse.
  rewrite Header_Parse_ok, bind_ret by (assumption || lia).
  set (bs := s_bytes m buf) in *.
  replace (h_Length (hdr_of bs) <? AcceptSMCDLen)%N with false by (unfold AcceptSMCDLen; lia).
  cbv zeta. unfold HeaderLen, PeerIDLen.
  rewrite (from_buf m buf Hok), bind_ret by lia. run_panic m buf Hok.
  rewrite (Trailer_sub_panic m buf) by lia. reflexivity.
Qed.

(** ** Decline *)

Definition decline_of (old : Decline) (buf : slice) (bs : list byte) : Decline :=
  mkDecline buf (hdr_of bs) (seg bs 8 8) (num bs 16 4) (d_OSType old) (seg bs 20 4) (last4 bs).

Definition decline_short (old : Decline) (buf : slice) (bs : list byte) : Decline :=
  mkDecline buf (hdr_of bs) (d_SenderPeerID old) (d_PeerDiagnosis old) (d_OSType old)
           (d_reserved old) (d_Trailer old).

Lemma Decline_short m buf old : slice_ok m buf -> decline_wf old -> 8 <= s_len buf ->
  let bs := s_bytes m buf in
  (h_Length (hdr_of bs) < 28)%N ->
  Decline_Parse m old buf = short_run "Error parsing CLC Decline: message too short"%string m buf (decline_short old buf bs).
Proof.
  intros Hok (Hh & H2 & H3 & Ht) Hlen bs HL. unfold Decline_Parse.
  rewrite Header_Parse_ok, bind_ret by assumption. fold bs.
  replace (h_Length (hdr_of bs) <? DeclineLen)%N with true by (unfold DeclineLen; lia).
  cbv zeta. apply short_run_eq; assumption.
Qed.

Lemma Decline_full m buf old : slice_ok m buf -> decline_wf old -> 28 <= s_len buf ->
  let bs := s_bytes m buf in
  (28 <= h_Length (hdr_of bs))%N ->
  Decline_Parse m old buf = (trailer_log (last4 bs), Done (decline_of old buf bs)).
Proof.
  intros Hok (Hh & H2 & H3 & Ht) Hlen bs HL. pose proof (len_le_cap _ _ Hok) as Hcap.
  unfold Decline_Parse.
  rewrite Header_Parse_ok, bind_ret by (assumption || lia). fold bs.
  replace (h_Length (hdr_of bs) <? DeclineLen)%N with false by (unfold DeclineLen; lia).
  cbv zeta. unfold HeaderLen, PeerIDLen.
  rewrite (from_buf m buf Hok), bind_ret by lia. run m buf Hok.
  rewrite (Trailer_end m buf) by (assumption || lia). rewrite bind_done. cbn [fst snd ret].
  rewrite app_nil_r. unfold decline_of, bn, num. to_bytes m buf Hok. rewrite !be_acc0. reflexivity.
Qed.

Lemma Decline_panic m buf old : slice_ok m buf -> decline_wf old ->
  8 <= s_len buf < 28 -> (28 <= h_Length (hdr_of (s_bytes m buf)))%N ->
  Decline_Parse m old buf = panic.
Proof.
  intros Hok (Hh & H2 & H3 & Ht) Hlen HL. pose proof (len_le_cap _ _ Hok) as Hcap.
  unfold Decline_Parse.
  rewrite Header_Parse_ok, bind_ret by (assumption || lia).
  set (bs := s_bytes m buf) in *.
  replace (h_Length (hdr_of bs) <? DeclineLen)%N with false by (unfold DeclineLen; lia).
  cbv zeta. unfold HeaderLen, PeerIDLen.
  rewrite (from_buf m buf Hok), bind_ret by lia. run_panic m buf Hok.
  rewrite (Trailer_sub_panic m buf) by lia. reflexivity.
Qed.

(** ** Decline v2 *)

Definition declinev2_of (buf : slice) (bs : list byte) : DeclineV2 :=
  mkDeclineV2 buf (hdr_of bs) (seg bs 8 8) (num bs 16 4) (N.shiftr (bn bs 20) 4)
    (mask_first (seg bs 20 4)) (last4 bs).

Definition declinev2_short (old : DeclineV2) (buf : slice) (bs : list byte) : DeclineV2 :=
  mkDeclineV2 buf (hdr_of bs) (d2_SenderPeerID old) (d2_PeerDiagnosis old) (d2_OSType old)
           (d2_reserved old) (d2_Trailer old).

Lemma DeclineV2_short m buf old : slice_ok m buf -> declinev2_wf old -> 8 <= s_len buf ->
  let bs := s_bytes m buf in
  (h_Length (hdr_of bs) < 28)%N ->
  DeclineV2_Parse m old buf = short_run "Error parsing CLC Decline: message too short"%string m buf (declinev2_short old buf bs).
Proof.
  intros Hok (Hh & H2 & H3 & Ht) Hlen bs HL. unfold DeclineV2_Parse.
  rewrite Header_Parse_ok, bind_ret by assumption. fold bs.
  replace (h_Length (hdr_of bs) <? DeclineLen)%N with true by (unfold DeclineLen; lia).
  cbv zeta. apply short_run_eq; assumption.
Qed.

Lemma DeclineV2_full m buf old : slice_ok m buf -> declinev2_wf old -> 28 <= s_len buf ->
  let bs := s_bytes m buf in
  (28 <= h_Length (hdr_of bs))%N ->
  DeclineV2_Parse m old buf = (trailer_log (last4 bs), Done (declinev2_of buf bs)).
Proof.
  intros Hok (Hh & H2 & H3 & Ht) Hlen bs HL. pose proof (len_le_cap _ _ Hok) as Hcap.
  unfold DeclineV2_Parse.
  rewrite Header_Parse_ok, bind_ret by (assumption || lia). fold bs.
  replace (h_Length (hdr_of bs) <? DeclineLen)%N with false by (unfold DeclineLen; lia).
  cbv zeta. unfold HeaderLen, PeerIDLen.
  rewrite (from_buf m buf Hok), bind_ret by lia. run m buf Hok.
  rewrite (Trailer_end m buf) by (assumption || lia). rewrite bind_done. cbn [fst snd ret].
  rewrite app_nil_r. unfold declinev2_of, bn, num. to_bytes m buf Hok. rewrite !be_acc0. reflexivity.
Qed.

Lemma DeclineV2_panic m buf old : slice_ok m buf -> declinev2_wf old ->
  8 <= s_len buf < 28 -> (28 <= h_Length (hdr_of (s_bytes m buf)))%N ->
  DeclineV2_Parse m old buf = panic.
Proof.
  intros Hok (Hh & H2 & H3 & Ht) Hlen HL. pose proof (len_le_cap _ _ Hok) as Hcap.
  unfold DeclineV2_Parse.
  rewrite Header_Parse_ok, bind_ret by (assumption || lia).
  set (bs := s_bytes m buf) in *.
  replace (h_Length (hdr_of bs) <? DeclineLen)%N with false by (unfold DeclineLen; lia).
  cbv zeta. unfold HeaderLen, PeerIDLen.
  rewrite (from_buf m buf Hok), bind_ret by lia. run_panic m buf Hok.
  rewrite (Trailer_sub_panic m buf) by lia. reflexivity.
Qed.

(** ** Accept SMC-D v2 *)

Definition short_err_v2 (t : N) : string :=
  if (t =? TypeConfirm)%N then "Error parsing SMC-Dv2 CLC Confirm: message too short"%string
  else "Error parsing SMC-Dv2 CLC Accept: message too short"%string.

Definition smcdv2_short (old : AcceptSMCDv2) (buf : slice) (bs : list byte) : AcceptSMCDv2 :=
  mkAcceptSMCDv2 buf (hdr_of bs) (a2_GID old) (a2_Token old) (a2_DMBEIdx old)
           (a2_DMBESize old) (a2_reserved old) (a2_reserved2 old) (a2_LinkID old)
           (a2_ISMv2VCHID old) (a2_EID old) (a2_reserved3 old) (a2_reserved4 old)
           (a2_OSType old) (a2_Release old) (a2_reserved5 old) (a2_Hostname old)
           (a2_Trailer old).

Definition smcdv2_of (old : AcceptSMCDv2) (buf : slice) (bs : list byte) : AcceptSMCDv2 :=
  mkAcceptSMCDv2 buf (hdr_of bs) (num bs 8 8) (num bs 16 8) (bn bs 24)
    (N.shiftr (N.land (bn bs 25) 0xf0) 4) (N.land (bn bs 25) 0x0f) (seg bs 26 2)
    (num bs 28 4) (num bs 32 2) (seg bs 34 32) (seg bs 66 8)
    (a2_reserved4 old) (a2_OSType old) (a2_Release old) (a2_reserved5 old) (a2_Hostname old)
    (last4 bs).

Definition smcdv2_fce_of (buf : slice) (bs : list byte) : AcceptSMCDv2 :=
  mkAcceptSMCDv2 buf (hdr_of bs) (num bs 8 8) (num bs 16 8) (bn bs 24)
    (N.shiftr (N.land (bn bs 25) 0xf0) 4) (N.land (bn bs 25) 0x0f) (seg bs 26 2)
    (num bs 28 4) (num bs 32 2) (seg bs 34 32) (seg bs 66 8)
    (bn bs 74) (N.shiftr (bn bs 75) 4) (N.land (bn bs 75) 0x0f) (seg bs 76 2) (seg bs 78 32)
    (last4 bs).

Lemma AcceptSMCDv2_short m buf old : slice_ok m buf -> accept_smcdv2_wf old -> 8 <= s_len buf ->
  let bs := s_bytes m buf in
  (h_Length (hdr_of bs) < 78)%N \/ s_len buf < 78 ->
  AcceptSMCDv2_Parse m old buf =
  short_run (short_err_v2 (bn bs 4)) m buf (smcdv2_short old buf bs).
Proof.
  intros Hok (Hh & H2 & H3 & H4 & H5 & H6 & Ht) Hlen bs HL. unfold AcceptSMCDv2_Parse.
  rewrite Header_Parse_ok, bind_ret by assumption. fold bs.
  replace ((h_Length (hdr_of bs) <? AcceptSMCDv2Len)%N
           || (N.of_nat (s_len buf) <? AcceptSMCDv2Len)%N)%bool
    with true by (unfold AcceptSMCDv2Len; lia).
  cbv zeta. apply short_run_eq; assumption.
Qed.

Lemma AcceptSMCDv2_full m buf old : slice_ok m buf -> accept_smcdv2_wf old -> 78 <= s_len buf ->
  let bs := s_bytes m buf in
  (78 <= h_Length (hdr_of bs))%N -> (h_Length (hdr_of bs) <> 114)%N ->
  AcceptSMCDv2_Parse m old buf = (trailer_log (last4 bs), Done (smcdv2_of old buf bs)).
Proof.
  intros Hok (Hh & H2 & H3 & H4 & H5 & H6 & Ht) Hlen bs HL HF.
  pose proof (len_le_cap _ _ Hok) as Hcap.
  unfold AcceptSMCDv2_Parse.
  rewrite Header_Parse_ok, bind_ret by (assumption || lia). fold bs.
  replace ((h_Length (hdr_of bs) <? AcceptSMCDv2Len)%N
           || (N.of_nat (s_len buf) <? AcceptSMCDv2Len)%N)%bool
    with false by (unfold AcceptSMCDv2Len; lia).
  cbv zeta. unfold fce_Parse, HeaderLen, EIDLen.
  replace (h_Length (hdr_of bs) =? AcceptSMCDv2FCELen)%N with false
    by (unfold AcceptSMCDv2FCELen; lia).
  rewrite (from_buf m buf Hok), bind_ret by lia. run m buf Hok.
  rewrite (Trailer_end m buf) by (assumption || lia). rewrite bind_done. cbn [fst snd ret].
  rewrite app_nil_r. unfold smcdv2_of, bn, num. to_bytes m buf Hok. rewrite !be_acc0. reflexivity.
Qed.

Lemma AcceptSMCDv2_fce m buf old : slice_ok m buf -> accept_smcdv2_wf old -> 114 <= s_len buf ->
  let bs := s_bytes m buf in
  h_Length (hdr_of bs) = 114%N ->
  AcceptSMCDv2_Parse m old buf = (trailer_log (last4 bs), Done (smcdv2_fce_of buf bs)).
Proof.
  intros Hok (Hh & H2 & H3 & H4 & H5 & H6 & Ht) Hlen bs HF.
  pose proof (len_le_cap _ _ Hok) as Hcap.
  unfold AcceptSMCDv2_Parse.
  rewrite Header_Parse_ok, bind_ret by (assumption || lia). fold bs.
  replace ((h_Length (hdr_of bs) <? AcceptSMCDv2Len)%N
           || (N.of_nat (s_len buf) <? AcceptSMCDv2Len)%N)%bool
    with false by (unfold AcceptSMCDv2Len; lia).
  cbv zeta. unfold fce_Parse, HeaderLen, EIDLen.
  replace (h_Length (hdr_of bs) =? AcceptSMCDv2FCELen)%N with true
    by (unfold AcceptSMCDv2FCELen; lia).
  rewrite (from_buf m buf Hok), bind_ret by lia. run m buf Hok.
  rewrite (Trailer_end m buf) by (assumption || lia). rewrite bind_done. cbn [fst snd ret].
  rewrite app_nil_r. unfold smcdv2_fce_of, bn, num. to_bytes m buf Hok. rewrite !be_acc0. reflexivity.
Qed.

Lemma AcceptSMCDv2_panic m buf old : slice_ok m buf -> accept_smcdv2_wf old ->
  78 <= s_len buf < 114 -> h_Length (hdr_of (s_bytes m buf)) = 114%N ->
  AcceptSMCDv2_Parse m old buf = panic.
Proof.
  intros Hok (Hh & H2 & H3 & H4 & H5 & H6 & Ht) Hlen HF.
  pose proof (len_le_cap _ _ Hok) as Hcap.
  unfold AcceptSMCDv2_Parse.
  rewrite Header_Parse_ok, bind_ret by (assumption || lia).
  set (bs := s_bytes m buf) in *.
  replace ((h_Length (hdr_of bs) <? AcceptSMCDv2Len)%N
           || (N.of_nat (s_len buf) <? AcceptSMCDv2Len)%N)%bool
    with false by (unfold AcceptSMCDv2Len; lia).
  cbv zeta. unfold fce_Parse, HeaderLen, EIDLen.
  replace (h_Length (hdr_of bs) =? AcceptSMCDv2FCELen)%N with true
    by (unfold AcceptSMCDv2FCELen; lia).
  rewrite (from_buf m buf Hok), bind_ret by lia. run_panic m buf Hok.
  rewrite (Trailer_sub_panic m buf) by lia. reflexivity.
Qed.
