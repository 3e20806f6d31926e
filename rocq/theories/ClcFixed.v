(** * ClcFixed: the fixed-format CLC parsers against the wire specification.
    Proofs only; the theorems are restated in the Props files. *)

From Coq Require Import NArith ZArith Bool String Arith List Lia.
From Coq Require Import ZifyBool ZifyNat ZifyN.
From Verif Require Import GoBase GoFmt ClcModel Slices Wire WireLemmas ClcView Steps ClcParse.
Import ListNotations.
Local Open Scope nat_scope.

Ltac fields :=
  list_fields; try match goal with |- ?x = ?x => exact eq_refl end;
  try bits_in_bytes; try bits_in_byte.

Lemma hdr_view bs : 8 <= length bs -> header_view (hdr_of bs) = decode clc_header bs.
Proof.
  intros H. unfold header_view, hdr_of, clc_header, bn, num. cbn [h_Eyecatcher h_Type h_Length h_Version h_Flag h_reserved h_Path].
  calc_layout. fields.
Qed.

(** ** Declared length and type *)

Lemma declared_hdr bs : 8 <= length bs -> h_Length (hdr_of bs) = declared bs.
Proof. intros; unfold hdr_of, declared, num; cbn [h_Length]. bits_in_bytes. Qed.

Lemma msg_type_hdr bs : 8 <= length bs -> bn bs 4 = msg_type bs.
Proof. intros; unfold msg_type, bn. bits_in_byte. Qed.

Lemma window_bytes m buf n : n <= s_cap buf ->
  seg (win m buf) 0 n = bytes_at (m (s_arr buf)) (s_off buf) n.
Proof.
  intros. unfold seg, win, bytes_at. cbn [skipn]. rewrite firstn_firstn. f_equal. lia.
Qed.

Lemma last4_length bs : 4 <= length bs -> length (last4 bs) = 4.
Proof. intros. rewrite last4_seg, seg_length; lia. Qed.

Lemma hdr_wf bs : 4 <= length bs -> header_wf (hdr_of bs).
Proof. intros. unfold header_wf, hdr_of; cbn [h_Eyecatcher]. rewrite seg_length; lia. Qed.

Lemma land15 b : b2n (n2b (N.land (b2n b) 15)) = (b2n b mod 16)%N.
Proof. byte_sweep b. Qed.

Lemma mask_first_bits bs : 24 <= length bs -> BE (mask_first (seg bs 20 4)) = bits bs 164 28.
Proof.
  intros H. change 164 with (8 * 20 + 4). rewrite (bits_seg bs 20 4) by lia.
  rewrite !(seg_S _ _ _ x00), seg_0 by lia.
  generalize (nth 20 bs x00) (nth 21 bs x00) (nth 22 bs x00) (nth 23 bs x00).
  intros b0 b1 b2 b3. rewrite bits_div by (cbn [length]; lia). unfold mask_first. cbn [BE length N.of_nat Nat.mul Nat.add Nat.sub].
  rewrite land15.
  pose proof (b2n_lt b0); pose proof (b2n_lt b1); pose proof (b2n_lt b2); pose proof (b2n_lt b3).
  change (2 ^ 0)%N with 1%N. rewrite N.div_1_r.
  change (256 ^ N.pos (Pos.of_succ_nat 2))%N with 16777216%N.
  change (256 ^ N.pos (Pos.of_succ_nat 1))%N with 65536%N.
  change (256 ^ N.pos (Pos.of_succ_nat 0))%N with 256%N.
  change (256 ^ 0)%N with 1%N.
  change (2 ^ N.pos (Pos.of_succ_nat 27))%N with 268435456%N. lia.
Qed.

(** ** Objects reachable by parsing any messages one after the other *)
Inductive parsed {A} (P : mem -> A -> slice -> M A) (zero : A) : A -> Prop :=
| parsed_fresh : parsed P zero zero
| parsed_again m old buf logs new : parsed P zero old -> slice_ok m buf ->
    P m old buf = (logs, Done new) -> parsed P zero new.

Lemma short_run_ok {A} err m buf (a : A) : slice_ok m buf -> 8 <= s_len buf ->
  N.to_nat (declared (s_bytes m buf)) <= s_cap buf ->
  short_run err m buf a =
  ([err; dump_line (bytes_at (m (s_arr buf)) (s_off buf) (N.to_nat (declared (s_bytes m buf))))],
   Done a).
Proof.
  intros Hok Hl Hc. unfold short_run.
  rewrite declared_hdr by (rewrite (s_bytes_length m buf Hok); lia).
  rewrite (proj2 (Nat.leb_le _ _)) by lia.
  rewrite window_bytes by lia. reflexivity.
Qed.

Lemma short_run_bad {A} err m buf (a : A) : slice_ok m buf -> 8 <= s_len buf ->
  s_cap buf < N.to_nat (declared (s_bytes m buf)) ->
  short_run err m buf a = ([err], Panicked).
Proof.
  intros Hok Hl Hc. unfold short_run.
  rewrite declared_hdr by (rewrite (s_bytes_length m buf Hok); lia).
  rewrite (proj2 (Nat.leb_gt _ _)) by lia. reflexivity.
Qed.

(** ** Accept SMC-R *)

Lemma AcceptSMCR_decode m buf old : slice_ok m buf -> accept_smcr_wf old -> 68 <= s_len buf ->
  let bs := s_bytes m buf in
  (68 <= declared bs)%N ->
  exists a, AcceptSMCR_Parse m old buf = (trailer_log (last4 bs), Done a) /\
    accept_smcr_view a = decode (clc_header ++ accept_smcr_body) bs /\
    ar_Trailer a = last4 bs /\ ar_Raw a = buf.
Proof.
  intros Hok Hwf Hlen bs HL. pose proof (s_bytes_length m buf Hok) as Hb. fold bs in Hb.
  rewrite <- declared_hdr in HL by lia.
  exists (smcr_of buf bs). split; [apply AcceptSMCR_full; assumption|]. split; [|split; reflexivity].
  unfold accept_smcr_view. change (ar_Header (smcr_of buf bs)) with (hdr_of bs).
  rewrite hdr_view by lia. clearbody bs. unfold smcr_of, clc_header, accept_smcr_body, bn, num. cbn -[decode app bits seg BE b2n].
  calc_layout. fields.
Qed.

Lemma AcceptSMCR_total m buf old : slice_ok m buf -> accept_smcr_wf old ->
  let bs := s_bytes m buf in
  (s_len buf < 8 -> AcceptSMCR_Parse m old buf = panic) /\
  (8 <= s_len buf -> (declared bs < 68)%N ->
     AcceptSMCR_Parse m old buf = short_run (short_err (msg_type bs)) m buf (smcr_short old buf bs)) /\
  (8 <= s_len buf < 68 -> (68 <= declared bs)%N -> AcceptSMCR_Parse m old buf = panic) /\
  (68 <= s_len buf -> (68 <= declared bs)%N ->
     AcceptSMCR_Parse m old buf = (trailer_log (last4 bs), Done (smcr_of buf bs))).
Proof.
  intros Hok Hwf bs. pose proof (s_bytes_length m buf Hok) as Hb. fold bs in Hb.
  split; [|split; [|split]].
  - intros. unfold AcceptSMCR_Parse. rewrite Header_Parse_panic; [reflexivity|assumption|apply Hwf|lia].
  - intros ? HL. rewrite <- msg_type_hdr, <- declared_hdr in * by lia. apply AcceptSMCR_short; assumption.
  - intros ? HL. rewrite <- declared_hdr in HL by lia. apply AcceptSMCR_panic; assumption.
  - intros ? HL. rewrite <- declared_hdr in HL by lia. apply AcceptSMCR_full; assumption.
Qed.

Lemma AcceptSMCR_too_short m buf old : slice_ok m buf -> accept_smcr_wf old -> 8 <= s_len buf ->
  let bs := s_bytes m buf in
  (declared bs < 68)%N -> N.to_nat (declared bs) <= s_cap buf ->
  exists h, header_view h = decode clc_header bs /\
    AcceptSMCR_Parse m old buf =
    ([(short_err (msg_type bs)); dump_line (bytes_at (m (s_arr buf)) (s_off buf) (N.to_nat (declared bs)))],
     Done {| ar_Raw := buf; ar_Header := h; ar_SenderPeerID := ar_SenderPeerID old; ar_IBGID := ar_IBGID old; ar_IBMAC := ar_IBMAC old; ar_QPN := ar_QPN old; ar_RMBRKey := ar_RMBRKey old; ar_RMBEIdx := ar_RMBEIdx old; ar_RMBEAlertToken := ar_RMBEAlertToken old; ar_RMBESize := ar_RMBESize old; ar_QPMTU := ar_QPMTU old; ar_reserved := ar_reserved old; ar_RMBDMAAddr := ar_RMBDMAAddr old; ar_reserved2 := ar_reserved2 old; ar_PSN := ar_PSN old; ar_Trailer := ar_Trailer old |}).
Proof.
  intros Hok Hwf Hlen bs HL Hc. pose proof (s_bytes_length m buf Hok) as Hb. fold bs in Hb.
  exists (hdr_of bs). split; [apply hdr_view; lia|].
  destruct (AcceptSMCR_total m buf old Hok Hwf) as (_ & H & _). fold bs in H. rewrite H by lia.
  rewrite short_run_ok by assumption. reflexivity.
Qed.

Lemma AcceptSMCR_panics m buf old : slice_ok m buf -> accept_smcr_wf old ->
  let bs := s_bytes m buf in
  (snd (AcceptSMCR_Parse m old buf) = Panicked <->
   s_len buf < 8 \/
   ((declared bs < 68)%N /\ s_cap buf < N.to_nat (declared bs)) \/
   ((68 <= declared bs)%N /\ s_len buf < 68)) /\
  snd (AcceptSMCR_Parse m old buf) <> Exited.
Proof.
  intros Hok Hwf bs. pose proof (s_bytes_length m buf Hok) as Hb. fold bs in Hb.
  destruct (AcceptSMCR_total m buf old Hok Hwf) as (H1 & H2 & H3 & H4). fold bs in H2, H3, H4.
  destruct (le_lt_dec 8 (s_len buf)) as [L8|L8].
  2:{ rewrite H1 by lia. cbn. split; [split; auto|discriminate]. }
  destruct (N.lt_ge_cases (declared bs) 68) as [D|D].
  - rewrite H2 by lia. destruct (le_lt_dec (N.to_nat (declared bs)) (s_cap buf)) as [C|C].
    + rewrite short_run_ok by assumption. cbn. split; [|discriminate]; split; [discriminate|intros; lia].
    + rewrite short_run_bad by assumption. cbn. split; [|discriminate]; split; [intros; lia|reflexivity].
  - destruct (le_lt_dec 68 (s_len buf)) as [L|L].
    + rewrite H4 by lia. cbn. split; [|discriminate]; split; [discriminate|intros; lia].
    + rewrite H3 by lia. cbn. split; [|discriminate]; split; [intros; lia|reflexivity].
Qed.

Lemma AcceptSMCR_complete m buf old : slice_ok m buf -> accept_smcr_wf old -> 8 <= s_len buf ->
  N.to_nat (declared (s_bytes m buf)) <= s_len buf ->
  exists logs a, AcceptSMCR_Parse m old buf = (logs, Done a).
Proof.
  intros Hok Hwf L8 HL. destruct (AcceptSMCR_panics m buf old Hok Hwf) as [HP HE].
  pose proof (len_le_cap _ _ Hok) as Hcap.
  destruct (AcceptSMCR_Parse m old buf) as [logs [a| |]]; cbn [snd] in *; [eauto| |congruence].
  exfalso. destruct HP as [HP _]. specialize (HP eq_refl). lia.
Qed.

Lemma AcceptSMCR_keeps_wf m buf old logs a : slice_ok m buf -> accept_smcr_wf old ->
  AcceptSMCR_Parse m old buf = (logs, Done a) -> accept_smcr_wf a.
Proof.
  intros Hok Hwf H. pose proof (s_bytes_length m buf Hok) as Hb.
  destruct (AcceptSMCR_total m buf old Hok Hwf) as (H1 & H2 & H3 & H4).
  destruct (le_lt_dec 8 (s_len buf)) as [L8|L8]; [|rewrite H1 in H by lia; discriminate].
  destruct (N.lt_ge_cases (declared (s_bytes m buf)) 68) as [D|D].
  - rewrite H2 in H by lia. destruct (le_lt_dec (N.to_nat (declared (s_bytes m buf))) (s_cap buf)) as [C|C];
      [rewrite short_run_ok in H by assumption|rewrite short_run_bad in H by assumption; discriminate].
    injection H as <- <-.
    unfold accept_smcr_wf in *. cbn. intuition (apply hdr_wf; lia).
  - destruct (le_lt_dec 68 (s_len buf)) as [L|L]; [|rewrite H3 in H by lia; discriminate].
    rewrite H4 in H by lia. injection H as <- <-. unfold accept_smcr_wf in *. unfold smcr_of.
    cbn -[seg last4 firstn]. unfold mask_first.
    pose proof (hdr_wf (s_bytes m buf)). pose proof (last4_length (s_bytes m buf)).
    repeat split; try (apply hdr_wf; lia); try (apply last4_length; lia);
    try (rewrite !seg_length by lia; lia).
Qed.

Lemma AcceptSMCR_parsed_wf a : parsed AcceptSMCR_Parse AcceptSMCR_zero a -> accept_smcr_wf a.
Proof.
  induction 1 as [|m old buf logs new H IH Hok E].
  - repeat split.
  - eapply AcceptSMCR_keeps_wf; eassumption.
Qed.

Lemma AcceptSMCR_local m1 m2 buf old : slice_ok m1 buf -> slice_ok m2 buf -> accept_smcr_wf old ->
  s_bytes m1 buf = s_bytes m2 buf ->
  snd (AcceptSMCR_Parse m1 old buf) = snd (AcceptSMCR_Parse m2 old buf).
Proof.
  intros Hok1 Hok2 Hwf E.
  destruct (AcceptSMCR_total m1 buf old Hok1 Hwf) as (H1 & H2 & H3 & H4).
  destruct (AcceptSMCR_total m2 buf old Hok2 Hwf) as (H1' & H2' & H3' & H4').
  rewrite <- E in *.
  destruct (le_lt_dec 8 (s_len buf)) as [L8|L8]; [|rewrite H1, H1' by lia; reflexivity].
  destruct (N.lt_ge_cases (declared (s_bytes m1 buf)) 68) as [D|D].
  - rewrite H2, H2' by lia. unfold short_run. rewrite <- E.
    destruct (_ <=? _); reflexivity.
  - destruct (le_lt_dec 68 (s_len buf)) as [L|L]; [rewrite H4, H4' by lia|rewrite H3, H3' by lia]; reflexivity.
Qed.

Lemma AcceptSMCR_again m buf old : slice_ok m buf -> accept_smcr_wf old -> 
  68 <= s_len buf -> (68 <= declared (s_bytes m buf))%N ->
  AcceptSMCR_Parse m old buf = AcceptSMCR_Parse m AcceptSMCR_zero buf.
Proof.
  intros Hok Hwf L D.
  destruct (AcceptSMCR_total m buf old Hok Hwf) as (_ & _ & _ & H4).
  destruct (AcceptSMCR_total m buf AcceptSMCR_zero Hok) as (_ & _ & _ & H4'); [repeat split|].
  rewrite H4, H4' by assumption. reflexivity.
Qed.

(** ** Accept SMC-D v1 *)

Lemma AcceptSMCD_decode m buf old : slice_ok m buf -> accept_smcd_wf old -> 48 <= s_len buf ->
  let bs := s_bytes m buf in
  (48 <= declared bs)%N ->
  exists a, AcceptSMCD_Parse m old buf = (trailer_log (last4 bs), Done a) /\
    accept_smcd_view a = decode (clc_header ++ accept_smcd_body) bs /\
    ad_Trailer a = last4 bs /\ ad_Raw a = buf.
Proof.
  intros Hok Hwf Hlen bs HL. pose proof (s_bytes_length m buf Hok) as Hb. fold bs in Hb.
  rewrite <- declared_hdr in HL by lia.
  exists (smcd_of buf bs). split; [apply AcceptSMCD_full; assumption|]. split; [|split; reflexivity].
  unfold accept_smcd_view. change (ad_Header (smcd_of buf bs)) with (hdr_of bs).
  rewrite hdr_view by lia. clearbody bs. unfold smcd_of, clc_header, accept_smcd_body, bn, num. cbn -[decode app bits seg BE b2n].
  calc_layout. fields.
Qed.

Lemma AcceptSMCD_total m buf old : slice_ok m buf -> accept_smcd_wf old ->
  let bs := s_bytes m buf in
  (s_len buf < 8 -> AcceptSMCD_Parse m old buf = panic) /\
  (8 <= s_len buf -> (declared bs < 48)%N ->
     AcceptSMCD_Parse m old buf = short_run (short_err (msg_type bs)) m buf (smcd_short old buf bs)) /\
  (8 <= s_len buf < 48 -> (48 <= declared bs)%N -> AcceptSMCD_Parse m old buf = panic) /\
  (48 <= s_len buf -> (48 <= declared bs)%N ->
     AcceptSMCD_Parse m old buf = (trailer_log (last4 bs), Done (smcd_of buf bs))).
Proof.
  intros Hok Hwf bs. pose proof (s_bytes_length m buf Hok) as Hb. fold bs in Hb.
  split; [|split; [|split]].
  - intros. unfold AcceptSMCD_Parse. rewrite Header_Parse_panic; [reflexivity|assumption|apply Hwf|lia].
  - intros ? HL. rewrite <- msg_type_hdr, <- declared_hdr in * by lia. apply AcceptSMCD_short; assumption.
  - intros ? HL. rewrite <- declared_hdr in HL by lia. apply AcceptSMCD_panic; assumption.
  - intros ? HL. rewrite <- declared_hdr in HL by lia. apply AcceptSMCD_full; assumption.
Qed.

Lemma AcceptSMCD_too_short m buf old : slice_ok m buf -> accept_smcd_wf old -> 8 <= s_len buf ->
  let bs := s_bytes m buf in
  (declared bs < 48)%N -> N.to_nat (declared bs) <= s_cap buf ->
  exists h, header_view h = decode clc_header bs /\
    AcceptSMCD_Parse m old buf =
    ([(short_err (msg_type bs)); dump_line (bytes_at (m (s_arr buf)) (s_off buf) (N.to_nat (declared bs)))],
     Done {| ad_Raw := buf; ad_Header := h; ad_GID := ad_GID old; ad_Token := ad_Token old; ad_DMBEIdx := ad_DMBEIdx old; ad_DMBESize := ad_DMBESize old; ad_reserved := ad_reserved old; ad_reserved2 := ad_reserved2 old; ad_LinkID := ad_LinkID old; ad_reserved3 := ad_reserved3 old; ad_Trailer := ad_Trailer old |}).
Proof.
  intros Hok Hwf Hlen bs HL Hc. pose proof (s_bytes_length m buf Hok) as Hb. fold bs in Hb.
  exists (hdr_of bs). split; [apply hdr_view; lia|].
  destruct (AcceptSMCD_total m buf old Hok Hwf) as (_ & H & _). fold bs in H. rewrite H by lia.
  rewrite short_run_ok by assumption. reflexivity.
Qed.

Lemma AcceptSMCD_panics m buf old : slice_ok m buf -> accept_smcd_wf old ->
  let bs := s_bytes m buf in
  (snd (AcceptSMCD_Parse m old buf) = Panicked <->
   s_len buf < 8 \/
   ((declared bs < 48)%N /\ s_cap buf < N.to_nat (declared bs)) \/
   ((48 <= declared bs)%N /\ s_len buf < 48)) /\
  snd (AcceptSMCD_Parse m old buf) <> Exited.
Proof.
  intros Hok Hwf bs. pose proof (s_bytes_length m buf Hok) as Hb. fold bs in Hb.
  destruct (AcceptSMCD_total m buf old Hok Hwf) as (H1 & H2 & H3 & H4). fold bs in H2, H3, H4.
  destruct (le_lt_dec 8 (s_len buf)) as [L8|L8].
  2:{ rewrite H1 by lia. cbn. split; [split; auto|discriminate]. }
  destruct (N.lt_ge_cases (declared bs) 48) as [D|D].
  - rewrite H2 by lia. destruct (le_lt_dec (N.to_nat (declared bs)) (s_cap buf)) as [C|C].
    + rewrite short_run_ok by assumption. cbn. split; [|discriminate]; split; [discriminate|intros; lia].
    + rewrite short_run_bad by assumption. cbn. split; [|discriminate]; split; [intros; lia|reflexivity].
  - destruct (le_lt_dec 48 (s_len buf)) as [L|L].
    + rewrite H4 by lia. cbn. split; [|discriminate]; split; [discriminate|intros; lia].
    + rewrite H3 by lia. cbn. split; [|discriminate]; split; [intros; lia|reflexivity].
Qed.

Lemma AcceptSMCD_complete m buf old : slice_ok m buf -> accept_smcd_wf old -> 8 <= s_len buf ->
  N.to_nat (declared (s_bytes m buf)) <= s_len buf ->
  exists logs a, AcceptSMCD_Parse m old buf = (logs, Done a).
Proof.
  intros Hok Hwf L8 HL. destruct (AcceptSMCD_panics m buf old Hok Hwf) as [HP HE].
  pose proof (len_le_cap _ _ Hok) as Hcap.
  destruct (AcceptSMCD_Parse m old buf) as [logs [a| |]]; cbn [snd] in *; [eauto| |congruence].
  exfalso. destruct HP as [HP _]. specialize (HP eq_refl). lia.
Qed.

Lemma AcceptSMCD_keeps_wf m buf old logs a : slice_ok m buf -> accept_smcd_wf old ->
  AcceptSMCD_Parse m old buf = (logs, Done a) -> accept_smcd_wf a.
Proof.
  intros Hok Hwf H. pose proof (s_bytes_length m buf Hok) as Hb.
  destruct (AcceptSMCD_total m buf old Hok Hwf) as (H1 & H2 & H3 & H4).
  destruct (le_lt_dec 8 (s_len buf)) as [L8|L8]; [|rewrite H1 in H by lia; discriminate].
  destruct (N.lt_ge_cases (declared (s_bytes m buf)) 48) as [D|D].
  - rewrite H2 in H by lia. destruct (le_lt_dec (N.to_nat (declared (s_bytes m buf))) (s_cap buf)) as [C|C];
      [rewrite short_run_ok in H by assumption|rewrite short_run_bad in H by assumption; discriminate].
    injection H as <- <-.
    unfold accept_smcd_wf in *. cbn. intuition (apply hdr_wf; lia).
  - destruct (le_lt_dec 48 (s_len buf)) as [L|L]; [|rewrite H3 in H by lia; discriminate].
    rewrite H4 in H by lia. injection H as <- <-. unfold accept_smcd_wf in *. unfold smcd_of.
    cbn -[seg last4 firstn]. unfold mask_first.
    pose proof (hdr_wf (s_bytes m buf)). pose proof (last4_length (s_bytes m buf)).
    repeat split; try (apply hdr_wf; lia); try (apply last4_length; lia);
    try (rewrite !seg_length by lia; lia).
Qed.

Lemma AcceptSMCD_parsed_wf a : parsed AcceptSMCD_Parse AcceptSMCD_zero a -> accept_smcd_wf a.
Proof.
  induction 1 as [|m old buf logs new H IH Hok E].
  - repeat split.
  - eapply AcceptSMCD_keeps_wf; eassumption.
Qed.

Lemma AcceptSMCD_local m1 m2 buf old : slice_ok m1 buf -> slice_ok m2 buf -> accept_smcd_wf old ->
  s_bytes m1 buf = s_bytes m2 buf ->
  snd (AcceptSMCD_Parse m1 old buf) = snd (AcceptSMCD_Parse m2 old buf).
Proof.
  intros Hok1 Hok2 Hwf E.
  destruct (AcceptSMCD_total m1 buf old Hok1 Hwf) as (H1 & H2 & H3 & H4).
  destruct (AcceptSMCD_total m2 buf old Hok2 Hwf) as (H1' & H2' & H3' & H4').
  rewrite <- E in *.
  destruct (le_lt_dec 8 (s_len buf)) as [L8|L8]; [|rewrite H1, H1' by lia; reflexivity].
  destruct (N.lt_ge_cases (declared (s_bytes m1 buf)) 48) as [D|D].
  - rewrite H2, H2' by lia. unfold short_run. rewrite <- E.
    destruct (_ <=? _); reflexivity.
  - destruct (le_lt_dec 48 (s_len buf)) as [L|L]; [rewrite H4, H4' by lia|rewrite H3, H3' by lia]; reflexivity.
Qed.

Lemma AcceptSMCD_again m buf old : slice_ok m buf -> accept_smcd_wf old -> 
  48 <= s_len buf -> (48 <= declared (s_bytes m buf))%N ->
  AcceptSMCD_Parse m old buf = AcceptSMCD_Parse m AcceptSMCD_zero buf.
Proof.
  intros Hok Hwf L D.
  destruct (AcceptSMCD_total m buf old Hok Hwf) as (_ & _ & _ & H4).
  destruct (AcceptSMCD_total m buf AcceptSMCD_zero Hok) as (_ & _ & _ & H4'); [repeat split|].
  rewrite H4, H4' by assumption. reflexivity.
Qed.

(** ** Decline v1 *)

Lemma Decline_decode m buf old : slice_ok m buf -> decline_wf old -> 28 <= s_len buf ->
  let bs := s_bytes m buf in
  (28 <= declared bs)%N ->
  exists a, Decline_Parse m old buf = (trailer_log (last4 bs), Done a) /\
    decline_view a = decode (clc_header ++ decline_body) bs /\
    d_Trailer a = last4 bs /\ d_Raw a = buf.
Proof.
  intros Hok Hwf Hlen bs HL. pose proof (s_bytes_length m buf Hok) as Hb. fold bs in Hb.
  rewrite <- declared_hdr in HL by lia.
  exists (decline_of old buf bs). split; [apply Decline_full; assumption|]. split; [|split; reflexivity].
  unfold decline_view. change (d_Header (decline_of old buf bs)) with (hdr_of bs).
  rewrite hdr_view by lia. clearbody bs. unfold decline_of, clc_header, decline_body, bn, num. cbn -[decode app bits seg BE b2n].
  calc_layout. fields.
Qed.

Lemma Decline_total m buf old : slice_ok m buf -> decline_wf old ->
  let bs := s_bytes m buf in
  (s_len buf < 8 -> Decline_Parse m old buf = panic) /\
  (8 <= s_len buf -> (declared bs < 28)%N ->
     Decline_Parse m old buf = short_run "Error parsing CLC Decline: message too short"%string m buf (decline_short old buf bs)) /\
  (8 <= s_len buf < 28 -> (28 <= declared bs)%N -> Decline_Parse m old buf = panic) /\
  (28 <= s_len buf -> (28 <= declared bs)%N ->
     Decline_Parse m old buf = (trailer_log (last4 bs), Done (decline_of old buf bs))).
Proof.
  intros Hok Hwf bs. pose proof (s_bytes_length m buf Hok) as Hb. fold bs in Hb.
  split; [|split; [|split]].
  - intros. unfold Decline_Parse. rewrite Header_Parse_panic; [reflexivity|assumption|apply Hwf|lia].
  - intros ? HL. rewrite <- declared_hdr in * by lia. apply Decline_short; assumption.
  - intros ? HL. rewrite <- declared_hdr in HL by lia. apply Decline_panic; assumption.
  - intros ? HL. rewrite <- declared_hdr in HL by lia. apply Decline_full; assumption.
Qed.

Lemma Decline_too_short m buf old : slice_ok m buf -> decline_wf old -> 8 <= s_len buf ->
  let bs := s_bytes m buf in
  (declared bs < 28)%N -> N.to_nat (declared bs) <= s_cap buf ->
  exists h, header_view h = decode clc_header bs /\
    Decline_Parse m old buf =
    (["Error parsing CLC Decline: message too short"%string; dump_line (bytes_at (m (s_arr buf)) (s_off buf) (N.to_nat (declared bs)))],
     Done {| d_Raw := buf; d_Header := h; d_SenderPeerID := d_SenderPeerID old; d_PeerDiagnosis := d_PeerDiagnosis old; d_OSType := d_OSType old; d_reserved := d_reserved old; d_Trailer := d_Trailer old |}).
Proof.
  intros Hok Hwf Hlen bs HL Hc. pose proof (s_bytes_length m buf Hok) as Hb. fold bs in Hb.
  exists (hdr_of bs). split; [apply hdr_view; lia|].
  destruct (Decline_total m buf old Hok Hwf) as (_ & H & _). fold bs in H. rewrite H by lia.
  rewrite short_run_ok by assumption. reflexivity.
Qed.

Lemma Decline_panics m buf old : slice_ok m buf -> decline_wf old ->
  let bs := s_bytes m buf in
  (snd (Decline_Parse m old buf) = Panicked <->
   s_len buf < 8 \/
   ((declared bs < 28)%N /\ s_cap buf < N.to_nat (declared bs)) \/
   ((28 <= declared bs)%N /\ s_len buf < 28)) /\
  snd (Decline_Parse m old buf) <> Exited.
Proof.
  intros Hok Hwf bs. pose proof (s_bytes_length m buf Hok) as Hb. fold bs in Hb.
  destruct (Decline_total m buf old Hok Hwf) as (H1 & H2 & H3 & H4). fold bs in H2, H3, H4.
  destruct (le_lt_dec 8 (s_len buf)) as [L8|L8].
  2:{ rewrite H1 by lia. cbn. split; [split; auto|discriminate]. }
  destruct (N.lt_ge_cases (declared bs) 28) as [D|D].
  - rewrite H2 by lia. destruct (le_lt_dec (N.to_nat (declared bs)) (s_cap buf)) as [C|C].
    + rewrite short_run_ok by assumption. cbn. split; [|discriminate]; split; [discriminate|intros; lia].
    + rewrite short_run_bad by assumption. cbn. split; [|discriminate]; split; [intros; lia|reflexivity].
  - destruct (le_lt_dec 28 (s_len buf)) as [L|L].
    + rewrite H4 by lia. cbn. split; [|discriminate]; split; [discriminate|intros; lia].
    + rewrite H3 by lia. cbn. split; [|discriminate]; split; [intros; lia|reflexivity].
Qed.

Lemma Decline_complete m buf old : slice_ok m buf -> decline_wf old -> 8 <= s_len buf ->
  N.to_nat (declared (s_bytes m buf)) <= s_len buf ->
  exists logs a, Decline_Parse m old buf = (logs, Done a).
Proof.
  intros Hok Hwf L8 HL. destruct (Decline_panics m buf old Hok Hwf) as [HP HE].
  pose proof (len_le_cap _ _ Hok) as Hcap.
  destruct (Decline_Parse m old buf) as [logs [a| |]]; cbn [snd] in *; [eauto| |congruence].
  exfalso. destruct HP as [HP _]. specialize (HP eq_refl). lia.
Qed.

Lemma Decline_keeps_wf m buf old logs a : slice_ok m buf -> decline_wf old ->
  Decline_Parse m old buf = (logs, Done a) -> decline_wf a.
Proof.
  intros Hok Hwf H. pose proof (s_bytes_length m buf Hok) as Hb.
  destruct (Decline_total m buf old Hok Hwf) as (H1 & H2 & H3 & H4).
  destruct (le_lt_dec 8 (s_len buf)) as [L8|L8]; [|rewrite H1 in H by lia; discriminate].
  destruct (N.lt_ge_cases (declared (s_bytes m buf)) 28) as [D|D].
  - rewrite H2 in H by lia. destruct (le_lt_dec (N.to_nat (declared (s_bytes m buf))) (s_cap buf)) as [C|C];
      [rewrite short_run_ok in H by assumption|rewrite short_run_bad in H by assumption; discriminate].
    injection H as <- <-.
    unfold decline_wf in *. cbn. intuition (apply hdr_wf; lia).
  - destruct (le_lt_dec 28 (s_len buf)) as [L|L]; [|rewrite H3 in H by lia; discriminate].
    rewrite H4 in H by lia. injection H as <- <-. unfold decline_wf in *. unfold decline_of.
    cbn -[seg last4 firstn]. unfold mask_first.
    pose proof (hdr_wf (s_bytes m buf)). pose proof (last4_length (s_bytes m buf)).
    repeat split; try (apply hdr_wf; lia); try (apply last4_length; lia);
    try (rewrite !seg_length by lia; lia).
Qed.

Lemma Decline_parsed_wf a : parsed Decline_Parse Decline_zero a -> decline_wf a.
Proof.
  induction 1 as [|m old buf logs new H IH Hok E].
  - repeat split.
  - eapply Decline_keeps_wf; eassumption.
Qed.

Lemma Decline_local m1 m2 buf old : slice_ok m1 buf -> slice_ok m2 buf -> decline_wf old ->
  s_bytes m1 buf = s_bytes m2 buf ->
  snd (Decline_Parse m1 old buf) = snd (Decline_Parse m2 old buf).
Proof.
  intros Hok1 Hok2 Hwf E.
  destruct (Decline_total m1 buf old Hok1 Hwf) as (H1 & H2 & H3 & H4).
  destruct (Decline_total m2 buf old Hok2 Hwf) as (H1' & H2' & H3' & H4').
  rewrite <- E in *.
  destruct (le_lt_dec 8 (s_len buf)) as [L8|L8]; [|rewrite H1, H1' by lia; reflexivity].
  destruct (N.lt_ge_cases (declared (s_bytes m1 buf)) 28) as [D|D].
  - rewrite H2, H2' by lia. unfold short_run. rewrite <- E.
    destruct (_ <=? _); reflexivity.
  - destruct (le_lt_dec 28 (s_len buf)) as [L|L]; [rewrite H4, H4' by lia|rewrite H3, H3' by lia]; reflexivity.
Qed.

Lemma Decline_again m buf old : slice_ok m buf -> decline_wf old -> d_OSType old = 0%N ->
  28 <= s_len buf -> (28 <= declared (s_bytes m buf))%N ->
  Decline_Parse m old buf = Decline_Parse m Decline_zero buf.
Proof.
  intros Hok Hwf Hos L D.
  destruct (Decline_total m buf old Hok Hwf) as (_ & _ & _ & H4).
  destruct (Decline_total m buf Decline_zero Hok) as (_ & _ & _ & H4'); [repeat split|].
  rewrite H4, H4' by assumption. unfold decline_of. rewrite Hos. reflexivity.
Qed.

(** ** Decline v2 *)

Lemma DeclineV2_decode m buf old : slice_ok m buf -> declinev2_wf old -> 28 <= s_len buf ->
  let bs := s_bytes m buf in
  (28 <= declared bs)%N ->
  exists a, DeclineV2_Parse m old buf = (trailer_log (last4 bs), Done a) /\
    declinev2_view a = decode (clc_header ++ declinev2_body) bs /\
    d2_Trailer a = last4 bs /\ d2_Raw a = buf.
Proof.
  intros Hok Hwf Hlen bs HL. pose proof (s_bytes_length m buf Hok) as Hb. fold bs in Hb.
  rewrite <- declared_hdr in HL by lia.
  exists (declinev2_of buf bs). split; [apply DeclineV2_full; assumption|]. split; [|split; reflexivity].
  unfold declinev2_view. change (d2_Header (declinev2_of buf bs)) with (hdr_of bs).
  rewrite hdr_view by lia. clearbody bs. unfold declinev2_of, clc_header, declinev2_body, bn, num. cbn -[decode app bits seg BE b2n].
  calc_layout. fields. apply mask_first_bits; lia.
Qed.

Lemma DeclineV2_total m buf old : slice_ok m buf -> declinev2_wf old ->
  let bs := s_bytes m buf in
  (s_len buf < 8 -> DeclineV2_Parse m old buf = panic) /\
  (8 <= s_len buf -> (declared bs < 28)%N ->
     DeclineV2_Parse m old buf = short_run "Error parsing CLC Decline: message too short"%string m buf (declinev2_short old buf bs)) /\
  (8 <= s_len buf < 28 -> (28 <= declared bs)%N -> DeclineV2_Parse m old buf = panic) /\
  (28 <= s_len buf -> (28 <= declared bs)%N ->
     DeclineV2_Parse m old buf = (trailer_log (last4 bs), Done (declinev2_of buf bs))).
Proof.
  intros Hok Hwf bs. pose proof (s_bytes_length m buf Hok) as Hb. fold bs in Hb.
  split; [|split; [|split]].
  - intros. unfold DeclineV2_Parse. rewrite Header_Parse_panic; [reflexivity|assumption|apply Hwf|lia].
  - intros ? HL. rewrite <- declared_hdr in * by lia. apply DeclineV2_short; assumption.
  - intros ? HL. rewrite <- declared_hdr in HL by lia. apply DeclineV2_panic; assumption.
  - intros ? HL. rewrite <- declared_hdr in HL by lia. apply DeclineV2_full; assumption.
Qed.

Lemma DeclineV2_too_short m buf old : slice_ok m buf -> declinev2_wf old -> 8 <= s_len buf ->
  let bs := s_bytes m buf in
  (declared bs < 28)%N -> N.to_nat (declared bs) <= s_cap buf ->
  exists h, header_view h = decode clc_header bs /\
    DeclineV2_Parse m old buf =
    (["Error parsing CLC Decline: message too short"%string; dump_line (bytes_at (m (s_arr buf)) (s_off buf) (N.to_nat (declared bs)))],
     Done {| d2_Raw := buf; d2_Header := h; d2_SenderPeerID := d2_SenderPeerID old; d2_PeerDiagnosis := d2_PeerDiagnosis old; d2_OSType := d2_OSType old; d2_reserved := d2_reserved old; d2_Trailer := d2_Trailer old |}).
Proof.
  intros Hok Hwf Hlen bs HL Hc. pose proof (s_bytes_length m buf Hok) as Hb. fold bs in Hb.
  exists (hdr_of bs). split; [apply hdr_view; lia|].
  destruct (DeclineV2_total m buf old Hok Hwf) as (_ & H & _). fold bs in H. rewrite H by lia.
  rewrite short_run_ok by assumption. reflexivity.
Qed.

Lemma DeclineV2_panics m buf old : slice_ok m buf -> declinev2_wf old ->
  let bs := s_bytes m buf in
  (snd (DeclineV2_Parse m old buf) = Panicked <->
   s_len buf < 8 \/
   ((declared bs < 28)%N /\ s_cap buf < N.to_nat (declared bs)) \/
   ((28 <= declared bs)%N /\ s_len buf < 28)) /\
  snd (DeclineV2_Parse m old buf) <> Exited.
Proof.
  intros Hok Hwf bs. pose proof (s_bytes_length m buf Hok) as Hb. fold bs in Hb.
  destruct (DeclineV2_total m buf old Hok Hwf) as (H1 & H2 & H3 & H4). fold bs in H2, H3, H4.
  destruct (le_lt_dec 8 (s_len buf)) as [L8|L8].
  2:{ rewrite H1 by lia. cbn. split; [split; auto|discriminate]. }
  destruct (N.lt_ge_cases (declared bs) 28) as [D|D].
  - rewrite H2 by lia. destruct (le_lt_dec (N.to_nat (declared bs)) (s_cap buf)) as [C|C].
    + rewrite short_run_ok by assumption. cbn. split; [|discriminate]; split; [discriminate|intros; lia].
    + rewrite short_run_bad by assumption. cbn. split; [|discriminate]; split; [intros; lia|reflexivity].
  - destruct (le_lt_dec 28 (s_len buf)) as [L|L].
    + rewrite H4 by lia. cbn. split; [|discriminate]; split; [discriminate|intros; lia].
    + rewrite H3 by lia. cbn. split; [|discriminate]; split; [intros; lia|reflexivity].
Qed.

Lemma DeclineV2_complete m buf old : slice_ok m buf -> declinev2_wf old -> 8 <= s_len buf ->
  N.to_nat (declared (s_bytes m buf)) <= s_len buf ->
  exists logs a, DeclineV2_Parse m old buf = (logs, Done a).
Proof.
  intros Hok Hwf L8 HL. destruct (DeclineV2_panics m buf old Hok Hwf) as [HP HE].
  pose proof (len_le_cap _ _ Hok) as Hcap.
  destruct (DeclineV2_Parse m old buf) as [logs [a| |]]; cbn [snd] in *; [eauto| |congruence].
  exfalso. destruct HP as [HP _]. specialize (HP eq_refl). lia.
Qed.

Lemma DeclineV2_keeps_wf m buf old logs a : slice_ok m buf -> declinev2_wf old ->
  DeclineV2_Parse m old buf = (logs, Done a) -> declinev2_wf a.
Proof.
  intros Hok Hwf H. pose proof (s_bytes_length m buf Hok) as Hb.
  destruct (DeclineV2_total m buf old Hok Hwf) as (H1 & H2 & H3 & H4).
  destruct (le_lt_dec 8 (s_len buf)) as [L8|L8]; [|rewrite H1 in H by lia; discriminate].
  destruct (N.lt_ge_cases (declared (s_bytes m buf)) 28) as [D|D].
  - rewrite H2 in H by lia. destruct (le_lt_dec (N.to_nat (declared (s_bytes m buf))) (s_cap buf)) as [C|C];
      [rewrite short_run_ok in H by assumption|rewrite short_run_bad in H by assumption; discriminate].
    injection H as <- <-.
    unfold declinev2_wf in *. cbn. intuition (apply hdr_wf; lia).
  - destruct (le_lt_dec 28 (s_len buf)) as [L|L]; [|rewrite H3 in H by lia; discriminate].
    rewrite H4 in H by lia. injection H as <- <-. unfold declinev2_wf in *. unfold declinev2_of.
    cbn -[seg last4 firstn]. unfold mask_first.
    pose proof (hdr_wf (s_bytes m buf)). pose proof (last4_length (s_bytes m buf)).
    repeat split; try (apply hdr_wf; lia); try (apply last4_length; lia);
    try (rewrite !seg_length by lia; lia).
    rewrite !(seg_S _ _ _ x00) by lia. reflexivity.
Qed.

Lemma DeclineV2_parsed_wf a : parsed DeclineV2_Parse DeclineV2_zero a -> declinev2_wf a.
Proof.
  induction 1 as [|m old buf logs new H IH Hok E].
  - repeat split.
  - eapply DeclineV2_keeps_wf; eassumption.
Qed.

Lemma DeclineV2_local m1 m2 buf old : slice_ok m1 buf -> slice_ok m2 buf -> declinev2_wf old ->
  s_bytes m1 buf = s_bytes m2 buf ->
  snd (DeclineV2_Parse m1 old buf) = snd (DeclineV2_Parse m2 old buf).
Proof.
  intros Hok1 Hok2 Hwf E.
  destruct (DeclineV2_total m1 buf old Hok1 Hwf) as (H1 & H2 & H3 & H4).
  destruct (DeclineV2_total m2 buf old Hok2 Hwf) as (H1' & H2' & H3' & H4').
  rewrite <- E in *.
  destruct (le_lt_dec 8 (s_len buf)) as [L8|L8]; [|rewrite H1, H1' by lia; reflexivity].
  destruct (N.lt_ge_cases (declared (s_bytes m1 buf)) 28) as [D|D].
  - rewrite H2, H2' by lia. unfold short_run. rewrite <- E.
    destruct (_ <=? _); reflexivity.
  - destruct (le_lt_dec 28 (s_len buf)) as [L|L]; [rewrite H4, H4' by lia|rewrite H3, H3' by lia]; reflexivity.
Qed.

Lemma DeclineV2_again m buf old : slice_ok m buf -> declinev2_wf old -> 
  28 <= s_len buf -> (28 <= declared (s_bytes m buf))%N ->
  DeclineV2_Parse m old buf = DeclineV2_Parse m DeclineV2_zero buf.
Proof.
  intros Hok Hwf L D.
  destruct (DeclineV2_total m buf old Hok Hwf) as (_ & _ & _ & H4).
  destruct (DeclineV2_total m buf DeclineV2_zero Hok) as (_ & _ & _ & H4'); [repeat split|].
  rewrite H4, H4' by assumption. reflexivity.
Qed.
