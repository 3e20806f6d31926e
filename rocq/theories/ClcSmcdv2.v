(** * ClcSmcdv2: Accept/Confirm SMC-D v2 against the wire specification. Proofs only. *)

From Coq Require Import NArith ZArith Bool String Arith List Lia.
From Coq Require Import ZifyBool ZifyNat ZifyN.
From Verif Require Import GoBase GoFmt ClcModel Slices Wire WireLemmas ClcView Steps ClcParse ClcFixed.
Import ListNotations.
Local Open Scope nat_scope.

Lemma AcceptSMCDv2_total m buf old : slice_ok m buf -> accept_smcdv2_wf old ->
  let bs := s_bytes m buf in
  (s_len buf < 8 -> AcceptSMCDv2_Parse m old buf = panic) /\
  (8 <= s_len buf -> (declared bs < 78)%N \/ s_len buf < 78 ->
     AcceptSMCDv2_Parse m old buf =
     short_run (short_err_v2 (msg_type bs)) m buf (smcdv2_short old buf bs)) /\
  (78 <= s_len buf -> (78 <= declared bs)%N -> declared bs <> 114%N ->
     AcceptSMCDv2_Parse m old buf = (trailer_log (last4 bs), Done (smcdv2_of old buf bs))) /\
  (78 <= s_len buf < 114 -> declared bs = 114%N -> AcceptSMCDv2_Parse m old buf = panic) /\
  (114 <= s_len buf -> declared bs = 114%N ->
     AcceptSMCDv2_Parse m old buf = (trailer_log (last4 bs), Done (smcdv2_fce_of buf bs))).
Proof.
  intros Hok Hwf bs. pose proof (s_bytes_length m buf Hok) as Hb. fold bs in Hb.
  split; [|split; [|split; [|split]]].
  - intros. unfold AcceptSMCDv2_Parse.
    rewrite Header_Parse_panic; [reflexivity|assumption|apply Hwf|lia].
  - intros ? HL. rewrite <- msg_type_hdr by lia. rewrite <- declared_hdr in HL by lia.
    apply AcceptSMCDv2_short; assumption.
  - intros ? HL HF. rewrite <- declared_hdr in HL, HF by lia. apply AcceptSMCDv2_full; assumption.
  - intros ? HF. rewrite <- declared_hdr in HF by lia. apply AcceptSMCDv2_panic; assumption.
  - intros ? HF. rewrite <- declared_hdr in HF by lia. apply AcceptSMCDv2_fce; assumption.
Qed.

Lemma smcdv2_of_view old buf bs : 78 <= length bs ->
  accept_smcdv2_view (smcdv2_of old buf bs) = decode (clc_header ++ accept_smcdv2_body) bs.
Proof.
  intros Hb. unfold accept_smcdv2_view.
  change (a2_Header (smcdv2_of old buf bs)) with (hdr_of bs).
  rewrite hdr_view by lia. unfold smcdv2_of, clc_header, accept_smcdv2_body, bn, num.
  cbn -[decode app bits seg BE b2n]. calc_layout. fields.
Qed.

Lemma smcdv2_fce_of_view buf bs : 114 <= length bs ->
  accept_smcdv2_view (smcdv2_fce_of buf bs) ++ fce_view (smcdv2_fce_of buf bs)
  = decode (clc_header ++ accept_smcdv2_body ++ fce_body) bs.
Proof.
  intros Hb. unfold accept_smcdv2_view, fce_view.
  change (a2_Header (smcdv2_fce_of buf bs)) with (hdr_of bs).
  rewrite hdr_view by lia. unfold smcdv2_fce_of, clc_header, accept_smcdv2_body, fce_body, bn, num.
  cbn -[decode app bits seg BE b2n]. calc_layout. fields.
Qed.

(** decoding, for every declared length *)
Lemma AcceptSMCDv2_decode m buf old : slice_ok m buf -> accept_smcdv2_wf old ->
  let bs := s_bytes m buf in
  78 <= s_len buf -> (78 <= declared bs)%N -> (declared bs = 114%N -> 114 <= s_len buf) ->
  exists a, AcceptSMCDv2_Parse m old buf = (trailer_log (last4 bs), Done a) /\
    accept_smcdv2_view a = decode (clc_header ++ accept_smcdv2_body) bs /\
    fce_view a = (if (declared bs =? 114)%N
                  then decode_at fce_body (8 * 74) bs else fce_view old) /\
    a2_Trailer a = last4 bs /\ a2_Raw a = buf.
Proof.
  intros Hok Hwf bs Hlen HL HF. pose proof (s_bytes_length m buf Hok) as Hb. fold bs in Hb.
  destruct (AcceptSMCDv2_total m buf old Hok Hwf) as (_ & _ & H3 & _ & H5). fold bs in H3, H5.
  destruct (N.eqb_spec (declared bs) 114) as [E|E].
  - exists (smcdv2_fce_of buf bs). split; [apply H5; lia|].
    assert (V := smcdv2_fce_of_view buf bs). 
    assert (S1 : decode (clc_header ++ accept_smcdv2_body ++ fce_body) bs
            = decode (clc_header ++ accept_smcdv2_body) bs ++ decode_at fce_body (8 * 74) bs)
      by reflexivity.
    rewrite S1 in V. specialize (V ltac:(lia)).
    apply app_inj_tail_iff in V || idtac.
    assert (L : length (accept_smcdv2_view (smcdv2_fce_of buf bs))
                = length (decode (clc_header ++ accept_smcdv2_body) bs)) by reflexivity.
    assert (SP : forall (A : Type) (a b c d : list A), length a = length c ->
                 a ++ b = c ++ d -> a = c /\ b = d).
    { clear. intros A a; induction a as [|x a IH]; intros b [|y c] d Hl E; cbn in Hl; try lia.
      - split; [reflexivity|exact E].
      - cbn in E. injection E as -> E. destruct (IH b c d ltac:(lia) E) as [-> ->]. split; reflexivity. }
    destruct (SP _ _ _ _ _ L V) as [V1 V2].
    split; [exact V1|]. split; [exact V2|]. split; reflexivity.
  - exists (smcdv2_of old buf bs). split; [apply H3; lia|].
    split; [apply smcdv2_of_view; lia|]. split; [reflexivity|]. split; reflexivity.
Qed.

Lemma AcceptSMCDv2_too_short m buf old : slice_ok m buf -> accept_smcdv2_wf old -> 8 <= s_len buf ->
  let bs := s_bytes m buf in
  (declared bs < 78)%N \/ s_len buf < 78 -> N.to_nat (declared bs) <= s_cap buf ->
  exists h, header_view h = decode clc_header bs /\
    AcceptSMCDv2_Parse m old buf =
    ([short_err_v2 (msg_type bs);
      dump_line (bytes_at (m (s_arr buf)) (s_off buf) (N.to_nat (declared bs)))],
     Done {| a2_Raw := buf; a2_Header := h; a2_GID := a2_GID old; a2_Token := a2_Token old;
             a2_DMBEIdx := a2_DMBEIdx old; a2_DMBESize := a2_DMBESize old;
             a2_reserved := a2_reserved old; a2_reserved2 := a2_reserved2 old;
             a2_LinkID := a2_LinkID old; a2_ISMv2VCHID := a2_ISMv2VCHID old;
             a2_EID := a2_EID old; a2_reserved3 := a2_reserved3 old;
             a2_reserved4 := a2_reserved4 old; a2_OSType := a2_OSType old;
             a2_Release := a2_Release old; a2_reserved5 := a2_reserved5 old;
             a2_Hostname := a2_Hostname old; a2_Trailer := a2_Trailer old |}).
Proof.
  intros Hok Hwf Hlen bs HL Hc. pose proof (s_bytes_length m buf Hok) as Hb. fold bs in Hb.
  exists (hdr_of bs). split; [apply hdr_view; lia|].
  destruct (AcceptSMCDv2_total m buf old Hok Hwf) as (_ & H & _). fold bs in H. rewrite H by lia.
  rewrite short_run_ok by assumption. reflexivity.
Qed.

Lemma AcceptSMCDv2_panics m buf old : slice_ok m buf -> accept_smcdv2_wf old ->
  let bs := s_bytes m buf in
  (snd (AcceptSMCDv2_Parse m old buf) = Panicked <->
   s_len buf < 8 \/
   (((declared bs < 78)%N \/ s_len buf < 78) /\ s_cap buf < N.to_nat (declared bs)) \/
   (declared bs = 114%N /\ 78 <= s_len buf < 114)) /\
  snd (AcceptSMCDv2_Parse m old buf) <> Exited.
Proof.
  intros Hok Hwf bs. pose proof (s_bytes_length m buf Hok) as Hb. fold bs in Hb.
  destruct (AcceptSMCDv2_total m buf old Hok Hwf) as (H1 & H2 & H3 & H4 & H5).
  fold bs in H2, H3, H4, H5.
  destruct (le_lt_dec 8 (s_len buf)) as [L8|L8].
  2:{ rewrite H1 by lia. cbn. split; [split; auto|discriminate]. }
  assert (((declared bs < 78)%N \/ s_len buf < 78) \/ ((78 <= declared bs)%N /\ 78 <= s_len buf))
    as [D|D] by lia.
  - rewrite H2 by assumption.
    destruct (le_lt_dec (N.to_nat (declared bs)) (s_cap buf)) as [C|C].
    + rewrite short_run_ok by assumption. cbn. split; [|discriminate]; split; [discriminate|intros; lia].
    + rewrite short_run_bad by assumption. cbn. split; [|discriminate]; split; [intros; lia|reflexivity].
  - destruct (N.eq_dec (declared bs) 114) as [E|E].
    + destruct (le_lt_dec 114 (s_len buf)) as [L|L].
      * rewrite H5 by lia. cbn. split; [|discriminate]; split; [discriminate|intros; lia].
      * rewrite H4 by lia. cbn. split; [|discriminate]; split; [intros; lia|reflexivity].
    + rewrite H3 by lia. cbn. split; [|discriminate]; split; [discriminate|intros; lia].
Qed.

Lemma AcceptSMCDv2_complete m buf old : slice_ok m buf -> accept_smcdv2_wf old -> 8 <= s_len buf ->
  N.to_nat (declared (s_bytes m buf)) <= s_len buf ->
  exists logs a, AcceptSMCDv2_Parse m old buf = (logs, Done a).
Proof.
  intros Hok Hwf L8 HL. destruct (AcceptSMCDv2_panics m buf old Hok Hwf) as [HP HE].
  pose proof (len_le_cap _ _ Hok) as Hcap.
  destruct (AcceptSMCDv2_Parse m old buf) as [logs [a| |]]; cbn [snd] in *; [eauto| |congruence].
  exfalso. destruct HP as [HP _]. specialize (HP eq_refl). lia.
Qed.

Lemma AcceptSMCDv2_keeps_wf m buf old logs a : slice_ok m buf -> accept_smcdv2_wf old ->
  AcceptSMCDv2_Parse m old buf = (logs, Done a) -> accept_smcdv2_wf a.
Proof.
  intros Hok Hwf H. pose proof (s_bytes_length m buf Hok) as Hb.
  destruct (AcceptSMCDv2_total m buf old Hok Hwf) as (H1 & H2 & H3 & H4 & H5).
  destruct (le_lt_dec 8 (s_len buf)) as [L8|L8]; [|rewrite H1 in H by lia; discriminate].
  assert (((declared (s_bytes m buf) < 78)%N \/ s_len buf < 78)
          \/ ((78 <= declared (s_bytes m buf))%N /\ 78 <= s_len buf))
    as [D|D] by lia.
  - rewrite H2 in H by assumption.
    destruct (le_lt_dec (N.to_nat (declared (s_bytes m buf))) (s_cap buf)) as [C|C];
      [rewrite short_run_ok in H by assumption|rewrite short_run_bad in H by assumption; discriminate].
    injection H as <- <-. unfold accept_smcdv2_wf in *. cbn. intuition (apply hdr_wf; lia).
  - destruct Hwf as (W1 & W2 & W3 & W4 & W5 & W6 & W7).
    destruct (N.eq_dec (declared (s_bytes m buf)) 114) as [E|E].
    + destruct (le_lt_dec 114 (s_len buf)) as [L|L]; [|rewrite H4 in H by lia; discriminate].
      rewrite H5 in H by lia. injection H as <- <-.
      unfold accept_smcdv2_wf, smcdv2_fce_of. cbn -[seg last4 firstn].
      repeat split; try (apply hdr_wf; lia); try (apply last4_length; lia);
        try (rewrite !seg_length by lia; lia).
    + rewrite H3 in H by lia. injection H as <- <-.
      unfold accept_smcdv2_wf, smcdv2_of. cbn -[seg last4 firstn].
      repeat split; try (apply hdr_wf; lia); try (apply last4_length; lia);
        try (rewrite !seg_length by lia; lia); assumption.
Qed.

Lemma AcceptSMCDv2_parsed_wf a : parsed AcceptSMCDv2_Parse AcceptSMCDv2_zero a -> accept_smcdv2_wf a.
Proof.
  induction 1 as [|m old buf logs new H IH Hok E].
  - repeat split.
  - eapply AcceptSMCDv2_keeps_wf; eassumption.
Qed.

Lemma AcceptSMCDv2_local m1 m2 buf old : slice_ok m1 buf -> slice_ok m2 buf ->
  accept_smcdv2_wf old -> s_bytes m1 buf = s_bytes m2 buf ->
  snd (AcceptSMCDv2_Parse m1 old buf) = snd (AcceptSMCDv2_Parse m2 old buf).
Proof.
  intros Hok1 Hok2 Hwf E.
  destruct (AcceptSMCDv2_total m1 buf old Hok1 Hwf) as (H1 & H2 & H3 & H4 & H5).
  destruct (AcceptSMCDv2_total m2 buf old Hok2 Hwf) as (H1' & H2' & H3' & H4' & H5').
  rewrite <- E in *.
  destruct (le_lt_dec 8 (s_len buf)) as [L8|L8]; [|rewrite H1, H1' by lia; reflexivity].
  assert (((declared (s_bytes m1 buf) < 78)%N \/ s_len buf < 78)
          \/ ((78 <= declared (s_bytes m1 buf))%N /\ 78 <= s_len buf))
    as [D|D] by lia.
  - rewrite H2, H2' by lia. unfold short_run. rewrite <- E. destruct (_ <=? _); reflexivity.
  - destruct (N.eq_dec (declared (s_bytes m1 buf)) 114) as [F|F].
    + destruct (le_lt_dec 114 (s_len buf)) as [L|L];
        [rewrite H5, H5' by lia|rewrite H4, H4' by lia]; reflexivity.
    + rewrite H3, H3' by lia. reflexivity.
Qed.

(** re-parsing: everything but the FCE fields is determined by the message *)
Lemma AcceptSMCDv2_again m buf old1 old2 : slice_ok m buf ->
  accept_smcdv2_wf old1 -> accept_smcdv2_wf old2 ->
  let bs := s_bytes m buf in
  78 <= s_len buf -> (78 <= declared bs)%N ->
  (declared bs = 114%N \/ fce_view old1 = fce_view old2) ->
  AcceptSMCDv2_Parse m old1 buf = AcceptSMCDv2_Parse m old2 buf.
Proof.
  intros Hok W1 W2 bs L D F.
  destruct (AcceptSMCDv2_total m buf old1 Hok W1) as (_ & _ & H3 & H4 & H5).
  destruct (AcceptSMCDv2_total m buf old2 Hok W2) as (_ & _ & H3' & H4' & H5').
  fold bs in H3, H4, H5, H3', H4', H5'.
  destruct (N.eq_dec (declared bs) 114) as [E|E].
  - destruct (le_lt_dec 114 (s_len buf)); [rewrite H5, H5' by lia|rewrite H4, H4' by lia]; reflexivity.
  - destruct F as [F|F]; [contradiction|]. rewrite H3, H3' by assumption.
    unfold fce_view in F. injection F as F1 F2 F3 F4 F5. unfold smcdv2_of. congruence.
Qed.
