(** * RoceParse: what the RoCE parsers compute. Proofs only. *)

From Coq Require Import NArith ZArith Bool String Arith List Lia.
From Coq Require Import ZifyBool ZifyNat ZifyN.
From Verif Require Import GoBase GoFmt ClcModel LlcModel RoceModel Slices Wire WireLemmas ClcView LlcView Steps
  ClcParse ClcFixed LlcParse LlcDecode LlcMessage.
Import ListNotations.
Local Open Scope nat_scope.

(** ** BTH *)

Definition BTH_of (bs : list byte) : BTH :=
  mkBTH bs (bn bs 0) (fl bs 1 0x80) (fl bs 1 0x40) (N.shiftr (mk bs 1 0x30) 4) (mk bs 1 0x0f)
    (num bs 2 2) (fl bs 4 0x80) (fl bs 4 0x40) (mk bs 4 0x3f) (num bs 5 3) (fl bs 8 0x80)
    (mk bs 8 0x7f) (num bs 9 3).

Lemma raw_bytes m buf : slice_ok m buf -> go_copy (zeros (s_len buf)) (s_bytes m buf) = s_bytes m buf.
Proof. exact (setRaw_bytes m buf). Qed.

Lemma BTH_ok m buf old : slice_ok m buf -> 12 <= s_len buf ->
  BTH_Parse m old buf = ret (BTH_of (s_bytes m buf)).
Proof.
  intros Hok Hlen. pose proof (len_le_cap _ _ Hok) as Hcap.
  unfold BTH_Parse. rewrite (raw_bytes m buf Hok). cbv zeta.
  set (raw := s_bytes m buf). unfold byte0, flag, masked. rewrite (sub_self buf).
  run m buf Hok. subst raw. unfold BTH_of, bn, num, fl, mk, bn. llc_close m buf Hok.
Qed.

Lemma BTH_panic m buf old : slice_ok m buf -> s_len buf < 12 -> BTH_Parse m old buf = panic.
Proof.
  intros Hok Hlen. pose proof (len_le_cap _ _ Hok) as Hcap.
  unfold BTH_Parse. cbv zeta. set (raw := go_copy _ _). clearbody raw.
  unfold byte0, flag, masked. rewrite (sub_self buf).
  run_panic m buf Hok.
Qed.

Lemma BTH_view bs : 12 <= length bs -> bth_view (BTH_of bs) = decode bth bs.
Proof.
  intros Hlen. unfold bth_view, BTH_of.
  cbn -[decode bits seg BE b2n bn num fl mk tail N.land N.shiftr firstn skipn append].
  unfold bth. unfold fl, bit, mk, bn, num. calc_layout. fields.
Qed.

(** ** GRH *)

Lemma be_val_BE l : be_val l = BE l.
Proof.
  unfold be_val. rewrite <- be_acc0. generalize 0%N. induction l as [|b l IH]; intros a; [reflexivity|].
  cbn [fold_left be_acc]. rewrite IH. f_equal. pose proof (b2n_lt b) as Hb.
  rewrite N.lor_comm, lor_shift_add by (change (2 ^ 8)%N with 256%N; lia).
  change (2 ^ 8)%N with 256%N. lia.
Qed.

Lemma land_mask x k : N.land x (N.ones k) = (x mod 2 ^ k)%N.
Proof. apply N.land_ones. Qed.

Lemma GRH_view bs : 40 <= length bs -> grh_view (gopacket_IPv6 bs) = decode grh bs.
Proof.
  intros H. unfold gopacket_IPv6. replace (length bs <? 40) with false by (symmetry; apply Nat.ltb_ge; lia).
  unfold grh_view. cbn [grh_Version grh_TrafficClass grh_FlowLabel grh_Length grh_NextHeader grh_HopLimit grh_SrcIP grh_DstIP].
  rewrite !be_val_BE. cbv zeta.
  change (fun lo hi : nat => firstn (hi - lo) (skipn lo bs)) with (fun lo hi : nat => seg bs lo (hi - lo)).
  change 0xff%N with (N.ones 8). change 0xfffff%N with (N.ones 20).
  rewrite !N.land_ones, !N.shiftr_div_pow2.
  unfold grh. calc_layout. list_fields; try exact eq_refl.
  - change (bits bs 0 4) with (bits bs (8 * 0 + 0) 4). rewrite (bits_seg bs 0 1) by lia.
    rewrite bits_div by (rewrite seg_length; lia). rewrite seg_length by lia. change (firstn (1 - 0) (skipn 0 bs)) with (seg bs 0 1).
    change (N.of_nat (8 * 1 - 0 - 4)) with 4%N. symmetry. apply N.mod_small.
    apply N.div_lt_upper_bound; [discriminate|]. pose proof (BE_lt (seg bs 0 1)) as L.
    rewrite seg_length in L by lia. exact L.
  - change (bits bs 4 8) with (bits bs (8 * 0 + 4) 8). rewrite (bits_seg bs 0 2) by lia.
    rewrite bits_div by (rewrite seg_length; lia). rewrite seg_length by lia. reflexivity.
  - change (bits bs 12 20) with (bits bs (8 * 0 + 12) 20). rewrite (bits_seg bs 0 4) by lia.
    rewrite bits_div by (rewrite seg_length; lia). rewrite seg_length by lia. change (N.of_nat (8 * 4 - 12 - 20)) with 0%N.
    rewrite N.pow_0_r, N.div_1_r. reflexivity.
  - symmetry. exact (bits_bytes bs 4 2 32 16 eq_refl eq_refl ltac:(lia)).
  - symmetry. exact (bits_bytes bs 6 1 48 8 eq_refl eq_refl ltac:(lia)).
  - symmetry. exact (bits_bytes bs 7 1 56 8 eq_refl eq_refl ltac:(lia)).
Qed.

(** the layer of a buffer that is long enough *)
Lemma GRH_contents bs : 40 <= length bs -> grh_Contents (gopacket_IPv6 bs) = bytes_at bs 0 40.
Proof.
  intros H. unfold gopacket_IPv6. replace (length bs <? 40) with false by (symmetry; apply Nat.ltb_ge; lia).
  reflexivity.
Qed.

Lemma GRH_short bs : length bs < 40 -> gopacket_IPv6 bs = GRH_zero.
Proof.
  intros H. unfold gopacket_IPv6. replace (length bs <? 40) with true by (symmetry; apply Nat.ltb_lt; lia).
  reflexivity.
Qed.

(** ** Packets *)

Lemma sub_ok m buf o l : slice_ok m buf -> o + l <= s_cap buf -> slice_ok m (sub buf o l).
Proof. unfold slice_ok, sub; cbn [s_arr s_off s_len s_cap]. lia. Qed.

Lemma sub_bytes m buf o l : slice_ok m buf -> o + l <= s_len buf ->
  s_bytes m (sub buf o l) = bytes_at (s_bytes m buf) o l.
Proof.
  intros Hok H. pose proof (len_le_cap _ _ Hok). rewrite (s_bytes_sub m buf) by lia.
  rewrite (seg_win m buf Hok) by lia. symmetry. apply bytes_at_seg.
Qed.

Lemma upto_buf buf k : k <= s_cap buf -> upto buf k = ret (sub buf 0 k).
Proof. intros H. rewrite (sub_self buf) at 1. apply upto_sub. lia. Qed.

Definition payload (buf : slice) (h : nat) : slice := sub buf h (s_len buf - h - 4).
Definition icrc (buf : slice) (h : nat) : slice := sub buf (s_len buf - 4) 4.

Lemma RoCEv1_run m buf : slice_ok m buf -> 56 <= s_len buf ->
  ParseRoCEv1 m buf =
  let* llc := ParseLLC m (payload buf 52) in
  ret (mkRoCE "RoCEv1" (Some (gopacket_IPv6 (bytes_at (s_bytes m buf) 0 40)))
         (BTH_of (bytes_at (s_bytes m buf) 40 12)) llc (icrc buf 52)).
Proof.
  intros Hok Hl. pose proof (len_le_cap _ _ Hok) as Hcap.
  unfold ParseRoCEv1, ParseGRH, GRH_Parse, ParseBTH, GRHLen, BTHLen.
  rewrite (upto_buf buf) by lia. rewrite !bind_ret.
  rewrite (from_buf m buf Hok) by lia. rewrite !bind_ret.
  rewrite (upto_sub buf) by lia. rewrite !bind_ret.
  rewrite BTH_ok by (apply sub_ok; [assumption|lia] || (cbn [s_len sub]; lia)). rewrite !bind_ret.
  rewrite (from_sub buf) by lia. rewrite !bind_ret.
  rewrite (last_sub buf) by lia. rewrite !bind_ret.
  rewrite (drop_last_sub buf) by lia. rewrite !bind_ret.
  rewrite !sub_bytes by (assumption || lia).
  unfold payload, icrc.
  replace (40 + 12) with 52 by reflexivity.
  replace (52 + (s_len buf - 40 - 12) - 4) with (s_len buf - 4) by lia.
  replace (s_len buf - 40 - 12 - 4) with (s_len buf - 52 - 4) by lia. reflexivity.
Qed.

Lemma RoCEv2_run m buf : slice_ok m buf -> 16 <= s_len buf ->
  ParseRoCEv2 m buf =
  let* llc := ParseLLC m (payload buf 12) in
  ret (mkRoCE "RoCEv2" None (BTH_of (bytes_at (s_bytes m buf) 0 12)) llc (icrc buf 12)).
Proof.
  intros Hok Hl. pose proof (len_le_cap _ _ Hok) as Hcap.
  unfold ParseRoCEv2, ParseBTH, BTHLen.
  rewrite (upto_buf buf) by lia. rewrite !bind_ret.
  rewrite BTH_ok by (apply sub_ok; [assumption|lia] || (cbn [s_len sub]; lia)). rewrite !bind_ret.
  rewrite (from_buf m buf Hok) by lia. rewrite !bind_ret.
  rewrite (last_sub buf) by lia. rewrite !bind_ret.
  rewrite (drop_last_sub buf) by lia. rewrite !bind_ret.
  rewrite !sub_bytes by (assumption || lia).
  unfold payload, icrc.
  replace (12 + (s_len buf - 12) - 4) with (s_len buf - 4) by lia. reflexivity.
Qed.

Lemma upto_buf_panic buf k : s_cap buf < k -> upto buf k = panic.
Proof. intros H. rewrite (sub_self buf). apply upto_sub_panic. lia. Qed.

Lemma from_buf_panic buf k : s_len buf < k -> from buf k = panic.
Proof. intros H. rewrite (sub_self buf). apply from_sub_panic. lia. Qed.

Lemma RoCEv1_short m buf : slice_ok m buf -> s_len buf < 56 -> ParseRoCEv1 m buf = panic.
Proof.
  intros Hok Hl. pose proof (len_le_cap _ _ Hok) as Hcap.
  unfold ParseRoCEv1, ParseGRH, GRH_Parse, ParseBTH, GRHLen, BTHLen.
  destruct (le_lt_dec 40 (s_cap buf)); [|rewrite upto_buf_panic by lia; reflexivity].
  rewrite (upto_buf buf) by lia. rewrite !bind_ret.
  destruct (le_lt_dec 40 (s_len buf)); [|rewrite from_buf_panic by lia; reflexivity].
  rewrite (from_buf m buf Hok) by lia. rewrite !bind_ret.
  destruct (le_lt_dec 12 (s_cap buf - 40)); [|rewrite (upto_sub_panic buf) by lia; reflexivity].
  rewrite (upto_sub buf) by lia. rewrite !bind_ret.
  rewrite BTH_ok by (apply sub_ok; [assumption|lia] || (cbn [s_len sub]; lia)). rewrite !bind_ret.
  destruct (le_lt_dec 12 (s_len buf - 40)); [|rewrite (from_sub_panic buf) by lia; reflexivity].
  rewrite (from_sub buf) by lia. rewrite !bind_ret.
  rewrite (last_sub_panic buf) by lia. reflexivity.
Qed.

Lemma RoCEv2_short m buf : slice_ok m buf -> s_len buf < 16 -> ParseRoCEv2 m buf = panic.
Proof.
  intros Hok Hl. pose proof (len_le_cap _ _ Hok) as Hcap.
  unfold ParseRoCEv2, ParseBTH, BTHLen.
  destruct (le_lt_dec 12 (s_cap buf)); [|rewrite upto_buf_panic by lia; reflexivity].
  rewrite (upto_buf buf) by lia. rewrite !bind_ret.
  rewrite BTH_ok by (apply sub_ok; [assumption|lia] || (cbn [s_len sub]; lia)). rewrite !bind_ret.
  destruct (le_lt_dec 12 (s_len buf)); [|rewrite from_buf_panic by lia; reflexivity].
  rewrite (from_buf m buf Hok) by lia. rewrite !bind_ret.
  rewrite (last_sub_panic buf) by lia. reflexivity.
Qed.

(** ** What a packet must look like to be parsed *)

Section Packet.
  Variables (m : mem) (buf : slice) (h : nat).
  Hypothesis Hok : slice_ok m buf.
  Hypothesis Hl : h + 4 <= s_len buf.
  Let bs := s_bytes m buf.
  Let len_bs : length bs = s_len buf := s_bytes_length m buf Hok.
  Let len_cap : s_len buf <= s_cap buf := len_le_cap _ _ Hok.

  Lemma payload_ok : slice_ok m (payload buf h).
  Proof. apply sub_ok; [assumption|lia]. Qed.

  Lemma payload_bytes : s_bytes m (payload buf h) = bytes_at bs h (length bs - h - 4).
  Proof. unfold payload. rewrite sub_bytes by (assumption || lia). rewrite len_bs. reflexivity. Qed.

  Lemma payload_length : length (s_bytes m (payload buf h)) = length bs - h - 4.
  Proof. rewrite (s_bytes_length _ _ payload_ok), len_bs. reflexivity. Qed.

  Lemma icrc_bytes m' : slice_ok m' buf -> s_bytes m' (icrc buf h) = last4 (s_bytes m' buf).
  Proof.
    intros Hok'. unfold icrc. rewrite sub_bytes by (assumption || lia).
    rewrite last4_seg, (s_bytes_length m' buf Hok'), bytes_at_seg. reflexivity.
  Qed.

  Lemma packet_split : bs = bytes_at bs 0 h ++ bytes_at bs h (length bs - h - 4) ++ last4 bs.
  Proof.
    rewrite last4_seg, !bytes_at_seg.
    transitivity (seg bs 0 (h + (length bs - h - 4 + 4))); [symmetry; apply seg_all; lia|].
    rewrite seg_app, seg_app. do 3 f_equal. lia.
  Qed.

  Lemma payload_raw msg : ParseLLC m (payload buf h) = ([], Done msg) ->
    b_Raw (LLC_Base msg) = bytes_at bs h (length bs - h - 4).
  Proof.
    intros H. rewrite ParseLLC_run in H by apply payload_ok. rewrite llc_parser_fresh in H.
    pose proof payload_ok as Pok. rewrite <- payload_bytes.
    set (k := payload_kind _) in H. clearbody k.
    destruct (le_lt_dec (llc_min k) (s_len (payload buf h))).
    - rewrite LLC_Parse_ok in H; [|assumption|apply llc_fresh_wf|rewrite llc_fresh_kind; assumption].
      injection H as <-. destruct k; reflexivity.
    - rewrite LLC_Parse_panic in H; [discriminate|assumption|apply llc_fresh_wf|rewrite llc_fresh_kind; assumption].
  Qed.

  (** the payload ParseLLC refuses *)
  Definition crashing (p : list byte) : Prop := length p = 44 /\ bits p 0 8 = 8%N.

  Lemma crash_at : crashing (s_bytes m (payload buf h)) <->
    length bs = h + 48 /\ bits bs (8 * h) 8 = 8%N.
  Proof.
    unfold crashing. rewrite payload_length, payload_bytes, bytes_at_seg.
    split; intros [A B]; (split; [lia|]); rewrite <- B; replace (8 * h) with (8 * h + 0) by lia;
      rewrite (bits_seg bs h (length bs - h - 4)) by lia; reflexivity.
  Qed.
End Packet.

Lemma RoCEv1_result m buf : slice_ok m buf -> 56 <= s_len buf ->
  let bs := s_bytes m buf in
  ~ (length bs = 100 /\ bits bs (8 * 52) 8 = 8%N) ->
  exists g b l, let r := mkRoCE "RoCEv1" (Some g) b l (icrc buf 52) in
    ParseRoCEv1 m buf = ([], Done r) /\
    grh_view g = decode grh (bytes_at bs 0 40) /\ grh_Contents g = bytes_at bs 0 40 /\
    bth_view b = decode bth (bytes_at bs 40 12) /\ bth_Raw b = bytes_at bs 40 12 /\
    (exists p, slice_ok m p /\ s_bytes m p = bytes_at bs 52 (length bs - 56) /\ ParseLLC m p = ([], Done l)) /\
    b_Raw (LLC_Base l) = bytes_at bs 52 (length bs - 56) /\
    bs = grh_Contents g ++ bth_Raw b ++ b_Raw (LLC_Base l) ++ s_bytes m (r_ICRC r).
Proof.
  intros Hok Hl bs Hc. pose proof (s_bytes_length m buf Hok) as Hb. fold bs in Hb.
  assert (Hp : 52 + 4 <= s_len buf) by lia.
  assert (Hc' : ~ crashing (s_bytes m (payload buf 52))) by (intros X; apply Hc; exact (proj1 (crash_at m buf 52 Hok Hp) X)).
  destruct (proj2 (ParseLLC_panics m (payload buf 52) (payload_ok m buf 52 Hok Hp)) Hc') as (l & Pl).
  exists (gopacket_IPv6 (bytes_at bs 0 40)), (BTH_of (bytes_at bs 40 12)), l. cbv zeta.
  assert (L0 : length (bytes_at bs 0 40) = 40) by (rewrite bytes_at_seg; apply seg_length; lia).
  assert (L1 : length (bytes_at bs 40 12) = 12) by (rewrite bytes_at_seg; apply seg_length; lia).
  assert (R : b_Raw (LLC_Base l) = bytes_at bs 52 (length bs - 56)).
  { rewrite (payload_raw m buf 52 Hok Hp l Pl). fold bs. f_equal. lia. }
  assert (Q : grh_Contents (gopacket_IPv6 (bytes_at bs 0 40)) = bytes_at bs 0 40).
  { rewrite GRH_contents by lia. rewrite (bytes_at_seg (bytes_at bs 0 40)). apply seg_all. lia. }
  split; [rewrite RoCEv1_run, Pl by assumption; reflexivity|].
  split; [apply GRH_view; lia|]. split; [exact Q|].
  split; [apply BTH_view; lia|]. split; [reflexivity|].
  split; [exists (payload buf 52); split; [apply payload_ok; assumption|]; split; [|assumption]|].
  { rewrite payload_bytes by assumption. fold bs. f_equal. lia. }
  split; [assumption|]. cbn [r_ICRC]. rewrite R, Q, (icrc_bytes m buf 52 Hok Hp) by assumption. cbn [bth_Raw BTH_of]. fold bs.
  etransitivity; [exact (packet_split m buf 52 Hok Hp)|]. fold bs. rewrite app_assoc, app_assoc, app_assoc.
  f_equal. f_equal; [|f_equal; lia]. rewrite !bytes_at_seg. exact (seg_app bs 0 40 12).
Qed.

Lemma RoCEv2_result m buf : slice_ok m buf -> 16 <= s_len buf ->
  let bs := s_bytes m buf in
  ~ (length bs = 60 /\ bits bs (8 * 12) 8 = 8%N) ->
  exists b l, let r := mkRoCE "RoCEv2" None b l (icrc buf 12) in
    ParseRoCEv2 m buf = ([], Done r) /\
    bth_view b = decode bth (bytes_at bs 0 12) /\ bth_Raw b = bytes_at bs 0 12 /\
    (exists p, slice_ok m p /\ s_bytes m p = bytes_at bs 12 (length bs - 16) /\ ParseLLC m p = ([], Done l)) /\
    b_Raw (LLC_Base l) = bytes_at bs 12 (length bs - 16) /\
    bs = bth_Raw b ++ b_Raw (LLC_Base l) ++ s_bytes m (r_ICRC r).
Proof.
  intros Hok Hl bs Hc. pose proof (s_bytes_length m buf Hok) as Hb. fold bs in Hb.
  assert (Hp : 12 + 4 <= s_len buf) by lia.
  assert (Hc' : ~ crashing (s_bytes m (payload buf 12))) by (intros X; apply Hc; exact (proj1 (crash_at m buf 12 Hok Hp) X)).
  destruct (proj2 (ParseLLC_panics m (payload buf 12) (payload_ok m buf 12 Hok Hp)) Hc') as (l & Pl).
  exists (BTH_of (bytes_at bs 0 12)), l. cbv zeta.
  assert (L1 : length (bytes_at bs 0 12) = 12) by (rewrite bytes_at_seg; apply seg_length; lia).
  assert (R : b_Raw (LLC_Base l) = bytes_at bs 12 (length bs - 16)).
  { rewrite (payload_raw m buf 12 Hok Hp l Pl). fold bs. f_equal. lia. }
  split; [rewrite RoCEv2_run, Pl by assumption; reflexivity|].
  split; [apply BTH_view; lia|]. split; [reflexivity|].
  split; [exists (payload buf 12); split; [apply payload_ok; assumption|]; split; [|assumption]|].
  { rewrite payload_bytes by assumption. fold bs. f_equal. lia. }
  split; [assumption|]. cbn [r_ICRC]. rewrite R, (icrc_bytes m buf 12 Hok Hp) by assumption. cbn [bth_Raw BTH_of]. fold bs.
  etransitivity; [exact (packet_split m buf 12 Hok Hp)|]. fold bs.
  f_equal. f_equal. f_equal; lia.
Qed.

Lemma RoCEv1_panics m buf : slice_ok m buf ->
  let bs := s_bytes m buf in
  (ParseRoCEv1 m buf = ([], Panicked) <->
    length bs < 56 \/ (length bs = 100 /\ bits bs (8 * 52) 8 = 8%N)) /\
  (ParseRoCEv1 m buf <> ([], Panicked) -> exists r, ParseRoCEv1 m buf = ([], Done r)).
Proof.
  intros Hok bs. pose proof (s_bytes_length m buf Hok) as Hb. fold bs in Hb.
  assert (D : length bs < 56 \/ 56 <= length bs /\ length bs = 100 /\ bits bs (8 * 52) 8 = 8%N
    \/ 56 <= length bs /\ ~ (length bs = 100 /\ bits bs (8 * 52) 8 = 8%N)).
  { destruct (le_lt_dec 56 (length bs)); [|tauto].
    destruct (Nat.eq_dec (length bs) 100); destruct (N.eq_dec (bits bs (8 * 52) 8) 8); tauto. }
  destruct D as [D|[[D E]|[D E]]].
  - rewrite RoCEv1_short by (assumption || lia). split; [tauto|]. intros H; exfalso; apply H; reflexivity.
  - assert (P : ParseRoCEv1 m buf = panic).
    { assert (Hp : 52 + 4 <= s_len buf) by lia.
      rewrite RoCEv1_run by (assumption || lia).
      rewrite (proj2 (proj1 (ParseLLC_panics m (payload buf 52) (payload_ok m buf 52 Hok Hp)))); [reflexivity|].
      apply (crash_at m buf 52 Hok Hp). exact E. }
    rewrite P. split; [tauto|]. intros H; exfalso; apply H; reflexivity.
  - destruct (RoCEv1_result m buf Hok ltac:(lia) E) as (g & b & l & P & _). cbv zeta in P. rewrite P.
    split; [|eauto]. split; [discriminate|]. intros [?|?]; [lia|contradiction].
Qed.

Lemma RoCEv2_panics m buf : slice_ok m buf ->
  let bs := s_bytes m buf in
  (ParseRoCEv2 m buf = ([], Panicked) <->
    length bs < 16 \/ (length bs = 60 /\ bits bs (8 * 12) 8 = 8%N)) /\
  (ParseRoCEv2 m buf <> ([], Panicked) -> exists r, ParseRoCEv2 m buf = ([], Done r)).
Proof.
  intros Hok bs. pose proof (s_bytes_length m buf Hok) as Hb. fold bs in Hb.
  assert (D : length bs < 16 \/ 16 <= length bs /\ length bs = 60 /\ bits bs (8 * 12) 8 = 8%N
    \/ 16 <= length bs /\ ~ (length bs = 60 /\ bits bs (8 * 12) 8 = 8%N)).
  { destruct (le_lt_dec 16 (length bs)); [|tauto].
    destruct (Nat.eq_dec (length bs) 60); destruct (N.eq_dec (bits bs (8 * 12) 8) 8); tauto. }
  destruct D as [D|[[D E]|[D E]]].
  - rewrite RoCEv2_short by (assumption || lia). split; [tauto|]. intros H; exfalso; apply H; reflexivity.
  - assert (P : ParseRoCEv2 m buf = panic).
    { assert (Hp : 12 + 4 <= s_len buf) by lia.
      rewrite RoCEv2_run by (assumption || lia).
      rewrite (proj2 (proj1 (ParseLLC_panics m (payload buf 12) (payload_ok m buf 12 Hok Hp)))); [reflexivity|].
      apply (crash_at m buf 12 Hok Hp). exact E. }
    rewrite P. split; [tauto|]. intros H; exfalso; apply H; reflexivity.
  - destruct (RoCEv2_result m buf Hok ltac:(lia) E) as (b & l & P & _). cbv zeta in P. rewrite P.
    split; [|eauto]. split; [discriminate|]. intros [?|?]; [lia|contradiction].
Qed.
