head=open('/verif/rocq/theories/ClcFixed.v').read()
i=head.find("(** ** Declared length")
if i>=0: head=head[:i]
out=head.rstrip()+'''

(** ** Declared length and type *)

Lemma declared_hdr bs : 8 <= length bs -> h_Length (hdr_of bs) = declared bs.
Proof. intros; unfold hdr_of, declared, num; cbn [h_Length]. bits_in_bytes. Qed.

Lemma msg_type_hdr bs : 8 <= length bs -> bn bs 4 = msg_type bs.
Proof. intros; unfold msg_type, bn. bits_in_byte. Qed.

Lemma window_bytes m buf n : n <= s_cap buf ->
  seg (win m buf) 0 n = bytes_at (m (s_arr buf)) (s_off buf) n.
Proof.
  intros. unfold seg, win, bytes_at. cbn [skipn]. rewrite firstn_firstn. f_equal. lia.
Qed.

Lemma last4_length bs : 4 <= length bs -> length (last4 bs) = 4.
Proof. intros. rewrite last4_seg, seg_length; lia. Qed.

Lemma hdr_wf bs : 4 <= length bs -> header_wf (hdr_of bs).
Proof. intros. unfold header_wf, hdr_of; cbn [h_Eyecatcher]. rewrite seg_length; lia. Qed.

Lemma land15 b : b2n (n2b (N.land (b2n b) 15)) = (b2n b mod 16)%N.
Proof. byte_sweep b. Qed.

Lemma mask_first_bits bs : 24 <= length bs -> BE (mask_first (seg bs 20 4)) = bits bs 164 28.
Proof.
  intros H. change 164 with (8 * 20 + 4). rewrite (bits_seg bs 20 4) by lia.
  rewrite !(seg_S _ _ _ x00), seg_0 by lia.
  generalize (nth 20 bs x00) (nth 21 bs x00) (nth 22 bs x00) (nth 23 bs x00).
  intros b0 b1 b2 b3. unfold bits, mask_first. cbn [BE length N.of_nat Nat.mul Nat.add Nat.sub].
  rewrite land15.
  pose proof (b2n_lt b0); pose proof (b2n_lt b1); pose proof (b2n_lt b2); pose proof (b2n_lt b3).
  change (2 ^ 0)%N with 1%N. rewrite N.div_1_r.
  change (256 ^ N.pos (Pos.of_succ_nat 2))%N with 16777216%N.
  change (256 ^ N.pos (Pos.of_succ_nat 1))%N with 65536%N.
  change (256 ^ N.pos (Pos.of_succ_nat 0))%N with 256%N.
  change (256 ^ 0)%N with 1%N.
  change (2 ^ N.pos (Pos.of_succ_nat 27))%N with 268435456%N. lia.
Qed.

(** ** Objects reachable by parsing any messages one after the other *)
Inductive parsed {A} (P : mem -> A -> slice -> M A) (zero : A) : A -> Prop :=
| parsed_fresh : parsed P zero zero
| parsed_again m old buf logs new : parsed P zero old -> slice_ok m buf ->
    P m old buf = (logs, Done new) -> parsed P zero new.

Lemma short_run_ok {A} err m buf (a : A) : slice_ok m buf -> 8 <= s_len buf ->
  N.to_nat (declared (s_bytes m buf)) <= s_cap buf ->
  short_run err m buf a =
  ([err; dump_line (bytes_at (m (s_arr buf)) (s_off buf) (N.to_nat (declared (s_bytes m buf))))],
   Done a).
Proof.
  intros Hok Hl Hc. unfold short_run.
  rewrite declared_hdr by (rewrite (s_bytes_length m buf Hok); lia).
  rewrite (proj2 (Nat.leb_le _ _)) by lia.
  rewrite window_bytes by lia. reflexivity.
Qed.

Lemma short_run_bad {A} err m buf (a : A) : slice_ok m buf -> 8 <= s_len buf ->
  s_cap buf < N.to_nat (declared (s_bytes m buf)) ->
  short_run err m buf a = ([err], Panicked).
Proof.
  intros Hok Hl Hc. unfold short_run.
  rewrite declared_hdr by (rewrite (s_bytes_length m buf Hok); lia).
  rewrite (proj2 (Nat.leb_gt _ _)) by lia. reflexivity.
Qed.
'''
def gen(name,wf,view,body,pre,mn,of,short,zero,pat,title,ofargs="buf bs",err=None,oldeq=None,shortfields=""):
    errs=err
    mask=' apply mask_first_bits; lia.' if name=='DeclineV2' else ''
    extra='\n    rewrite !(seg_S _ _ _ x00) by lia. reflexivity.' if name=='DeclineV2' else ''
    mt='<- msg_type_hdr, ' if 'msg_type' in err else ''
    return f'''
(** ** {title} *)

Lemma {name}_decode m buf old : slice_ok m buf -> {wf} old -> {mn} <= s_len buf ->
  let bs := s_bytes m buf in
  ({mn} <= declared bs)%N ->
  exists a, {name}_Parse m old buf = (trailer_log (last4 bs), Done a) /\\
    {view} a = decode (clc_header ++ {body}) bs /\\
    {pre}_Trailer a = last4 bs /\\ {pre}_Raw a = buf.
Proof.
  intros Hok Hwf Hlen bs HL. pose proof (s_bytes_length m buf Hok) as Hb. fold bs in Hb.
  rewrite <- declared_hdr in HL by lia.
  exists ({of} {ofargs}). split; [apply {name}_full; assumption|]. split; [|split; reflexivity].
  unfold {view}. change ({pre}_Header ({of} {ofargs})) with (hdr_of bs).
  rewrite hdr_view by lia. clearbody bs. unfold {of}, clc_header, {body}, bn, num. cbn -[decode app bits seg BE b2n].
  calc_layout. fields.{mask}
Qed.

Lemma {name}_total m buf old : slice_ok m buf -> {wf} old ->
  let bs := s_bytes m buf in
  (s_len buf < 8 -> {name}_Parse m old buf = panic) /\\
  (8 <= s_len buf -> (declared bs < {mn})%N ->
     {name}_Parse m old buf = short_run {errs} m buf ({short} old buf bs)) /\\
  (8 <= s_len buf < {mn} -> ({mn} <= declared bs)%N -> {name}_Parse m old buf = panic) /\\
  ({mn} <= s_len buf -> ({mn} <= declared bs)%N ->
     {name}_Parse m old buf = (trailer_log (last4 bs), Done ({of} {ofargs}))).
Proof.
  intros Hok Hwf bs. pose proof (s_bytes_length m buf Hok) as Hb. fold bs in Hb.
  split; [|split; [|split]].
  - intros. unfold {name}_Parse. rewrite Header_Parse_panic; [reflexivity|assumption|apply Hwf|lia].
  - intros ? HL. rewrite {mt}<- declared_hdr in * by lia. apply {name}_short; assumption.
  - intros ? HL. rewrite <- declared_hdr in HL by lia. apply {name}_panic; assumption.
  - intros ? HL. rewrite <- declared_hdr in HL by lia. apply {name}_full; assumption.
Qed.

Lemma {name}_too_short m buf old : slice_ok m buf -> {wf} old -> 8 <= s_len buf ->
  let bs := s_bytes m buf in
  (declared bs < {mn})%N -> N.to_nat (declared bs) <= s_cap buf ->
  exists h, header_view h = decode clc_header bs /\\
    {name}_Parse m old buf =
    ([{errs}; dump_line (bytes_at (m (s_arr buf)) (s_off buf) (N.to_nat (declared bs)))],
     Done {{| {pre}_Raw := buf; {pre}_Header := h; {shortfields} |}}).
Proof.
  intros Hok Hwf Hlen bs HL Hc. pose proof (s_bytes_length m buf Hok) as Hb. fold bs in Hb.
  exists (hdr_of bs). split; [apply hdr_view; lia|].
  destruct ({name}_total m buf old Hok Hwf) as (_ & H & _). fold bs in H. rewrite H by lia.
  rewrite short_run_ok by assumption. reflexivity.
Qed.

Lemma {name}_panics m buf old : slice_ok m buf -> {wf} old ->
  let bs := s_bytes m buf in
  (snd ({name}_Parse m old buf) = Panicked <->
   s_len buf < 8 \\/
   ((declared bs < {mn})%N /\\ s_cap buf < N.to_nat (declared bs)) \\/
   (({mn} <= declared bs)%N /\\ s_len buf < {mn})) /\\
  snd ({name}_Parse m old buf) <> Exited.
Proof.
  intros Hok Hwf bs. pose proof (s_bytes_length m buf Hok) as Hb. fold bs in Hb.
  destruct ({name}_total m buf old Hok Hwf) as (H1 & H2 & H3 & H4). fold bs in H2, H3, H4.
  destruct (le_lt_dec 8 (s_len buf)) as [L8|L8].
  2:{{ rewrite H1 by lia. cbn. split; [split; auto|discriminate]. }}
  destruct (N.lt_ge_cases (declared bs) {mn}) as [D|D].
  - rewrite H2 by lia. destruct (le_lt_dec (N.to_nat (declared bs)) (s_cap buf)) as [C|C].
    + rewrite short_run_ok by assumption. cbn. split; [|discriminate]; split; [discriminate|intros; lia].
    + rewrite short_run_bad by assumption. cbn. split; [|discriminate]; split; [intros; lia|reflexivity].
  - destruct (le_lt_dec {mn} (s_len buf)) as [L|L].
    + rewrite H4 by lia. cbn. split; [|discriminate]; split; [discriminate|intros; lia].
    + rewrite H3 by lia. cbn. split; [|discriminate]; split; [intros; lia|reflexivity].
Qed.

Lemma {name}_complete m buf old : slice_ok m buf -> {wf} old -> 8 <= s_len buf ->
  N.to_nat (declared (s_bytes m buf)) <= s_len buf ->
  exists logs a, {name}_Parse m old buf = (logs, Done a).
Proof.
  intros Hok Hwf L8 HL. destruct ({name}_panics m buf old Hok Hwf) as [HP HE].
  pose proof (len_le_cap _ _ Hok) as Hcap.
  destruct ({name}_Parse m old buf) as [logs [a| |]]; cbn [snd] in *; [eauto| |congruence].
  exfalso. destruct HP as [HP _]. specialize (HP eq_refl). lia.
Qed.

Lemma {name}_keeps_wf m buf old logs a : slice_ok m buf -> {wf} old ->
  {name}_Parse m old buf = (logs, Done a) -> {wf} a.
Proof.
  intros Hok Hwf H. pose proof (s_bytes_length m buf Hok) as Hb.
  destruct ({name}_total m buf old Hok Hwf) as (H1 & H2 & H3 & H4).
  destruct (le_lt_dec 8 (s_len buf)) as [L8|L8]; [|rewrite H1 in H by lia; discriminate].
  destruct (N.lt_ge_cases (declared (s_bytes m buf)) {mn}) as [D|D].
  - rewrite H2 in H by lia. destruct (le_lt_dec (N.to_nat (declared (s_bytes m buf))) (s_cap buf)) as [C|C];
      [rewrite short_run_ok in H by assumption|rewrite short_run_bad in H by assumption; discriminate].
    injection H as <- <-.
    unfold {wf} in *. cbn. intuition (apply hdr_wf; lia).
  - destruct (le_lt_dec {mn} (s_len buf)) as [L|L]; [|rewrite H3 in H by lia; discriminate].
    rewrite H4 in H by lia. injection H as <- <-. unfold {wf} in *. unfold {of}.
    cbn -[seg last4 firstn]. unfold mask_first.
    pose proof (hdr_wf (s_bytes m buf)). pose proof (last4_length (s_bytes m buf)).
    repeat split; try (apply hdr_wf; lia); try (apply last4_length; lia);
    try (rewrite !seg_length by lia; lia).{extra}
Qed.

Lemma {name}_parsed_wf a : parsed {name}_Parse {zero} a -> {wf} a.
Proof.
  induction 1 as [|m old buf logs new H IH Hok E].
  - repeat split.
  - eapply {name}_keeps_wf; eassumption.
Qed.

Lemma {name}_local m1 m2 buf old : slice_ok m1 buf -> slice_ok m2 buf -> {wf} old ->
  s_bytes m1 buf = s_bytes m2 buf ->
  snd ({name}_Parse m1 old buf) = snd ({name}_Parse m2 old buf).
Proof.
  intros Hok1 Hok2 Hwf E.
  destruct ({name}_total m1 buf old Hok1 Hwf) as (H1 & H2 & H3 & H4).
  destruct ({name}_total m2 buf old Hok2 Hwf) as (H1' & H2' & H3' & H4').
  rewrite <- E in *.
  destruct (le_lt_dec 8 (s_len buf)) as [L8|L8]; [|rewrite H1, H1' by lia; reflexivity].
  destruct (N.lt_ge_cases (declared (s_bytes m1 buf)) {mn}) as [D|D].
  - rewrite H2, H2' by lia. unfold short_run. rewrite <- E.
    destruct (_ <=? _); reflexivity.
  - destruct (le_lt_dec {mn} (s_len buf)) as [L|L]; [rewrite H4, H4' by lia|rewrite H3, H3' by lia]; reflexivity.
Qed.

Lemma {name}_again m buf old : slice_ok m buf -> {wf} old -> {oldeq or ''}
  {mn} <= s_len buf -> ({mn} <= declared (s_bytes m buf))%N ->
  {name}_Parse m old buf = {name}_Parse m {zero} buf.
Proof.
  intros Hok Hwf {'Hos ' if oldeq else ''}L D.
  destruct ({name}_total m buf old Hok Hwf) as (_ & _ & _ & H4).
  destruct ({name}_total m buf {zero} Hok) as (_ & _ & _ & H4'); [repeat split|].
  rewrite H4, H4' by assumption. {'unfold '+of+'. rewrite Hos. ' if oldeq else ''}reflexivity.
Qed.
'''
def sf(pre,names,old="old"):
    return "; ".join(f"{pre}_{n} := {pre}_{n} {old}" for n in names.split())
out+=gen("AcceptSMCR","accept_smcr_wf","accept_smcr_view","accept_smcr_body","ar",68,"smcr_of","smcr_short","AcceptSMCR_zero","","Accept SMC-R",err="(short_err (msg_type bs))",shortfields=sf("ar","SenderPeerID IBGID IBMAC QPN RMBRKey RMBEIdx RMBEAlertToken RMBESize QPMTU reserved RMBDMAAddr reserved2 PSN Trailer"))
out+=gen("AcceptSMCD","accept_smcd_wf","accept_smcd_view","accept_smcd_body","ad",48,"smcd_of","smcd_short","AcceptSMCD_zero","","Accept SMC-D v1",err="(short_err (msg_type bs))",shortfields=sf("ad","GID Token DMBEIdx DMBESize reserved reserved2 LinkID reserved3 Trailer"))
d='"Error parsing CLC Decline: message too short"%string'
out+=gen("Decline","decline_wf","decline_view","decline_body","d",28,"decline_of","decline_short","Decline_zero","","Decline v1",ofargs="old buf bs",err=d,oldeq="d_OSType old = 0%N ->",shortfields=sf("d","SenderPeerID PeerDiagnosis OSType reserved Trailer"))
out+=gen("DeclineV2","declinev2_wf","declinev2_view","declinev2_body","d2",28,"declinev2_of","declinev2_short","DeclineV2_zero","","Decline v2",err=d,shortfields=sf("d2","SenderPeerID PeerDiagnosis OSType reserved Trailer"))
open('/verif/rocq/theories/ClcFixed.v','w').write(out)
