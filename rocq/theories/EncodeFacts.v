(** * EncodeFacts: encoding and parsing are inverse to each other. Proofs only. *)

From Coq Require Import NArith ZArith Bool String Arith List Lia.
From Coq Require Import ZifyBool ZifyNat ZifyN.
From Verif Require Import GoBase GoFmt ClcModel LlcModel RoceModel Slices Wire WireLemmas ClcView LlcView
  Steps ClcParse ClcFixed ClcSmcdv2 ClcProposal ClcProposalV2 ClcMessage LlcMessage TextInj TextLossless
  Sound ClcHeader SoundFacts Encode.
Import ListNotations.
Local Open Scope nat_scope.

(** ** Any layout *)

Lemma b2n_n2b x : b2n (n2b x) = (x mod 256)%N.
Proof.
  unfold n2b. pose proof (N.mod_lt x 256 ltac:(lia)) as H.
  destruct (Byte.of_N (x mod 256)) as [b|] eqn:E.
  - apply Byte.to_of_N_iff in E. exact E.
  - apply Byte.of_N_None_iff in E. lia.
Qed.

Lemma number_bytes_length n x : length (number_bytes n x) = n.
Proof. induction n as [|n IH]; cbn [number_bytes length]; [reflexivity|]. rewrite IH. reflexivity. Qed.

Lemma BE_number_bytes n x : BE (number_bytes n x) = (x mod 256 ^ N.of_nat n)%N.
Proof.
  induction n as [|n IH]; cbn [number_bytes BE]; [cbn; rewrite N.mod_1_r; reflexivity|].
  rewrite number_bytes_length, IH, b2n_n2b, Nat2N.inj_succ, N.pow_succ_r'.
  rewrite (N.mul_comm 256 (256 ^ N.of_nat n)).
  rewrite N.mod_mul_r by (try apply N.pow_nonzero; lia). lia.
Qed.

Definition vnum (v : val) : N := match v with VN n => n | VB bs => BE bs end.

Lemma holds_lt k v : holds k v -> (vnum v < 2 ^ N.of_nat (kind_bits k))%N.
Proof.
  destruct k as [w|n], v as [x|bs]; cbn [holds vnum kind_bits]; try tauto.
  intros <-. rewrite <- pow256. apply BE_lt.
Qed.

Lemma number_lt l vs : values_for l vs -> (number l vs < 2 ^ N.of_nat (layout_bits l))%N.
Proof.
  intros H. induction H as [|[n k] [n' v] l vs [_ Hv] _ IH]; [cbn; lia|].
  cbn [number layout_bits]. cbn [snd] in Hv. apply holds_lt in Hv. fold (vnum v).
  rewrite Nat2N.inj_add, N.pow_add_r. nia.
Qed.

Lemma decode_number l vs : values_for l vs -> forall off bs, aligned_at l off = true ->
  off + layout_bits l = 8 * length bs ->
  (BE bs mod 2 ^ N.of_nat (layout_bits l))%N = number l vs -> decode_at l off bs = vs.
Proof.
  intros H. induction H as [|[n k] [n' v] l vs [Hn Hv] HF IH]; intros off bs Ha Hl HN; [reflexivity|].
  cbn [fst snd] in Hn, Hv. subst n'. cbn [layout_bits number] in Hl, HN. fold (vnum v) in HN.
  pose proof (number_lt _ _ HF) as Hlt. set (R := layout_bits l) in *.
  assert (P0 : (2 ^ N.of_nat R <> 0)%N) by (apply N.pow_nonzero; lia).
  assert (K0 : (2 ^ N.of_nat (kind_bits k) <> 0)%N) by (apply N.pow_nonzero; lia).
  rewrite Nat2N.inj_add, N.pow_add_r, (N.mul_comm (2 ^ N.of_nat (kind_bits k))), N.mod_mul_r in HN by assumption.
  assert (HR : (BE bs mod 2 ^ N.of_nat R = number l vs /\
                (BE bs / 2 ^ N.of_nat R) mod 2 ^ N.of_nat (kind_bits k) = vnum v)%N).
  { pose proof (N.mod_lt (BE bs) (2 ^ N.of_nat R) P0) as Hm.
    set (a := (BE bs mod 2 ^ N.of_nat R)%N) in *.
    set (b := ((BE bs / 2 ^ N.of_nat R) mod 2 ^ N.of_nat (kind_bits k))%N) in *.
    set (P := (2 ^ N.of_nat R)%N) in *.
    assert (E1 : (a + P * b = number l vs + P * vnum v)%N) by lia.
    split.
    - pose proof (f_equal (fun z => (z mod P)%N) E1) as E2. cbv beta in E2.
      rewrite !(N.mul_comm P), !N.mod_add, !N.mod_small in E2 by assumption. exact E2.
    - pose proof (f_equal (fun z => (z / P)%N) E1) as E2. cbv beta in E2.
      rewrite !(N.mul_comm P), !N.div_add, !N.div_small in E2 by assumption. exact E2. }
  destruct HR as [HR HV].
  assert (HB : bits bs off (kind_bits k) = vnum v).
  { rewrite bits_div by lia. replace (8 * length bs - off - kind_bits k) with R by lia. exact HV. }
  destruct k as [w|c], v as [x|b]; cbn [holds] in Hv; try contradiction; cbn [decode_at aligned_at kind_bits] in *.
  - rewrite HB. f_equal. apply IH; (assumption || lia).
  - apply andb_prop in Ha. destruct Ha as [Ha1 Ha2].
    assert (Hoff : off = 8 * (off / 8)) by (apply Nat.eqb_eq in Ha1; lia).
    f_equal; [|apply IH; (assumption || lia)]. do 2 f_equal. cbn [vnum] in HB.
    rewrite (bits_bytes bs (off / 8) c) in HB by lia. rewrite bytes_at_seg.
    apply BE_inj; [|exact HB]. rewrite seg_length by lia. lia.
Qed.

Lemma decode_encode l vs : aligned_at l 0 = true -> layout_bits l mod 8 = 0 -> values_for l vs ->
  8 * length (encode l vs) = layout_bits l /\ decode l (encode l vs) = vs.
Proof.
  intros Ha H8 Hv. assert (HL : 8 * length (encode l vs) = layout_bits l).
  { unfold encode. rewrite number_bytes_length. lia. }
  split; [exact HL|]. apply decode_number; try assumption; [lia|].
  unfold encode. rewrite BE_number_bytes, pow256. replace (8 * (layout_bits l / 8)) with (layout_bits l) by lia.
  rewrite N.mod_mod by (apply N.pow_nonzero; lia). apply N.mod_small. apply number_lt. exact Hv.
Qed.

Lemma decode_values l : forall off bs, aligned_at l off = true -> off + layout_bits l <= 8 * length bs ->
  values_for l (decode_at l off bs).
Proof.
  induction l as [|[n [w|c]] l IH]; intros off bs Ha Hl; cbn [decode_at layout_bits kind_bits aligned_at] in *.
  - constructor.
  - constructor; [|apply IH; (assumption || lia)]. split; [reflexivity|]. cbn [snd holds]. apply bits_lt.
  - apply andb_prop in Ha. destruct Ha as [Ha1 Ha2]. apply Nat.eqb_eq in Ha1.
    constructor; [|apply IH; (assumption || lia)]. split; [reflexivity|]. cbn [snd holds].
    rewrite bytes_at_seg. apply seg_length. lia.
Qed.

Lemma encode_decode l bs : aligned_at l 0 = true -> layout_bits l = 8 * length bs ->
  encode l (decode l bs) = bs.
Proof.
  intros Ha Hl. pose proof (decode_values l 0 bs Ha ltac:(lia)) as Hv.
  destruct (decode_encode l (decode l bs) Ha ltac:(lia) Hv) as [L E].
  symmetry. apply (decode_inj l); try assumption; [lia|]. symmetry. exact E.
Qed.

(** ** CLC: layouts *)

Lemma gids_bits n : layout_bits (concat (repeat gid_entry_body n)) = 80 * n.
Proof.
  induction n as [|n IH]; [reflexivity|]. cbn [repeat concat]. rewrite layout_bits_app, IH.
  change (layout_bits gid_entry_body) with 80. lia.
Qed.

Lemma eids_bits n : layout_bits (repeat ("EID"%string, A 32) n) = 256 * n.
Proof. induction n as [|n IH]; [reflexivity|]. cbn [repeat layout_bits kind_bits]. rewrite IH. lia. Qed.

Lemma gids_aligned n : forall x, aligned_at (concat (repeat gid_entry_body n)) (8 * x) = true.
Proof.
  induction n as [|n IH]; intros x; [reflexivity|]. cbn [repeat concat]. rewrite aligned_at_app.
  change (layout_bits gid_entry_body) with 80. replace (8 * x + 80) with (8 * (x + 10)) by lia. rewrite IH. reflexivity.
Qed.

Lemma eids_aligned n : forall x, aligned_at (repeat ("EID"%string, A 32) n) (8 * x) = true.
Proof.
  induction n as [|n IH]; intros x; [reflexivity|]. cbn [repeat aligned_at]. rewrite mod8.
  replace (8 * x + 8 * 32) with (8 * (x + 32)) by lia. rewrite IH. reflexivity.
Qed.

Lemma shift_aligned l : forall x, aligned_at l (8 * x) = aligned_at l 0.
Proof.
  assert (G : forall l a b, a mod 8 = b mod 8 -> aligned_at l a = aligned_at l b).
  { induction l0 as [|[n [w|c]] l0 IH]; intros a b E; [reflexivity| |]; cbn [aligned_at].
    - apply IH. lia.
    - rewrite E. f_equal. apply IH. lia. }
  intros x. apply G. rewrite mod8. reflexivity.
Qed.

Lemma aligned_app a b x : layout_bits a = 8 * x ->
  aligned_at (a ++ b) 0 = (aligned_at a 0 && aligned_at b 0)%bool.
Proof. intros H. rewrite aligned_at_app, H. cbn [Nat.add]. rewrite shift_aligned. reflexivity. Qed.

Lemma wire_aligned k bs : aligned_at (wire_layout k bs) 0 = true.
Proof.
  assert (AP : forall n, aligned_at (concat (repeat ipv6_prefix_body n)) 0 = true)
    by (intros n; exact (prefixes_aligned n 0)).
  assert (AG : forall n, aligned_at (concat (repeat gid_entry_body n)) 0 = true)
    by (intros n; exact (gids_aligned n 0)).
  assert (AE : forall n, aligned_at (repeat ("EID"%string, A 32) n) 0 = true)
    by (intros n; exact (eids_aligned n 0)).
  destruct k; unfold wire_layout.
  - rewrite <- !app_assoc. destruct (ip_area_offset bs =? 40)%N.
    + rewrite (aligned_app clc_header _ 8), (aligned_app proposal_body _ 32), (aligned_app proposal_smcd_body _ 40),
        (aligned_app ip_area_body _ 8) by reflexivity.
      rewrite (aligned_app _ _ (17 * prefix_count bs (ip_area_start bs))) by (rewrite prefixes_bits; lia).
      rewrite AP. reflexivity.
    + rewrite (aligned_app clc_header _ 8), (aligned_app proposal_body _ 32) by reflexivity. cbn [app].
      rewrite (aligned_app ip_area_body _ 8) by reflexivity.
      rewrite (aligned_app _ _ (17 * prefix_count bs (ip_area_start bs))) by (rewrite prefixes_bits; lia).
      rewrite AP. reflexivity.
  - rewrite <- !app_assoc.
    rewrite (aligned_app clc_header_v2proposal _ 8), (aligned_app proposalv2_body _ 72) by reflexivity.
    assert (X1 : forall r, aligned_at r 0 = true -> aligned_at ((if has_ip bs then ip_area_body ++
       concat (repeat ipv6_prefix_body (prefix_count bs 80)) else []) ++ r) 0 = true).
    { intros r Hr. destruct (has_ip bs); [|exact Hr]. rewrite <- app_assoc.
      rewrite (aligned_app ip_area_body _ 8) by reflexivity.
      rewrite (aligned_app _ _ (17 * prefix_count bs 80)) by (rewrite prefixes_bits; lia). rewrite AP, Hr. reflexivity. }
    rewrite X1; [reflexivity|]. clear X1.
    assert (X2 : forall r, aligned_at r 0 = true -> aligned_at ((if has_ext bs then v2_extension_body ++
       repeat ("EID"%string, A 32) (eids_at bs) else []) ++ r) 0 = true).
    { intros r Hr. destruct (has_ext bs); [|exact Hr]. rewrite <- app_assoc.
      rewrite (aligned_app v2_extension_body _ 40) by reflexivity.
      rewrite (aligned_app _ _ (32 * eids_at bs)) by (rewrite eids_bits; lia). rewrite AE, Hr. reflexivity. }
    apply X2. clear X2.
    destruct (has_smcd bs); [|reflexivity]. rewrite <- app_assoc.
    rewrite (aligned_app smcdv2_extension_body _ 48) by reflexivity.
    rewrite (aligned_app _ _ (10 * gids_at bs)) by (rewrite gids_bits; lia). rewrite AG. reflexivity.
  - reflexivity.
  - reflexivity.
  - destruct (declared bs =? 114)%N; reflexivity.
  - reflexivity.
  - reflexivity.
  - destruct (declared bs =? 114)%N; reflexivity.
  - reflexivity.
  - reflexivity.
Qed.

(** ** CLC: parsing *)

Lemma concat_entries body size : layout_bits body = 8 * size -> forall n start bs,
  concat (entries body start size n bs) = decode_at (concat (repeat body n)) (8 * start) bs.
Proof.
  intros Hb. induction n as [|n IH]; intros start bs; [reflexivity|].
  unfold entries. cbn [seq map concat repeat]. rewrite decode_at_app, Hb.
  rewrite Nat.mul_0_r, Nat.add_0_r. f_equal. replace (8 * start + 8 * size) with (8 * (start + size)) by lia.
  rewrite <- IH. unfold entries. rewrite <- seq_shift, map_map. f_equal. apply map_ext. intros k. f_equal. lia.
Qed.

Lemma eid_entries n : forall start bs,
  map (fun e => ("EID"%string, VB e)) (map (fun k => bytes_at bs (start + 32 * k) 32) (seq 0 n)) =
  decode_at (repeat ("EID"%string, A 32) n) (8 * start) bs.
Proof.
  induction n as [|n IH]; intros start bs; [reflexivity|].
  cbn [seq map repeat decode_at]. rewrite Nat.mul_0_r, Nat.add_0_r.
  rewrite (Nat.mul_comm 8 start), Nat.div_mul by discriminate. f_equal.
  replace (start * 8 + 8 * 32) with (8 * (start + 32)) by lia. rewrite <- IH.
  rewrite <- seq_shift, !map_map. apply map_ext. intros k. do 3 f_equal. lia.
Qed.

Definition vnat (x : string * val) : N := match snd x with VN n => n | VB _ => 0%N end.
Definition nothing : string * val := (EmptyString, VN 0).

Lemma with_trailer l bs : 4 <= length bs -> layout_bits (l ++ [("Trailer"%string, A 4)]) = 8 * length bs ->
  decode (l ++ [("Trailer"%string, A 4)]) bs = decode l bs ++ [("Trailer"%string, VB (last4 bs))].
Proof.
  intros H4 HL. rewrite layout_bits_app in HL. cbn [layout_bits kind_bits] in HL.
  unfold decode. rewrite decode_at_app. f_equal. apply trailer_decode; lia.
Qed.

Lemma smcdv2_whole m buf k a : is_smcdv2 k = true -> slice_ok m buf -> accept_smcdv2_wf a ->
  let bs := s_bytes m buf in whole k bs ->
  exists x, AcceptSMCDv2_Parse m a buf = (trailer_log (last4 bs), Done x) /\
    smcdv2_fields x ++ [("Trailer"%string, VB (a2_Trailer x))] = decode (wire_layout k bs) bs.
Proof.
  intros HK Hok Hwf bs (W1 & W2 & _). pose proof (s_bytes_length m buf Hok) as Hb. fold bs in Hb.
  assert (WL : wire_layout k bs = (clc_header ++ accept_smcdv2_body ++
     (if (declared bs =? 114)%N then fce_body else [])) ++ [("Trailer"%string, A 4)])
    by (destruct k; try discriminate HK; reflexivity).
  rewrite WL in W1 |- *.
  assert (HLen : length bs = if (declared bs =? 114)%N then 114 else 78).
  { rewrite !layout_bits_app in W1. change (layout_bits clc_header) with 64 in W1.
    change (layout_bits accept_smcdv2_body) with 528 in W1.
    change (layout_bits [("Trailer"%string, A 4)]) with 32 in W1.
    destruct (declared bs =? 114)%N; [change (layout_bits fce_body) with 288 in W1|change (layout_bits []) with 0 in W1]; lia. }
  destruct (AcceptSMCDv2_decode m buf a Hok Hwf) as (x & E & V & F & T & R); fold bs;
    try (destruct (declared bs =? 114)%N; lia).
  fold bs in E, V, F, T. exists x. split; [exact E|].
  assert (HH : h_Length (a2_Header x) = declared bs)
    by exact (f_equal (fun l => vnat (nth 2 l nothing)) V).
  rewrite with_trailer by (try assumption; destruct (declared bs =? 114)%N; lia).
  rewrite T. f_equal. unfold smcdv2_fields. rewrite HH, V, F. unfold decode. rewrite app_assoc, (decode_at_app (_ ++ _)).
  f_equal. destruct (declared bs =? 114)%N; reflexivity.
Qed.

Lemma firstn_map_app {X} (a b : list X) n : length a = n -> firstn n (a ++ b) = a.
Proof. intros <-. rewrite firstn_app, Nat.sub_diag, firstn_all, app_nil_r. reflexivity. Qed.

Lemma proposal_whole m buf : slice_ok m buf -> let bs := s_bytes m buf in whole KProposal bs ->
  exists p, Proposal_Parse m Proposal_zero buf = (trailer_log (last4 bs), Done p) /\
    object_fields (MProposal p) = decode (wire_layout KProposal bs) bs.
Proof.
  intros Hok bs (W1 & W2 & W3). pose proof (s_bytes_length m buf Hok) as Hb. fold bs in Hb.
  assert (HS : ip_area_start bs = 40 + (if (ip_area_offset bs =? 40)%N then 40 else 0)).
  { unfold ip_area_start. destruct W3 as [-> | ->]; reflexivity. }
  set (c := prefix_count bs (ip_area_start bs)) in *.
  assert (HLen : length bs = ip_area_start bs + 8 + 17 * c + 4).
  { unfold wire_layout in W1. fold c in W1. rewrite !layout_bits_app, prefixes_bits in W1. rewrite HS.
    change (layout_bits clc_header) with 64 in W1. change (layout_bits proposal_body) with 256 in W1.
    change (layout_bits ip_area_body) with 64 in W1.
    change (layout_bits [("Trailer"%string, A 4)]) with 32 in W1.
    destruct (ip_area_offset bs =? 40)%N; [change (layout_bits proposal_smcd_body) with 320 in W1|change (layout_bits []) with 0 in W1]; lia. }
  destruct (Proposal_decode m buf Proposal_zero Hok (fresh_wf KProposal)) as (p & E & V & S40 & _ & I & (new & N1 & N2) & T & R);
    fold bs; try (destruct (ip_area_offset bs =? 40)%N; lia).
  fold bs in E, V, S40, I, N1, N2, T. fold c in E, N2. rewrite W2 in E, N2.
  assert (HF : fitting (length bs) (ip_area_start bs + 8) 17 c = c) by (apply fitting_all; lia).
  rewrite HF in E, N2. rewrite Nat.ltb_irrefl in E. cbn [app] in E.
  exists p. split; [exact E|].
  assert (HO : p_IPAreaOffset p = ip_area_offset bs)
    by exact (f_equal (fun l => vnat (nth 10 l nothing)) V).
  unfold wire_layout in W1 |- *. fold c in W1 |- *.
  rewrite with_trailer by (assumption || lia). unfold object_fields. f_equal; [|cbn [trailer_of]; rewrite T; reflexivity].
  unfold decode. rewrite (app_assoc clc_header), (decode_at_app (clc_header ++ _)). cbn [Nat.add]. unfold decode in V. rewrite V. f_equal.
  change (layout_bits (clc_header ++ proposal_body)) with 320.
  rewrite decode_at_app, HO. f_equal.
  - destruct (N.eqb_spec (ip_area_offset bs) 40) as [Z|Z]; [|reflexivity]. exact (S40 Z).
  - unfold ip_fields. rewrite I, N1. cbn [i_IPv6Prefixes p_IP Proposal_zero IPInfo_zero app].
    match goal with |- _ = decode_at _ ?o _ => replace o with (8 * ip_area_start bs) end.
    2:{ rewrite HS. destruct (ip_area_offset bs =? 40)%N; reflexivity. }
    rewrite decode_at_app. f_equal. change (layout_bits ip_area_body) with 64.
    replace (8 * ip_area_start bs + 64) with (8 * (ip_area_start bs + 8)) by lia.
    rewrite <- (concat_entries ipv6_prefix_body 17) by reflexivity. rewrite <- N2.
    reflexivity.
Qed.

Lemma proposalv2_whole m buf : slice_ok m buf -> let bs := s_bytes m buf in whole KProposalV2 bs ->
  exists p, ProposalV2_Parse m ProposalV2_zero buf = (trailer_log (last4 bs), Done p) /\
    object_fields (MProposalV2 p) = decode (wire_layout KProposalV2 bs) bs.
Proof.
  intros Hok bs (W1 & W2 & W3 & W4). pose proof (s_bytes_length m buf Hok) as Hb. fold bs in Hb.
  assert (HLen : length bs = (if has_ip bs then 88 + 17 * prefix_count bs 80 else 80) +
     (if has_ext bs then 40 + 32 * eids_at bs else 0) + (if has_smcd bs then 48 + 10 * gids_at bs else 0) + 4).
  { unfold wire_layout in W1. rewrite !layout_bits_app in W1.
    change (layout_bits clc_header_v2proposal) with 64 in W1. change (layout_bits proposalv2_body) with 576 in W1.
    change (layout_bits [("Trailer"%string, A 4)]) with 32 in W1.
    destruct (has_ip bs), (has_ext bs), (has_smcd bs);
      rewrite ?layout_bits_app, ?prefixes_bits, ?eids_bits, ?gids_bits in W1;
      change (layout_bits ip_area_body) with 64 in W1; change (layout_bits v2_extension_body) with 320 in W1;
      change (layout_bits smcdv2_extension_body) with 384 in W1; change (layout_bits []) with 0 in W1; lia. }
  assert (HE : ext_at bs = if has_ip bs then 88 + 17 * prefix_count bs 80 else 80)
    by (unfold ext_at; destruct (has_ip bs); lia).
  assert (HX : has_smcd bs = true -> has_ext bs = true) by apply smcd_ext.
  assert (H84 : 84 <= length bs) by (destruct (has_ip bs); lia).
  assert (S : sound_v2 bs).
  { unfold sound_v2, smcd_at. rewrite HE. split; [|split].
    - intros I. rewrite I in HLen. lia.
    - intros I. rewrite I in HLen. split; [lia|auto].
    - intros I. rewrite I, (HX I) in HLen. split; [lia|auto]. }
  pose proof S as S'. apply sound_v2_room in S'; [|exact H84].
  destruct S' as (IR & ER & SR & P1 & P2 & P3).
  pose proof (ext_eq bs _ P1) as X. destruct (eid_count_eq bs _ X) as [EC GC].
  destruct (ProposalV2_decode m buf ProposalV2_zero Hok (fresh_wf KProposalV2)) as (p & E & V & DI & DE & DS & T & R);
    fold bs; rewrite ?W2; try assumption; try lia;
    try (intros I; apply P2; exact I); try (intros I; apply P3; exact I).
  fold bs in E, V, DI, DE, DS, T. rewrite W2 in E, DI, DE, DS.
  assert (L1 : v2_prefix_log (length bs) bs = []).
  { unfold v2_prefix_log. destruct (has_ip bs); [|reflexivity]. apply too_many_nil; [apply fitting_lt|auto]. }
  assert (L2 : v2_eid_log (length bs) bs = []).
  { unfold v2_eid_log. destruct (has_ext bs); [|reflexivity]. apply too_many_nil; [apply fitting_lt|apply P2; reflexivity]. }
  assert (L3 : v2_gid_log (length bs) bs = []).
  { unfold v2_gid_log. destruct (has_smcd bs); [|reflexivity]. apply too_many_nil; [apply fitting_lt|apply P3; reflexivity]. }
  rewrite L1, L2, L3 in E. cbn [app] in E. exists p. split; [exact E|].
  assert (HP : h_Path (p2_Header p) = msg_path bs) by exact (f_equal (fun l => vnat (nth 5 l nothing)) V).
  assert (HP2 : h_Pathv2 (p2_Header p) = msg_pathv2 bs) by exact (f_equal (fun l => vnat (nth 4 l nothing)) V).
  unfold wire_layout in W1 |- *. rewrite with_trailer by (assumption || lia).
  unfold object_fields. f_equal; [|cbn [trailer_of]; rewrite T; reflexivity].
  unfold decode. rewrite (app_assoc clc_header_v2proposal), (decode_at_app (clc_header_v2proposal ++ _)). cbn [Nat.add]. unfold decode in V. rewrite V. f_equal.
  change (layout_bits (clc_header_v2proposal ++ proposalv2_body)) with 640. clear V W1.
  rewrite HP, HP2. change ((msg_pathv2 bs =? 1) || (msg_pathv2 bs =? 3))%N with (has_smcd bs).
  assert (QP : forall (A : Type) (a b : A), (if (msg_path bs =? 2)%N then a else b) = if has_ip bs then b else a)
    by (intros; unfold has_ip; destruct (msg_path bs =? 2)%N; reflexivity).
  assert (QP2 : forall (A : Type) (a b : A), (if (msg_pathv2 bs =? 2)%N then a else b) = if has_ext bs then b else a)
    by (intros; unfold has_ext; destruct (msg_pathv2 bs =? 2)%N; reflexivity).
  rewrite QP, QP2. rewrite decode_at_app. f_equal; [|rewrite decode_at_app; f_equal].
  - unfold v2_ip_decoded in DI. destruct (has_ip bs); [|reflexivity].
    destruct DI as (I & new & N1 & N2). unfold ip_fields. rewrite I, N1.
    cbn [i_IPv6Prefixes p2_IP ProposalV2_zero IPInfo_zero app].
    rewrite decode_at_app. f_equal. change (640 + layout_bits ip_area_body) with (8 * 88).
    rewrite <- (concat_entries ipv6_prefix_body 17) by reflexivity. rewrite N2, P1 by reflexivity. reflexivity.
  - match goal with |- _ = decode_at _ ?o _ => replace o with (8 * ext_at bs) end.
    2:{ rewrite HE. destruct (has_ip bs); [|reflexivity]. rewrite layout_bits_app, prefixes_bits.
        change (layout_bits ip_area_body) with 64. lia. }
    unfold v2_ext_decoded in DE. destruct (has_ext bs); [|reflexivity].
    destruct (P2 eq_refl) as [Q1 Q2]. destruct DE as (D1 & D2). rewrite X in D1, D2. rewrite Q1, EC in D2.
    assert (HN : x_EIDNumber (p2_Ext p) = bits bs (8 * ext_at bs) 8)
      by exact (f_equal (fun l => vnat (nth 0 l nothing)) D1).
    rewrite D1, D2, HN. fold (eids_at bs).
    rewrite firstn_map_app by (rewrite map_length, seq_length; reflexivity).
    rewrite decode_at_app. f_equal. change (layout_bits v2_extension_body) with 320.
    replace (8 * ext_at bs + 320) with (8 * (ext_at bs + 40)) by lia. apply eid_entries.
  - rewrite <- Nat.add_assoc.
    unfold v2_smcd_decoded in DS. destruct (has_smcd bs); [|reflexivity].
    rewrite (HX eq_refl) in *. destruct (P3 eq_refl) as [Q1 Q2]. destruct (P2 eq_refl) as [Q3 Q4].
    assert (SS : v2_smcd_start (length bs) bs = smcd_at bs)
      by (unfold v2_smcd_start, smcd_at; rewrite Q3, X, EC; reflexivity).
    destruct DS as (D1 & new & N1 & N2). rewrite SS in D1, N2. rewrite Q1, GC in N1, N2.
    unfold v2_ext_decoded in DE. rewrite (HX eq_refl) in DE. destruct DE as (D3 & _). rewrite X in D3.
    assert (HN : x_GIDNumber (p2_Ext p) = bits bs (8 * (ext_at bs + 1)) 8).
    { replace (8 * (ext_at bs + 1)) with (8 * ext_at bs + 8) by lia.
      exact (f_equal (fun l => vnat (nth 1 l nothing)) D3). }
    match goal with |- _ = decode_at _ ?o _ => replace o with (8 * smcd_at bs) end.
    2:{ unfold smcd_at. rewrite HE, layout_bits_app, eids_bits. change (layout_bits v2_extension_body) with 320.
        destruct (has_ip bs); [rewrite layout_bits_app, prefixes_bits; change (layout_bits ip_area_body) with 64|
          change (layout_bits []) with 0]; lia. }
    rewrite decode_at_app, D1, N1, HN. fold (gids_at bs). f_equal.
    rewrite firstn_map_app.
    + rewrite N2. change (layout_bits smcdv2_extension_body) with 384.
      replace (8 * smcd_at bs + 384) with (8 * (smcd_at bs + 48)) by lia.
      apply concat_entries. reflexivity.
    + rewrite <- (map_length gid_entry_view new), N2. unfold entries. rewrite map_length, seq_length. reflexivity.
Qed.

Lemma fixed_whole {T} (view : T -> list (string * val)) body bs (x : T) size :
  layout_bits ((clc_header ++ body) ++ [("Trailer"%string, A 4)]) = 8 * length bs ->
  layout_bits (clc_header ++ body) + 32 = 8 * size ->
  view x = decode (clc_header ++ body) bs ->
  view x ++ [("Trailer"%string, VB (last4 bs))] = decode ((clc_header ++ body) ++ [("Trailer"%string, A 4)]) bs.
Proof.
  intros W HS V. rewrite with_trailer; [rewrite V; reflexivity| |exact W].
  rewrite layout_bits_app in W. cbn [layout_bits kind_bits] in W. lia.
Qed.

Theorem parse_fields m buf k : slice_ok m buf -> let bs := s_bytes m buf in whole k bs ->
  exists new, Message_Parse m (fresh k) buf = (trailer_log (last4 bs), Done new) /\
    object_fields new = decode (wire_layout k bs) bs.
Proof.
  intros Hok bs W. pose proof (s_bytes_length m buf Hok) as Hb. fold bs in Hb.
  pose proof (fresh_wf k) as Hwf.
  assert (L : forall l size, layout_bits (l ++ [("Trailer"%string, A 4)]) = 8 * length bs ->
     layout_bits l + 32 = 8 * size -> length bs = size).
  { intros l size W1 HS. rewrite layout_bits_app in W1. cbn [layout_bits kind_bits] in W1. lia. }
  destruct k; cbn [fresh message_wf] in *.
  - destruct (proposal_whole m buf Hok W) as (p & E & F). exists (MProposal p).
    split; [apply bind_map; exact E|exact F].
  - destruct (proposalv2_whole m buf Hok W) as (p & E & F). exists (MProposalV2 p).
    split; [apply bind_map; exact E|exact F].
  - destruct W as (W1 & W2 & _). pose proof (L _ 68 W1 eq_refl).
    destruct (AcceptSMCR_decode m buf _ Hok Hwf) as (x & E & V & T & _); fold bs; try lia.
    eexists. split; [apply bind_map; exact E|]. unfold object_fields. cbn [trailer_of]. rewrite T.
    apply (fixed_whole accept_smcr_view _ bs x 68); [exact W1|reflexivity|exact V].
  - destruct W as (W1 & W2 & _). pose proof (L _ 48 W1 eq_refl).
    destruct (AcceptSMCD_decode m buf _ Hok Hwf) as (x & E & V & T & _); fold bs; try lia.
    eexists. split; [apply bind_map; exact E|]. unfold object_fields. cbn [trailer_of]. rewrite T.
    apply (fixed_whole accept_smcd_view _ bs x 48); [exact W1|reflexivity|exact V].
  - destruct (smcdv2_whole m buf KAcceptSMCDv2 _ eq_refl Hok Hwf W) as (x & E & F).
    eexists. split; [apply bind_map; exact E|exact F].
  - destruct W as (W1 & W2 & _). pose proof (L _ 68 W1 eq_refl).
    destruct (AcceptSMCR_decode m buf _ Hok Hwf) as (x & E & V & T & _); fold bs; try lia.
    eexists. split; [do 2 apply bind_map; exact E|]. unfold object_fields. cbn [trailer_of cr_Accept]. rewrite T.
    apply (fixed_whole accept_smcr_view _ bs x 68); [exact W1|reflexivity|exact V].
  - destruct W as (W1 & W2 & _). pose proof (L _ 48 W1 eq_refl).
    destruct (AcceptSMCD_decode m buf _ Hok Hwf) as (x & E & V & T & _); fold bs; try lia.
    eexists. split; [do 2 apply bind_map; exact E|]. unfold object_fields. cbn [trailer_of cd_Accept]. rewrite T.
    apply (fixed_whole accept_smcd_view _ bs x 48); [exact W1|reflexivity|exact V].
  - destruct (smcdv2_whole m buf KConfirmSMCDv2 _ eq_refl Hok Hwf W) as (x & E & F).
    eexists. split; [do 2 apply bind_map; exact E|exact F].
  - destruct W as (W1 & W2 & _). pose proof (L _ 28 W1 eq_refl).
    destruct (Decline_decode m buf _ Hok Hwf) as (x & E & V & T & _); fold bs; try lia.
    eexists. split; [apply bind_map; exact E|]. unfold object_fields. cbn [trailer_of]. rewrite T.
    apply (fixed_whole decline_view _ bs x 28); [exact W1|reflexivity|exact V].
  - destruct W as (W1 & W2 & _). pose proof (L _ 28 W1 eq_refl).
    destruct (DeclineV2_decode m buf _ Hok Hwf) as (x & E & V & T & _); fold bs; try lia.
    eexists. split; [apply bind_map; exact E|]. unfold object_fields. cbn [trailer_of]. rewrite T.
    apply (fixed_whole declinev2_view _ bs x 28); [exact W1|reflexivity|exact V].
Qed.

(** what is sent is what is parsed *)
Theorem encode_parse k l vs : values_for l vs -> wire_layout k (encode l vs) = l -> whole k (encode l vs) ->
  forall m buf, slice_ok m buf -> s_bytes m buf = encode l vs ->
  exists new, Message_Parse m (fresh k) buf = (trailer_log (last4 (encode l vs)), Done new) /\
    object_fields new = vs.
Proof.
  intros Hv Hl W m buf Hok HB. rewrite <- HB in W.
  destruct (parse_fields m buf k Hok W) as (new & E & F). rewrite HB in E, F. exists new. split; [exact E|].
  rewrite Hl in F. rewrite F. rewrite HB in W. destruct W as (W & _). rewrite Hl in W.
  apply decode_encode; [rewrite <- Hl; apply wire_aligned| |exact Hv]. rewrite W. apply mod8.
Qed.

(** the message can be rebuilt from the object *)
Theorem parse_encode m buf k logs new : slice_ok m buf -> let bs := s_bytes m buf in whole k bs ->
  Message_Parse m (fresh k) buf = (logs, Done new) -> encode (wire_layout k bs) (object_fields new) = bs.
Proof.
  intros Hok bs W P. destruct (parse_fields m buf k Hok W) as (new' & E & F). fold bs in E, F.
  rewrite P in E. injection E as -> ->. rewrite F. apply encode_decode; [apply wire_aligned|]. apply W.
Qed.
