(** * EncodeRest: LLC payloads, CDC messages, transport and routing headers from field values. *)

From Coq Require Import NArith ZArith Bool String Ascii Arith List Lia.
From Verif Require Import GoBase GoFmt ClcModel LlcModel RoceModel Slices Wire WireLemmas ClcView LlcView Encode
  TextLossless EncodeFacts LlcMessage LlcExamples RoceText.
Import ListNotations.
Local Open Scope nat_scope.

Lemma llc_bits k : layout_bits (llc_layout k) = 8 * llc_size k.
Proof. destruct k; reflexivity. Qed.
Lemma llc_aligned k : aligned_at (llc_layout k) 0 = true.
Proof. destruct k; reflexivity. Qed.

Lemma encode_llc m buf old vs : slice_ok m buf -> llc_wf old ->
  let l := llc_layout (llc_kind_of old) in
  values_for l vs -> s_bytes m buf = encode l vs ->
  exists new, LLC_Parse m old buf = ([], Done new) /\ llc_kind_of new = llc_kind_of old /\ llc_view new = vs.
Proof.
  intros Hok Hwf l Hv HB. pose proof (s_bytes_length m buf Hok) as Hb.
  destruct (decode_encode l vs (llc_aligned _)) as [HL HD]; [unfold l; rewrite llc_bits; apply mod8|exact Hv|].
  unfold l in HL at 2. rewrite llc_bits in HL.
  destruct (LLC_decode m buf old Hok Hwf) as (new & E & K & V & _); [rewrite <- Hb, HB; lia|].
  exists new. fold l in V. rewrite HB, HD in V. auto.
Qed.

Lemma llc_encode m buf old logs new : slice_ok m buf -> llc_wf old ->
  s_len buf = llc_size (llc_kind_of old) -> LLC_Parse m old buf = (logs, Done new) ->
  encode (llc_layout (llc_kind_of new)) (llc_view new) = s_bytes m buf.
Proof.
  intros Hok Hwf HS P. pose proof (s_bytes_length m buf Hok) as Hb.
  destruct (LLC_decode m buf old Hok Hwf) as (new' & E & K & V & _); [lia|].
  rewrite P in E. injection E as -> ->. rewrite K, V. apply encode_decode; [apply llc_aligned|].
  rewrite llc_bits. lia.
Qed.

Lemma encode_ParseLLC m buf k vs : slice_ok m buf -> k <> KOther -> k <> KConfirmRKeyCont ->
  values_for (llc_layout k) vs -> s_bytes m buf = encode (llc_layout k) vs ->
  k = kind_of_type (bits (s_bytes m buf) 0 8) ->
  exists msg, ParseLLC m buf = ([], Done msg) /\ llc_kind_of msg = k /\ llc_view msg = vs.
Proof.
  intros Hok H1 H2 Hv HB HK. pose proof (s_bytes_length m buf Hok) as Hb.
  destruct (decode_encode (llc_layout k) vs (llc_aligned _)) as [HL HD]; [rewrite llc_bits; apply mod8|exact Hv|].
  rewrite llc_bits in HL.
  destruct (ParseLLC_decode m buf Hok) as (msg & E & K & V & _).
  - rewrite HB. destruct k; cbn [llc_size] in HL; congruence || lia.
  - rewrite <- HK. exact H2.
  - exists msg. rewrite <- HK in K, V. rewrite HB, HD in V. auto.
Qed.

Lemma encode_bth m buf old vs : slice_ok m buf -> values_for bth vs -> s_bytes m buf = encode bth vs ->
  exists b, BTH_Parse m old buf = ([], Done b) /\ bth_view b = vs.
Proof.
  intros Hok Hv HB. pose proof (s_bytes_length m buf Hok) as Hb.
  destruct (decode_encode bth vs eq_refl eq_refl Hv) as [HL HD]. change (layout_bits bth) with (8 * 12) in HL.
  destruct (BTH_decode m buf old Hok) as (b & E & V & _); [rewrite <- Hb, HB; lia|].
  exists b. rewrite HB, HD in V. auto.
Qed.

Lemma bth_encode m buf old b : slice_ok m buf -> s_len buf = 12 -> BTH_Parse m old buf = ([], Done b) ->
  encode bth (bth_view b) = s_bytes m buf.
Proof.
  intros Hok HS P. pose proof (s_bytes_length m buf Hok) as Hb.
  destruct (BTH_decode m buf old Hok) as (b' & E & V & _); [lia|].
  rewrite P in E. injection E as ->. rewrite V. apply encode_decode; [reflexivity|].
  rewrite Hb, HS. reflexivity.
Qed.

Lemma encode_grh m buf old vs : slice_ok m buf -> values_for grh vs -> s_bytes m buf = encode grh vs ->
  exists g, GRH_Parse m old buf = ([], Done g) /\ grh_view g = vs.
Proof.
  intros Hok Hv HB. pose proof (s_bytes_length m buf Hok) as Hb.
  destruct (decode_encode grh vs eq_refl eq_refl Hv) as [HL HD]. change (layout_bits grh) with (8 * 40) in HL.
  destruct (GRH_decode m old buf Hok) as (g & E & V & _); [rewrite <- Hb, HB; lia|].
  exists g. rewrite HB, HD in V. auto.
Qed.

Lemma grh_encode m buf old g : slice_ok m buf -> s_len buf = 40 -> GRH_Parse m old buf = ([], Done g) ->
  encode grh (grh_view g) = s_bytes m buf.
Proof.
  intros Hok HS P. pose proof (s_bytes_length m buf Hok) as Hb.
  destruct (GRH_decode m old buf Hok) as (g' & E & V & _); [lia|].
  rewrite P in E. injection E as ->. rewrite V. apply encode_decode; [reflexivity|].
  rewrite Hb, HS. reflexivity.
Qed.
