(** * VisibleFacts: which messages have the same text. Proofs only. *)

From Coq Require Import NArith ZArith Bool String Ascii Arith List Lia.
From Coq Require Import ZifyBool ZifyNat ZifyN.
From Verif Require Import GoBase GoFmt ClcModel LlcModel RoceModel Slices Wire WireLemmas ClcView LlcView
  Names Opcodes Show TextLemmas Canon CanonNum CanonIp CanonDump TextInj Lossless Visible.
From Verif Require Import TextLossless.
From Verif Require ClcMessage LlcMessage TextRest LlcMessage LlcText RoceText RoceParse LlcExamples Samples.
Import ListNotations.
Local Open Scope nat_scope.

(** ** Texts are functions of the shown values *)

Lemma group_same pn fs : forall ks vs vs', gdom fs ks vs -> gdom fs ks vs' ->
  firstn (length fs) (map snd vs) = firstn (length fs) (map snd vs') ->
  group_items pn fs vs = group_items pn fs vs'.
Proof.
  induction fs as [|[label s] fs IH]; intros ks vs vs' D D' H; [reflexivity|].
  cbn [gdom] in *. destruct ks as [|k ks]; [contradiction|]. destruct vs as [|[? v] vs]; [contradiction|].
  destruct vs' as [|[? v'] vs']; [contradiction|]. cbn [length map snd firstn] in H. injection H as -> H.
  cbn [group_items]. f_equal. apply (IH ks); tauto.
Qed.

Lemma app_split {X} (a a' b b' : list X) : length a = length a' -> (a ++ b)%list = (a' ++ b')%list -> a = a' /\ b = b'.
Proof.
  revert a'. induction a as [|x a IH]; intros [|x' a'] L H; try discriminate; [split; [reflexivity|exact H]|].
  cbn in *. injection H as -> H. destruct (IH a' ltac:(lia) H) as [-> ->]. split; reflexivity.
Qed.

Lemma gdom_length fs : forall ks vs, gdom fs ks vs -> length (firstn (length fs) (map snd vs)) = length fs.
Proof.
  induction fs as [|[? s] fs IH]; intros ks vs D; [reflexivity|]. cbn [gdom] in D.
  destruct ks as [|k ks]; [contradiction|]. destruct vs as [|[? v] vs]; [contradiction|].
  cbn [length map snd firstn]. rewrite (IH ks vs) by apply D. reflexivity.
Qed.

Theorem items_same pn res t : forall ks vs vs', rdom t ks vs -> rdom t ks vs' ->
  shown res t vs = shown res t vs' -> items pn res t vs = items pn res t vs'.
Proof.
  induction t as [|r t IH]; intros ks vs vs' D D' H; [reflexivity|].
  destruct r as [label s| |n|label|label fs]; cbn [rdom] in *.
  - destruct ks as [|k ks]; [contradiction|]. destruct vs as [|[? v] vs]; [contradiction|].
    destruct vs' as [|[? v'] vs']; [contradiction|]. cbn [items shown] in *. injection H as -> H. f_equal. apply (IH ks); tauto.
  - destruct ks as [|k ks]; [contradiction|]. destruct vs as [|[? v] vs]; [contradiction|].
    destruct vs' as [|[? v'] vs']; [contradiction|]. cbn [items shown] in *. destruct res.
    + injection H as -> H. f_equal. apply (IH ks); tauto.
    + cbn [List.app]. apply (IH ks); tauto.
  - destruct ks as [|k ks]; [contradiction|]. destruct vs as [|[? [x|?]] vs]; try contradiction.
    destruct vs' as [|[? [x'|?]] vs']; try contradiction. cbn [items shown] in *. destruct res.
    + injection H as -> H. f_equal. apply (IH ks); tauto.
    + cbn [List.app]. apply (IH ks); tauto.
  - destruct ks as [|k [|k' ks]]; try contradiction; destruct vs as [|[? a] [|[? l] vs]]; try contradiction;
      destruct vs' as [|[? a'] [|[? l'] vs']]; try contradiction. cbn [items shown] in *. injection H as -> -> H.
    f_equal. apply (IH ks); tauto.
  - destruct D as [D Dt]. destruct D' as [D' Dt']. cbn [items shown] in *.
    apply app_split in H; [|rewrite !(gdom_length fs ks) by assumption; reflexivity]. destruct H as [Hg H].
    rewrite (group_same pn fs ks vs vs' D D' Hg). f_equal. apply (IH (skipn (length fs) ks)); assumption.
Qed.

(** two texts with the same rows are equal exactly when they show the same values *)
Theorem line_iff res pn title label s t n k l bs bs' :
  let rows := F label s :: t in let lay := (n, k) :: l in
  fits rows lay = true -> layout_bits lay <= 8 * length bs -> layout_bits lay <= 8 * length bs' ->
  line title (items pn res rows (decode lay bs)) = line title (items pn res rows (decode lay bs')) <->
  shown res rows (decode lay bs) = shown res rows (decode lay bs').
Proof.
  cbv zeta. intros Hf L L'. split.
  - apply line_inj; assumption.
  - intros H. unfold line. f_equal. f_equal. f_equal.
    eapply items_same; [apply fits_rdom; [exact Hf|exact L]|apply fits_rdom; [exact Hf|exact L']|exact H].
Qed.

Corollary reserved_iff pn title label s t n k l bs bs' :
  let rows := F label s :: t in let lay := (n, k) :: l in
  fits rows lay = true -> aligned_at lay 0 = true -> layout_bits lay = 8 * length bs -> length bs = length bs' ->
  line title (items pn true rows (decode lay bs)) = line title (items pn true rows (decode lay bs')) <-> bs = bs'.
Proof.
  cbv zeta. intros Hf Ha L L'. split; [|intros ->; reflexivity].
  intros H. apply line_inj in H; [|exact Hf|lia|lia]. apply all_shown in H; [|exact Hf|lia|lia].
  apply (decode_inj ((n, k) :: l)); [exact Ha|exact L|symmetry; exact L'|exact H].
Qed.

Corollary string_iff pn title label s t n k l bs bs' :
  let rows := F label s :: t in let lay := (n, k) :: l in
  fits rows lay = true -> nfits rows lay = true ->
  layout_bits lay <= 8 * length bs -> layout_bits lay <= 8 * length bs' ->
  line title (items pn false rows (decode lay bs)) = line title (items pn false rows (decode lay bs')) <->
  named_fields (decode lay bs) = named_fields (decode lay bs').
Proof.
  cbv zeta. intros Hf Hn L L'. rewrite line_iff by assumption. split; [apply named_shown, Hn|].
  intros H. unfold decode in *. rewrite !shown_named by exact Hn. rewrite H. reflexivity.
Qed.

(** ** LLC and CDC *)

Lemma plain_reserved k bs bs' : text_complete k = true -> k <> KOther -> k <> KConfirmRKeyCont ->
  length bs = 44 -> length bs' = 44 ->
  llc_text true k (decode (llc_layout k) bs) = llc_text true k (decode (llc_layout k) bs') <-> bs = bs'.
Proof.
  intros T K K2 L L'. unfold llc_text.
  destruct k; try congruence; try discriminate; apply reserved_iff; rewrite ?L, ?L'; vm_compute; reflexivity.
Qed.

Lemma plain_string k bs bs' : k <> KOther -> k <> KConfirmRKeyCont ->
  length bs = 44 -> length bs' = 44 ->
  llc_text false k (decode (llc_layout k) bs) = llc_text false k (decode (llc_layout k) bs') <->
  named_fields (decode (llc_layout k) bs) = named_fields (decode (llc_layout k) bs').
Proof.
  intros K K2 L L'. unfold llc_text.
  destruct k; try congruence; apply string_iff; try (vm_compute; reflexivity); rewrite ?L, ?L'; apply Nat.leb_le; vm_compute; reflexivity.
Qed.

(** what is shown of Add Link and Add Link Continuation, as messages of their own *)
Definition add_link_seen : layout :=
  Eval vm_compute in (firstn 8 llc_add_link ++ firstn 6 (skipn 9 llc_add_link) ++ [("Reserved"%string, A 10)])%list.
Definition add_link_cont_seen : layout :=
  Eval vm_compute in (firstn 8 llc_add_link_cont ++ skipn 11 llc_add_link_cont)%list.

Ltac explode bs L :=
  repeat match type of L with length bs = S _ => destruct bs as [|? bs]; [discriminate L|]; cbn [length] in L; injection L as L end;
  match type of L with length bs = 0 => destruct bs; [|discriminate L] end.

Lemma decode_seg l : forall k bs o n, o + n <= length bs -> k + layout_bits l <= 8 * n ->
  decode_at l (8 * o + k) bs = decode_at l k (seg bs o n).
Proof.
  induction l as [|[name f] l IH]; intros k bs o n L B; [reflexivity|]. rewrite !decode_at_cons. cbn [layout_bits] in B.
  f_equal; [|rewrite <- Nat.add_assoc; apply IH; lia]. f_equal. destruct f as [w|w]; cbn [field_at kind_bits] in *.
  - f_equal. apply bits_seg; lia.
  - f_equal. rewrite Nat.mul_comm, Nat.div_add_l by discriminate. pose proof (Nat.div_mod k 8 ltac:(discriminate)).
    symmetry. apply (seg_seg bs o n (k / 8) w). lia.
Qed.

Lemma decode_moved l o o' n bs bs' : o + n <= length bs -> o' + n <= length bs' -> layout_bits l <= 8 * n ->
  seg bs o n = seg bs' o' n -> decode_at l (8 * o) bs = decode_at l (8 * o') bs'.
Proof.
  intros L L' B E. rewrite <- (Nat.add_0_r (8 * o)), <- (Nat.add_0_r (8 * o')), !(decode_seg l 0 _ _ n) by lia.
  rewrite E. reflexivity.
Qed.

Lemma add_link_seen_fields bs : length bs = 44 ->
  (firstn 8 (decode llc_add_link bs) ++ firstn 6 (skipn 9 (decode llc_add_link bs)) ++
   [("Reserved"%string, VB (bytes_at bs 36 8 ++ zeros 2)%list)])%list =
  decode add_link_seen (visible KAddLink bs ++ zeros 2).
Proof.
  intros L. set (a := firstn 8 llc_add_link). set (b := firstn 6 (skipn 9 llc_add_link)).
  set (v := (visible KAddLink bs ++ zeros 2)%list).
  change (decode add_link_seen v) with
    (decode_at a (8 * 0) v ++ decode_at b (8 * 10) v ++ [("Reserved"%string, VB (bytes_at v 34 10))])%list.
  change (firstn 8 (decode llc_add_link bs)) with (decode_at a (8 * 0) bs).
  change (firstn 6 (skipn 9 (decode llc_add_link bs))) with (decode_at b (8 * 12) bs).
  assert (LV : length v = 44).
  { unfold v, visible. rewrite !app_length, firstn_length, skipn_length, L. reflexivity. }
  f_equal; [|f_equal].
  - apply (decode_moved a 0 0 10); [lia|lia|apply Nat.leb_le; reflexivity|]. unfold v. explode bs L. reflexivity.
  - apply (decode_moved b 12 10 24); [lia|lia|apply Nat.leb_le; reflexivity|]. unfold v. explode bs L. reflexivity.
  - do 3 f_equal. unfold v. explode bs L. reflexivity.
Qed.

Lemma add_link_cont_seen_fields bs : length bs = 44 ->
  (firstn 8 (decode llc_add_link_cont bs) ++ skipn 11 (decode llc_add_link_cont bs))%list =
  decode add_link_cont_seen (visible KAddLinkCont bs).
Proof.
  intros L. set (a := firstn 8 llc_add_link_cont). set (b := skipn 11 llc_add_link_cont).
  set (v := visible KAddLinkCont bs).
  change (decode add_link_cont_seen v) with (decode_at a (8 * 0) v ++ decode_at b (8 * 8) v)%list.
  change (firstn 8 (decode llc_add_link_cont bs)) with (decode_at a (8 * 0) bs).
  change (skipn 11 (decode llc_add_link_cont bs)) with (decode_at b (8 * 24) bs).
  assert (LV : length v = 28).
  { unfold v, visible. rewrite !app_length, firstn_length, skipn_length, L. reflexivity. }
  f_equal.
  - apply (decode_moved a 0 0 8); [lia|lia|apply Nat.leb_le; reflexivity|]. unfold v. explode bs L. reflexivity.
  - apply (decode_moved b 24 8 20); [lia|lia|apply Nat.leb_le; reflexivity|]. unfold v. explode bs L. reflexivity.
Qed.

Lemma add_link_cont_told bs : length bs = 44 ->
  told KAddLinkCont bs = named_fields (decode add_link_cont_seen (visible KAddLinkCont bs)).
Proof. intros L. rewrite <- add_link_cont_seen_fields by exact L. reflexivity. Qed.

(** *** What ParseLLC makes of a payload *)

Lemma payload_parsed m buf msg : slice_ok m buf -> ParseLLC m buf = ([], Done msg) ->
  let bs := s_bytes m buf in let k := payload_kind bs in
  llc_kind_of msg = k /\ k <> KConfirmRKeyCont /\ (k <> KOther -> length bs = 44) /\
  LLC_Reserved msg = (match k with
    | KAddLink => line (llc_title k) (items no_proto true add_link_reserved_rows (decode add_link_seen (visible k bs ++ zeros 2)))
    | KAddLinkCont => line (llc_title k) (items no_proto true add_link_cont_shown_rows (decode add_link_cont_seen (visible k bs)))
    | _ => llc_text true k (decode (llc_layout k) bs) end) /\
  LLC_String msg = (match k with
    | KAddLinkCont => line (llc_title k) (items no_proto false add_link_cont_shown_rows (decode add_link_cont_seen (visible k bs)))
    | _ => llc_text false k (decode (llc_layout k) bs) end).
Proof.
  intros Hok E bs k.
  assert (K : k <> KConfirmRKeyCont).
  { intros K. destruct (LlcMessage.ParseLLC_panics m buf Hok) as [P _]. fold bs in P.
    rewrite (proj2 P) in E; [discriminate|]. unfold k, payload_kind in K.
    destruct (Nat.eqb_spec (length bs) 44) as [L|L]; [|discriminate]. split; [exact L|]. apply LlcMessage.kind_rkeycont. exact K. }
  destruct (LlcMessage.ParseLLC_dispatch m buf Hok K) as (msg' & E' & Hk). rewrite E in E'. injection E' as <-.
  fold bs in Hk. fold (payload_kind bs) in Hk. fold k in Hk.
  assert (L44 : k <> KOther -> length bs = 44).
  { unfold k, payload_kind. destruct (Nat.eqb_spec (length bs) 44) as [L|L]; [auto|congruence]. }
  split; [exact Hk|]. split; [exact K|]. split; [exact L44|].
  destruct (llc_kind_of msg) eqn:KM; rewrite <- Hk in *.
  all: try (specialize (L44 ltac:(discriminate));
    assert (KT : kind_of_type (bits bs 0 8) = k) by (unfold k, payload_kind; rewrite L44; reflexivity); rewrite <- Hk in KT;
    destruct (TextRest.ParseLLC_text m buf msg Hok L44) as [S R]; [fold bs; rewrite KT; reflexivity|exact E|];
    fold bs in S, R; rewrite KT in S, R; split; assumption).
  - specialize (L44 ltac:(discriminate)).
    assert (KT : kind_of_type (bits bs 0 8) = KAddLink) by (rewrite Hk; unfold k, payload_kind; rewrite L44; reflexivity).
    destruct (LlcMessage.ParseLLC_decode m buf Hok L44) as (msg' & E' & _ & Hv & _); [fold bs; rewrite KT; discriminate|].
    rewrite E in E'. injection E' as <-. fold bs in Hv. rewrite KT in Hv. destruct msg as [| a | | | | | | | |]; try discriminate KM.
    cbn [llc_layout llc_view] in Hv.
    destruct (TextRest.LLC_add_link_text a (TextRest.ParseLLC_wf m buf _ Hok E)) as [S R]. split.
    + rewrite R. f_equal. f_equal. rewrite <- add_link_seen_fields by exact L44.
      unfold add_link_reserved_fields. rewrite Hv. do 4 f_equal. f_equal.
      rewrite LlcMessage.ParseLLC_run in E by exact Hok.
      change (LlcMessage.payload_kind (s_bytes m buf)) with k in E. rewrite <- Hk in E.
      destruct (LlcMessage.AddLink_stale m buf AddLink_zero Hok) as (a' & E' & Hr);
        [apply (LlcMessage.llc_reachable_wf _ (llc_reach_fresh KAddLink))|rewrite <- L44; symmetry; apply s_bytes_length, Hok|].
      cbn [llc_parser] in E. unfold ParseAddLink in E. rewrite E' in E. cbn in E. injection E as <-. exact Hr.
    + rewrite S. cbn [llc_view]. rewrite Hv. reflexivity.
  - specialize (L44 ltac:(discriminate)).
    assert (KT : kind_of_type (bits bs 0 8) = KAddLinkCont) by (rewrite Hk; unfold k, payload_kind; rewrite L44; reflexivity).
    destruct (LlcMessage.ParseLLC_decode m buf Hok L44) as (msg' & E' & _ & Hv & _); [fold bs; rewrite KT; discriminate|].
    rewrite E in E'. injection E' as <-. fold bs in Hv. rewrite KT in Hv. destruct msg as [| | a | | | | | | |]; try discriminate KM.
    cbn [llc_layout llc_view] in Hv.
    destruct (TextRest.LLC_add_link_cont_text a (TextRest.ParseLLC_wf m buf _ Hok E)) as [S R].
    rewrite R, S. rewrite <- add_link_cont_seen_fields by exact L44. unfold add_link_cont_shown_fields. rewrite Hv. split; reflexivity.
  - destruct msg; try discriminate KM. split; reflexivity.
Qed.

Lemma app_tail {X} (z a b : list X) : (a ++ z)%list = (b ++ z)%list <-> a = b.
Proof. split; [apply app_inv_tail|congruence]. Qed.

Lemma vis_length bs : length bs = 44 ->
  length (visible KAddLink bs) = 42 /\ length (visible KAddLinkCont bs) = 28.
Proof. intros L. unfold visible. rewrite !app_length, !firstn_length, !skipn_length, L. split; reflexivity. Qed.

Theorem reserved_texts m m' buf buf' msg msg' : slice_ok m buf -> slice_ok m' buf' ->
  ParseLLC m buf = ([], Done msg) -> ParseLLC m' buf' = ([], Done msg') ->
  LLC_Reserved msg = LLC_Reserved msg' <-> same_payload (s_bytes m buf) (s_bytes m' buf').
Proof.
  intros Hok Hok' E E'. unfold same_payload.
  destruct (payload_parsed m buf msg Hok E) as (_ & K & L & R & _).
  destruct (payload_parsed m' buf' msg' Hok' E') as (_ & _ & L' & R' & _).
  set (bs := s_bytes m buf) in *. set (bs' := s_bytes m' buf') in *.
  set (k := payload_kind bs) in *. set (k' := payload_kind bs') in *. clearbody k k' bs bs'.
  rewrite R, R'. clear R R' E E'.
  assert (KK : match k with
    | KAddLink => line (llc_title k) (items no_proto true add_link_reserved_rows (decode add_link_seen (visible k bs ++ zeros 2)))
    | KAddLinkCont => line (llc_title k) (items no_proto true add_link_cont_shown_rows (decode add_link_cont_seen (visible k bs)))
    | _ => llc_text true k (decode (llc_layout k) bs) end = match k' with
    | KAddLink => line (llc_title k') (items no_proto true add_link_reserved_rows (decode add_link_seen (visible k' bs' ++ zeros 2)))
    | KAddLinkCont => line (llc_title k') (items no_proto true add_link_cont_shown_rows (decode add_link_cont_seen (visible k' bs')))
    | _ => llc_text true k' (decode (llc_layout k') bs') end -> k = k').
  { intros H. destruct k, k'; try reflexivity; discriminate H. }
  split.
  - intros H. pose proof (KK H) as Ek. subst k'. split; [reflexivity|].
    destruct k; try (specialize (L ltac:(discriminate)); specialize (L' ltac:(discriminate));
      apply plain_reserved in H; [exact H|reflexivity|discriminate|discriminate|exact L|exact L']); try congruence.
    + specialize (L ltac:(discriminate)). specialize (L' ltac:(discriminate)).
      destruct (vis_length bs L) as [V _]. destruct (vis_length bs' L') as [V' _].
      apply reserved_iff in H; [|reflexivity|reflexivity|rewrite app_length, V; reflexivity|rewrite !app_length, V, V'; reflexivity].
      apply app_tail in H. exact H.
    + specialize (L ltac:(discriminate)). specialize (L' ltac:(discriminate)).
      destruct (vis_length bs L) as [_ V]. destruct (vis_length bs' L') as [_ V'].
      apply reserved_iff in H; [exact H|reflexivity|reflexivity|rewrite V; reflexivity|rewrite V, V'; reflexivity].
    + reflexivity.
  - intros [<- H]. destruct k; cbn [visible] in *; rewrite ?H; reflexivity.
Qed.

Theorem string_texts m m' buf buf' msg msg' : slice_ok m buf -> slice_ok m' buf' ->
  ParseLLC m buf = ([], Done msg) -> ParseLLC m' buf' = ([], Done msg') ->
  let bs := s_bytes m buf in let bs' := s_bytes m' buf' in
  LLC_String msg = LLC_String msg' <->
  payload_kind bs = payload_kind bs' /\ told (payload_kind bs) bs = told (payload_kind bs) bs'.
Proof.
  intros Hok Hok' E E' bs bs'.
  destruct (payload_parsed m buf msg Hok E) as (_ & K & L & _ & S).
  destruct (payload_parsed m' buf' msg' Hok' E') as (_ & _ & L' & _ & S').
  fold bs in K, L, S. fold bs' in L', S'.
  set (k := payload_kind bs) in *. set (k' := payload_kind bs') in *. clearbody k k' bs bs'.
  rewrite S, S'. clear S S' E E'.
  assert (P : k = k' -> (match k with
    | KAddLinkCont => line (llc_title k) (items no_proto false add_link_cont_shown_rows (decode add_link_cont_seen (visible k bs)))
    | _ => llc_text false k (decode (llc_layout k) bs) end = match k with
    | KAddLinkCont => line (llc_title k) (items no_proto false add_link_cont_shown_rows (decode add_link_cont_seen (visible k bs')))
    | _ => llc_text false k (decode (llc_layout k) bs') end <-> told k bs = told k bs')).
  { intros <-. assert (O : k = KOther \/ k <> KOther) by (destruct k; ((left; reflexivity) || (right; discriminate))). destruct O as [->|O]; [split; reflexivity|].
    specialize (L O). specialize (L' O). destruct k; try congruence;
      try (apply (plain_string _ bs bs'); assumption || discriminate).
    destruct (vis_length bs L) as [_ V]. destruct (vis_length bs' L') as [_ V'].
    rewrite !add_link_cont_told by assumption. apply string_iff; try (vm_compute; reflexivity); rewrite ?V, ?V'; apply Nat.leb_le; reflexivity. }
  split.
  - intros H. assert (Ek : k = k') by (destruct k, k'; try reflexivity; discriminate H). split; [exact Ek|].
    apply P; [exact Ek|]. rewrite <- Ek in H. exact H.
  - intros [Ek H]. apply (P Ek) in H. rewrite <- Ek. exact H.
Qed.

(** ** Base Transport Header *)

Lemma decode_front l n bs : n <= length bs -> layout_bits l <= 8 * n -> decode l bs = decode l (bytes_at bs 0 n).
Proof.
  intros L B. unfold decode. change 0 with (8 * 0).
  apply (decode_moved l 0 0 n); [lia|unfold bytes_at; rewrite firstn_length, skipn_length; lia|exact B|].
  symmetry. apply (seg_seg bs 0 n 0 n). lia.
Qed.

Theorem bth_reserved_texts m m' old old' buf buf' b b' : slice_ok m buf -> slice_ok m' buf' ->
  12 <= s_len buf -> 12 <= s_len buf' ->
  BTH_Parse m old buf = ([], Done b) -> BTH_Parse m' old' buf' = ([], Done b') ->
  BTH_Reserved b = BTH_Reserved b' <-> bytes_at (s_bytes m buf) 0 12 = bytes_at (s_bytes m' buf') 0 12.
Proof.
  intros Hok Hok' L L' E E'. pose proof (s_bytes_length m buf Hok) as Lb. pose proof (s_bytes_length m' buf' Hok') as Lb'.
  destruct (TextRest.BTH_parsed_text m buf old b Hok L E) as [_ R].
  destruct (TextRest.BTH_parsed_text m' buf' old' b' Hok' L' E') as [_ R'].
  rewrite R, R', (decode_front bth 12 (s_bytes m buf)), (decode_front bth 12 (s_bytes m' buf')) by (try lia; apply Nat.leb_le; reflexivity).
  unfold bth_text. apply reserved_iff; try reflexivity; unfold bytes_at; rewrite !firstn_length, !skipn_length; [|lia].
  rewrite Nat.min_l by lia. reflexivity.
Qed.

Definition bth_kinds : list kind := Eval vm_compute in map snd (filter (fun nk => negb (String.eqb (fst nk) "Res")) bth).

Lemma bth_dom bs : rdom bth_rows bth_kinds (filter not_res (decode bth bs)).
Proof. cbn. repeat split; apply bits_lt. Qed.

Lemma bth_named_shown bs bs' : shown false bth_rows (filter not_res (decode bth bs)) = shown false bth_rows (filter not_res (decode bth bs')) <->
  filter not_res (decode bth bs) = filter not_res (decode bth bs').
Proof.
  split; [|intros ->; reflexivity]. intros H. apply pairs_eq; [reflexivity|exact H].
Qed.

Theorem bth_string_texts m m' old old' buf buf' b b' : slice_ok m buf -> slice_ok m' buf' ->
  12 <= s_len buf -> 12 <= s_len buf' ->
  BTH_Parse m old buf = ([], Done b) -> BTH_Parse m' old' buf' = ([], Done b') ->
  BTH_String b = BTH_String b' <->
  filter not_res (decode bth (s_bytes m buf)) = filter not_res (decode bth (s_bytes m' buf')).
Proof.
  intros Hok Hok' L L' E E'.
  destruct (TextRest.BTH_parsed_text m buf old b Hok L E) as [S _].
  destruct (TextRest.BTH_parsed_text m' buf' old' b' Hok' L' E') as [S' _].
  rewrite S, S'. unfold bth_text. split; [|intros ->; reflexivity].
  intros H. apply line_joined in H; [|discriminate|discriminate].
  eapply items_inj in H; [|apply bth_dom|apply bth_dom|right; right; reflexivity|right; right; reflexivity].
  apply bth_named_shown, H.
Qed.

(** ** Global routing header *)

Lemma one_item_lacks s c : (forall x, In x (list_ascii_of_string s) -> x <> c) -> lacks c s.
Proof.
  induction s as [|x s IH]; intros H; [exact I|]. split; [apply H; left; reflexivity|].
  apply IH. intros y Hy. apply H. right. exact Hy.
Qed.

Lemma one_item_clean s : one_item s -> clean s.
Proof. intros H. repeat split; apply one_item_lacks; intros x Hx; apply (H x Hx). Qed.

Definition grh_a : layout := Eval vm_compute in firstn 4 grh.
Definition grh_b : layout := Eval vm_compute in skipn 5 grh.
Definition grh_rows_a : list row := Eval vm_compute in firstn 4 grh_rows.
Definition grh_rows_b : list row := Eval vm_compute in skipn 5 grh_rows.

Lemma grh_split pn bs : items pn false grh_rows (decode grh bs) =
  (items pn false grh_rows_a (decode_at grh_a (8 * 0) bs) ++ append "Next Header: " (next_text pn (bits bs 48 8)) ::
   items pn false grh_rows_b (decode_at grh_b (8 * 7) bs))%list.
Proof. reflexivity. Qed.

Lemma grh_parts bs bs' : 40 <= length bs -> 40 <= length bs' ->
  (decode_at grh_a (8 * 0) bs = decode_at grh_a (8 * 0) bs' <-> bytes_at bs 0 6 = bytes_at bs' 0 6) /\
  (decode_at grh_b (8 * 7) bs = decode_at grh_b (8 * 7) bs' <-> bytes_at bs 7 33 = bytes_at bs' 7 33).
Proof.
  intros L L'.
  assert (P : forall l o n, o + n <= 40 -> layout_bits l = 8 * n -> aligned_at l 0 = true ->
    (decode_at l (8 * o) bs = decode_at l (8 * o) bs' <-> bytes_at bs o n = bytes_at bs' o n)).
  { intros l o n B Bl Al. rewrite <- (Nat.add_0_r (8 * o)), !(decode_seg l 0 _ o n) by lia.
    change (decode_at l 0) with (decode l). split; [|intros H; unfold bytes_at in H; unfold seg; rewrite H; reflexivity].
    intros H. apply decode_inj in H; [exact H|exact Al|rewrite seg_length by lia; exact Bl|rewrite !seg_length by lia; reflexivity]. }
  split; apply P; try reflexivity; apply Nat.leb_le; reflexivity.
Qed.

Theorem grh_texts pn m m' old old' buf buf' g g' : (forall n, one_item (pn n)) -> slice_ok m buf -> slice_ok m' buf' ->
  40 <= s_len buf -> 40 <= s_len buf' ->
  GRH_Parse m old buf = ([], Done g) -> GRH_Parse m' old' buf' = ([], Done g') ->
  GRH_String pn g = GRH_String pn g' <-> same_grh pn (s_bytes m buf) (s_bytes m' buf').
Proof.
  intros Hp Hok Hok' L L' E E'. pose proof (s_bytes_length m buf Hok) as Lb. pose proof (s_bytes_length m' buf' Hok') as Lb'.
  destruct (TextRest.GRH_parsed_text pn m buf old g Hok L E) as [S _].
  destruct (TextRest.GRH_parsed_text pn m' buf' old' g' Hok' L' E') as [S' _].
  rewrite S, S'. set (bs := s_bytes m buf) in *. set (bs' := s_bytes m' buf') in *.
  rewrite <- Lb in L. rewrite <- Lb' in L'. clearbody bs bs'.
  destruct (grh_parts bs bs' L L') as [Pa Pb]. unfold same_grh, grh_text. rewrite !grh_split. split.
  - intros H. apply line_joined in H; [|discriminate|discriminate]. rewrite !joined_app in H. cbn [joined] in H.
    assert (Z : stops nl) by (right; right; reflexivity).
    eapply (items_inj pn false grh_rows_a) in H;
      [|apply fits_rdom; [reflexivity|]|apply fits_rdom; [reflexivity|]|left; reflexivity|left; reflexivity];
      try (change (8 * 0 + layout_bits grh_a) with 48; lia).
    destruct H as [Ha H]. rewrite !sapp_assoc in H. do 2 apply sapp_cancel in H.
    assert (C : forall n, clean (next_text pn n)).
    { intros n. unfold next_text. destruct (n =? 27)%N; [repeat split; discriminate|]. apply one_item_clean, Hp. }
    apply cancel in H; try apply C; try (apply joined_stops; exact Z). destruct H as [Hn H].
    eapply (items_inj pn false grh_rows_b) in H; [|apply fits_rdom; [reflexivity|]|apply fits_rdom; [reflexivity|]|exact Z|exact Z];
      try (change (8 * 7 + layout_bits grh_b) with (8 * 40); lia).
    destruct H as [Hb _]. split; [|split; [exact Hn|]].
    + apply Pa. apply pairs_eq; [reflexivity|exact Ha].
    + apply Pb. apply pairs_eq; [reflexivity|exact Hb].
  - intros (Ha & Hn & Hb). apply Pa in Ha. apply Pb in Hb. rewrite Ha, Hn, Hb. reflexivity.
Qed.

(** ** Packets *)

Lemma packet_v2_parts m buf r : slice_ok m buf -> ParseRoCEv2 m buf = ([], Done r) ->
  let bs := s_bytes m buf in
  16 <= length bs /\
  (exists s, slice_ok m s /\ s_len s = 12 /\ s_bytes m s = bytes_at bs 0 12 /\ BTH_Parse m BTH_zero s = ([], Done (r_BTH r))) /\
  (exists p, slice_ok m p /\ s_bytes m p = payload_of 12 bs /\ ParseLLC m p = ([], Done (r_LLC r))).
Proof.
  intros Hok E bs. pose proof (s_bytes_length m buf Hok) as Lb. fold bs in Lb. pose proof (len_le_cap _ _ Hok) as Hcap.
  destruct (le_lt_dec 16 (s_len buf)) as [L|L]; [|rewrite RoceParse.RoCEv2_short in E by assumption; discriminate].
  rewrite (RoceParse.RoCEv2_run m buf Hok L) in E. apply ClcMessage.bind_inv in E. destruct E as (l1 & msg & l2 & E & R & El).
  unfold ret in R. injection R as <- <-. destruct l1; [|discriminate].
  split; [lia|]. split.
  - exists (sub buf 0 12). split; [apply RoceParse.sub_ok; [exact Hok|lia]|]. split; [reflexivity|].
    split; [apply RoceParse.sub_bytes; [exact Hok|lia]|].
    rewrite RoceParse.BTH_ok; [|apply RoceParse.sub_ok; [exact Hok|lia]|cbn; lia].
    rewrite RoceParse.sub_bytes by (assumption || lia). reflexivity.
  - exists (RoceParse.payload buf 12). unfold RoceParse.payload in *. split; [apply RoceParse.sub_ok; [exact Hok|lia]|].
    split; [|exact E]. unfold payload_of. rewrite Lb. apply RoceParse.sub_bytes; [exact Hok|lia].
Qed.

Lemma packet_v1_parts m buf r : slice_ok m buf -> ParseRoCEv1 m buf = ([], Done r) ->
  let bs := s_bytes m buf in
  56 <= length bs /\
  (exists g s, r_GRH r = Some g /\ slice_ok m s /\ s_len s = 40 /\ s_bytes m s = bytes_at bs 0 40 /\ GRH_Parse m GRH_zero s = ([], Done g)) /\
  (exists s, slice_ok m s /\ s_len s = 12 /\ s_bytes m s = bytes_at bs 40 12 /\ BTH_Parse m BTH_zero s = ([], Done (r_BTH r))) /\
  (exists p, slice_ok m p /\ s_bytes m p = payload_of 52 bs /\ ParseLLC m p = ([], Done (r_LLC r))).
Proof.
  intros Hok E bs. pose proof (s_bytes_length m buf Hok) as Lb. fold bs in Lb. pose proof (len_le_cap _ _ Hok) as Hcap.
  destruct (le_lt_dec 56 (s_len buf)) as [L|L]; [|rewrite RoceParse.RoCEv1_short in E by assumption; discriminate].
  rewrite (RoceParse.RoCEv1_run m buf Hok L) in E. apply ClcMessage.bind_inv in E. destruct E as (l1 & msg & l2 & E & R & El).
  unfold ret in R. injection R as <- <-. destruct l1; [|discriminate].
  split; [lia|]. split; [|split].
  - eexists. exists (sub buf 0 40). split; [reflexivity|]. split; [apply RoceParse.sub_ok; [exact Hok|lia]|]. split; [reflexivity|].
    split; [apply RoceParse.sub_bytes; [exact Hok|lia]|].
    unfold GRH_Parse. rewrite RoceParse.sub_bytes by (assumption || lia). reflexivity.
  - exists (sub buf 40 12). split; [apply RoceParse.sub_ok; [exact Hok|lia]|]. split; [reflexivity|].
    split; [apply RoceParse.sub_bytes; [exact Hok|lia]|].
    rewrite RoceParse.BTH_ok; [|apply RoceParse.sub_ok; [exact Hok|lia]|cbn; lia].
    rewrite RoceParse.sub_bytes by (assumption || lia). reflexivity.
  - exists (RoceParse.payload buf 52). unfold RoceParse.payload in *. split; [apply RoceParse.sub_ok; [exact Hok|lia]|].
    split; [|exact E]. unfold payload_of. rewrite Lb. apply RoceParse.sub_bytes; [exact Hok|lia].
Qed.

Lemma bytes_all (l : list byte) n : length l = n -> bytes_at l 0 n = l.
Proof. intros H. unfold bytes_at. apply firstn_all2. cbn [skipn]. lia. Qed.

Theorem packet_v2_texts m m' buf buf' r r' : slice_ok m buf -> slice_ok m' buf' ->
  ParseRoCEv2 m buf = ([], Done r) -> ParseRoCEv2 m' buf' = ([], Done r') ->
  let bs := s_bytes m buf in let bs' := s_bytes m' buf' in
  (BTH_Reserved (r_BTH r) = BTH_Reserved (r_BTH r') /\ LLC_Reserved (r_LLC r) = LLC_Reserved (r_LLC r')) <->
  (bytes_at bs 0 12 = bytes_at bs' 0 12 /\ same_payload (payload_of 12 bs) (payload_of 12 bs')).
Proof.
  intros Hok Hok' E E' bs bs'.
  destruct (packet_v2_parts m buf r Hok E) as (L & (s & So & Sl & Sb & Sp) & (p & Po & Pb & Pp)).
  destruct (packet_v2_parts m' buf' r' Hok' E') as (L' & (s' & So' & Sl' & Sb' & Sp') & (p' & Po' & Pb' & Pp')).
  rewrite (bth_reserved_texts m m' _ _ s s' _ _ So So' ltac:(lia) ltac:(lia) Sp Sp').
  rewrite (reserved_texts m m' p p' _ _ Po Po' Pp Pp'). rewrite Sb, Sb', Pb, Pb'.
  rewrite !(bytes_all (bytes_at _ _ _) 12) by (apply bytes_at_length; lia). reflexivity.
Qed.

Theorem packet_v1_texts pn m m' buf buf' r r' g g' : (forall n, one_item (pn n)) -> slice_ok m buf -> slice_ok m' buf' ->
  ParseRoCEv1 m buf = ([], Done r) -> ParseRoCEv1 m' buf' = ([], Done r') -> r_GRH r = Some g -> r_GRH r' = Some g' ->
  let bs := s_bytes m buf in let bs' := s_bytes m' buf' in
  (GRH_Reserved pn g = GRH_Reserved pn g' /\
   BTH_Reserved (r_BTH r) = BTH_Reserved (r_BTH r') /\ LLC_Reserved (r_LLC r) = LLC_Reserved (r_LLC r')) <->
  (same_grh pn (bytes_at bs 0 40) (bytes_at bs' 0 40) /\
   bytes_at bs 40 12 = bytes_at bs' 40 12 /\ same_payload (payload_of 52 bs) (payload_of 52 bs')).
Proof.
  intros Hp Hok Hok' E E' Eg Eg' bs bs'.
  destruct (packet_v1_parts m buf r Hok E) as (L & (g0 & t & G & To & Tl & Tb & Tp) & (s & So & Sl & Sb & Sp) & (p & Po & Pb & Pp)).
  destruct (packet_v1_parts m' buf' r' Hok' E') as (L' & (g0' & t' & G' & To' & Tl' & Tb' & Tp') & (s' & So' & Sl' & Sb' & Sp') & (p' & Po' & Pb' & Pp')).
  rewrite Eg in G. injection G as <-. rewrite Eg' in G'. injection G' as <-.
  unfold GRH_Reserved. rewrite (grh_texts pn m m' _ _ t t' _ _ Hp To To' ltac:(lia) ltac:(lia) Tp Tp').
  rewrite (bth_reserved_texts m m' _ _ s s' _ _ So So' ltac:(lia) ltac:(lia) Sp Sp').
  rewrite (reserved_texts m m' p p' _ _ Po Po' Pp Pp'). rewrite Tb, Tb', Sb, Sb', Pb, Pb'.
  rewrite !(bytes_all (bytes_at _ _ 12) 12) by (apply bytes_at_length; lia). reflexivity.
Qed.

(** two different packets of which all texts are the same *)
Theorem packet_witness : exists m m' buf r r', slice_ok m buf /\ slice_ok m' buf /\
  ParseRoCEv2 m buf = ([], Done r) /\ ParseRoCEv2 m' buf = ([], Done r') /\
  s_bytes m buf <> s_bytes m' buf /\ llc_kind_of (r_LLC r) = KAddLinkCont /\
  BTH_Reserved (r_BTH r) = BTH_Reserved (r_BTH r') /\ LLC_Reserved (r_LLC r) = LLC_Reserved (r_LLC r') /\
  BTH_String (r_BTH r) = BTH_String (r_BTH r') /\ LLC_String (r_LLC r) = LLC_String (r_LLC r').
Proof.
  exists (Samples.mem1 (zeros 12 ++ [x03; x2c] ++ zeros 46)), (Samples.mem1 (zeros 12 ++ [x03; x2c] ++ zeros 6 ++ repeat xff 16 ++ zeros 24)),
    (Samples.slice1 (zeros 60)).
  do 2 eexists. split; [apply (Samples.slice1_ok (zeros 12 ++ [x03; x2c] ++ zeros 46))|].
  split; [apply (Samples.slice1_ok (zeros 12 ++ [x03; x2c] ++ zeros 6 ++ repeat xff 16 ++ zeros 24))|].
  split; [vm_compute; reflexivity|]. split; [vm_compute; reflexivity|].
  split; [vm_compute; discriminate|]. repeat split; vm_compute; reflexivity.
Qed.
