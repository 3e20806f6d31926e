(** * TextFacts: consequences for EIDs, eyecatchers, code names and sizes. Proofs only. *)

From Coq Require Import NArith ZArith Bool String Ascii Arith List Lia.
From Coq Require Import ZifyBool ZifyNat ZifyN.
From Coq Require DecimalString HexadecimalString DecimalN HexadecimalN DecimalPos HexadecimalPos.
From Verif Require Import GoBase GoFmt ClcModel LlcModel RoceModel Slices Wire WireLemmas ClcView LlcView
  ClcParse ClcFixed ClcMessage Dumps RoceText Names Opcodes Show TextLemmas.
From Verif Require Keep.
Import ListNotations.
Local Open Scope nat_scope.

(** ** EIDs *)

Lemma before_nul_split e : exists r, e = before_nul e ++ r /\ (r = [] \/ exists s, r = x00 :: s).
Proof.
  induction e as [|b e IH]; [exists []; split; [reflexivity|left; reflexivity]|].
  cbn. destruct (Byte.byte_eq_dec b x00) as [->|H].
  - exists (x00 :: e). split; [reflexivity|right; eexists; reflexivity].
  - destruct IH as (r & E & Hr). exists r. split; [cbn; f_equal; exact E|exact Hr].
Qed.

Lemma before_nul_no e : ~ In x00 (before_nul e).
Proof.
  induction e as [|b e IH]; cbn; [tauto|]. destruct (Byte.byte_eq_dec b x00); cbn; [tauto|]. intuition.
Qed.

Lemma drop_blanks_split e : exists k, e = repeat x20 k ++ drop_blanks e /\
  (forall s, drop_blanks e <> x20 :: s).
Proof.
  induction e as [|b e IH]; [exists 0; split; [reflexivity|discriminate]|].
  cbn. destruct (Byte.byte_eq_dec b x20) as [->|H].
  - destruct IH as (k & E & Hr). exists (S k). split; [cbn; f_equal; exact E|exact Hr].
  - exists 0. split; [reflexivity|]. congruence.
Qed.

Lemma rev_repeat {A} (x : A) k : rev (repeat x k) = repeat x k.
Proof.
  induction k as [|k IH]; [reflexivity|]. cbn. rewrite IH. symmetry.
  rewrite (repeat_cons k x). reflexivity.
Qed.

Lemma EID_spec e : exists p k r,
  EID_String e = bytes_string p /\ e = p ++ repeat x20 k ++ r /\ ~ In x00 p /\
  (forall s, p <> s ++ [x20]) /\ (r = [] \/ exists s, r = x00 :: s).
Proof.
  rewrite EID_text. unfold padded_text.
  destruct (before_nul_split e) as (r & E & Hr).
  destruct (drop_blanks_split (rev (before_nul e))) as (k & D & Hd).
  exists (rev (drop_blanks (rev (before_nul e)))), k, r.
  assert (S : before_nul e = rev (drop_blanks (rev (before_nul e))) ++ repeat x20 k).
  { rewrite <- (rev_repeat x20 k), <- rev_app_distr, <- D. symmetry. apply rev_involutive. }
  split; [reflexivity|]. split; [rewrite app_assoc, <- S; exact E|].
  split.
  { intros HI. apply (before_nul_no e). rewrite S. apply in_or_app. left. exact HI. }
  split; [|exact Hr].
  intros s Hs. apply (Hd (rev s)). rewrite <- (rev_involutive (drop_blanks _)), Hs, rev_app_distr. reflexivity.
Qed.

(** these conditions leave no choice *)
Lemma EID_unique e p k r p' k' r' :
  e = p ++ repeat x20 k ++ r -> ~ In x00 p -> (forall s, p <> s ++ [x20]) -> (r = [] \/ exists s, r = x00 :: s) ->
  e = p' ++ repeat x20 k' ++ r' -> ~ In x00 p' -> (forall s, p' <> s ++ [x20]) -> (r' = [] \/ exists s, r' = x00 :: s) ->
  p = p'.
Proof.
  assert (B : forall p k r, ~ In x00 p -> (r = [] \/ exists s, r = x00 :: s) ->
    before_nul (p ++ repeat x20 k ++ r) = p ++ repeat x20 k).
  { clear. intros p k r Hp Hr. induction p as [|b p IH]; cbn.
    - clear Hp. induction k as [|k IH]; cbn; [destruct Hr as [->|[s ->]]; reflexivity|].
      f_equal. exact IH.
    - destruct (Byte.byte_eq_dec b x00) as [->|]; [exfalso; apply Hp; left; reflexivity|].
      f_equal. apply IH. intros H. apply Hp. right. exact H. }
  assert (D : forall p k, (forall s, p <> s ++ [x20]) -> rev (drop_blanks (rev (p ++ repeat x20 k))) = p).
  { clear. intros p k Hp. rewrite rev_app_distr, rev_repeat. induction k as [|k IH]; cbn; [|exact IH].
    destruct (rev p) as [|b q] eqn:E; cbn.
    - apply (f_equal (@rev _)) in E. rewrite rev_involutive in E. symmetry. exact E.
    - destruct (Byte.byte_eq_dec b x20) as [->|].
      + exfalso. apply (Hp (rev q)). apply (f_equal (@rev _)) in E. rewrite rev_involutive in E. exact E.
      + change (rev q ++ [b]) with (rev (b :: q)). rewrite <- E. apply rev_involutive. }
  intros -> A1 A2 A3 E B1 B2 B3.
  rewrite <- (D p k A2), <- (D p' k' B2), <- (B p k r A1 A3), <- (B p' k' r' B1 B3), E. reflexivity.
Qed.

Lemma bytes_string_inj a : forall b, bytes_string a = bytes_string b -> a = b.
Proof.
  induction a as [|x a IH]; intros [|y b] H; cbn in H; try discriminate; [reflexivity|].
  injection H as H1 H2. f_equal; [|apply IH; exact H2].
  apply (f_equal byte_of_ascii) in H1. rewrite !byte_of_ascii_of_byte in H1. exact H1.
Qed.

(** ** Eyecatcher and TCP option *)

Lemma bytes_eq_dec a b : bytes_eq a b = if list_eq_dec Byte.byte_eq_dec a b then true else false.
Proof.
  destruct (list_eq_dec _ a b) as [->|H]; [apply bytes_eq_true; reflexivity|].
  destruct (bytes_eq a b) eqn:E; [apply bytes_eq_true in E; contradiction|reflexivity].
Qed.

Lemma HasEyecatcher_exact m buf : slice_ok m buf ->
  let back := bytes_at (m (s_arr buf)) (s_off buf) (s_cap buf) in
  (4 <= s_cap buf -> HasEyecatcher m buf = ([], Done (is_eyecatcher (bytes_at back 0 4)))) /\
  (s_cap buf < 4 -> HasEyecatcher m buf = ([], Panicked)) /\
  (4 <= s_len buf -> bytes_at back 0 4 = bytes_at (s_bytes m buf) 0 4).
Proof.
  intros Hok back. unfold HasEyecatcher, EyecatcherLen.
  pose proof (len_le_cap _ _ Hok) as HC. split; [|split].
  - intros H. unfold upto, reslice. replace ((0 <=? 4)%nat && (4 <=? s_cap buf)%nat)%bool with true by lia.
    cbn [bind ret fst snd app].
    match goal with |- context [s_bytes m ?s] => assert (E : s_bytes m s = bytes_at back 0 4) end.
    { unfold s_bytes, back, bytes_at. cbn [s_arr s_off s_len skipn]. rewrite firstn_firstn, Nat.min_l by lia.
      rewrite Nat.add_0_r. reflexivity. }
    rewrite E. unfold is_eyecatcher. rewrite !bytes_eq_dec.
    destruct (list_eq_dec _ _ _); [reflexivity|]. cbn [bind ret fst snd app].
    destruct (list_eq_dec _ _ _); reflexivity.
  - intros H. unfold upto, reslice. replace ((0 <=? 4)%nat && (4 <=? s_cap buf)%nat)%bool with false by lia. reflexivity.
  - intros H. unfold back, s_bytes, bytes_at. cbn [skipn]. rewrite !firstn_firstn, !Nat.min_l by lia. reflexivity.
Qed.

Lemma CheckSMCOption_exact opts : CheckSMCOption opts = true <->
  exists o, In o opts /\ OptionType o = 254%N /\ OptionLength o = 6%N /\ OptionData o = [xe2; xd4; xc3; xd9].
Proof.
  induction opts as [|o opts IH]; cbn [CheckSMCOption In].
  - split; [discriminate|]. intros (? & [] & _).
  - destruct (_ && _)%bool eqn:E.
    + split; [|reflexivity]. intros _. apply andb_true_iff in E. destruct E as [E E3].
      apply andb_true_iff in E. destruct E as [E1 E2].
      exists o. split; [left; reflexivity|]. split; [apply N.eqb_eq, E1|]. split; [apply N.eqb_eq, E2|].
      apply bytes_eq_true, E3.
    + rewrite IH. split; intros (x & H & H1 & H2 & H3).
      * exists x. tauto.
      * destruct H as [->|H]; [|exists x; tauto]. exfalso.
        rewrite H1, H2, H3 in E. discriminate.
Qed.

(** ** Numerals *)

Lemma to_uint_some n : N.to_uint n <> Decimal.Nil.
Proof. destruct n as [|p]; [discriminate|]. apply DecimalPos.Unsigned.to_uint_nonnil. Qed.

Lemma to_hex_uint_some n : N.to_hex_uint n <> Hexadecimal.Nil.
Proof. destruct n as [|p]; [discriminate|]. apply HexadecimalPos.Unsigned.to_uint_nonnil. Qed.

Lemma dec_inj a b : dec a = dec b -> a = b.
Proof.
  unfold dec. intros H.
  apply (f_equal DecimalString.NilZero.uint_of_string) in H.
  rewrite !DecimalString.NilZero.usu in H by apply to_uint_some. injection H as H.
  apply DecimalN.Unsigned.to_uint_inj, H.
Qed.

Lemma hexN_inj a b : hexN a = hexN b -> a = b.
Proof.
  unfold hexN. intros H. injection H as H.
  apply (f_equal HexadecimalString.NilZero.uint_of_string) in H.
  rewrite !HexadecimalString.NilZero.usu in H by apply to_hex_uint_some. injection H as H.
  apply HexadecimalN.Unsigned.to_uint_inj, H.
Qed.

(** no blanks in numerals *)
Fixpoint no_blank (s : string) : bool :=
  match s with EmptyString => true | String c r => (negb (Ascii.eqb c " ") && no_blank r)%bool end.

Lemma no_blank_app a b : no_blank (a ++ b) = (no_blank a && no_blank b)%bool.
Proof. induction a; cbn; [reflexivity|]. rewrite IHa. apply andb_assoc. Qed.

Lemma dec_no_blank n : no_blank (dec n) = true.
Proof.
  unfold dec. destruct (N.to_uint n) as [|d|d|d|d|d|d|d|d|d|d]; try reflexivity;
    cbn; induction d; cbn; try reflexivity; assumption.
Qed.

Lemma hexN_no_blank n : no_blank (hexN n) = true.
Proof.
  unfold hexN. cbn. destruct (N.to_hex_uint n) as [|d|d|d|d|d|d|d|d|d|d|d|d|d|d|d|d]; try reflexivity;
    cbn; induction d; cbn; try reflexivity; assumption.
Qed.

Lemma blank_split a : forall b c d, no_blank a = true -> no_blank b = true ->
  (a ++ String " " c = b ++ String " " d)%string -> a = b /\ c = d.
Proof.
  induction a as [|x a IH]; intros [|y b] c d Ha Hb H; cbn in *.
  - injection H as H. split; [reflexivity|exact H].
  - injection H as H1 H2. subst y. discriminate.
  - injection H as H1 H2. subst x. discriminate.
  - injection H as -> H2. apply andb_true_iff in Ha, Hb. destruct Ha as [_ Ha], Hb as [_ Hb].
    destruct (IH b c d Ha Hb H2) as [-> ->]. split; reflexivity.
Qed.

Lemma named_inj s t x y : no_blank s = true -> no_blank t = true -> named s x = named t y -> s = t.
Proof. unfold named. intros H1 H2 H. apply blank_split in H; tauto. Qed.

(** texts that contain the number determine the code *)
Lemma texts_injective a b :
  (OSType_String a = OSType_String b -> a = b) /\
  (QPMTU_String a = QPMTU_String b -> a = b) /\
  (llc_QPMTU_String a = llc_QPMTU_String b -> a = b) /\
  (AddLinkRsnCode_String a = AddLinkRsnCode_String b -> a = b) /\
  (DelLinkRsnCode_String a = DelLinkRsnCode_String b -> a = b) /\
  (PeerDiagnosis_String a = PeerDiagnosis_String b -> a = b) /\
  (RMBESize_String a = RMBESize_String b -> a = b).
Proof.
  rewrite !(OSType_text a), !(OSType_text b), !(QPMTU_text a), !(QPMTU_text b), !(llc_QPMTU_text a),
    !(llc_QPMTU_text b), !(AddLinkRsn_text a), !(AddLinkRsn_text b), !(DelLinkRsn_text a), !(DelLinkRsn_text b),
    !(Diagnosis_text a), !(Diagnosis_text b).
  repeat split; try (intros H; apply dec_inj; eapply named_inj; [| |exact H]; apply dec_no_blank).
  - intros H; apply hexN_inj; eapply named_inj; [| |exact H]; apply hexN_no_blank.
Qed.

Lemma tables_unambiguous :
  unambiguous type_names "Unknown" /\ unambiguous path_names "unknown" /\ unambiguous os_names "unknown" /\
  unambiguous mtu_names "reserved" /\ unambiguous add_link_reasons "unknown" /\
  unambiguous delete_link_reasons "unknown" /\ unambiguous diagnosis_names "Unknown".
Proof.
  repeat split; cbv [map fst snd type_names path_names os_names mtu_names add_link_reasons delete_link_reasons diagnosis_names];
    repeat (apply NoDup_cons; [cbn; intros H; repeat (destruct H as [H|H]; [discriminate|]); exact H|]); apply NoDup_nil.
Qed.

(** a table gives every listed code its name and every other code the default *)
Lemma name_of_spec t d c : NoDup (map fst t) ->
  (forall s, In (c, s) t -> name_of t d c = s) /\ (~ In c (map fst t) -> name_of t d c = d).
Proof.
  induction t as [|[c' s'] t IH]; cbn [name_of map fst In]; intros H.
  - split; [intros s []|reflexivity].
  - inversion H as [|? ? H1 H2]; subst. destruct (IH H2) as [IH1 IH2].
    destruct (N.eqb_spec c c') as [->|Hc].
    + split; [|intros HN; exfalso; apply HN; left; reflexivity].
      intros s [E|E]; [congruence|]. exfalso. apply H1. apply (in_map fst) in E. exact E.
    + split.
      * intros s [E|E]; [congruence|]. apply IH1, E.
      * intros HN. apply IH2. intros HI. apply HN. right. exact HI.
Qed.

(** ** Size codes *)

Lemma high_nibble b : (N.shiftr (N.land (b2n b) 0xf0) 4 < 16)%N.
Proof.
  rewrite N.shiftr_div_pow2. change (2 ^ 4)%N with 16%N.
  pose proof (b2n_lt b). assert (N.land (b2n b) 240 <= 240)%N.
  { destruct b; vm_compute; discriminate. }
  apply N.div_lt_upper_bound; lia.
Qed.

Ltac post_steps' :=
  repeat lazymatch goal with
  | |- post _ (bind _ _) => apply post_bind; intros
  | |- post _ (ret _) => apply post_ret; cbn; first [assumption | apply high_nibble]
  | |- post _ (if ?b then _ else _) => destruct b
  | |- post _ (let '(_, _) := ?x in _) => destruct x
  | |- post _ (match ?x with _ => _ end) => destruct x
  end.

Lemma Message_keeps_size m msg buf logs new :
  Message_Parse m msg buf = (logs, Done new) -> size_ok msg -> size_ok new.
Proof.
  intros H Hs. revert logs new H. change (post size_ok (Message_Parse m msg buf)).
  assert (B : forall {A B} (c : A -> B) (P : B -> Prop) (x : M A),
    post (fun a => P (c a)) x -> post P (let* a := x in ret (c a))).
  { intros A B c P x H l b E. apply bind_inv in E. destruct E as (l1 & a & l2 & E & [= <- <-] & ->). eapply H, E. }
  assert (HR : forall a, (ar_RMBESize a < 16)%N -> post (fun a => ar_RMBESize a < 16)%N (AcceptSMCR_Parse m a buf)).
  { intros a Ha. unfold AcceptSMCR_Parse. cbv zeta. post_steps'. }
  assert (HD : forall a, (ad_DMBESize a < 16)%N -> post (fun a => ad_DMBESize a < 16)%N (AcceptSMCD_Parse m a buf)).
  { intros a Ha. unfold AcceptSMCD_Parse. cbv zeta. post_steps'. }
  assert (H2 : forall a, (a2_DMBESize a < 16)%N -> post (fun a => a2_DMBESize a < 16)%N (AcceptSMCDv2_Parse m a buf)).
  { intros a Ha. unfold AcceptSMCDv2_Parse. cbv zeta. post_steps'. }
  destruct msg as [p|p|a|a|a|c|c|c|d|d]; cbn [Message_Parse size_ok] in *; apply B; cbn [size_ok];
    try (intros ? ? _; exact I).
  - apply HR, Hs.
  - apply HD, Hs.
  - apply H2, Hs.
  - unfold ConfirmSMCR_Parse. apply B. apply HR, Hs.
  - unfold ConfirmSMCD_Parse. apply B. apply HD, Hs.
  - unfold ConfirmSMCDv2_Parse. apply B. apply H2, Hs.
Qed.

Lemma reachable_size msg : reachable msg -> size_ok msg.
Proof.
  induction 1 as [k|m old buf logs new H IH Hok E|m old buf logs new H IH Hok E];
    [destruct k; cbn; lia || exact I|eapply Message_keeps_size; eassumption|].
  pose proof (Keep.Message_W_kind _ _ _ _ _ _ E) as Hk. pose proof (reachable_decline) as Hd.
  assert (Hc : Keep.codes old) by (destruct old; try exact IH; try exact I; apply Hd, H).
  apply Keep.Message_W_codes in E; [|exact Hc]. destruct new; exact E || exact I.
Qed.
