(** * SizesFacts: bounds for texts, dumps and logs. Proofs only. *)

From Coq Require Import NArith ZArith Bool String Ascii Arith List Lia ZifyBool ZifyNat ZifyN.
From Verif Require Import GoBase GoFmt ClcModel LlcModel RoceModel Wire ClcView LlcView Canon CanonNum CanonIp
  CanonDump Ranges RangesFacts Sizes.
From Verif Require Dumps.
Import ListNotations.
Local Open Scope nat_scope.

(** ** Strings *)

Lemma append_size a b : String.length (a ++ b) = String.length a + String.length b.
Proof. induction a as [|c a IH]; [reflexivity|]. cbn. rewrite IH. reflexivity. Qed.

Fixpoint size (l : list string) : nat :=
  match l with [] => 0 | s :: r => String.length s + size r end.

Lemma concat_size sep l : String.length (String.concat sep l) = size l + String.length sep * (length l - 1).
Proof.
  induction l as [|s [|t r] IH]; [cbn; lia|cbn; lia|]. change (String.concat sep (s :: t :: r))
    with (s ++ sep ++ String.concat sep (t :: r))%string.
  rewrite !append_size, IH. cbn [size length]. lia.
Qed.

Lemma cat_size l : String.length (cat l) = size l.
Proof. unfold cat. rewrite concat_size. cbn [String.length]. lia. Qed.

Lemma size_forall n l : Forall (fun s => String.length s <= n) l -> size l <= n * length l.
Proof. induction 1; cbn [size length]; lia. Qed.

Lemma size_exact n l : Forall (fun s => String.length s = n) l -> size l = n * length l.
Proof. induction 1; cbn [size length]; lia. Qed.

Lemma list_ascii_size l : String.length (string_of_list_ascii l) = length l.
Proof. induction l as [|c l IH]; [reflexivity|]. cbn. rewrite IH. reflexivity. Qed.

(** ** Numerals *)

Lemma read_large base c s v : (0 < base)%N -> c <> "0"%char -> read base 0 (String c s) = Some v ->
  (base ^ N.of_nat (String.length s) <= v)%N.
Proof.
  intros Hb Hc H. cbn [read] in H. destruct (digit c) as [d|] eqn:D; [|discriminate].
  destruct (d <? base)%N; [|discriminate].
  assert (Hd : (1 <= d)%N).
  { destruct (N.eq_dec d 0) as [->|]; [|lia]. apply digit_zero in D. contradiction. }
  clear Hc D. rewrite N.mul_0_l, N.add_0_l in H.
  assert (G : forall s a w, read base a s = Some w -> (a * base ^ N.of_nat (String.length s) <= w)%N).
  { clear -Hb. induction s as [|c s IH]; intros a w H.
    - cbn in H. injection H as <-. cbn. lia.
    - cbn [read] in H. destruct (digit c) as [d|]; [|discriminate].
      destruct (d <? base)%N; [|discriminate]. apply IH in H. cbn [String.length].
      rewrite Nat2N.inj_succ, N.pow_succ_r'. nia. }
  apply G in H. nia.
Qed.

Lemma numeral_size base n s k : (1 < base)%N -> numeral base n s -> (n < base ^ N.of_nat k)%N -> 1 <= k ->
  String.length s <= k.
Proof.
  intros Hb [H [->|(c & r & -> & Hc)]] Hn Hk; [exact Hk|].
  apply read_large in H; [|lia|exact Hc]. cbn [String.length].
  assert (E : (base ^ N.of_nat (String.length r) < base ^ N.of_nat k)%N) by lia.
  apply N.pow_lt_mono_r_iff in E; lia.
Qed.

(** the decimal and hexadecimal digits of a number of [w] bits *)
Definition digits10 (w : nat) : nat := w * 31 / 100 + 1.
Definition digits16 (w : nat) : nat := (w + 3) / 4.

Lemma dec_bits w n : lt2 w n -> (2 ^ N.of_nat w <=? 10 ^ N.of_nat (digits10 w))%N = true ->
  String.length (dec n) <= digits10 w.
Proof.
  unfold lt2. intros H E. apply (numeral_size 10 n _ _ eq_refl (dec_numeral n)); [lia|].
  unfold digits10. lia.
Qed.

Lemma dec_below n k : (n < 10 ^ N.of_nat k)%N -> 1 <= k -> String.length (dec n) <= k.
Proof. apply (numeral_size 10 n _ k eq_refl (dec_numeral n)). Qed.

Lemma hexN_bits w n : lt2 w n -> 1 <= w -> String.length (hexN n) <= 2 + digits16 w.
Proof.
  unfold lt2. intros H E. destruct (hexN_numeral n) as (s & -> & Hs). rewrite append_size.
  change (String.length "0x") with 2; change (String.length "0b") with 2. apply (proj1 (Nat.add_le_mono_l _ _ 2)). apply (numeral_size 16 n s _ eq_refl Hs).
  - eapply N.lt_le_trans; [exact H|]. change 16%N with (2 ^ 4)%N. rewrite <- N.pow_mul_r.
    apply N.pow_le_mono_r; [discriminate|]. unfold digits16.
    pose proof (Nat.div_mod (w + 3) 4). pose proof (Nat.mod_upper_bound (w + 3) 4). lia.
  - unfold digits16. apply Nat.div_le_lower_bound; lia.
Qed.

Lemma binN_bits w n : lt2 w n -> 1 <= w -> String.length (binN n) <= 2 + w.
Proof.
  unfold lt2. intros H E. destruct (binN_numeral n) as (s & -> & Hs). rewrite append_size.
  change (String.length "0x") with 2; change (String.length "0b") with 2. apply (proj1 (Nat.add_le_mono_l _ _ 2)). apply (numeral_size 2 n s _ eq_refl Hs); assumption.
Qed.

(** ** Bytes and addresses *)

Lemma firstn_In {A} n (l : list A) x : In x (firstn n l) -> In x l.
Proof. intros H. rewrite <- (firstn_skipn n l). apply in_or_app. left. exact H. Qed.

Lemma skipn_In {A} n (l : list A) x : In x (skipn n l) -> In x l.
Proof. intros H. rewrite <- (firstn_skipn n l). apply in_or_app. right. exact H. Qed.

Lemma hex2_size l : size (map hex2 l) = 2 * length l.
Proof.
  rewrite (size_exact 2), map_length; [reflexivity|]. apply Forall_map, Forall_forall.
  intros b _. apply Dumps.hex2_length.
Qed.

Lemma hexbytes_size n l : length l = n -> String.length (hexbytes l) <= 2 + 2 * n.
Proof.
  intros <-. destruct l as [|b l]; [cbn; lia|]. unfold hexbytes. rewrite append_size, cat_size, hex2_size.
  reflexivity.
Qed.

Lemma mac_size n l : length l <= n -> String.length (mac_string l) <= 3 * n - 1.
Proof. intros H. unfold mac_string. rewrite concat_size, hex2_size, map_length. cbn [String.length]. lia. Qed.

Lemma mac_addr l : addr 6 l -> String.length (mac_string l) <= 17.
Proof. intros [H| ->]; [apply (mac_size 6); lia|apply Nat.leb_le; reflexivity]. Qed.

Lemma ip4_size l : length l <= 4 -> String.length (ip4_string l) <= 15.
Proof.
  intros H. unfold ip4_string. rewrite concat_size, map_length. cbn [String.length].
  assert (E : size (map (fun b => dec (b2n b)) l) <= 3 * length l).
  { etransitivity; [apply (size_forall 3)|rewrite map_length; lia]. apply Forall_map, Forall_forall.
    intros b _. apply (dec_bits 8); [apply RangesFacts.b2n_lt|reflexivity]. }
  lia.
Qed.

Lemma hexes_size ip n l : (forall s, In s l -> In s (hexes ip)) -> length l = n -> size l <= 4 * n.
Proof.
  intros H <-. apply size_forall, Forall_forall. intros s Hs. apply H in Hs.
  unfold hexes in Hs. apply in_map_iff in Hs. destruct Hs as (i & <- & _).
  apply (numeral_size 16 (group ip i) _ 4 eq_refl); [apply hex16_numeral|apply group_lt|lia]; apply group_lt.
Qed.

Lemma ip6_size ip : length ip = 16 -> String.length (ip6_string ip) <= 39.
Proof.
  intros H. destruct (ip6_string_text ip H) as (hs & Hh & Hs).
  assert (E : hs = hexes ip).
  { apply (numerals_unique 16 (groups ip)); [reflexivity|exact Hh|]. apply hexes_numerals, H. }
  subst hs. assert (L : length (hexes ip) = 8) by reflexivity.
  destruct Hs as [[_ ->]|(i & k & Hk & [[Hz _] _] & ->)].
  - rewrite concat_size. pose proof (hexes_size ip 8 (hexes ip) (fun s Hs => Hs) L).
    rewrite L. cbn [String.length]. lia.
  - assert (G : length (groups ip) = 8) by reflexivity. rewrite G in Hz.
    rewrite !append_size, !concat_size. cbn [String.length].
    pose proof (hexes_size ip (length (firstn i (hexes ip))) _ (fun s Hs => firstn_In _ _ _ Hs) eq_refl) as A.
    pose proof (hexes_size ip (length (skipn (i + k) (hexes ip))) _ (fun s Hs => skipn_In _ _ _ Hs) eq_refl) as B.
    rewrite firstn_length, L in *. rewrite skipn_length, L in *. lia.
Qed.

Lemma ip_addr n l : addr n l -> n = 4 \/ n = 16 -> String.length (ip_string l) <= 39.
Proof.
  intros [H| ->] Hn; [|apply Nat.leb_le; reflexivity]. unfold ip_string.
  replace (Nat.eqb (length l) 0) with false by lia.
  replace (negb (Nat.eqb (length l) 4 || Nat.eqb (length l) 16)) with false by lia.
  unfold ip_to4. destruct (Nat.eqb_spec (length l) 4) as [E|E].
  - etransitivity; [apply ip4_size; lia|apply Nat.leb_le; reflexivity].
  - assert (L : length l = 16) by lia. destruct (_ && _ && _ && _)%bool.
    + etransitivity; [apply ip4_size; rewrite skipn_length; lia|apply Nat.leb_le; reflexivity].
    + apply ip6_size, L.
Qed.

Lemma ip_16 l : length l = 16 -> String.length (ip_string l) <= 39.
Proof. intros H. apply (ip_addr 16); [left; exact H|right; reflexivity]. Qed.

Lemma until_zero_le l : length (until_zero l) <= length l.
Proof. induction l as [|b l IH]; [cbn; lia|]. cbn. destruct (Byte.eqb b x00); cbn; lia. Qed.

Lemma trim_le l : length (trim_right_spaces l) <= length l.
Proof.
  induction l as [|b l IH]; [cbn; lia|]. cbn. destruct (trim_right_spaces l); [|cbn in *; lia].
  destruct (Byte.eqb b x20); cbn; lia.
Qed.

Lemma eid_size e : length e = 32 -> String.length (EID_String e) <= 32.
Proof.
  intros H. unfold EID_String, bytes_string. rewrite list_ascii_size, map_length.
  pose proof (trim_le (until_zero e)). pose proof (until_zero_le e). lia.
Qed.

(** ** Dumps *)

Lemma offset8_size n : String.length (offset8 n) = 8.
Proof. unfold offset8. rewrite cat_size, hex2_size. reflexivity. Qed.

Lemma to_char_size b : String.length (to_char b) = 1.
Proof. unfold to_char. destruct (_ || _)%bool; reflexivity. Qed.

(** the separators behind the columns from [u] on *)
Definition seps (u : nat) : nat := 16 - u + (if u <=? 7 then 1 else 0) + (if u <=? 15 then 2 else 0).

Lemma dump_sep_size u : u < 16 -> String.length (dump_sep u) + seps (S u) = seps u.
Proof.
  intros H. unfold dump_sep, seps. destruct (Nat.eqb_spec u 7) as [->|]; [reflexivity|].
  destruct (Nat.eqb_spec u 15) as [->|]; [reflexivity|]. cbn [String.length].
  destruct (Nat.leb_spec (S u) 7), (Nat.leb_spec u 7), (Nat.leb_spec (S u) 15), (Nat.leb_spec u 15); lia.
Qed.

Lemma dump_pad_size k : forall u, u + k = 16 -> String.length (dump_pad u k) = 2 * k + seps u.
Proof.
  induction k as [|k IH]; intros u H.
  - replace u with 16 by lia. reflexivity.
  - cbn [dump_pad]. rewrite !append_size, IH by lia. pose proof (dump_sep_size u).
    cbn [String.length]. lia.
Qed.

Lemma dump_size_16 n : dump_size (16 + n) = 79 + dump_size n.
Proof.
  unfold dump_size. replace (16 + n) with (n + 1 * 16) by lia.
  rewrite Nat.div_add, Nat.mod_add by discriminate. lia.
Qed.

Lemma dump_loop_size data : forall n u r, u < 16 -> String.length r = u ->
  String.length (dump_loop n u r data) + (if u =? 0 then 0 else 10 + 2 * u + (seps 0 - seps u)) =
  dump_size (u + length data).
Proof.
  induction data as [|b data IH]; intros n u r Hu Hr; cbn [dump_loop length].
  - destruct (Nat.eqb_spec u 0) as [->|E]; [reflexivity|].
    rewrite !append_size, dump_pad_size by lia. rewrite Nat.add_0_r. unfold dump_size.
    rewrite Nat.div_small, Nat.mod_small by lia. destruct (Nat.eqb_spec u 0); [contradiction|].
    change (String.length nl) with 1. cbn [String.length]. change (seps 0) with 19.
    unfold seps. destruct (Nat.leb_spec u 7), (Nat.leb_spec u 15); lia.
  - rewrite !append_size, Dumps.hex2_length. pose proof (dump_sep_size u Hu) as Hs.
    destruct (Nat.eqb_spec u 15) as [->|E].
    + cbn [Nat.eqb]. rewrite !append_size, to_char_size. change (String.length nl) with 1.
      specialize (IH (n + 1)%N 0 ""%string ltac:(lia) eq_refl). cbn [Nat.eqb] in IH.
      replace (15 + S (length data)) with (16 + length data) by lia. rewrite dump_size_16.
      rewrite Nat.add_0_l, Nat.add_0_r in IH. rewrite IH. change (seps 0) with 19. change (seps 15) with 3.
      change (String.length (dump_sep 15)) with 3. cbn [String.length]. lia.
    + specialize (IH (n + 1)%N (S u) (r ++ to_char b)%string ltac:(lia)).
      rewrite append_size, to_char_size in IH. specialize (IH ltac:(lia)). cbn [Nat.eqb] in IH.
      replace (u + S (length data)) with (S u + length data) by lia. rewrite <- IH.
      assert (seps (S u) <= seps u /\ seps u <= 19) as [A B].
      { unfold seps. destruct (Nat.leb_spec (S u) 7), (Nat.leb_spec u 7), (Nat.leb_spec (S u) 15), (Nat.leb_spec u 15); lia. }
      change (seps 0) with 19. destruct (Nat.eqb_spec u 0) as [->|].
      * rewrite append_size, offset8_size. change (seps 0) with 19 in Hs. cbn [String.length]. lia.
      * cbn [String.length]. lia.
Qed.

Lemma hex_dump_size bs : String.length (hex_dump bs) = dump_size (length bs).
Proof.
  pose proof (dump_loop_size bs 0%N 0 ""%string ltac:(lia) eq_refl) as H. cbn [Nat.eqb Nat.add] in H.
  rewrite Nat.add_0_r in H. exact H.
Qed.

Lemma dump_size_mono a b : a <= b -> dump_size a <= dump_size b.
Proof.
  intros H. unfold dump_size. pose proof (Nat.div_mod a 16). pose proof (Nat.div_mod b 16).
  pose proof (Nat.mod_upper_bound a 16). pose proof (Nat.mod_upper_bound b 16).
  destruct (Nat.eqb_spec (a mod 16) 0), (Nat.eqb_spec (b mod 16) 0); nia.
Qed.

Lemma ip_addr4 l : addr 4 l -> String.length (ip_string l) <= 15.
Proof.
  intros [H| ->]; [|apply Nat.leb_le; reflexivity]. unfold ip_string.
  replace (Nat.eqb (length l) 0) with false by lia.
  replace (negb (Nat.eqb (length l) 4 || Nat.eqb (length l) 16)) with false by lia.
  unfold ip_to4. rewrite H, Nat.eqb_refl. apply ip4_size. rewrite H. apply le_n.
Qed.

(** ** Texts *)

Lemma size_nil : size [] <= 0.
Proof. exact (le_n 0). Qed.

Lemma size_cons a b x l : String.length x <= a -> size l <= b -> size (x :: l) <= a + b.
Proof. cbn [size]. lia. Qed.

Lemma of_cat n l : size l <= n -> String.length (cat l) <= n.
Proof. rewrite cat_size. exact (fun H => H). Qed.

Lemma tf_size b : String.length (tf b) <= 5.
Proof. destruct b; apply Nat.leb_le; reflexivity. Qed.

Lemma literal_size s n : String.length s = n -> String.length s <= n.
Proof. intros ->. apply le_n. Qed.

Ltac cases := repeat match goal with |- context [if ?c then _ else _] => destruct c end; apply Nat.leb_le; reflexivity.

Lemma eyecatcher_size e : String.length (Eyecatcher_String e) <= 7.
Proof. unfold Eyecatcher_String. cases. Qed.

Lemma msgtype_size t : String.length (MsgType_String t) <= 8.
Proof. unfold MsgType_String. cases. Qed.

Lemma path_size t : String.length (Path_String t) <= 14.
Proof. unfold Path_String. cases. Qed.

Lemma diagnosis_name_size t : String.length (PeerDiagnosis_name t) <= 31.
Proof. unfold PeerDiagnosis_name. cases. Qed.

Ltac piece :=
  lazymatch goal with
  | |- String.length (dec (b2n _)) <= _ => apply (dec_bits 8); [apply RangesFacts.b2n_lt|reflexivity]
  | |- String.length (dec _) <= _ => eapply dec_bits; [eassumption|reflexivity]
  | |- String.length (hexN _) <= _ => eapply hexN_bits; [eassumption|apply Nat.leb_le; reflexivity]
  | |- String.length (binN _) <= _ => eapply binN_bits; [eassumption|apply Nat.leb_le; reflexivity]
  | |- String.length (hexbytes _) <= _ => eapply hexbytes_size; eassumption
  | |- String.length (mac_string _) <= _ => apply mac_addr; assumption
  | |- String.length (ip_string _) <= _ => first [apply ip_addr4; assumption|eapply ip_addr; [eassumption|auto]]
  | |- String.length (EID_String _) <= _ => apply eid_size; assumption
  | |- String.length (tf _) <= _ => apply tf_size
  | |- String.length (Eyecatcher_String _) <= _ => apply eyecatcher_size
  | |- String.length (Trailer_String _) <= _ => apply eyecatcher_size
  | |- String.length (MsgType_String _) <= _ => apply msgtype_size
  | |- String.length (Path_String _) <= _ => apply path_size
  | |- String.length (PeerDiagnosis_name _) <= _ => apply diagnosis_name_size
  | |- String.length (String _ _) <= _ => apply literal_size; reflexivity
  | |- String.length EmptyString <= _ => apply literal_size; reflexivity
  | |- String.length nl <= _ => apply literal_size; reflexivity
  | |- String.length _ <= _ => first [eassumption|solve [eauto with sizes nocore]]
  end.

Ltac pieces :=
  eapply Nat.le_trans;
  [apply of_cat; repeat (eapply size_cons; [piece|]); apply size_nil|apply Nat.leb_le; reflexivity].

Lemma rmbesize_size s : lt2 4 s -> String.length (RMBESize_String s) <= 14.
Proof.
  intros H. assert (E : In s (map N.of_nat (seq 0 16))).
  { apply in_map_iff. exists (N.to_nat s). split; [lia|]. apply in_seq. unfold lt2 in H.
    change (2 ^ N.of_nat 4)%N with 16%N in H. lia. }
  assert (A : forallb (fun s => (String.length (RMBESize_String s) <=? 14)) (map N.of_nat (seq 0 16)) = true)
    by (vm_compute; reflexivity).
  rewrite forallb_forall in A. apply Nat.leb_le, A, E.
Qed.

Lemma peerid_size p : length p = 8 -> String.length (PeerID_String p) <= 23.
Proof.
  intros H. unfold PeerID_String. cbv zeta. apply of_cat.
  eapply Nat.le_trans.
  - eapply size_cons; [|eapply size_cons; [piece|eapply size_cons; [|apply size_nil]]].
    + apply (dec_bits 16); [|reflexivity]. apply lt2_lt, lor_lt; [apply byte_lt|apply byte_up]; vm_compute; discriminate.
    + apply (mac_size 6). rewrite skipn_length, H. apply le_n.
  - apply Nat.leb_le. reflexivity.
Qed.

Lemma qpmtu_size q : lt2 4 q -> String.length (QPMTU_String q) <= 13.
Proof. intros H. unfold QPMTU_String. cbv zeta. repeat match goal with |- context [if ?c then _ else _] => destruct c end; pieces. Qed.

Lemma llc_qpmtu_size q : lt2 4 q -> String.length (llc_QPMTU_String q) <= 13.
Proof. intros H. unfold llc_QPMTU_String. cbv zeta. repeat match goal with |- context [if ?c then _ else _] => destruct c end; pieces. Qed.

Lemma ostype_size q : lt2 4 q -> String.length (OSType_String q) <= 12.
Proof. intros H. unfold OSType_String. cbv zeta. repeat match goal with |- context [if ?c then _ else _] => destruct c end; pieces. Qed.

Lemma diagnosis_size q : lt2 32 q -> String.length (PeerDiagnosis_String q) <= 44.
Proof. intros H. unfold PeerDiagnosis_String. pieces. Qed.

Lemma addlinkrsn_size q : lt2 4 q -> String.length (AddLinkRsnCode_String q) <= 32.
Proof. intros H. unfold AddLinkRsnCode_String. cbv zeta. repeat match goal with |- context [if ?c then _ else _] => destruct c end; pieces. Qed.

Lemma dellinkrsn_size q : lt2 32 q -> String.length (DelLinkRsnCode_String q) <= 60.
Proof. intros H. unfold DelLinkRsnCode_String. cbv zeta. repeat match goal with |- context [if ?c then _ else _] => destruct c end; pieces. Qed.

Create HintDb sizes.
#[global] Hint Resolve rmbesize_size peerid_size qpmtu_size llc_qpmtu_size ostype_size diagnosis_size
  addlinkrsn_size dellinkrsn_size : sizes.

Lemma flag_size h : header_ok h -> String.length (flagString h) <= 22.
Proof.
  intros (? & ? & ? & ? & ? & ? & ? & ?). unfold flagString.
  repeat match goal with |- context [if ?c then _ else _] => destruct c end; pieces.
Qed.
#[global] Hint Resolve flag_size : sizes.

Lemma header_string_size h : header_ok h -> String.length (Header_String h) <= 125.
Proof. intros H. pose proof H as (? & ? & ? & ? & ? & ? & ? & ?). unfold Header_String. cbv zeta. pieces. Qed.

Lemma header_reserved_size h : header_ok h -> String.length (Header_Reserved h) <= 140.
Proof.
  intros H. pose proof H as (? & ? & ? & ? & ? & ? & ? & ?). unfold Header_Reserved. cbv zeta.
  destruct (_ && _)%bool; pieces.
Qed.
#[global] Hint Resolve header_string_size header_reserved_size : sizes.

Ltac text f g := let H := fresh in intros H; unfold f in H; repeat match goal with H : _ /\ _ |- _ => destruct H end; unfold g; cbv zeta; pieces.


Ltac two f g h := let H := fresh in intros H; split; revert H; [text f g|text f h].

Lemma smcr_size a : smcr_ok a ->
  String.length (AcceptSMCR_String a) <= 473 /\ String.length (AcceptSMCR_Reserved a) <= 520.
Proof. two smcr_ok AcceptSMCR_String AcceptSMCR_Reserved. Qed.

Lemma smcd_size a : smcd_ok a ->
  String.length (AcceptSMCD_String a) <= 276 /\ String.length (AcceptSMCD_Reserved a) <= 362.
Proof. two smcd_ok AcceptSMCD_String AcceptSMCD_Reserved. Qed.

Lemma fce_size a : smcdv2_ok a ->
  String.length (fceString a) <= 80 /\ String.length (fceReserved a) <= 114.
Proof.
  unfold fceString, fceReserved. destruct (_ <? _)%N; [intros _; split; apply Nat.leb_le; reflexivity|].
  two smcdv2_ok fceString fceReserved.
Qed.

Lemma smcdv2_size a : smcdv2_ok a ->
  String.length (AcceptSMCDv2_String a) <= 415 /\ String.length (AcceptSMCDv2_Reserved a) <= 527.
Proof.
  intros H. destruct (fce_size a H). revert H. two smcdv2_ok AcceptSMCDv2_String AcceptSMCDv2_Reserved.
Qed.

Lemma decline_size d : decline_ok d ->
  String.length (Decline_String d) <= 239 /\ String.length (Decline_Reserved d) <= 276.
Proof. two decline_ok Decline_String Decline_Reserved. Qed.

Lemma declinev2_size d : declinev2_ok d ->
  String.length (DeclineV2_String d) <= 262 /\ String.length (DeclineV2_Reserved d) <= 299.
Proof. two declinev2_ok DeclineV2_String DeclineV2_Reserved. Qed.

(** *** Proposals *)

Lemma prefixes_size l : Forall (fun e => length (ip6_prefix e) = 16 /\ lt2 8 (ip6_prefixLen e)) l ->
  String.length (ipv6_prefixes_string l) <= 58 * length l.
Proof.
  intros H. unfold ipv6_prefixes_string. rewrite cat_size.
  etransitivity; [apply (size_forall 58)|rewrite map_length; apply le_n].
  apply Forall_map. eapply Forall_impl; [|exact H]. intros e [Hp Hl]. pose proof (ip_16 _ Hp).
  unfold IPv6Prefix_String. rewrite cat_size. cbn [size]. rewrite cat_size. cbn [size].
  pose proof (dec_bits 8 _ Hl eq_refl) as D. change (digits10 8) with 3 in D. cbn [String.length]. lia.
Qed.


(** sums that contain a variable *)
Ltac sums :=
  repeat match goal with
  | |- context [digits10 ?w] => let v := eval vm_compute in (digits10 w) in change (digits10 w) with v
  | |- context [digits16 ?w] => let v := eval vm_compute in (digits16 w) in change (digits16 w) with v
  | |- context [String.length (String ?c ?s)] =>
    let v := eval vm_compute in (String.length (String c s)) in change (String.length (String c s)) with v
  | |- context [String.length nl] => change (String.length nl) with 1
  end; lia.

Ltac pieces_with H :=
  eapply Nat.le_trans;
  [apply of_cat; repeat (eapply size_cons; [first [exact H|piece]|]); apply size_nil|sums].

Definition smcd_string (p : Proposal) : string :=
  (if (p_IPAreaOffset p =? SMCDIPAreaOffset)%N then cat ["SMC-D GID: "; dec (p_SMCDGID p); ", "] else "")%string.

Definition smcd_reserved (p : Proposal) : string :=
  (if (p_IPAreaOffset p =? SMCDIPAreaOffset)%N
   then cat ["SMC-D GID: "; dec (p_SMCDGID p); ", Reserved: "; hexbytes (p_reserved p); ", "] else "")%string.

Lemma smcdinfo_size p : proposal_ok p ->
  String.length (smcd_string p) <= 33 /\ String.length (smcd_reserved p) <= 111.
Proof.
  unfold proposal_ok, smcd_string, smcd_reserved. intros (_ & _ & _ & _ & _ & _ & Hd & Hr & _).
  split; destruct (_ =? _)%N; first [apply Nat.le_0_l|pieces].
Qed.

Lemma proposal_size p : proposal_ok p ->
  String.length (Proposal_String p) <= 372 + 58 * length (i_IPv6Prefixes (p_IP p)) /\
  String.length (Proposal_Reserved p) <= 483 + 58 * length (i_IPv6Prefixes (p_IP p)).
Proof.
  intros H. destruct (smcdinfo_size p H) as [A B]. unfold proposal_ok, ip_ok in H.
  destruct H as (Hh & Ht & Hp & Hg & Hm & Ho & _ & _ & (Hi & Hl & Hr2 & Hc & Hx)).
  pose proof (prefixes_size _ Hx) as Hy. unfold Proposal_String, Proposal_Reserved. cbv zeta.
  fold (smcd_string p) (smcd_reserved p). split; [pieces_with Hy|pieces_with Hy].
Qed.
(** *** Version 2 *)

Lemma eids_size n l : forall i, Forall (fun e => length e = 32) l -> i + length l <= 10 ->
  String.length (eid_area_string n i l) <= 41 * length l.
Proof.
  induction l as [|e l IH]; intros i H Hi; [apply Nat.le_0_l|]. cbn [eid_area_string length] in *.
  inversion H as [|? ? He Hl]; subst. destruct (n <=? i); [apply Nat.le_0_l|].
  rewrite cat_size. cbn [size]. specialize (IH (S i) Hl ltac:(lia)). pose proof (eid_size e He).
  pose proof (dec_below (N.of_nat i) 1 ltac:(change (10 ^ N.of_nat 1)%N with 10%N; lia) (le_n 1)) as D.
  assert (C : String.length (if 0 <? i then ", " else "") <= 2) by (destruct (0 <? i); cbn; lia).
  cbn [String.length]. lia.
Qed.

Lemma gids_size n l : forall i, Forall (fun g => lt2 64 (g_GID g) /\ lt2 16 (g_VCHID g)) l -> i + length l <= 10 ->
  String.length (gid_area_string n i l) <= 45 * length l.
Proof.
  induction l as [|e l IH]; intros i H Hi; [apply Nat.le_0_l|]. cbn [gid_area_string length] in *.
  inversion H as [|? ? He Hl]; subst. destruct (n <=? i); [apply Nat.le_0_l|].
  rewrite cat_size. cbn [size]. specialize (IH (S i) Hl ltac:(lia)). destruct He as [Hg Hv].
  pose proof (dec_bits 64 _ Hg eq_refl) as G. change (digits10 64) with 20 in G.
  pose proof (dec_bits 16 _ Hv eq_refl) as V. change (digits10 16) with 5 in V.
  pose proof (dec_below (N.of_nat i) 1 ltac:(change (10 ^ N.of_nat 1)%N with 10%N; lia) (le_n 1)) as D.
  assert (C : String.length (if 0 <? i then ", " else "") <= 2) by (destruct (0 <? i); cbn; lia).
  cbn [String.length]. lia.
Qed.

Lemma comma_size n s : String.length s <= n -> String.length (comma_first s) <= 2 + n.
Proof.
  intros H. unfold comma_first. destruct (s =? "")%string; [lia|]. rewrite append_size. cbn [String.length]. lia.
Qed.

Lemma ipv4_size ip : ip_ok ip -> String.length (ipV4String ip) <= 34.
Proof. text ip_ok ipV4String. Qed.

Lemma ipv6_size ip : ip_ok ip -> String.length (ipV6String ip) <= 22 + 58 * length (i_IPv6Prefixes ip).
Proof.
  unfold ip_ok. intros (Hi & Hl & Hr2 & Hc & Hx). pose proof (prefixes_size _ Hx) as Hy.
  unfold ipV6String. rewrite append_size. apply Nat.add_le_mono; [pieces|exact Hy].
Qed.

Lemma ip_res_size ip : ip_ok ip ->
  String.length (cat ["Reserved: "; hexbytes (i_reserved2 ip); ", "]%string) <= 18.
Proof. unfold ip_ok. intros (_ & _ & Hr2 & _). pieces. Qed.

Lemma ipinfo_size p : ip_ok (p2_IP p) ->
  String.length (ipInfoString p) <= 56 + 58 * length (i_IPv6Prefixes (p2_IP p)) /\
  String.length (ipInfoReserved p) <= 74 + 58 * length (i_IPv6Prefixes (p2_IP p)).
Proof.
  intros H. pose proof (ipv4_size _ H). pose proof (ipv6_size _ H). pose proof (ip_res_size _ H).
  unfold ipInfoString, ipInfoReserved.
  destruct (_ =? _)%N; [split; apply Nat.le_0_l|]. rewrite !append_size. split; lia.
Qed.

Lemma ext_size p : ext_ok (p2_Ext p) ->
  String.length (propV2ExtString p) <= 439 /\ String.length (propV2ExtReserved p) <= 566.
Proof.
  intros H. pose proof H as (_ & _ & _ & _ & _ & _ & _ & _ & _ & Hl & Hx).
  pose proof (eids_size (N.to_nat (x_EIDNumber (p2_Ext p))) _ 0 Hx) as E. rewrite Hl in E.
  specialize (E ltac:(apply Nat.leb_le; reflexivity)). fold (propV2ExtEIDString p) in E.
  clear Hl Hx. revert H. unfold propV2ExtString, propV2ExtReserved. cbv zeta.
  destruct (_ =? _)%N; [intros _; split; apply Nat.le_0_l|]. two ext_ok propV2ExtString propV2ExtReserved.
Qed.

Lemma smcdext_size p : dext_ok (p2_SMCD p) ->
  String.length (smcdV2ExtString p) <= 412 /\ String.length (smcdV2ExtReserved p) <= 458.
Proof.
  intros H. pose proof H as (_ & _ & Hl & Hx).
  pose proof (gids_size (N.to_nat (x_GIDNumber (p2_Ext p))) _ 0 Hx) as E. rewrite Hl in E.
  specialize (E ltac:(apply Nat.leb_le; reflexivity)). fold (smcdV2ExtGIDString p) in E.
  clear Hl Hx. revert H. unfold smcdV2ExtString, smcdV2ExtReserved.
  destruct (_ && _)%bool; [intros _; split; apply Nat.le_0_l|]. two dext_ok smcdV2ExtString smcdV2ExtReserved.
Qed.

Lemma proposalv2_size p : proposalv2_ok p ->
  String.length (ProposalV2_String p) <= 1278 + 58 * length (i_IPv6Prefixes (p2_IP p)) /\
  String.length (ProposalV2_Reserved p) <= 1554 + 58 * length (i_IPv6Prefixes (p2_IP p)).
Proof.
  intros H. unfold proposalv2_ok in H.
  destruct H as (Hh & Ht & Hp & Hg & Hm & Ho & Hd & Hv & Hf & Hr & Hi & Hx & Hy).
  destruct (ipinfo_size p Hi) as [Is Ir]. destruct (ext_size p Hx) as [Es Er].
  destruct (smcdext_size p Hy) as [Ds Dr].
  apply comma_size in Is, Ir, Es, Er, Ds, Dr. unfold ProposalV2_String, ProposalV2_Reserved. cbv zeta.
  split; [pieces_with Is|pieces_with Ir].
Qed.

(** ** LLC *)

Lemma rkeypair_size r : rp_ok r -> String.length (RKeyPair_String r) <= 91.
Proof. text rp_ok RKeyPair_String. Qed.

Lemma rmbspec_size r : rs_ok r -> String.length (RMBSpec_String r) <= 66.
Proof. text rs_ok RMBSpec_String. Qed.

Lemma one_digit i : i < 10 -> String.length (dec (N.of_nat i)) <= 1.
Proof. intros H. apply dec_below; [change (10 ^ N.of_nat 1)%N with 10%N; lia|apply le_n]. Qed.

Lemma pairs_size l : forall i s, Forall rp_ok l -> i + length l <= 9 -> String.length s <= 106 ->
  String.length (pairs_string i l s) <= 106 /\ String.length (pairs_reserved i l s) <= 106.
Proof.
  induction l as [|e l IH]; intros i s H Hi Hs; [split; exact Hs|]. cbn [pairs_string pairs_reserved length] in *.
  inversion H as [|? ? He Hl]; subst. pose proof (rkeypair_size e He) as R.
  pose proof (one_digit (i + 1) ltac:(lia)) as D.
  split; (apply IH; [exact Hl|lia|]); rewrite cat_size; cbn [size String.length]; lia.
Qed.

Lemma others_size l : forall i, Forall rs_ok l -> i + length l <= 9 ->
  String.length (others_string i l) <= 86 * length l /\ String.length (others_reserved i l) <= 86 * length l.
Proof.
  induction l as [|e l IH]; intros i H Hi; [split; apply Nat.le_0_l|]. cbn [others_string others_reserved length] in *.
  inversion H as [|? ? He Hl]; subst. pose proof (rmbspec_size e He) as R.
  pose proof (one_digit (i + 1) ltac:(lia)) as D. destruct (IH (S i) Hl ltac:(lia)) as [A B].
  split; rewrite cat_size; cbn [size String.length]; lia.
Qed.

Lemma rkeys_size l : forall i, Forall (lt2 32) l -> i + length l <= 10 ->
  String.length (rkeys_string i l) <= 20 * length l /\ String.length (rkeys_reserved i l) <= 20 * length l.
Proof.
  induction l as [|e l IH]; intros i H Hi; [split; apply Nat.le_0_l|]. cbn [rkeys_string rkeys_reserved length] in *.
  inversion H as [|? ? He Hl]; subst. pose proof (dec_bits 32 _ He eq_refl) as R. change (digits10 32) with 10 in R.
  pose proof (one_digit i ltac:(lia)) as D. destruct (IH (S i) Hl ltac:(lia)) as [A B].
  split; rewrite cat_size; cbn [size String.length]; lia.
Qed.

Ltac ltext f g := unfold f, base_ok; intros; repeat match goal with H : _ /\ _ |- _ => destruct H end; unfold g; pieces.

Lemma cl_size c : cl_ok c -> String.length (ConfirmLink_String c) <= 219 /\ String.length (ConfirmLink_Reserved c) <= 283.
Proof. split; revert H; [ltext cl_ok ConfirmLink_String|ltext cl_ok ConfirmLink_Reserved]. Qed.

Lemma al_size c : al_ok c -> String.length (AddLink_String c) <= 275 /\ String.length (AddLink_Reserved c) <= 355.
Proof. split; revert H; [ltext al_ok AddLink_String|ltext al_ok AddLink_Reserved]. Qed.

Lemma ac_size c : ac_ok c -> String.length (AddLinkCont_String c) <= 205 /\ String.length (AddLinkCont_Reserved c) <= 277.
Proof.
  intros H. pose proof H as (_ & _ & _ & _ & _ & _ & [Hl Hx] & _).
  destruct (pairs_size _ 0 ""%string Hx) as [A B]; [rewrite Hl; apply Nat.leb_le; reflexivity|apply Nat.le_0_l|].
  split; revert H; [ltext ac_ok AddLinkCont_String|ltext ac_ok AddLinkCont_Reserved].
Qed.

Lemma dl_size c : dl_ok c -> String.length (DeleteLink_String c) <= 168 /\ String.length (DeleteLink_Reserved c) <= 284.
Proof. split; revert H; [ltext dl_ok DeleteLink_String|ltext dl_ok DeleteLink_Reserved]. Qed.

Lemma ck_size c : ck_ok c -> String.length (ConfirmRKey_String c) <= 359 /\ String.length (ConfirmRKey_Reserved c) <= 421.
Proof.
  intros H. pose proof H as (_ & _ & _ & _ & _ & _ & _ & [Hl Hx] & _).
  destruct (others_size _ 0 Hx) as [A B]; [rewrite Hl; apply Nat.leb_le; reflexivity|]. rewrite Hl in A, B.
  split; revert H; [ltext ck_ok ConfirmRKey_String|ltext ck_ok ConfirmRKey_Reserved].
Qed.

Lemma cc_size c : cc_ok c -> String.length (ConfirmRKeyCont_String c) <= 375 /\ String.length (ConfirmRKeyCont_Reserved c) <= 438.
Proof.
  intros H. pose proof H as (_ & _ & _ & _ & _ & [Hl Hx] & _).
  destruct (others_size _ 0 Hx) as [A B]; [rewrite Hl; apply Nat.leb_le; reflexivity|]. rewrite Hl in A, B.
  split; revert H; [ltext cc_ok ConfirmRKeyCont_String|ltext cc_ok ConfirmRKeyCont_Reserved].
Qed.

Lemma dk_size c : dk_ok c -> String.length (deleteRKey_String c) <= 276 /\ String.length (deleteRKey_Reserved c) <= 363.
Proof.
  intros H. pose proof H as (_ & _ & _ & _ & _ & _ & _ & [Hl Hx] & _).
  destruct (rkeys_size _ 0 Hx) as [A B]; [rewrite Hl; apply Nat.leb_le; reflexivity|]. rewrite Hl in A, B.
  split; revert H; [ltext dk_ok deleteRKey_String|ltext dk_ok deleteRKey_Reserved].
Qed.

Lemma tl_size c : tl_ok c -> String.length (TestLink_String c) <= 98 /\ String.length (TestLink_Reserved c) <= 192.
Proof. split; revert H; [ltext tl_ok TestLink_String|ltext tl_ok TestLink_Reserved]. Qed.

Lemma tail_length l : tail_ok l -> length l = 19.
Proof. destruct l as [|b l]; [intros []|]. intros [_ H]. cbn. rewrite H. reflexivity. Qed.

Lemma c_size c : c_ok c -> String.length (CDC_String c) <= 403 /\ String.length (CDC_Reserved c) <= 506.
Proof.
  intros H. pose proof H as (_ & _ & _ & _ & _ & _ & _ & _ & _ & _ & T). apply tail_length in T.
  split; revert H; [ltext c_ok CDC_String|ltext c_ok CDC_Reserved].
Qed.

(** ** RoCE *)

Lemma lookup_size tbl n : Forall (fun s => String.length s <= 30) tbl -> String.length (lookup_op tbl n) <= 30.
Proof.
  intros H. unfold lookup_op. destruct (nth_error tbl (N.to_nat n)) as [s|] eqn:E; [|cbn; lia].
  rewrite Forall_forall in H. apply H. eapply nth_error_In. exact E.
Qed.

Ltac table := apply lookup_size; repeat (constructor; [apply Nat.leb_le; reflexivity|]); constructor.

Lemma opcode_size o : lt2 8 o -> String.length (Opcode_String o) <= 47.
Proof.
  intros H. unfold Opcode_String. cbv zeta.
  pose proof (binN_bits 8 o H ltac:(lia)) as B.
  assert (R : String.length (rcString o) <= 30) by (unfold rcString; table).
  assert (U : String.length (ucString o) <= 30) by (unfold ucString; table).
  assert (D : String.length (rdString o) <= 30) by (unfold rdString; table).
  assert (G : String.length (udString o) <= 30) by (unfold udString; table).
  assert (C : String.length (cnpString o) <= 8) by (unfold cnpString; cases).
  unfold xrcString. rewrite cat_size. cbn [size].
  repeat match goal with |- context [if ?c then _ else _] => destruct c end;
    rewrite ?append_size; cbn [String.length]; lia.
Qed.
#[global] Hint Resolve opcode_size : sizes.

Lemma bth_size b : bth_ok b -> String.length (BTH_String b) <= 182 /\ String.length (BTH_Reserved b) <= 204.
Proof. split; revert H; [text bth_ok BTH_String|text bth_ok BTH_Reserved]. Qed.

Lemma be_val_lt l : forall a w, (a < 2 ^ w)%N ->
  (fold_left (fun a b => N.lor (N.shiftl a 8) (b2n b)) l a < 2 ^ (w + 8 * N.of_nat (length l)))%N.
Proof.
  induction l as [|b l IH]; intros a w H; cbn [fold_left length].
  - rewrite N.mul_0_r, N.add_0_r. exact H.
  - replace (w + 8 * N.of_nat (S (length l)))%N with (w + 8 + 8 * N.of_nat (length l))%N by lia.
    apply IH. apply lor_lt; [apply shiftl_lt, H|apply byte_lt; lia].
Qed.

Lemma be_val_bits l n w : length l <= n -> (N.of_nat w = 8 * N.of_nat n)%N -> lt2 w (be_val l).
Proof.
  intros H E. unfold lt2, be_val. rewrite E. eapply N.lt_le_trans; [apply (be_val_lt l 0 0); reflexivity|].
  apply N.pow_le_mono_r; lia.
Qed.

Definition grh_ok (g : GRH) : Prop :=
  lt2 4 (grh_Version g) /\ lt2 8 (grh_TrafficClass g) /\ lt2 20 (grh_FlowLabel g) /\
  lt2 16 (grh_Length g) /\ lt2 8 (grh_HopLimit g) /\ addr 16 (grh_SrcIP g) /\ addr 16 (grh_DstIP g).

Lemma gopacket_ok data : grh_ok (gopacket_IPv6 data).
Proof.
  unfold gopacket_IPv6, grh_ok. destruct (Nat.ltb_spec (length data) 40) as [H|H].
  - repeat match goal with |- _ /\ _ => split end; first [reflexivity|right; reflexivity].
  - cbn [grh_Version grh_TrafficClass grh_FlowLabel grh_Length grh_HopLimit grh_SrcIP grh_DstIP].
    assert (L : forall lo hi, lo <= hi <= 40 -> length (firstn (hi - lo) (skipn lo data)) = hi - lo).
    { intros lo hi Hh. rewrite firstn_length, skipn_length. lia. }
    repeat match goal with |- _ /\ _ => split end.
    + apply lt2_lt, (shiftr_lt _ 4 4 (2 ^ N.of_nat 8)); [|vm_compute; discriminate].
      apply (be_val_bits _ 1 8); [rewrite L; lia|reflexivity].
    + eapply lt2_le; [apply land_le|reflexivity].
    + eapply lt2_le; [apply land_le|reflexivity].
    + apply (be_val_bits _ 2 16); [rewrite L; lia|reflexivity].
    + apply (be_val_bits _ 1 8); [rewrite L; lia|reflexivity].
    + left. apply L. lia.
    + left. apply L. lia.
Qed.

Lemma grh_size pn n g : grh_ok g -> (forall v, String.length (pn v) <= n) -> 3 <= n ->
  String.length (GRH_String pn g) <= 207 + n.
Proof.
  intros H Hp Hn. unfold GRH_String. cbv zeta.
  assert (A : String.length (if negb (grh_NextHeader g =? BTHNextHeader)%N then pn (grh_NextHeader g) else "BTH"%string) <= n).
  { destruct (negb _); [apply Hp|exact Hn]. }
  revert H. generalize dependent (if negb (grh_NextHeader g =? BTHNextHeader)%N then pn (grh_NextHeader g) else "BTH"%string).
  intros x A (? & ? & ? & ? & ? & ? & ?). pieces_with A.
Qed.

(** ** Logs *)

(** at most [n] complaints of lines of at most [w] characters *)
Definition says {A} (n w : nat) (x : M A) : Prop :=
  length (fst x) <= 2 * n /\ Forall (fun s => String.length s <= w) (fst x).

Definition quiet {A} (x : M A) : Prop := fst x = [].

Lemma says_quiet {A} n w (x : M A) : quiet x -> says n w x.
Proof. unfold quiet, says. intros ->. split; [apply Nat.le_0_l|constructor]. Qed.

Lemma says_bind {A B} a b w (x : M A) (f : A -> M B) :
  says a w x -> (forall v, says b w (f v)) -> says (a + b) w (bind x f).
Proof.
  unfold says, bind. intros [Hl Hf] Hk. destruct x as [l [v| |]]; cbn [fst] in *; [|split; [lia|exact Hf]..].
  specialize (Hk v). destruct (f v) as [l' o]. cbn [fst] in *. destruct Hk as [Hl' Hf'].
  rewrite app_length. split; [lia|]. apply Forall_app. split; assumption.
Qed.

Lemma quiet_bind {A B} (x : M A) (f : A -> M B) : quiet x -> (forall v, quiet (f v)) -> quiet (bind x f).
Proof.
  unfold quiet, bind. intros Hx Hk. destruct x as [l [v| |]]; cbn [fst] in *; [|exact Hx..].
  specialize (Hk v). destruct (f v) as [l' o]. cbn [fst] in *. subst. reflexivity.
Qed.

Lemma says_after {A B} n w (x : M A) (f : A -> M B) : quiet x -> (forall v, says n w (f v)) -> says n w (bind x f).
Proof. intros Hx Hk. apply (says_bind 0 n); [apply says_quiet, Hx|exact Hk]. Qed.

Lemma quiet_ret {A} (a : A) : quiet (ret a).
Proof. reflexivity. Qed.

Lemma quiet_reslice s lo hi : quiet (reslice s lo hi).
Proof. unfold reslice. destruct (_ && _)%bool; reflexivity. Qed.

Lemma quiet_from s lo : quiet (from s lo).
Proof. apply quiet_reslice. Qed.

Lemma quiet_upto s lo : quiet (upto s lo).
Proof. apply quiet_reslice. Qed.

Lemma quiet_idx m s i : quiet (idx m s i).
Proof. unfold idx. destruct (_ <? _); [|reflexivity]. destruct (nth_error _ _); reflexivity. Qed.

Lemma quiet_last s n : quiet (last_n s n).
Proof. unfold last_n. destruct (_ <? _); [reflexivity|apply quiet_from]. Qed.

Lemma quiet_get {A} (a : list A) i : quiet (get_nth a i).
Proof. unfold get_nth. destruct (nth_error a i); reflexivity. Qed.

Lemma quiet_set {A} (a : list A) i v : quiet (set_nth a i v).
Proof. unfold set_nth. destruct (_ <? _); reflexivity. Qed.

Ltac hush :=
  cbv zeta;
  lazymatch goal with
  | |- quiet (bind _ _) => apply quiet_bind; [|intros ?]
  | |- quiet (ret _) => apply quiet_ret
  | |- quiet (from _ _) => apply quiet_from
  | |- quiet (upto _ _) => apply quiet_upto
  | |- quiet (idx _ _ _) => apply quiet_idx
  | |- quiet (last_n _ _) => apply quiet_last
  | |- quiet (get_nth _ _) => apply quiet_get
  | |- quiet (set_nth _ _ _) => apply quiet_set
  | |- quiet (reslice _ _ _) => apply quiet_reslice
  | |- quiet (if ?c then _ else _) => destruct c
  | |- quiet (match ?c with _ => _ end) => destruct c
  end.

Lemma quiet_copy m d s lo hi : quiet (copy_from m d s lo hi).
Proof. unfold copy_from. repeat hush. Qed.

Lemma quiet_be16 m s lo hi : quiet (be16 m s lo hi).
Proof. unfold be16, Uint16. repeat hush. Qed.

Lemma quiet_be32 m s lo hi : quiet (be32 m s lo hi).
Proof. unfold be32, Uint32. repeat hush. Qed.

Lemma quiet_be64 m s lo hi : quiet (be64 m s lo hi).
Proof. unfold be64, Uint64. repeat hush. Qed.

Lemma quiet_be24 m s : quiet (be24 m s).
Proof. unfold be24. repeat hush. Qed.

Lemma quiet_flag m s k : quiet (flag m s k).
Proof. unfold flag. repeat hush. Qed.

Lemma quiet_masked m s k : quiet (masked m s k).
Proof. unfold masked. repeat hush. Qed.

Lemma quiet_byte0 m s : quiet (byte0 m s).
Proof. unfold byte0. repeat hush. Qed.

Ltac hush2 :=
  first
  [ apply quiet_copy | apply quiet_be16 | apply quiet_be32 | apply quiet_be64 | apply quiet_be24
  | apply quiet_flag | apply quiet_masked | apply quiet_byte0 | hush ].

Lemma quiet_header m h buf : quiet (Header_Parse m h buf).
Proof. unfold Header_Parse. repeat hush2. Qed.

(** *** Complaints *)

Definition at_most {A} (k w : nat) (x : M A) : Prop :=
  length (fst x) <= k /\ Forall (fun s => String.length s <= w) (fst x).

Lemma at_most_bind {A B} a b w (x : M A) (f : A -> M B) :
  at_most a w x -> (forall l v, x = (l, Done v) -> at_most b w (f v)) -> at_most (a + b) w (bind x f).
Proof.
  unfold at_most, bind. intros [Hl Hf] Hk. destruct x as [l [v| |]]; cbn [fst] in *; [|split; [lia|exact Hf]..].
  specialize (Hk l v eq_refl). destruct (f v) as [l' o]. cbn [fst] in *. destruct Hk as [Hl' Hf'].
  rewrite app_length. split; [lia|]. apply Forall_app. split; assumption.
Qed.

Lemma at_most_quiet {A} w (x : M A) : quiet x -> at_most 0 w x.
Proof. unfold quiet, at_most. intros ->. split; [apply Nat.le_0_l|constructor]. Qed.

Lemma s_bytes_le m s : length (s_bytes m s) <= s_len s.
Proof. unfold s_bytes. rewrite firstn_length. lia. Qed.

Lemma reslice_len s lo hi l d : reslice s lo hi = (l, Done d) -> s_len d = hi - lo.
Proof. unfold reslice. destruct (_ && _)%bool; [|discriminate]. intros [= _ <-]. reflexivity. Qed.

Lemma dump_at_most m d k : s_len d <= k -> at_most 1 (25 + dump_size k) (errDump m d).
Proof.
  intros H. split; [apply le_n|]. constructor; [|constructor]. rewrite !append_size, hex_dump_size.
  change (String.length "Message Buffer Hex Dump:") with 24. change (String.length nl) with 1.
  pose proof (s_bytes_le m d). pose proof (dump_size_mono (length (s_bytes m d)) k ltac:(lia)). lia.
Qed.

Lemma says_complaint {A} err m (d : M slice) (k : M A) len :
  String.length err <= 92 -> quiet d -> (forall l s, d = (l, Done s) -> s_len s <= max 4 len) -> quiet k ->
  says 1 (line_limit len) (log_ln err ;; let* s := d in errDump m s ;; k).
Proof.
  intros He Hd Hs Hk. change (at_most (1 + (0 + (1 + 0))) (line_limit len) (log_ln err ;; let* s := d in errDump m s ;; k)).
  unfold line_limit. apply at_most_bind.
  - split; [apply le_n|]. constructor; [|constructor].
    pose proof (dump_size_mono 4 (max 4 len) ltac:(lia)) as M. change (dump_size 4) with 67 in M. lia.
  - intros _ _ _. apply at_most_bind; [apply at_most_quiet, Hd|]. intros l s E.
    apply at_most_bind; [apply dump_at_most; eapply Hs; exact E|]. intros _ _ _. apply at_most_quiet, Hk.
Qed.

Lemma upto_len s n l d : upto s n = (l, Done d) -> s_len d <= max 4 n.
Proof. intros H. apply reslice_len in H. lia. Qed.

Lemma says_upto {A} err m buf len (k : M A) : String.length err <= 92 -> quiet k ->
  says 1 (line_limit len) (log_ln err ;; let* s := upto buf len in errDump m s ;; k).
Proof. intros He Hk. apply says_complaint; [exact He|apply quiet_upto|intros l s; apply upto_len|exact Hk]. Qed.

Lemma says_trailer m t buf len : says 1 (line_limit len) (Trailer_Parse m t buf).
Proof.
  unfold Trailer_Parse. apply says_after; [apply quiet_last|]. intros s. cbv zeta.
  destruct (HasEyecatcher_arr _); [apply says_quiet; reflexivity|].
  apply says_complaint; [apply Nat.leb_le; reflexivity|apply quiet_last| |reflexivity].
  intros l d. unfold last_n, from. destruct (Nat.ltb_spec (s_len buf) TrailerLen); [discriminate|].
  intros E. apply reslice_len in E. unfold TrailerLen, EyecatcherLen in *. lia.
Qed.

(** *** Parse *)

Ltac brief := repeat match goal with |- context [if ?c then _ else _] => destruct c end; apply Nat.leb_le; reflexivity.

Ltac soft :=
  cbv zeta;
  lazymatch goal with
  | |- says _ _ (log_ln _ ;; _) => apply says_upto; [brief|repeat hush2]
  | |- says _ _ (bind (Trailer_Parse _ _ _) _) => apply (says_bind 1 0); [apply says_trailer|intros ?]
  | |- says _ _ (bind _ _) => apply says_after; [solve [repeat hush2]|intros ?]
  | |- says _ _ (ret _) => apply says_quiet; reflexivity
  | |- says _ _ (if ?c then _ else _) => destruct c
  | |- says _ _ (match ?c with _ => _ end) => destruct c
  end.

(** behind a header *)
Lemma says_header {A} n m h buf (k : Header -> M A) : slice_ok m buf -> header_wf h ->
  (forall hdr, h_Length hdr = declared (s_bytes m buf) -> says n (line_limit (N.to_nat (h_Length hdr))) (k hdr)) ->
  says n (line_limit (N.to_nat (declared (s_bytes m buf)))) (bind (Header_Parse m h buf) k).
Proof.
  intros Hok Hwf Hk. destruct (le_lt_dec 8 (s_len buf)) as [L|L].
  - rewrite ClcParse.Header_Parse_ok by assumption. rewrite Slices.bind_ret.
    assert (E : h_Length (ClcParse.hdr_of (s_bytes m buf)) = declared (s_bytes m buf)).
    { apply ClcFixed.declared_hdr. rewrite Slices.s_bytes_length by exact Hok. exact L. }
    rewrite <- E at 1. apply Hk, E.
  - rewrite ClcParse.Header_Parse_panic by assumption. apply says_quiet. reflexivity.
Qed.

Ltac fixed := intros H Hw; cbv zeta; apply says_header; [exact H|exact Hw|]; intros hdr _; repeat soft.

Lemma says_smcd m a buf : slice_ok m buf -> header_wf (ad_Header a) ->
  says 1 (line_limit (N.to_nat (declared (s_bytes m buf)))) (AcceptSMCD_Parse m a buf).
Proof. unfold AcceptSMCD_Parse. fixed. Qed.

Lemma says_smcr m a buf : slice_ok m buf -> header_wf (ar_Header a) ->
  says 1 (line_limit (N.to_nat (declared (s_bytes m buf)))) (AcceptSMCR_Parse m a buf).
Proof. unfold AcceptSMCR_Parse. fixed. Qed.

Lemma says_smcdv2 m a buf : slice_ok m buf -> header_wf (a2_Header a) ->
  says 1 (line_limit (N.to_nat (declared (s_bytes m buf)))) (AcceptSMCDv2_Parse m a buf).
Proof. unfold AcceptSMCDv2_Parse, fce_Parse. fixed. Qed.

Lemma says_decline m a buf : slice_ok m buf -> header_wf (d_Header a) ->
  says 1 (line_limit (N.to_nat (declared (s_bytes m buf)))) (Decline_Parse m a buf).
Proof. unfold Decline_Parse. fixed. Qed.

Lemma says_declinev2 m a buf : slice_ok m buf -> header_wf (d2_Header a) ->
  says 1 (line_limit (N.to_nat (declared (s_bytes m buf)))) (DeclineV2_Parse m a buf).
Proof. unfold DeclineV2_Parse. fixed. Qed.

Lemma says_prefixes_v1 m buf len n : forall skip acc, says 1 (line_limit len) (prefixes_v1 m buf len skip acc n).
Proof. induction n as [|n IH]; intros skip acc; cbn [prefixes_v1]; repeat soft. apply IH. Qed.

Lemma says_prefixes_v2 m buf len n : forall skip acc, says 1 (line_limit len) (prefixes_v2 m buf len skip acc n).
Proof. induction n as [|n IH]; intros skip acc; cbn [prefixes_v2]; repeat soft. apply IH. Qed.

Lemma says_eids m buf len n : forall skip acc i, says 1 (line_limit len) (eids_v2 m buf len skip acc i n).
Proof. induction n as [|n IH]; intros skip acc i; cbn [eids_v2]; repeat soft. apply IH. Qed.

Lemma says_gids m buf len n : forall skip acc i, says 1 (line_limit len) (gids_v2 m buf len skip acc i n).
Proof. induction n as [|n IH]; intros skip acc i; cbn [gids_v2]; repeat soft. apply IH. Qed.

Ltac soft2 :=
  cbv zeta;
  lazymatch goal with
  | |- says _ _ (bind (prefixes_v1 _ _ _ _ _ _) _) => apply (says_bind 1 0); [apply says_prefixes_v1|intros ?]
  | |- says _ _ (bind (prefixes_v2 _ _ _ _ _ _) _) => apply (says_bind 1 0); [apply says_prefixes_v2|intros ?]
  | |- says _ _ (bind (eids_v2 _ _ _ _ _ _ _) _) => apply (says_bind 1 0); [apply says_eids|intros ?]
  | |- says _ _ (bind (gids_v2 _ _ _ _ _ _ _) _) => apply (says_bind 1 0); [apply says_gids|intros ?]
  | _ => soft
  end.

Lemma says_ip_v1 m buf len skip ip : says 1 (line_limit len) (ip_area_v1 m buf len skip ip).
Proof. unfold ip_area_v1. repeat soft2. Qed.

Lemma says_ip_v2 m buf hdr len skip ip : says 1 (line_limit len) (ip_area_v2 m buf hdr len skip ip).
Proof. unfold ip_area_v2. repeat soft2. Qed.

Lemma says_ext m buf hdr len skip x : says 1 (line_limit len) (ext_v2 m buf hdr len skip x).
Proof. unfold ext_v2. repeat soft2. Qed.

Lemma says_smcd_v2 m buf hdr len skip g y : says 1 (line_limit len) (smcd_v2 m buf hdr len skip g y).
Proof. unfold smcd_v2. repeat soft2. Qed.

Lemma says_more {A} a b w (x : M A) : says a w x -> a <= b -> says b w x.
Proof. intros [H F] L. split; [lia|exact F]. Qed.

Lemma says_proposal m p buf : slice_ok m buf -> header_wf (p_Header p) ->
  says 2 (line_limit (N.to_nat (declared (s_bytes m buf)))) (Proposal_Parse m p buf).
Proof.
  intros H Hw. unfold Proposal_Parse. cbv zeta. apply says_header; [exact H|exact Hw|]. intros hdr _.
  destruct (_ <? _)%N; [apply (says_more 1); [soft|lia]|].
  do 4 (apply says_after; [solve [repeat hush2]|intros ?]).
  apply says_after; [solve [repeat hush2]|intros [[g r] skip]].
  apply (says_bind 1 1); [apply says_ip_v1|]. intros [ip|]; [|apply says_quiet; reflexivity].
  apply (says_bind 1 0); [apply says_trailer|]. intros t. apply says_quiet. reflexivity.
Qed.

Lemma says_bind_done {A B} a b w (x : M A) (f : A -> M B) :
  says a w x -> (forall l v, x = (l, Done v) -> says b w (f v)) -> says (a + b) w (bind x f).
Proof.
  intros Hx Hf. change (at_most (2 * (a + b)) w (bind x f)). rewrite Nat.mul_add_distr_l. apply at_most_bind; [exact Hx|exact Hf].
Qed.

(** *** A stage of a version 2 Proposal that complains leaves no room for [k] bytes *)

Definition stage {A} (k len : nat) (e : A -> option nat) (x : M A) : Prop :=
  quiet x \/
  (says 1 (line_limit len) x /\
   Dumps.post (fun r => match e r with Some skip => short len skip k = true | None => True end) x).

Lemma bind_silent {A B} (v : A) (f : A -> M B) : bind ([], Done v) f = f v.
Proof. unfold bind. destruct (f v) as [l o]. reflexivity. Qed.

Lemma stage_after {A B} k len e (x : M A) (f : A -> M B) : quiet x -> (forall v, stage k len e (f v)) ->
  stage k len e (bind x f).
Proof.
  unfold quiet. intros Hx Hf. destruct x as [l o]. cbn [fst] in Hx. subst l.
  destruct o as [v| |]; [|left; reflexivity..]. rewrite bind_silent. apply Hf.
Qed.

Lemma stage_map {A B} k len e e' (x : M A) (g : A -> B) : stage k len e x -> (forall v, e' (g v) = e v) ->
  stage k len e' (let* r := x in ret (g r)).
Proof.
  intros [Q|[S P]] E.
  - left. apply quiet_bind; [exact Q|]. intros v. apply quiet_ret.
  - right. split.
    + apply (says_bind 1 0); [exact S|]. intros v. apply says_quiet. reflexivity.
    + intros l r R. unfold bind, ret in R. destruct x as [l' [v| |]]; try discriminate. injection R as _ <-.
      rewrite E. apply (P l' v eq_refl).
Qed.

Lemma stage_stop {A} k len e err m buf (v : A) : String.length err <= 92 ->
  match e v with Some skip => short len skip k = true | None => True end ->
  stage k len e (log_ln err ;; let* d := upto buf len in errDump m d ;; ret v).
Proof.
  intros H S. right. split; [apply says_upto; [exact H|apply quiet_ret]|]. repeat (apply Dumps.post_bind; intros ?).
  apply Dumps.post_ret. exact S.
Qed.

Definition behind {A} (r : A * nat) : option nat := Some (snd r).
Definition behind' {A} (r : option (A * nat)) : option nat :=
  match r with Some (_, skip) => Some skip | None => None end.

Ltac calm := apply stage_after; [solve [repeat hush2]|intros ?]; cbv zeta.

Lemma stage_prefixes m buf len n : forall skip acc, stage 21 len behind (prefixes_v2 m buf len skip acc n).
Proof.
  induction n as [|n IH]; intros skip acc; cbn [prefixes_v2]; [left; reflexivity|].
  destruct (short _ _ _) eqn:S; [apply stage_stop; [brief|exact S]|]. repeat calm. apply IH.
Qed.

Lemma stage_eids m buf len n : forall skip acc i, stage 36 len behind (eids_v2 m buf len skip acc i n).
Proof.
  induction n as [|n IH]; intros skip acc i; cbn [eids_v2]; [left; reflexivity|].
  destruct (short _ _ _) eqn:S; [apply stage_stop; [brief|exact S]|]. repeat calm. apply IH.
Qed.

Lemma bind_pair {A B C} (x : M (A * B)) (g : A -> B -> C) :
  (let* r := x in let (a, b) := r in ret (g a b)) = (let* r := x in ret (g (fst r) (snd r))).
Proof. unfold bind. destruct x as [l [[a b]| |]]; reflexivity. Qed.

Lemma stage_ip m buf hdr len skip ip : stage 21 len behind' (ip_area_v2 m buf hdr len skip ip).
Proof.
  unfold ip_area_v2. destruct (negb _); [|left; reflexivity].
  destruct (short _ _ _) eqn:S; [apply stage_stop; [brief|exact I]|]. cbv zeta. do 4 calm. rewrite bind_pair.
  eapply stage_map; [apply stage_prefixes|]. reflexivity.
Qed.

Lemma stage_ext m buf hdr len skip x : stage 36 len behind' (ext_v2 m buf hdr len skip x).
Proof.
  unfold ext_v2. destruct (negb _); [|left; reflexivity].
  destruct (short _ _ _) eqn:S; [apply stage_stop; [brief|exact I]|]. cbv zeta. do 9 calm. rewrite bind_pair.
  eapply stage_map; [apply stage_eids|]. reflexivity.
Qed.

Lemma short_more len skip k k' : short len skip k = true -> k <= k' -> short len skip k' = true.
Proof. unfold short. rewrite !Nat.ltb_lt. lia. Qed.

Lemma ext_short m buf hdr len skip x : short len skip 44 = true -> h_Pathv2 hdr <> SMCTypeN ->
  says 1 (line_limit len) (ext_v2 m buf hdr len skip x) /\
  Dumps.post (fun r => r = None) (ext_v2 m buf hdr len skip x).
Proof.
  intros S N. unfold ext_v2. replace (h_Pathv2 hdr =? SMCTypeN)%N with false by (symmetry; apply N.eqb_neq, N).
  cbn [negb]. change (ProposalV2ExtLen + TrailerLen) with 44. rewrite S. split; [repeat soft|].
  repeat (apply Dumps.post_bind; intros ?). apply Dumps.post_ret. reflexivity.
Qed.

Lemma ext_none m buf hdr len skip x : h_Pathv2 hdr = SMCTypeN -> ext_v2 m buf hdr len skip x = ret (Some (x, skip)).
Proof. intros E. unfold ext_v2. rewrite E. reflexivity. Qed.

Section tail.
  Context {A : Type} (m : mem) (buf : slice) (hdr : Header) (len : nat) (t : list byte) (y : SMCDExt) (x : V2Ext)
    (k3 : V2Ext -> SMCDExt -> list byte -> A) (k2 : V2Ext -> A) (k1 : A).

  Let third skip x := let* r := smcd_v2 m buf hdr len skip (x_GIDNumber x) y in
    match r with None => ret (k2 x) | Some y => let* t := Trailer_Parse m t buf in ret (k3 x y t) end.

  Let second skip := let* r := ext_v2 m buf hdr len skip x in
    match r with None => ret k1 | Some (x, skip) => third skip x end.

  Lemma third_says skip x' : says 2 (line_limit len) (third skip x').
  Proof.
    unfold third. apply (says_bind 1 1); [apply says_smcd_v2|]. intros [y'|]; [|apply says_quiet; reflexivity].
    apply (says_bind 1 0); [apply says_trailer|]. intros ?. apply says_quiet. reflexivity.
  Qed.

  Lemma third_short skip x' : short len skip 36 = true \/ h_Pathv2 hdr = SMCTypeN ->
    says 1 (line_limit len) (third skip x').
  Proof.
    intros S. unfold third, smcd_v2. destruct (_ || _)%bool eqn:C.
    - assert (E : short len skip (SMCDv2ExtLen + TrailerLen) = true).
      { destruct S as [S|S]; [apply (short_more _ _ _ _ S); apply Nat.leb_le; reflexivity|].
        rewrite S in C. discriminate. }
      rewrite E. apply (says_bind_done 1 0); [repeat soft|]. intros l v E'.
      assert (P : Dumps.post (fun r : option SMCDExt => r = None)
        (log_ln "Error parsing CLC Proposal v2: Not enough space for SMC-D v2 Extension"%string ;;
         let* d := upto buf len in errDump m d ;; ret None)).
      { repeat (apply Dumps.post_bind; intros ?). apply Dumps.post_ret. reflexivity. }
      rewrite (P _ _ E'). apply says_quiet. reflexivity.
    - rewrite Slices.bind_ret. apply (says_bind 1 0); [apply says_trailer|]. intros ?. apply says_quiet. reflexivity.
  Qed.

  Lemma second_short skip : short len skip 21 = true -> says 1 (line_limit len) (second skip).
  Proof.
    intros S. unfold second. destruct (N.eq_dec (h_Pathv2 hdr) SMCTypeN) as [E|N].
    - rewrite ext_none by exact E. rewrite Slices.bind_ret. apply third_short. right. exact E.
    - destruct (ext_short m buf hdr len skip x) as [H1 H2];
        [apply (short_more _ _ _ _ S); apply Nat.leb_le; reflexivity|exact N|].
      apply (says_bind_done 1 0); [exact H1|]. intros l v E. rewrite (H2 _ _ E). apply says_quiet. reflexivity.
  Qed.

  Lemma second_says skip : says 2 (line_limit len) (second skip).
  Proof.
    unfold second. destruct (stage_ext m buf hdr len skip x) as [Q|[S P]].
    - apply says_after; [exact Q|]. intros [[x' skip']|]; [apply third_says|apply says_quiet; reflexivity].
    - apply (says_bind_done 1 1); [exact S|]. intros l [[x' skip']|] E; [|apply says_quiet; reflexivity].
      apply third_short. left. exact (P _ _ E).
  Qed.
End tail.

Lemma says_proposalv2 m p buf : slice_ok m buf -> header_wf (p2_Header p) ->
  says 2 (line_limit (N.to_nat (declared (s_bytes m buf)))) (ProposalV2_Parse m p buf).
Proof.
  intros H Hw. unfold ProposalV2_Parse. cbv zeta. apply says_header; [exact H|exact Hw|]. intros hdr _.
  destruct (_ <? _)%N; [apply (says_more 1); [soft|lia]|].
  do 8 (apply says_after; [solve [repeat hush2]|intros ?]).
  match goal with |- says _ _ (bind ?x _) => destruct (stage_ip m buf hdr (N.to_nat (h_Length hdr)) 80 (p2_IP p)) as [Q|[S P]] end.
  - apply says_after; [exact Q|]. intros [[ip skip]|]; [|apply says_quiet; reflexivity]. apply second_says.
  - apply (says_bind_done 1 1); [exact S|]. intros l [[ip skip]|] E; [|apply says_quiet; reflexivity].
    apply second_short. exact (P _ _ E).
Qed.

Lemma says_message m msg buf : slice_ok m buf -> message_wf msg ->
  says (complaints (kind_of msg)) (line_limit (N.to_nat (declared (s_bytes m buf)))) (Message_Parse m msg buf).
Proof.
  intros H Hw.
  assert (C : forall {A B} n w (x : M A) (c : A -> B), says n w x -> says n w (let* a := x in ret (c a))).
  { intros A B n w x c Hx. rewrite <- (Nat.add_0_r n). apply says_bind; [exact Hx|]. intros v.
    apply says_quiet. reflexivity. }
  destruct msg; cbn [Message_Parse kind_of complaints is_proposal]; apply C.
  - apply says_proposal; [exact H|apply Hw].
  - apply says_proposalv2; [exact H|apply Hw].
  - apply says_smcr; [exact H|apply Hw].
  - apply says_smcd; [exact H|apply Hw].
  - apply says_smcdv2; [exact H|apply Hw].
  - apply C, says_smcr; [exact H|apply Hw].
  - apply C, says_smcd; [exact H|apply Hw].
  - apply C, says_smcdv2; [exact H|apply Hw].
  - apply says_decline; [exact H|apply Hw].
  - apply says_declinev2; [exact H|apply Hw].
Qed.

(** *** LLC and RoCE are silent *)

Lemma quiet_setbase m buf : quiet (SetBaseMsg m buf).
Proof. unfold SetBaseMsg. repeat hush2. Qed.
