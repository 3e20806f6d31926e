(** * CanonIp: texts of addresses. Proofs only. *)

From Coq Require Import NArith ZArith Bool String Ascii Arith List Lia.
From Coq Require Import ZifyBool ZifyNat ZifyN.
From Verif Require Import GoBase GoFmt Slices Wire WireLemmas Canon CanonNum.
Import ListNotations.
Local Open Scope nat_scope.

Lemma sapp_assoc a b c : append (append a b) c = append a (append b c).
Proof. induction a as [|x a IH]; [reflexivity|]. cbn. rewrite IH. reflexivity. Qed.

Lemma sapp_nil_r a : append a "" = a.
Proof. induction a as [|x a IH]; [reflexivity|]. cbn. rewrite IH. reflexivity. Qed.

(** ** Splitting at a character *)

Fixpoint split (c : ascii) (s : string) : list string :=
  match s with
  | EmptyString => [EmptyString]
  | String x r =>
    if Ascii.eqb x c then EmptyString :: split c r
    else match split c r with h :: t => String x h :: t | [] => [] end
  end.

Fixpoint lacks (c : ascii) (s : string) : Prop :=
  match s with EmptyString => True | String x r => x <> c /\ lacks c r end.

Lemma lacks_app c a b : lacks c a -> lacks c b -> lacks c (append a b).
Proof. induction a as [|x a IH]; [intros _ H; exact H|]. intros [H H'] Hb. split; auto. Qed.

Lemma split_nonnil c s : split c s <> [].
Proof. induction s as [|x s IH]; cbn; [discriminate|]. destruct (Ascii.eqb x c); [discriminate|]. destruct (split c s); [congruence|discriminate]. Qed.

Lemma split_lacks c s : lacks c s -> split c s = [s].
Proof.
  induction s as [|x s IH]; [reflexivity|]. intros [H H']. cbn [split].
  destruct (Ascii.eqb_spec x c); [congruence|]. rewrite IH by exact H'. reflexivity.
Qed.

Lemma split_sep c a b : split c (append a (String c b)) = (split c a ++ split c b)%list.
Proof.
  induction a as [|x a IH]; cbn [append split].
  - rewrite Ascii.eqb_refl. reflexivity.
  - rewrite IH. destruct (Ascii.eqb x c); [reflexivity|].
    destruct (split c a) eqn:E; [exfalso; exact (split_nonnil c a E)|reflexivity].
Qed.

Lemma split_concat c l : l <> [] -> Forall (lacks c) l -> split c (String.concat (String c "") l) = l.
Proof.
  induction l as [|x l IH]; [congruence|]. intros _ H. apply Forall_cons_iff in H. destruct H as [Hx Hl].
  destruct l as [|y l].
  - cbn [String.concat]. apply split_lacks, Hx.
  - change (String.concat (String c "") (x :: y :: l))
      with (append x (String c (String.concat (String c "") (y :: l)))).
    rewrite split_sep, IH by (try discriminate; exact Hl). rewrite split_lacks by exact Hx. reflexivity.
Qed.

(** ** What characters occur *)

Lemma read_lacks base c s : digit c = None -> forall acc v, read base acc s = Some v -> lacks c s.
Proof.
  intros Hc. induction s as [|x s IH]; intros acc v H; cbn [read lacks] in *; [exact I|].
  destruct (digit x) as [d|] eqn:D; [|discriminate]. destruct (d <? base)%N; [|discriminate].
  split; [congruence|]. exact (IH _ _ H).
Qed.

Lemma numeral_lacks base n c s : digit c = None -> numeral base n s -> lacks c s.
Proof. intros Hc [H _]. exact (read_lacks base c s Hc _ _ H). Qed.

Lemma numeral_nonempty base n s : numeral base n s -> s <> ""%string.
Proof. intros [_ [->|(c & r & -> & _)]]; discriminate. Qed.

Lemma concat_lacks c sep l : lacks c sep -> Forall (lacks c) l -> lacks c (String.concat sep l).
Proof.
  intros Hs. induction l as [|x l IH]; intros H; [exact I|].
  apply Forall_cons_iff in H. destruct H as [Hx Hl]. destruct l as [|y l]; [exact Hx|].
  change (lacks c (append x (append sep (String.concat sep (y :: l))))).
  apply lacks_app; [exact Hx|]. apply lacks_app; [exact Hs|]. apply IH, Hl.
Qed.

Lemma Forall2_right {A B} (P : A -> B -> Prop) (Q : B -> Prop) l l' :
  Forall2 P l l' -> (forall a b, P a b -> Q b) -> Forall Q l'.
Proof. intros H HQ. induction H; constructor; eauto. Qed.

Lemma Forall2_length' {A B} (P : A -> B -> Prop) l l' : Forall2 P l l' -> length l = length l'.
Proof. induction 1; cbn; congruence. Qed.

Lemma numerals_value base l l' s : Forall2 (numeral base) l s -> Forall2 (numeral base) l' s -> l = l'.
Proof.
  intros H. revert l'. induction H; intros l'' H'; inversion H'; subst; [reflexivity|].
  f_equal; [eapply numeral_value; eassumption|auto].
Qed.

Lemma numerals_unique base l s s' : (1 < base)%N ->
  Forall2 (numeral base) l s -> Forall2 (numeral base) l s' -> s = s'.
Proof.
  intros Hb H. revert s'. induction H; intros s'' H'; inversion H'; subst; [reflexivity|].
  f_equal; [eapply numeral_unique; eassumption|auto].
Qed.

Lemma Forall2_map_l {A B C} (P : B -> C -> Prop) (f : A -> B) l l' :
  Forall2 (fun a => P (f a)) l l' <-> Forall2 P (map f l) l'.
Proof.
  split.
  - induction 1; constructor; auto.
  - revert l'. induction l as [|a l IH]; intros l' H; inversion H; subst; constructor; auto.
Qed.

(** ** IPv4 *)

Lemma ip4_string_text ip : ip4_text ip (ip4_string ip).
Proof. exists (map (fun b => dec (b2n b)) ip). split; [|reflexivity]. apply Forall2_map_r. intros b. apply dec_numeral. Qed.

Lemma ip4_text_unique ip s t : ip4_text ip s -> ip4_text ip t -> s = t.
Proof.
  intros (l & H & ->) (l' & H' & ->). f_equal.
  apply (numerals_unique 10 (map b2n ip)); [lia|apply (proj1 (Forall2_map_l (numeral 10) b2n _ _)); assumption..].
Qed.

Lemma b2n_inj a b : b2n a = b2n b -> a = b.
Proof. unfold b2n. intros H. apply (f_equal Byte.of_N) in H. rewrite !Byte.of_to_N in H. congruence. Qed.

Lemma map_b2n_inj a : forall b, map b2n a = map b2n b -> a = b.
Proof. induction a as [|x a IH]; intros [|y b] H; try discriminate; [reflexivity|]. injection H as H H'. f_equal; [apply b2n_inj, H|apply IH, H']. Qed.

Lemma ip4_text_inj a b s : a <> [] -> b <> [] -> ip4_text a s -> ip4_text b s -> a = b.
Proof.
  intros Ha Hb (l & H & ->) (l' & H' & E). apply map_b2n_inj.
  assert (L : l = l').
  { rewrite <- (split_concat "." l), <- (split_concat "." l'), E; [reflexivity|..].
    - intros ->. inversion H'. congruence.
    - eapply Forall2_right; [exact H'|]. intros x y N. eapply numeral_lacks; [reflexivity|exact N].
    - intros ->. inversion H. congruence.
    - eapply Forall2_right; [exact H|]. intros x y N. eapply numeral_lacks; [reflexivity|exact N]. }
  subst l'. apply (proj1 (Forall2_map_l (numeral 10) b2n _ _)) in H. apply (proj1 (Forall2_map_l (numeral 10) b2n _ _)) in H'. exact (numerals_value 10 _ _ _ H H').
Qed.

Lemma ip4_text_lacks ip s : ip4_text ip s -> lacks ":" s.
Proof.
  intros (l & H & ->). apply concat_lacks; [split; [discriminate|exact I]|].
  eapply Forall2_right; [exact H|]. intros x y N. eapply numeral_lacks; [reflexivity|exact N].
Qed.

(** ** Zero runs *)

Definition run_b (zs : list bool) (i k : nat) : bool :=
  (i + k <=? length zs) && forallb (fun j => nth j zs false) (seq i k).

Fixpoint zero_run_b (zs : list bool) (i n : nat) : nat :=
  match n with
  | O => O
  | S n' => if nth i zs false then S (zero_run_b zs (S i) n') else O
  end.

Definition zero_range_b (zs : list bool) : nat * nat :=
  fold_left (fun se i =>
    let l := zero_run_b zs i (8 - i) in
    if ((2 <=? l) && (snd se - fst se <? l))%nat%bool then (i, (i + l)%nat) else se)
    (seq 0 8) (255, 255)%nat.

Definition zeros_of (ip : list byte) : list bool := map (fun i => (group ip i =? 0)%N) (seq 0 8).

Lemma nth_map8 {A} (f : nat -> A) d j : j < 8 -> nth j (map f (seq 0 8)) d = f j.
Proof. intros H. do 8 (destruct j as [|j]; [reflexivity|]). lia. Qed.

Lemma zero_run_zeros ip n : forall i, i + n = 8 -> zero_run ip i n = zero_run_b (zeros_of ip) i n.
Proof.
  induction n as [|n IH]; intros i Hi; [reflexivity|]. cbn [zero_run zero_run_b].
  rewrite IH by lia. unfold zeros_of at 2.
  rewrite nth_map8 by lia. reflexivity.
Qed.

Lemma zero_range_zeros ip : zero_range ip = zero_range_b (zeros_of ip).
Proof.
  unfold zero_range, zero_range_b. generalize (255, 255).
  assert (F : Forall (fun i => i < 8) (seq 0 8)) by (apply Forall_forall; intros i Hi; apply in_seq in Hi; lia).
  induction F as [|i l Hi F IH]; intros se; [reflexivity|]. cbn [fold_left].
  rewrite zero_run_zeros by lia. apply IH.
Qed.

Fixpoint all_bools (n : nat) : list (list bool) :=
  match n with
  | O => [[]]
  | S n' => map (cons true) (all_bools n') ++ map (cons false) (all_bools n')
  end.

Lemma all_bools_complete l : In l (all_bools (length l)).
Proof.
  induction l as [|b l IH]; [left; reflexivity|]. cbn [length all_bools]. apply in_or_app.
  destruct b; [left|right]; apply in_map, IH.
Qed.

Definition range_ok (zs : list bool) : bool :=
  let (s, e) := zero_range_b zs in
  if (s =? 255) then (e =? 255) && forallb (fun i => negb (run_b zs i 2)) (seq 0 9)
  else (s + 2 <=? e) && (e <=? 8) && run_b zs s (e - s) &&
       forallb (fun j => forallb (fun l =>
         implb (run_b zs j l) ((l <=? e - s) && implb (l =? e - s) (s <=? j))) (seq 0 9)) (seq 0 9).

Lemma range_ok_all : forallb range_ok (all_bools 8) = true.
Proof. vm_compute. reflexivity. Qed.

Lemma range_ok_8 zs : length zs = 8 -> range_ok zs = true.
Proof.
  intros L. pose proof (all_bools_complete zs) as H. rewrite L in H.
  exact (proj1 (forallb_forall _ _) range_ok_all zs H).
Qed.

Lemma forallb_seq f n : forallb f (seq 0 n) = true -> forall i, i < n -> f i = true.
Proof. intros H i Hi. rewrite forallb_forall in H. apply H, in_seq. lia. Qed.

Lemma group_bits ip i : length ip = 16 -> i < 8 -> bits ip (16 * i) 16 = group ip i.
Proof.
  intros Hl Hi. rewrite (bits_bytes ip (2 * i) 2) by lia. unfold group.
  rewrite (seg_S ip (2 * i) 1 x00), (seg_S ip (S (2 * i)) 0 x00), seg_0 by lia.
  cbn [BE length]. replace (2 * i + 1) with (S (2 * i)) by lia.
  change (256 ^ N.of_nat 1)%N with 256%N. change (256 ^ N.of_nat 0)%N with 1%N. lia.
Qed.

Lemma groups_group ip : length ip = 16 -> groups ip = map (group ip) (seq 0 8).
Proof.
  intros Hl. unfold groups. apply map_ext_in. intros i Hi. apply in_seq in Hi. apply group_bits; [exact Hl|lia].
Qed.

Lemma zero_groups_run ip i k : length ip = 16 ->
  zero_groups (groups ip) i k <-> run_b (zeros_of ip) i k = true.
Proof.
  intros Hl. unfold zero_groups, run_b, zeros_of. rewrite (groups_group ip Hl), !map_length, seq_length.
  rewrite andb_true_iff, Nat.leb_le, forallb_forall.
  assert (E : forall j, j < 8 -> nth j (map (group ip) (seq 0 8)) 1%N = group ip j /\
                        nth j (map (fun i => (group ip i =? 0)%N) (seq 0 8)) false = (group ip j =? 0)%N).
  { intros j Hj. rewrite !nth_map8 by lia. split; reflexivity. }
  split; intros [H H']; (split; [exact H|]).
  - intros j Hj. apply in_seq in Hj. destruct (E j ltac:(lia)) as [E1 E2]. rewrite E2.
    apply N.eqb_eq. rewrite <- E1. apply H'. lia.
  - intros j Hj. destruct (E j ltac:(lia)) as [E1 E2]. rewrite E1. apply N.eqb_eq. rewrite <- E2.
    apply H', in_seq. lia.
Qed.

Lemma zero_range_spec ip : length ip = 16 ->
  let (s, e) := zero_range ip in
  (s = 255 /\ e = 255 /\ forall i, ~ zero_groups (groups ip) i 2) \/
  (s + 2 <= e /\ e <= 8 /\ first_longest (groups ip) s (e - s)).
Proof.
  intros Hl. assert (L : length (zeros_of ip) = 8) by (unfold zeros_of; rewrite map_length, seq_length; reflexivity).
  pose proof (range_ok_8 _ L) as A. unfold range_ok in A.
  rewrite zero_range_zeros.
  destruct (zero_range_b (zeros_of ip)) as [s e].
  assert (Bd : forall i k, zero_groups (groups ip) i k -> i + k <= 8).
  { intros i k [H _]. unfold groups in H. rewrite map_length, seq_length in H. exact H. }
  destruct (Nat.eqb_spec s 255) as [->|].
  - left. apply andb_true_iff in A. destruct A as [A0 A]. split; [reflexivity|].
    split; [apply Nat.eqb_eq, A0|]. intros i H. pose proof (Bd _ _ H).
    apply (zero_groups_run ip i 2 Hl) in H.
    pose proof (forallb_seq _ _ A i ltac:(lia)) as A'. cbn beta in A'. rewrite H in A'. discriminate.
  - right. rewrite !andb_true_iff, !Nat.leb_le in A. destruct A as [[[A1 A2] A3] A4].
    split; [exact A1|]. split; [exact A2|]. split; [apply zero_groups_run; assumption|].
    intros j l H. pose proof (Bd _ _ H). apply (zero_groups_run ip j l Hl) in H.
    pose proof (forallb_seq _ _ (forallb_seq _ _ A4 j ltac:(lia)) l ltac:(lia)) as A'. cbn beta in A'.
    rewrite H in A'. cbn [implb] in A'. lia.
Qed.

(** ** Groups *)

Lemma hexdigit_digit n : (n < 16)%N -> exists c, hexdigit n = String c "" /\ digit c = Some n /\ ((n =? 0)%N = false -> c <> "0"%char).
Proof.
  intros H. assert (C : (n = 0 \/ n = 1 \/ n = 2 \/ n = 3 \/ n = 4 \/ n = 5 \/ n = 6 \/ n = 7 \/ n = 8 \/ n = 9 \/ n = 10 \/ n = 11 \/ n = 12 \/ n = 13 \/ n = 14 \/ n = 15)%N) by lia.
  repeat (destruct C as [->|C]; [eexists; split; [reflexivity|split; [reflexivity|intros; discriminate]]|]).
  subst n. eexists; split; [reflexivity|split; [reflexivity|intros; discriminate]].
Qed.

Lemma hex16_numeral x : (x < 65536)%N -> numeral 16 x (hex16 x).
Proof.
  intros Hx. unfold hex16.
  assert (H0 : (x mod 16 < 16)%N) by (apply N.mod_lt; lia).
  assert (H1 : (x / 16 mod 16 < 16)%N) by (apply N.mod_lt; lia).
  assert (H2 : (x / 256 mod 16 < 16)%N) by (apply N.mod_lt; lia).
  assert (H3 : (x / 4096 < 16)%N) by (apply N.div_lt_upper_bound; lia).
  assert (E0 : (x = 16 * (x / 16) + x mod 16)%N) by (apply N.div_mod'; lia).
  assert (E1 : (x / 16 = 16 * (x / 256) + x / 16 mod 16)%N).
  { replace (x / 256)%N with (x / 16 / 16)%N by (rewrite N.div_div by lia; reflexivity). apply N.div_mod'. }
  assert (E2 : (x / 256 = 16 * (x / 4096) + x / 256 mod 16)%N).
  { replace (x / 4096)%N with (x / 256 / 16)%N by (rewrite N.div_div by lia; reflexivity). apply N.div_mod'. }
  destruct (hexdigit_digit _ H0) as (c0 & -> & D0 & Z0).
  destruct (hexdigit_digit _ H1) as (c1 & -> & D1 & Z1).
  destruct (hexdigit_digit _ H2) as (c2 & -> & D2 & Z2).
  destruct (hexdigit_digit _ H3) as (c3 & -> & D3 & Z3).
  assert (B0 : ((x mod 16) <? 16)%N = true) by lia.
  assert (B1 : ((x / 16 mod 16) <? 16)%N = true) by lia.
  assert (B2 : ((x / 256 mod 16) <? 16)%N = true) by lia.
  assert (B3 : ((x / 4096) <? 16)%N = true) by lia.
  generalize dependent (x / 16 mod 16)%N. generalize dependent (x / 256 mod 16)%N.
  generalize dependent (x mod 16)%N. generalize dependent (x / 4096)%N.
  generalize dependent (x / 256)%N. generalize dependent (x / 16)%N. intros.
  destruct (N.leb_spec 4096 x); destruct (N.leb_spec 256 x); destruct (N.leb_spec 16 x); try lia;
    cbn [append]; (split;
    [cbn [read]; rewrite ?D0, ?D1, ?D2, ?D3, ?B0, ?B1, ?B2, ?B3; f_equal; lia|]).
  - right. do 2 eexists. split; [reflexivity|]. apply Z3. lia.
  - right. do 2 eexists. split; [reflexivity|]. apply Z2. lia.
  - right. do 2 eexists. split; [reflexivity|]. apply Z1. lia.
  - destruct (N.eq_dec x 0) as [->|].
    + left. f_equal. apply digit_zero. rewrite D0. f_equal. lia.
    + right. do 2 eexists. split; [reflexivity|]. apply Z0. lia.
Qed.

Lemma group_lt ip i : (group ip i < 65536)%N.
Proof. unfold group. pose proof (b2n_lt (nth (2 * i) ip x00)). pose proof (b2n_lt (nth (2 * i + 1) ip x00)). lia. Qed.

Definition hexes (ip : list byte) : list string := map (fun i => hex16 (group ip i)) (seq 0 8).

Lemma hexes_numerals ip : length ip = 16 -> Forall2 (numeral 16) (groups ip) (hexes ip).
Proof.
  intros Hl. rewrite (groups_group ip Hl). unfold hexes. induction (seq 0 8) as [|i l IH]; [constructor|].
  cbn [map]. constructor; [apply hex16_numeral, group_lt|exact IH].
Qed.

Lemma loop_plain ip : ip6_loop ip 255 255 0 8 = String.concat ":" (hexes ip).
Proof.
  unfold hexes. cbn [seq map String.concat]. cbn [ip6_loop Nat.leb Nat.eqb Nat.ltb append].
  rewrite ?sapp_assoc. cbn [append]. rewrite sapp_nil_r. reflexivity.
Qed.

Lemma loop_short ip s e : s + 2 <= e -> e <= 8 ->
  ip6_loop ip s e 0 8 = append (String.concat ":" (firstn s (hexes ip)))
                          (append "::" (String.concat ":" (skipn e (hexes ip)))).
Proof.
  intros H H'. unfold hexes. cbn [seq map].
  do 9 (destruct e as [|e]; [try lia; do 7 (destruct s as [|s]; [try lia;
    cbn [firstn skipn String.concat]; cbn [ip6_loop Nat.leb Nat.eqb Nat.ltb append];
    repeat (progress (rewrite ?sapp_assoc; cbn [append])); rewrite ?sapp_nil_r; reflexivity|]); lia|]).
  lia.
Qed.

Lemma ip6_string_text ip : length ip = 16 -> ip6_text ip (ip6_string ip).
Proof.
  intros Hl. unfold ip6_string, ip6_text. pose proof (zero_range_spec ip Hl) as Z.
  destruct (zero_range ip) as [s e]. exists (hexes ip). split; [apply hexes_numerals, Hl|].
  destruct Z as [(-> & -> & Z)|(H1 & H2 & Z)].
  - left. split; [exact Z|apply loop_plain].
  - right. exists s, (e - s). split; [lia|]. split; [exact Z|]. replace (s + (e - s)) with e by lia.
    apply loop_short; lia.
Qed.

(** ** IPv6 texts are unique and determine the address *)

Lemma ip6_text_unique ip s t : ip6_text ip s -> ip6_text ip t -> s = t.
Proof.
  intros (hs & H & C) (hs' & H' & C'). assert (hs = hs') by (apply (numerals_unique 16 (groups ip)); [lia|assumption..]).
  subst hs'. destruct C as [[C ->]|(i & k & Hk & F & ->)]; destruct C' as [[C' ->]|(i' & k' & Hk' & F' & ->)].
  - reflexivity.
  - exfalso. apply (C i'). destruct F' as [[L Z] _]. split; [lia|]. intros j Hj. apply Z. lia.
  - exfalso. apply (C' i). destruct F as [[L Z] _]. split; [lia|]. intros j Hj. apply Z. lia.
  - destruct F as [Z M]. destruct F' as [Z' M']. destruct (M _ _ Z') as [A B]. destruct (M' _ _ Z) as [A' B'].
    assert (k = k') by lia. subst k'. assert (i = i') by (specialize (B eq_refl); specialize (B' eq_refl); lia).
    subst i'. reflexivity.
Qed.

Lemma groups_inj a b : length a = 16 -> length b = 16 -> groups a = groups b -> a = b.
Proof.
  intros Ha Hb H.
  apply (decode_inj (repeat ("g"%string, U 16) 8)); [reflexivity|rewrite Ha; reflexivity|lia|].
  unfold groups in H. cbn [seq map] in H. unfold decode. cbn [repeat decode_at].
  injection H as E0 E1 E2 E3 E4 E5 E6 E7. cbn [Nat.mul Nat.add] in *.
  rewrite E0, E1, E2, E3, E4, E5, E6, E7. reflexivity.
Qed.

(** the pieces between colons of an abbreviated text *)
Definition pieces (l : list string) : list string := match l with [] => [""%string] | _ => l end.

Lemma split_colons l : Forall (lacks ":") l -> split ":" (String.concat ":" l) = pieces l.
Proof. intros H. destruct l as [|x l]; [reflexivity|]. apply split_concat; [discriminate|exact H]. Qed.

Lemma split_short a b : Forall (lacks ":") a -> Forall (lacks ":") b ->
  split ":" (append (String.concat ":" a) (append "::" (String.concat ":" b))) =
  (pieces a ++ "" :: pieces b)%list%string.
Proof.
  intros Ha Hb. change (append "::" (String.concat ":" b)) with (String ":" (append "" (String ":" (String.concat ":" b)))).
  rewrite split_sep, split_sep, (split_colons a Ha), (split_colons b Hb). reflexivity.
Qed.

Definition nonempty (s : string) : Prop := s <> ""%string.

Lemma sep_inj P Q P' Q' : Forall nonempty P -> Forall nonempty P' ->
  (P ++ "" :: Q = P' ++ "" :: Q')%list%string -> P = P' /\ Q = Q'.
Proof.
  intros HP. revert P'. induction HP as [|x P Hx HP IH]; intros [|y P'] HP' H; cbn [app] in H.
  - injection H as ->. split; reflexivity.
  - injection H as <- _. apply Forall_cons_iff in HP'. exfalso. apply (proj1 HP'). reflexivity.
  - injection H as -> _. exfalso. apply Hx. reflexivity.
  - injection H as -> H. apply Forall_cons_iff in HP'. destruct (IH _ (proj2 HP') H) as [-> ->]. split; reflexivity.
Qed.

Lemma pieces_inj a b : Forall nonempty a -> Forall nonempty b -> pieces a = pieces b -> a = b.
Proof.
  intros Ha Hb H. destruct a as [|x a]; destruct b as [|y b]; cbn [pieces] in H; try congruence.
  - injection H as <- _. apply Forall_cons_iff in Hb. exfalso. apply (proj1 Hb). reflexivity.
  - injection H as -> _. apply Forall_cons_iff in Ha. exfalso. apply (proj1 Ha). reflexivity.
Qed.

Lemma short_inj a b a' b' : Forall nonempty a -> Forall nonempty b -> Forall nonempty a' -> Forall nonempty b' ->
  (pieces a ++ "" :: pieces b = pieces a' ++ "" :: pieces b')%list%string -> a = a' /\ b = b'.
Proof.
  intros Ha Hb Ha' Hb' H. destruct a as [|x a]; destruct a' as [|x' a']; cbn [pieces] in H.
  - cbn [app] in H. injection H as H. split; [reflexivity|]. apply pieces_inj; assumption.
  - cbn [app] in H. injection H as <- _. apply Forall_cons_iff in Ha'. exfalso. apply (proj1 Ha'). reflexivity.
  - cbn [app] in H. injection H as -> _. apply Forall_cons_iff in Ha. exfalso. apply (proj1 Ha). reflexivity.
  - apply sep_inj in H; [|assumption..]. destruct H as [-> H]. split; [reflexivity|]. apply pieces_inj; assumption.
Qed.

Lemma Forall_firstn' {A} (P : A -> Prop) n l : Forall P l -> Forall P (firstn n l).
Proof. intros H. revert n. induction H; intros [|n]; cbn [firstn]; constructor; auto. Qed.
Lemma Forall_skipn' {A} (P : A -> Prop) n l : Forall P l -> Forall P (skipn n l).
Proof. intros H. revert n. induction H; intros [|n]; cbn [skipn]; auto. Qed.

Lemma Forall2_nth {A B} (P : A -> B -> Prop) l l' da db i :
  Forall2 P l l' -> i < length l -> P (nth i l da) (nth i l' db).
Proof. intros H. revert i. induction H; intros [|i] Hi; cbn in *; try lia; auto. apply IHForall2. lia. Qed.

Lemma ip6_text_inj a b s : length a = 16 -> length b = 16 -> ip6_text a s -> ip6_text b s -> a = b.
Proof.
  intros La Lb (hs & H & C) (hs' & H' & C'). apply groups_inj; [assumption..|].
  assert (Ga : length (groups a) = 8) by (unfold groups; rewrite map_length, seq_length; reflexivity).
  assert (Gb : length (groups b) = 8) by (unfold groups; rewrite map_length, seq_length; reflexivity).
  pose proof (Forall2_length' _ _ _ H) as Lh. pose proof (Forall2_length' _ _ _ H') as Lh'.
  assert (X : Forall (lacks ":") hs) by (eapply Forall2_right; [exact H|]; intros x y N; eapply numeral_lacks; [reflexivity|exact N]).
  assert (X' : Forall (lacks ":") hs') by (eapply Forall2_right; [exact H'|]; intros x y N; eapply numeral_lacks; [reflexivity|exact N]).
  assert (Y : Forall nonempty hs) by (eapply Forall2_right; [exact H|]; intros x y N; eapply numeral_nonempty, N).
  assert (Y' : Forall nonempty hs') by (eapply Forall2_right; [exact H'|]; intros x y N; eapply numeral_nonempty, N).
  assert (Pc : forall l, length l = 8 -> pieces l = l) by (intros [|? ?]; [discriminate|reflexivity]).
  assert (In_no : forall l i j, Forall nonempty l -> l <> (pieces i ++ "" :: pieces j)%list%string).
  { intros l i j Hf ->. apply Forall_app in Hf. destruct Hf as [_ Hf]. apply Forall_cons_iff in Hf. apply (proj1 Hf). reflexivity. }
  destruct C as [[C ->]|(i & k & Hk & F & ->)]; destruct C' as [[C' E]|(i' & k' & Hk' & F' & E)];
    apply (f_equal (split ":")) in E.
  - rewrite !split_colons in E by assumption. rewrite !Pc in E by congruence. subst hs'.
    exact (numerals_value 16 _ _ _ H H').
  - exfalso. rewrite split_colons, split_short in E by (try assumption; try apply Forall_firstn'; try apply Forall_skipn'; assumption).
    rewrite Pc in E by congruence. exact (In_no _ _ _ Y E).
  - exfalso. rewrite split_colons, split_short in E by (try assumption; try apply Forall_firstn'; try apply Forall_skipn'; assumption).
    rewrite (Pc hs') in E by congruence. exact (In_no _ _ _ Y' (eq_sym E)).
  - rewrite !split_short in E by (try apply Forall_firstn'; try apply Forall_skipn'; assumption).
    apply short_inj in E; [|try apply Forall_firstn'; try apply Forall_skipn'; assumption..].
    destruct E as [E1 E2]. destruct F as [[Fl Fz] _]. destruct F' as [[Fl' Fz'] _].
    rewrite Ga in Fl. rewrite Gb in Fl'.
    pose proof (f_equal (@length _) E1) as L1. rewrite !firstn_length in L1.
    pose proof (f_equal (@length _) E2) as L2. rewrite !skipn_length in L2.
    assert (i = i') by lia. subst i'. assert (k = k') by lia. subst k'.
    apply (nth_ext _ _ 1%N 1%N); [congruence|]. intros j Hj. rewrite Ga in Hj.
    destruct (Nat.lt_ge_cases j i) as [J|J]; [|destruct (Nat.lt_ge_cases j (i + k)) as [J'|J']].
    + pose proof (Forall2_nth _ _ _ 1%N ""%string j H ltac:(lia)) as N.
      pose proof (Forall2_nth _ _ _ 1%N ""%string j H' ltac:(lia)) as N'.
      rewrite <- (nth_firstn hs i j ""%string J), E1, (nth_firstn hs' i j ""%string J) in N.
      exact (numeral_value 16 _ _ _ N N').
    + rewrite Fz, Fz' by lia. reflexivity.
    + pose proof (Forall2_nth _ _ _ 1%N ""%string j H ltac:(lia)) as N.
      pose proof (Forall2_nth _ _ _ 1%N ""%string j H' ltac:(lia)) as N'.
      replace j with ((i + k) + (j - (i + k))) in N at 2 by lia.
      rewrite <- (nth_skipn hs (i + k) _ ""%string), E2, nth_skipn in N.
      replace ((i + k) + (j - (i + k))) with j in N by lia.
      exact (numeral_value 16 _ _ _ N N').
Qed.

Lemma ip6_text_colon ip s : ip6_text ip s -> 2 <= length (split ":" s).
Proof.
  intros (hs & H & C).
  assert (Ga : length (groups ip) = 8) by (unfold groups; rewrite map_length, seq_length; reflexivity).
  pose proof (Forall2_length' _ _ _ H) as Lh.
  assert (X : Forall (lacks ":") hs) by (eapply Forall2_right; [exact H|]; intros x y N; eapply numeral_lacks; [reflexivity|exact N]).
  destruct C as [[C ->]|(i & k & Hk & F & ->)].
  - rewrite split_colons by assumption. destruct hs; [cbn in Lh; lia|]. cbn [pieces]. lia.
  - rewrite split_short by (try apply Forall_firstn'; try apply Forall_skipn'; assumption).
    rewrite app_length. cbn [length].
    assert (P : forall l, 1 <= length (pieces l)) by (intros [|? ?]; cbn; lia).
    pose proof (P (firstn i hs)). pose proof (P (skipn (i + k) hs)). lia.
Qed.

(** ** Both *)

Lemma to4_mapped ip : length ip = 16 ->
  (mapped ip /\ ip_to4 ip = Some (skipn 12 ip)) \/ (~ mapped ip /\ ip_to4 ip = None).
Proof.
  intros Hl. unfold ip_to4, mapped. rewrite Hl. cbn [Nat.eqb andb].
  do 16 (destruct ip as [|? ip]; [discriminate|]). destruct ip; [|discriminate].
  cbn [firstn forallb nth skipn repeat app].
  match goal with |- context [if ?c then _ else _] => destruct c eqn:E end.
  - left. split; [|reflexivity]. split; [reflexivity|].
    rewrite !andb_true_iff in E.
    repeat match goal with H : _ /\ _ |- _ => destruct H end.
    repeat match goal with H : Byte.eqb _ _ = true |- _ => apply Byte.byte_dec_bl in H; subst end. reflexivity.
  - right. split; [|reflexivity]. intros [_ M]. injection M as -> -> -> -> -> -> -> -> -> -> -> ->. discriminate.
Qed.

Lemma ip_string_text ip : length ip = 4 \/ length ip = 16 -> ip_text ip (ip_string ip).
Proof.
  intros [Hl|Hl]; unfold ip_string, ip_text; rewrite Hl; cbn [Nat.eqb orb negb].
  - left. split; [reflexivity|]. unfold ip_to4. rewrite Hl. cbn [Nat.eqb]. apply ip4_string_text.
  - right. destruct (to4_mapped ip Hl) as [[M ->]|[M ->]].
    + left. split; [exact M|]. apply ip4_string_text.
    + right. repeat split; [exact M|]. apply ip6_string_text, Hl.
Qed.

Lemma ip_text_unique ip s t : ip_text ip s -> ip_text ip t -> s = t.
Proof.
  intros [[L H]|[[M H]|(L & M & H)]] [[L' H']|[[M' H']|(L' & M' & H')]];
    try (destruct M as [M _]; congruence); try (destruct M' as [M' _]; congruence); try congruence; try tauto.
  - exact (ip4_text_unique _ _ _ H H').
  - exact (ip4_text_unique _ _ _ H H').
  - exact (ip6_text_unique _ _ _ H H').
Qed.

Lemma ip_text_inj a b s : length a = length b -> ip_text a s -> ip_text b s -> a = b.
Proof.
  intros E [[L H]|[[M H]|(L & M & H)]] [[L' H']|[[M' H']|(L' & M' & H')]];
    try (destruct M as [M _]; congruence); try (destruct M' as [M' _]; congruence); try congruence; try tauto.
  - apply (ip4_text_inj a b s); [intros ->; discriminate|intros ->; discriminate|assumption..].
  - destruct M as [L M]. destruct M' as [L' M'].
    rewrite <- (firstn_skipn 12 a), <- (firstn_skipn 12 b), M, M'. f_equal.
    apply (ip4_text_inj _ _ s); try assumption.
    + intros Z. apply (f_equal (@length _)) in Z. rewrite skipn_length in Z. cbn in Z. lia.
    + intros Z. apply (f_equal (@length _)) in Z. rewrite skipn_length in Z. cbn in Z. lia.
  - exfalso. apply ip4_text_lacks, split_lacks in H. apply ip6_text_colon in H'. rewrite H in H'. cbn in H'. lia.
  - exfalso. apply ip4_text_lacks, split_lacks in H'. apply ip6_text_colon in H. rewrite H' in H. cbn in H. lia.
  - exact (ip6_text_inj a b s L L' H H').
Qed.

Lemma ip_string_inj a b : length a = 4 \/ length a = 16 -> length a = length b ->
  ip_string a = ip_string b -> a = b.
Proof.
  intros L E H. apply (ip_text_inj a b (ip_string a) E); [apply ip_string_text, L|].
  rewrite H. apply ip_string_text. rewrite <- E. exact L.
Qed.
