(** * CanonNum: texts of numbers and byte arrays. Proofs only. *)

From Coq Require Import NArith ZArith Bool String Ascii Arith List Lia.
From Coq Require Import ZifyBool ZifyNat ZifyN.
From Coq Require Import DecimalString HexadecimalString DecimalN HexadecimalN DecimalFacts HexadecimalFacts.
From Verif Require Import GoBase GoFmt Slices Wire WireLemmas Canon.
Import ListNotations.
Local Open Scope nat_scope.

(** ** Decimal *)

Lemma read_cons base acc c d s : digit c = Some d -> (d <? base)%N = true ->
  read base acc (String c s) = read base (acc * base + d) s.
Proof. intros H H'. cbn [read]. rewrite H, H'. reflexivity. Qed.

Ltac read_step :=
  match goal with |- read ?b ?a (String ?c ?s) = _ =>
    let d := eval vm_compute in (digit c) in
    match d with Some ?n => rewrite (read_cons b a c n s) by reflexivity end end.

Lemma read_dec_acc d : forall p,
  read 10 (Npos p) (DecimalString.NilEmpty.string_of_uint d) = Some (Npos (Pos.of_uint_acc d p)).
Proof.
  induction d; intros p; [reflexivity|..];
    cbn [DecimalString.NilEmpty.string_of_uint Pos.of_uint_acc];
    read_step;
    match goal with |- read _ ?a _ = Some (Npos (Pos.of_uint_acc _ ?q)) =>
      rewrite <- (IHd q); replace a with (Npos q); [reflexivity|] end; lia.
Qed.

Lemma read_dec d : read 10 0 (DecimalString.NilEmpty.string_of_uint d) = Some (N.of_uint d).
Proof.
  induction d; [reflexivity|..];
    cbn [DecimalString.NilEmpty.string_of_uint];
    read_step; [exact IHd|..]; apply read_dec_acc.
Qed.

Lemma dec_numeral n : numeral 10 n (dec n).
Proof.
  unfold dec, DecimalString.NilZero.string_of_uint.
  assert (E : Decimal.unorm (N.to_uint n) = N.to_uint n).
  { rewrite <- DecimalN.Unsigned.to_of, DecimalN.Unsigned.of_to. reflexivity. }
  assert (V : N.of_uint (N.to_uint n) = n) by apply DecimalN.Unsigned.of_to.
  pose proof (read_dec (N.to_uint n)) as R. rewrite V in R.
  destruct (N.to_uint n) eqn:U; try (split; [exact R|]);
    try (right; do 2 eexists; split; [reflexivity|discriminate]).
  left. unfold Decimal.unorm in E.
  destruct (Decimal.nzhead (Decimal.D0 u)) eqn:Z; try discriminate E.
  - injection E as <-. reflexivity.
  - exfalso. exact (DecimalFacts.nzhead_nonzero _ _ Z).
Qed.

(** ** Hexadecimal *)

Lemma read_hex_acc d : forall p,
  read 16 (Npos p) (HexadecimalString.NilEmpty.string_of_uint d) = Some (Npos (Pos.of_hex_uint_acc d p)).
Proof.
  induction d; intros p; [reflexivity|..];
    cbn [HexadecimalString.NilEmpty.string_of_uint Pos.of_hex_uint_acc];
    read_step;
    match goal with |- read _ ?a _ = Some (Npos (Pos.of_hex_uint_acc _ ?q)) =>
      rewrite <- (IHd q); replace a with (Npos q); [reflexivity|] end; lia.
Qed.

Lemma read_hex d : read 16 0 (HexadecimalString.NilEmpty.string_of_uint d) = Some (N.of_hex_uint d).
Proof.
  induction d; [reflexivity|..];
    cbn [HexadecimalString.NilEmpty.string_of_uint];
    read_step; [exact IHd|..]; apply read_hex_acc.
Qed.

Lemma hex_numeral n : numeral 16 n (HexadecimalString.NilZero.string_of_uint (N.to_hex_uint n)).
Proof.
  unfold HexadecimalString.NilZero.string_of_uint.
  assert (E : Hexadecimal.unorm (N.to_hex_uint n) = N.to_hex_uint n).
  { rewrite <- HexadecimalN.Unsigned.to_of, HexadecimalN.Unsigned.of_to. reflexivity. }
  assert (V : N.of_hex_uint (N.to_hex_uint n) = n) by apply HexadecimalN.Unsigned.of_to.
  pose proof (read_hex (N.to_hex_uint n)) as R. rewrite V in R.
  destruct (N.to_hex_uint n) eqn:U; try (split; [exact R|]);
    try (right; do 2 eexists; split; [reflexivity|discriminate]).
  left. unfold Hexadecimal.unorm in E.
  destruct (Hexadecimal.nzhead (Hexadecimal.D0 u)) eqn:Z; try discriminate E.
  - injection E as <-. reflexivity.
  - exfalso. exact (HexadecimalFacts.nzhead_nonzero _ _ Z).
Qed.

Lemma hexN_numeral n : exists s, hexN n = append "0x" s /\ numeral 16 n s.
Proof. eexists. split; [reflexivity|]. apply hex_numeral. Qed.

(** ** Binary *)

Lemma bin_pos_read p : forall acc a,
  read 2 a (bin_pos p acc) = read 2 (a * 2 ^ N.of_nat (Pos.size_nat p) + Npos p) acc.
Proof.
  induction p as [p IH|p IH|]; intros acc a; cbn [bin_pos].
  - rewrite IH. read_step. f_equal. cbn [Pos.size_nat].
    rewrite Nnat.Nat2N.inj_succ, N.pow_succ_r'. lia.
  - rewrite IH. read_step. f_equal. cbn [Pos.size_nat].
    rewrite Nnat.Nat2N.inj_succ, N.pow_succ_r'. lia.
  - read_step. f_equal.
Qed.

Lemma bin_pos_head p : forall acc, exists r, bin_pos p acc = String "1" r.
Proof. induction p; intros acc; cbn [bin_pos]; eauto. Qed.

Lemma binN_numeral n : exists s, binN n = append "0b" s /\ numeral 2 n s.
Proof.
  unfold binN. eexists. split; [reflexivity|]. destruct n as [|p].
  - split; [reflexivity|left; reflexivity].
  - split.
    + rewrite bin_pos_read. cbn [read]. f_equal.
    + right. destruct (bin_pos_head p "") as [r ->]. do 2 eexists. split; [reflexivity|discriminate].
Qed.

(** ** A number has one numeral *)

Lemma read_app base s : forall acc t,
  read base acc (append s t) = match read base acc s with Some a => read base a t | None => None end.
Proof.
  induction s as [|c s IH]; intros acc t; [reflexivity|]. cbn [append read].
  destruct (digit c) as [d|]; [|reflexivity]. destruct (d <? base)%N; [apply IH|reflexivity].
Qed.

(** the digits of a numeral of length [n] read a number below [base]^n *)
Lemma read_bound base s : forall acc v, (0 < base)%N -> read base acc s = Some v ->
  exists w, v = (acc * base ^ N.of_nat (String.length s) + w)%N /\ (w < base ^ N.of_nat (String.length s))%N.
Proof.
  induction s as [|c s IH]; intros acc v Hb H; cbn [read] in H.
  - injection H as <-. exists 0%N. cbn. lia.
  - destruct (digit c) as [d|]; [|discriminate]. destruct (N.ltb_spec d base) as [Hd|]; [|discriminate].
    destruct (IH _ _ Hb H) as (w & -> & Hw).
    exists (d * base ^ N.of_nat (String.length s) + w)%N. cbn [String.length].
    rewrite Nnat.Nat2N.inj_succ, N.pow_succ_r'. split; [ring|].
    pose proof (N.mul_le_mono_r (d + 1) base (base ^ N.of_nat (String.length s)) ltac:(lia)). lia.
Qed.

Lemma digit_inj c c' d : digit c = Some d -> digit c' = Some d -> c = c'.
Proof.
  unfold digit. intros H H'. rewrite <- (ascii_N_embedding c), <- (ascii_N_embedding c'). f_equal.
  destruct ((48 <=? N_of_ascii c)%N && (N_of_ascii c <=? 57)%N)%bool eqn:E1;
  destruct ((48 <=? N_of_ascii c')%N && (N_of_ascii c' <=? 57)%N)%bool eqn:E2;
  destruct ((97 <=? N_of_ascii c)%N && (N_of_ascii c <=? 102)%N)%bool eqn:E3;
  destruct ((97 <=? N_of_ascii c')%N && (N_of_ascii c' <=? 102)%N)%bool eqn:E4;
    try discriminate; injection H; injection H'; lia.
Qed.

(** equally long digit strings of the same value are equal *)
Lemma read_inj base s : forall t a b v, (0 < base)%N -> String.length s = String.length t ->
  read base a s = Some v -> read base b t = Some v -> s = t /\ a = b.
Proof.
  induction s as [|c s IH]; intros [|c' t] a b v Hb Hl H H'; try discriminate Hl; cbn [read] in *.
  - split; congruence.
  - destruct (digit c) as [d|] eqn:D; [|discriminate]. destruct (digit c') as [d'|] eqn:D'; [|discriminate].
    destruct (N.ltb_spec d base); [|discriminate]. destruct (N.ltb_spec d' base); [|discriminate].
    injection Hl as Hl. destruct (IH t _ _ v Hb Hl H H') as [-> E].
    assert (E' : a = b /\ d = d').
    { assert (a = b).
      { rewrite (N.div_unique (a * base + d) base a d), (N.div_unique (b * base + d') base b d'); [congruence|lia..]. }
      subst. lia. }
    destruct E' as [-> ->]. rewrite (digit_inj _ _ _ D D'). split; reflexivity.
Qed.

Lemma digit_zero c : digit c = Some 0%N -> c = "0"%char.
Proof. intros H. apply (digit_inj _ _ 0%N H). reflexivity. Qed.

(** the value of a numeral not starting with 0 *)
Lemma read_nonzero base c s v : (0 < base)%N -> c <> "0"%char -> read base 0 (String c s) = Some v ->
  (base ^ N.of_nat (String.length s) <= v < base ^ N.of_nat (S (String.length s)))%N.
Proof.
  intros Hb Hc H. pose proof H as H'. cbn [read] in H. destruct (digit c) as [d|] eqn:D; [|discriminate].
  destruct (N.ltb_spec d base); [|discriminate]. destruct (read_bound base s _ _ Hb H) as (w & -> & Hw).
  assert (d <> 0%N) by (intros ->; apply Hc, digit_zero, D).
  rewrite Nnat.Nat2N.inj_succ, N.pow_succ_r'.
  pose proof (N.mul_le_mono_r (d + 1) base (base ^ N.of_nat (String.length s)) ltac:(lia)).
  pose proof (N.mul_le_mono_r 1 d (base ^ N.of_nat (String.length s)) ltac:(lia)). lia.
Qed.

Lemma numeral_unique base n s t : (1 < base)%N -> numeral base n s -> numeral base n t -> s = t.
Proof.
  intros Hb [H Hs] [H' Ht].
  assert (P : forall k, (0 < base ^ N.of_nat k)%N) by (intros; apply N.neq_0_lt_0, N.pow_nonzero; lia).
  destruct Hs as [->|(c & r & -> & Hc)]; destruct Ht as [->|(c' & r' & -> & Hc')].
  - reflexivity.
  - exfalso. pose proof (read_nonzero base c' r' n ltac:(lia) Hc' H') as B.
    cbn [read] in H. change (digit "0") with (Some 0%N) in H. cbn iota in H.
    destruct (0 <? base)%N; [|discriminate]. injection H as <-. specialize (P (String.length r')). lia.
  - exfalso. pose proof (read_nonzero base c r n ltac:(lia) Hc H) as B.
    cbn [read] in H'. change (digit "0") with (Some 0%N) in H'. cbn iota in H'.
    destruct (0 <? base)%N; [|discriminate]. injection H' as <-. specialize (P (String.length r)). lia.
  - pose proof (read_nonzero base c r n ltac:(lia) Hc H) as B.
    pose proof (read_nonzero base c' r' n ltac:(lia) Hc' H') as B'.
    assert (L : String.length r = String.length r').
    { destruct (Nat.lt_trichotomy (String.length r) (String.length r')) as [L|[L|L]]; [exfalso|exact L|exfalso].
      - assert (base ^ N.of_nat (S (String.length r)) <= base ^ N.of_nat (String.length r'))%N
          by (apply N.pow_le_mono_r; lia). lia.
      - assert (base ^ N.of_nat (S (String.length r')) <= base ^ N.of_nat (String.length r))%N
          by (apply N.pow_le_mono_r; lia). lia. }
    refine (proj1 (read_inj base _ _ 0 0 n _ _ H H')); [lia|cbn [String.length]; congruence].
Qed.

Lemma numeral_value base n m s : numeral base n s -> numeral base m s -> n = m.
Proof. intros [H _] [H' _]. congruence. Qed.

Lemma dec_inj a b : dec a = dec b -> a = b.
Proof. intros H. apply (numeral_value 10 a b (dec a)); [apply dec_numeral|rewrite H; apply dec_numeral]. Qed.

Lemma hexN_inj a b : hexN a = hexN b -> a = b.
Proof.
  intros H. destruct (hexN_numeral a) as (s & Hs & Na). destruct (hexN_numeral b) as (t & Ht & Nb).
  rewrite Hs, Ht in H. injection H as ->. apply (numeral_value 16 a b t Na Nb).
Qed.

Lemma binN_inj a b : binN a = binN b -> a = b.
Proof.
  intros H. destruct (binN_numeral a) as (s & Hs & Na). destruct (binN_numeral b) as (t & Ht & Nb).
  rewrite Hs, Ht in H. injection H as ->. apply (numeral_value 2 a b t Na Nb).
Qed.

(** ** Bytes *)

Lemma hex2_digits b : hex_digits 2 (b2n b) (hex2 b).
Proof. destruct b; vm_compute; split; reflexivity. Qed.

Lemma Forall2_map_r {A B} (P : A -> B -> Prop) f (l : list A) :
  (forall x, P x (f x)) -> Forall2 P l (map f l).
Proof. intros H. induction l; constructor; auto. Qed.

Lemma hexbytes_digits bs : bs <> [] -> exists s, hexbytes bs = append "0x" s /\ hex_bytes bs s.
Proof.
  intros H. destruct bs as [|b r]; [congruence|]. eexists. split; [reflexivity|].
  exists (map hex2 (b :: r)). split; [|reflexivity]. apply Forall2_map_r, hex2_digits.
Qed.

Lemma mac_digits bs : mac_text bs (mac_string bs).
Proof. exists (map hex2 bs). split; [|reflexivity]. apply Forall2_map_r, hex2_digits. Qed.
