(** * WireLemmas: facts about bit fields and layouts. Proofs only. *)

From Coq Require Import NArith ZArith Bool String Arith List Lia.
From Coq Require Import ZifyBool ZifyNat ZifyN.
From Verif Require Import GoBase ClcModel Slices Wire.

Import ListNotations.
Local Open Scope nat_scope.

Lemma be_acc_BE bs : forall acc, be_acc acc bs = (acc * 256 ^ N.of_nat (length bs) + BE bs)%N.
Proof.
  induction bs as [|b bs IH]; intros acc; cbn [be_acc BE length].
  - cbn. lia.
  - rewrite IH, Nat2N.inj_succ, N.pow_succ_r'. lia.
Qed.

Lemma be_acc0 bs : be_acc 0 bs = BE bs.
Proof. rewrite be_acc_BE. lia. Qed.

Lemma BE_app a b : BE (a ++ b) = (BE a * 256 ^ N.of_nat (length b) + BE b)%N.
Proof.
  induction a as [|x a IH]; cbn [app BE]; [lia|].
  rewrite IH, app_length, Nat2N.inj_add, N.pow_add_r. lia.
Qed.

Lemma BE_lt bs : (BE bs < 256 ^ N.of_nat (length bs))%N.
Proof.
  induction bs as [|b bs IH]; cbn [BE length]; [cbn; lia|].
  rewrite Nat2N.inj_succ, N.pow_succ_r'. pose proof (b2n_lt b). nia.
Qed.

Lemma pow256 n : (256 ^ N.of_nat n = 2 ^ N.of_nat (8 * n))%N.
Proof. rewrite Nat2N.inj_mul. change 256%N with (2 ^ 8)%N. rewrite <- N.pow_mul_r. reflexivity. Qed.

(** ** A range of bits as a part of the big-endian number *)

Lemma binary_snoc l d : binary (l ++ [d]) = (if d then 2 * binary l + 1 else 2 * binary l)%N.
Proof. unfold binary. rewrite fold_left_app. reflexivity. Qed.

Lemma binary_app a b : binary (a ++ b) = (binary a * 2 ^ N.of_nat (length b) + binary b)%N.
Proof.
  induction b as [|d b IH] using rev_ind.
  - rewrite app_nil_r. cbn. lia.
  - rewrite app_assoc, !binary_snoc, IH, app_length. cbn [length].
    rewrite Nat.add_1_r, Nat2N.inj_succ, N.pow_succ_r'. destruct d; lia.
Qed.

Lemma binary_lt l : (binary l < 2 ^ N.of_nat (length l))%N.
Proof.
  induction l as [|d l IH] using rev_ind; [reflexivity|].
  rewrite binary_snoc, app_length. cbn [length].
  rewrite Nat.add_1_r, Nat2N.inj_succ, N.pow_succ_r'. destruct d; lia.
Qed.

Lemma byte_bits_length b : length (byte_bits b) = 8.
Proof. destruct b; reflexivity. Qed.

Lemma byte_bits_value b : binary (byte_bits b) = b2n b.
Proof. destruct b; reflexivity. Qed.

Lemma all_bits_length bs : length (flat_map byte_bits bs) = 8 * length bs.
Proof.
  induction bs as [|b bs IH]; cbn [flat_map length]; [reflexivity|].
  rewrite app_length, byte_bits_length, IH. lia.
Qed.

Lemma all_bits_value bs : binary (flat_map byte_bits bs) = BE bs.
Proof.
  induction bs as [|b bs IH]; cbn [flat_map BE]; [reflexivity|].
  rewrite binary_app, byte_bits_value, IH, all_bits_length, pow256. reflexivity.
Qed.

Lemma bits_lt bs off w : (bits bs off w < 2 ^ N.of_nat w)%N.
Proof.
  unfold bits. eapply N.lt_le_trans; [apply binary_lt|]. apply N.pow_le_mono_r; [discriminate|].
  rewrite firstn_length. lia.
Qed.

Lemma bits_div bs off w : off + w <= 8 * length bs ->
  bits bs off w = ((BE bs / 2 ^ N.of_nat (8 * length bs - off - w)) mod 2 ^ N.of_nat w)%N.
Proof.
  intros H. unfold bits. rewrite <- all_bits_value, <- all_bits_length in *.
  generalize dependent (flat_map byte_bits bs). intros l H.
  set (a := firstn off l). set (b := firstn w (skipn off l)). set (c := skipn w (skipn off l)).
  assert (E : l = a ++ b ++ c) by (unfold a, b, c; rewrite !firstn_skipn; reflexivity).
  assert (Hb : length b = w) by (unfold b; rewrite firstn_length, skipn_length; lia).
  assert (Hc : length c = length l - off - w) by (unfold c; rewrite !skipn_length; lia).
  rewrite <- Hc, <- Hb, E, !binary_app, app_length, Nat2N.inj_add, N.pow_add_r.
  pose proof (binary_lt b) as B. pose proof (binary_lt c) as C.
  set (P := (2 ^ N.of_nat (length b))%N) in *. set (Q := (2 ^ N.of_nat (length c))%N) in *.
  assert (P0 : P <> 0%N) by (apply N.pow_nonzero; discriminate).
  assert (Q0 : Q <> 0%N) by (apply N.pow_nonzero; discriminate).
  replace (binary a * (P * Q) + (binary b * Q + binary c))%N
    with ((binary a * P + binary b) * Q + binary c)%N by lia.
  rewrite N.div_add_l, (N.div_small (binary c)), N.add_0_r, N.add_comm, N.mod_add by assumption.
  symmetry. apply N.mod_small. exact B.
Qed.

Lemma split3 (bs : list byte) o n : o + n <= length bs ->
  bs = firstn o bs ++ seg bs o n ++ skipn (o + n) bs.
Proof.
  intros. rewrite <- (firstn_skipn o bs) at 1. f_equal.
  rewrite <- (firstn_skipn n (skipn o bs)) at 1. f_equal.
  rewrite skipn_skipn. f_equal; lia.
Qed.

(** a bit range inside the bytes [o .. o+n-1] *)
Lemma bits_seg bs o n k w : o + n <= length bs -> k + w <= 8 * n ->
  bits bs (8 * o + k) w = bits (seg bs o n) k w.
Proof.
  intros Hl Hk. rewrite !bits_div by (rewrite ?seg_length; lia). rewrite (seg_length bs o n) by lia.
  rewrite (split3 bs o n) at 1 by lia.
  rewrite !BE_app, app_length, skipn_length, (seg_length bs o n) by lia.
  set (pre := BE (firstn o bs)). set (mid := BE (seg bs o n)).
  pose proof (BE_lt (skipn (o + n) bs)) as Hpost. rewrite skipn_length in Hpost.
  set (post := BE (skipn (o + n) bs)) in *.
  rewrite pow256 in Hpost. rewrite !pow256.
  set (p := length bs - (o + n)) in *.
  replace (8 * length bs - (8 * o + k) - w) with (8 * p + (8 * n - k - w)) by (subst p; lia).
  set (s := 8 * n - k - w).
  rewrite Nat2N.inj_add, N.pow_add_r.
  rewrite <- N.div_div by (apply N.pow_nonzero; lia).
  replace (8 * (n + p)) with (8 * n + 8 * p) by lia.
  rewrite (Nat2N.inj_add (8 * n)), N.pow_add_r.
  set (P := (2 ^ N.of_nat (8 * p))%N) in *.
  replace (pre * (2 ^ N.of_nat (8 * n) * P) + (mid * P + post))%N
    with (post + (pre * 2 ^ N.of_nat (8 * n) + mid) * P)%N by lia.
  rewrite N.div_add by (apply N.pow_nonzero; lia).
  rewrite (N.div_small post) by assumption. rewrite N.add_0_l.
  replace (8 * n) with (k + w + s) by (subst s; lia).
  rewrite (Nat2N.inj_add (k + w)), N.pow_add_r, N.mul_assoc, N.add_comm.
  rewrite N.div_add by (apply N.pow_nonzero; lia).
  rewrite Nat2N.inj_add, N.pow_add_r, N.mul_assoc.
  rewrite N.mod_add by (apply N.pow_nonzero; lia). reflexivity.
Qed.

Lemma bits_bytes bs o n off w : off = 8 * o -> w = 8 * n -> o + n <= length bs ->
  bits bs off w = BE (seg bs o n).
Proof.
  intros -> -> H. rewrite <- (Nat.add_0_r (8 * o)), (bits_seg bs o n) by lia.
  rewrite bits_div by (rewrite seg_length; lia). rewrite seg_length by lia.
  replace (8 * n - 0 - 8 * n) with 0 by lia. cbn [N.of_nat].
  rewrite N.pow_0_r, N.div_1_r. apply N.mod_small.
  pose proof (BE_lt (seg bs o n)) as Hlt. rewrite seg_length, pow256 in Hlt by lia. exact Hlt.
Qed.

Lemma bits_byte bs o k w off : off = 8 * o + k -> o < length bs -> k + w <= 8 ->
  bits bs off w = ((b2n (nth o bs x00) / 2 ^ N.of_nat (8 - k - w)) mod 2 ^ N.of_nat w)%N.
Proof.
  intros -> H Hk. rewrite (bits_seg bs o 1) by lia.
  rewrite (seg_S _ _ _ x00), seg_0 by lia. rewrite bits_div by (cbn [length]; lia). cbn [length BE N.of_nat].
  rewrite N.pow_0_r, N.mul_1_r, N.add_0_r. reflexivity.
Qed.

Lemma bytes_at_seg bs o n : bytes_at bs o n = seg bs o n.
Proof. reflexivity. Qed.

Lemma seg_within {A} (bs : list A) n o k : o + k <= n -> seg (firstn n bs) o k = seg bs o k.
Proof. intros. change (firstn n bs) with (seg bs 0 n). rewrite seg_seg by lia. reflexivity. Qed.

(** ** Layouts lose nothing *)

(** the number assembled from fields in wire order *)
Fixpoint assemble (l : layout) (vs : list (string * val)) (acc : N) : N :=
  match l, vs with
  | (_, k) :: l', (_, v) :: vs' =>
      assemble l' vs'
        (acc * 2 ^ N.of_nat (kind_bits k) + match v with VN n => n | VB bs => BE bs end)%N
  | _, _ => acc
  end.

Lemma bits_split bs off w w' : off + w + w' <= 8 * length bs ->
  (bits bs off w * 2 ^ N.of_nat w' + bits bs (off + w) w' = bits bs off (w + w'))%N.
Proof.
  intros H. rewrite !bits_div by lia.
  replace (8 * length bs - off - (w + w')) with (8 * length bs - (off + w) - w') by lia.
  set (s := 8 * length bs - (off + w) - w').
  replace (8 * length bs - off - w) with (s + w') by (subst s; lia).
  rewrite !Nat2N.inj_add, !N.pow_add_r.
  assert (Hs : (2 ^ N.of_nat s <> 0)%N) by (apply N.pow_nonzero; lia).
  assert (Hw : (2 ^ N.of_nat w <> 0)%N) by (apply N.pow_nonzero; lia).
  assert (Hw' : (2 ^ N.of_nat w' <> 0)%N) by (apply N.pow_nonzero; lia).
  rewrite <- N.div_div by assumption.
  set (x := (BE bs / 2 ^ N.of_nat s)%N).
  rewrite (N.mul_comm (2 ^ N.of_nat w) (2 ^ N.of_nat w')).
  rewrite (N.mod_mul_r x) by assumption. lia.
Qed.

Lemma bits_all bs : bits bs 0 (8 * length bs) = BE bs.
Proof.
  rewrite (bits_bytes bs 0 (length bs)) by lia. rewrite seg_all by lia. reflexivity.
Qed.

Lemma assemble_decode_at l : forall off bs, aligned_at l off = true ->
  off + layout_bits l <= 8 * length bs ->
  assemble l (decode_at l off bs) (bits bs 0 off) = bits bs 0 (off + layout_bits l).
Proof.
  induction l as [|[name [w|n]] l IH]; intros off bs Ha Hl; cbn [assemble decode_at layout_bits kind_bits aligned_at] in *.
  - rewrite Nat.add_0_r; reflexivity.
  - rewrite bits_split by lia. rewrite IH by (assumption || lia). f_equal; lia.
  - apply andb_prop in Ha; destruct Ha as [Ha1 Ha2].
    rewrite bytes_at_seg.
    assert (Hoff : off = 8 * (off / 8)) by (apply Nat.eqb_eq in Ha1; lia).
    rewrite <- (bits_bytes bs (off / 8) n off (8 * n)) by lia.
    rewrite bits_split by lia. rewrite IH by (assumption || lia). f_equal; lia.
Qed.

Lemma BE_inj a : forall b, length a = length b -> BE a = BE b -> a = b.
Proof.
  induction a as [|x a IH]; intros [|y b] Hl H; cbn [length] in Hl; try lia; [reflexivity|].
  cbn [BE] in H. assert (Hl' : length a = length b) by lia. rewrite Hl' in H.
  pose proof (BE_lt a) as Ha. pose proof (BE_lt b) as Hb. rewrite Hl' in Ha.
  set (P := (256 ^ N.of_nat (length b))%N) in *.
  assert (b2n x = b2n y /\ BE a = BE b) as [Hx Hab].
  { assert (P <> 0)%N by (subst P; apply N.pow_nonzero; lia).
    assert (b2n x = b2n y) as E.
    { pose proof (f_equal (fun z => (z / P)%N) H) as E. cbv beta in E.
      rewrite !(N.add_comm (_ * P)), !N.div_add in E by assumption.
      rewrite !N.div_small in E by assumption. exact E. }
    split; [exact E|]. rewrite E in H. lia. }
  f_equal; [|apply IH; assumption].
  unfold b2n in Hx. pose proof (Byte.of_to_N x) as E1. pose proof (Byte.of_to_N y) as E2.
  rewrite Hx in E1. congruence.
Qed.

(** two byte sequences of the length of the layout with the same fields are equal *)
Lemma decode_inj l bs bs' : aligned_at l 0 = true ->
  layout_bits l = 8 * length bs -> length bs' = length bs ->
  decode l bs = decode l bs' -> bs = bs'.
Proof.
  intros Ha Hl Hl' H. apply BE_inj; [lia|].
  rewrite <- (bits_all bs), <- (bits_all bs').
  pose proof (assemble_decode_at l 0 bs Ha) as E. pose proof (assemble_decode_at l 0 bs' Ha) as E'.
  unfold decode in H. rewrite H in E. rewrite Hl', <- Hl. cbn [Nat.add] in E, E'.
  rewrite <- E, <- E' by lia.
  reflexivity.
Qed.

(** ** Deciding equations about one byte by checking all 256 *)

Definition all_bytes : list byte := map n2b (map N.of_nat (seq 0 256)).

Lemma all_bytes_complete b : In b all_bytes.
Proof.
  unfold all_bytes. rewrite map_map. apply in_map_iff. exists (N.to_nat (b2n b)). split.
  - rewrite N2Nat.id. unfold n2b. rewrite N.mod_small by apply b2n_lt.
    unfold b2n. rewrite Byte.of_to_N. reflexivity.
  - apply in_seq. pose proof (b2n_lt b). lia.
Qed.

Lemma byte_ext (f g : byte -> N) :
  forallb (fun b => N.eqb (f b) (g b)) all_bytes = true -> forall b, f b = g b.
Proof.
  intros H b. rewrite forallb_forall in H.
  apply N.eqb_eq, H, all_bytes_complete.
Qed.

Ltac byte_sweep b :=
  revert b;
  match goal with |- forall b, @?f b = @?g b => apply (byte_ext f g) end;
  vm_compute; reflexivity.

(** proves [f (nth o bs x00) = bits bs off w] for literal [off] and [w] *)
Ltac bits_in_byte :=
  match goal with
  | |- _ = bits ?bs ?off ?w =>
      let o := eval compute in (off / 8) in
      let k := eval compute in (off mod 8) in
      rewrite (bits_byte bs o k w) by (reflexivity || lia);
      generalize (nth o bs x00);
      match goal with |- forall b, @?f b = @?g b => apply (byte_ext f g) end;
      vm_compute; reflexivity
  end.

(** proves [BE (seg bs o n) = bits bs off w] *)
Ltac bits_in_bytes :=
  match goal with
  | |- BE (seg ?bs ?o ?n) = bits ?bs ?off ?w =>
      symmetry; apply bits_bytes; [reflexivity|reflexivity|lia]
  end.

Ltac list_fields :=
  repeat match goal with
  | |- (_ :: _)%list = (_ :: _)%list => apply f_equal2
  | |- (_, _) = (_, _) => apply f_equal2; [reflexivity|]
  | |- VN _ = VN _ => apply f_equal
  | |- VB _ = VB _ => reflexivity
  | |- [] = [] => reflexivity
  end.

Ltac calc_layout :=
  lazy [decode decode_at app Nat.add Nat.mul Nat.div Nat.divmod fst snd Nat.sub].
