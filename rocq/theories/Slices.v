(** * Slices: reasoning about the Go slices of GoBase. Proofs only, no model code. *)

From Coq Require Import NArith ZArith Bool String Arith List Lia.
From Coq Require Import ZifyBool ZifyNat ZifyN.
From Verif Require Import GoBase ClcModel.
Import ListNotations.
Local Open Scope nat_scope.

Ltac Zify.zify_post_hook ::= Z.div_mod_to_equations.

(** [seg l o n]: the [n] elements of [l] from position [o]. *)
Definition seg {A} (l : list A) (o n : nat) : list A := firstn n (skipn o l).

(** All bytes of a slice up to its capacity. *)
Definition win (m : mem) (s : slice) : list byte :=
  firstn (s_cap s) (skipn (s_off s) (m (s_arr s))).

(** The slice [s[o:o+l]]. *)
Definition sub (s : slice) (o l : nat) : slice :=
  mkslice (s_arr s) (s_off s + o) l (s_cap s - o).

(** Big-endian value of a byte sequence. *)
Fixpoint be_acc (acc : N) (bs : list byte) : N :=
  match bs with
  | [] => acc
  | b :: r => be_acc (acc * 256 + b2n b)%N r
  end.

Lemma skipn_skipn {A} x y (l : list A) : skipn x (skipn y l) = skipn (x + y) l.
Proof.
  revert l; induction y as [|y IH]; intros l; [rewrite Nat.add_0_r; reflexivity|].
  rewrite Nat.add_succ_r. destruct l; cbn; [apply skipn_nil|apply IH].
Qed.

Lemma sub_self s : s = sub s 0 (s_len s).
Proof. unfold sub; destruct s; cbn; f_equal; lia. Qed.

Lemma seg_length {A} (l : list A) o n : o + n <= length l -> length (seg l o n) = n.
Proof. intros; unfold seg; rewrite firstn_length, skipn_length; lia. Qed.

Lemma seg_length_min {A} (l : list A) o n : length (seg l o n) = Nat.min n (length l - o).
Proof. intros; unfold seg; rewrite firstn_length, skipn_length; lia. Qed.

Lemma seg_seg {A} (l : list A) o n o' n' : o' + n' <= n -> seg (seg l o n) o' n' = seg l (o + o') n'.
Proof.
  intros; unfold seg.
  rewrite skipn_firstn_comm, firstn_firstn, skipn_skipn.
  f_equal; [lia|]. f_equal; lia.
Qed.

Lemma nth_firstn {A} (l : list A) n i d : i < n -> nth i (firstn n l) d = nth i l d.
Proof.
  revert n i; induction l as [|x l IH]; intros n i H.
  - rewrite firstn_nil; destruct i; reflexivity.
  - destruct n; [lia|]; destruct i; cbn; [reflexivity|]; apply IH; lia.
Qed.

Lemma nth_skipn {A} (l : list A) n i d : nth i (skipn n l) d = nth (n + i) l d.
Proof.
  revert n; induction l as [|x l IH]; intros n.
  - rewrite skipn_nil; destruct i, n; reflexivity.
  - destruct n; cbn; [reflexivity|]; apply IH.
Qed.

Lemma nth_seg {A} (l : list A) o n i d : i < n -> nth i (seg l o n) d = nth (o + i) l d.
Proof. intros; unfold seg; rewrite nth_firstn, nth_skipn by lia; reflexivity. Qed.

Lemma seg_S {A} (l : list A) o n d : o < length l -> seg l o (S n) = nth o l d :: seg l (S o) n.
Proof.
  unfold seg; revert o; induction l as [|x l IH]; intros o H; cbn in H; [lia|].
  destruct o; [reflexivity|]. cbn [skipn nth]. rewrite IH by lia. reflexivity.
Qed.

Lemma seg_0 {A} (l : list A) o : seg l o 0 = [].
Proof. reflexivity. Qed.

Lemma seg_app {A} (l : list A) o n n' : seg l o (n + n') = seg l o n ++ seg l (o + n) n'.
Proof.
  unfold seg. rewrite (Nat.add_comm o n), <- skipn_skipn. generalize (skipn o l); intros k.
  revert k; induction n as [|n IH]; intros k; [reflexivity|].
  destruct k; cbn; [rewrite firstn_nil; reflexivity|]. rewrite IH; reflexivity.
Qed.

Lemma seg_all {A} (l : list A) n : length l <= n -> seg l 0 n = l.
Proof. intros; unfold seg; cbn; apply firstn_all2; assumption. Qed.

Section Fix.
  Variables (m : mem) (buf : slice).
  Hypothesis Hok : slice_ok m buf.
  Local Notation W := (win m buf).

  Lemma win_length : length W = s_cap buf.
  Proof.
    unfold win; rewrite firstn_length, skipn_length. destruct Hok; lia.
  Qed.

  Lemma len_le_cap : s_len buf <= s_cap buf.
  Proof. destruct Hok; assumption. Qed.

  Lemma s_bytes_win : s_bytes m buf = seg W 0 (s_len buf).
  Proof.
    unfold s_bytes, seg, win; cbn [skipn]; rewrite firstn_firstn.
    f_equal. pose proof len_le_cap; lia.
  Qed.

  Lemma s_bytes_length : length (s_bytes m buf) = s_len buf.
  Proof. rewrite s_bytes_win, seg_length; [reflexivity|]. rewrite win_length. pose proof len_le_cap; lia. Qed.

  Lemma s_bytes_sub o l : o + l <= s_cap buf -> s_bytes m (sub buf o l) = seg W o l.
  Proof.
    intros; unfold s_bytes, sub, seg, win; cbn.
    rewrite skipn_firstn_comm, firstn_firstn, skipn_skipn.
    f_equal; [lia|]. f_equal; lia.
  Qed.

  Lemma seg_win o n : o + n <= s_len buf -> seg W o n = seg (s_bytes m buf) o n.
  Proof. intros; rewrite s_bytes_win, seg_seg by lia; reflexivity. Qed.

  Lemma nth_win o : o < s_len buf -> nth o W x00 = nth o (s_bytes m buf) x00.
  Proof. intros; rewrite s_bytes_win, nth_seg by lia; reflexivity. Qed.

  Lemma idx_sub o l i : o + l <= s_cap buf -> i < l ->
    idx m (sub buf o l) i = ret (nth (o + i) W x00).
  Proof.
    intros H Hi; unfold idx; cbn [s_len s_arr s_off sub].
    replace (i <? l) with true by lia.
    pose proof (proj2 Hok) as Hlen.
    unfold win. rewrite nth_firstn, nth_skipn by lia.
    erewrite nth_error_nth' with (d := x00) by lia.
    unfold ret. rewrite Nat.add_assoc. reflexivity.
  Qed.

  Lemma idx_sub_panic o l i : l <= i -> idx m (sub buf o l) i = panic.
  Proof.
    intros Hi; unfold idx; cbn [s_len s_arr s_off sub].
    replace (i <? l) with false by lia. reflexivity.
  Qed.

  Lemma reslice_sub o l lo hi : lo <= hi -> hi <= s_cap buf - o ->
    reslice (sub buf o l) lo hi = ret (sub buf (o + lo) (hi - lo)).
  Proof.
    intros; unfold reslice; cbn [s_cap s_arr s_off sub].
    replace ((lo <=? hi) && (hi <=? s_cap buf - o))%bool with true by lia.
    unfold sub; do 2 f_equal; lia.
  Qed.

  Lemma reslice_sub_panic o l lo hi : s_cap buf - o < hi ->
    reslice (sub buf o l) lo hi = panic.
  Proof.
    intros; unfold reslice; cbn [s_cap s_arr s_off sub].
    replace ((lo <=? hi) && (hi <=? s_cap buf - o))%bool with false by lia.
    reflexivity.
  Qed.

  Lemma from_sub o l k : o + l <= s_cap buf -> k <= l ->
    from (sub buf o l) k = ret (sub buf (o + k) (l - k)).
  Proof. intros; unfold from; cbn [s_len sub]; apply reslice_sub; lia. Qed.

  Lemma from_sub_panic o l k : l < k -> from (sub buf o l) k = panic.
  Proof.
    intros; unfold from, reslice; cbn [s_len s_cap sub].
    replace (k <=? l) with false by lia. reflexivity.
  Qed.

  Lemma upto_sub o l k : k <= s_cap buf - o ->
    upto (sub buf o l) k = ret (sub buf o k).
  Proof.
    intros; unfold upto; rewrite reslice_sub by lia. repeat f_equal; lia.
  Qed.

  Lemma upto_sub_panic o l k : s_cap buf - o < k -> upto (sub buf o l) k = panic.
  Proof. intros; unfold upto; apply reslice_sub_panic; lia. Qed.

  Lemma last_sub o l k : o + l <= s_cap buf -> k <= l ->
    last_n (sub buf o l) k = ret (sub buf (o + l - k) k).
  Proof.
    intros; unfold last_n; cbn [s_len sub]. replace (l <? k) with false by lia.
    change (mkslice (s_arr buf) (s_off buf + o) l (s_cap buf - o)) with (sub buf o l).
    rewrite from_sub by lia. do 2 f_equal; lia.
  Qed.

  Lemma last_sub_panic o l k : l < k -> last_n (sub buf o l) k = panic.
  Proof.
    intros; unfold last_n; cbn [s_len sub]. replace (l <? k) with true by lia. reflexivity.
  Qed.

  Lemma drop_last_sub o l k : o + l <= s_cap buf -> k <= l ->
    drop_last_n (sub buf o l) k = ret (sub buf o (l - k)).
  Proof.
    intros; unfold drop_last_n; cbn [s_len sub]. replace (l <? k) with false by lia.
    change (mkslice (s_arr buf) (s_off buf + o) l (s_cap buf - o)) with (sub buf o l).
    rewrite upto_sub by lia. reflexivity.
  Qed.

  Lemma drop_last_sub_panic o l k : l < k -> drop_last_n (sub buf o l) k = panic.
  Proof.
    intros; unfold drop_last_n; cbn [s_len sub]. replace (l <? k) with true by lia. reflexivity.
  Qed.

  Lemma from_buf k : k <= s_len buf -> from buf k = ret (sub buf k (s_len buf - k)).
  Proof. intros. rewrite (sub_self buf) at 1. rewrite from_sub; [reflexivity| |lia].
    pose proof len_le_cap; lia. Qed.

  Lemma copy_sub dst o l lo hi : lo <= hi -> hi <= s_cap buf - o -> o <= s_cap buf ->
    length dst = hi - lo ->
    copy_from m dst (sub buf o l) lo hi = ret (seg W (o + lo) (hi - lo)).
  Proof.
    intros Hle Hcap Ho Hd; unfold copy_from; rewrite reslice_sub by lia. cbn [bind ret].
    rewrite s_bytes_sub by lia. unfold go_copy.
    rewrite seg_length by (rewrite win_length; lia).
    rewrite (skipn_all2 dst) by lia.
    rewrite Hd. rewrite firstn_all2 by (rewrite seg_length; [lia|rewrite win_length; lia]).
    unfold ret. rewrite !app_nil_r. reflexivity.
  Qed.

  Lemma copy_sub_panic dst o l lo hi : s_cap buf - o < hi ->
    copy_from m dst (sub buf o l) lo hi = panic.
  Proof. intros; unfold copy_from; rewrite reslice_sub_panic by lia; reflexivity. Qed.

  Lemma lor_shift_add a b k : (a < 2 ^ k)%N -> N.lor a (N.shiftl b k) = (a + b * 2 ^ k)%N.
  Proof.
    intros Ha. rewrite N.shiftl_mul_pow2.
    rewrite <- N.lxor_lor.
    - symmetry. apply N.add_nocarry_lxor.
      apply N.bits_inj; intros i; rewrite N.land_spec, N.bits_0.
      destruct (N.lt_ge_cases i k).
      + rewrite N.mul_pow2_bits_low by assumption. apply andb_false_r.
      + rewrite <- (N.mod_small a (2 ^ k)) by assumption.
        rewrite N.mod_pow2_bits_high by assumption. reflexivity.
    - apply N.bits_inj; intros i; rewrite N.land_spec, N.bits_0.
      destruct (N.lt_ge_cases i k).
      + rewrite N.mul_pow2_bits_low by assumption. apply andb_false_r.
      + rewrite <- (N.mod_small a (2 ^ k)) by assumption.
        rewrite N.mod_pow2_bits_high by assumption. reflexivity.
  Qed.

  Lemma b2n_lt b : (b2n b < 256)%N.
  Proof. unfold b2n. pose proof (Byte.to_N_bounded b). lia. Qed.

  Lemma lor16 b0 b1 :
    N.lor (b2n b1) (N.shiftl (b2n b0) 8) = be_acc 0 [b0; b1].
  Proof.
    pose proof (b2n_lt b0); pose proof (b2n_lt b1).
    rewrite lor_shift_add by (change (2^8)%N with 256%N; lia).
    cbn [be_acc]. change (2^8)%N with 256%N. lia.
  Qed.

  Lemma lor32 b0 b1 b2 b3 :
    N.lor (N.lor (N.lor (b2n b3) (N.shiftl (b2n b2) 8)) (N.shiftl (b2n b1) 16))
      (N.shiftl (b2n b0) 24) = be_acc 0 [b0; b1; b2; b3].
  Proof.
    pose proof (b2n_lt b0); pose proof (b2n_lt b1); pose proof (b2n_lt b2); pose proof (b2n_lt b3).
    rewrite (lor_shift_add (b2n b3)) by (change (2^8)%N with 256%N; lia).
    rewrite (lor_shift_add _ (b2n b1)) by (change (2^8)%N with 256%N; change (2^16)%N with 65536%N; lia).
    rewrite lor_shift_add by (change (2^8)%N with 256%N; change (2^16)%N with 65536%N;
      change (2^24)%N with 16777216%N; lia).
    cbn [be_acc]. change (2^8)%N with 256%N; change (2^16)%N with 65536%N;
      change (2^24)%N with 16777216%N. lia.
  Qed.

  Lemma lor24 b0 b1 b2 :
    N.lor (N.lor (N.shiftl (b2n b0) 16) (N.shiftl (b2n b1) 8)) (b2n b2) = be_acc 0 [b0; b1; b2].
  Proof.
    rewrite (N.lor_comm (N.shiftl (b2n b0) 16)), (N.lor_comm _ (b2n b2)), N.lor_assoc.
    pose proof (b2n_lt b0); pose proof (b2n_lt b1); pose proof (b2n_lt b2).
    rewrite (lor_shift_add (b2n b2)) by (change (2^8)%N with 256%N; lia).
    rewrite lor_shift_add by (change (2^8)%N with 256%N; change (2^16)%N with 65536%N; lia).
    cbn [be_acc]. change (2^8)%N with 256%N; change (2^16)%N with 65536%N. lia.
  Qed.

  Lemma lor64 b0 b1 b2 b3 b4 b5 b6 b7 :
    N.lor (N.lor (N.lor (N.lor (N.lor (N.lor (N.lor (b2n b7)
        (N.shiftl (b2n b6) 8)) (N.shiftl (b2n b5) 16)) (N.shiftl (b2n b4) 24))
        (N.shiftl (b2n b3) 32)) (N.shiftl (b2n b2) 40)) (N.shiftl (b2n b1) 48))
        (N.shiftl (b2n b0) 56) = be_acc 0 [b0; b1; b2; b3; b4; b5; b6; b7].
  Proof.
    pose proof (b2n_lt b0); pose proof (b2n_lt b1); pose proof (b2n_lt b2); pose proof (b2n_lt b3).
    pose proof (b2n_lt b4); pose proof (b2n_lt b5); pose proof (b2n_lt b6); pose proof (b2n_lt b7).
    set (e8 := (2^8)%N); set (e16 := (2^16)%N); set (e24 := (2^24)%N); set (e32 := (2^32)%N);
    set (e40 := (2^40)%N); set (e48 := (2^48)%N); set (e56 := (2^56)%N).
    vm_compute in e8, e16, e24, e32, e40, e48, e56.
    rewrite (lor_shift_add (b2n b7)) by (fold e8; subst e8; lia). fold e8.
    rewrite (lor_shift_add _ (b2n b5)) by (fold e16; subst e8 e16; lia). fold e16.
    rewrite (lor_shift_add _ (b2n b4)) by (fold e24; subst e8 e16 e24; lia). fold e24.
    rewrite (lor_shift_add _ (b2n b3)) by (fold e32; subst e8 e16 e24 e32; lia). fold e32.
    rewrite (lor_shift_add _ (b2n b2)) by (fold e40; subst e8 e16 e24 e32 e40; lia). fold e40.
    rewrite (lor_shift_add _ (b2n b1)) by (fold e48; subst e8 e16 e24 e32 e40 e48; lia). fold e48.
    rewrite lor_shift_add by (fold e56; subst e8 e16 e24 e32 e40 e48 e56; lia). fold e56.
    cbn [be_acc]. subst e8 e16 e24 e32 e40 e48 e56. lia.
  Qed.

  Lemma Uint16_sub o l : o + l <= s_cap buf -> 2 <= l ->
    Uint16 m (sub buf o l) = ret (be_acc 0 (seg W o 2)).
  Proof.
    intros; unfold Uint16. rewrite !idx_sub by lia. cbn [bind ret app].
    rewrite lor16. rewrite !(seg_S _ _ _ x00) by (rewrite win_length; lia).
    rewrite seg_0, !(Nat.add_comm o). reflexivity.
  Qed.

  Lemma Uint32_sub o l : o + l <= s_cap buf -> 4 <= l ->
    Uint32 m (sub buf o l) = ret (be_acc 0 (seg W o 4)).
  Proof.
    intros; unfold Uint32. rewrite !idx_sub by lia. cbn [bind ret app].
    rewrite lor32. rewrite !(seg_S _ _ _ x00) by (rewrite win_length; lia).
    rewrite seg_0, !(Nat.add_comm o). reflexivity.
  Qed.

  Lemma Uint64_sub o l : o + l <= s_cap buf -> 8 <= l ->
    Uint64 m (sub buf o l) = ret (be_acc 0 (seg W o 8)).
  Proof.
    intros; unfold Uint64. rewrite !idx_sub by lia. cbn [bind ret app].
    rewrite lor64. rewrite !(seg_S _ _ _ x00) by (rewrite win_length; lia).
    rewrite seg_0, !(Nat.add_comm o). reflexivity.
  Qed.

  Lemma be16_sub o l lo hi : hi = lo + 2 -> hi <= s_cap buf - o -> o <= s_cap buf ->
    be16 m (sub buf o l) lo hi = ret (be_acc 0 (seg W (o + lo) 2)).
  Proof.
    intros -> ? ?; unfold be16; rewrite reslice_sub by lia; cbn [bind ret].
    rewrite Uint16_sub by lia. reflexivity.
  Qed.
  Lemma be32_sub o l lo hi : hi = lo + 4 -> hi <= s_cap buf - o -> o <= s_cap buf ->
    be32 m (sub buf o l) lo hi = ret (be_acc 0 (seg W (o + lo) 4)).
  Proof.
    intros -> ? ?; unfold be32; rewrite reslice_sub by lia; cbn [bind ret].
    rewrite Uint32_sub by lia. reflexivity.
  Qed.
  Lemma be64_sub o l lo hi : hi = lo + 8 -> hi <= s_cap buf - o -> o <= s_cap buf ->
    be64 m (sub buf o l) lo hi = ret (be_acc 0 (seg W (o + lo) 8)).
  Proof.
    intros -> ? ?; unfold be64; rewrite reslice_sub by lia; cbn [bind ret].
    rewrite Uint64_sub by lia. reflexivity.
  Qed.

  Lemma be16_sub_panic o l lo hi : s_cap buf - o < hi -> be16 m (sub buf o l) lo hi = panic.
  Proof. intros; unfold be16; rewrite reslice_sub_panic by lia; reflexivity. Qed.
  Lemma be32_sub_panic o l lo hi : s_cap buf - o < hi -> be32 m (sub buf o l) lo hi = panic.
  Proof. intros; unfold be32; rewrite reslice_sub_panic by lia; reflexivity. Qed.
  Lemma be64_sub_panic o l lo hi : s_cap buf - o < hi -> be64 m (sub buf o l) lo hi = panic.
  Proof. intros; unfold be64; rewrite reslice_sub_panic by lia; reflexivity. Qed.

  Lemma be24_sub o l : o + l <= s_cap buf -> 3 <= l ->
    be24 m (sub buf o l) = ret (be_acc 0 (seg W o 3)).
  Proof.
    intros; unfold be24. rewrite !idx_sub by lia. cbn [bind ret app].
    rewrite lor24. rewrite !(seg_S _ _ _ x00) by (rewrite win_length; lia).
    rewrite seg_0, !(Nat.add_comm o). reflexivity.
  Qed.

  Lemma be24_sub_panic o l : o + l <= s_cap buf -> l < 3 -> be24 m (sub buf o l) = panic.
  Proof.
    intros; unfold be24.
    destruct (le_lt_dec l 0); [rewrite idx_sub_panic by lia; reflexivity|].
    rewrite (idx_sub o l 0) by lia; cbn [bind ret].
    destruct (le_lt_dec l 1); [rewrite idx_sub_panic by lia; reflexivity|].
    rewrite (idx_sub o l 1) by lia; cbn [bind ret].
    rewrite idx_sub_panic by lia; reflexivity.
  Qed.
End Fix.

Lemma bind_ret {A B} (a : A) (f : A -> M B) : bind (ret a) f = f a.
Proof. cbn. destruct (f a); reflexivity. Qed.

Lemma bind_panic {A B} (f : A -> M B) : bind panic f = panic.
Proof. reflexivity. Qed.

Lemma bind_log {B} s (f : unit -> M B) : bind (log_ln s) f = (s :: fst (f tt), snd (f tt)).
Proof. cbn. destruct (f tt); reflexivity. Qed.

Lemma bind_assoc {A B C} (x : M A) (f : A -> M B) (g : B -> M C) :
  bind (bind x f) g = bind x (fun a => bind (f a) g).
Proof.
  destruct x as [l [a| |]]; cbn; try reflexivity.
  destruct (f a) as [l' [b| |]]; cbn; try reflexivity.
  destruct (g b); cbn. rewrite app_assoc; reflexivity.
Qed.
