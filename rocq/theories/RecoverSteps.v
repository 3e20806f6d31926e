(** * RecoverSteps: running a Parse method up to a panic. Proofs only. *)

From Coq Require Import NArith ZArith Bool String Arith List Lia.
From Coq Require Import ZifyBool ZifyNat ZifyN.
From Verif Require Import GoBase GoFmt ClcModel LlcModel RoceModel Setters WriteModel LlcWriteModel Slices Wire
  WireLemmas ClcView LlcView Steps ClcParse ClcFixed LlcParse LlcDecode Recover.
From Verif Require WriteFacts.
Import ListNotations.
Local Open Scope nat_scope.

(** if the run ends with a panic, the receiver then satisfies [G] *)
Definition torn {R A} (G : R -> Prop) (x : list string * outcome A * R) : Prop :=
  snd (fst x) = Panicked -> G (snd x).

Section torn.
  Context {R : Type} (G : R -> Prop).

  Lemma torn_last {A} (w : W R A) r : torn G (wbind w wret r) -> torn G (w r).
  Proof. unfold torn, wbind. destruct (w r) as [[l [a| |]] r1]; cbn; auto. Qed.

  Lemma torn_assoc {A B C} (x : W R A) (f : A -> W R B) (g : B -> W R C) r :
    torn G (wbind x (fun a => wbind (f a) g) r) -> torn G (wbind (wbind x f) g r).
  Proof.
    unfold torn, wbind. destruct (x r) as [[l [a| |]] r1]; cbn; auto.
    destruct (f a r1) as [[l2 [b| |]] r2]; cbn; auto.
    destruct (g b r2) as [[l3 o] r3]; cbn; auto.
  Qed.

  Lemma torn_ok {A B} (x : W R A) (k : A -> W R B) r l a r1 :
    x r = (l, Done a, r1) -> torn G (k a r1) -> torn G (wbind x k r).
  Proof. unfold torn, wbind. intros ->. destruct (k a r1) as [[l2 o] r2]. cbn. auto. Qed.

  Lemma torn_ret {A B} (a : A) (k : A -> W R B) r :
    torn G (k a r) -> torn G (wbind (lift (ret a)) k r).
  Proof. apply torn_ok with (l := []). reflexivity. Qed.

  Lemma torn_panic {A B} (k : A -> W R B) r : G r -> torn G (wbind (lift panic) k r).
  Proof. intros H _. exact H. Qed.

  Lemma torn_change {B} (f : R -> R) (k : unit -> W R B) r :
    torn G (k tt (f r)) -> torn G (wbind (change f) k r).
  Proof. apply torn_ok with (l := []). reflexivity. Qed.

  Lemma torn_get {A B} (f : R -> A) (k : A -> W R B) r :
    torn G (k (f r) r) -> torn G (wbind (get f) k r).
  Proof. apply torn_ok with (l := []). reflexivity. Qed.

  Lemma torn_wret {A} (a : A) r : torn G (wret a r).
  Proof. intros H. discriminate. Qed.

  Lemma torn_part {S A B} (f : R -> S) s (w : W S A) (k : A -> W R B) r :
    torn (fun p => G (s p r)) (w (f r)) ->
    (forall l a p, w (f r) = (l, Done a, p) -> torn G (k a (s p r))) ->
    torn G (wbind (part f s w) k r).
  Proof.
    unfold torn, wbind, part. destruct (w (f r)) as [[l [a| |]] p]; cbn.
    2: intros H _ _; apply H; reflexivity. 2: discriminate. intros _ H. specialize (H l a p eq_refl). destruct (k a (s p r)) as [[l2 o] r2]. exact H.
  Qed.
End torn.

(** *** A part of the receiver *)
Section part.
  Context {R S : Type} (G : R -> Prop) (f : R -> S) (s : S -> R -> R).

  Lemma torn_part_bind {A B C} (x : W S A) (k : A -> W S B) (h : B -> W R C) r :
    (forall p, f (s p r) = p) -> (forall p q, s p (s q r) = s p r) ->
    torn G (wbind (part f s x) (fun a => wbind (part f s (k a)) h) r) ->
    torn G (wbind (part f s (wbind x k)) h r).
  Proof.
    intros Hf Hs. unfold torn, wbind, part. destruct (x (f r)) as [[l [a| |]] p]; cbn; auto.
    rewrite Hf. destruct (k a p) as [[l2 [b| |]] q]; cbn; rewrite ?Hs; auto.
    destruct (h b (s q r)) as [[l3 o] r3]; cbn; auto.
  Qed.

  Lemma torn_part_lift {A B} (x : M A) (h : A -> W R B) r : s (f r) r = r ->
    torn G (wbind (lift x) h r) -> torn G (wbind (part f s (lift x)) h r).
  Proof. intros E. unfold torn, wbind, part, lift. rewrite E. auto. Qed.

  Lemma torn_part_change {B} g (h : unit -> W R B) r :
    torn G (h tt (s (g (f r)) r)) -> torn G (wbind (part f s (change g)) h r).
  Proof. apply torn_ok with (l := []). reflexivity. Qed.
End part.

Lemma torn_part_nil {R S B} (G : R -> Prop) (f : R -> list S) s (w : slice -> W S slice) b
    (h : slice -> W R B) r : f r = [] -> s [] r = r ->
  torn G (h b r) -> torn G (wbind (part f s (each w b)) h r).
Proof.
  intros E1 E2. apply torn_ok with (l := []). unfold part. rewrite E1. cbn [each]. rewrite E2. reflexivity.
Qed.

Lemma torn_part_each {R S B} (G : R -> Prop) (f : R -> list S) s (w : slice -> W S slice) b
    (h : slice -> W R B) r e rest : f r = e :: rest ->
  (forall p, f (s p r) = p) -> (forall p q, s p (s q r) = s p r) ->
  torn G (wbind (part (fun r => hd e (f r)) (fun e r => s (e :: tl (f r)) r) (w b))
    (fun b => wbind (part (fun r => tl (f r)) (fun l r => s (hd e (f r) :: l) r) (each w b)) h) r) ->
  torn G (wbind (part f s (each w b)) h r).
Proof.
  intros E Hf Hs. unfold torn, wbind, part. rewrite E. cbn [each hd tl].
  destruct (w b e) as [[l [b1| |]] e1]; cbn; auto. rewrite Hf. cbn [hd tl].
  destruct (each w b1 rest) as [[l2 [b2| |]] rest1]; cbn; rewrite ?Hs; auto.
  destruct (h b2 (s (e1 :: rest1) r)) as [[l3 o] r3]; cbn; auto.
Qed.

(** ** Steps: reads from [buf] behind offset [o] *)

Section steps.
  Context (m : mem) (buf : slice) (Hok : slice_ok m buf).
  Context (z : list byte).
  (** the bytes of the buffer, continued in some way *)
  Local Notation bs := (s_bytes m buf ++ z).

  Lemma seg_more o n : o + n <= s_len buf -> seg (s_bytes m buf) o n = seg bs o n.
  Proof.
    intros H. pose proof (s_bytes_length m buf Hok) as Hl. unfold seg. rewrite skipn_app, firstn_app.
    rewrite skipn_length. replace (n - (length (s_bytes m buf) - o)) with 0 by lia.
    rewrite firstn_O, app_nil_r. reflexivity.
  Qed.

  Lemma nth_more i : i < s_len buf -> nth i (s_bytes m buf) x00 = nth i bs x00.
  Proof.
    intros H. rewrite app_nth1; [reflexivity|]. rewrite s_bytes_length by assumption. assumption.
  Qed.

  Local Notation rest o := (sub buf o (s_len buf - o)).
  Context {R : Type} (G : R -> Prop).

  Lemma torn_idx {B} o i (k : byte -> W R B) r : o <= s_len buf ->
    (s_len buf <= o + i -> G r) -> (o + i < s_len buf -> torn G (k (nth (o + i) bs x00) r)) ->
    torn G (wbind (lift (idx m (rest o) i)) k r).
  Proof.
    intros Ho H1 H2. pose proof (len_le_cap _ _ Hok). destruct (le_lt_dec (s_len buf) (o + i)).
    - rewrite idx_sub_panic by lia. apply torn_panic, H1. assumption.
    - rewrite (idx_sub m buf Hok) by lia. apply torn_ret. rewrite (nth_win m buf Hok), nth_more by lia.
      apply H2. assumption.
  Qed.

  Lemma torn_from {B} o i (k : slice -> W R B) r : o <= s_len buf ->
    (s_len buf < o + i -> G r) -> (o + i <= s_len buf -> torn G (k (rest (o + i)) r)) ->
    torn G (wbind (lift (from (rest o) i)) k r).
  Proof.
    intros Ho H1 H2. pose proof (len_le_cap _ _ Hok). destruct (le_lt_dec (o + i) (s_len buf)).
    - rewrite from_sub by lia. apply torn_ret. rewrite <- Nat.sub_add_distr. apply H2. assumption.
    - rewrite from_sub_panic by lia. apply torn_panic, H1. assumption.
  Qed.

  (** a number of [n] bytes; behind the end of the buffer it may be anything *)
  Lemma torn_num {B} n be o lo hi (k : N -> W R B) r : hi = lo + n -> o <= s_len buf ->
    (hi <= s_cap buf - o -> be m (rest o) lo hi = ret (be_acc 0 (seg (win m buf) (o + lo) n))) ->
    (s_cap buf - o < hi -> be m (rest o) lo hi = panic) ->
    (s_len buf < o + hi -> G r) ->
    (s_len buf < o + hi -> s_cap buf <> s_len buf -> forall v, torn G (k v r)) ->
    (o + hi <= s_len buf -> torn G (k (num bs (o + lo) n) r)) ->
    torn G (wbind (lift (be m (rest o) lo hi)) k r).
  Proof.
    intros -> Ho E1 E2 H1 H2 H3. pose proof (len_le_cap _ _ Hok).
    destruct (le_lt_dec (lo + n) (s_cap buf - o)) as [L|L].
    - rewrite E1 by assumption. apply torn_ret. destruct (le_lt_dec (o + (lo + n)) (s_len buf)).
      + rewrite be_acc0, (seg_win m buf Hok), seg_more by lia. apply H3. assumption.
      + apply H2; lia.
    - rewrite E2 by assumption. apply torn_panic, H1. lia.
  Qed.

  Lemma torn_be16 {B} o lo hi (k : N -> W R B) r : hi = lo + 2 -> o <= s_len buf ->
    (s_len buf < o + hi -> G r) ->
    (s_len buf < o + hi -> s_cap buf <> s_len buf -> forall v, torn G (k v r)) ->
    (o + hi <= s_len buf -> torn G (k (num bs (o + lo) 2) r)) ->
    torn G (wbind (lift (be16 m (rest o) lo hi)) k r).
  Proof.
    intros E Ho. pose proof (len_le_cap _ _ Hok). apply torn_num; [assumption|assumption| |].
    - intros. apply be16_sub; [assumption|assumption|assumption|lia].
    - intros. apply be16_sub_panic. assumption.
  Qed.

  Lemma torn_be32 {B} o lo hi (k : N -> W R B) r : hi = lo + 4 -> o <= s_len buf ->
    (s_len buf < o + hi -> G r) ->
    (s_len buf < o + hi -> s_cap buf <> s_len buf -> forall v, torn G (k v r)) ->
    (o + hi <= s_len buf -> torn G (k (num bs (o + lo) 4) r)) ->
    torn G (wbind (lift (be32 m (rest o) lo hi)) k r).
  Proof.
    intros E Ho. pose proof (len_le_cap _ _ Hok). apply torn_num; [assumption|assumption| |].
    - intros. apply be32_sub; [assumption|assumption|assumption|lia].
    - intros. apply be32_sub_panic. assumption.
  Qed.

  Lemma torn_be64 {B} o lo hi (k : N -> W R B) r : hi = lo + 8 -> o <= s_len buf ->
    (s_len buf < o + hi -> G r) ->
    (s_len buf < o + hi -> s_cap buf <> s_len buf -> forall v, torn G (k v r)) ->
    (o + hi <= s_len buf -> torn G (k (num bs (o + lo) 8) r)) ->
    torn G (wbind (lift (be64 m (rest o) lo hi)) k r).
  Proof.
    intros E Ho. pose proof (len_le_cap _ _ Hok). apply torn_num; [assumption|assumption| |].
    - intros. apply be64_sub; [assumption|assumption|assumption|lia].
    - intros. apply be64_sub_panic. assumption.
  Qed.

  Lemma go_copy_full d s : length s = length d -> go_copy d s = s.
  Proof.
    intros H. unfold go_copy. rewrite firstn_all2, skipn_all2, app_nil_r by lia. reflexivity.
  Qed.

  Lemma torn_copyto {B} f set o lo hi (k : unit -> W R B) r :
    lo <= hi -> o <= s_len buf ->
    (s_len buf < o + hi -> G r) ->
    (s_len buf < o + hi -> s_cap buf <> s_len buf -> forall v, torn G (k tt (set v r))) ->
    (o + hi <= s_len buf -> length (f r) = hi - lo /\ torn G (k tt (set (seg bs (o + lo) (hi - lo)) r))) ->
    torn G (wbind (copyto f set m (rest o) lo hi) k r).
  Proof.
    intros Hle Ho H1 H2 H3. pose proof (len_le_cap _ _ Hok). unfold copyto. apply torn_assoc.
    destruct (le_lt_dec hi (s_cap buf - o)) as [L|L].
    - rewrite reslice_sub by lia. apply torn_ret, torn_change.
      destruct (le_lt_dec (o + hi) (s_len buf)) as [L2|L2]; [|apply H2; lia].
      destruct (H3 L2) as [Hl Hk]. rewrite (s_bytes_sub m buf) by lia.
      rewrite (seg_win m buf Hok) by lia. rewrite <- seg_more in Hk by lia.
      rewrite go_copy_full; [exact Hk|].
      rewrite seg_length by (rewrite s_bytes_length by assumption; lia). lia.
    - rewrite reslice_sub_panic by lia. apply torn_panic, H1. lia.
  Qed.

  Lemma num24 o : o + 3 <= s_len buf ->
    N.lor (N.lor (N.shiftl (b2n (nth (o + 0) bs x00)) 16) (N.shiftl (b2n (nth (o + 1) bs x00)) 8))
      (b2n (nth (o + 2) bs x00)) = num bs o 3.
  Proof.
    intros H. unfold num. rewrite lor24, be_acc0.
    rewrite !(seg_S _ _ _ x00), seg_0 by (rewrite app_length, s_bytes_length by assumption; lia).
    rewrite Nat.add_0_r, Nat.add_1_r, <- plus_n_Sm, Nat.add_1_r. reflexivity.
  Qed.

  Lemma rest1 o : s_len buf = o + 1 -> skipn o (s_bytes m buf) = [nth o bs x00].
  Proof.
    intros E. pose proof (s_bytes_length m buf Hok) as Hl. rewrite <- nth_more by lia.
    change [nth o (s_bytes m buf) x00] with (nth o (s_bytes m buf) x00 :: []).
    rewrite <- (seg_0 (s_bytes m buf) (S o)), <- (seg_S _ _ _ x00) by lia.
    unfold seg. rewrite firstn_all2; [reflexivity|]. rewrite skipn_length. lia.
  Qed.

  Lemma rest2 o : s_len buf = o + 2 -> skipn o (s_bytes m buf) = [nth o bs x00; nth (o + 1) bs x00].
  Proof.
    intros E. pose proof (s_bytes_length m buf Hok) as Hl. rewrite <- !nth_more by lia.
    rewrite Nat.add_1_r.
    rewrite <- (seg_0 (s_bytes m buf) (S (S o))), <- !(seg_S _ _ _ x00) by lia.
    unfold seg. rewrite firstn_all2; [reflexivity|]. rewrite skipn_length. lia.
  Qed.

  Lemma be24_1 b : BE ([b] ++ repeat x00 (3 - 1)) = N.shiftl (b2n b) 16.
  Proof.
    revert b. match goal with |- forall b, @?f b = @?g b => apply (byte_ext f g) end.
    vm_compute; reflexivity.
  Qed.

  Lemma be24_2 b c : BE ([b; c] ++ repeat x00 (3 - 2)) = N.lor (N.shiftl (b2n b) 16) (N.shiftl (b2n c) 8).
  Proof.
    pose proof (lor24 b c x00) as H. change (b2n x00) with 0%N in H. rewrite N.lor_0_r, be_acc0 in H.
    rewrite H. reflexivity.
  Qed.

  Lemma torn_write24 {B} f set o (k : unit -> W R B) r :
    (forall v, f (set v r) = v) -> (forall v w, set v (set w r) = set v r) -> o <= s_len buf ->
    (s_len buf <= o -> G r) ->
    (o < s_len buf < o + 3 ->
     G (set (BE (skipn o (s_bytes m buf) ++ repeat x00 (3 - (s_len buf - o)))) r)) ->
    (o + 3 <= s_len buf -> torn G (k tt (set (num bs o 3) r))) ->
    torn G (wbind (write24 f set m (rest o)) k r).
  Proof.
    intros Hf Hs Ho H1 H2 H3. unfold write24.
    apply torn_assoc, torn_idx; [assumption|intros; apply H1; lia|intros L1].
    apply torn_assoc, torn_change, torn_assoc, torn_idx; [assumption|intros T|intros L2].
    { assert (E : s_len buf = o + 1) by lia. rewrite (rest1 o E) in H2. replace (s_len buf - o) with 1 in H2 by lia.
      rewrite Nat.add_0_r. specialize (H2 ltac:(lia)). rewrite be24_1 in H2. exact H2. }
    apply torn_assoc, torn_change, torn_assoc. rewrite Hs, Hf.
    apply torn_idx; [assumption|intros T|intros L3].
    { assert (E : s_len buf = o + 2) by lia. rewrite (rest2 o E) in H2. replace (s_len buf - o) with 2 in H2 by lia.
      rewrite Nat.add_0_r. specialize (H2 ltac:(lia)). rewrite be24_2 in H2. exact H2. }
    apply torn_change. rewrite Hs, Hf, num24 by lia. apply H3. lia.
  Qed.
End steps.

Lemma torn_lift_bind {R A B C} (G : R -> Prop) (x : M A) (f : A -> M B) (k : B -> W R C) r :
  torn G (wbind (lift x) (fun v => wbind (lift (f v)) k) r) -> torn G (wbind (lift (bind x f)) k r).
Proof.
  unfold torn, wbind, lift. destruct x as [l [a| |]]; cbn; auto.
  destruct (f a) as [l2 [b| |]]; cbn; auto.
  destruct (k b r) as [[l3 o] r1]; cbn; auto.
Qed.

Ltac receiver :=
  cbv beta zeta;
  match goal with
  | |- torn ?G (?w ?r) => let r1 := eval cbv beta iota delta [hd tl] in r in
    let r2 := WriteFacts.fields r1 in
    let r3 := eval cbv beta iota delta [hd tl] in r2 in
    let r4 := WriteFacts.fields r3 in
    change (torn G (w r4))
  | |- _ => idtac
  end.

Ltac no_way := try (exfalso; lia).

Ltac torn_step Hok z :=
  lazymatch goal with
  | |- torn _ (wbind (wbind _ _) _ _) => apply torn_assoc
  | |- torn _ (wbind (assign _ _) _ _) => unfold assign at 1
  | |- torn _ (wbind (assignf _ _ _) _ _) => unfold assignf at 1
  | |- torn _ (wbind (maketo _ _ _ _ _ _ _) _ _) => unfold maketo at 1
  | |- torn _ (wbind (copyall _ _ _ _) _ _) => unfold copyall at 1
  | |- torn _ (wbind (change _) _ _) => apply torn_change; receiver
  | |- torn _ (wbind (get _) _ _) => apply torn_get; receiver
  | |- torn _ (wbind (lift (ret _)) _ _) => apply torn_ret; cbv beta zeta
  | |- torn _ (wbind (lift (bind _ _)) _ _) => apply torn_lift_bind
  | |- torn _ (wbind (lift (byte0 _ _)) _ _) => unfold byte0 at 1
  | |- torn _ (wbind (lift (flag _ _ _)) _ _) => unfold flag at 1
  | |- torn _ (wbind (lift (masked _ _ _)) _ _) => unfold masked at 1
  | |- torn _ (wbind (lift (idx _ _ _)) _ _) =>
    apply (torn_idx _ _ Hok z); [lia| |]; cbn [Nat.add]; intros ?T; no_way
  | |- torn _ (wbind (lift (from _ _)) _ _) =>
    apply (torn_from _ _ Hok); [lia| |]; cbn [Nat.add]; intros ?T; no_way
  | |- torn _ (wbind (lift (be16 _ _ _ _)) _ _) =>
    apply (torn_be16 _ _ Hok z); [reflexivity|lia|intros ?T|intros ?T ?T ?v|intros ?T];
    no_way; cbn [Nat.add]
  | |- torn _ (wbind (lift (be32 _ _ _ _)) _ _) =>
    apply (torn_be32 _ _ Hok z); [reflexivity|lia|intros ?T|intros ?T ?T ?v|intros ?T];
    no_way; cbn [Nat.add]
  | |- torn _ (wbind (lift (be64 _ _ _ _)) _ _) =>
    apply (torn_be64 _ _ Hok z); [reflexivity|lia|intros ?T|intros ?T ?T ?v|intros ?T];
    no_way; cbn [Nat.add]
  | |- torn _ (wbind (copyto _ _ _ _ _ _) _ _) =>
    apply (torn_copyto _ _ Hok z); [lia|lia|intros ?T|intros ?T ?T ?v|intros ?T; split; [assumption || apply zeros_length|]];
    no_way; cbn [Nat.add Nat.sub]; receiver
  | |- torn _ (wbind (write24 _ _ _ _) _ _) =>
    apply (torn_write24 _ _ Hok z); [reflexivity|reflexivity|lia|intros ?T|intros ?T|intros ?T];
    no_way; cbn [Nat.add]; receiver
  | |- torn _ (wret _ _) => apply torn_wret
  | |- torn _ (wbind (part _ _ (wbind _ _)) _ _) => apply torn_part_bind; [reflexivity|reflexivity|]
  | |- torn _ (wbind (part _ _ (assign _ _)) _ _) => unfold assign at 1
  | |- torn _ (wbind (part _ _ (lift _)) _ _) => apply torn_part_lift; [reflexivity|]
  | |- torn _ (wbind (part _ _ (change _)) _ _) => apply torn_part_change; receiver
  | |- torn _ (wbind (part _ _ (RKeyPair_W _ _)) _ _) => unfold RKeyPair_W at 1
  | |- torn _ (wbind (part _ _ (RMBSpec_W _ _)) _ _) => unfold RMBSpec_W at 1
  | |- torn _ (wbind (part _ _ (rkey_W _ _)) _ _) => unfold rkey_W at 1
  | |- torn _ (wbind (part _ _ (each _ _)) _ _) =>
    first [apply torn_part_nil; [reflexivity|reflexivity|]
          |eapply torn_part_each; [reflexivity|reflexivity|reflexivity|]]
  | |- torn _ (wbind (part _ _ _) _ _) => fail
  | |- torn _ (wbind _ _ _) => fail
  | |- torn _ _ => apply torn_last
  end.

(** ** Fields inside the buffer do not depend on what follows *)

Lemma bits_more bs z off w : off + w <= 8 * length bs -> bits (bs ++ z) off w = bits bs off w.
Proof.
  intros H. rewrite !bits_div by (rewrite ?app_length; lia). rewrite BE_app, app_length.
  replace (8 * (length bs + length z) - off - w) with (8 * length z + (8 * length bs - off - w)) by lia.
  rewrite pow256, Nat2N.inj_add, N.pow_add_r, <- N.div_div
    by (apply N.pow_nonzero; discriminate).
  rewrite N.div_add_l by (apply N.pow_nonzero; discriminate).
  rewrite (N.div_small (BE z)); [rewrite N.add_0_r; reflexivity|]. rewrite <- pow256. apply BE_lt.
Qed.

Lemma bytes_more bs z o n : o + n <= length bs -> bytes_at (bs ++ z) o n = bytes_at bs o n.
Proof.
  intros H. unfold bytes_at. rewrite skipn_app, firstn_app, skipn_length.
  replace (n - (length bs - o)) with 0 by lia. rewrite firstn_O, app_nil_r. reflexivity.
Qed.

Lemma decode_more bs z l : forall off k, off + layout_bits (firstn k l) <= 8 * length bs ->
  firstn k (decode_at l off (bs ++ z)) = firstn k (decode_at l off bs).
Proof.
  induction l as [|[name [w|n]] l IH]; intros off k H; [reflexivity| |];
    (destruct k as [|k]; [reflexivity|]); cbn [decode_at firstn layout_bits kind_bits] in *.
  - rewrite bits_more, IH by lia. reflexivity.
  - rewrite bytes_more, IH by lia. reflexivity.
Qed.

(** ** One message *)

(** the fields [new] after a panic: those of the decoded message, then old ones; [whole] are
    the fields that the parser computes from the bytes [bs], continued with [z] *)
Definition kept_so_far (l : layout) (m : mem) (buf : slice) (whole old new : list (string * val)) : Prop :=
  exists k, complete l (s_bytes m buf) k /\ firstn k new = firstn k whole /\
    (s_cap buf = s_len buf -> skipn k new = torn_fields l k (s_bytes m buf) old).

Lemma kept_decoded l m buf z whole old new : whole = decode l (s_bytes m buf ++ z) ->
  kept_so_far l m buf whole old new -> kept_fields l m buf old new.
Proof.
  intros -> (k & H1 & H2 & H3). exists k. split; [exact H1|]. split; [|exact H3].
  rewrite H2. apply decode_more. apply H1.
Qed.

Ltac k_is k :=
  exists k; split;
  [unfold complete; rewrite s_bytes_length by assumption;
   split; [apply Nat.leb_le; vm_compute; reflexivity|]; split;
   [match goal with |- layout_bits ?a <= ?n =>
      let a' := eval vm_compute in (layout_bits a) in change (a' <= n) end; lia
   |first [let T := fresh in intros T; exfalso; apply Nat.ltb_lt in T; vm_compute in T; discriminate T
          |intros _;
           match goal with |- ?n < layout_bits ?b =>
             let b' := eval vm_compute in (layout_bits b) in change (n < b') end; lia]]|].

Ltac ks :=
  first [k_is 0|k_is 1|k_is 2|k_is 3|k_is 4|k_is 5|k_is 6|k_is 7|k_is 8|k_is 9|k_is 10|k_is 11|k_is 12
        |k_is 13|k_is 14|k_is 15|k_is 16|k_is 17|k_is 18|k_is 19|k_is 20|k_is 21|k_is 22|k_is 23|k_is 24].

Lemma torn24 m buf name o v : slice_ok m buf -> o < s_len buf ->
  torn_field (name, U 24) (skipn o (s_bytes m buf)) v
  = (name, VN (BE (skipn o (s_bytes m buf) ++ repeat x00 (3 - (s_len buf - o))))).
Proof.
  intros Hok H. unfold torn_field. rewrite skipn_length, s_bytes_length by assumption.
  rewrite (proj2 (Nat.ltb_lt 0 _)) by lia. reflexivity.
Qed.

Lemma torn_none m buf name w o v : slice_ok m buf -> s_len buf <= o ->
  torn_field (name, U w) (skipn o (s_bytes m buf)) v = v.
Proof.
  intros Hok H. unfold torn_field. rewrite skipn_length, s_bytes_length by assumption.
  rewrite (proj2 (Nat.ltb_ge 0 _)) by lia. rewrite andb_false_r. reflexivity.
Qed.

(** the fields behind the complete ones *)
Ltac torn_leaf :=
  unfold torn_fields;
  match goal with |- _ = match skipn ?k ?l with _ => _ end =>
    let l1 := eval vm_compute in (skipn k l) in
    let o := eval vm_compute in (layout_bits (firstn k l) / 8) in
    change (skipn k l) with l1; change (layout_bits (firstn k l) / 8) with o;
    cbv beta iota
  end;
  first [reflexivity
        |match goal with Hok : slice_ok ?m ?buf |- _ = match skipn ?k ?v with _ => _ end =>
           let v1 := eval hnf in (skipn k v) in change (skipn k v) with v1; cbv beta iota
         end;
         first [rewrite torn24 by (assumption || lia); reflexivity
               |rewrite torn_none by (assumption || lia); reflexivity]].

Ltac leaf :=
  cbv beta; unfold kept_so_far; ks; (split; [reflexivity|]);
  first [intros _; torn_leaf|intros ?T; exfalso; lia].
