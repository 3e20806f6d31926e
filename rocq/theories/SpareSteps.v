(** * SpareSteps: running a Parse method up to a panic, with spare capacity. Proofs only. *)

From Coq Require Import NArith ZArith Bool String Arith List Lia.
From Coq Require Import ZifyBool ZifyNat ZifyN.
From Verif Require Import GoBase GoFmt ClcModel LlcModel RoceModel Setters WriteModel LlcWriteModel Slices Wire
  WireLemmas ClcView LlcView Steps ClcParse ClcFixed LlcParse LlcDecode Recover RecoverSteps Accepted Spare.
From Verif Require WriteFacts.
Import ListNotations.
Local Open Scope nat_scope.

(** ** Steps: reads from [buf] behind offset [o] *)

Section steps.
  Context (m : mem) (buf : slice) (Hok : slice_ok m buf).
  Context (z : list byte).
  (** the bytes up to the capacity, continued in some way *)
  Local Notation full := (win m buf).
  Local Notation bs := (full ++ z).

  Lemma spare_seg o n : o + n <= s_cap buf -> seg full o n = seg bs o n.
  Proof.
    intros H. pose proof (win_length m buf Hok) as Hl. unfold seg. rewrite skipn_app, firstn_app.
    rewrite skipn_length. replace (n - (length full - o)) with 0 by lia.
    rewrite firstn_O, app_nil_r. reflexivity.
  Qed.

  Lemma spare_nth i : i < s_cap buf -> nth i full x00 = nth i bs x00.
  Proof.
    intros H. rewrite app_nth1; [reflexivity|]. rewrite win_length by assumption. assumption.
  Qed.

  Local Notation rest o := (sub buf o (s_len buf - o)).
  Context {R : Type} (G : R -> Prop).

  Lemma spare_idx {B} o i (k : byte -> W R B) r : o <= s_len buf ->
    (s_len buf <= o + i -> G r) -> (o + i < s_len buf -> torn G (k (nth (o + i) bs x00) r)) ->
    torn G (wbind (lift (idx m (rest o) i)) k r).
  Proof.
    intros Ho H1 H2. pose proof (len_le_cap _ _ Hok). destruct (le_lt_dec (s_len buf) (o + i)).
    - rewrite idx_sub_panic by lia. apply torn_panic, H1. assumption.
    - rewrite (idx_sub m buf Hok) by lia. apply torn_ret. rewrite spare_nth by lia.
      apply H2. assumption.
  Qed.

  Lemma spare_num {B} n be o lo hi (k : N -> W R B) r : hi = lo + n -> o <= s_len buf ->
    (hi <= s_cap buf - o -> be m (rest o) lo hi = ret (be_acc 0 (seg (win m buf) (o + lo) n))) ->
    (s_cap buf - o < hi -> be m (rest o) lo hi = panic) ->
    (s_cap buf < o + hi -> G r) ->
    (o + hi <= s_cap buf -> torn G (k (num bs (o + lo) n) r)) ->
    torn G (wbind (lift (be m (rest o) lo hi)) k r).
  Proof.
    intros -> Ho E1 E2 H1 H2. pose proof (len_le_cap _ _ Hok).
    destruct (le_lt_dec (lo + n) (s_cap buf - o)) as [L|L].
    - rewrite E1 by assumption. apply torn_ret. rewrite be_acc0, spare_seg by lia. apply H2. lia.
    - rewrite E2 by assumption. apply torn_panic, H1. lia.
  Qed.

  Lemma spare_be16 {B} o lo hi (k : N -> W R B) r : hi = lo + 2 -> o <= s_len buf ->
    (s_cap buf < o + hi -> G r) ->
    (o + hi <= s_cap buf -> torn G (k (num bs (o + lo) 2) r)) ->
    torn G (wbind (lift (be16 m (rest o) lo hi)) k r).
  Proof.
    intros E Ho. pose proof (len_le_cap _ _ Hok). apply spare_num; [assumption|assumption| |].
    - intros. apply be16_sub; [assumption|assumption|assumption|lia].
    - intros. apply be16_sub_panic. assumption.
  Qed.

  Lemma spare_be32 {B} o lo hi (k : N -> W R B) r : hi = lo + 4 -> o <= s_len buf ->
    (s_cap buf < o + hi -> G r) ->
    (o + hi <= s_cap buf -> torn G (k (num bs (o + lo) 4) r)) ->
    torn G (wbind (lift (be32 m (rest o) lo hi)) k r).
  Proof.
    intros E Ho. pose proof (len_le_cap _ _ Hok). apply spare_num; [assumption|assumption| |].
    - intros. apply be32_sub; [assumption|assumption|assumption|lia].
    - intros. apply be32_sub_panic. assumption.
  Qed.

  Lemma spare_be64 {B} o lo hi (k : N -> W R B) r : hi = lo + 8 -> o <= s_len buf ->
    (s_cap buf < o + hi -> G r) ->
    (o + hi <= s_cap buf -> torn G (k (num bs (o + lo) 8) r)) ->
    torn G (wbind (lift (be64 m (rest o) lo hi)) k r).
  Proof.
    intros E Ho. pose proof (len_le_cap _ _ Hok). apply spare_num; [assumption|assumption| |].
    - intros. apply be64_sub; [assumption|assumption|assumption|lia].
    - intros. apply be64_sub_panic. assumption.
  Qed.

  Lemma spare_copyto {B} f set o lo hi (k : unit -> W R B) r :
    lo <= hi -> o <= s_len buf ->
    (s_cap buf < o + hi -> G r) ->
    (o + hi <= s_cap buf -> length (f r) = hi - lo /\ torn G (k tt (set (seg bs (o + lo) (hi - lo)) r))) ->
    torn G (wbind (copyto f set m (rest o) lo hi) k r).
  Proof.
    intros Hle Ho H1 H3. pose proof (len_le_cap _ _ Hok). unfold copyto. apply torn_assoc.
    destruct (le_lt_dec hi (s_cap buf - o)) as [L|L].
    - rewrite reslice_sub by lia. apply torn_ret, torn_change.
      destruct (H3 ltac:(lia)) as [Hl Hk]. rewrite (s_bytes_sub m buf) by lia.
      rewrite <- spare_seg in Hk by lia.
      rewrite go_copy_full; [exact Hk|].
      rewrite seg_length by (rewrite win_length by assumption; lia). lia.
    - rewrite reslice_sub_panic by lia. apply torn_panic, H1. lia.
  Qed.

  Lemma spare_num24 o : o + 3 <= s_cap buf ->
    N.lor (N.lor (N.shiftl (b2n (nth (o + 0) bs x00)) 16) (N.shiftl (b2n (nth (o + 1) bs x00)) 8))
      (b2n (nth (o + 2) bs x00)) = num bs o 3.
  Proof.
    intros H. unfold num. rewrite lor24, be_acc0.
    rewrite !(seg_S _ _ _ x00), seg_0 by (rewrite app_length, win_length by assumption; lia).
    rewrite Nat.add_0_r, Nat.add_1_r, <- plus_n_Sm, Nat.add_1_r. reflexivity.
  Qed.

  Lemma win_firstn : firstn (s_len buf) full = s_bytes m buf.
  Proof.
    pose proof (len_le_cap _ _ Hok). unfold win, s_bytes. rewrite firstn_firstn.
    f_equal. lia.
  Qed.

  Lemma nth_len i : i < s_len buf -> nth i (s_bytes m buf) x00 = nth i bs x00.
  Proof.
    intros H. pose proof (len_le_cap _ _ Hok). rewrite <- spare_nth by lia.
    rewrite <- (nth_win m buf Hok) by lia. reflexivity.
  Qed.

  Lemma spare_write24 {B} f set o (k : unit -> W R B) r :
    (forall v, f (set v r) = v) -> (forall v w, set v (set w r) = set v r) -> o <= s_len buf ->
    (s_len buf <= o -> G r) ->
    (o < s_len buf < o + 3 ->
     G (set (BE (skipn o (s_bytes m buf) ++ repeat x00 (3 - (s_len buf - o)))) r)) ->
    (o + 3 <= s_len buf -> torn G (k tt (set (num bs o 3) r))) ->
    torn G (wbind (write24 f set m (rest o)) k r).
  Proof.
    intros Hf Hs Ho H1 H2 H3. unfold write24. pose proof (len_le_cap _ _ Hok).
    apply torn_assoc, spare_idx; [assumption|intros; apply H1; lia|intros L1].
    apply torn_assoc, torn_change, torn_assoc, spare_idx; [assumption|intros T|intros L2].
    { assert (E : s_len buf = o + 1) by lia. rewrite (rest1 m buf Hok [] o E) in H2.
      rewrite <- (nth_more m buf Hok []) in H2 by lia. rewrite nth_len in H2 by lia.
      replace (s_len buf - o) with 1 in H2 by lia.
      rewrite Nat.add_0_r. specialize (H2 ltac:(lia)). rewrite be24_1 in H2. exact H2. }
    apply torn_assoc, torn_change, torn_assoc. rewrite Hs, Hf.
    apply spare_idx; [assumption|intros T|intros L3].
    { assert (E : s_len buf = o + 2) by lia. rewrite (rest2 m buf Hok [] o E) in H2.
      rewrite <- !(nth_more m buf Hok []) in H2 by lia. rewrite !nth_len in H2 by lia.
      replace (s_len buf - o) with 2 in H2 by lia.
      rewrite Nat.add_0_r. specialize (H2 ltac:(lia)). rewrite be24_2 in H2. exact H2. }
    apply torn_change. rewrite Hs, Hf, spare_num24 by lia. apply H3. lia.
  Qed.
End steps.

Ltac spare_step Hok z :=
  lazymatch goal with
  | |- torn _ (wbind (lift (idx _ _ _)) _ _) =>
    apply (spare_idx _ _ Hok z); [lia| |]; cbn [Nat.add]; intros ?T; no_way
  | |- torn _ (wbind (lift (be16 _ _ _ _)) _ _) =>
    apply (spare_be16 _ _ Hok z); [lia|lia|intros ?T|intros ?T]; no_way; cbn [Nat.add]
  | |- torn _ (wbind (lift (be32 _ _ _ _)) _ _) =>
    apply (spare_be32 _ _ Hok z); [lia|lia|intros ?T|intros ?T]; no_way; cbn [Nat.add]
  | |- torn _ (wbind (lift (be64 _ _ _ _)) _ _) =>
    apply (spare_be64 _ _ Hok z); [lia|lia|intros ?T|intros ?T]; no_way; cbn [Nat.add]
  | |- torn _ (wbind (copyto _ _ _ _ _ _) _ _) =>
    apply (spare_copyto _ _ Hok z);
    [lia|lia|intros ?T|intros ?T; split; [first [assumption|apply zeros_length|cbn; rewrite ?zeros_length; lia]|]];
    no_way; cbn [Nat.add Nat.sub]; receiver
  | |- torn _ (wbind (write24 _ _ _ _) _ _) =>
    apply (spare_write24 _ _ Hok z); [reflexivity|reflexivity|lia|intros ?T|intros ?T|intros ?T];
    no_way; cbn [Nat.add]; receiver
  | |- _ => torn_step Hok z
  end.

(** ** How many fields are read *)

Fixpoint len_all (j : nat -> bool) (l : layout) (off : nat) : nat :=
  match l with
  | [] => 0
  | (_, k) :: r => Nat.max (len_needed j off k) (len_all j r (off + kind_bits k))
  end.

Lemma fields_read_is j n cap : forall l k off, k <= length l ->
  len_all j (firstn k l) off <= 8 * n -> off + layout_bits (firstn k l) <= 8 * cap ->
  match nth_error l k with
  | Some (_, kd) => 8 * n < len_needed j (off + layout_bits (firstn k l)) kd \/
                    8 * cap < off + layout_bits (firstn k l) + kind_bits kd
  | None => True
  end ->
  fields_read j n cap l off = k.
Proof.
  induction l as [|[name kd] l IH]; intros [|k] off Hk H1 H2 H3; cbn [length] in Hk; try lia.
  - reflexivity.
  - cbn [nth_error firstn layout_bits] in H3. rewrite Nat.add_0_r in H3. cbn [fields_read].
    unfold field_read. replace ((_ <=? _) && _) with false by lia. reflexivity.
  - cbn [firstn len_all layout_bits nth_error] in *. cbn [fields_read].
    unfold field_read. replace ((_ <=? _) && _) with true by lia.
    f_equal. apply IH; [lia|lia|lia|].
    destruct (nth_error l k) as [[? ?]|]; [|exact I].
    rewrite <- !Nat.add_assoc in *. exact H3.
Qed.

Lemma fields_read_bits j n cap l : forall off, let k := fields_read j n cap l off in
  k = 0 \/ off + layout_bits (firstn k l) <= 8 * cap.
Proof.
  induction l as [|[name kd] l IH]; intros off; cbn [fields_read]; [left; reflexivity|].
  destruct (field_read j n cap off kd) eqn:E; [|left; reflexivity]. right.
  unfold field_read in E. cbn [firstn layout_bits]. destruct (IH (off + kind_bits kd)) as [E0|E0].
  - cbn zeta in E0. rewrite E0. cbn. lia.
  - cbn zeta in E0. lia.
Qed.

(** ** One message *)

(** [whole] are the fields that the parser computes from the bytes up to the capacity, continued
    in some way *)
Definition spare_so_far (j : nat -> bool) (l : layout) (m : mem) (buf : slice)
    (whole old new : list (string * val)) : Prop :=
  let k := fields_read j (s_len buf) (s_cap buf) l 0 in
  new = firstn k whole ++ unread j l k (win m buf) (s_len buf) old.

Lemma spare_decoded j l m buf z whole old new : slice_ok m buf -> whole = decode l (win m buf ++ z) ->
  spare_so_far j l m buf whole old new -> new = left_fields j l (reach m buf) (s_len buf) old.
Proof.
  intros Hok -> H. change (reach m buf) with (win m buf). unfold left_fields.
  rewrite win_length by assumption. unfold spare_so_far in H. cbv zeta in *. rewrite H.
  f_equal. unfold decode. pose proof (fields_read_bits j (s_len buf) (s_cap buf) l 0) as B. cbv zeta in B.
  destruct B as [-> |B]; [reflexivity|]. apply decode_more. rewrite win_length by assumption. lia.
Qed.

Ltac fr_is k :=
  match goal with |- context [fields_read ?j ?n ?c ?l 0] =>
    let E := fresh in
    assert (E : fields_read j n c l 0 = k);
    [apply fields_read_is;
     [apply Nat.leb_le; vm_compute; reflexivity
     |match goal with |- len_all ?a ?b ?x <= _ =>
        let a' := eval vm_compute in (len_all a b x) in change (len_all a b x) with a' end; lia
     |match goal with |- _ + layout_bits ?a <= _ =>
        let a' := eval vm_compute in (layout_bits a) in change (layout_bits a) with a' end; lia
     |match goal with |- match nth_error ?a ?b with _ => _ end =>
        let x := eval vm_compute in (nth_error a b) in change (nth_error a b) with x; cbv beta iota end;
      first [exact I
            |match goal with |- _ < len_needed ?a ?b ?c \/ _ < ?d =>
               let x := eval vm_compute in (len_needed a b c) in
               let y := eval vm_compute in d in
               change (len_needed a b c) with x; change d with y end; lia]]
    |rewrite E; clear E]
  end.

Ltac frs :=
  first [fr_is 0|fr_is 1|fr_is 2|fr_is 3|fr_is 4|fr_is 5|fr_is 6|fr_is 7|fr_is 8|fr_is 9|fr_is 10|fr_is 11|fr_is 12
        |fr_is 13|fr_is 14|fr_is 15|fr_is 16|fr_is 17|fr_is 18|fr_is 19|fr_is 20|fr_is 21|fr_is 22|fr_is 23|fr_is 24].

(** the fields that were not read *)
Ltac unread_leaf :=
  unfold unread;
  match goal with |- context [match skipn ?k ?l with _ => _ end] =>
    let l1 := eval vm_compute in (skipn k l) in
    let o := eval vm_compute in (layout_bits (firstn k l) / 8) in
    change (skipn k l) with l1; change (layout_bits (firstn k l) / 8) with o;
    cbv beta iota zeta
  end;
  first [reflexivity
        |match goal with |- context [match skipn ?k ?v with _ => _ end] =>
           let v1 := eval hnf in (skipn k v) in change (skipn k v) with v1; cbv beta iota
         end;
         match goal with |- context [if ?a || ?b then _ else _] =>
           let a' := eval vm_compute in a in change a with a'; cbn [orb];
           first [replace b with true by lia|replace b with false by lia|destruct b|idtac]; cbv iota
         end;
         first [reflexivity
               |rewrite win_firstn by assumption;
                first [rewrite torn24 by (assumption || lia); reflexivity
                      |rewrite torn_none by (assumption || lia); reflexivity]]].

Ltac spare_leaf :=
  match goal with Hok : slice_ok ?m ?buf |- _ => pose proof (len_le_cap m buf Hok) end; cbv beta; unfold spare_so_far; cbv zeta; frs; unread_leaf.
