(** * OwnedWorld: proofs about the arrays that Parse makes, whole programs. *)

From Coq Require Import NArith ZArith Bool String Ascii Arith List Lia.
From Verif Require Import GoBase GoFmt ClcModel LlcModel RoceModel Setters WriteModel LlcWriteModel
  ClcView LlcView HeapModel Owned OwnedFacts.
Import ListNotations.
Local Open Scope nat_scope.

Lemma fill_base_ext c c' b : (forall k, c k = c' k) -> fill_base c b = fill_base c' b.
Proof. intros h. unfold fill_base. rewrite h. reflexivity. Qed.

Lemma fill_ext c c' t : (forall k, c k = c' k) -> fill c t = fill c' t.
Proof.
  intros h. assert (HI : forall ip, fill_ip c ip = fill_ip c' ip) by (intros; apply fill_ip_ext; auto).
  destruct t as [[]|[]|]; cbn [fill]; unfold fill_p, fill_p2, fill_ar, fill_al, fill_cl, fill_base;
    rewrite ?HI, ?h; reflexivity.
Qed.

(** ** Reached worlds *)

Definition sound (w : world) : Prop :=
  (forall a, In a (w_made w) -> a < w_next w) /\
  (forall a j k, holds w a j k -> a < w_next w /\ ~ In a (w_made w)) /\
  (forall a j k j' k', holds w a j k -> holds w a j' k' -> j = j' /\ k = k').

Lemma replace_nth {A} (l : list A) j x : forall i, nth_error (replace l j x) i =
  if (i =? j) && (i <? length l) then Some x else nth_error l i.
Proof.
  revert j. induction l; intros [|j] [|i]; cbn; try reflexivity.
  - rewrite andb_false_r. reflexivity.
  - rewrite IHl. reflexivity.
Qed.

Lemma nth_app_new {A} (l : list A) x j y : nth_error (l ++ [x]) j = Some y ->
  nth_error l j = Some y \/ (j = length l /\ y = x).
Proof.
  intros E. destruct (Nat.lt_ge_cases j (length l)) as [L|L].
  - rewrite nth_error_app1 in E by exact L. auto.
  - rewrite nth_error_app2 in E by exact L. right. destruct (j - length l) as [|[|n]] eqn:D; cbn in E; try discriminate.
    injection E as <-. split; [lia|reflexivity].
Qed.

(** what a call of Parse in a sound world does *)
Lemma parse_world w j t sl s : sound w -> exists_slice w s -> nth_error (w_objs w) j = Some (t, sl) ->
  let '(l1, o1, y) := Parse_H s (mkhs t sl (w_mem w) (w_next w)) in
  let '(l2, o2, r) := Thing_W (w_mem w) s (fill (fun k => s_bytes (w_mem w) (sl k)) t) in
  l1 = l2 /\ o1 = o2 /\ r = fill (cts y) (hv y) /\ inv (w_mem w) (w_next w) sl y.
Proof.
  intros (_ & Hb & _) Ex E.
  assert (Old : forall k, s_len (sl k) = 0 \/ s_arr (sl k) < w_next w).
  { intros k. destruct (Nat.eq_dec (s_len (sl k)) 0) as [Z|N]; [auto|right].
    apply (Hb _ j k). exists t, sl. auto. }
  apply (Parse_sim (w_mem w) (w_next w) sl Old (mkhs t sl (w_mem w) (w_next w)) s).
  - split; [cbn; lia|]. split; [reflexivity|]. intros k. left. reflexivity.
  - exact Ex.
Qed.

Lemma step_parse w j t sl s y l o : nth_error (w_objs w) j = Some (t, sl) ->
  Parse_H s (mkhs t sl (w_mem w) (w_next w)) = (l, o, y) ->
  step w (OParse j s) = mkworld (hm y) (hn y) (w_made w) (replace (w_objs w) j (hv y, hslot y)).
Proof. intros E P. cbn [step]. rewrite E, P. reflexivity. Qed.

(** the slices of object [j] after the call, and those of the others *)
Lemma holds_parse w j t sl y a i k : nth_error (w_objs w) j = Some (t, sl) ->
  holds (mkworld (hm y) (hn y) (w_made w) (replace (w_objs w) j (hv y, hslot y))) a i k ->
  (i = j /\ s_arr (hslot y k) = a /\ s_len (hslot y k) <> 0) \/ (i <> j /\ holds w a i k).
Proof.
  intros E (t' & sl' & E' & A & L). cbn [w_objs] in E'. rewrite replace_nth in E'.
  destruct (i =? j) eqn:D; cbn [andb] in E'.
  - apply Nat.eqb_eq in D. subst i. assert (Lj : j < length (w_objs w)) by (apply nth_error_Some; rewrite E; discriminate).
    apply Nat.ltb_lt in Lj. rewrite Lj in E'. injection E' as <- <-. auto.
  - apply Nat.eqb_neq in D. right. split; [exact D|]. exists t', sl'. auto.
Qed.

Lemma sound_step w o : sound w -> allowed w o -> sound (step w o).
Proof.
  intros S A. pose proof S as (S1 & S2 & S3). destruct o as [bs|a i b|t|j s].
  - assert (E : forall a j k, holds (step w (OMake bs)) a j k <-> holds w a j k) by (intros; reflexivity).
    split; [|split].
    + intros a [<- | Ha]; cbn; [lia|]. specialize (S1 a Ha). lia.
    + intros a j k Hh. apply E in Hh. destruct (S2 _ _ _ Hh) as [L N]. split; [cbn; lia|].
      intros [<- | Ha]; [lia|contradiction].
    + intros a j k j' k' H1 H2. apply E in H1, H2. exact (S3 _ _ _ _ _ H1 H2).
  - assert (E : forall a0 j k, holds (step w (OStore a i b)) a0 j k <-> holds w a0 j k) by (intros; reflexivity).
    split; [exact S1|]. split; [intros a0 j k Hh; exact (S2 _ _ _ Hh)|exact S3].
  - assert (E : forall a j k, holds (step w (ONew t)) a j k -> holds w a j k).
    { intros a j k (t' & sl & E & Ha & L). cbn in E. apply nth_app_new in E as [E|(_ & E)]; [exists t', sl; auto|].
      injection E as -> ->. contradiction. }
    split; [exact S1|]. split; [intros a j k Hh; exact (S2 _ _ _ (E _ _ _ Hh))|].
    intros a j k j' k' H1 H2. exact (S3 _ _ _ _ _ (E _ _ _ H1) (E _ _ _ H2)).
  - destruct (nth_error (w_objs w) j) as [[t sl]|] eqn:E; [|cbn [step]; rewrite E; exact S].
    pose proof (parse_world w j t sl s S A E) as P.
    destruct (Parse_H s (mkhs t sl (w_mem w) (w_next w))) as [[l1 o1] y] eqn:EP.
    destruct (Thing_W _ _ _) as [[l2 o2] r]. destruct P as (_ & _ & _ & (N & M & Sl)).
    rewrite (step_parse w j t sl s y l1 o1 E EP).
    assert (K : forall k, s_len (hslot y k) <> 0 ->
      (hslot y k = sl k /\ holds w (s_arr (hslot y k)) j k) \/
      (w_next w <= s_arr (hslot y k) < hn y /\
       forall i, i <> k -> s_arr (hslot y i) <> s_arr (hslot y k) \/ s_len (hslot y i) = 0)).
    { intros k L. destruct (Sl k) as [Ek|(B & _ & _ & _ & U)]; [left|right; auto].
      split; [exact Ek|]. exists t, sl. rewrite Ek in *. auto. }
    split; [|split].
    + intros a Ha. cbn. specialize (S1 a Ha). lia.
    + intros a i k Hh. apply (holds_parse w j t sl y a i k E) in Hh as [(-> & <- & L)|(D & Hh)].
      * destruct (K k L) as [(Ek & Hh)|(B & _)].
        -- destruct (S2 _ _ _ Hh) as [L1 N1]. split; [cbn; lia|exact N1].
        -- split; [cbn; lia|]. cbn. intros Ha. specialize (S1 _ Ha). lia.
      * destruct (S2 _ _ _ Hh) as [L1 N1]. split; [cbn; lia|exact N1].
    + intros a i k i' k' H1 H2.
      apply (holds_parse w j t sl y a i k E) in H1 as [(-> & E1 & L1)|(D1 & H1)];
      apply (holds_parse w j t sl y a i' k' E) in H2 as [(-> & E2 & L2)|(D2 & H2)].
      * split; [reflexivity|]. destruct (Nat.eq_dec k k') as [D|D]; [exact D|exfalso].
        destruct (K k L1) as [(Ek & Hk)|(_ & U)]; [|destruct (U k') as [?|?]; [congruence|congruence|contradiction]].
        destruct (K k' L2) as [(Ek' & Hk')|(_ & U)]; [|destruct (U k) as [?|?]; [congruence|congruence|contradiction]].
        rewrite E1 in Hk. rewrite E2 in Hk'. destruct (S3 _ _ _ _ _ Hk Hk'). contradiction.
      * exfalso. destruct (K k L1) as [(_ & Hk)|(B & _)].
        -- rewrite E1 in Hk. destruct (S3 _ _ _ _ _ Hk H2). congruence.
        -- destruct (S2 _ _ _ H2). lia.
      * exfalso. destruct (K k' L2) as [(_ & Hk)|(B & _)].
        -- rewrite E2 in Hk. destruct (S3 _ _ _ _ _ Hk H1). congruence.
        -- destruct (S2 _ _ _ H1). lia.
      * exact (S3 _ _ _ _ _ H1 H2).
Qed.

Lemma sound_reached w : reached w -> sound w.
Proof.
  induction 1 as [m|w o _ IH A]; [|apply sound_step; assumption].
  assert (N : forall a j k, ~ holds (mkworld m 0 [] []) a j k).
  { intros a j k (t & sl & E & _). destruct j; discriminate. }
  split; [intros a []|]. split; [intros a j k Hh|intros a j k j' k' Hh]; destruct (N _ _ _ Hh).
Qed.

(** ** The theorems *)

Theorem owned_apart w a j k : reached w -> holds w a j k ->
  a < w_next w /\ ~ In a (w_made w) /\ forall j' k', holds w a j' k' -> j' = j /\ k' = k.
Proof.
  intros R Hh. destruct (sound_reached w R) as (S1 & S2 & S3). destruct (S2 _ _ _ Hh).
  split; [assumption|]. split; [assumption|]. intros j' k' H2. exact (S3 _ _ _ _ _ H2 Hh).
Qed.

(** the bytes of a slice that is in none of the changed arrays *)
Lemma bytes_same m m' s : (s_len s = 0 \/ m (s_arr s) = m' (s_arr s)) -> s_bytes m s = s_bytes m' s.
Proof. unfold s_bytes. intros [-> | ->]; reflexivity. Qed.

Theorem owned_parse w j t sl s : reached w -> exists_slice w s -> nth_error (w_objs w) j = Some (t, sl) ->
  let '(l, o, _) := Parse_H s (mkhs t sl (w_mem w) (w_next w)) in
  let '(l0, o0, r) := Thing_W (w_mem w) s (fill (fun k => s_bytes (w_mem w) (sl k)) t) in
  let w' := step w (OParse j s) in
  l = l0 /\ o = o0 /\ shown w' j = Some r /\
  (forall i, i <> j -> shown w' i = shown w i) /\
  (forall a, a < w_next w -> w_mem w' a = w_mem w a) /\
  forall k sl', nth_error (w_objs w') j = Some sl' ->
    snd sl' k = sl k \/
    let f := snd sl' k in
    w_next w <= s_arr f < w_next w' /\ s_off f = 0 /\ s_cap f = s_len f /\ length (w_mem w' (s_arr f)) = s_len f.
Proof.
  intros R Ex E. pose proof (sound_reached w R) as S.
  pose proof (parse_world w j t sl s S Ex E) as P.
  destruct (Parse_H s (mkhs t sl (w_mem w) (w_next w))) as [[l1 o1] y] eqn:EP.
  destruct (Thing_W _ _ _) as [[l2 o2] r]. destruct P as (E1 & E2 & E3 & (N & M & Sl)).
  cbv zeta. rewrite (step_parse w j t sl s y l1 o1 E EP).
  assert (Lj : j < length (w_objs w)) by (apply nth_error_Some; rewrite E; discriminate).
  assert (Ej : nth_error (replace (w_objs w) j (hv y, hslot y)) j = Some (hv y, hslot y)).
  { rewrite replace_nth, Nat.eqb_refl. apply Nat.ltb_lt in Lj. rewrite Lj. reflexivity. }
  split; [exact E1|]. split; [exact E2|]. split; [|split; [|split]].
  - unfold shown. cbn [w_objs w_mem]. rewrite Ej. rewrite E3. reflexivity.
  - intros i D. unfold shown. cbn [w_objs w_mem]. rewrite replace_nth, (proj2 (Nat.eqb_neq _ _) D). cbn [andb].
    destruct (nth_error (w_objs w) i) as [[t' sl']|] eqn:Ei; [|reflexivity]. f_equal. apply fill_ext. intros k.
    apply bytes_same. destruct (Nat.eq_dec (s_len (sl' k)) 0) as [Z|Z]; [auto|right]. apply M.
    apply (proj1 (proj2 S) _ i k). exists t', sl'. auto.
  - exact M.
  - intros k sl' Es. cbn [w_objs] in Es. rewrite Ej in Es. injection Es as <-. cbn [snd].
    destruct (Sl k) as [Ek|(B & O & C & G & _)]; [left; exact Ek|right]. cbn. auto.
Qed.

Theorem owned_store w a i b j : (forall k, ~ holds w a j k) -> shown (step w (OStore a i b)) j = shown w j.
Proof.
  intros Hn. unfold shown. cbn [step w_objs w_mem]. destruct (nth_error (w_objs w) j) as [[t sl]|] eqn:E; [|reflexivity].
  f_equal. apply fill_ext. intros k. apply s_bytes_set_arr.
  destruct (Nat.eq_dec (s_len (sl k)) 0) as [Z|Z]; [auto|right]. intros Ea. apply (Hn k). exists t, sl. auto.
Qed.

Lemma shown_new w t j x : shown w j = Some x -> shown (step w (ONew t)) j = Some x.
Proof.
  unfold shown. cbn [step w_objs w_mem]. destruct (nth_error (w_objs w) j) as [[t' sl]|] eqn:E; [|discriminate].
  rewrite nth_error_app1 by (apply nth_error_Some; rewrite E; discriminate). rewrite E. auto.
Qed.

Lemma shown_make w bs j : reached w -> shown (step w (OMake bs)) j = shown w j.
Proof.
  intros R. unfold shown. cbn [step w_objs w_mem]. destruct (nth_error (w_objs w) j) as [[t sl]|] eqn:E; [|reflexivity].
  f_equal. apply fill_ext. intros k. apply s_bytes_set_arr.
  destruct (Nat.eq_dec (s_len (sl k)) 0) as [Z|Z]; [auto|right]. intros Ea.
  destruct (owned_apart w (s_arr (sl k)) j k R) as [L _]; [exists t, sl; auto|lia].
Qed.

Theorem owned_later os : forall w j x, reached w -> leaves_alone j w os -> shown w j = Some x -> shown (run w os) j = Some x.
Proof.
  induction os as [|o os IH]; intros w j x R L E; [exact E|]. destruct L as (A & N & L).
  apply IH; [apply reached_step; assumption|exact L|]. destruct o as [bs|a i b|t|j' s].
  - rewrite shown_make by exact R. exact E.
  - rewrite owned_store by exact N. exact E.
  - apply shown_new, E.
  - destruct (nth_error (w_objs w) j') as [[t sl]|] eqn:Ej; [|cbn [step]; rewrite Ej; exact E].
    pose proof (owned_parse w j' t sl s R A Ej) as P.
    destruct (Parse_H s (mkhs t sl (w_mem w) (w_next w))) as [[l1 o1] y].
    destruct (Thing_W _ _ _) as [[l2 o2] r]. destruct P as (_ & _ & _ & P & _). rewrite P by congruence. exact E.
Qed.

Theorem owned_buffers os : forall w j x, reached w -> own_buffers j w os -> shown w j = Some x -> shown (run w os) j = Some x.
Proof.
  intros w j x R B. apply owned_later; [exact R|]. revert w R B. induction os as [|o os IH]; intros w R B; [exact I|].
  destruct B as (A & N & B). split; [exact A|]. split; [|apply IH; [apply reached_step; assumption|exact B]].
  destruct o as [bs|a i b|t|j' s]; try exact N. intros k Hh. destruct (owned_apart w a j k R Hh) as (_ & Nm & _). contradiction.
Qed.
