(** * SpareAreas: the areas of Proposals after a panic, with spare capacity. Proofs only. *)

From Coq Require Import NArith ZArith Bool String Arith List Lia.
From Coq Require Import ZifyBool ZifyNat ZifyN.
From Verif Require Import GoBase GoFmt ClcModel Setters WriteModel Slices Wire
  WireLemmas ClcView Steps ClcParse ClcFixed ClcProposal ClcProposalV2 ClcProposalV2Any Recover
  RecoverSteps RecoverClc RecoverProposal Areas Accepted Spare SpareSteps SpareClc.
From Verif Require Import Samples.
From Verif Require Import AreasFacts.
From Verif Require Keep WriteFacts ClcMessage RecoverFacts.
Import ListNotations.
Local Open Scope nat_scope.

Lemma inside_none e q size c : e < q + size -> inside_of e q size c = 0.
Proof.
  intros H. unfold inside_of. destruct size; [cbn; lia|]. rewrite Nat.div_small by lia. lia.
Qed.

Lemma inside_S e q size c : 0 < size -> q + size <= e ->
  inside_of e q size (S c) = S (inside_of e (q + size) size c).
Proof.
  intros H0 H. unfold inside_of.
  replace (e - q) with (1 * size + (e - (q + size))) by lia.
  rewrite Nat.div_add_l by lia. lia.
Qed.

Lemma inside_0 e q size : inside_of e q size 0 = 0.
Proof. reflexivity. Qed.

Lemma inside_end e q size c : q <= e -> 0 < size -> q + size * inside_of e q size c <= e.
Proof.
  intros H H0. unfold inside_of. pose proof (Nat.mul_div_le (e - q) size). nia.
Qed.

Lemma inside_end0 e q size c : 0 < size -> inside_of e q size c = 0 \/ q + size * inside_of e q size c <= e.
Proof.
  intros H0. destruct (le_lt_dec q e) as [H|H]; [right; apply inside_end; assumption|left].
  unfold inside_of. replace (e - q) with 0 by lia. rewrite Nat.div_0_l by lia. lia.
Qed.

Lemma fits_none L q size n : L < q + (size + 4) -> fitting L q size n = 0.
Proof.
  intros H. unfold fitting. destruct size; [cbn; lia|]. rewrite Nat.div_small by lia. lia.
Qed.

Lemma fits_S L q size n : 0 < size -> q + (size + 4) <= L ->
  fitting L q size (S n) = S (fitting L (q + size) size n).
Proof.
  intros H0 H. unfold fitting.
  replace (L - 4 - q) with (1 * size + (L - 4 - (q + size))) by lia.
  rewrite Nat.div_add_l by lia. lia.
Qed.

Lemma put_back {A} (l : list A) i x : nth_error l i = Some x -> firstn i l ++ x :: skipn (S i) l = l.
Proof.
  intros H. apply nth_error_split in H. destruct H as (l1 & l2 & -> & <-).
  rewrite firstn_app, Nat.sub_diag, firstn_all, app_nil_r, skipn_app, (skipn_all2 l1) by lia.
  replace (S (length l1) - length l1) with 1 by lia. reflexivity.
Qed.

Section areas.
Context (m : mem) (buf : slice) (Hok : slice_ok m buf) (Hc : s_len buf <= s_cap buf).
Local Notation bs := (win m buf).
Local Notation n0 := (s_len buf).

Lemma prefixes_left L : forall n q ip, 1 <= q ->
  finally (fun r => r = set_i_IPv6Prefixes
      (i_IPv6Prefixes ip ++ prefixes_of bs q (inside_of n0 q 17 (fitting L q 17 n))) ip)
    (prefixes_v1_W m buf L (q - 1) n) ip.
Proof.
  induction n as [|n IH]; intros q ip Hq; unfold finally.
  - cbn [prefixes_v1_W]. unfold fitting. rewrite Nat.min_0_l, inside_0.
    intros _. cbn. rewrite app_nil_r. destruct ip as [? ? ? ? ?]. reflexivity.
  - cbn [prefixes_v1_W]. unfold short, IPv6PrefixLen, TrailerLen, EyecatcherLen.
    replace (q - 1 + 1) with q by lia.
    destruct (L <? q + (17 + 4)) eqn:E.
    + apply finally_complain. rewrite fits_none, inside_0 by lia. cbn [prefixes_of seq map]. rewrite app_nil_r.
      destruct ip as [? ? ? ? ?]. reflexivity.
    + rewrite fits_S by lia. apply torn_assoc.
      destruct (le_lt_dec (q + 17) (s_len buf)) as [H17|H17].
      * rewrite (sub_self buf). rewrite (copy_sub m buf Hok) by (rewrite ?zeros_length; lia). apply torn_ret, torn_assoc.
        rewrite (idx_sub m buf Hok) by lia. apply torn_ret, torn_assoc, torn_change. rewrite <- sub_self.
        replace (prefixes_v1_W m buf L (q + 16) n) with (prefixes_v1_W m buf L (q + 17 - 1) n) by (f_equal; lia).
        eapply torn_mono; [|apply IH; lia]. cbv beta. intros r ->.
        rewrite inside_S, prefixes_of_S by lia.  cbn [Nat.add].
        destruct ip as [? ? ? ? l]. cbv beta iota delta [set_i_IPv6Prefixes i_IPv6Prefixes].
        rewrite <- app_assoc. unfold prefix_at, bn. rewrite Nat.mul_0_r, Nat.add_0_r.
        replace (q + 16 - q) with 16 by lia. reflexivity.
      * rewrite inside_none by lia. cbn [prefixes_of seq map]. rewrite app_nil_r.
        assert (EI : forall r : IPInfo, r = ip -> r = set_i_IPv6Prefixes (i_IPv6Prefixes ip) ip)
          by (intros r ->; destruct ip; reflexivity).
        rewrite (sub_self buf).
        destruct (le_lt_dec (q + 16) (s_cap buf)) as [H16|H16].
        -- rewrite (copy_sub m buf Hok) by (rewrite ?zeros_length; lia). apply torn_ret, torn_assoc.
           rewrite (idx_sub_panic m buf) by lia. apply torn_panic, EI. reflexivity.
        -- rewrite (copy_sub_panic m buf) by lia. apply torn_panic, EI. reflexivity.
Qed.

Lemma prefixes_left2 L : forall n q ip,
  finally (fun r => r = set_i_IPv6Prefixes
      (i_IPv6Prefixes ip ++ prefixes_of bs q (inside_of n0 q 17 (fitting L q 17 n))) ip)
    (prefixes_v2_W m buf L q n) ip.
Proof.
  induction n as [|n IH]; intros q ip; unfold finally.
  - cbn [prefixes_v2_W]. unfold fitting. rewrite Nat.min_0_l, inside_0.
    intros _. cbn. rewrite app_nil_r. destruct ip as [? ? ? ? ?]. reflexivity.
  - cbn [prefixes_v2_W]. unfold short, IPv6PrefixLen, TrailerLen, EyecatcherLen.
    destruct (L <? q + (17 + 4)) eqn:E.
    + apply finally_map, finally_complain. rewrite fits_none, inside_0 by lia. cbn [prefixes_of seq map]. rewrite app_nil_r.
      destruct ip as [? ? ? ? ?]. reflexivity.
    + rewrite fits_S by lia. apply torn_assoc.
      destruct (le_lt_dec (q + 17) (s_len buf)) as [H17|H17].
      * rewrite (sub_self buf). rewrite (copy_sub m buf Hok) by (rewrite ?zeros_length; lia). apply torn_ret, torn_assoc.
        rewrite (idx_sub m buf Hok) by lia. apply torn_ret, torn_assoc, torn_change. rewrite <- sub_self.
        replace (q + 16 + 1) with (q + 17) by lia.
        eapply torn_mono; [|apply IH]. cbv beta. intros r ->.
        rewrite inside_S, prefixes_of_S by lia.  cbn [Nat.add].
        destruct ip as [? ? ? ? l]. cbv beta iota delta [set_i_IPv6Prefixes i_IPv6Prefixes].
        rewrite <- app_assoc. unfold prefix_at, bn. rewrite Nat.mul_0_r, Nat.add_0_r.
        replace (q + 16 - q) with 16 by lia. reflexivity.
      * rewrite inside_none by lia. cbn [prefixes_of seq map]. rewrite app_nil_r.
        assert (EI : forall r : IPInfo, r = ip -> r = set_i_IPv6Prefixes (i_IPv6Prefixes ip) ip)
          by (intros r ->; destruct ip; reflexivity).
        rewrite (sub_self buf).
        destruct (le_lt_dec (q + 16) (s_cap buf)) as [H16|H16].
        -- rewrite (copy_sub m buf Hok) by (rewrite ?zeros_length; lia). apply torn_ret, torn_assoc.
           rewrite (idx_sub_panic m buf) by lia. apply torn_panic, EI. reflexivity.
        -- rewrite (copy_sub_panic m buf) by lia. apply torn_panic, EI. reflexivity.
Qed.

(** ** Fields *)

Definition area_soon (l : layout) (s : nat) (whole old new : list (string * val)) : Prop :=
  let k := fields_read (fun _ => true) (s_len buf - s) (s_cap buf - s) l 0 in
  new = firstn k whole ++ unread (fun _ => true) l k (skipn s bs) (s_len buf - s) old.

Lemma area_is l z s whole old new : match l with (_, kd) :: _ => 0 < kind_bits kd | [] => True end ->
  whole = decode_at l (8 * s) (bs ++ z) ->
  area_soon l s whole old new -> new = left_area l bs n0 s old.
Proof.
  intros H0 -> H. unfold left_area. pose proof (win_length m buf Hok) as Hl.
  rewrite Hl. unfold area_soon in H. cbv zeta in *. rewrite H.
  f_equal. pose proof (fields_read_bits (fun _ => true) (s_len buf - s) (s_cap buf - s) l 0) as B. cbv zeta in B.
  destruct B as [-> |B]; [reflexivity|].
  destruct (le_lt_dec s (s_cap buf)).
  - apply decode_more. lia.
  - replace (fields_read _ _ _ l 0) with 0; [reflexivity|].
    destruct l as [|[? kd] l]; [reflexivity|]. cbn [fields_read]. unfold field_read.
    replace ((_ <=? _) && _) with false by lia. reflexivity.
Qed.

Ltac area_leaf := cbv beta; unfold area_soon; cbv zeta; frs; unread_leaf.

(** [s + a + b] for numerals [a], [b] *)
Ltac sums s :=
  repeat match goal with
  | |- context [s + ?a + ?b] =>
    let c := eval vm_compute in (a + b) in replace (s + a + b) with (s + c) by lia
  | |- context [s + ?a - s] => replace (s + a - s) with a by lia
  | |- context [s + ?a - (s + ?b)] =>
    let c := eval vm_compute in (a - b) in replace (s + a - (s + b)) with c by lia
  end.

Ltac spare_area z :=
  lazymatch goal with
  | |- torn _ (wbind (wbind _ _) _ _) => apply torn_assoc
  | |- torn _ (wbind (maketo _ _ _ _ _ _ _) _ _) => unfold maketo at 1
  | |- _ => first [at_start buf; spare_step Hok z|spare_step Hok z]
  end.

(** ** The IP area *)

Lemma ip_now z s ip new : s + 8 <= length z ->
  area_soon ip_area_body s (ip_area_view (ip_of (bs ++ z) s 0 ip)) (ip_area_view ip) new ->
  new = left_area ip_area_body bs n0 s (ip_area_view ip).
Proof.
  intros Hz. apply (area_is _ z); [apply Nat.ltb_lt; reflexivity|]. apply ip_view. rewrite app_length. lia.
Qed.

Ltac ip_ends s z :=
  cbv beta; split;
  [apply (ip_now z); [unfold z; rewrite zeros_length; lia|]; sums s; area_leaf
  |exists []; split; [rewrite app_nil_r; reflexivity|];
   rewrite inside_none by lia; reflexivity].

Lemma ip_done L s ip new : s + 8 <= s_len buf ->
  let n := inside_of n0 (s + 8) 17 (fitting L (s + 8) 17 (prefix_count bs s)) in
  new = ip_of bs s n ip -> ip_after L bs n0 s ip new.
Proof.
  intros H n ->. pose proof (win_length m buf Hok) as Hl. split.
  - eapply (area_is _ []).
    + apply Nat.ltb_lt; reflexivity.
    + rewrite app_nil_r. reflexivity.
    + rewrite <- (ip_view bs s n ip) by lia. unfold area_soon. cbv zeta. fr_is 4. reflexivity.
  - exists (prefixes_of bs (s + 8) n). split; [reflexivity|]. apply prefixes_view.
    destruct (inside_end0 n0 (s + 8) 17 (fitting L (s + 8) 17 (prefix_count bs s))); [lia|fold n in H0..]; lia.
Qed.

Lemma back_ip z s ip : s + 8 <= s_cap buf ->
  mkIPInfo (seg (bs ++ z) s 4) (b2n (nth (s + 4) (bs ++ z) x00)) (seg (bs ++ z) (s + 5) 2)
    (b2n (nth (s + 7) (bs ++ z) x00)) (i_IPv6Prefixes ip) = ip_of bs s 0 ip.
Proof.
  intros H. pose proof (win_length m buf Hok) as Hl. unfold ip_of, bn.
  cbn [prefixes_of seq map]. rewrite app_nil_r.
  change (seg (bs ++ z) s 4) with (bytes_at (bs ++ z) s 4).
  change (seg (bs ++ z) (s + 5) 2) with (bytes_at (bs ++ z) (s + 5) 2).
  rewrite !bytes_more, !app_nth1 by lia. reflexivity.
Qed.

Lemma ip_after1 L s ip : ipinfo_wf ip -> s + 12 <= L ->
  finally (ip_after L bs n0 s ip) (ip_area_v1_W m buf L s) ip.
Proof.
  intros Hwf HL. red in Hwf. unfold ip_area_v1_W, short, TrailerLen, EyecatcherLen.
  destruct (L <? s + (4 + 1 + 2 + 1 + 4)) eqn:E; [exfalso; lia|].
  pose (z := zeros (s + 8)).
  destruct ip as [a1 a2 a3 a4 a5]. cbn in Hwf. unfold finally.
  repeat spare_area z.
  all: try ip_ends s z.
  match goal with |- torn _ (_ ?r) => set (r0 := r) end.
  assert (E0 : r0 = ip_of bs s 0 (mkIPInfo a1 a2 a3 a4 a5)).
  { subst r0. sums s. apply (back_ip z s (mkIPInfo a1 a2 a3 a4 a5)). lia. }
  rewrite E0. change (i_IPv6PrefixesCnt (ip_of bs s 0 (mkIPInfo a1 a2 a3 a4 a5))) with (bn bs (s + 7)).
  rewrite bn_bits by (rewrite win_length by assumption; lia). fold (prefix_count bs s).
  replace (s + 4 + 1 + 2) with (s + 8 - 1) by lia.
  eapply torn_mono; [|exact (prefixes_left L (prefix_count bs s) (s + 8) _ ltac:(lia))].
  cbv beta. intros r ->. apply ip_done; [lia|]. unfold ip_of. cbn [i_IPv6Prefixes prefixes_of seq map].
  rewrite app_nil_r. reflexivity.
Qed.

Lemma ip_after2 L hdr ip : ipinfo_wf ip -> h_Path hdr <> 2%N -> 92 <= L ->
  finally (ip_after L bs n0 80 ip) (ip_area_v2_W m buf hdr L 80) ip.
Proof.
  intros Hwf HP HL. red in Hwf. unfold ip_area_v2_W, short, TrailerLen, EyecatcherLen, SMCTypeN.
  apply N.eqb_neq in HP. rewrite HP. cbn [negb].
  destruct (L <? 80 + (4 + 1 + 2 + 1 + 4)) eqn:E; [exfalso; lia|].
  pose (z := zeros (80 + 8)). cbn [Nat.add].
  destruct ip as [a1 a2 a3 a4 a5]. cbn in Hwf. unfold finally.
  repeat spare_area z.
  all: try ip_ends 80 z.
  match goal with |- torn _ (_ ?r) => set (r0 := r) end.
  assert (E0 : r0 = ip_of bs 80 0 (mkIPInfo a1 a2 a3 a4 a5)).
  { subst r0. apply (back_ip z 80 (mkIPInfo a1 a2 a3 a4 a5)). lia. }
  rewrite E0. change (i_IPv6PrefixesCnt (ip_of bs 80 0 (mkIPInfo a1 a2 a3 a4 a5))) with (bn bs 87).
  rewrite bn_bits by (rewrite win_length by assumption; lia). change (N.to_nat (bits bs (8 * 87) 8)) with (prefix_count bs 80).
  eapply torn_mono; [|exact (prefixes_left2 L (prefix_count bs 80) 88 _)].
  cbv beta. intros r ->. apply ip_done; [lia|]. unfold ip_of. cbn [i_IPv6Prefixes prefixes_of seq map].
  rewrite app_nil_r. reflexivity.
Qed.

(** ** The v2 extension *)

Lemma eids_after L : forall n q i x,
  length (x_EIDArea x) = 8 -> Forall (fun e => length e = 32) (x_EIDArea x) -> i <= 8 ->
  finally (fun r => r = set_x_EIDArea (put (x_EIDArea x) i
      (eids_of bs q (inside_of (s_cap buf) q 32 (Nat.min (8 - i) (fitting L q 32 n))))) x)
    (eids_v2_W m buf L q i n) x.
Proof.
  induction n as [|n IH]; intros q i x Ha Hf Hi; unfold finally;
    (assert (E8 : forall r, r = x -> r = set_x_EIDArea (put (x_EIDArea x) i (eids_of bs q 0)) x)
      by (intros r ->; change (eids_of bs q 0) with (@nil (list byte)); rewrite put_nil;
          destruct x as [a1 a2 a3 a4 a5 a6 a7 a8 a9 area]; reflexivity));
    cbn [eids_v2_W].
  - unfold fitting. rewrite Nat.min_0_l, Nat.min_0_r, inside_0. apply finally_wret, E8. reflexivity.
  - unfold short, EIDLen, TrailerLen, EyecatcherLen.
    destruct (L <? q + (32 + 4)) eqn:E.
    + rewrite fits_none, Nat.min_0_r, inside_0 by lia.
      apply finally_map, finally_complain, E8. reflexivity.
    + rewrite fits_S by lia. apply torn_assoc, torn_get, torn_assoc.
      destruct (le_lt_dec 8 i) as [I8|I8].
      { unfold get_nth. rewrite (proj2 (nth_error_None _ _)) by lia. apply torn_panic.
        replace (8 - i) with 0 by lia. rewrite Nat.min_0_l, inside_0. apply E8. reflexivity. }
      replace (8 - i) with (S (8 - S i)) by lia. rewrite <- Nat.succ_min_distr.
      destruct (get_set (x_EIDArea x) i (seg bs q 32)) as (old & E0 & E1 & E2); [lia|].
      rewrite E1. apply torn_ret, torn_assoc.
      assert (Ho : length old = 32)
        by (apply (proj1 (Forall_forall _ _) Hf); eapply nth_error_In; exact E0).
      destruct (le_lt_dec (q + 32) (s_cap buf)) as [H32|H32].
      * rewrite inside_S by lia.
        rewrite (sub_self buf) at 1. rewrite (copy_sub m buf Hok) by lia. apply torn_ret.
        cbn [Nat.add]. replace (q + 32 - q) with 32 by lia. 
        unfold assign. apply torn_assoc, torn_assoc. rewrite E2.
        apply torn_ret, torn_change. cbv beta zeta.
        eapply torn_mono; [|apply IH].
        -- cbv beta. intros r ->. destruct x as [a1 a2 a3 a4 a5 a6 a7 a8 a9 area]. cbn in Ha.
           cbn -[put eids_of firstn skipn Nat.sub inside_of fitting win].
           rewrite eids_of_S. rewrite put_cons by lia. reflexivity.
        -- destruct x as [a1 a2 a3 a4 a5 a6 a7 a8 a9 area]. cbn in Ha. cbn -[firstn skipn].
           rewrite app_length. cbn [length]. rewrite firstn_length, skipn_length. lia.
        -- destruct x as [a1 a2 a3 a4 a5 a6 a7 a8 a9 area]. cbn in Hf. cbn -[firstn skipn seg].
           apply Forall_app. split; [apply Forall_pre; exact Hf|].
           constructor; [rewrite seg_length; rewrite ?win_length by assumption; lia|apply Forall_post; exact Hf].
        -- lia.
      * rewrite inside_none by lia.
        rewrite (sub_self buf) at 1. rewrite (copy_sub_panic m buf) by lia. apply torn_panic, E8. reflexivity.
Qed.


Lemma ext_now z s x new : s + 40 <= length z ->
  area_soon v2_extension_body s (v2_extension_view (ext_of (bs ++ z) s 0 x)) (v2_extension_view x) new ->
  new = left_area v2_extension_body bs n0 s (v2_extension_view x).
Proof.
  intros Hz. apply (area_is _ z); [apply Nat.ltb_lt; reflexivity|]. apply ext_view. rewrite app_length. lia.
Qed.

(** the extension at [s] *)
Definition ext_at (L s : nat) (old new : V2Ext) : Prop :=
  let c := if s + 4 <=? n0 then inside_of (length bs) (s + 40) 32
             (Nat.min 8 (fitting L (s + 40) 32 (N.to_nat (bits bs (8 * s) 8)))) else 0 in
  v2_extension_view new = left_area v2_extension_body bs n0 s (v2_extension_view old) /\
  x_EIDArea new
  = map (fun k => bytes_at bs (s + 40 + 32 * k) 32) (seq 0 c) ++ skipn c (x_EIDArea old).

Lemma ext_done L s x new : s + 4 <= n0 -> s + 40 <= s_cap buf -> length (x_EIDArea x) = 8 ->
  let n := inside_of (s_cap buf) (s + 40) 32
             (Nat.min 8 (fitting L (s + 40) 32 (N.to_nat (bits bs (8 * s) 8)))) in
  new = ext_of bs s n x -> ext_at L s x new.
Proof.
  intros H4 H WA n ->. pose proof (win_length m buf Hok) as Hl. split.
  - eapply (area_is _ []).
    + apply Nat.ltb_lt; reflexivity.
    + rewrite app_nil_r. reflexivity.
    + rewrite <- (ext_view bs s n x) by lia. unfold area_soon. cbv zeta. fr_is 9. reflexivity.
  - replace (s + 4 <=? n0) with true by lia. rewrite Hl. fold n.
    unfold ext_of, put. cbn [x_EIDArea firstn app Nat.add]. rewrite eids_of_length. reflexivity.
Qed.

Lemma back_ext z s x : s + 40 <= s_cap buf -> ext_of (bs ++ z) s 0 x = ext_of bs s 0 x.
Proof.
  intros H. pose proof (win_length m buf Hok) as Hl. unfold ext_of, bn, num.
  change seg with bytes_at. rewrite !bytes_more, !app_nth1 by lia. reflexivity.
Qed.

Ltac ext_ends s z :=
  cbv beta; split;
  [apply (ext_now z); [unfold z; rewrite zeros_length; lia|]; sums s; area_leaf
  |cbv zeta; rewrite win_length by assumption; rewrite inside_none by lia; destruct (s + 4 <=? n0); reflexivity].

Ltac ext_ends0 s z :=
  cbv beta; split;
  [apply (ext_now z); [unfold z; rewrite zeros_length; lia|]; sums s; area_leaf
  |cbv zeta; replace (s + 4 <=? n0) with false by lia; reflexivity].

Lemma ext_after2 L hdr s x : v2ext_wf x -> h_Pathv2 hdr <> 2%N -> s + 44 <= L ->
  finally (ext_at L s x) (ext_v2_W m buf hdr L s) x.
Proof.
  intros (W5 & W6 & WA & WF) HP HL. unfold ext_v2_W, short, ProposalV2ExtLen, TrailerLen, EyecatcherLen, SMCTypeN.
  apply N.eqb_neq in HP. rewrite HP. cbn [negb].
  destruct (L <? s + (40 + 4)) eqn:E; [exfalso; lia|].
  pose (z := zeros (s + 40)).
  destruct x as [a1 a2 a3 a4 a5 a6 a7 a8 a9 area] eqn:Ex. rewrite <- Ex in *. unfold finally.
  rewrite Ex at 2. rewrite Ex in W5, W6. cbn in W5, W6.
  repeat spare_area z.
  all: try (rewrite Ex; first [ext_ends0 s z|ext_ends s z]).
  match goal with |- torn _ (_ ?r) => set (r0 := r) end.
  assert (E0 : r0 = ext_of bs s 0 x).
  { rewrite <- (back_ext z) by lia. subst r0. rewrite Ex. sums s. unfold ext_of.
    change (eids_of (bs ++ z) (s + 40) 0) with (@nil (list byte)). rewrite put_nil. reflexivity. }
  rewrite E0. change (x_EIDNumber (ext_of bs s 0 x)) with (bn bs s).
  rewrite bn_bits by (rewrite win_length by assumption; lia).
  replace (s + 1 + 1 + 1 + 1 + 2 + 2 + 32) with (s + 40) by lia.
  assert (EA : x_EIDArea (ext_of bs s 0 x) = x_EIDArea x) by (apply put_nil).
  eapply torn_mono; [|refine (eids_after L _ (s + 40) 0 _ _ _ _); rewrite ?EA; try assumption; lia].
  cbv beta. intros r ->. apply ext_done; [lia|lia|exact WA|]. rewrite EA. rewrite Nat.sub_0_r. reflexivity.
Qed.

(** ** The SMC-D v2 extension *)

Definition gids_at (L q i n : nat) (old new : list GIDEntry) : Prop :=
  let k := Nat.min (8 - i) (fitting L q 10 n) in
  let c := inside_of (s_cap buf) q 10 k in
  exists r, new = firstn i old ++ gids_of bs q c ++ r /\
    if c <? k then
      match skipn (i + c) old, r with
      | e :: t, e' :: t' =>
        gid_entry_view e' = left_area gid_entry_body bs n0 (q + 10 * c) (gid_entry_view e) /\ t' = t
      | _, _ => False
      end
    else r = skipn (i + c) old.

Lemma gids_at_0 L q i n old : Nat.min (8 - i) (fitting L q 10 n) = 0 -> gids_at L q i n old old.
Proof.
  intros H. unfold gids_at. rewrite H, inside_0. exists (skipn i old). rewrite Nat.add_0_r.
  split; [symmetry; apply firstn_skipn|reflexivity].
Qed.

Lemma gids_at_S L q i n old g new : i < 8 -> length old = 8 -> q + (10 + 4) <= L -> q + 10 <= s_cap buf ->
  g = mkGIDEntry (num bs q 8) (num bs (q + 8) 2) ->
  gids_at L (q + 10) (S i) n (firstn i old ++ g :: skipn (S i) old) new -> gids_at L q i (S n) old new.
Proof.
  intros Hi Ho HL Hl -> (r & E & H). unfold gids_at. rewrite fits_S by lia.
  replace (8 - i) with (S (8 - S i)) by lia. rewrite <- Nat.succ_min_distr, inside_S by lia.
  set (k := Nat.min (8 - S i) (fitting L (q + 10) 10 n)) in *.
  set (c := inside_of (s_cap buf) (q + 10) 10 k) in *.
  assert (HF : length (firstn i old) = i) by (rewrite firstn_length; lia).
  assert (ES : skipn (S i + c) (firstn i old ++ mkGIDEntry (num bs q 8) (num bs (q + 8) 2) :: skipn (S i) old)
    = skipn (i + S c) old).
  { rewrite skipn_app, HF. rewrite skipn_all2 by lia. cbn [app].
    replace (S i + c - i) with (S c) by lia. rewrite skipn_cons, skipn_skipn. f_equal. lia. }
  rewrite ES in H. exists r. split.
  - rewrite E, gids_of_S. rewrite firstn_app, HF. replace (S i - i) with 1 by lia.
    rewrite firstn_all2 by lia. cbn [firstn]. rewrite <- !app_assoc. reflexivity.
  - change (S c <? S k) with (c <? k). destruct (c <? k); [|exact H].
    replace (q + 10 * S c) with (q + 10 + 10 * c) by lia. exact H.
Qed.

Lemma gid_stops L q i n old z e e' new : i < 8 -> length old = 8 -> q + (10 + 4) <= L -> s_cap buf < q + 10 ->
  nth_error old i = Some e -> new = firstn i old ++ e' :: skipn (S i) old ->
  q + 10 <= length z ->
  area_soon gid_entry_body q (gid_entry_view (mkGIDEntry (num (bs ++ z) q 8) (num (bs ++ z) (q + 8) 2)))
    (gid_entry_view e) (gid_entry_view e') ->
  gids_at L q i (S n) old new.
Proof.
  intros Hi Ho HL Hl He -> Hz H. unfold gids_at. rewrite fits_S by lia.
  replace (8 - i) with (S (8 - S i)) by lia. rewrite <- Nat.succ_min_distr, inside_none by lia.
  exists (e' :: skipn (S i) old). split; [reflexivity|]. cbn [Nat.ltb Nat.leb].
  rewrite Nat.add_0_r, Nat.mul_0_r, Nat.add_0_r.
  assert (ES : skipn i old = e :: skipn (S i) old).
  { apply nth_error_split in He. destruct He as (l1 & l2 & -> & <-).
    rewrite !skipn_app, Nat.sub_diag, skipn_all, (skipn_all2 l1) by lia.
    replace (S (length l1) - length l1) with 1 by lia. reflexivity. }
  rewrite ES. split; [|reflexivity].
  eapply (area_is _ z); [apply Nat.ltb_lt; reflexivity| |exact H].
  pose proof (gids_view (bs ++ z) q 1) as G. rewrite app_length in G. specialize (G ltac:(lia)).
  unfold gids_of, entries in G. cbn [seq map] in G. rewrite Nat.mul_0_r, Nat.add_0_r in G. apply (f_equal (hd [])) in G. exact G.
Qed.

Lemma gids_left L : forall n q i y, length (y_GIDArea y) = 8 -> i <= 8 ->
  finally (fun r => y_SEID r = y_SEID y /\ y_reserved7 r = y_reserved7 y /\
      gids_at L q i n (y_GIDArea y) (y_GIDArea r))
    (gids_v2_W m buf L q i n) y.
Proof.
  induction n as [|n IH]; intros q i y Ha Hi; unfold finally; cbn [gids_v2_W].
  - apply finally_wret. split; [reflexivity|]. split; [reflexivity|]. apply gids_at_0. unfold fitting. lia.
  - unfold short, TrailerLen, EyecatcherLen.
    destruct (L <? q + (8 + 2 + 4)) eqn:E.
    + apply finally_complain. split; [reflexivity|]. split; [reflexivity|]. apply gids_at_0.
      rewrite fits_none by lia. lia.
    + pose (z := zeros (q + 10)).
      assert (Hz : q + 10 <= length z) by (unfold z; rewrite zeros_length; lia).
      destruct y as [a1 a2 area]. cbn [y_GIDArea] in Ha. apply torn_assoc.
      destruct (le_lt_dec 8 i) as [I8|I8].
      { assert (H0 : gids_at L q i (S n) area area) by (apply gids_at_0; lia).
        destruct (le_lt_dec (q + 8) (s_cap buf)) as [H8|H8].
        - rewrite (sub_self buf) at 1. rewrite (be64_sub m buf Hok) by lia.
          apply torn_ret, torn_assoc, torn_get, torn_assoc. cbn [y_GIDArea].
          unfold get_nth. rewrite (proj2 (nth_error_None _ _)) by lia. apply torn_panic.
          split; [reflexivity|]. split; [reflexivity|]. exact H0.
        - rewrite (sub_self buf) at 1. rewrite (be64_sub_panic m buf) by lia. apply torn_panic.
          split; [reflexivity|]. split; [reflexivity|]. exact H0. }
      destruct (nth_error area i) as [old|] eqn:E0; [|apply nth_error_None in E0; lia].
      destruct (le_lt_dec (q + 8) (s_cap buf)) as [H8|H8].
      2: { rewrite (sub_self buf) at 1. rewrite (be64_sub_panic m buf) by lia. apply torn_panic.
           split; [reflexivity|]. split; [reflexivity|]. cbn [y_GIDArea].
           apply (gid_stops L q i n area z old old); try assumption; try lia.
           - symmetry. apply put_back. exact E0.
           - area_leaf. }
      rewrite (sub_self buf) at 1. rewrite (be64_sub m buf Hok) by lia.
      apply torn_ret, torn_assoc, torn_get, torn_assoc. cbn [y_GIDArea].
      rewrite be_acc0. cbn [Nat.add]. replace (q + 8 - q) with 8 by lia. 
      destruct (get_set area i (mkGIDEntry (BE (seg bs q 8)) (g_VCHID old))) as (old' & E0' & E1 & E2); [lia|].
      assert (old' = old) by congruence. subst old'.
      rewrite E1. apply torn_ret. unfold assign at 1. apply torn_assoc, torn_assoc. rewrite E2. apply torn_ret, torn_change.
      cbv beta zeta. clear E1 E2. cbv beta iota delta [set_y_GIDArea y_SEID y_reserved7].
      set (area' := firstn i area ++ _ :: skipn (S i) area).
      assert (Ha' : length area' = 8).
      { unfold area'. rewrite app_length. cbn [length]. rewrite firstn_length, skipn_length. lia. }
      assert (E0'' : nth_error area' i = Some (mkGIDEntry (BE (seg bs q 8)) (g_VCHID old))).
      { unfold area'. rewrite nth_error_app2 by (rewrite firstn_length; lia).
        rewrite firstn_length. replace (i - Nat.min i (length area)) with 0 by lia. reflexivity. }
      apply torn_assoc.
      destruct (le_lt_dec (q + 10) (s_cap buf)) as [H10|H10].
      2: { rewrite (sub_self buf) at 1. rewrite (be16_sub_panic m buf) by lia. apply torn_panic.
           split; [reflexivity|]. split; [reflexivity|]. cbn [y_GIDArea].
           apply (gid_stops L q i n area z old (mkGIDEntry (BE (seg bs q 8)) (g_VCHID old))); try assumption; try lia.
           - reflexivity.
           - replace (num (bs ++ z) q 8) with (BE (seg bs q 8))
               by (unfold num; rewrite (spare_seg m buf Hok z) by lia; reflexivity).
             unfold area_soon; cbv zeta; fr_is 1. unread_leaf. }
      rewrite (sub_self buf) at 1. rewrite (be16_sub m buf Hok) by lia.
      apply torn_ret, torn_assoc, torn_get, torn_assoc. cbn [y_GIDArea].
      rewrite be_acc0. cbn [Nat.add]. replace (q + 8 + 2 - (q + 8)) with 2 by lia. 
      destruct (get_set area' i (mkGIDEntry (BE (seg bs q 8)) (BE (seg bs (q + 8) 2)))) as (old' & E0x & E1 & E2); [lia|].
      assert (old' = mkGIDEntry (BE (seg bs q 8)) (g_VCHID old)) by congruence. subst old'.
      rewrite E1. apply torn_ret. cbn [g_GID]. unfold assign at 1. apply torn_assoc, torn_assoc. rewrite E2.
      apply torn_ret, torn_change. cbv beta zeta. cbv beta iota delta [set_y_GIDArea y_SEID y_reserved7].
      replace (q + 8 + 2) with (q + 10) by lia.
      set (area'' := firstn i area' ++ _ :: skipn (S i) area').
      assert (EA : area'' = firstn i area ++ mkGIDEntry (num bs q 8) (num bs (q + 8) 2) :: skipn (S i) area).
      { unfold area'', area'.
        assert (HF : length (firstn i area) = i) by (rewrite firstn_length; lia).
        rewrite firstn_app, HF, Nat.sub_diag, firstn_firstn, Nat.min_id. cbn [firstn].
        rewrite app_nil_r. f_equal. f_equal.
        rewrite skipn_app, HF. rewrite skipn_all2 by lia. cbn [app].
        replace (S i - i) with 1 by lia. reflexivity. }
      rewrite EA.
      eapply torn_mono; [|apply IH].
      * cbv beta. cbn [y_SEID y_reserved7 y_GIDArea]. intros r (R1 & R2 & R3).
        split; [exact R1|]. split; [exact R2|].
        eapply gids_at_S; try exact R3; try assumption; try lia. reflexivity.
      * cbn [y_GIDArea]. rewrite app_length. cbn [length]. rewrite firstn_length, skipn_length. lia.
      * lia.
Qed.


Lemma smcd_now z s y new :
  area_soon smcdv2_extension_body s (smcdv2_extension_view (smcd_ext_of (bs ++ z) s 0 y))
    (smcdv2_extension_view y) new ->
  new = left_area smcdv2_extension_body bs n0 s (smcdv2_extension_view y).
Proof. apply (area_is _ z); [apply Nat.ltb_lt; reflexivity|]. apply smcd_ext_view. Qed.

Definition smcd_at (L s gn : nat) (old new : SMCDExt) : Prop :=
  let n := Nat.min 8 (fitting L (s + 48) 10 gn) in
  let c := inside_of (length bs) (s + 48) 10 n in
  smcdv2_extension_view new = left_area smcdv2_extension_body bs n0 s (smcdv2_extension_view old) /\
  exists l r, y_GIDArea new = l ++ r /\
    map gid_entry_view l = entries gid_entry_body (s + 48) 10 c bs /\
    if c <? n then
      match skipn c (y_GIDArea old), r with
      | e :: t, e' :: t' =>
        gid_entry_view e' = left_area gid_entry_body bs n0 (s + 48 + 10 * c) (gid_entry_view e) /\
        t' = t
      | _, _ => False
      end
    else r = skipn c (y_GIDArea old).

Lemma gid_still q e : s_cap buf < q + 8 ->
  gid_entry_view e = left_area gid_entry_body bs n0 q (gid_entry_view e).
Proof.
  intros H. eapply (area_is _ []); [apply Nat.ltb_lt; reflexivity|reflexivity|]. area_leaf.
Qed.

Lemma smcd_after2 L hdr s gn y : smcdext_wf y -> h_Pathv2 hdr = 1%N \/ h_Pathv2 hdr = 3%N -> s + 52 <= L ->
  finally (smcd_at L s (N.to_nat gn) y) (smcd_v2_W m buf hdr L s gn) y.
Proof.
  intros (W1 & W2 & WA) HP HL. unfold smcd_v2_W, short, SMCDv2ExtLen, TrailerLen, EyecatcherLen, SMCTypeD, SMCTypeB.
  replace ((h_Pathv2 hdr =? 1) || (h_Pathv2 hdr =? 3))%N with true by (destruct HP as [-> | ->]; reflexivity).
  destruct (L <? s + (48 + 4)) eqn:E; [exfalso; lia|].
  pose (z := zeros (s + 48)).
  pose proof (win_length m buf Hok) as Hl.
  destruct y as [a1 a2 area] eqn:Ex. rewrite <- Ex in *. unfold finally.
  rewrite Ex at 2. rewrite Ex in W1, W2. cbn in W1, W2.
  repeat spare_area z.
  1, 2: rewrite Ex; cbv beta; split;
    [apply (smcd_now z); sums s; area_leaf
    |exists [], area; split; [reflexivity|]; cbv zeta; rewrite Hl, inside_none by lia; split; [reflexivity|];
     cbn [skipn y_GIDArea];
     destruct (0 <? _); [|reflexivity]; rewrite Ex in WA; destruct area as [|e t]; [discriminate WA|]; cbv beta iota;
     split; [apply gid_still; lia|reflexivity]].
  match goal with |- torn _ (_ ?r) => set (r0 := r) end.
  sums s.
  eapply torn_mono; [|refine (gids_left L (N.to_nat gn) (s + 48) 0 _ _ _);
    [subst r0; cbn [y_GIDArea]; rewrite Ex in WA; exact WA|lia]].
  cbv beta. intros r (R1 & R2 & (t & R3 & R4)). subst r0. cbn [y_SEID y_reserved7 y_GIDArea] in *.
  change (8 - 0) with 8 in *. cbn [firstn app] in R3.
  split.
  - apply (smcd_now z). unfold area_soon. cbv zeta. fr_is 2. unfold smcdv2_extension_view. rewrite R1, R2.
    sums s. reflexivity.
  - exists (gids_of bs (s + 48) (inside_of (s_cap buf) (s + 48) 10 (Nat.min 8 (fitting L (s + 48) 10 (N.to_nat gn))))), t.
    rewrite Hl. split; [exact R3|]. split.
    + apply gids_view. rewrite Hl.
      unfold inside_of. pose proof (Nat.mul_div_le (s_cap buf - (s + 48)) 10). lia.
    + rewrite Ex. cbn [y_GIDArea]. exact R4.
Qed.

(** ** v1 Proposals *)

Lemma v1_tail (G : Proposal -> Prop) L s r : ipinfo_wf (p_IP r) ->
  (forall i t, (if s + 12 <=? L then ip_after L bs n0 s (p_IP r) i else i = p_IP r) ->
     G (set_p_Trailer t (set_p_IP i r))) ->
  torn G (wbind (part p_IP set_p_IP (ip_area_v1_W m buf L s)) (fun go_on : bool =>
      if go_on then part p_Trailer set_p_Trailer (Trailer_W m buf) else wret tt) r).
Proof.
  intros Hw HG.
  assert (F : finally (fun i => if s + 12 <=? L then ip_after L bs n0 s (p_IP r) i else i = p_IP r)
                (ip_area_v1_W m buf L s) (p_IP r)).
  { destruct (s + 12 <=? L) eqn:E; [apply ip_after1; [exact Hw|lia]|].
    unfold ip_area_v1_W, short, TrailerLen, EyecatcherLen.
    destruct (L <? s + (4 + 1 + 2 + 1 + 4)) eqn:E1; [|exfalso; lia].
    apply (finally_map _ _ (fun _ => false)), finally_complain. reflexivity. }
  assert (HG' : forall i, (if s + 12 <=? L then ip_after L bs n0 s (p_IP r) i else i = p_IP r) -> G (set_p_IP i r)).
  { intros i Hi. specialize (HG i (p_Trailer r) Hi). destruct r as [? ? ? ? ? ? ? ? ? ?]. exact HG. }
  apply torn_part.
  - eapply torn_mono; [|apply finally_torn; exact F]. exact HG'.
  - intros l a p E. apply (finally_done _ _ _ _ _ _ F) in E.
    destruct a; [apply part_any; intros t; apply HG; exact E|apply torn_wret].
Qed.

Lemma back_offset z : 40 <= s_cap buf -> num (bs ++ z) 38 2 = ip_area_offset bs.
Proof.
  intros H. pose proof (win_length m buf Hok) as Hl. unfold num.
  change (seg (bs ++ z) 38 2) with (bytes_at (bs ++ z) 38 2). rewrite bytes_more by lia.
  unfold ip_area_offset. symmetry. apply (bits_bytes bs 38 2); lia.
Qed.

Lemma v1_rest_after old r : 8 <= n0 -> 40 <= s_cap buf -> (52 <= declared bs)%N ->
  p_IPAreaOffset r = ip_area_offset bs -> proposal_smcd_view r = proposal_smcd_view old ->
  p_IP r = p_IP old -> length (p_reserved old) = 32 -> ipinfo_wf (p_IP old) ->
  torn (v1_after bs n0 old) ((wbind (smcd_v1_W m buf 40) (fun skip =>
    wbind (part p_IP set_p_IP (ip_area_v1_W m buf (N.to_nat (declared bs)) skip)) (fun go_on : bool =>
      if go_on then part p_Trailer set_p_Trailer (Trailer_W m buf) else wret tt))) r).
Proof.
  intros H8 H40 H52 Ho Hs Hi Hr Hw. pose proof (win_length m buf Hok) as Hl. pose (z := zeros 80).
  unfold v1_after. rewrite Hl.
  replace ((8 <=? n0) && (40 <=? s_cap buf) && (52 <=? N.to_nat (declared bs))) with true by lia. cbn [andb].
  unfold smcd_v1_W, SMCDIPAreaOffset. apply torn_assoc, torn_get. rewrite Ho.
  destruct (ip_area_offset bs =? 40)%N eqn:EO.
  - apply N.eqb_eq in EO. unfold ip_area_start. rewrite EO. change (40 + N.to_nat 40) with 80.
    cbn [negb orb]. destruct old as [o1 o2 o3 o4 o5 o6 o7 o8 o9 o10].
    destruct r as [r1 r2 r3 r4 r5 r6 r7 r8 r9 r10]. cbn in Ho, Hs, Hi, Hr, Hw. injection Hs as -> ->. subst r9.
    cbn [Nat.add].
    assert (D : forall a b, area_soon proposal_smcd_body 40
       [("SMC-D GID", VN (num (bs ++ z) 40 8)); ("Reserved", VB (seg (bs ++ z) 48 32))]%string
       a b -> b = left_area proposal_smcd_body bs n0 40 a).
    { intros a b. apply (area_is _ z); [apply Nat.ltb_lt; reflexivity|]. unfold proposal_smcd_body. cbn [decode_at].
      assert (Hz : 80 <= length (bs ++ z)) by (rewrite app_length; unfold z; rewrite zeros_length; lia).
      unfold num. rewrite <- (bits_bytes (bs ++ z) 40 8 (8 * 40) 64) by lia. reflexivity. }
    repeat spare_area z.
    1, 2: split; [apply D; area_leaf|];
      replace ((80 <=? s_cap buf) && (92 <=? N.to_nat (declared bs))) with false by lia; reflexivity.
    apply torn_go, v1_tail; [exact Hw|]. intros i t Hit. split; [apply D; area_leaf|].
    replace (80 <=? s_cap buf) with true by lia. exact Hit.
  - cbn [negb orb]. apply torn_go. fold (ip_area_start bs).
    apply v1_tail; [rewrite Hi; exact Hw|]. intros i t Hit. rewrite Hi in Hit.
    destruct r as [r1 r2 r3 r4 r5 r6 r7 r8 r9 r10]. cbn [set_p_IP set_p_Trailer p_IP].
    split; [exact Hs|exact Hit].
Qed.

Lemma back_declared : 8 <= n0 -> declared bs = declared (s_bytes m buf).
Proof.
  intros H. pose proof (s_bytes_length m buf Hok) as Hl.
  rewrite <- (firstn_skipn n0 bs), win_firstn by assumption. apply bits_more. lia.
Qed.

Lemma back_hdr : 8 <= n0 -> hdr_of bs = hdr_of (s_bytes m buf).
Proof. intros H. rewrite <- (app_nil_r bs). apply spare_hdr; assumption. Qed.

Lemma Proposal_after old : proposal_wf old ->
  torn (v1_after bs n0 old) (Proposal_W m buf old).
Proof.
  intros Hwf. pose proof (win_length m buf Hok) as Hl. pose (z := zeros 120).
  assert (N0 : n0 < 8 \/ s_cap buf < 40 \/ (declared bs < 52)%N -> forall new,
    proposal_smcd_view new = proposal_smcd_view old -> p_IP new = p_IP old -> v1_after bs n0 old new).
  { intros H new H1 H2. unfold v1_after. rewrite Hl.
    replace ((8 <=? n0) && (40 <=? s_cap buf) && (52 <=? N.to_nat (declared bs))) with false by lia.
    split; assumption. }
  destruct Hwf as (Hwf1 & Hwf2 & Hwf3 & Hwf4 & Hwf5). unfold Proposal_W.
  destruct old as [o1 o2 o3 o4 o5 o6 o7 o8 o9 o10] eqn:Eo. rewrite <- Eo in N0.
  cbn in Hwf1, Hwf2, Hwf3, Hwf4, Hwf5. rewrite <- Eo at 1. apply torn_change. receiver.
  apply (spare_Header_step m buf z); [exact Hok|exact Hwf1|intros h (L & _)|intros L].
  { apply N0; [lia|rewrite Eo; reflexivity..]. }
  receiver. apply torn_get. receiver. spare_length m buf z Hok L. rewrite <- back_declared by exact L.
  destruct (declared bs <? ProposalLen)%N eqn:E; unfold ProposalLen in E.
  { apply complain_torn. apply N0; [lia|rewrite Eo; reflexivity..]. }
  unfold HeaderLen, PeerIDLen. cbn [Nat.add].
  repeat spare_area z.
  1-4: apply N0; [lia|rewrite Eo; reflexivity..].
  apply v1_rest_after; try (rewrite Eo; first [reflexivity|assumption]); try lia.
  cbn [p_IPAreaOffset Nat.sub]. apply back_offset. lia.
Qed.

(** ** v2 Proposals *)

Section v2.
Context (H8 : 8 <= s_len buf).
Local Notation L := (N.to_nat (declared bs)).
Local Notation hdr := (hdr_of bs).

Lemma ip_part ip : 80 <= s_cap buf -> ipinfo_wf ip ->
  finally (fun i => if has_ip bs && (92 <=? L) then ip_after L bs n0 80 ip i else i = ip)
    (ip_area_v2_W m buf hdr L 80) ip /\
  (snd (fst (ip_area_v2_W m buf hdr L 80 ip)) = Panicked -> ip_passed L bs n0 = false) /\
  (forall l a i, ip_area_v2_W m buf hdr L 80 ip = (l, Done a, i) ->
     match a with None => ip_passed L bs n0 = false | Some q => ip_passed L bs n0 = true /\ q = v2_ext_start L bs end).
Proof.
  intros H80 Hw. pose proof (win_length m buf Hok) as Hl.
  assert (HP : h_Path hdr = msg_path bs) by (apply hdr_path; lia).
  split.
  - destruct (has_ip bs && (92 <=? L)) eqn:E.
    + unfold has_ip in E. apply ip_after2; [exact Hw|rewrite HP; lia|lia].
    + unfold ip_area_v2_W, SMCTypeN. rewrite HP. unfold has_ip in E.
      destruct (msg_path bs =? 2)%N; cbn [negb] in *; [apply finally_wret; reflexivity|].
      unfold short, TrailerLen, EyecatcherLen.
      destruct (L <? 80 + (4 + 1 + 2 + 1 + 4)) eqn:E1; [|exfalso; lia].
      apply (finally_map _ _ (fun _ => None)), finally_complain. reflexivity.
  - pose proof (ip_any m buf Hok L H8 ip Hw ltac:(lia)) as A. rewrite <- back_hdr in A by exact H8.
    destruct (done_ends _ _ _ _ _ _ (WriteFacts.ip_area_v2_agrees m buf hdr L 80 ip) A) as [A1 A2].
    unfold ip_passed, goes_on, v2_ext_start, v2_ip_room in *. rewrite Hl. split.
    + intros E. destruct (A1 E) as [H1 H2]. rewrite H1. lia.
    + intros l a i E. destruct (A2 _ _ _ E) as (N1 & b & Q & Eb). clear A1 A2 A.
      destruct b as [[i' q]|]; injection Eb as <- <-.
      * destruct Q as [Q1 ->]. destruct (has_ip bs); [|split; reflexivity]. specialize (Q1 eq_refl).
        split; [|reflexivity].
        destruct (le_lt_dec (88 + 17 * v2_prefixes L bs) (s_len buf)); [|exfalso; apply N1; split; [reflexivity|lia]].
        destruct (le_lt_dec (prefix_count bs 80) (v2_prefixes L bs)); [lia|].
        destruct (le_lt_dec L (s_cap buf)); [lia|]. exfalso; apply N1; split; [reflexivity|lia].
      * destruct Q as [Q1 Q2]. rewrite Q1. lia.
Qed.

Lemma ext_part x : v2ext_wf x ->
  finally (fun y => if has_ext bs && (v2_ext_start L bs + 44 <=? L) then Spare.ext_after L bs n0 x y else y = x)
    (ext_v2_W m buf hdr L (v2_ext_start L bs)) x /\
  (snd (fst (ext_v2_W m buf hdr L (v2_ext_start L bs) x)) = Panicked -> Spare.ext_passed L bs n0 = false) /\
  (forall l a y, ext_v2_W m buf hdr L (v2_ext_start L bs) x = (l, Done a, y) ->
     match a with
     | None => Spare.ext_passed L bs n0 = false
     | Some q => Spare.ext_passed L bs n0 = true /\
       (has_smcd bs = true -> q = v2_smcd_start L bs /\ N.to_nat (x_GIDNumber y) = v2_gid_count L bs)
     end).
Proof.
  intros Hw. pose proof (win_length m buf Hok) as Hl.
  assert (HP : h_Pathv2 hdr = msg_pathv2 bs) by (apply hdr_pathv2; lia).
  split.
  - destruct (has_ext bs && (v2_ext_start L bs + 44 <=? L)) eqn:E.
    + unfold has_ext in E. apply ext_after2; [exact Hw|rewrite HP; lia|lia].
    + unfold ext_v2_W, SMCTypeN. rewrite HP. unfold has_ext in E.
      destruct (msg_pathv2 bs =? 2)%N; cbn [negb] in *; [apply finally_wret; reflexivity|].
      unfold short, ProposalV2ExtLen, TrailerLen, EyecatcherLen.
      destruct (L <? v2_ext_start L bs + (40 + 4)) eqn:E1; [|exfalso; lia].
      apply (finally_map _ _ (fun _ => None)), finally_complain. reflexivity.
  - pose proof (ext_any m buf Hok L H8 x Hw) as A. rewrite <- back_hdr in A by exact H8.
    destruct (done_ends _ _ _ _ _ _ (WriteFacts.ext_v2_agrees m buf hdr L (v2_ext_start L bs) x) A) as [A1 A2].
    unfold Spare.ext_passed, goes_on, v2_ext_room in *. rewrite Hl. clear A.
    assert (ES : v2_smcd_start L bs = v2_ext_start L bs + 40 + 32 * v2_eids L bs) by reflexivity.
    split.
    + intros E. destruct (A1 E) as [H1 H2]. rewrite H1. lia.
    + intros l a i E. destruct (A2 _ _ _ E) as (N1 & b & Q & Eb). clear A1 A2.
      destruct b as [[i' q]|]; injection Eb as <- <-.
      * destruct Q as [Q1 Q2]. destruct (has_ext bs) eqn:EH.
        -- specialize (Q1 eq_refl). destruct (Q2 eq_refl) as (-> & Q3 & Q4). split.
           ++ destruct (le_lt_dec (v2_eids L bs) 8); [|exfalso; apply N1; split; [reflexivity|lia]].
              destruct (le_lt_dec (v2_eid_count L bs) (v2_eids L bs)); [lia|].
              destruct (le_lt_dec L (s_cap buf)); [lia|]. exfalso; apply N1; split; [reflexivity|lia].
           ++ intros _. split; [reflexivity|]. rewrite Q4. reflexivity.
        -- split; [reflexivity|]. unfold has_ext, has_smcd in *. lia.
      * destruct Q as [Q1 Q2]. rewrite Q1. lia.
Qed.

Lemma smcd_part y q gn : smcdext_wf y ->
  (has_smcd bs = true -> q = v2_smcd_start L bs /\ N.to_nat gn = v2_gid_count L bs) ->
  finally (fun x => if has_smcd bs && (v2_smcd_start L bs + 52 <=? L) then Spare.smcd_after L bs n0 y x else x = y)
    (smcd_v2_W m buf hdr L q gn) y.
Proof.
  intros Hw Hq. pose proof (win_length m buf Hok) as Hl.
  assert (HP : h_Pathv2 hdr = msg_pathv2 bs) by (apply hdr_pathv2; lia).
  destruct (has_smcd bs && (v2_smcd_start L bs + 52 <=? L)) eqn:E.
  - destruct (has_smcd bs) eqn:EH; [|discriminate]. destruct (Hq eq_refl) as [-> Hg].
    unfold has_smcd in EH. change (Spare.smcd_after L bs n0 y) with (smcd_at L (v2_smcd_start L bs) (v2_gid_count L bs) y).
    rewrite <- Hg. apply smcd_after2; [exact Hw|rewrite HP; lia|lia].
  - unfold smcd_v2_W, SMCTypeD, SMCTypeB. rewrite HP. fold (has_smcd bs).
    destruct (has_smcd bs) eqn:EH; [|apply finally_wret; reflexivity]. destruct (Hq eq_refl) as [-> _].
    unfold short, SMCDv2ExtLen, TrailerLen, EyecatcherLen.
    destruct (L <? v2_smcd_start L bs + (48 + 4)) eqn:E1; [|exfalso; lia].
    apply (finally_map _ _ (fun _ => false)), finally_complain. reflexivity.
Qed.

Lemma v2_rest_after old r : 80 <= s_cap buf -> (84 <= declared bs)%N ->
  p2_IP r = p2_IP old -> p2_Ext r = p2_Ext old -> p2_SMCD r = p2_SMCD old ->
  ipinfo_wf (p2_IP old) -> v2ext_wf (p2_Ext old) -> smcdext_wf (p2_SMCD old) ->
  torn (v2_after bs n0 old) (v2_rest_W m buf hdr L r).
Proof.
  intros H80 H84 E1 E2 E3 W1 W2 W3. pose proof (win_length m buf Hok) as Hl.
  unfold v2_after. rewrite Hl.
  replace ((8 <=? n0) && (80 <=? s_cap buf) && (84 <=? L)) with true by lia. cbn [andb].
  unfold v2_rest_W.
  destruct (ip_part (p2_IP old) H80 W1) as (F1 & P1 & D1).
  destruct (ext_part (p2_Ext old) W2) as (F2 & P2 & D2).
  destruct r as [r1 r2 r3 r4 r5 r6 r7 r8 r9 r10 r11 r12 r13 r14]. cbn in E1, E2, E3. subst.
  apply torn_part.
  { intros P. cbn [p2_IP] in *. specialize (finally_torn _ _ _ F1 P) as G1. rewrite (P1 P). cbn [andb].
    split; [exact G1|]. split; reflexivity. }
  intros l a i E. cbn [p2_IP] in E. pose proof (finally_done _ _ _ _ _ _ F1 E) as G1. specialize (D1 _ _ _ E).
  destruct a as [q|]; [|apply torn_wret]. destruct D1 as [D1 ->]. rewrite D1. cbn [andb].
  apply torn_part.
  { intros P. cbn in P. specialize (finally_torn _ _ _ F2 P) as G2. rewrite (P2 P). cbn [andb].
    split; [exact G1|]. split; [exact G2|reflexivity]. }
  intros l2 a2 x2 E2. cbn in E2. pose proof (finally_done _ _ _ _ _ _ F2 E2) as G2. specialize (D2 _ _ _ E2).
  destruct a2 as [q2|]; [|apply torn_wret]. destruct D2 as [D2 D3]. rewrite D2. cbn [andb].
  apply torn_get. pose proof (smcd_part (p2_SMCD old) q2 (x_GIDNumber x2) W3 D3) as F3.
  apply torn_part.
  { intros P. cbn in P. specialize (finally_torn _ _ _ F3 P) as G3.
    split; [exact G1|]. split; [exact G2|exact G3]. }
  intros l3 a3 x3 E3. cbn in E3. pose proof (finally_done _ _ _ _ _ _ F3 E3) as G3.
  destruct a3; [|apply torn_wret]. apply part_any. intros t.
  split; [exact G1|]. split; [exact G2|exact G3].
Qed.
End v2.

Lemma ProposalV2_after old : proposalv2_wf old -> torn (v2_after bs n0 old) (ProposalV2_W m buf old).
Proof.
  intros Hwf. pose proof (win_length m buf Hok) as Hl. pose (z := zeros 120).
  assert (N0 : n0 < 8 \/ s_cap buf < 80 \/ (declared bs < 84)%N -> forall new,
    p2_IP new = p2_IP old -> p2_Ext new = p2_Ext old -> p2_SMCD new = p2_SMCD old -> v2_after bs n0 old new).
  { intros H new H1 H2 H3. unfold v2_after. rewrite Hl.
    replace ((8 <=? n0) && (80 <=? s_cap buf) && (84 <=? N.to_nat (declared bs))) with false by lia.
    split; [assumption|]. split; assumption. }
  destruct Hwf as (Hwf1 & Hwf2 & Hwf3 & Hwf4 & Hwf5 & Hwf6 & Hwf7). unfold ProposalV2_W.
  destruct old as [o1 o2 o3 o4 o5 o6 o7 o8 o9 o10 o11 o12 o13 o14] eqn:Eo. rewrite <- Eo in N0.
  cbn in Hwf1, Hwf2, Hwf3, Hwf4, Hwf5, Hwf6, Hwf7. rewrite <- Eo at 1. apply torn_change. receiver.
  apply (spare_Header_step m buf z); [exact Hok|exact Hwf1|intros h (L & _)|intros L].
  { apply N0; [lia|rewrite Eo; reflexivity..]. }
  receiver. apply torn_get. receiver. spare_length m buf z Hok L. rewrite <- back_declared by exact L.
  destruct (declared bs <? ProposalV2Len)%N eqn:E; unfold ProposalV2Len in E.
  { apply complain_torn. apply N0; [lia|rewrite Eo; reflexivity..]. }
  unfold HeaderLen, PeerIDLen. cbn [Nat.add]. spare_steps buf Hok z.
  all: try (apply N0; [lia|rewrite Eo; reflexivity..]).
  rewrite spare_hdr, <- back_hdr by assumption.
  apply (v2_rest_after L); try (rewrite Eo; first [reflexivity|assumption]); lia.
Qed.
End areas.

