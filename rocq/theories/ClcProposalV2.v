(** * ClcProposalV2: what ProposalV2.Parse computes. Proofs only. *)

From Coq Require Import NArith ZArith Bool String Arith List Lia.
From Coq Require Import ZifyBool ZifyNat ZifyN.
From Verif Require Import GoBase GoFmt ClcModel Slices Wire WireLemmas ClcView Steps ClcParse ClcFixed
  ClcProposal.
Import ListNotations.
Local Open Scope nat_scope.

Definition v2_prefix_err : string := "Error parsing CLC Proposal v2: IPv6 prefix count too big".
Definition v2_eid_err : string := "Error parsing CLC Proposal v2: EID number too big".
Definition v2_gid_err : string := "Error parsing CLC Proposal v2: GID number too big".

(** ** Loops *)

Lemma prefixes_v2_run m buf L : slice_ok m buf -> forall n q acc, q <= s_len buf ->
  prefixes_v2 m buf L q acc n =
  let e := fitting L q 17 n in
  let r := (acc ++ prefixes_of (win m buf) q e, q + 17 * e) in
  if s_len buf <? q + 17 * e then panic
  else if e <? n then fail_run v2_prefix_err m buf L r else ret r.
Proof.
  intros Hok. pose proof (len_le_cap _ _ Hok) as Hcap.
  induction n as [|n IH]; intros q acc Hl; cbv zeta.
  - unfold fitting. rewrite Nat.min_0_l. cbn [prefixes_v2 Nat.mul].
    rewrite !(proj2 (Nat.ltb_ge _ _)) by lia. rewrite app_nil_r, Nat.add_0_r. reflexivity.
  - cbn [prefixes_v2]. unfold short, IPv6PrefixLen, TrailerLen, EyecatcherLen.
    unfold fitting.
    destruct (L <? q + (17 + 4)) eqn:E.
    + rewrite fail_run_eq.
      replace ((L - 4 - q) / 17) with 0 by lia. rewrite Nat.min_0_r.
      rewrite (proj2 (Nat.ltb_ge _ _)) by lia.
      rewrite (proj2 (Nat.ltb_lt _ _)) by lia. cbn [Nat.mul prefixes_of seq map].
      rewrite app_nil_r, Nat.add_0_r. reflexivity.
    + assert (HE : Nat.min (S n) ((L - 4 - q) / 17) = S (fitting L (q + 17) 17 n))
        by (unfold fitting; lia).
      rewrite HE.
      destruct (le_lt_dec (q + 17) (s_len buf)) as [H17|H17].
      * rewrite (sub_self buf).
        rewrite (copy_sub m buf Hok) by (rewrite ?zeros_length; lia). rewrite bind_ret.
        rewrite (idx_sub m buf Hok), bind_ret by lia. rewrite <- sub_self. cbn [Nat.add].
        replace (q + 16 + 1) with (q + 17) at 1 by lia.
        rewrite IH by lia. cbv zeta.
        rewrite prefixes_of_S.
        replace (q + 17 + 17 * fitting L (q + 17) 17 n)
          with (q + 17 * S (fitting L (q + 17) 17 n)) by lia.
        change (S (fitting L (q + 17) 17 n) <? S n) with (fitting L (q + 17) 17 n <? n).
        assert (EP : prefix_at (win m buf) q 0
                     = mkIPv6Prefix (seg (win m buf) q 16) (b2n (nth (q + 16) (win m buf) x00)))
          by (unfold prefix_at, bn; f_equal; f_equal; f_equal; lia).
        rewrite EP, <- app_assoc. cbn [app].
        replace (q + 16 - q) with 16 by lia. reflexivity.
      * rewrite (proj2 (Nat.ltb_lt _ _)) by lia.
        rewrite (sub_self buf).
        destruct (le_lt_dec (q + 16) (s_cap buf)) as [C|C].
        -- rewrite (copy_sub m buf Hok) by (rewrite ?zeros_length; lia). rewrite bind_ret.
           rewrite (idx_sub_panic m buf) by lia. reflexivity.
        -- rewrite (copy_sub_panic m buf) by lia. reflexivity.
Qed.

(** overwrite the elements of [area] from index [i] with [l] *)
Definition put {A} (area : list A) (i : nat) (l : list A) : list A :=
  firstn i area ++ l ++ skipn (i + length l) area.

Lemma put_nil {A} (area : list A) i : put area i [] = area.
Proof. unfold put. cbn. rewrite Nat.add_0_r. apply firstn_skipn. Qed.

Lemma put_length {A} (area : list A) i l : i + length l <= length area -> length (put area i l) = length area.
Proof. intros H. unfold put. rewrite !app_length, firstn_length, skipn_length. lia. Qed.

Lemma put_cons {A} (area : list A) i x l : i < length area ->
  put (firstn i area ++ x :: skipn (S i) area) (S i) l = put area i (x :: l).
Proof.
  intros H. unfold put. cbn [length].
  assert (HF : length (firstn i area) = i) by (rewrite firstn_length; lia).
  assert (E1 : firstn (S i) (firstn i area ++ x :: skipn (S i) area) = firstn i area ++ [x]).
  { rewrite firstn_app, HF. replace (S i - i) with 1 by lia.
    rewrite firstn_all2 by lia. reflexivity. }
  assert (E2 : skipn (S i + length l) (firstn i area ++ x :: skipn (S i) area) = skipn (i + S (length l)) area).
  { rewrite skipn_app, HF. rewrite skipn_all2 by lia. cbn [app].
    replace (S i + length l - i) with (S (length l)) by lia. rewrite skipn_cons.
    rewrite skipn_skipn. f_equal. lia. }
  rewrite E1, E2, <- app_assoc. reflexivity.
Qed.

Lemma Forall_pre {A} (P : A -> Prop) i l : Forall P l -> Forall P (firstn i l).
Proof. rewrite <- (firstn_skipn i l) at 1. intros H; apply Forall_app in H; tauto. Qed.

Lemma Forall_post {A} (P : A -> Prop) i l : Forall P l -> Forall P (skipn i l).
Proof. rewrite <- (firstn_skipn i l) at 1. intros H; apply Forall_app in H; tauto. Qed.

Definition eids_of (W : list byte) (q e : nat) : list (list byte) :=
  map (fun k => seg W (q + 32 * k) 32) (seq 0 e).

Lemma eids_of_S W q e : eids_of W q (S e) = seg W q 32 :: eids_of W (q + 32) e.
Proof.
  unfold eids_of. cbn [seq map]. f_equal; [f_equal; lia|]. rewrite <- seq_shift, map_map.
  apply map_ext. intros k. f_equal; lia.
Qed.

Lemma eids_of_length W q e : length (eids_of W q e) = e.
Proof. unfold eids_of. rewrite map_length, seq_length. reflexivity. Qed.

Lemma get_set {A} (area : list A) i (v : A) : i < length area ->
  exists old, nth_error area i = Some old /\
    get_nth area i = ret old /\
    set_nth area i v = ret (firstn i area ++ v :: skipn (S i) area).
Proof.
  intros H. destruct (nth_error area i) as [old|] eqn:E.
  - exists old. split; [reflexivity|]. unfold get_nth, set_nth. rewrite E.
    rewrite (proj2 (Nat.ltb_lt _ _)) by lia. split; reflexivity.
  - apply nth_error_None in E. lia.
Qed.

Lemma eids_v2_run m buf L : slice_ok m buf -> forall n q area i,
  q <= s_cap buf -> length area = 8 -> Forall (fun x => length x = 32) area -> i <= 8 ->
  eids_v2 m buf L q area i n =
  let e := fitting L q 32 n in
  let r := (put area i (eids_of (win m buf) q e), q + 32 * e) in
  if (8 <? i + e) || (s_cap buf <? q + 32 * e) then panic
  else if e <? n then fail_run v2_eid_err m buf L r else ret r.
Proof.
  intros Hok. pose proof (len_le_cap _ _ Hok) as Hcap. pose proof (win_length m buf Hok) as Hw.
  induction n as [|n IH]; intros q area i Hl Ha Hf Hi; cbv zeta.
  - unfold fitting. rewrite Nat.min_0_l. cbn [eids_v2 Nat.mul].
    rewrite !(proj2 (Nat.ltb_ge _ _)) by lia. cbn [orb eids_of seq map].
    rewrite put_nil, Nat.add_0_r. reflexivity.
  - cbn [eids_v2]. unfold short, EIDLen, TrailerLen, EyecatcherLen. unfold fitting.
    destruct (L <? q + (32 + 4)) eqn:E.
    + rewrite fail_run_eq.
      replace ((L - 4 - q) / 32) with 0 by lia. rewrite Nat.min_0_r.
      rewrite !(proj2 (Nat.ltb_ge _ _)) by lia. cbn [orb eids_of seq map Nat.mul].
      rewrite (proj2 (Nat.ltb_lt _ _)) by lia. rewrite put_nil, Nat.add_0_r. reflexivity.
    + assert (HE : Nat.min (S n) ((L - 4 - q) / 32) = S (fitting L (q + 32) 32 n))
        by (unfold fitting; lia).
      rewrite HE.
      destruct (le_lt_dec 8 i) as [I8|I8].
      { rewrite (proj2 (Nat.ltb_lt 8 _)) by lia. cbn [orb]. unfold get_nth.
        rewrite (proj2 (nth_error_None _ _)) by lia. reflexivity. }
      destruct (get_set area i (seg (win m buf) q 32)) as (old & E0 & E1 & E2); [lia|].
      rewrite E1, bind_ret.
      assert (Ho : length old = 32)
        by (apply (proj1 (Forall_forall _ _) Hf); eapply nth_error_In; exact E0).
      destruct (le_lt_dec (q + 32) (s_cap buf)) as [H32|H32].
      * rewrite (sub_self buf).
        rewrite (copy_sub m buf Hok) by lia. rewrite bind_ret. rewrite <- sub_self.
        cbn [Nat.add]. replace (q + 32 - q) with 32 by lia. rewrite E2, bind_ret.
        assert (Ha' : length (firstn i area ++ seg (win m buf) q 32 :: skipn (S i) area) = 8).
        { rewrite app_length. cbn [length]. rewrite firstn_length, skipn_length. lia. }
        rewrite IH; [|lia|assumption| |lia].
        2:{ apply Forall_app. split; [apply Forall_pre; exact Hf|].
            constructor; [rewrite seg_length; lia|apply Forall_post; exact Hf]. }
        cbv zeta. rewrite eids_of_S, put_cons by lia.
        replace (S i + fitting L (q + 32) 32 n) with (i + S (fitting L (q + 32) 32 n)) by lia.
        replace (q + 32 + 32 * fitting L (q + 32) 32 n)
          with (q + 32 * S (fitting L (q + 32) 32 n)) by lia.
        change (S (fitting L (q + 32) 32 n) <? S n) with (fitting L (q + 32) 32 n <? n). reflexivity.
      * rewrite (proj2 (Nat.ltb_lt (s_cap buf) _)) by lia. rewrite orb_true_r.
        rewrite (sub_self buf). rewrite (copy_sub_panic m buf) by lia. reflexivity.
Qed.

Definition gids_of (W : list byte) (q e : nat) : list GIDEntry :=
  map (fun k => mkGIDEntry (num W (q + 10 * k) 8) (num W (q + 10 * k + 8) 2)) (seq 0 e).

Lemma gids_of_S W q e :
  gids_of W q (S e) = mkGIDEntry (num W q 8) (num W (q + 8) 2) :: gids_of W (q + 10) e.
Proof.
  unfold gids_of. cbn [seq map]. f_equal; [f_equal; f_equal; lia|].
  rewrite <- seq_shift, map_map. apply map_ext. intros k. f_equal; f_equal; lia.
Qed.

Lemma gids_of_length W q e : length (gids_of W q e) = e.
Proof. unfold gids_of. rewrite map_length, seq_length. reflexivity. Qed.

Lemma gids_v2_run m buf L : slice_ok m buf -> forall n q area i,
  q <= s_cap buf -> length area = 8 -> i <= 8 ->
  gids_v2 m buf L q area i n =
  let e := fitting L q 10 n in
  let r := put area i (gids_of (win m buf) q e) in
  if (8 <? i + e) || (s_cap buf <? q + 10 * e) then panic
  else if e <? n then fail_run v2_gid_err m buf L r else ret r.
Proof.
  intros Hok. pose proof (len_le_cap _ _ Hok) as Hcap. pose proof (win_length m buf Hok) as Hw.
  induction n as [|n IH]; intros q area i Hl Ha Hi; cbv zeta.
  - unfold fitting. rewrite Nat.min_0_l. cbn [gids_v2 Nat.mul].
    rewrite !(proj2 (Nat.ltb_ge _ _)) by lia. cbn [orb gids_of seq map].
    rewrite put_nil. reflexivity.
  - cbn [gids_v2]. unfold short, TrailerLen, EyecatcherLen. unfold fitting.
    destruct (L <? q + (8 + 2 + 4)) eqn:E.
    + rewrite fail_run_eq.
      replace ((L - 4 - q) / 10) with 0 by lia. rewrite Nat.min_0_r.
      rewrite !(proj2 (Nat.ltb_ge _ _)) by lia. cbn [orb gids_of seq map Nat.mul].
      rewrite (proj2 (Nat.ltb_lt _ _)) by lia. rewrite put_nil. reflexivity.
    + assert (HE : Nat.min (S n) ((L - 4 - q) / 10) = S (fitting L (q + 10) 10 n))
        by (unfold fitting; lia).
      rewrite HE. rewrite (sub_self buf).
      destruct (le_lt_dec (q + 8) (s_cap buf)) as [H8|H8].
      2:{ rewrite (be64_sub_panic m buf) by lia.
          rewrite (proj2 (Nat.ltb_lt (s_cap _) _)) by (cbn [s_cap sub]; lia).
          rewrite orb_true_r. reflexivity. }
      rewrite (be64_sub m buf Hok), bind_ret by lia. rewrite <- sub_self.
      destruct (le_lt_dec 8 i) as [I8|I8].
      { rewrite (proj2 (Nat.ltb_lt 8 _)) by lia. cbn [orb]. unfold get_nth.
        rewrite (proj2 (nth_error_None _ _)) by lia. reflexivity. }
      rewrite be_acc0. cbn [Nat.add]. replace (q + 8 - q) with 8 by lia.
      destruct (nth_error area i) as [old|] eqn:E0; [|apply nth_error_None in E0; lia].
      destruct (get_set area i (mkGIDEntry (BE (seg (win m buf) q 8)) (g_VCHID old))) as (old' & E0' & E1 & E2); [lia|].
      assert (old' = old) by congruence. subst old'.
      rewrite E1, bind_ret, E2, bind_ret. clear E1 E2.
      set (area' := firstn i area ++ _ :: skipn (S i) area).
      assert (Ha' : length area' = 8).
      { unfold area'. rewrite app_length. cbn [length]. rewrite firstn_length, skipn_length. lia. }
      assert (E0'' : nth_error area' i = Some (mkGIDEntry (BE (seg (win m buf) q 8)) (g_VCHID old))).
      { unfold area'. rewrite nth_error_app2 by (rewrite firstn_length; lia).
        rewrite firstn_length. replace (i - Nat.min i (length area)) with 0 by lia. reflexivity. }
      destruct (le_lt_dec (q + 10) (s_cap buf)) as [H10|H10].
      * rewrite (sub_self buf).
        rewrite (be16_sub m buf Hok), bind_ret by lia. rewrite <- sub_self.
        rewrite be_acc0. cbn [Nat.add]. replace (q + 8 + 2 - (q + 8)) with 2 by lia.
        destruct (get_set area' i (mkGIDEntry (BE (seg (win m buf) q 8)) (BE (seg (win m buf) (q + 8) 2)))) as (old' & E0x & E1 & E2); [lia|].
        assert (old' = mkGIDEntry (BE (seg (win m buf) q 8)) (g_VCHID old)) by congruence. subst old'.
        rewrite E1, bind_ret. cbn [g_GID]. rewrite E2, bind_ret.
        replace (q + 8 + 2) with (q + 10) by lia.
        set (area'' := firstn i area' ++ _ :: skipn (S i) area').
        assert (EA : area'' = firstn i area ++ mkGIDEntry (num (win m buf) q 8) (num (win m buf) (q + 8) 2) :: skipn (S i) area).
        { unfold area'', area'.
          assert (HF : length (firstn i area) = i) by (rewrite firstn_length; lia).
          rewrite firstn_app, HF, Nat.sub_diag, firstn_firstn, Nat.min_id. cbn [firstn].
          rewrite app_nil_r. f_equal. f_equal.
          rewrite skipn_app, HF. rewrite skipn_all2 by lia. cbn [app].
          replace (S i - i) with 1 by lia. reflexivity. }
        rewrite EA. rewrite IH; [|lia|rewrite app_length; cbn [length]; rewrite firstn_length, skipn_length; lia|lia].
        cbv zeta. rewrite gids_of_S, put_cons by lia.
        replace (S i + fitting L (q + 10) 10 n) with (i + S (fitting L (q + 10) 10 n)) by lia.
        replace (q + 10 + 10 * fitting L (q + 10) 10 n)
          with (q + 10 * S (fitting L (q + 10) 10 n)) by lia.
        change (S (fitting L (q + 10) 10 n) <? S n) with (fitting L (q + 10) 10 n <? n). reflexivity.
      * rewrite (proj2 (Nat.ltb_lt (s_cap buf) _)) by lia. rewrite orb_true_r.
        rewrite (sub_self buf). rewrite (be16_sub_panic m buf) by lia. reflexivity.
Qed.

(** ** Stages, for completely received messages *)

Lemma hdr_path bs : 8 <= length bs -> h_Path (hdr_of bs) = msg_path bs.
Proof. intros; unfold hdr_of, msg_path, bn; cbn [h_Path]. bits_in_byte. Qed.

Lemma hdr_pathv2 bs : 8 <= length bs -> h_Pathv2 (hdr_of bs) = msg_pathv2 bs.
Proof. intros; unfold hdr_of, msg_pathv2, bn; cbn [h_Pathv2]. bits_in_byte. Qed.

Notation over := too_many_log (only parsing).

Lemma fail_run_complete {A} err m buf L (a : A) : slice_ok m buf -> L <= s_len buf ->
  fail_run err m buf L a = ([err; dump_line (bytes_at (s_bytes m buf) 0 L)], Done a).
Proof.
  intros Hok H. pose proof (len_le_cap _ _ Hok) as Hcap. rewrite fail_run_ok by lia.
  rewrite <- window_bytes by lia. rewrite win_split by (assumption || lia). reflexivity.
Qed.

Lemma over_run {A} err m buf L n c (a : A) : slice_ok m buf -> L <= s_len buf ->
  (if n <? c then fail_run err m buf L a else ret a) = (over err L (s_bytes m buf) n c, Done a).
Proof.
  intros Hok H. unfold too_many_log. destruct (n <? c); [|reflexivity]. apply fail_run_complete; assumption.
Qed.

Section Complete.
Context (m : mem) (buf : slice) (Hok : slice_ok m buf).
Local Notation bs := (s_bytes m buf).
Local Notation L := (N.to_nat (declared bs)).
Context (H8 : 8 <= s_len buf) (HL : L <= s_len buf).

Definition v2_area_err : string := "Error parsing CLC Proposal v2: IP Area Offset too big".
Definition v2_ext_err : string :=
  "Error parsing CLC Proposal v2: Not enough space for Proposal v2 Extension".
Definition v2_smcd_err : string :=
  "Error parsing CLC Proposal v2: Not enough space for SMC-D v2 Extension".

Lemma ip_stage ip : ipinfo_wf ip ->
  ip_area_v2 m buf (hdr_of bs) L 80 ip =
  if has_ip bs then
    if L <? 92 then ([v2_area_err; dump_line (bytes_at bs 0 L)], Done None)
    else (over v2_prefix_err L bs (v2_prefixes L bs) (prefix_count bs 80),
          Done (Some (ip_of bs 80 (v2_prefixes L bs) ip, 88 + 17 * v2_prefixes L bs)))
  else ret (Some (ip, 80)).
Proof.
  intros Hi. red in Hi. pose proof (len_le_cap _ _ Hok) as Hcap.
  pose proof (s_bytes_length m buf Hok) as Hb.
  unfold ip_area_v2, SMCTypeN, has_ip. rewrite hdr_path by lia.
  destruct (msg_path bs =? 2)%N; cbn [negb]; [reflexivity|].
  unfold short, TrailerLen, EyecatcherLen. change (80 + (4 + 1 + 2 + 1 + 4)) with 92.
  destruct (L <? 92) eqn:E; [rewrite fail_run_eq; apply fail_run_complete; assumption|].
  rewrite (sub_self buf). run m buf Hok. rewrite <- sub_self.
  rewrite prefixes_v2_run by (assumption || lia). cbv zeta.
  assert (EC : N.to_nat (b2n (nth 87 (win m buf) x00)) = prefix_count bs 80).
  { unfold prefix_count. change (80 + 7) with 87. rewrite <- bn_bits by lia.
    rewrite <- bn_win by (assumption || lia). reflexivity. }
  rewrite EC. fold (v2_prefixes L bs).
  assert (HR : 88 + 17 * v2_prefixes L bs + 4 <= L) by (apply (fitting_room L 88 17); lia).
  rewrite (proj2 (Nat.ltb_ge _ _)) by lia.
  rewrite over_run by (assumption || lia). rewrite bind_done. cbn [fst snd ret]. rewrite app_nil_r.
  do 3 f_equal. rewrite <- ip_of_win by (assumption || lia). reflexivity.
Qed.

Definition ext_of (W : list byte) (s e : nat) (x : V2Ext) : V2Ext :=
  mkV2Ext (bn W s) (bn W (s + 1)) (bn W (s + 2)) (N.shiftr (bn W (s + 3)) 4)
    (N.shiftr (N.land (bn W (s + 3)) 14) 1) (N.land (bn W (s + 3)) 1)
    (seg W (s + 4) 2) (num W (s + 6) 2) (seg W (s + 8) 32)
    (put (x_EIDArea x) 0 (eids_of W (s + 40) e)).

Lemma eids_win q e : q + 32 * e <= s_len buf -> eids_of (win m buf) q e = eids_of bs q e.
Proof.
  intros H. apply map_ext_in. intros k Hk. apply in_seq in Hk.
  rewrite win_split by (assumption || lia). reflexivity.
Qed.

Lemma gids_win q e : q + 10 * e <= s_len buf -> gids_of (win m buf) q e = gids_of bs q e.
Proof.
  intros H. apply map_ext_in. intros k Hk. apply in_seq in Hk. unfold num.
  rewrite !win_split by (assumption || lia). reflexivity.
Qed.

Lemma ext_stage x : v2ext_wf x ->
  let s := v2_ext_start L bs in
  ext_v2 m buf (hdr_of bs) L s x =
  if has_ext bs then
    if L <? s + 44 then ([v2_ext_err; dump_line (bytes_at bs 0 L)], Done None)
    else if 8 <? v2_eids L bs then panic
    else (over v2_eid_err L bs (v2_eids L bs) (v2_eid_count L bs),
          Done (Some (ext_of bs s (v2_eids L bs) x, v2_smcd_start L bs)))
  else ret (Some (x, s)).
Proof.
  intros (W5 & W6 & WA & WF) s. pose proof (len_le_cap _ _ Hok) as Hcap.
  pose proof (s_bytes_length m buf Hok) as Hb.
  unfold ext_v2, SMCTypeN, has_ext. rewrite hdr_pathv2 by lia.
  destruct (msg_pathv2 bs =? 2)%N; cbn [negb]; [reflexivity|].
  unfold short, ProposalV2ExtLen, TrailerLen, EyecatcherLen. change (40 + 4) with 44.
  destruct (L <? s + 44) eqn:E; [rewrite fail_run_eq; apply fail_run_complete; assumption|].
  rewrite (sub_self buf). run m buf Hok. rewrite <- sub_self.
  assert (EC : N.to_nat (b2n (nth s (win m buf) x00)) = v2_eid_count L bs).
  { unfold v2_eid_count. fold s. rewrite <- bn_bits by lia.
    rewrite <- bn_win by (assumption || lia). reflexivity. }
  rewrite EC.
  replace (s + 1 + 1 + 1 + 1 + 2 + 2 + 32) with (s + 40) by lia.
  rewrite eids_v2_run by (assumption || lia). cbv zeta.
  unfold s. fold (v2_eids L bs). fold s. cbn [Nat.add].
  destruct (8 <? v2_eids L bs) eqn:E8; [reflexivity|]. cbn [orb].
  assert (HR : s + 40 + 32 * v2_eids L bs + 4 <= L) by (apply (fitting_room L (s + 40) 32); lia).
  rewrite (proj2 (Nat.ltb_ge _ _)) by lia.
  rewrite over_run by (assumption || lia). rewrite bind_done. cbn [fst snd ret]. rewrite app_nil_r.
  do 3 f_equal. unfold ext_of, v2_smcd_start. fold s.
  rewrite <- !bn_win by (assumption || lia).
  rewrite <- eids_win by lia. unfold num. rewrite <- !win_split by (assumption || lia).
  unfold bn. rewrite !be_acc0.
  replace (s + 1 + 1) with (s + 2) by lia. replace (s + 2 + 1) with (s + 3) by lia.
  replace (s + 3 + 1) with (s + 4) by lia. replace (s + 4 + 2) with (s + 6) by lia.
  replace (s + 6 + 2) with (s + 8) by lia.
  replace (s + 6 - (s + 4)) with 2 by lia. replace (s + 8 - (s + 6)) with 2 by lia.
  replace (s + 40 - (s + 8)) with 32 by lia. reflexivity.
Qed.

Definition smcd_ext_of (W : list byte) (s e : nat) (y : SMCDExt) : SMCDExt :=
  mkSMCDExt (seg W s 32) (seg W (s + 32) 16) (put (y_GIDArea y) 0 (gids_of W (s + 48) e)).

Lemma smcd_stage y gn : smcdext_wf y -> (has_smcd bs = true -> gn = bits bs (8 * (v2_ext_start L bs + 1)) 8) ->
  let s := v2_smcd_start L bs in
  (has_smcd bs = false \/ v2_ext_start L bs + 1 < s_len buf) ->
  smcd_v2 m buf (hdr_of bs) L s gn y =
  if has_smcd bs then
    if L <? s + 52 then ([v2_smcd_err; dump_line (bytes_at bs 0 L)], Done None)
    else if 8 <? v2_gids L bs then panic
    else (over v2_gid_err L bs (v2_gids L bs) (v2_gid_count L bs),
          Done (Some (smcd_ext_of bs s (v2_gids L bs) y)))
  else ret (Some y).
Proof.
  intros (W5 & W6 & WA) Hg s Hs. pose proof (len_le_cap _ _ Hok) as Hcap.
  pose proof (s_bytes_length m buf Hok) as Hb.
  unfold smcd_v2, SMCTypeD, SMCTypeB, has_smcd in *. rewrite hdr_pathv2 by lia.
  destruct ((msg_pathv2 bs =? 1)%N || (msg_pathv2 bs =? 3)%N)%bool; [|reflexivity].
  specialize (Hg eq_refl). destruct Hs as [Hs|Hs]; [discriminate|].
  unfold short, SMCDv2ExtLen, TrailerLen, EyecatcherLen. change (48 + 4) with 52.
  destruct (L <? s + 52) eqn:E; [rewrite fail_run_eq; apply fail_run_complete; assumption|].
  rewrite (sub_self buf). run m buf Hok. rewrite <- sub_self.
  replace (s + 32 + 16) with (s + 48) by lia.
  rewrite gids_v2_run by (assumption || lia). cbv zeta.
  assert (EC : N.to_nat gn = v2_gid_count L bs) by (rewrite Hg; reflexivity).
  rewrite EC. unfold s. fold (v2_gids L bs). fold s. cbn [Nat.add].
  destruct (8 <? v2_gids L bs) eqn:E8; [reflexivity|]. cbn [orb].
  assert (HR : s + 48 + 10 * v2_gids L bs + 4 <= L) by (apply (fitting_room L (s + 48) 10); lia).
  rewrite (proj2 (Nat.ltb_ge _ _)) by lia.
  rewrite over_run by (assumption || lia). rewrite bind_done. cbn [fst snd ret]. rewrite app_nil_r.
  do 3 f_equal. unfold smcd_ext_of. rewrite <- gids_win by lia.
  rewrite <- !win_split by (assumption || lia).
  replace (s + 32 - s) with 32 by lia. replace (s + 48 - (s + 32)) with 16 by lia. reflexivity.
Qed.

(** ** The whole message *)

Definition p2_of (ip : IPInfo) (x : V2Ext) (y : SMCDExt) (t : list byte) : ProposalV2 :=
  mkProposalV2 buf (hdr_of bs) (seg bs 8 8) (seg bs 16 16) (seg bs 32 6) (num bs 38 2)
    (num bs 40 8) (num bs 48 2) (num bs 50 2) (seg bs 52 28) ip x y t.

Definition p2_short (old : ProposalV2) : ProposalV2 :=
  mkProposalV2 buf (hdr_of bs) (p2_SenderPeerID old) (p2_IBGID old) (p2_IBMAC old)
    (p2_IPAreaOffset old) (p2_SMCDGID old) (p2_ISMv2VCHID old) (p2_SMCv2Offset old)
    (p2_reserved old) (p2_IP old) (p2_Ext old) (p2_SMCD old) (p2_Trailer old).

Definition p2_run (old : ProposalV2) : M ProposalV2 :=
  let dump := dump_line (bytes_at bs 0 L) in
  let es := v2_ext_start L bs in
  let ss := v2_smcd_start L bs in
  if L <? 84 then (["Error parsing CLC Proposal v2: message too short"%string; dump], Done (p2_short old))
  else if has_ip bs && (L <? 92) then
    ([v2_area_err; dump], Done (p2_of (p2_IP old) (p2_Ext old) (p2_SMCD old) (p2_Trailer old)))
  else
    let ip := if has_ip bs then ip_of bs 80 (v2_prefixes L bs) (p2_IP old) else p2_IP old in
    let l1 := if has_ip bs then over v2_prefix_err L bs (v2_prefixes L bs) (prefix_count bs 80)
              else [] in
    if has_ext bs && (L <? es + 44) then
      (l1 ++ [v2_ext_err; dump], Done (p2_of ip (p2_Ext old) (p2_SMCD old) (p2_Trailer old)))
    else if has_ext bs && (8 <? v2_eids L bs) then (l1, Panicked)
    else
      let x := if has_ext bs then ext_of bs es (v2_eids L bs) (p2_Ext old) else p2_Ext old in
      let l2 := if has_ext bs then over v2_eid_err L bs (v2_eids L bs) (v2_eid_count L bs) else [] in
      if has_smcd bs && (L <? ss + 52) then
        (l1 ++ l2 ++ [v2_smcd_err; dump], Done (p2_of ip x (p2_SMCD old) (p2_Trailer old)))
      else if has_smcd bs && (8 <? v2_gids L bs) then (l1 ++ l2, Panicked)
      else
        let y := if has_smcd bs then smcd_ext_of bs ss (v2_gids L bs) (p2_SMCD old) else p2_SMCD old in
        let l3 := if has_smcd bs then over v2_gid_err L bs (v2_gids L bs) (v2_gid_count L bs) else [] in
        (l1 ++ l2 ++ l3 ++ trailer_log (last4 bs), Done (p2_of ip x y (last4 bs))).

Lemma has_smcd_ext : has_smcd bs = true -> has_ext bs = true.
Proof. unfold has_smcd, has_ext. lia. Qed.

Lemma smcd_absent s gn y : has_smcd bs = false -> smcd_v2 m buf (hdr_of bs) L s gn y = ret (Some y).
Proof.
  intros H. pose proof (s_bytes_length m buf Hok) as Hb.
  unfold smcd_v2, SMCTypeD, SMCTypeB, has_smcd in *. rewrite hdr_pathv2 by lia. rewrite H. reflexivity.
Qed.

(** the part of Parse behind the fixed fields *)
Definition p2_rest {A} (mk : IPInfo -> V2Ext -> SMCDExt -> list byte -> A)
  (ip : IPInfo) (x : V2Ext) (y : SMCDExt) (t : list byte) : M A :=
  let* r := ip_area_v2 m buf (hdr_of bs) L 80 ip in
  match r with
  | None => ret (mk ip x y t)
  | Some (ip, skip) =>
    let* r := ext_v2 m buf (hdr_of bs) L skip x in
    match r with
    | None => ret (mk ip x y t)
    | Some (x, skip) =>
      let* r := smcd_v2 m buf (hdr_of bs) L skip (x_GIDNumber x) y in
      match r with
      | None => ret (mk ip x y t)
      | Some y => let* t := Trailer_Parse m t buf in ret (mk ip x y t)
      end
    end
  end.

Lemma p2_rest_run {A} (mk : IPInfo -> V2Ext -> SMCDExt -> list byte -> A) ip x y t :
  84 <= L -> ipinfo_wf ip -> v2ext_wf x -> smcdext_wf y -> length t = 4 ->
  p2_rest mk ip x y t =
  let dump := dump_line (bytes_at bs 0 L) in
  let es := v2_ext_start L bs in
  let ss := v2_smcd_start L bs in
  if has_ip bs && (L <? 92) then ([v2_area_err; dump], Done (mk ip x y t))
  else
    let ip := if has_ip bs then ip_of bs 80 (v2_prefixes L bs) ip else ip in
    let l1 := if has_ip bs then over v2_prefix_err L bs (v2_prefixes L bs) (prefix_count bs 80)
              else [] in
    if has_ext bs && (L <? es + 44) then (l1 ++ [v2_ext_err; dump], Done (mk ip x y t))
    else if has_ext bs && (8 <? v2_eids L bs) then (l1, Panicked)
    else
      let x := if has_ext bs then ext_of bs es (v2_eids L bs) x else x in
      let l2 := if has_ext bs then over v2_eid_err L bs (v2_eids L bs) (v2_eid_count L bs) else [] in
      if has_smcd bs && (L <? ss + 52) then
        (l1 ++ l2 ++ [v2_smcd_err; dump], Done (mk ip x y t))
      else if has_smcd bs && (8 <? v2_gids L bs) then (l1 ++ l2, Panicked)
      else
        let y := if has_smcd bs then smcd_ext_of bs ss (v2_gids L bs) y else y in
        let l3 := if has_smcd bs then over v2_gid_err L bs (v2_gids L bs) (v2_gid_count L bs) else [] in
        (l1 ++ l2 ++ l3 ++ trailer_log (last4 bs), Done (mk ip x y (last4 bs))).
Proof.
  intros H84 Hi Hx Hy Ht. pose proof (len_le_cap _ _ Hok) as Hcap.
  pose proof (s_bytes_length m buf Hok) as Hb. cbv zeta.
  unfold p2_rest. rewrite ip_stage by assumption.
  assert (HT : Trailer_Parse m t buf = (trailer_log (last4 bs), Done (last4 bs))).
  { rewrite (sub_self buf) at 1. rewrite Trailer_end by (assumption || lia). reflexivity. }
  set (p := L <? 92). set (q := L <? v2_ext_start L bs + 44).
  assert (HE : forall l1 ip', (let* r := (l1, Done (Some (ip', v2_ext_start L bs))) in
     match r with
     | None => ret (mk ip x y t)
     | Some (ip, skip) =>
       let* r := ext_v2 m buf (hdr_of bs) L skip x in
       match r with
       | None => ret (mk ip x y t)
       | Some (x, skip) =>
         let* r := smcd_v2 m buf (hdr_of bs) L skip (x_GIDNumber x) y in
         match r with
         | None => ret (mk ip x y t)
         | Some y => let* t := Trailer_Parse m t buf in ret (mk ip x y t)
         end
       end
     end) =
    if has_ext bs && q then (l1 ++ [v2_ext_err; dump_line (bytes_at bs 0 L)], Done (mk ip' x y t))
    else if has_ext bs && (8 <? v2_eids L bs) then (l1, Panicked)
    else
      let x := if has_ext bs then ext_of bs (v2_ext_start L bs) (v2_eids L bs) x else x in
      let l2 := if has_ext bs then over v2_eid_err L bs (v2_eids L bs) (v2_eid_count L bs) else [] in
      if has_smcd bs && (L <? v2_smcd_start L bs + 52) then
        (l1 ++ l2 ++ [v2_smcd_err; dump_line (bytes_at bs 0 L)], Done (mk ip' x y t))
      else if has_smcd bs && (8 <? v2_gids L bs) then (l1 ++ l2, Panicked)
      else
        let y := if has_smcd bs then smcd_ext_of bs (v2_smcd_start L bs) (v2_gids L bs) y else y in
        let l3 := if has_smcd bs then over v2_gid_err L bs (v2_gids L bs) (v2_gid_count L bs) else [] in
        (l1 ++ l2 ++ l3 ++ trailer_log (last4 bs), Done (mk ip' x y (last4 bs)))).
  { intros l1 ip'. rewrite bind_done. cbn [fst snd]. cbv zeta. rewrite ext_stage by assumption. fold q.
    destruct (has_ext bs) eqn:EX; cbn [andb].
    - destruct q eqn:EQ; [rewrite bind_done; reflexivity|].
      destruct (8 <? v2_eids L bs) eqn:E8.
      { cbn [bind panic fst snd]. rewrite app_nil_r. reflexivity. }
      rewrite bind_done. cbn [fst snd].
      rewrite smcd_stage; [|assumption| |].
      + set (p' := L <? v2_smcd_start L bs + 52).
        destruct (has_smcd bs) eqn:ES; cbn [andb].
        * destruct p'; [rewrite bind_done; reflexivity|].
          destruct (8 <? v2_gids L bs).
          { cbn [bind panic fst snd]. rewrite app_nil_r. reflexivity. }
          rewrite bind_done. cbn [fst snd]. rewrite HT, bind_done. cbn [fst snd ret].
          rewrite app_nil_r. reflexivity.
        * rewrite bind_ret, HT, bind_done. cbn [fst snd ret]. rewrite app_nil_r. reflexivity.
      + intros _. cbn [ext_of x_GIDNumber]. apply bn_bits. unfold q in EQ. lia.
      + right. unfold q in EQ. lia.
    - assert (ES : has_smcd bs = false).
      { destruct (has_smcd bs) eqn:ES; [|reflexivity]. apply has_smcd_ext in ES. congruence. }
      rewrite bind_ret. rewrite smcd_absent by assumption. rewrite ES. cbn [andb].
      rewrite bind_ret, HT, bind_done. cbn [fst snd ret app]. rewrite app_nil_r. reflexivity. }
  destruct (has_ip bs) eqn:EI; cbn [andb].
  - destruct p; [reflexivity|].
    replace (88 + 17 * v2_prefixes L bs) with (v2_ext_start L bs) by (unfold v2_ext_start; rewrite EI; reflexivity).
    rewrite HE. reflexivity.
  - replace 80 with (v2_ext_start L bs) by (unfold v2_ext_start; rewrite EI; reflexivity).
    unfold ret at 1. rewrite HE. reflexivity.
Qed.

Lemma ProposalV2_Parse_run old : proposalv2_wf old -> ProposalV2_Parse m old buf = p2_run old.
Proof.
  intros (Hh & Hp & Hr & Hi & Hx & Hy & Ht). pose proof (len_le_cap _ _ Hok) as Hcap.
  pose proof (s_bytes_length m buf Hok) as Hb.
  unfold ProposalV2_Parse, p2_run. cbv zeta.
  rewrite Header_Parse_ok, bind_ret by (assumption || lia).
  rewrite declared_hdr by lia.
  destruct (declared bs <? ProposalV2Len)%N eqn:E84.
  { rewrite (proj2 (Nat.ltb_lt _ _)) by (unfold ProposalV2Len in *; lia).
    rewrite fail_run_eq. apply fail_run_complete; assumption. }
  assert (H84 : 84 <= L) by (unfold ProposalV2Len in *; lia).
  rewrite (proj2 (Nat.ltb_ge L 84)) by lia.
  unfold HeaderLen, PeerIDLen. rewrite (sub_self buf). run m buf Hok. rewrite <- sub_self.
  rewrite !be_acc0. rewrite !(win_split m buf) by (assumption || lia).
  exact (p2_rest_run p2_of (p2_IP old) (p2_Ext old) (p2_SMCD old) (p2_Trailer old) H84 Hi Hx Hy Ht).
Qed.
End Complete.

(** ** Views *)

Lemma bits_high bs i : i < length bs -> N.shiftr (bn bs i) 4 = bits bs (8 * i) 4.
Proof.
  intros. unfold bn. rewrite (bits_byte bs i 0 4) by lia. generalize (nth i bs x00).
  match goal with |- forall b, @?f b = @?g b => apply (byte_ext f g) end. vm_compute; reflexivity.
Qed.
Lemma bits_mid bs i : i < length bs -> N.shiftr (N.land (bn bs i) 14) 1 = bits bs (8 * i + 4) 3.
Proof.
  intros. unfold bn. rewrite (bits_byte bs i 4 3) by lia. generalize (nth i bs x00).
  match goal with |- forall b, @?f b = @?g b => apply (byte_ext f g) end. vm_compute; reflexivity.
Qed.
Lemma bits_last bs i : i < length bs -> N.land (bn bs i) 1 = bits bs (8 * i + 7) 1.
Proof.
  intros. unfold bn. rewrite (bits_byte bs i 7 1) by lia. generalize (nth i bs x00).
  match goal with |- forall b, @?f b = @?g b => apply (byte_ext f g) end. vm_compute; reflexivity.
Qed.

Lemma ext_view bs s e x : s + 40 <= length bs ->
  v2_extension_view (ext_of bs s e x) = decode_at v2_extension_body (8 * s) bs.
Proof.
  intros H. unfold v2_extension_view, ext_of, v2_extension_body.
  cbn [x_EIDNumber x_GIDNumber x_reserved3 x_Release x_reserved4 x_SEIDInd x_reserved5 x_SMCDv2Off
       x_reserved6 decode_at].
  rewrite bits_high, bits_mid, bits_last, !bn_bits by lia.
  replace (8 * s + 8) with (8 * (s + 1)) by lia.
  replace (8 * (s + 1) + 8) with (8 * (s + 2)) by lia.
  replace (8 * (s + 2) + 8) with (8 * (s + 3)) by lia.
  replace (8 * (s + 3) + 4 + 3) with (8 * (s + 3) + 7) by lia.
  replace (8 * (s + 3) + 7 + 1) with (8 * (s + 4)) by lia.
  replace (8 * (s + 4) + 8 * 2) with (8 * (s + 6)) by lia.
  replace (8 * (s + 6) + 16) with (8 * (s + 8)) by lia.
  replace (8 * (s + 4) / 8) with (s + 4) by lia. replace (8 * (s + 8) / 8) with (s + 8) by lia.
  unfold num. rewrite <- (bits_bytes bs (s + 6) 2 (8 * (s + 6)) 16) by lia. reflexivity.
Qed.

Lemma smcd_ext_view bs s e y :
  smcdv2_extension_view (smcd_ext_of bs s e y) = decode_at smcdv2_extension_body (8 * s) bs.
Proof.
  unfold smcdv2_extension_view, smcd_ext_of, smcdv2_extension_body. cbn [y_SEID y_reserved7 decode_at].
  replace (8 * s / 8) with s by lia. replace ((8 * s + 8 * 32) / 8) with (s + 32) by lia. reflexivity.
Qed.

Lemma gids_view bs q e : q + 10 * e <= length bs ->
  map gid_entry_view (gids_of bs q e) = entries gid_entry_body q 10 e bs.
Proof.
  intros H. unfold gids_of, entries. rewrite map_map. apply map_ext_in.
  intros k Hk. apply in_seq in Hk. unfold gid_entry_view, gid_entry_body.
  cbn [g_GID g_VCHID decode_at]. unfold num.
  replace (8 * (q + 10 * k) + 64) with (8 * (q + 10 * k + 8)) by lia.
  rewrite <- (bits_bytes bs (q + 10 * k) 8 (8 * (q + 10 * k)) 64) by lia.
  rewrite <- (bits_bytes bs (q + 10 * k + 8) 2 (8 * (q + 10 * k + 8)) 16) by lia. reflexivity.
Qed.

Lemma hdr_v2_view bs : 8 <= length bs ->
  header_v2proposal_view (hdr_of bs) = decode clc_header_v2proposal bs.
Proof.
  intros. unfold header_v2proposal_view, clc_header_v2proposal, hdr_of.
  cbn -[decode app bits seg BE bn num b2n]. calc_layout. unfold num, bn. fields.
Qed.

Lemma p2_fixed_view m buf ip x y t : slice_ok m buf -> 80 <= s_len buf ->
  proposalv2_view (p2_of m buf ip x y t)
  = decode (clc_header_v2proposal ++ proposalv2_body) (s_bytes m buf).
Proof.
  intros Hok H. pose proof (s_bytes_length m buf Hok) as Hb. set (bs := s_bytes m buf) in *.
  unfold proposalv2_view. change (p2_Header (p2_of m buf ip x y t)) with (hdr_of bs).
  rewrite hdr_v2_view by lia. unfold p2_of, num, clc_header_v2proposal, proposalv2_body.
  cbn -[decode app bits seg BE b2n N.eqb]. calc_layout. fold bs. fields.
Qed.

(** ** Results *)

Section Results.
Context (m : mem) (buf : slice) (old : ProposalV2) (Hok : slice_ok m buf) (Hwf : proposalv2_wf old).
Local Notation bs := (s_bytes m buf).
Local Notation L := (N.to_nat (declared bs)).
Context (H84 : 84 <= L) (HL : L <= s_len buf).

Lemma start_room : v2_ip_room L bs -> v2_ext_start L bs + 4 <= L.
Proof.
  unfold v2_ip_room, v2_ext_start. destruct (has_ip bs); intros H; [|lia].
  specialize (H eq_refl). apply (fitting_room L 88 17); lia.
Qed.

Lemma smcd_start_room : has_ext bs = true -> v2_ext_room L bs -> v2_smcd_start L bs + 4 <= L.
Proof.
  unfold v2_ext_room, v2_smcd_start. intros E H. specialize (H E).
  apply (fitting_room L (v2_ext_start L bs + 40) 32); lia.
Qed.

Lemma ip_part x y t : v2_ip_room L bs -> v2_ip_decoded L bs old
  (p2_of m buf (if has_ip bs then ip_of bs 80 (v2_prefixes L bs) (p2_IP old) else p2_IP old) x y t).
Proof.
  intros R. pose proof (s_bytes_length m buf Hok) as Hb. pose proof (start_room R) as S.
  unfold v2_ip_decoded, v2_ext_start, v2_ip_room in *. cbn [p2_of p2_IP].
  destruct (has_ip bs); [|reflexivity]. split; [apply ip_view; lia|].
  eexists. split; [reflexivity|]. apply prefixes_view. lia.
Qed.

Lemma ext_part ip y t : v2_ext_room L bs -> v2_ext_decoded L bs old
  (p2_of m buf ip (if has_ext bs then ext_of bs (v2_ext_start L bs) (v2_eids L bs) (p2_Ext old)
                   else p2_Ext old) y t).
Proof.
  intros R. pose proof (s_bytes_length m buf Hok) as Hb. pose proof smcd_start_room as S.
  unfold v2_ext_decoded, v2_smcd_start, v2_ext_room in *. cbn [p2_of p2_Ext].
  destruct (has_ext bs); [|reflexivity]. specialize (S eq_refl R). specialize (R eq_refl).
  split; [apply ext_view; lia|]. unfold ext_of, put. cbn [x_EIDArea firstn app Nat.add].
  rewrite eids_of_length. reflexivity.
Qed.

Lemma smcd_part ip x t : v2_smcd_room L bs -> v2_smcd_decoded L bs old
  (p2_of m buf ip x (if has_smcd bs then smcd_ext_of bs (v2_smcd_start L bs) (v2_gids L bs) (p2_SMCD old)
                   else p2_SMCD old) t).
Proof.
  intros R. pose proof (s_bytes_length m buf Hok) as Hb.
  unfold v2_smcd_decoded, v2_smcd_room in *. cbn [p2_of p2_SMCD].
  destruct (has_smcd bs); [|reflexivity]. specialize (R eq_refl).
  split; [apply smcd_ext_view; lia|]. unfold smcd_ext_of, put. cbn [y_GIDArea firstn app Nat.add].
  eexists. split; [unfold gids_of; rewrite map_length, seq_length; reflexivity|].
  apply gids_view.
  assert (v2_smcd_start L bs + 48 + 10 * v2_gids L bs + 4 <= L)
    by (apply (fitting_room L (v2_smcd_start L bs + 48) 10); lia).
  lia.
Qed.

Lemma guard_room (b : bool) k : (b = true -> k <= L) -> (b && (L <? k))%bool = false.
Proof. destruct b; [|reflexivity]. intros H. specialize (H eq_refl). cbn [andb]. lia. Qed.

Lemma guard_no_room (b : bool) k : ~ (b = true -> k <= L) -> (b && (L <? k))%bool = true.
Proof.
  intros H. destruct b; [|exfalso; apply H; discriminate]. cbn [andb].
  destruct (le_lt_dec k L); [exfalso; apply H; intros; assumption|]. apply Nat.ltb_lt. assumption.
Qed.

Lemma guard_count (b : bool) n : (b = true -> n <= 8) -> (b && (8 <? n))%bool = false.
Proof. destruct b; [|reflexivity]. intros H. specialize (H eq_refl). cbn [andb]. lia. Qed.

Local Ltac start :=
  pose proof (s_bytes_length m buf Hok) as Hb;
  rewrite ProposalV2_Parse_run by (assumption || lia); unfold p2_run; cbv zeta;
  rewrite (proj2 (Nat.ltb_ge L 84)) by lia;
  change v2_prefix_err with "Error parsing CLC Proposal v2: IPv6 prefix count too big"%string;
  change v2_eid_err with "Error parsing CLC Proposal v2: EID number too big"%string;
  change v2_gid_err with "Error parsing CLC Proposal v2: GID number too big"%string;
  fold (v2_prefix_log L bs); fold (v2_eid_log L bs); fold (v2_gid_log L bs).

Lemma ProposalV2_decode : v2_ip_room L bs -> v2_ext_room L bs -> v2_smcd_room L bs ->
  (has_ext bs = true -> v2_eids L bs <= 8) -> (has_smcd bs = true -> v2_gids L bs <= 8) ->
  exists p,
    ProposalV2_Parse m old buf =
      (v2_prefix_log L bs ++ v2_eid_log L bs ++ v2_gid_log L bs ++ trailer_log (last4 bs), Done p) /\
    proposalv2_view p = decode (clc_header_v2proposal ++ proposalv2_body) bs /\
    v2_ip_decoded L bs old p /\ v2_ext_decoded L bs old p /\ v2_smcd_decoded L bs old p /\
    p2_Trailer p = last4 bs /\ p2_Raw p = buf.
Proof.
  intros R1 R2 R3 N1 N2. start.
  rewrite !guard_room by assumption. rewrite !guard_count by assumption.
  eexists. split; [reflexivity|].
  split; [apply p2_fixed_view; [assumption|lia]|].
  split; [apply ip_part; assumption|]. split; [apply ext_part; assumption|].
  split; [apply smcd_part; assumption|]. split; reflexivity.
Qed.

Lemma ProposalV2_no_ip_room : ~ v2_ip_room L bs ->
  exists p,
    ProposalV2_Parse m old buf =
      (["Error parsing CLC Proposal v2: IP Area Offset too big"%string; dump_line (bytes_at bs 0 L)], Done p) /\
    proposalv2_view p = decode (clc_header_v2proposal ++ proposalv2_body) bs /\
    p2_IP p = p2_IP old /\ p2_Ext p = p2_Ext old /\ p2_SMCD p = p2_SMCD old /\
    p2_Trailer p = p2_Trailer old /\ p2_Raw p = buf.
Proof.
  intros R. start.
  rewrite (guard_no_room (has_ip bs)) by assumption.
  eexists. split; [reflexivity|].
  split; [apply p2_fixed_view; [assumption|lia]|]. repeat split; reflexivity.
Qed.

Lemma ProposalV2_no_ext_room : v2_ip_room L bs -> ~ v2_ext_room L bs ->
  exists p,
    ProposalV2_Parse m old buf =
      (v2_prefix_log L bs ++ ["Error parsing CLC Proposal v2: Not enough space for Proposal v2 Extension"%string;
                              dump_line (bytes_at bs 0 L)], Done p) /\
    proposalv2_view p = decode (clc_header_v2proposal ++ proposalv2_body) bs /\
    v2_ip_decoded L bs old p /\ p2_Ext p = p2_Ext old /\ p2_SMCD p = p2_SMCD old /\
    p2_Trailer p = p2_Trailer old /\ p2_Raw p = buf.
Proof.
  intros R1 R. start. rewrite (guard_room (has_ip bs)) by assumption.
  rewrite (guard_no_room (has_ext bs)) by assumption.
  eexists. split; [reflexivity|].
  split; [apply p2_fixed_view; [assumption|lia]|].
  split; [apply ip_part; assumption|]. repeat split; reflexivity.
Qed.

Lemma ProposalV2_no_smcd_room : v2_ip_room L bs -> v2_ext_room L bs -> ~ v2_smcd_room L bs ->
  (has_ext bs = true -> v2_eids L bs <= 8) ->
  exists p,
    ProposalV2_Parse m old buf =
      (v2_prefix_log L bs ++ v2_eid_log L bs
       ++ ["Error parsing CLC Proposal v2: Not enough space for SMC-D v2 Extension"%string;
           dump_line (bytes_at bs 0 L)], Done p) /\
    proposalv2_view p = decode (clc_header_v2proposal ++ proposalv2_body) bs /\
    v2_ip_decoded L bs old p /\ v2_ext_decoded L bs old p /\ p2_SMCD p = p2_SMCD old /\
    p2_Trailer p = p2_Trailer old /\ p2_Raw p = buf.
Proof.
  intros R1 R2 R N1. start. rewrite (guard_room (has_ip bs)), (guard_room (has_ext bs)) by assumption.
  rewrite (guard_count (has_ext bs)) by assumption.
  rewrite (guard_no_room (has_smcd bs)) by assumption.
  eexists. split; [reflexivity|].
  split; [apply p2_fixed_view; [assumption|lia]|].
  split; [apply ip_part; assumption|]. split; [apply ext_part; assumption|]. repeat split; reflexivity.
Qed.

Lemma ProposalV2_complete_panics :
  (snd (ProposalV2_Parse m old buf) = Panicked <->
   v2_ip_room L bs /\ has_ext bs = true /\ v2_ext_room L bs /\
   (8 < v2_eids L bs \/
    (v2_eids L bs <= 8 /\ has_smcd bs = true /\ v2_smcd_room L bs /\ 8 < v2_gids L bs))) /\
  snd (ProposalV2_Parse m old buf) <> Exited.
Proof.
  start. clear Hb. unfold v2_ip_room, v2_ext_room, v2_smcd_room.
  pose proof (has_smcd_ext m buf) as HS.
  destruct (has_ip bs) eqn:E1; cbn [andb].
  1: destruct (L <? 92) eqn:E2; cbn [snd].
  1: { split; [|discriminate]. split; [discriminate|]. intros (H & _). specialize (H eq_refl). lia. }
  all: destruct (has_ext bs) eqn:E3; cbn [andb].
  all: try (destruct (L <? v2_ext_start L bs + 44) eqn:E4; cbn [snd];
    [split; [|discriminate]; split; [discriminate|]; intros (_ & _ & H & _); specialize (H eq_refl); lia|]).
  all: try (destruct (8 <? v2_eids L bs) eqn:E5; cbn [snd];
    [split; [|discriminate]; split; [intros _; repeat split; intros; lia|reflexivity]|]).
  all: destruct (has_smcd bs) eqn:E6; cbn [andb]; try (specialize (HS eq_refl); discriminate).
  all: try (destruct (L <? v2_smcd_start L bs + 52) eqn:E7; cbn [snd];
    [split; [|discriminate]; split; [discriminate|]; intros (_ & _ & _ & [H|(_ & _ & H & _)]);
     [lia|specialize (H eq_refl); lia]|]).
  all: try (destruct (8 <? v2_gids L bs) eqn:E8; cbn [snd];
    [split; [|discriminate]; split;
      [intros _; repeat split; try (intros; lia); right; repeat split; try (intros; lia)|reflexivity]|]).
  all: cbn [snd]; (split; [|discriminate]); (split; [discriminate|]); intros (_ & H1 & _ & [H|(_ & H2 & _ & H)]);
    (discriminate || lia).
Qed.
End Results.

Lemma ProposalV2_short_ok m buf old : slice_ok m buf -> proposalv2_wf old -> 8 <= s_len buf ->
  let bs := s_bytes m buf in
  let L := N.to_nat (declared bs) in
  L < 84 -> L <= s_len buf ->
  ProposalV2_Parse m old buf =
    (["Error parsing CLC Proposal v2: message too short"%string; dump_line (bytes_at bs 0 L)],
     Done (p2_short m buf old)).
Proof.
  intros Hok Hwf H8 bs L H84 HL. rewrite ProposalV2_Parse_run by assumption.
  unfold p2_run. cbv zeta. fold bs. fold L. rewrite (proj2 (Nat.ltb_lt L 84)) by lia. reflexivity.
Qed.
