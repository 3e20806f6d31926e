(** * GlobalFacts: the exported variables of package clc. Proofs only. *)

From Coq Require Import NArith ZArith Bool String Arith List Lia.
From Coq Require Import ZifyBool ZifyNat ZifyN.
From Verif Require Import GoBase GoFmt ClcModel Slices Wire Accepted Samples GlobalModel Global ClcView ClcParse.
Import ListNotations.
Local Open Scope nat_scope.

(** ** Contents as at the start *)

Lemma as_constants_if g : content g VSMCREyecatcher = SMCREyecatcher -> content g VSMCDEyecatcher = SMCDEyecatcher ->
  content g VSMCOption = SMCREyecatcher -> as_constants g.
Proof.
  intros HR HD HO. assert (HE : forall buf, HasEyecatcher_G g buf = HasEyecatcher (g_mem g) buf).
  { intros buf. unfold HasEyecatcher_G, HasEyecatcher. rewrite HR, HD. reflexivity. }
  split; [|split; [|split; [|split; [|split]]]].
  - intros e. unfold Eyecatcher_String_G. rewrite HR, HD. reflexivity.
  - exact HE.
  - intros t buf. unfold Trailer_Parse_G, HasEyecatcher_arr_G. rewrite HR, HD. reflexivity.
  - intros t. unfold Trailer_String_G, Eyecatcher_String_G. rewrite HR, HD. reflexivity.
  - intros opts. induction opts as [|opt opts IH]; [reflexivity|]. cbn [CheckSMCOption_G CheckSMCOption].
    rewrite IH, HO. reflexivity.
  - intros buf. unfold NewMessage_G, NewMessage. rewrite HE. reflexivity.
Qed.

Lemma at_start m : as_constants (start m).
Proof. apply as_constants_if; reflexivity. Qed.

(** ** Programs *)

Lemma same_variable_true v w : same_variable v w = true <-> v = w.
Proof. destruct v, w; cbn; split; congruence. Qed.

(** where the parts of a slice are *)
Lemma eval_array g e l s : eval g e = (l, Done s) ->
  exists b, s_arr s = s_arr b /\
    ((exists v, b = value g v /\ part_of v e = true) \/ (own_expr e -> s_arr b <> array_R /\ s_arr b <> array_D)).
Proof.
  revert l s. induction e as [b|v|e IH lo hi]; intros l s E.
  - injection E as _ <-. exists b. split; [reflexivity|]. right. auto.
  - injection E as _ <-. exists (value g v). split; [reflexivity|]. left. exists v.
    split; [reflexivity|]. destruct v; reflexivity.
  - cbn [eval] in E. destruct (eval g e) as [l1 [s1| |]] eqn:E1; try discriminate.
    destruct (IH _ _ eq_refl) as (b & H1 & H3). exists b. split; [|exact H3].
    unfold bind, reslice in E. destruct ((lo <=? hi) && (hi <=? s_cap s1)); [|discriminate].
    injection E as _ <-. exact H1.
Qed.

Lemma value_exec g st v : never_assigned v [st] = true -> value (exec g st) v = value g v.
Proof.
  unfold never_assigned. cbn. rewrite andb_true_r. destruct st as [e i b|w e]; cbn [exec].
  - intros _. destruct (eval g e) as [l [s| |]]; [|reflexivity..]. destruct (i <? s_len s); [|reflexivity].
    destruct v; reflexivity.
  - intros H. destruct (eval g e) as [l [s| |]]; [|reflexivity..]. destruct v, w; cbn in *; congruence.
Qed.

Lemma never_assigned_cons v st p : never_assigned v (st :: p) = true ->
  never_assigned v [st] = true /\ never_assigned v p = true.
Proof. unfold never_assigned. cbn. rewrite andb_true_r. apply andb_true_iff. Qed.

Lemma value_exec_all p v : never_assigned v p = true -> forall g, value (exec_all g p) v = value g v.
Proof.
  induction p as [|st p IH]; intros H g; [reflexivity|]. apply never_assigned_cons in H as [H1 H2].
  unfold exec_all in *. cbn [fold_left]. rewrite (IH H2). apply value_exec, H1.
Qed.

Lemma in_step m p : never_assigned VSMCREyecatcher p = true -> never_assigned VSMCOption p = true ->
  let g := exec_all (start m) p in
  content g VSMCOption = content g VSMCREyecatcher /\
  forall data, CheckSMCOption_G g [smc_option data] = true <-> Eyecatcher_String_G g data = "SMC-R"%string.
Proof.
  intros H1 H2. cbv zeta.
  assert (E : content (exec_all (start m) p) VSMCOption = content (exec_all (start m) p) VSMCREyecatcher).
  { unfold content. rewrite !value_exec_all by assumption. reflexivity. }
  split; [exact E|]. intros data. cbn [CheckSMCOption_G smc_option OptionType OptionLength OptionData].
  rewrite E. unfold Eyecatcher_String_G. cbn [andb N.eqb Pos.eqb].
  destruct (bytes_eq data _); [split; reflexivity|].
  destruct (bytes_eq data _); split; discriminate.
Qed.

(** *** Arrays that a program does not write to *)

Lemma exec_array g st a : own_expr (of_stmt st) -> a = array_R \/ a = array_D ->
  (forall v, part_of v (of_stmt st) = true -> s_arr (value g v) <> a) ->
  g_mem (exec g st) a = g_mem g a /\
  (forall v, s_arr (value (exec g st) v) = a -> s_arr (value g v) = a).
Proof.
  intros Ho Ha Hv. destruct st as [e i b|w e]; cbn [exec of_stmt] in *.
  all: destruct (eval g e) as [l [s| |]] eqn:E; [|split; [reflexivity|auto]..].
  all: assert (Hs : s_arr s <> a)
    by (destruct (eval_array _ _ _ _ E) as (c & H1 & [(v & -> & Hp)|H3]); rewrite H1;
        [apply Hv, Hp|specialize (H3 Ho); destruct Ha as [->| ->]; tauto]).
  - destruct (i <? s_len s); [|split; [reflexivity|auto]]. split; [|intros []; cbn; auto].
    cbn [g_mem]. unfold store. destruct (Nat.eqb_spec a (s_arr s)); [congruence|reflexivity].
  - split; [destruct w; reflexivity|]. intros v. destruct v, w; cbn; auto; contradiction.
Qed.

Lemma untouched_array a p : own_arrays p -> a = array_R \/ a = array_D -> forall g,
  (forall v, s_arr (value g v) = a -> never_used v p = true) ->
  g_mem (exec_all g p) a = g_mem g a.
Proof.
  intros Ho Ha. induction Ho as [|st p H Ho IH]; intros g Hv; [reflexivity|].
  unfold exec_all in *. cbn [fold_left].
  assert (U : forall v, s_arr (value g v) = a -> part_of v (of_stmt st) = false).
  { intros v E. specialize (Hv v E). unfold never_used in Hv. cbn [forallb] in Hv.
    apply andb_true_iff in Hv as [Hv _]. apply andb_true_iff in Hv as [Hv _]. apply negb_true_iff, Hv. }
  destruct (exec_array g st a H Ha) as [E1 E2]; [intros v Hp E; rewrite (U v E) in Hp; discriminate|].
  rewrite IH; [exact E1|]. intros v E. specialize (Hv v (E2 v E)). unfold never_used in *. cbn [forallb] in Hv.
  apply andb_true_iff in Hv as [_ Hv]. exact Hv.
Qed.

Lemma used_assigned v p : never_used v p = true -> never_assigned v p = true.
Proof.
  unfold never_used, never_assigned. rewrite !forallb_forall. intros H st Hst. specialize (H st Hst).
  apply andb_true_iff in H as [_ H]. exact H.
Qed.

Lemma smcd_kept m p : own_arrays p -> never_used VSMCDEyecatcher p = true ->
  content (exec_all (start m) p) VSMCDEyecatcher = SMCDEyecatcher.
Proof.
  intros Ho H. unfold content, s_bytes. rewrite value_exec_all by (apply used_assigned, H).
  change (s_arr (value (start m) VSMCDEyecatcher)) with array_D.
  rewrite untouched_array; [reflexivity|exact Ho|right; reflexivity|].
  intros [] E; [discriminate|exact H|discriminate].
Qed.

Lemma smcr_kept m p : own_arrays p -> never_used VSMCREyecatcher p = true -> never_used VSMCOption p = true ->
  content (exec_all (start m) p) VSMCREyecatcher = SMCREyecatcher.
Proof.
  intros Ho H H1. unfold content, s_bytes. rewrite value_exec_all by (apply used_assigned, H).
  change (s_arr (value (start m) VSMCREyecatcher)) with array_R.
  rewrite untouched_array; [reflexivity|exact Ho|left; reflexivity|].
  intros [] E; [exact H|discriminate|exact H1].
Qed.

Lemma untouched m p : own_arrays p -> (forall v, never_used v p = true) -> as_constants (exec_all (start m) p).
Proof.
  intros Ho H. pose proof (smcr_kept m p Ho (H _) (H _)) as HR. apply as_constants_if.
  - exact HR.
  - apply smcd_kept; auto.
  - destruct (in_step m p) as [E _]; [apply used_assigned, H..|]. rewrite E. exact HR.
Qed.

(** ** Recognition *)

Lemma upto4 m buf : slice_ok m buf -> 4 <= s_cap buf ->
  exists s, upto buf EyecatcherLen = ret s /\ s_bytes m s = firstn 4 (reach m buf).
Proof.
  intros [H1 H2] H. unfold upto, reslice, EyecatcherLen. replace ((0 <=? 4) && (4 <=? s_cap buf)) with true by lia.
  eexists. split; [reflexivity|]. unfold s_bytes, reach, bytes_at. cbn [s_len s_off s_arr].
  rewrite Nat.add_0_r, firstn_firstn. f_equal. lia.
Qed.

Lemma recognition g buf : slice_ok (g_mem g) buf ->
  let known := firstn 4 (reach (g_mem g) buf) = content g VSMCREyecatcher \/
               firstn 4 (reach (g_mem g) buf) = content g VSMCDEyecatcher in
  (s_cap buf < 4 -> HasEyecatcher_G g buf = panic /\ NewMessage_G g buf = panic) /\
  (4 <= s_cap buf -> known -> HasEyecatcher_G g buf = ret true) /\
  (4 <= s_cap buf -> ~ known -> HasEyecatcher_G g buf = ret false /\ NewMessage_G g buf = ret (None, 0%N)).
Proof.
  intros Hok known. split; [|split].
  - intros H. assert (E : HasEyecatcher_G g buf = panic).
    { unfold HasEyecatcher_G, upto, reslice, EyecatcherLen.
      replace ((0 <=? 4) && (4 <=? s_cap buf)) with false by lia. reflexivity. }
    split; [exact E|]. unfold NewMessage_G. rewrite E. reflexivity.
  - intros H K. destruct (upto4 _ _ Hok H) as (s & E1 & E2). unfold HasEyecatcher_G. rewrite E1. cbn [bind ret app].
    rewrite E2. destruct (bytes_eq _ _) eqn:E3; [reflexivity|].
    destruct (bytes_eq _ (content g VSMCDEyecatcher)) eqn:E4; [reflexivity|].
    exfalso. destruct K as [K|K]; apply bytes_eq_true in K; congruence.
  - intros H K. assert (E : HasEyecatcher_G g buf = ret false).
    { destruct (upto4 _ _ Hok H) as (s & E1 & E2). unfold HasEyecatcher_G. rewrite E1. cbn [bind ret app].
      rewrite E2. destruct (bytes_eq _ _) eqn:E3; [apply bytes_eq_true in E3; exfalso; apply K; left; exact E3|].
      destruct (bytes_eq _ (content g VSMCDEyecatcher)) eqn:E4; [|reflexivity].
      apply bytes_eq_true in E4. exfalso. apply K. right. exact E4. }
    split; [exact E|]. unfold NewMessage_G. rewrite E. reflexivity.
Qed.

Lemma trailer g t buf : slice_ok (g_mem g) buf -> length t = 4 ->
  let bs := last4 (s_bytes (g_mem g) buf) in
  (s_len buf < 4 -> Trailer_Parse_G g t buf = panic) /\
  (4 <= s_len buf -> bs = content g VSMCREyecatcher \/ bs = content g VSMCDEyecatcher ->
   Trailer_Parse_G g t buf = ret bs) /\
  (4 <= s_len buf -> bs <> content g VSMCREyecatcher -> bs <> content g VSMCDEyecatcher ->
   Trailer_Parse_G g t buf = (["Error parsing CLC message: invalid trailer"%string; dump_line bs], Done bs)).
Proof.
  intros Hok Ht. cbv zeta. pose proof (len_le_cap _ _ Hok) as Hcap.
  assert (P : 4 <= s_len buf -> exists s, last_n buf TrailerLen = ret s /\
    s_bytes (g_mem g) s = last4 (s_bytes (g_mem g) buf) /\ length (s_bytes (g_mem g) s) = 4).
  { intros L. replace (last_n buf TrailerLen) with (last_n (sub buf 0 (s_len buf)) 4) by (rewrite <- sub_self; reflexivity).
    rewrite last_sub by lia.
    eexists. split; [reflexivity|]. rewrite (s_bytes_sub _ buf) by lia. rewrite (seg_win _ buf Hok) by lia.
    rewrite last4_seg, (s_bytes_length _ buf Hok). split; [f_equal; lia|].
    apply seg_length. rewrite (s_bytes_length _ buf Hok). lia. }
  split; [|split].
  - intros L. unfold Trailer_Parse_G.
    replace (last_n buf TrailerLen) with (last_n (sub buf 0 (s_len buf)) 4) by (rewrite <- sub_self; reflexivity).
    rewrite last_sub_panic by lia. reflexivity.
  - intros L K. destruct (P L) as (s & E1 & E2 & E3). unfold Trailer_Parse_G. rewrite E1, bind_ret.
    assert (E : go_copy t (s_bytes (g_mem g) s) = last4 (s_bytes (g_mem g) buf)).
    { rewrite <- E2. unfold go_copy. rewrite Ht, E3, skipn_all2, app_nil_r by lia. apply firstn_all2. lia. }
    rewrite E. unfold HasEyecatcher_arr_G, EyecatcherLen. rewrite E2 in E3. rewrite firstn_all2 by lia.
    rewrite <- !bytes_eq_true in K. apply orb_true_iff in K. rewrite K. reflexivity.
  - intros L K1 K2. destruct (P L) as (s & E1 & E2 & E3). unfold Trailer_Parse_G. rewrite E1, bind_ret.
    assert (E : go_copy t (s_bytes (g_mem g) s) = last4 (s_bytes (g_mem g) buf)).
    { rewrite <- E2. unfold go_copy. rewrite Ht, E3, skipn_all2, app_nil_r by lia. apply firstn_all2. lia. }
    rewrite E. unfold HasEyecatcher_arr_G, EyecatcherLen. rewrite E2 in E3. rewrite firstn_all2 by lia.
    rewrite <- bytes_eq_true in K1, K2. apply not_true_is_false in K1, K2. rewrite K1, K2.
    cbn [orb]. rewrite bind_log, bind_ret. unfold errDump. rewrite E2, bind_log. reflexivity.
Qed.

Lemma texts g e :
  (Eyecatcher_String_G g e = "SMC-R"%string <-> e = content g VSMCREyecatcher) /\
  (Eyecatcher_String_G g e = "SMC-D"%string <-> e <> content g VSMCREyecatcher /\ e = content g VSMCDEyecatcher) /\
  Trailer_String_G g e = Eyecatcher_String_G g e.
Proof.
  unfold Trailer_String_G, Eyecatcher_String_G. rewrite <- !bytes_eq_true.
  destruct (bytes_eq e (content g VSMCREyecatcher)); [|destruct (bytes_eq e (content g VSMCDEyecatcher))];
    repeat split; try congruence; intuition congruence.
Qed.

Lemma options g opts : CheckSMCOption_G g opts = true <->
  exists opt, In opt opts /\ opt = smc_option (content g VSMCOption).
Proof.
  induction opts as [|opt opts IH]; cbn [CheckSMCOption_G In].
  - split; [discriminate|]. intros (opt & [] & _).
  - destruct (((OptionType opt =? 254) && (OptionLength opt =? 6)
       && bytes_eq (OptionData opt) (content g VSMCOption))%N) eqn:E.
    + split; [intros _|reflexivity]. exists opt. split; [left; reflexivity|].
      apply andb_true_iff in E as [E E3]. apply andb_true_iff in E as [E1 E2].
      apply bytes_eq_true in E3. apply N.eqb_eq in E1, E2. destruct opt; cbn in *. subst. reflexivity.
    + rewrite IH. split; intros (o & H & ->); [exists (smc_option (content g VSMCOption)); auto|].
      destruct H as [->|H]; [|eauto]. cbn in E. assert (T : bytes_eq (content g VSMCOption) (content g VSMCOption) = true)
        by (apply bytes_eq_true; reflexivity). rewrite T in E. discriminate.
Qed.

(** ** Behind the eyecatcher *)

Lemma nth_skipn4 (l : list byte) i : nth (4 + i) l x00 = nth i (skipn 4 l) x00.
Proof. revert l. do 4 (destruct l as [|? l]; [destruct i; reflexivity|]). reflexivity. Qed.

Lemma seg_skipn4 (l : list byte) i n : seg l (4 + i) n = seg (skipn 4 l) i n.
Proof. unfold seg. rewrite skipn_skipn, Nat.add_comm. reflexivity. Qed.

Lemma idx4 m buf i : slice_ok m buf -> idx m buf (4 + i) =
  if 4 + i <? s_len buf then ret (nth i (skipn 4 (reach m buf)) x00) else panic.
Proof.
  intros Hok. pose proof (len_le_cap _ _ Hok). rewrite (sub_self buf) at 1.
  destruct (Nat.ltb_spec (4 + i) (s_len buf)).
  - rewrite (idx_sub m buf Hok) by lia. apply (f_equal ret). rewrite <- nth_skipn4. reflexivity.
  - rewrite idx_sub_panic by lia. reflexivity.
Qed.

Lemma be16_5 m buf : slice_ok m buf -> be16 m buf 5 7 =
  if 7 <=? s_cap buf then ret (be_acc 0 (seg (skipn 4 (reach m buf)) 1 2)) else panic.
Proof.
  intros Hok. pose proof (len_le_cap _ _ Hok). rewrite (sub_self buf) at 1.
  destruct (Nat.leb_spec 7 (s_cap buf)).
  - rewrite be16_sub by (assumption || lia). apply (f_equal ret). rewrite <- seg_skipn4. reflexivity.
  - rewrite be16_sub_panic by lia. reflexivity.
Qed.

Lemma new_message_rest m buf m1 buf1 : slice_ok m buf -> slice_ok m1 buf1 ->
  s_len buf1 = s_len buf -> s_cap buf1 = s_cap buf -> skipn 4 (reach m1 buf1) = skipn 4 (reach m buf) ->
  snd (new_message m1 buf1) = snd (new_message m buf).
Proof.
  intros Hok Hok1 El Ec Er. unfold new_message. rewrite !be16_5 by assumption. rewrite Er, Ec.
  change 7 with (4 + 3) at 2 3 5 6. change (idx m1 buf1 4) with (idx m1 buf1 (4 + 0)).
  change (idx m buf 4) with (idx m buf (4 + 0)).
  destruct (7 <=? s_cap buf); [|reflexivity]. cbn [bind ret].
  destruct (MaxMessageSize <? _)%N.
  - unfold upto, reslice. rewrite Ec. destruct ((0 <=? HeaderLen) && (HeaderLen <=? s_cap buf)); reflexivity.
  - rewrite !idx4 by assumption. rewrite El, Er.
    destruct (4 + 0 <? s_len buf); [|reflexivity]. destruct (4 + 3 <? s_len buf); [|reflexivity].
    cbn [bind ret]. reflexivity.
Qed.

Lemma behind g buf m1 buf1 : slice_ok (g_mem g) buf -> HasEyecatcher_G g buf = ret true ->
  slice_ok m1 buf1 -> s_len buf1 = s_len buf -> s_cap buf1 = s_cap buf ->
  firstn 4 (reach m1 buf1) = SMCREyecatcher -> skipn 4 (reach m1 buf1) = skipn 4 (reach (g_mem g) buf) ->
  snd (NewMessage_G g buf) = snd (NewMessage m1 buf1).
Proof.
  intros Hok H Hok1 El Ec E4 Er. assert (C : 4 <= s_cap buf1).
  { apply (f_equal (@length _)) in E4. rewrite firstn_length in E4. change (length SMCREyecatcher) with 4 in E4.
    change (reach m1 buf1) with (win m1 buf1) in E4. rewrite win_length in E4 by assumption. lia. }
  assert (H1 : HasEyecatcher m1 buf1 = ret true).
  { destruct (upto4 _ _ Hok1 C) as (s & E1 & E2). unfold HasEyecatcher. rewrite E1. cbn [bind ret app].
    rewrite E2, E4. reflexivity. }
  unfold NewMessage_G, NewMessage. rewrite H, H1. cbn [bind ret negb app].
  pose proof (new_message_rest _ _ _ _ Hok Hok1 El Ec Er) as E. unfold new_message in E at 1.
  destruct (new_message (g_mem g) buf) as [l o].
  match goal with |- _ = snd (let (_, _) := ?x in _) => destruct x as [l1 o1] end.
  cbn in *. congruence.
Qed.

(** ** Writing to [SMCOption] *)

Lemma option_refuted : ~ (forall m buf i b, s_arr buf <> array_R -> s_arr buf <> array_D ->
  NewMessage_G (exec (start m) (Store (Var VSMCOption) i b)) buf = NewMessage_G (start m) buf).
Proof.
  intros H. specialize (H (fun _ => sample_accept_r) (mkslice 3 0 68 68) 0 x00).
  specialize (H ltac:(discriminate) ltac:(discriminate)).
  apply (f_equal (fun x => match snd x with Done (Some _, _) => true | _ => false end)) in H.
  vm_compute in H. discriminate H.
Qed.
