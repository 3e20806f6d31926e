(** * RecoverProposal: complete Proposals whose Parse panics. Proofs only. *)

From Coq Require Import NArith ZArith Bool String Arith List Lia.
From Coq Require Import ZifyBool ZifyNat ZifyN.
From Verif Require Import GoBase GoFmt ClcModel LlcModel RoceModel Setters WriteModel LlcWriteModel Slices Wire
  WireLemmas ClcView LlcView Steps ClcParse ClcFixed ClcSmcdv2 ClcProposal ClcProposalV2 Recover
  RecoverSteps RecoverClc.
From Verif Require Import Samples.
From Verif Require Keep WriteFacts ClcMessage ClcRefute RecoverFacts.
Import ListNotations.
Local Open Scope nat_scope.

Lemma torn_mono {R A} (G H : R -> Prop) (x : list string * outcome A * R) :
  (forall r, G r -> H r) -> torn G x -> torn H x.
Proof. unfold torn. auto. Qed.

Lemma torn_done {R S A B} (G : R -> Prop) (f : R -> S) s (w : W S A) (k : A -> W R B) r l a p :
  WriteFacts.res pair (w (f r)) = (l, Done (a, p)) -> torn G (k a (s p r)) ->
  torn G (wbind (part f s w) k r).
Proof.
  intros E H. apply torn_ok with (l := l) (a := a) (r1 := s p r); [|exact H].
  unfold part. destruct (w (f r)) as [[l1 [a1| |]] p1]; cbn in E; congruence.
Qed.

Lemma torn_stop {R S A B} (G : R -> Prop) (f : R -> S) s (w : W S A) (k : A -> W R B) r :
  snd (WriteFacts.res pair (w (f r))) = Panicked -> torn (fun p => G (s p r)) (w (f r)) ->
  torn G (wbind (part f s w) k r).
Proof.
  intros E H. apply torn_part; [exact H|]. intros l a p Ew. rewrite Ew in E. discriminate.
Qed.

Lemma run_of_torn {R} (w : W R unit) r l x : WriteFacts.res (fun _ y => y) (w r) = (l, Panicked) ->
  torn (fun y => y = x) (w r) -> w r = (l, Panicked, x).
Proof.
  unfold torn. destruct (w r) as [[l1 [a| |]] r1]; cbn; intros E H; try congruence.
  rewrite H by reflexivity. congruence.
Qed.

(** ** Loops that run over their array *)

Lemma eids_over m buf L : slice_ok m buf -> L <= s_len buf -> forall n q i x,
  length (x_EIDArea x) = 8 -> Forall (fun e => length e = 32) (x_EIDArea x) -> i <= 8 ->
  8 < i + fitting L q 32 n ->
  torn (fun y => y = set_x_EIDArea (put (x_EIDArea x) i (eids_of (win m buf) q (8 - i))) x)
    (eids_v2_W m buf L q i n x).
Proof.
  intros Hok HL. pose proof (len_le_cap _ _ Hok) as Hcap. pose proof (win_length m buf Hok) as Hw.
  induction n as [|n IH]; intros q i x Ha Hf Hi H8; unfold fitting in H8; [rewrite Nat.min_0_l in H8; lia|].
  cbn [eids_v2_W]. unfold short, EIDLen, TrailerLen, EyecatcherLen.
  destruct (L <? q + (32 + 4)) eqn:E; [exfalso; lia|].
  apply torn_get. cbv beta.
  destruct (le_lt_dec 8 i) as [I8|I8].
  { unfold get_nth. rewrite (proj2 (nth_error_None _ _)) by lia. apply torn_panic.
    replace (8 - i) with 0 by lia. change (eids_of (win m buf) q 0) with (@nil (list byte)).
    rewrite put_nil. destruct x as [a1 a2 a3 a4 a5 a6 a7 a8 a9 area]. reflexivity. }
  destruct (get_set (x_EIDArea x) i (seg (win m buf) q 32)) as (old & E0 & E1 & E2); [lia|].
  rewrite E1. apply torn_ret.
  assert (Ho : length old = 32)
    by (apply (proj1 (Forall_forall _ _) Hf); eapply nth_error_In; exact E0).
  rewrite (sub_self buf) at 1. rewrite (copy_sub m buf Hok) by lia. apply torn_ret.
  cbn [Nat.add]. replace (q + 32 - q) with 32 by lia. unfold assign. apply torn_assoc. rewrite E2.
  apply torn_ret, torn_change. cbv beta zeta.
  eapply torn_mono; [|apply IH].
  - cbv beta. intros r ->. destruct x as [a1 a2 a3 a4 a5 a6 a7 a8 a9 area]. cbn in Ha. cbn -[put eids_of firstn skipn Nat.sub].
    replace (8 - i) with (S (8 - S i)) by lia. rewrite eids_of_S. rewrite put_cons by lia. reflexivity.
  - destruct x as [a1 a2 a3 a4 a5 a6 a7 a8 a9 area]. cbn in Ha. cbn -[firstn skipn]. rewrite app_length. cbn [length].
    rewrite firstn_length, skipn_length. lia.
  - destruct x as [a1 a2 a3 a4 a5 a6 a7 a8 a9 area]. cbn in Hf. cbn -[firstn skipn seg]. apply Forall_app. split; [apply Forall_pre; exact Hf|].
    constructor; [rewrite seg_length; lia|apply Forall_post; exact Hf].
  - lia.
  - unfold fitting. lia.
Qed.

Lemma gids_over m buf L : slice_ok m buf -> L <= s_len buf -> forall n q i y,
  length (y_GIDArea y) = 8 -> i <= 8 -> 8 < i + fitting L q 10 n ->
  torn (fun r => r = set_y_GIDArea (put (y_GIDArea y) i (gids_of (win m buf) q (8 - i))) y)
    (gids_v2_W m buf L q i n y).
Proof.
  intros Hok HL. pose proof (len_le_cap _ _ Hok) as Hcap. pose proof (win_length m buf Hok) as Hw.
  induction n as [|n IH]; intros q i y Ha Hi H8; unfold fitting in H8; [rewrite Nat.min_0_l in H8; lia|].
  destruct y as [a1 a2 area]. cbn [y_GIDArea] in Ha.
  cbn [gids_v2_W]. unfold short, TrailerLen, EyecatcherLen.
  destruct (L <? q + (8 + 2 + 4)) eqn:E; [exfalso; lia|].
  rewrite (sub_self buf) at 1. rewrite (be64_sub m buf Hok) by lia. apply torn_ret, torn_get. cbv beta.
  cbn [y_GIDArea].
  destruct (le_lt_dec 8 i) as [I8|I8].
  { unfold get_nth. rewrite (proj2 (nth_error_None _ _)) by lia. apply torn_panic.
    replace (8 - i) with 0 by lia. change (gids_of (win m buf) q 0) with (@nil GIDEntry).
    rewrite put_nil. reflexivity. }
  rewrite be_acc0. cbn [Nat.add]. replace (q + 8 - q) with 8 by lia.
  destruct (nth_error area i) as [old|] eqn:E0; [|apply nth_error_None in E0; lia].
  destruct (get_set area i (mkGIDEntry (BE (seg (win m buf) q 8)) (g_VCHID old))) as (old' & E0' & E1 & E2); [lia|].
  assert (old' = old) by congruence. subst old'.
  rewrite E1. apply torn_ret. unfold assign at 1. apply torn_assoc. rewrite E2. apply torn_ret, torn_change.
  cbv beta zeta. clear E1 E2. cbv beta iota delta [set_y_GIDArea y_SEID y_reserved7].
  set (area' := firstn i area ++ _ :: skipn (S i) area).
  assert (Ha' : length area' = 8).
  { unfold area'. rewrite app_length. cbn [length]. rewrite firstn_length, skipn_length. lia. }
  assert (E0'' : nth_error area' i = Some (mkGIDEntry (BE (seg (win m buf) q 8)) (g_VCHID old))).
  { unfold area'. rewrite nth_error_app2 by (rewrite firstn_length; lia).
    rewrite firstn_length. replace (i - Nat.min i (length area)) with 0 by lia. reflexivity. }
  rewrite (sub_self buf) at 1. rewrite (be16_sub m buf Hok) by lia. apply torn_ret, torn_get. cbv beta.
  cbn [y_GIDArea].
  rewrite be_acc0. cbn [Nat.add]. replace (q + 8 + 2 - (q + 8)) with 2 by lia.
  destruct (get_set area' i (mkGIDEntry (BE (seg (win m buf) q 8)) (BE (seg (win m buf) (q + 8) 2)))) as (old' & E0x & E1 & E2); [lia|].
  assert (old' = mkGIDEntry (BE (seg (win m buf) q 8)) (g_VCHID old)) by congruence. subst old'.
  rewrite E1. apply torn_ret. cbn [g_GID]. unfold assign at 1. apply torn_assoc. rewrite E2.
  apply torn_ret, torn_change. cbv beta zeta. cbv beta iota delta [set_y_GIDArea y_SEID y_reserved7].
  replace (q + 8 + 2) with (q + 10) by lia.
  set (area'' := firstn i area' ++ _ :: skipn (S i) area').
  assert (EA : area'' = firstn i area ++ mkGIDEntry (num (win m buf) q 8) (num (win m buf) (q + 8) 2) :: skipn (S i) area).
  { unfold area'', area'.
    assert (HF : length (firstn i area) = i) by (rewrite firstn_length; lia).
    rewrite firstn_app, HF, Nat.sub_diag, firstn_firstn, Nat.min_id. cbn [firstn].
    rewrite app_nil_r. f_equal. f_equal.
    rewrite skipn_app, HF. rewrite skipn_all2 by lia. cbn [app].
    replace (S i - i) with 1 by lia. reflexivity. }
  rewrite EA.
  eapply torn_mono; [|apply IH].
  - cbv beta. intros r ->. cbv beta iota delta [y_GIDArea set_y_GIDArea y_SEID y_reserved7].
    replace (8 - i) with (S (8 - S i)) by lia. rewrite gids_of_S. rewrite put_cons by lia. reflexivity.
  - cbn [y_GIDArea]. rewrite app_length. cbn [length]. rewrite firstn_length, skipn_length. lia.
  - lia.
  - unfold fitting. lia.
Qed.

(** ** The fixed fields of a complete message *)

Lemma app_nil_bytes m buf : s_bytes m buf ++ [] = s_bytes m buf.
Proof. apply app_nil_r. Qed.

Definition v2_rest_W (m : mem) (buf : slice) (hdr : Header) (len : nat) : W ProposalV2 unit :=
  let? r := part p2_IP set_p2_IP (ip_area_v2_W m buf hdr len 80) in
  match r with
  | None => wret tt
  | Some skip =>
    let? r := part p2_Ext set_p2_Ext (ext_v2_W m buf hdr len skip) in
    match r with
    | None => wret tt
    | Some skip =>
      let? ext := get p2_Ext in
      let? go_on := part p2_SMCD set_p2_SMCD
                      (smcd_v2_W m buf hdr len skip (x_GIDNumber ext)) in
      if go_on then part p2_Trailer set_p2_Trailer (Trailer_W m buf) else wret tt
    end
  end.

Lemma ProposalV2_to_rest m buf old (G : ProposalV2 -> Prop) : slice_ok m buf -> proposalv2_wf old ->
  let bs := s_bytes m buf in
  let L := N.to_nat (declared bs) in
  84 <= L -> L <= s_len buf ->
  torn G (v2_rest_W m buf (hdr_of bs) L (p2_fixed buf bs old)) -> torn G (ProposalV2_W m buf old).
Proof.
  intros Hok Hwf bs L H84 HL HG.
  destruct Hwf as (Hwf1 & Hwf2 & Hwf3 & Hwf4 & Hwf5 & Hwf6 & Hwf7). unfold ProposalV2_W.
  destruct old as [? ? ? ? ? ? ? ? ? ? ? ? ? ?].
  cbn in Hwf1, Hwf2, Hwf3, Hwf7. apply torn_change. receiver.
  apply (Header_step m buf []); [exact Hok|exact Hwf1|intros h (T & _); exfalso; lia|intros T].
  receiver. apply torn_get. receiver. the_length m buf (@nil byte) Hok T.
  destruct (declared (s_bytes m buf) <? ProposalV2Len)%N eqn:E.
  { exfalso. unfold ProposalV2Len in E. unfold L, bs in H84. lia. }
  unfold HeaderLen, PeerIDLen. cbn [Nat.add]. torn_steps buf Hok (@nil byte).
  rewrite !app_nil_bytes. exact HG.
Qed.

Lemma torn_then {R A B} (G : R -> Prop) (x : W R A) (k : A -> W R B) r :
  torn G (x r) -> (forall a r1, torn G (k a r1)) -> torn G (wbind x k r).
Proof.
  unfold torn, wbind. intros Hx Hk. destruct (x r) as [[l [a| |]] r1]; cbn in *; [|auto|discriminate].
  specialize (Hk a r1). destruct (k a r1) as [[l2 o] r2]. exact Hk.
Qed.

Ltac step_at :=
  lazymatch goal with
  | Hok : slice_ok ?m ?buf |- torn _ (wbind (copyto _ _ _ _ _ _) _ _) =>
    try at_start buf; apply (torn_copyto _ _ Hok (@nil byte));
    [lia|lia|intros ?T; exfalso; lia|intros ?T; exfalso; lia
    |intros ?T; split; [cbn; lia|cbn [Nat.add]; receiver]]
  | Hok : slice_ok ?m ?buf |- torn _ (wbind (lift (be16 _ _ _ _)) _ _) =>
    try at_start buf; apply (torn_be16 _ _ Hok (@nil byte));
    [lia|lia|intros ?T; exfalso; lia|intros ?T; exfalso; lia|intros ?T; cbn [Nat.add]]
  | Hok : slice_ok ?m ?buf |- torn _ (wbind (lift (be64 _ _ _ _)) _ _) =>
    try at_start buf; apply (torn_be64 _ _ Hok (@nil byte));
    [lia|lia|intros ?T; exfalso; lia|intros ?T; exfalso; lia|intros ?T; cbn [Nat.add]]
  | Hok : slice_ok ?m ?buf |- _ => first [at_start buf; torn_step Hok (@nil byte)|torn_step Hok (@nil byte)]
  end.

Section v2.
Context (m : mem) (buf : slice) (Hok : slice_ok m buf).
Local Notation bs := (s_bytes m buf).
Local Notation L := (N.to_nat (declared bs)).
Context (H84 : 84 <= L) (HL : L <= s_len buf).

Lemma ext_over x : v2ext_wf x -> has_ext bs = true -> v2_ext_room L bs -> 8 < v2_eids L bs ->
  torn (fun r => r = ext_of bs (v2_ext_start L bs) 8 x)
    (ext_v2_W m buf (hdr_of bs) L (v2_ext_start L bs) x).
Proof.
  intros (W5 & W6 & WA & WF) HE HR H8. pose proof (len_le_cap _ _ Hok) as Hcap.
  pose proof (s_bytes_length m buf Hok) as Hb. specialize (HR HE).
  unfold ext_v2_W, SMCTypeN, has_ext in *. rewrite hdr_pathv2 by lia. rewrite HE.
  set (s := v2_ext_start L bs) in *.
  unfold short, ProposalV2ExtLen, TrailerLen, EyecatcherLen. change (40 + 4) with 44.
  destruct (L <? s + 44) eqn:E; [exfalso; lia|].
  assert (EC : N.to_nat (bn bs s) = v2_eid_count L bs).
  { unfold v2_eid_count. fold s. rewrite <- bn_bits by lia. reflexivity. }
  destruct x as [a1 a2 a3 a4 a5 a6 a7 a8 a9 area]. cbn in W5, W6, WA, WF.
  repeat step_at.
  rewrite !app_nil_bytes.
  replace (s + 1 + 1) with (s + 2) by lia. replace (s + 2 + 1) with (s + 3) by lia.
  replace (s + 3 + 1) with (s + 4) by lia. replace (s + 4 + 2) with (s + 6) by lia.
  replace (s + 6 + 2) with (s + 8) by lia. replace (s + 8 + 32) with (s + 40) by lia.
  replace (s + 6 - (s + 4)) with 2 by lia. replace (s + 40 - (s + 8)) with 32 by lia.
  cbn [x_EIDNumber]. fold (bn bs s). rewrite EC.
  apply torn_then; [|intros; apply torn_wret].
  eapply torn_mono; [|apply eids_over; [exact Hok|exact HL|exact WA|exact WF|lia|]].
  - cbv beta. intros r ->. unfold ext_of. cbn [x_EIDArea Nat.sub].
    assert (HF : s + 40 + 32 * v2_eids L bs + 4 <= L) by (apply (fitting_room L (s + 40) 32); lia).
    rewrite <- (eids_win m buf) by (assumption || lia). reflexivity.
  - cbn [Nat.add]. exact H8.
Qed.

Lemma smcd_over y : smcdext_wf y -> has_smcd bs = true -> v2_smcd_room L bs -> 8 < v2_gids L bs ->
  torn (fun r => r = smcd_ext_of bs (v2_smcd_start L bs) 8 y)
    (smcd_v2_W m buf (hdr_of bs) L (v2_smcd_start L bs) (bits bs (8 * (v2_ext_start L bs + 1)) 8) y).
Proof.
  intros (W5 & W6 & WA) HE HR H8. pose proof (len_le_cap _ _ Hok) as Hcap.
  pose proof (s_bytes_length m buf Hok) as Hb. specialize (HR HE).
  unfold smcd_v2_W, SMCTypeD, SMCTypeB, has_smcd in *. rewrite hdr_pathv2 by lia. rewrite HE.
  set (s := v2_smcd_start L bs) in *.
  unfold short, SMCDv2ExtLen, TrailerLen, EyecatcherLen. change (48 + 4) with 52.
  destruct (L <? s + 52) eqn:E; [exfalso; lia|].
  destruct y as [a1 a2 area]. cbn in W5, W6, WA.
  repeat step_at.
  rewrite !app_nil_bytes.
  replace (s + 32 + 16) with (s + 48) by lia.
  replace (s + 32 - s) with 32 by lia. replace (s + 48 - (s + 32)) with 16 by lia.
  apply torn_then; [|intros; apply torn_wret].
  eapply torn_mono; [|apply gids_over; [exact Hok|exact HL|exact WA|lia|]].
  - cbv beta. intros r ->. unfold smcd_ext_of. cbn [y_GIDArea Nat.sub].
    assert (HF : s + 48 + 10 * v2_gids L bs + 4 <= L) by (apply (fitting_room L (s + 48) 10); lia).
    rewrite <- (gids_win m buf) by (assumption || lia). reflexivity.
  - cbn [Nat.add]. exact H8.
Qed.

(** the part in front of the extension *)
Lemma ip_done ip : ipinfo_wf ip -> v2_ip_room L bs ->
  WriteFacts.res pair (ip_area_v2_W m buf (hdr_of bs) L 80 ip) =
  (v2_prefix_log L bs, Done (Some (v2_ext_start L bs),
     if has_ip bs then ip_of bs 80 (v2_prefixes L bs) ip else ip)).
Proof.
  intros Hi HR. rewrite WriteFacts.ip_area_v2_agrees, ip_stage by (assumption || lia).
  unfold v2_prefix_log, v2_ext_start. unfold v2_ip_room in HR. destruct (has_ip bs); [|reflexivity].
  specialize (HR eq_refl). rewrite (proj2 (Nat.ltb_ge L 92)) by lia.
  rewrite bind_done. cbn [fst snd ret]. rewrite app_nil_r. reflexivity.
Qed.

Lemma ext_done x : v2ext_wf x -> has_ext bs = true -> v2_ext_room L bs -> v2_eids L bs <= 8 ->
  WriteFacts.res pair (ext_v2_W m buf (hdr_of bs) L (v2_ext_start L bs) x) =
  (v2_eid_log L bs, Done (Some (v2_smcd_start L bs), ext_of bs (v2_ext_start L bs) (v2_eids L bs) x)).
Proof.
  intros Hx HE HR H8. rewrite WriteFacts.ext_v2_agrees. rewrite ext_stage by (assumption || lia).
  unfold v2_eid_log. unfold v2_ext_room in HR. specialize (HR HE). rewrite HE.
  rewrite (proj2 (Nat.ltb_ge L _)) by lia. rewrite (proj2 (Nat.ltb_ge 8 _)) by lia.
  rewrite bind_done. cbn [fst snd ret]. rewrite app_nil_r. reflexivity.
Qed.

Context (old : ProposalV2) (Hwf : proposalv2_wf old).
Context (R1 : v2_ip_room L bs) (HE : has_ext bs = true) (R2 : v2_ext_room L bs).

Local Notation ip1 := (if has_ip bs then ip_of bs 80 (v2_prefixes L bs) (p2_IP old) else p2_IP old).

Lemma eids_run : 8 < v2_eids L bs ->
  ProposalV2_W m buf old = (v2_prefix_log L bs, Panicked,
    p2_of m buf ip1 (ext_of bs (v2_ext_start L bs) 8 (p2_Ext old)) (p2_SMCD old) (p2_Trailer old)).
Proof.
  intros H8. pose proof (s_bytes_length m buf Hok) as Hb.
  pose proof Hwf as (Hwf1 & Hwf2 & Hwf3 & Hwf4 & Hwf5 & Hwf6 & Hwf7).
  apply run_of_torn.
  - rewrite WriteFacts.ProposalV2_agrees. rewrite ProposalV2_Parse_run by (assumption || lia).
    unfold p2_run. cbv zeta. rewrite (proj2 (Nat.ltb_ge L 84)) by lia.
    rewrite !guard_room by assumption. rewrite HE. rewrite (proj2 (Nat.ltb_lt 8 _)) by lia. reflexivity.
  - apply ProposalV2_to_rest; [assumption|assumption|lia|assumption|].
    unfold v2_rest_W. eapply torn_done; [apply ip_done; assumption|].
    apply torn_stop.
    + rewrite WriteFacts.ext_v2_agrees. cbn [p2_fixed set_p2_IP p2_Ext].
      change (p2_Ext (set_p2_IP ip1 (p2_fixed buf bs old))) with (p2_Ext old).
      rewrite ext_stage by (assumption || lia). unfold v2_ext_room in R2. specialize (R2 HE). rewrite HE.
      rewrite (proj2 (Nat.ltb_ge L _)) by lia. rewrite (proj2 (Nat.ltb_lt 8 _)) by lia. reflexivity.
    + change (p2_Ext (set_p2_IP ip1 (p2_fixed buf bs old))) with (p2_Ext old).
      eapply torn_mono; [|apply ext_over; assumption]. cbv beta. intros r ->. reflexivity.
Qed.

Lemma gids_run : v2_eids L bs <= 8 -> has_smcd bs = true -> v2_smcd_room L bs -> 8 < v2_gids L bs ->
  ProposalV2_W m buf old = (v2_prefix_log L bs ++ v2_eid_log L bs, Panicked,
    p2_of m buf ip1 (ext_of bs (v2_ext_start L bs) (v2_eids L bs) (p2_Ext old))
      (smcd_ext_of bs (v2_smcd_start L bs) 8 (p2_SMCD old)) (p2_Trailer old)).
Proof.
  intros E8 HS R3 H8. pose proof (s_bytes_length m buf Hok) as Hb.
  pose proof Hwf as (Hwf1 & Hwf2 & Hwf3 & Hwf4 & Hwf5 & Hwf6 & Hwf7).
  assert (HG : x_GIDNumber (ext_of bs (v2_ext_start L bs) (v2_eids L bs) (p2_Ext old))
    = bits bs (8 * (v2_ext_start L bs + 1)) 8).
  { cbn [ext_of x_GIDNumber]. apply bn_bits. unfold v2_ext_room in R2. specialize (R2 HE). lia. }
  apply run_of_torn.
  - rewrite WriteFacts.ProposalV2_agrees. rewrite ProposalV2_Parse_run by (assumption || lia).
    unfold p2_run. cbv zeta. rewrite (proj2 (Nat.ltb_ge L 84)) by lia.
    rewrite !guard_room by assumption. unfold v2_eid_log. rewrite HE, HS.
    rewrite (proj2 (Nat.ltb_ge 8 (v2_eids _ _))) by lia.
    rewrite (proj2 (Nat.ltb_lt 8 (v2_gids _ _))) by lia. reflexivity.
  - apply ProposalV2_to_rest; [assumption|assumption|lia|assumption|].
    unfold v2_rest_W. eapply torn_done; [apply ip_done; assumption|].
    eapply torn_done; [apply ext_done; assumption|]. apply torn_get. cbv beta.
    set (r := set_p2_Ext _ _).
    assert (EX : p2_Ext r = ext_of bs (v2_ext_start L bs) (v2_eids L bs) (p2_Ext old)) by reflexivity.
    assert (EY : p2_SMCD r = p2_SMCD old) by reflexivity.
    apply torn_stop.
    + rewrite WriteFacts.smcd_v2_agrees. rewrite EX, EY.
      rewrite smcd_stage; [|lia || assumption..|intros _; exact HG|].
      2: { right. unfold v2_ext_room in R2. specialize (R2 HE). lia. }
      rewrite HS. unfold v2_smcd_room in R3. specialize (R3 HS).
      rewrite (proj2 (Nat.ltb_ge L _)) by lia. rewrite (proj2 (Nat.ltb_lt 8 _)) by lia. reflexivity.
    + rewrite EX, EY, HG. eapply torn_mono; [|apply smcd_over; assumption]. cbv beta. intros x ->. reflexivity.
Qed.
End v2.

(** ** v1 Proposals *)

Definition p1_torn (m : mem) (buf : slice) (old : Proposal) : Proposal :=
  let bs := s_bytes m buf in
  mkProposal buf (hdr_of bs) (seg bs 8 8) (seg bs 16 16) (seg bs 32 6) (num bs 38 2) (num bs 40 8)
    (p_reserved old) (p_IP old) (p_Trailer old).

Lemma proposal_run m buf old : slice_ok m buf -> proposal_wf old ->
  let bs := s_bytes m buf in
  let L := N.to_nat (declared bs) in
  52 <= L -> L <= s_len buf -> ip_area_offset bs = 40%N -> s_cap buf < 80 ->
  Proposal_W m buf old = ([], Panicked, p1_torn m buf old).
Proof.
  intros Hok Hwf bs L H52 HL HO HC. pose proof (len_le_cap _ _ Hok) as Hcap.
  pose proof (s_bytes_length m buf Hok) as Hb.
  assert (EO : num bs 38 2 = 40%N).
  { transitivity (ip_area_offset bs); [|exact HO]. unfold bs.
    rewrite <- (p1_off_win m buf Hok) by lia. unfold p1_off, num.
    rewrite win_split by (assumption || lia). reflexivity. }
  apply run_of_torn.
  - rewrite WriteFacts.Proposal_agrees, Proposal_Parse_run by assumption. unfold p1_run. cbv zeta.
    fold bs. fold L. rewrite (proj2 (Nat.ltb_ge (s_len buf) 8)) by lia.
    rewrite (proj2 (Nat.ltb_ge L 52)) by lia. rewrite (proj2 (Nat.ltb_ge (s_cap buf) 40)) by lia.
    rewrite (p1_off_win m buf Hok) by lia. fold bs. rewrite HO.
    rewrite (proj2 (Nat.ltb_lt (s_cap buf) 80)) by lia. reflexivity.
  - destruct Hwf as (Hwf1 & Hwf2 & Hwf3 & Hwf4 & Hwf5). unfold Proposal_W.
    destruct old as [? ? ? ? ? ? ? ? ? ?].
    cbn in Hwf1, Hwf2, Hwf3, Hwf5. apply torn_change. receiver.
    apply (Header_step m buf []); [exact Hok|exact Hwf1|intros h (T & _); exfalso; lia|intros T].
    receiver. apply torn_get. receiver. the_length m buf (@nil byte) Hok T.
    destruct (declared (s_bytes m buf) <? ProposalLen)%N eqn:E.
    { exfalso. unfold ProposalLen in E. unfold L, bs in H52. lia. }
    unfold HeaderLen, PeerIDLen. cbn [Nat.add]. torn_steps buf Hok (@nil byte).
    rewrite !app_nil_bytes. unfold smcd_v1_W, SMCDIPAreaOffset. apply torn_assoc, torn_get. cbv beta.
    cbn [ClcModel.p_IPAreaOffset]. fold bs. rewrite EO, N.eqb_refl. unfold assign.
    apply torn_assoc, torn_assoc. rewrite (sub_self buf) at 1. rewrite (be64_sub m buf Hok) by lia.
    apply torn_ret, torn_change. cbv zeta. apply torn_assoc. unfold copyto. apply torn_assoc.
    rewrite (sub_self buf) at 1. rewrite reslice_sub_panic by lia. apply torn_panic.
    unfold p1_torn. fold bs. rewrite EO, be_acc0. cbn [Nat.add]. unfold num.
    rewrite !win_split by (assumption || lia). reflexivity.
Qed.

(** ** In terms of the message *)

Lemma put_all {A} (area new : list A) : length new = length area -> put area 0 new = new.
Proof. intros H. unfold put. rewrite skipn_all2 by (cbn; lia). apply app_nil_r. Qed.

Lemma wf_v2 old : reachable (MProposalV2 old) -> proposalv2_wf old.
Proof. intros H. exact (ClcMessage.reachable_wf _ H). Qed.

Lemma wf_v1 old : reachable (MProposal old) -> proposal_wf old.
Proof. intros H. exact (ClcMessage.reachable_wf _ H). Qed.

Lemma eids_object m buf old : slice_ok m buf -> reachable (MProposalV2 old) ->
  let bs := s_bytes m buf in
  let L := N.to_nat (declared bs) in
  84 <= L -> L <= s_len buf -> v2_ip_room L bs -> has_ext bs = true -> v2_ext_room L bs ->
  8 < v2_eids L bs ->
  exists p, Message_W m buf (MProposalV2 old) = (v2_prefix_log L bs, Panicked, MProposalV2 p) /\
    proposalv2_view p = decode (clc_header_v2proposal ++ proposalv2_body) bs /\
    v2_ip_decoded L bs old p /\
    v2_extension_view (p2_Ext p) = decode_at v2_extension_body (8 * v2_ext_start L bs) bs /\
    x_EIDArea (p2_Ext p)
      = map (fun k => bytes_at bs (v2_ext_start L bs + 40 + 32 * k) 32) (seq 0 8) /\
    p2_SMCD p = p2_SMCD old /\ p2_Trailer p = p2_Trailer old /\
    p2_Raw p = buf.
Proof.
  intros Hok Hr bs L H84 HL R1 HE R2 H8. pose proof (wf_v2 _ Hr) as Hwf.
  pose proof (s_bytes_length m buf Hok) as Hb. change (length bs = s_len buf) in Hb.
  pose proof (R2 HE) as R2'.
  eexists. split.
  { cbn [Message_W]. unfold inside. rewrite (eids_run m buf) by assumption. reflexivity. }
  split; [apply p2_fixed_view; [assumption|lia]|].
  split; [apply ip_part; assumption|].
  split; [apply ext_view; fold bs; fold L; lia|].
  split; [|repeat split].
  destruct Hwf as (_ & _ & _ & _ & (_ & _ & WA & _) & _).
  cbn [p2_of p2_Ext ext_of x_EIDArea]. rewrite put_all; [reflexivity|].
  unfold eids_of. rewrite map_length, seq_length. symmetry. exact WA.
Qed.

Lemma gids_object m buf old : slice_ok m buf -> reachable (MProposalV2 old) ->
  let bs := s_bytes m buf in
  let L := N.to_nat (declared bs) in
  84 <= L -> L <= s_len buf -> v2_ip_room L bs -> has_ext bs = true -> v2_ext_room L bs ->
  v2_eids L bs <= 8 -> has_smcd bs = true -> v2_smcd_room L bs -> 8 < v2_gids L bs ->
  exists p, Message_W m buf (MProposalV2 old)
            = (v2_prefix_log L bs ++ v2_eid_log L bs, Panicked, MProposalV2 p) /\
    proposalv2_view p = decode (clc_header_v2proposal ++ proposalv2_body) bs /\
    v2_ip_decoded L bs old p /\ v2_ext_decoded L bs old p /\
    smcdv2_extension_view (p2_SMCD p)
      = decode_at smcdv2_extension_body (8 * v2_smcd_start L bs) bs /\
    map gid_entry_view (y_GIDArea (p2_SMCD p))
      = entries gid_entry_body (v2_smcd_start L bs + 48) 10 8 bs /\
    p2_Trailer p = p2_Trailer old /\
    p2_Raw p = buf.
Proof.
  intros Hok Hr bs L H84 HL R1 HE R2 E8 HS R3 H8. pose proof (wf_v2 _ Hr) as Hwf.
  pose proof (s_bytes_length m buf Hok) as Hb. change (length bs = s_len buf) in Hb.
  pose proof (R3 HS) as R3'.
  eexists. split.
  { cbn [Message_W]. unfold inside. rewrite (gids_run m buf) by assumption. reflexivity. }
  split; [apply p2_fixed_view; [assumption|lia]|].
  split; [apply ip_part; assumption|].
  split.
  { eassert (X : v2_ext_decoded L bs old (p2_of m buf _ _ _ _)) by (apply ext_part; assumption).
    cbv zeta in X. fold bs in X. rewrite HE in X. exact X. }
  split; [apply smcd_ext_view|].
  split; [|repeat split].
  destruct Hwf as (_ & _ & _ & _ & _ & (_ & _ & WA) & _).
  cbn [p2_of p2_SMCD smcd_ext_of y_GIDArea]. rewrite put_all.
  - apply gids_view. fold bs. fold L.
    assert (HF : v2_smcd_start L bs + 48 + 10 * v2_gids L bs + 4 <= L)
      by (apply (fitting_room L (v2_smcd_start L bs + 48) 10); lia).
    lia.
  - unfold gids_of. rewrite map_length, seq_length. symmetry. exact WA.
Qed.

Lemma proposal_object m buf old : slice_ok m buf -> reachable (MProposal old) ->
  let bs := s_bytes m buf in
  let L := N.to_nat (declared bs) in
  52 <= L -> L <= s_len buf -> ip_area_offset bs = 40%N -> s_cap buf < 80 ->
  exists p, Message_W m buf (MProposal old) = ([], Panicked, MProposal p) /\
    proposal_view p = decode (clc_header ++ proposal_body) bs /\
    p_SMCDGID p = bits bs 320 64 /\
    p_reserved p = p_reserved old /\ p_IP p = p_IP old /\ p_Trailer p = p_Trailer old /\
    p_Raw p = buf.
Proof.
  intros Hok Hr bs L H52 HL HO HC. pose proof (wf_v1 _ Hr) as Hwf.
  pose proof (s_bytes_length m buf Hok) as Hb. change (length bs = s_len buf) in Hb.
  eexists. split.
  { cbn [Message_W]. unfold inside. rewrite (proposal_run m buf) by assumption. reflexivity. }
  split.
  { pose proof (p1_fixed_view bs old buf (p_IP old) (p_Trailer old)) as V. apply V. lia. }
  split; [|repeat split].
  cbn [p1_torn p_SMCDGID]. fold bs. unfold num. symmetry. apply bits_bytes; lia.
Qed.

(** ** Examples *)

(** nine EIDs: 32 times 01, 32 times 02, ... *)
Definition nine_eids : list byte :=
  hexs "e2d4c3d901019c22" ++ repeat x00 72 ++ [x09] ++ repeat x00 39
  ++ flat_map (fun b => repeat b 32) (hexs "010203040506070809") ++ hexs "e2d4c3d9".

(** nine GIDs: 01 ... 09, with VCHIDs 0101 ... 0909 *)
Definition nine_gids : list byte :=
  hexs "e2d4c3d901010626" ++ repeat x00 72 ++ [x00; x09] ++ repeat x00 38
  ++ hexs "53454944" ++ repeat x00 44
  ++ flat_map (fun b => repeat x00 7 ++ [b; b; b]) (hexs "010203040506070809") ++ hexs "e2d4c3d9".

Definition left_v1 (bs : list byte) : Message :=
  snd (Message_W (mem1 bs) (slice1 bs) (fresh KProposal)).

Lemma no_others m buf old l new : slice_ok m buf -> reachable old ->
  let bs := s_bytes m buf in
  let L := N.to_nat (declared bs) in
  8 <= s_len buf -> L <= s_len buf ->
  Message_W m buf old = (l, Panicked, new) ->
  match old with
  | MProposal _ => 52 <= L /\ ip_area_offset bs = 40%N /\ s_cap buf < 80
  | MProposalV2 _ =>
    84 <= L /\ v2_ip_room L bs /\ has_ext bs = true /\ v2_ext_room L bs /\
    (8 < v2_eids L bs \/
     (v2_eids L bs <= 8 /\ has_smcd bs = true /\ v2_smcd_room L bs /\ 8 < v2_gids L bs))
  | _ => False
  end.
Proof.
  intros Hok Hr bs L H8 HL E. pose proof (ClcMessage.reachable_wf _ Hr) as Hwf.
  pose proof (RecoverFacts.clc_run m buf old) as S. rewrite E in S. cbn [same_run] in S.
  pose proof (ClcMessage.Message_fixed_complete m old buf Hok Hwf) as F.
  destruct old as [p|p|a|a|a|c|c|c|d|d].
  1: { apply (ClcMessage.Message_proposal_panics m buf p Hok Hwf H8 HL). rewrite S. reflexivity. }
  1: { apply (ClcMessage.Message_proposalv2_panics m buf p Hok Hwf H8 HL). rewrite S. reflexivity. }
  all: destruct (F eq_refl H8 HL) as (l1 & n1 & F1); rewrite S in F1; discriminate.
Qed.

Lemma proposal_example :
  let bs := ClcRefute.bad_proposal in
  N.to_nat (declared bs) = 52 /\ length bs = 52 /\ ip_area_offset bs = 40%N /\
  Message_W (mem1 bs) (slice1 bs) (fresh KProposal) = ([], Panicked, left_v1 bs) /\
  trailer_of (left_v1 bs) = zeros 4.
Proof. vm_compute. repeat split. Qed.

Lemma eids_example :
  let bs := nine_eids in
  let L := N.to_nat (declared bs) in
  (L =? length bs) && (84 <=? L) && (92 <=? L) && has_ext bs && (v2_ext_start L bs + 44 <=? L)
    && (8 <? v2_eids L bs) = true /\
  exists p, Message_W (mem1 bs) (slice1 bs) (fresh KProposalV2) = ([], Panicked, MProposalV2 p) /\
    x_EIDNumber (p2_Ext p) = 9%N /\
    x_EIDArea (p2_Ext p) = map (fun b => repeat b 32) (hexs "0102030405060708").
Proof. split; [vm_compute; reflexivity|]. eexists. split; [vm_compute; reflexivity|]. vm_compute. auto. Qed.

Lemma gids_example :
  let bs := nine_gids in
  let L := N.to_nat (declared bs) in
  (L =? length bs) && (84 <=? L) && (92 <=? L) && has_ext bs && (v2_ext_start L bs + 44 <=? L)
    && (v2_eids L bs <=? 8) && has_smcd bs && (v2_smcd_start L bs + 52 <=? L)
    && (8 <? v2_gids L bs) = true /\
  exists p, Message_W (mem1 bs) (slice1 bs) (fresh KProposalV2) = ([], Panicked, MProposalV2 p) /\
    x_GIDNumber (p2_Ext p) = 9%N /\
    map (fun g => (g_GID g, g_VCHID g)) (y_GIDArea (p2_SMCD p))
    = [(1, 257); (2, 514); (3, 771); (4, 1028); (5, 1285); (6, 1542); (7, 1799); (8, 2056)]%N.
Proof. split; [vm_compute; reflexivity|]. eexists. split; [vm_compute; reflexivity|]. vm_compute. auto. Qed.
