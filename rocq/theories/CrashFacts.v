(** * CrashFacts: results and examples for PropsCrash.v. Proofs only. *)

From Coq Require Import NArith ZArith Bool String Ascii Arith List Lia.
From Coq Require Import ZifyBool ZifyNat ZifyN.
From Verif Require Import GoBase GoFmt ClcModel LlcModel RoceModel WriteModel LlcWriteModel Slices Samples Wire
  WireLemmas ClcView LlcView Steps ClcProposal ClcProposalV2Any ClcMessage ClcAccepted Partial Recover Areas Accepted Spare Crash
  Witness.
From Verif Require Keep SpareFacts SpareClc SpareLlc CrashHeader CrashLogs RecoverFacts LlcMessage LlcParse LlcExamples PartialFacts
  AreasFacts RecoverSteps RecoverRaw RoceParse SpareSteps WriteFacts.
Import ListNotations.
Local Open Scope nat_scope.

(** ** When Parse panics *)

Lemma panics_iff m buf old : slice_ok m buf -> message_wf old ->
  (snd (Message_Parse m old buf) = Panicked <-> panics (kind_of old) m buf).
Proof.
  intros Hok Hwf. pose proof (s_bytes_length m buf Hok) as Hl. pose proof (win_length m buf Hok) as Hw.
  change (win m buf) with (reach m buf) in Hw. pose proof (len_le_cap _ _ Hok) as Hc.
  destruct (is_proposal (kind_of old)) eqn:K.
  2: { rewrite (proj1 (Message_fixed_panics m old buf Hok Hwf K)). unfold panics. rewrite Hl, Hw.
       destruct old; try discriminate; reflexivity. }
  assert (MB : forall A B (f : A -> B) (x : M A), snd (bind x (fun y => ret (f y))) = Panicked <-> snd x = Panicked).
  { intros A B f [l [a| |]]; cbn; split; congruence. }
  destruct old as [p|p| | | | | | | |]; try discriminate; cbn [Message_Parse kind_of message_wf] in *; rewrite MB;
    unfold panics, gives_up; cbn [min_length]; rewrite orb_false_r.
  - pose proof (proj1 (Proposal_panics m buf p Hok Hwf)) as P. cbv zeta in P. fold (reach m buf) in P. rewrite P. clear P.
    unfold v1_panics. rewrite Hl, Hw. set (L := N.to_nat (declared (s_bytes m buf))).
    replace (declared (s_bytes m buf) <? 52)%N with (L <? 52) by (unfold L; lia).
    destruct (L <? 52) eqn:E1; [lia|]. destruct (L <? ip_area_start (reach m buf) + 12) eqn:E2; lia.
  - pose proof (proj1 (ProposalV2_panics m buf p Hok Hwf)) as P. cbv zeta in P. fold (reach m buf) in P. rewrite P. clear P.
    unfold v2_panics. rewrite Hl, Hw. set (L := N.to_nat (declared (s_bytes m buf))).
    replace (declared (s_bytes m buf) <? 84)%N with (L <? 84) by (unfold L; lia).
    destruct (L <? 84) eqn:E1; [lia|].
    assert (ES : has_ip (reach m buf) = true -> v2_ext_start L (reach m buf) = 88 + 17 * v2_prefixes L (reach m buf))
      by (unfold v2_ext_start; intros ->; reflexivity).
    assert (SS : v2_smcd_start L (reach m buf) = v2_ext_start L (reach m buf) + 40 + 32 * v2_eids L (reach m buf)) by reflexivity.
    set (es := v2_ext_start L (reach m buf)) in *. set (ss := v2_smcd_start L (reach m buf)) in *.
    destruct (L <? 92) eqn:E2, (L <? es + 44) eqn:E3, (L <? ss + 52) eqn:E4; intuition lia.
Qed.

(** ** CLC messages *)

Lemma clc_crashed m buf old l new : slice_ok m buf -> reachable old ->
  Message_W m buf old = (l, Panicked, new) -> crashed m buf old l new.
Proof.
  intros Hok Hr E. pose proof (reachable_wf _ Hr) as Hwf. unfold crashed.
  split.
  { pose proof (RecoverFacts.clc_run m buf old) as S. rewrite E in S. cbn in S.
    exact (CrashLogs.Message_dies m buf old Hok Hwf l S). }
  split; [exact (SpareFacts.clc m buf old l new Hok Hr E)|].
  split.
  { pose proof (CrashHeader.Message_header m buf old) as H. rewrite E in H. cbn [snd] in H. rewrite H.
    apply CrashHeader.Header_left; [exact Hok|]. destruct old; apply Hwf. }
  pose proof (Keep.Message_W_kind m buf old l Panicked new E) as K.
  destruct old as [p|p|a|a|a|c|c|c|d|d], new as [p'|p'|a'|a'|a'|c'|c'|c'|d'|d']; try discriminate K; try exact I.
  - exact (SpareFacts.proposal m buf p l p' Hok Hr E).
  - exact (SpareFacts.proposalv2 m buf p l p' Hok Hr E).
  - pose proof (CrashHeader.Decline_os m buf d) as O. cbn [Message_W] in E. unfold inside in E.
    destruct (Decline_W m buf d) as [[l1 o1] d1]. injection E as <- -> ->. exact O.
Qed.

Lemma BE_unique n a b x : length a = n -> length b = n -> BE a = x -> BE b = x -> a = b.
Proof. intros H1 H2 H3 H4. apply BE_inj; congruence. Qed.

Lemma declinev2_left_unique back n o a b : declinev2_left back n o a -> declinev2_left back n o b ->
  d2_OSType a = d2_OSType b /\ d2_reserved a = d2_reserved b.
Proof.
  unfold declinev2_left. destruct (_ || _); [intros [] []; split; congruence|].
  destruct (n =? 20); [intros [] []; split; congruence|].
  intros (O1 & L1 & B1) (O2 & L2 & B2). split; [congruence|]. eapply BE_unique; eassumption.
Qed.

Lemma ip_after_unique L back n start o a b : ip_after L back n start o a -> ip_after L back n start o b -> a = b.
Proof.
  intros (V1 & l1 & A1 & B1) (V2 & l2 & A2 & B2). rewrite <- B2 in B1. apply ipv6_prefix_view_inj in B1. subst l2.
  apply ip_inj; congruence.
Qed.

Lemma ext_after_unique L back n o a b : ext_after L back n o a -> ext_after L back n o b -> a = b.
Proof. intros (V1 & A1) (V2 & A2). apply ext_inj; congruence. Qed.

Lemma smcd_after_unique L back n o a b : smcd_after L back n o a -> smcd_after L back n o b -> a = b.
Proof.
  unfold smcd_after. cbv zeta. intros (V1 & l1 & r1 & A1 & B1 & C1) (V2 & l2 & r2 & A2 & B2 & C2).
  rewrite <- B2 in B1. apply gid_view_inj in B1. subst l2.
  assert (r1 = r2) as ->.
  { destruct (_ <? _); [|congruence]. destruct (skipn _ _) as [|e t]; [destruct C1|].
    destruct r1 as [|e1 t1]; [destruct C1|]. destruct r2 as [|e2 t2]; [destruct C2|].
    destruct C1 as [C1 ->], C2 as [C2 ->]. rewrite <- C2 in C1. f_equal.
    assert ([e1] = [e2]) as [= ->] by (apply gid_view_inj; cbn [map]; congruence). reflexivity. }
  apply smcdext_inj; congruence.
Qed.

Lemma v1_after_unique back n o a b : v1_after back n o a -> v1_after back n o b ->
  proposal_smcd_view a = proposal_smcd_view b /\ p_IP a = p_IP b.
Proof.
  unfold v1_after. cbv zeta. intros [S1 I1] [S2 I2]. split.
  - destruct (_ && _); congruence.
  - clear S1 S2. destruct (_ && _); [eapply ip_after_unique; eassumption|congruence].
Qed.

Lemma v2_after_unique back n o a b : v2_after back n o a -> v2_after back n o b ->
  p2_IP a = p2_IP b /\ p2_Ext a = p2_Ext b /\ p2_SMCD a = p2_SMCD b.
Proof.
  unfold v2_after. cbv zeta. intros (I1 & X1 & S1) (I2 & X2 & S2). split; [|split].
  - clear X1 X2 S1 S2. destruct (_ && _); [eapply ip_after_unique; eassumption|congruence].
  - clear I1 I2 S1 S2. destruct (_ && _); [eapply ext_after_unique; eassumption|congruence].
  - clear X1 X2 I1 I2. destruct (_ && _); [eapply smcd_after_unique; eassumption|congruence].
Qed.

Lemma app_both_inj {A} (a b c d : list A) : length a = length b -> a ++ c = b ++ d -> a = b /\ c = d.
Proof.
  revert b. induction a as [|x a IH]; intros [|y b]; cbn; intros H E; try discriminate; [auto|].
  injection E as -> E. injection H as H. destruct (IH b H E) as [-> ->]. auto.
Qed.

Lemma crashed_unique m buf old l1 n1 l2 n2 :
  crashed m buf old l1 n1 -> crashed m buf old l2 n2 -> l1 = l2 /\ n1 = n2.
Proof.
  unfold crashed, left_behind, header_left. cbv zeta.
  intros (-> & (R1 & T1 & B1) & (V1 & P1) & A1) (-> & (R2 & T2 & B2) & (V2 & P2) & A2). split; [reflexivity|].
  assert (H : header_of n1 = header_of n2) by (apply header_view_inj; congruence). clear V1 V2 P1 P2.
  assert (R : raw_of n1 = raw_of n2) by congruence. clear R1 R2.
  assert (T : trailer_of n1 = trailer_of n2) by congruence. clear T1 T2.
  destruct (_ || _).
  2: { destruct B1 as (h1 & _ & E1), B2 as (h2 & _ & E2). rewrite E1, E2 in H. rewrite !header_of_with in H. congruence. }
  destruct B1 as [B1 D1], B2 as [B2 D2].
  assert (V : spare_view n1 = spare_view n2) by congruence. clear B1 B2.
  destruct old as [o|o|o|o|o|o|o|o|o|o], n1 as [a|a|a|a|a|a|a|a|a|a]; try contradiction;
    destruct n2 as [b|b|b|b|b|b|b|b|b|b]; try contradiction;
    cbn [header_of raw_of trailer_of spare_view read_view] in *; f_equal.
  - destruct (v1_after_unique _ _ _ _ _ A1 A2). apply proposal_inj; congruence.
  - destruct (v2_after_unique _ _ _ _ _ A1 A2) as (? & ? & ?). apply proposalv2_inj; congruence.
  - apply smcr_inj; congruence.
  - apply smcd_inj; congruence.
  - apply app_both_inj in V; [|reflexivity]. destruct V. apply smcdv2_inj; congruence.
  - destruct a as [a], b as [b]. f_equal. cbn [cr_Accept] in *. apply smcr_inj; congruence.
  - destruct a as [a], b as [b]. f_equal. cbn [cd_Accept] in *. apply smcd_inj; congruence.
  - destruct a as [a], b as [b]. f_equal. cbn [c2_Accept] in *.
    apply app_both_inj in V; [|reflexivity]. destruct V. apply smcdv2_inj; congruence.
  - apply decline_inj; congruence.
  - destruct (declinev2_left_unique _ _ _ _ _ D1 D2) as [O1 O2]. apply app_both_inj in V; [|reflexivity].
    destruct V as [_ V]. destruct a, b. cbn in *. injection V as -> ->. subst. reflexivity.
Qed.

Theorem clc_parses m buf old logs o new : slice_ok m buf -> reachable old ->
  (Message_W m buf old = (logs, o, new) <-> parses m buf old logs o new).
Proof.
  intros Hok Hr. pose proof (reachable_wf _ Hr) as Hwf. pose proof (panics_iff m buf old Hok Hwf) as HP.
  pose proof (RecoverFacts.clc_run m buf old) as S. pose proof (Message_no_exit m old buf Hok Hwf) as NE.
  unfold parses. split.
  - intros E. rewrite E in S. destruct o as [[]| |]; cbn in S.
    + rewrite <- HP, S. split; [discriminate|]. apply (Message_accepts m buf old logs new Hok Hr) in S. apply S.
    + rewrite <- HP, S. split; [reflexivity|]. apply (clc_crashed m buf old logs new Hok Hr E).
    + rewrite S in NE. apply NE. reflexivity.
  - destruct o as [[]| |]; [|intros [P C]|intros []].
    + intros (NP & A). rewrite <- HP in NP.
      assert (E : Message_Parse m old buf = (logs, Done new)) by (apply Message_accepts; tauto).
      destruct (Message_W m buf old) as [[l1 [[]| |]] n1]; cbn in S; rewrite E in S; congruence.
    + apply HP in P. destruct (Message_W m buf old) as [[l1 [[]| |]] n1] eqn:E; cbn in S; rewrite S in P; try discriminate P.
      pose proof (clc_crashed m buf old l1 n1 Hok Hr E) as C1.
      destruct (crashed_unique m buf old l1 n1 logs new C1 C) as [-> ->]. reflexivity.
Qed.

(** ** LLC messages *)

Lemma b_inj a b : b_Raw a = b_Raw b -> b_Type a = b_Type b -> b_Length a = b_Length b -> a = b.
Proof. destruct a, b. cbn. congruence. Qed.

Lemma bit_inj a b : bit a = bit b -> a = b.
Proof. destruct a, b; try reflexivity; discriminate. Qed.

Ltac lists :=
  repeat match goal with
  | H : length ?l = S _ |- _ => is_var l; destruct l; [discriminate H|cbn [length] in H; apply Nat.succ_inj in H]
  | H : length ?l = 0 |- _ => is_var l; destruct l; [clear H|discriminate H]
  end.

Lemma VN_inj a b : VN a = VN b -> a = b.
Proof. congruence. Qed.

Lemma VB_inj a b : VB a = VB b -> a = b.
Proof. congruence. Qed.

Ltac same_fields :=
  repeat match goal with
  | H : VN _ = VN _ |- _ => apply VN_inj in H
  | H : VB _ = VB _ |- _ => apply VB_inj in H
  | H : bit _ = bit _ |- _ => apply bit_inj in H
  end; subst.

Lemma views_inj {A} (a b : A) (v w : list A) : a :: v = b :: w -> a = b /\ v = w.
Proof. intros [= -> ->]. auto. Qed.

Ltac peel :=
  repeat match goal with
  | H : _ :: _ = _ :: _ |- _ => apply views_inj in H; destruct H as [? H]
  | H : (_, _) = (_, _) |- _ => apply pair_equal_spec in H; destruct H as [_ H]
  end.

Lemma llc_unique n1 n2 : llc_kind_of n1 = llc_kind_of n2 -> llc_wf n1 -> llc_wf n2 ->
  llc_raw_of n1 = llc_raw_of n2 -> llc_view n1 = llc_view n2 -> unsent n1 = unsent n2 ->
  match n1, n2 with
  | LOther a, LOther b => b_Type (o_Base a) = b_Type (o_Base b) /\ b_Length (o_Base a) = b_Length (o_Base b)
  | _, _ => True
  end -> n1 = n2.
Proof.
  destruct n1 as [a|a|a|a|a|a|a|a|a|a], n2 as [b|b|b|b|b|b|b|b|b|b]; try discriminate; intros _ W1 W2 R V U X;
    unfold llc_raw_of in R; cbn [llc_view llc_wf unsent] in *;
    unfold confirm_link_view, add_link_view, add_link_cont_view, delete_link_view, confirm_rkey_view,
      confirm_rkey_cont_view, delete_rkey_view, test_link_view, cdc_view, rkey_pair_view, rmb_spec_view in V; f_equal.
  - destruct a as [[]], b as [[]]. cbn -[bit] in *. peel. same_fields. reflexivity.
  - destruct a as [[]], b as [[]]. cbn -[bit firstn skipn] in *. peel. same_fields.
    f_equal. rewrite <- (firstn_skipn 8 al_res4), <- (firstn_skipn 8 al_res9). congruence.
  - destruct a as [[] ? ? ? ? ? ? l ?], b as [[] ? ? ? ? ? ? l' ?]. cbn -[bit] in *. destruct W1 as (_ & W1 & _), W2 as (_ & W2 & _).
    lists. repeat match goal with p : RKeyPair |- _ => destruct p end. cbn -[bit] in *. peel. same_fields. reflexivity.
  - destruct a as [[]], b as [[]]. cbn -[bit] in *. peel. same_fields. reflexivity.
  - destruct a as [[] ? ? ? ? ? ? ? ? ? l ?], b as [[] ? ? ? ? ? ? ? ? ? l' ?]. cbn -[bit] in *.
    lists. repeat match goal with p : RMBSpec |- _ => destruct p end. cbn -[bit] in *. peel. same_fields. reflexivity.
  - destruct a as [[] ? ? ? ? ? ? l ?], b as [[] ? ? ? ? ? ? l' ?]. cbn -[bit] in *.
    lists. repeat match goal with p : RMBSpec |- _ => destruct p end. cbn -[bit] in *. peel. same_fields. reflexivity.
  - destruct a as [[] ? ? ? ? ? ? ? ? l ?], b as [[] ? ? ? ? ? ? ? ? l' ?]. cbn -[bit] in *. destruct W1 as (_ & W1 & _), W2 as (_ & W2 & _).
    lists. cbn -[bit] in *. peel. same_fields. reflexivity.
  - destruct a as [[]], b as [[]]. cbn -[bit] in *. peel. same_fields. reflexivity.
  - destruct a as [[]], b as [[]]. cbn -[bit BE] in *. destruct W1 as (_ & _ & W1), W2 as (_ & _ & W2).
    assert (c_res4 = c_res7).
    { peel. same_fields. apply BE_inj; congruence. }
    peel. same_fields. reflexivity.
  - destruct a as [[]], b as [[]]. cbn in *. destruct X. congruence.
Qed.

Lemma AddLink_rest m buf old : slice_ok m buf -> llc_wf (LAddLink old) ->
  RecoverSteps.torn (fun new => al_res4 new = al_res4 old) (AddLink_W m buf old).
Proof.
  intros Hok Hwf. pose (z := zeros 45). clearbody z. cbn [llc_wf] in Hwf. destruct Hwf as [Hwf1 Hwf2].
  SpareLlc.start m buf AddLink_W. destruct old as [[? ? ?] ? ? ? ? ? ? ? ? ? ? ? ? ? ?].
  apply (SpareLlc.BaseMsg_spare m buf z); [exact Hok|intros L; RecoverSteps.receiver..].
  1,2: reflexivity.
  repeat SpareSteps.spare_step Hok z. all: reflexivity.
Qed.

Lemma unsent_kept m buf old l new : slice_ok m buf -> llc_wf old -> LLC_W m buf old = (l, Panicked, new) ->
  unsent new = unsent old.
Proof.
  intros Hok Hwf E. pose proof (Keep.LLC_W_kind m buf old l Panicked new E) as K.
  destruct old as [x|x|x|x|x|x|x|x|x|x], new as [y|y|y|y|y|y|y|y|y|y]; try discriminate K; try reflexivity.
  cbn [LLC_W unsent] in *. unfold linside in E. pose proof (AddLink_rest m buf x Hok Hwf) as T.
  unfold RecoverSteps.torn in T. destruct (AddLink_W m buf x) as [[l1 o1] x1]. injection E as -> -> ->.
  cbn [fst snd] in T. rewrite (T eq_refl). reflexivity.
Qed.

Lemma LAddLink_inj a b : LAddLink a = LAddLink b -> a = b.
Proof. congruence. Qed.

Lemma unsent_done bs old x : llc_wf (LAddLink old) -> LlcMessage.llc_of bs (LAddLink old) = LAddLink x ->
  unsent (LAddLink x) = firstn 2 (skipn 44 bs ++ skipn (length bs - 44) (unsent (LAddLink old))).
Proof.
  intros [_ W] E. cbn [LlcMessage.llc_of] in E. apply LAddLink_inj in E. subst x. cbn [unsent LlcParse.AddLink_of al_res4].
  unfold LlcParse.tail. replace (skipn 44 bs) with (skipn 8 (skipn 36 bs)) by (rewrite skipn_skipn; reflexivity).
  replace (length bs - 44) with (length (skipn 36 bs) - 8) by (rewrite skipn_length; lia).
  generalize (skipn 36 bs). intros s. revert W. generalize (al_res4 old). intros d W. lists.
  do 8 (destruct s; [reflexivity|]). destruct s as [|? [|? s]]; [reflexivity..|].
  unfold go_copy. cbn [length firstn skipn app Nat.sub]. rewrite ?skipn_nil. reflexivity.
Qed.

Theorem llc_parse m buf old logs o new : slice_ok m buf -> llc_reachable old ->
  (LLC_W m buf old = (logs, o, new) <-> llc_parses m buf old logs o new).
Proof.
  intros Hok Hr. pose proof (LlcMessage.llc_reachable_wf _ Hr) as Hwf.
  pose proof (RecoverFacts.llc_run m buf old) as S. pose proof (s_bytes_length m buf Hok) as Hl.
  assert (D : forall logs o new, LLC_W m buf old = (logs, o, new) -> llc_parses m buf old logs o new).
  { clear logs o new. intros logs o new E. unfold llc_parses. cbv zeta. rewrite Hl.
    pose proof (Keep.LLC_W_kind m buf old logs o new E) as K. pose proof (Keep.LLC_W_wf m buf old logs o new Hwf E) as W.
    assert (R : llc_raw_of new = s_bytes m buf) by exact (RecoverRaw.LLC_W_bytes m buf Hok old logs o new E).
    rewrite E in S. destruct (le_lt_dec (llc_min (llc_kind_of old)) (s_len buf)) as [L|L].
    - rewrite (LlcMessage.LLC_Parse_ok m buf old Hok Hwf L) in S. destruct o as [[]| |]; cbn in S; try discriminate.
      destruct (PartialFacts.LLC_incomplete m buf old Hok Hwf L) as (n & P & _ & _ & V & _).
      rewrite (LlcMessage.LLC_Parse_ok m buf old Hok Hwf L) in P.
      unfold ret in S, P. apply pair_equal_spec in S, P. destruct S as [<- S], P as [_ P].
      assert (n = new) as -> by congruence.
      assert (N : LlcMessage.llc_of (s_bytes m buf) old = new) by congruence. clear S P.
      split; [reflexivity|]. split; [exact K|]. split; [exact W|]. split; [exact R|]. split; [exact L|]. split; [exact V|].
      destruct new; try exact I; destruct old; try discriminate N.
      + rewrite <- Hl. apply unsent_done; assumption.
      + cbn [LlcMessage.llc_of] in N. injection N as <-. cbn [o_Base b_Type b_Length]. rewrite Hl. split; reflexivity.
    - rewrite (LlcMessage.LLC_Parse_panic m buf old Hok Hwf L) in S. destruct o as [[]| |]; cbn in S; try discriminate.
      unfold panic in S. apply pair_equal_spec in S. destruct S as [<- _].
      split; [reflexivity|]. split; [exact K|]. split; [exact W|]. split; [exact R|]. split; [exact L|]. split.
      + exact (SpareFacts.llc m buf old [] new Hok Hr E).
      + exact (unsent_kept m buf old [] new Hok Hwf E). }
  split; [apply D|]. intros P. destruct (LLC_W m buf old) as [[l1 o1] n1] eqn:E. specialize (D l1 o1 n1 eq_refl).
  unfold llc_parses in P, D. cbv zeta in P, D.
  destruct P as (-> & K & W & R & P), D as (-> & K1 & W1 & R1 & D).
  assert (O : o1 = o).
  { destruct o as [[]| |], o1 as [[]| |]; try reflexivity; try contradiction; exfalso; destruct D as [D _], P as [P _]; lia. }
  subst o1. f_equal. assert (K2 : llc_kind_of n1 = llc_kind_of new) by congruence.
  destruct o as [[]| |]; [| |destruct P].
  - destruct D as (_ & V1 & X1), P as (_ & V & X). apply llc_unique; try congruence.
    + destruct n1, new; try discriminate K2; try reflexivity. congruence.
    + destruct n1, new; try discriminate K2; try exact I. destruct X, X1. split; congruence.
  - destruct D as (L & V1 & X1), P as (_ & V & X). apply llc_unique; try congruence.
    destruct n1, new; try discriminate K2; try exact I. rewrite <- K1 in L. cbn [llc_kind_of llc_min] in L. lia.
Qed.

(** ** BTH *)

Lemma bth_inj a b : bth_Raw a = bth_Raw b -> bth_view a = bth_view b -> a = b.
Proof.
  intros R V. unfold bth_view in V. destruct a, b. cbn -[bit] in *. peel. same_fields. reflexivity.
Qed.

Theorem bth_parse m buf old logs o new : slice_ok m buf ->
  (BTH_W m buf old = (logs, o, new) <-> bth_parses m buf old logs o new).
Proof.
  intros Hok. pose proof (RecoverFacts.bth_run m buf old) as S. pose proof (s_bytes_length m buf Hok) as Hl.
  assert (D : forall logs o new, BTH_W m buf old = (logs, o, new) -> bth_parses m buf old logs o new).
  { clear logs o new. intros logs o new E. unfold bth_parses. cbv zeta. rewrite Hl.
    pose proof (RecoverRaw.BTH_W_bytes m buf Hok old) as R. rewrite E in S, R. cbn [snd] in R.
    destruct (le_lt_dec 12 (s_len buf)) as [L|L].
    - destruct (LlcExamples.BTH_decode m buf old Hok L) as (b & P & V & _). rewrite P in S.
      destruct o as [[]| |]; cbn in S; try discriminate. apply pair_equal_spec in S. destruct S as [<- S].
      assert (b = new) as -> by congruence. auto.
    - rewrite RoceParse.BTH_panic in S by assumption. destruct o as [[]| |]; cbn in S; try discriminate.
      unfold panic in S. apply pair_equal_spec in S. destruct S as [<- _].
      split; [reflexivity|]. split; [exact R|]. split; [exact L|]. exact (SpareFacts.bth m buf old [] new Hok E). }
  split; [apply D|]. intros P. destruct (BTH_W m buf old) as [[l1 o1] n1] eqn:E. specialize (D l1 o1 n1 eq_refl).
  unfold bth_parses in P, D. cbv zeta in P, D. destruct P as (-> & R & P), D as (-> & R1 & D).
  destruct o as [[]| |], o1 as [[]| |]; try contradiction; destruct P as [L V], D as [L1 V1]; try lia;
    f_equal; apply bth_inj; congruence.
Qed.

(** ** At most one line *)

Lemma fitting_full L q size n : 0 < size -> fitting L q size n < n -> L < q + size * fitting L q size n + size + 4.
Proof.
  unfold fitting. intros H0 H. rewrite Nat.min_r in * by lia.
  pose proof (Nat.mul_succ_div_gt (L - 4 - q) size ltac:(lia)). lia.
Qed.

Lemma too_many_none err L bs n c : n < c \/ too_many_log err L bs n c = [].
Proof. unfold too_many_log. destruct (n <? c) eqn:E; [left; lia|right; reflexivity]. Qed.

Lemma smcd_ext back : has_smcd back = true -> has_ext back = true.
Proof. unfold has_smcd, has_ext. lia. Qed.

Ltac few_lines := repeat match goal with |- context [if ?b then _ else _] => destruct b end; cbn; lia.

Lemma v2_one_line L back n : v2_panics L back n -> length (v2_last_words L back n) <= 1.
Proof.
  unfold v2_panics. cbv zeta. intros P. unfold v2_last_words, ext_last_words.
  pose proof (smcd_ext back) as SX.
  assert (W : length (smcd_last_words L back) <= 1).
  { unfold smcd_last_words. cbv zeta. few_lines. }
  assert (PF : has_ip back = true -> v2_prefixes L back < prefix_count back 80 -> L < v2_ext_start L back + 21).
  { intros I H. unfold v2_ext_start. rewrite I. unfold v2_prefixes in *. apply fitting_full in H; lia. }
  assert (EF : v2_eids L back < v2_eid_count L back -> L < v2_smcd_start L back + 36).
  { intros H. unfold v2_smcd_start. unfold v2_eids in *. apply fitting_full in H; lia. }
  unfold v2_ip_room, v2_ext_room in P.
  destruct (length back <? 80) eqn:E0; [cbn; lia|].
  assert (X : forall pre : list string, (pre = [] \/ (has_ip back = true /\ v2_prefixes L back < prefix_count back 80)) ->
    ~ (has_ip back = true /\
       (if L <? 92 then length back < L
        else n < v2_ext_start L back \/ v2_prefixes L back < prefix_count back 80 /\ length back < L)) ->
    (has_ip back = true -> 92 <= L) ->
    (v2_prefixes L back < prefix_count back 80 -> has_ip back = true -> L <= length back) ->
    length (pre ++
      (if L <? v2_ext_start L back + 44 then ["Error parsing CLC Proposal v2: Not enough space for Proposal v2 Extension"%string]
       else if (n <? v2_ext_start L back + 4) || (length back <? v2_smcd_start L back) || (8 <? v2_eids L back) then []
       else if (v2_eids L back <? v2_eid_count L back) && (length back <? L) then
         ["Error parsing CLC Proposal v2: EID number too big"%string]
       else v2_eid_log L back ++ smcd_last_words L back)) <= 1).
  { intros pre Hp N1 R1 B1.
    assert (H3 : has_ext back = true).
    { destruct P as [P|[P|[P|P]]]; [lia|tauto|tauto|]. apply SX. tauto. }
    destruct Hp as [->|[I Hp]].
    2: { exfalso. specialize (PF I Hp). specialize (B1 Hp I).
         destruct P as [P|[P|[(_ & _ & P)|(_ & P & _)]]]; [lia|tauto| |specialize (P H3); lia].
         destruct (L <? v2_ext_start L back + 44) eqn:E; lia. }
    cbn [app]. destruct (L <? v2_ext_start L back + 44) eqn:E1; [cbn; lia|].
    destruct ((n <? v2_ext_start L back + 4) || (length back <? v2_smcd_start L back) || (8 <? v2_eids L back)) eqn:E2; [cbn; lia|].
    destruct ((v2_eids L back <? v2_eid_count L back) && (length back <? L)) eqn:E3; [cbn; lia|].
    unfold v2_eid_log. rewrite H3.
    destruct (too_many_none "Error parsing CLC Proposal v2: EID number too big" L back (v2_eids L back) (v2_eid_count L back))
      as [T| ->]; [|exact W].
    exfalso. specialize (EF T). destruct P as [P|[P|[(_ & _ & P)|(_ & _ & _ & P)]]]; [lia|tauto|lia|].
    destruct (L <? v2_smcd_start L back + 52) eqn:E; lia. }
  destruct (has_ip back) eqn:I.
  - destruct (L <? 92) eqn:E1; [cbn; lia|]. destruct (n <? v2_ext_start L back) eqn:E2; [cbn; lia|].
    destruct ((v2_prefixes L back <? prefix_count back 80) && (length back <? L)) eqn:E3; [cbn; lia|].
    apply X; [|lia..]. unfold v2_prefix_log. rewrite I.
    destruct (too_many_none "Error parsing CLC Proposal v2: IPv6 prefix count too big" L back (v2_prefixes L back) (prefix_count back 80)); auto.
  - apply (X []); [auto|intros [? _]; discriminate|discriminate|discriminate].
Qed.

Lemma one_line m buf old l new : slice_ok m buf -> reachable old ->
  Message_W m buf old = (l, Panicked, new) -> length l <= 1.
Proof.
  intros Hok Hr E. apply clc_parses in E; [|assumption..]. destruct E as [P (-> & _)]. unfold last_words. cbv zeta.
  destruct (length (s_bytes m buf) <? 8) eqn:E8; [cbn; lia|]. unfold panics in P. cbv zeta in P.
  destruct (gives_up (kind_of old) (s_bytes m buf)) eqn:G; [cbn; lia|].
  destruct (kind_of old) eqn:K; try (cbn; lia).
  - unfold v1_last_words. cbv zeta. few_lines.
  - apply v2_one_line. destruct P as [P|P]; [lia|exact P].
Qed.

(** ** Examples *)

(** a v1 Proposal of 64 bytes with five IPv6 prefixes, of which 61 bytes are there *)
Definition cut_proposal : list byte :=
  Eval vm_compute in (hexs "e2d4c3d901004010aabbccddeeff0011" ++ zeros 24 ++ hexs "0a0000001800000500000000000000000000000000").

Definition cut_result : Message :=
  Eval vm_compute in snd (Message_W (mem1 cut_proposal) (slice1 cut_proposal) (fresh KProposal)).

Definition cut_line : string := "Error parsing CLC Proposal: IPv6 prefix count too big".

Lemma clc_example :
  slice_ok (mem1 cut_proposal) (slice1 cut_proposal) /\ reachable (fresh KProposal) /\
  parses (mem1 cut_proposal) (slice1 cut_proposal) (fresh KProposal) [cut_line] Panicked cut_result /\
  header_view (header_of cut_result) = decode clc_header cut_proposal.
Proof.
  assert (O : slice_ok (mem1 cut_proposal) (slice1 cut_proposal)) by (split; cbn; lia).
  assert (R : reachable (fresh KProposal)) by constructor.
  split; [exact O|]. split; [exact R|]. split; [|vm_compute; reflexivity].
  apply clc_parses; [exact O|exact R|]. vm_compute. reflexivity.
Qed.

Lemma quiet_refuted :
  exists m buf old l new, slice_ok m buf /\ reachable old /\ Message_W m buf old = (l, Panicked, new) /\ l <> [].
Proof.
  exists (mem1 cut_proposal), (slice1 cut_proposal), (fresh KProposal), [cut_line], cut_result.
  split; [apply clc_example|]. split; [apply clc_example|]. split; [vm_compute; reflexivity|discriminate].
Qed.

(** an Add Link message of 46 bytes: the two bytes too many become part of the object *)
Definition long_add_link : list byte :=
  Eval vm_compute in (hexs "022c0080aabbccddeeff0000" ++ hexs "fe8000000000000000000000000000ff" ++
    hexs "00012305300000070102030405060708beef").

Definition long_result : LLCMessage :=
  Eval vm_compute in snd (LLC_W (mem1 long_add_link) (slice1 long_add_link) (llc_fresh KAddLink)).

Lemma llc_example :
  slice_ok (mem1 long_add_link) (slice1 long_add_link) /\ llc_reachable (llc_fresh KAddLink) /\
  llc_parses (mem1 long_add_link) (slice1 long_add_link) (llc_fresh KAddLink) [] (Done tt) long_result /\
  unsent long_result = hexs "beef".
Proof.
  assert (O : slice_ok (mem1 long_add_link) (slice1 long_add_link)) by (split; cbn; lia).
  assert (R : llc_reachable (llc_fresh KAddLink)) by constructor.
  split; [exact O|]. split; [exact R|]. split; [|vm_compute; reflexivity].
  apply llc_parse; [exact O|exact R|]. vm_compute. reflexivity.
Qed.

Definition cut_bth : BTH :=
  Eval vm_compute in snd (BTH_W (mem1 LlcExamples.sample_bth) (slice_n LlcExamples.sample_bth 2) BTH_zero).

Lemma bth_example :
  let bs := LlcExamples.sample_bth in
  slice_ok (mem1 bs) (slice_n bs 2) /\
  bth_parses (mem1 bs) (slice_n bs 2) BTH_zero [] Panicked cut_bth /\ bth_PKey cut_bth = 65535%N.
Proof.
  intros bs. assert (O : slice_ok (mem1 bs) (slice_n bs 2)) by (apply slice_n_ok; vm_compute; lia).
  split; [exact O|]. split; [|vm_compute; reflexivity].
  apply bth_parse; [exact O|]. vm_compute. reflexivity.
Qed.
