(** * SizesMain: proofs of C69; restated in PropsSize.v. *)

From Coq Require Import NArith ZArith Bool String Arith List Lia.
From Verif Require Import GoBase GoFmt ClcModel LlcModel RoceModel WriteModel Samples ClcView LlcView Wire Recover
  Ranges RangesFacts Sizes SizesFacts SizesGrow.
From Verif Require ClcMessage.
Import ListNotations.
Local Open Scope nat_scope.

(** ** Texts *)

Lemma clc_text msg : reachable msg ->
  String.length (Message_String msg) <= fst (clc_text_limits (kind_of msg)) + prefix_text_limit * stored_prefixes msg /\
  String.length (Message_Reserved msg) <= snd (clc_text_limits (kind_of msg)) + prefix_text_limit * stored_prefixes msg.
Proof.
  intros H. apply clc_reachable_ok in H. unfold prefix_text_limit.
  destruct msg; cbn [clc_ok] in H; cbn [Message_String Message_Reserved kind_of clc_text_limits fst snd stored_prefixes];
    rewrite ?Nat.mul_0_r, ?Nat.add_0_r.
  - apply proposal_size, H.
  - apply proposalv2_size, H.
  - apply smcr_size, H.
  - apply smcd_size, H.
  - apply smcdv2_size, H.
  - apply smcr_size, H.
  - apply smcd_size, H.
  - apply smcdv2_size, H.
  - apply decline_size, H.
  - apply declinev2_size, H.
Qed.

Lemma llc_text msg : llc_reachable msg ->
  String.length (LLC_String msg) <= fst (llc_text_limits msg) /\
  String.length (LLC_Reserved msg) <= snd (llc_text_limits msg).
Proof.
  intros H. apply llc_reachable_ok in H.
  destruct msg; cbn [llc_ok] in H; cbn [LLC_String LLC_Reserved llc_text_limits fst snd].
  - apply cl_size, H.
  - apply al_size, H.
  - apply ac_size, H.
  - apply dl_size, H.
  - apply ck_size, H.
  - apply cc_size, H.
  - apply dk_size, H.
  - apply tl_size, H.
  - apply c_size, H.
  - split; apply Nat.leb_le; reflexivity.
Qed.

Lemma bth_text b : bth_reachable b ->
  String.length (BTH_String b) <= 182 /\ String.length (BTH_Reserved b) <= 204.
Proof. intros H. apply bth_size, bth_reachable_ok, H. Qed.

Lemma grh_text pn n m old buf logs new : (forall v, String.length (pn v) <= n) -> 3 <= n ->
  GRH_Parse m old buf = (logs, Done new) -> String.length (GRH_String pn new) <= 207 + n.
Proof. intros Hp Hn [= _ <-]. apply grh_size; [apply gopacket_ok|exact Hp|exact Hn]. Qed.

(** ** Logs *)

Lemma clc_log m msg buf : slice_ok m buf -> reachable msg ->
  let lines := fst (Message_Parse m msg buf) in
  length lines <= 2 * complaints (kind_of msg) /\
  Forall (fun line => String.length line <= line_limit (N.to_nat (declared (s_bytes m buf)))) lines.
Proof. intros Hok Hr. apply says_message; [exact Hok|apply ClcMessage.reachable_wf, Hr]. Qed.

Lemma says_new m buf : says 1 (line_limit 8) (NewMessage m buf).
Proof.
  unfold NewMessage. apply says_after; [unfold HasEyecatcher; repeat hush2|]. intros ok. repeat soft.
Qed.

Lemma new_log m buf :
  let lines := fst (NewMessage m buf) in
  length lines <= 2 /\ Forall (fun line => String.length line <= line_limit 8) lines.
Proof. exact (says_new m buf). Qed.

(** LLC and RoCE are silent *)

Lemma quiet_pair m buf : quiet (RKeyPair_Parse m buf).
Proof. unfold RKeyPair_Parse. repeat hush2. Qed.

Lemma quiet_pairs m n : forall buf, quiet (RKeyPairs_Parse m n buf).
Proof. induction n as [|n IH]; intros buf; cbn [RKeyPairs_Parse]; repeat first [apply IH|apply quiet_pair|hush2]. Qed.

Lemma quiet_rmb m buf : quiet (RMBSpec_Parse m buf).
Proof. unfold RMBSpec_Parse. repeat hush2. Qed.

Lemma quiet_rmbs m n : forall buf, quiet (RMBSpecs_Parse m n buf).
Proof. induction n as [|n IH]; intros buf; cbn [RMBSpecs_Parse]; repeat first [apply IH|apply quiet_rmb|hush2]. Qed.

Lemma quiet_rkeys m n : forall buf, quiet (rkeys_Parse m n buf).
Proof. induction n as [|n IH]; intros buf; cbn [rkeys_Parse]; repeat first [apply IH|hush2]. Qed.

Ltac hush3 := first [apply quiet_setbase|apply quiet_pairs|apply quiet_rmbs|apply quiet_rkeys|hush2].

Lemma quiet_llc m msg buf : quiet (LLC_Parse m msg buf).
Proof.
  destruct msg; cbn [LLC_Parse];
    unfold ConfirmLink_Parse, AddLink_Parse, AddLinkCont_Parse, DeleteLink_Parse, ConfirmRKey_Parse,
      ConfirmRKeyCont_Parse, deleteRKey_Parse, TestLink_Parse, CDC_Parse, Other_Parse; repeat hush3.
Qed.

Lemma quiet_inner {A B} (x : M A) (c : A -> B) : quiet (let* v := x in ret (c v)) -> quiet x.
Proof. unfold quiet, bind. destruct x as [l [v| |]]; cbn; [|trivial..]. rewrite app_nil_r. trivial. Qed.

Lemma quiet_parse_llc m buf : quiet (ParseLLC m buf).
Proof.
  assert (Q : forall msg, quiet (LLC_Parse m msg buf)) by (intros msg; apply quiet_llc).
  unfold ParseLLC.
  destruct (negb _); [apply (Q (LOther (mkOther BaseMsg_zero)))|]. apply quiet_bind; [apply quiet_idx|]. intros t. cbv zeta.
  repeat match goal with |- quiet (if ?c then _ else _) => destruct c end.
  - apply (Q (LConfirm ConfirmLink_zero)).
  - apply (Q (LAddLink AddLink_zero)).
  - apply (Q (LAddLinkCont AddLinkCont_zero)).
  - apply (Q (LDeleteLink DeleteLink_zero)).
  - apply (Q (LConfirmRKey ConfirmRKey_zero)).
  - apply (Q (LConfirmRKeyCont ConfirmRKeyCont_zero)).
  - apply (Q (LDeleteRKey deleteRKey_zero)).
  - apply (Q (LTestLink TestLink_zero)).
  - apply (Q (LCDC CDC_zero)).
  - apply (Q (LOther (mkOther BaseMsg_zero))).
Qed.

Lemma quiet_bth m b buf : quiet (BTH_Parse m b buf).
Proof. unfold BTH_Parse. repeat hush2. Qed.

Lemma quiet_drop s n : quiet (drop_last_n s n).
Proof. unfold drop_last_n. destruct (_ <? _); [reflexivity|apply quiet_upto]. Qed.

Lemma quiet_v2 m buf : quiet (ParseRoCEv2 m buf).
Proof.
  unfold ParseRoCEv2, ParseBTH. repeat first [apply quiet_bth|apply quiet_drop|apply quiet_parse_llc|hush2].
Qed.

Lemma quiet_v1 m buf : quiet (ParseRoCEv1 m buf).
Proof.
  unfold ParseRoCEv1, ParseBTH, ParseGRH, GRH_Parse.
  repeat first [apply quiet_bth|apply quiet_drop|apply quiet_parse_llc|hush2].
Qed.

Lemma silent m buf :
  (forall msg, fst (LLC_Parse m msg buf) = []) /\ fst (ParseLLC m buf) = [] /\
  (forall b, fst (BTH_Parse m b buf) = []) /\ (forall g, fst (GRH_Parse m g buf) = []) /\
  fst (ParseRoCEv1 m buf) = [] /\ fst (ParseRoCEv2 m buf) = [].
Proof.
  split; [intros msg; apply quiet_llc|]. split; [apply quiet_parse_llc|]. split; [intros b; apply quiet_bth|].
  split; [reflexivity|]. split; [apply quiet_v1|apply quiet_v2].
Qed.

Lemma no_limit : ~ exists limit, forall p, reachable (MProposal p) -> String.length (Message_String (MProposal p)) <= limit.
Proof. intros (limit & H). destruct (unbounded (S limit)) as (p & Hr & L). specialize (H p Hr). lia. Qed.

(** ** Examples *)

(** three IPv6 prefixes announced, one is there; no trailer *)
Definition cut_proposal : list byte := Eval vm_compute in
  (firstn 47 sample_proposal_6 ++ [x03] ++ firstn 17 (skipn 48 sample_proposal_6) ++ zeros 4)%list.

Lemma cut_log :
  let lines := fst (Message_Parse (mem1 cut_proposal) (fresh KProposal) (slice1 cut_proposal)) in
  N.to_nat (declared cut_proposal) = 69 /\ line_limit 69 = 409 /\ map String.length lines = [53; 409; 42; 92].
Proof. vm_compute. auto. Qed.

(** 255 IPv6 prefixes *)
Definition wide_proposal : list byte := Eval vm_compute in
  (firstn 5 sample_proposal_6 ++ [x11; x23] ++ firstn 40 (skipn 7 sample_proposal_6) ++ [xff] ++
   repeat xff (255 * 17) ++ hexs "e2d4c3d9")%list.

Lemma wide_text :
  exists msg, Message_Parse (mem1 wide_proposal) (fresh KProposal) (slice1 wide_proposal) = ([], Done msg) /\
    reachable msg /\ stored_prefixes msg = 255 /\
    N.of_nat (String.length (Message_String msg)) = (58 * 255 + 279)%N.
Proof.
  eexists. split; [vm_compute; reflexivity|]. split.
  { eapply reach_parse; [exact (reach_fresh KProposal)|apply (Samples.slice1_ok wide_proposal)|vm_compute; reflexivity]. }
  vm_compute. auto.
Qed.
