(** * ClcProposalV2Inv: ProposalV2.Parse keeps the array sizes, on every buffer. Proofs only. *)

From Coq Require Import NArith ZArith Bool String Arith List Lia.
From Coq Require Import ZifyBool ZifyNat ZifyN.
From Verif Require Import GoBase GoFmt ClcModel Slices Wire WireLemmas ClcView Steps ClcParse ClcFixed
  ClcProposal ClcProposalV2.
Import ListNotations.
Local Open Scope nat_scope.

(** every value a computation can return satisfies [P] *)
Definition ensures {A} (x : M A) (P : A -> Prop) : Prop :=
  match snd x with Done a => P a | _ => True end.

Lemma ens_ret {A} (a : A) (P : A -> Prop) : P a -> ensures (ret a) P.
Proof. exact (fun H => H). Qed.

Lemma ens_panic {A} (P : A -> Prop) : ensures (@panic A) P.
Proof. exact I. Qed.

Lemma ens_bind {A B} (x : M A) (f : A -> M B) (Q : A -> Prop) (P : B -> Prop) :
  ensures x Q -> (forall a, Q a -> ensures (f a) P) -> ensures (bind x f) P.
Proof.
  destruct x as [l [a| |]]; cbn; intros H1 H2; try exact I.
  specialize (H2 a H1). unfold ensures in *. destruct (f a) as [l' r]. exact H2.
Qed.

Lemma ens_any {A} (x : M A) : ensures x (fun _ => True).
Proof. unfold ensures. destruct (snd x); exact I. Qed.

Lemma go_copy_length dst src : length (go_copy dst src) = length dst.
Proof. unfold go_copy. rewrite app_length, firstn_length, skipn_length. lia. Qed.

Lemma ens_copy m dst buf lo hi : ensures (copy_from m dst buf lo hi) (fun r => length r = length dst).
Proof.
  unfold copy_from. eapply ens_bind; [apply ens_any|]. intros s _. apply ens_ret, go_copy_length.
Qed.

Ltac ens :=
  repeat first
    [ eapply ens_bind; [apply ens_copy|]; intros
    | eapply ens_bind; [apply ens_any|]; intros
    | apply ens_ret ].

Lemma set_nth_length {A} (a : list A) i v : ensures (set_nth a i v) (fun r => length r = length a).
Proof.
  unfold set_nth. destruct (Nat.ltb_spec i (length a)); [|exact I]. apply ens_ret.
  rewrite app_length. cbn [length]. rewrite firstn_length, skipn_length. lia.
Qed.

Lemma set_nth_Forall {A} (Q : A -> Prop) (a : list A) i v : Q v -> Forall Q a ->
  ensures (set_nth a i v) (Forall Q).
Proof.
  intros Hv Ha. unfold set_nth. destruct (i <? length a); [|exact I]. apply ens_ret.
  apply Forall_app. split; [apply Forall_pre, Ha|]. constructor; [assumption|]. apply Forall_post, Ha.
Qed.

Lemma ens_and {A} (x : M A) (P Q : A -> Prop) : ensures x P -> ensures x Q -> ensures x (fun a => P a /\ Q a).
Proof. unfold ensures. destruct (snd x); auto. Qed.

Lemma get_nth_Forall {A} (Q : A -> Prop) (a : list A) i : Forall Q a -> ensures (get_nth a i) Q.
Proof.
  intros Ha. unfold get_nth. destruct (nth_error a i) as [v|] eqn:E; [|exact I]. apply ens_ret.
  rewrite Forall_forall in Ha. apply Ha. eapply nth_error_In, E.
Qed.

Lemma eids_keep m buf len : forall n skip area i,
  length area = 8 -> Forall (fun e => length e = 32) area ->
  ensures (eids_v2 m buf len skip area i n)
    (fun r => length (fst r) = 8 /\ Forall (fun e => length e = 32) (fst r)).
Proof.
  induction n as [|n IH]; intros skip area i HA HF; cbn [eids_v2]; [apply ens_ret; auto|].
  destruct (short _ _ _); [ens; auto|].
  eapply ens_bind; [apply get_nth_Forall, HF|]. intros old Ho.
  eapply ens_bind; [apply ens_copy|]. intros eid He.
  eapply ens_bind.
  { apply ens_and; [apply set_nth_length|].
    apply set_nth_Forall with (Q := fun e => length e = 32); [congruence|exact HF]. }
  intros area' [H1 H2]. cbv zeta. apply IH; [congruence|assumption].
Qed.

Lemma gids_keep m buf len : forall n skip area i,
  length area = 8 -> ensures (gids_v2 m buf len skip area i n) (fun r => length r = 8).
Proof.
  induction n as [|n IH]; intros skip area i HA; cbn [gids_v2]; [apply ens_ret; auto|].
  destruct (short _ _ _); [ens; auto|].
  eapply ens_bind; [apply ens_any|]. intros gid _.
  eapply ens_bind; [apply ens_any|]. intros old _.
  eapply ens_bind; [apply set_nth_length|]. intros area' H1. cbv zeta.
  eapply ens_bind; [apply ens_any|]. intros vchid _.
  eapply ens_bind; [apply ens_any|]. intros old' _.
  eapply ens_bind; [apply set_nth_length|]. intros area'' H2. apply IH. congruence.
Qed.

Lemma ip_area_keep m buf hdr len skip ip : ipinfo_wf ip ->
  ensures (ip_area_v2 m buf hdr len skip ip)
    (fun r => match r with Some (ip', _) => ipinfo_wf ip' | None => True end).
Proof.
  intros H. unfold ip_area_v2. destruct (negb _); [|apply ens_ret; assumption].
  destruct (short _ _ _); [ens; exact I|].
  eapply ens_bind; [apply ens_any|]. intros ? _. cbv zeta.
  eapply ens_bind; [apply ens_any|]. intros ? _.
  eapply ens_bind; [apply ens_copy|]. intros r Hr.
  eapply ens_bind; [apply ens_any|]. intros ? _.
  eapply ens_bind; [apply ens_any|]. intros [l k] _. apply ens_ret.
  unfold ipinfo_wf in *. cbn. congruence.
Qed.

Lemma ext_keep m buf hdr len skip x : v2ext_wf x ->
  ensures (ext_v2 m buf hdr len skip x)
    (fun r => match r with Some (x', _) => v2ext_wf x' | None => True end).
Proof.
  intros (H5 & H6 & HA & HF). unfold ext_v2. destruct (negb _); [|apply ens_ret; repeat split; assumption].
  destruct (short _ _ _); [ens; exact I|]. cbv zeta.
  do 6 (eapply ens_bind; [apply ens_any|]; intros ? _).
  eapply ens_bind; [apply ens_copy|]. intros r5 Hr5.
  eapply ens_bind; [apply ens_any|]. intros ? _.
  eapply ens_bind; [apply ens_copy|]. intros r6 Hr6.
  eapply ens_bind; [apply eids_keep; assumption|]. intros [l k] [H1 H2]. apply ens_ret.
  repeat split; cbn in *; congruence || assumption.
Qed.

Lemma smcd_keep m buf hdr len skip g y : smcdext_wf y ->
  ensures (smcd_v2 m buf hdr len skip g y)
    (fun r => match r with Some y' => smcdext_wf y' | None => True end).
Proof.
  intros (H5 & H6 & HA). unfold smcd_v2. destruct (_ || _)%bool; [|apply ens_ret; repeat split; assumption].
  destruct (short _ _ _); [ens; exact I|]. cbv zeta.
  eapply ens_bind; [apply ens_copy|]. intros r5 Hr5.
  eapply ens_bind; [apply ens_copy|]. intros r6 Hr6.
  eapply ens_bind; [apply gids_keep; assumption|]. intros l H1. apply ens_ret.
  repeat split; cbn in *; congruence.
Qed.

Lemma Header_keep m h buf : header_wf h -> ensures (Header_Parse m h buf) header_wf.
Proof.
  intros H. unfold Header_Parse. cbv zeta. eapply ens_bind; [apply ens_copy|]. intros e He.
  ens. unfold header_wf in *. cbn. congruence.
Qed.

Lemma Trailer_keep m t buf : length t = 4 -> ensures (Trailer_Parse m t buf) (fun r => length r = 4).
Proof.
  intros H. unfold Trailer_Parse. cbv zeta. eapply ens_bind; [apply ens_any|]. intros s _.
  destruct (HasEyecatcher_arr _); ens; rewrite go_copy_length; assumption.
Qed.

Local Ltac conjs := repeat (split; [assumption|]); assumption.

Lemma ProposalV2_keep m p buf : proposalv2_wf p -> ensures (ProposalV2_Parse m p buf) proposalv2_wf.
Proof.
  intros (Hh & Hp & Hr & Hi & Hx & Hy & Ht). unfold ProposalV2_Parse. cbv zeta.
  eapply ens_bind; [apply Header_keep; assumption|]. intros hdr Hh'.
  destruct (_ <? _)%N; [ens; conjs|].
  eapply ens_bind; [apply ens_copy|]. intros pid Hpid.
  do 6 (eapply ens_bind; [apply ens_any|]; intros ? _).
  eapply ens_bind; [apply ens_copy|]. intros res Hres.
  rewrite Hp in Hpid. rewrite Hr in Hres.
  eapply ens_bind; [apply ip_area_keep; assumption|]. intros [[ip' s1]|] H1; [|ens; conjs].
  eapply ens_bind; [apply ext_keep; assumption|]. intros [[x' s2]|] H2; [|ens; conjs].
  eapply ens_bind; [apply smcd_keep; assumption|]. intros [y'|] H3; [|ens; conjs].
  eapply ens_bind; [apply Trailer_keep; assumption|]. intros t' H4. ens. conjs.
Qed.

Lemma ProposalV2_keeps_wf m buf old logs p : proposalv2_wf old ->
  ProposalV2_Parse m old buf = (logs, Done p) -> proposalv2_wf p.
Proof. intros H E. pose proof (ProposalV2_keep m old buf H) as K. rewrite E in K. exact K. Qed.

(** too short, in general *)
Lemma ProposalV2_short m buf old : slice_ok m buf -> proposalv2_wf old -> 8 <= s_len buf ->
  let bs := s_bytes m buf in
  let L := N.to_nat (declared bs) in
  L < 84 ->
  ProposalV2_Parse m old buf =
    fail_run "Error parsing CLC Proposal v2: message too short" m buf L (p2_short m buf old).
Proof.
  intros Hok Hwf H8 bs L H84. pose proof (s_bytes_length m buf Hok) as Hb.
  unfold ProposalV2_Parse. cbv zeta.
  rewrite Header_Parse_ok, bind_ret by (assumption || apply Hwf || lia).
  rewrite declared_hdr by lia. fold bs. fold L.
  replace (declared bs <? ProposalV2Len)%N with true by (unfold L, ProposalV2Len in *; lia).
  rewrite fail_run_eq. reflexivity.
Qed.

Lemma ProposalV2_tiny m buf old : slice_ok m buf -> proposalv2_wf old -> s_len buf < 8 ->
  ProposalV2_Parse m old buf = panic.
Proof.
  intros Hok Hwf H8. unfold ProposalV2_Parse. cbv zeta.
  rewrite Header_Parse_panic by (assumption || apply Hwf || lia). reflexivity.
Qed.

(** only the visible bytes matter if the message is complete *)
Lemma ProposalV2_local m1 m2 buf old : slice_ok m1 buf -> slice_ok m2 buf -> proposalv2_wf old ->
  s_bytes m1 buf = s_bytes m2 buf ->
  N.to_nat (declared (s_bytes m1 buf)) <= s_len buf ->
  ProposalV2_Parse m1 old buf = ProposalV2_Parse m2 old buf.
Proof.
  intros Hok1 Hok2 Hwf E HL.
  destruct (le_lt_dec 8 (s_len buf)) as [H8|H8]; [|rewrite !ProposalV2_tiny by assumption; reflexivity].
  rewrite !ProposalV2_Parse_run; try assumption; [|rewrite <- E; assumption].
  unfold p2_run, p2_of, p2_short. rewrite <- E. reflexivity.
Qed.
