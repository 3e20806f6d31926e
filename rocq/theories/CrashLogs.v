(** * CrashLogs: what is logged before a panic. Proofs only. *)

From Coq Require Import NArith ZArith Bool String Ascii Arith List Lia.
From Coq Require Import ZifyBool ZifyNat ZifyN.
From Verif Require Import GoBase GoFmt ClcModel LlcModel Slices Wire WireLemmas ClcView LlcView Steps ClcParse ClcFixed
  ClcSmcdv2 ClcProposal ClcProposalV2 ClcProposalV2Inv ClcProposalV2Any ClcMessage ClcAccepted Accepted Crash.
Import ListNotations.
Local Open Scope nat_scope.

(** [dies x Q]: if [x] panics, then what it logged satisfies [Q] *)
Definition dies {A} (x : M A) (Q : list string -> Prop) : Prop := forall l, x = (l, Panicked) -> Q l.

Lemma dies_ret {A} (a : A) Q : dies (ret a) Q.
Proof. intros l [=]. Qed.

Lemma dies_panic {A} (Q : list string -> Prop) : Q [] -> dies (@panic A) Q.
Proof. intros H l [= <-]. exact H. Qed.

Lemma dies_bind {A B} (x : M A) (f : A -> M B) (Q : list string -> Prop) :
  dies x Q -> (forall l a, x = (l, Done a) -> dies (f a) (fun l2 => Q (l ++ l2)%list)) ->
  dies (bind x f) Q.
Proof.
  intros H1 H2 l. unfold bind. destruct x as [l1 [a| |]].
  - specialize (H2 l1 a eq_refl). destruct (f a) as [l2 o]. intros [= <- ->]. apply H2. reflexivity.
  - intros [= <-]. apply H1. reflexivity.
  - intros [=].
Qed.

Lemma dies_fail {A} err m buf L (a : A) (Q : list string -> Prop) :
  (s_cap buf < L -> Q [err]) -> dies (fail_run err m buf L a) Q.
Proof.
  intros H l. unfold fail_run. destruct (L <=? s_cap buf) eqn:E; intros [= <-]. apply H. lia.
Qed.

(** log output that cannot happen *)
Definition quiet {A} (x : M A) : Prop := fst x = [].

Lemma dies_quiet {A B} (x : M A) (f : A -> M B) (Q : list string -> Prop) :
  quiet x -> Q [] -> (forall a, dies (f a) Q) -> dies (bind x f) Q.
Proof.
  unfold quiet. intros H1 H2 H3. apply dies_bind.
  - intros l E. rewrite E in H1. cbn in H1. subst l. exact H2.
  - intros l a E. rewrite E in H1. cbn in H1. subst l. apply H3.
Qed.

Lemma quiet_ret {A} (a : A) : quiet (ret a).
Proof. reflexivity. Qed.

Lemma quiet_panic {A} : quiet (@panic A).
Proof. reflexivity. Qed.

Lemma quiet_bind {A B} (x : M A) (f : A -> M B) : quiet x -> (forall a, quiet (f a)) -> quiet (bind x f).
Proof.
  unfold quiet, bind. destruct x as [l [a| |]]; cbn; intros H1 H2; try exact H1.
  specialize (H2 a). destruct (f a) as [l2 o]. cbn in *. subst. reflexivity.
Qed.

Lemma quiet_idx m s i : quiet (idx m s i).
Proof. unfold idx. destruct (i <? s_len s); [|reflexivity]. destruct (nth_error _ _); reflexivity. Qed.

Lemma quiet_reslice s lo hi : quiet (reslice s lo hi).
Proof. unfold reslice. destruct ((lo <=? hi) && (hi <=? s_cap s)); reflexivity. Qed.

Ltac quiet :=
  repeat first
  [ apply quiet_ret | apply quiet_panic | apply quiet_idx | apply quiet_reslice
  | apply quiet_bind; [|intros ?]
  | progress unfold from, upto, be16, be32, be64, be24, copy_from, Uint16, Uint32, Uint64, byte0, masked, flag
  | match goal with |- quiet (if ?c then _ else _) => destruct c end
  | match goal with |- quiet (let '(_, _) := ?c in _) => destruct c end ].

Lemma Header_quiet m h buf : quiet (Header_Parse m h buf).
Proof. unfold Header_Parse. quiet. Qed.

Lemma fce_quiet m a n buf : quiet (fce_Parse m a n buf).
Proof. unfold fce_Parse. quiet. Qed.

Lemma quiet_last_n s k : quiet (last_n s k).
Proof. unfold last_n. quiet. Qed.

Lemma Trailer_dies m t buf : dies (Trailer_Parse m t buf) (fun l => l = []).
Proof.
  unfold Trailer_Parse. pose proof (quiet_last_n buf TrailerLen) as Q. unfold quiet in Q.
  destruct (last_n buf TrailerLen) as [l [s| |]]; cbn in Q; subst l; cbn [bind].
  - destruct (HasEyecatcher_arr _); intros l; [intros [=]|]. cbn. intros [=].
  - apply dies_panic. reflexivity.
  - intros l [=].
Qed.

(** ** Messages of a fixed size *)

Ltac dies_done := let a := fresh in intros ? a _; first [apply dies_ret|destruct a as [? ?]; apply dies_ret].
Ltac dies_steps :=
  repeat (apply dies_quiet; [solve [quiet]|reflexivity|intros ?]).
Ltac dies_trailer := apply dies_bind; [apply Trailer_dies|intros ? ? _; apply dies_ret].

Section Fixed.
Context (m : mem) (buf : slice) (Hok : slice_ok m buf) (H8 : 8 <= s_len buf).
Local Notation bs := (s_bytes m buf).

Lemma header_len : h_Length (hdr_of bs) = declared bs.
Proof. apply declared_hdr. rewrite s_bytes_length by assumption. exact H8. Qed.

Lemma header_type : h_Type (hdr_of bs) = msg_type bs.
Proof. unfold hdr_of. cbn [h_Type]. apply msg_type_hdr. rewrite s_bytes_length by assumption. exact H8. Qed.

Ltac start :=
  rewrite Header_Parse_ok, bind_ret by assumption; rewrite header_len, ?header_type; cbv zeta;
  unfold AcceptSMCRLen, AcceptSMCDLen, DeclineLen, AcceptSMCDv2Len, TypeConfirm;
  match goal with |- dies (if ?c then _ else _) _ => destruct c end;
  [rewrite fail_run_eq; apply dies_fail; reflexivity|].

Lemma smcr_dies a : accept_smcr_wf a -> dies (AcceptSMCR_Parse m a buf) (fun l =>
  l = if (declared bs <? 68)%N then [too_short_line KAcceptSMCR (msg_type bs)] else []).
Proof. intros (Hh & _). unfold AcceptSMCR_Parse. start. dies_steps. dies_trailer. Qed.

Lemma smcd_dies a : accept_smcd_wf a -> dies (AcceptSMCD_Parse m a buf) (fun l =>
  l = if (declared bs <? 48)%N then [too_short_line KAcceptSMCD (msg_type bs)] else []).
Proof. intros (Hh & _). unfold AcceptSMCD_Parse. start. dies_steps. dies_trailer. Qed.

Lemma decline_dies a : decline_wf a -> dies (Decline_Parse m a buf) (fun l =>
  l = if (declared bs <? 28)%N then [too_short_line KDecline (msg_type bs)] else []).
Proof. intros (Hh & _). unfold Decline_Parse. start. dies_steps. dies_trailer. Qed.

Lemma declinev2_dies a : declinev2_wf a -> dies (DeclineV2_Parse m a buf) (fun l =>
  l = if (declared bs <? 28)%N then [too_short_line KDeclineV2 (msg_type bs)] else []).
Proof. intros (Hh & _). unfold DeclineV2_Parse. start. dies_steps. dies_trailer. Qed.

Lemma smcdv2_dies a : accept_smcdv2_wf a -> dies (AcceptSMCDv2_Parse m a buf) (fun l =>
  l = if (declared bs <? 78)%N || (s_len buf <? 78) then [too_short_line KAcceptSMCDv2 (msg_type bs)] else []).
Proof.
  intros (Hh & _). unfold AcceptSMCDv2_Parse.
  replace (s_len buf <? 78) with (N.of_nat (s_len buf) <? 78)%N by lia.
  start. repeat (apply dies_quiet; [solve [quiet|apply fce_quiet]|reflexivity|intros ?]).
  repeat match goal with x : (_ * _)%type |- _ => destruct x end. dies_trailer.
Qed.

Lemma fixed_dies old : message_wf old -> is_proposal (kind_of old) = false ->
  dies (Message_Parse m old buf) (fun l =>
    l = if gives_up (kind_of old) bs then [too_short_line (kind_of old) (msg_type bs)] else []).
Proof.
  intros Hwf Hk. pose proof (s_bytes_length m buf Hok) as Hl.
  destruct old as [p|p|a|a|a|c|c|c|d|d]; try discriminate;
    cbn [Message_Parse kind_of message_wf] in *; unfold gives_up; cbn [min_length]; rewrite ?Hl, ?orb_false_r.
  all: try unfold ConfirmSMCR_Parse; try unfold ConfirmSMCD_Parse; try unfold ConfirmSMCDv2_Parse.
  all: repeat (apply dies_bind; [|intros ? ? _; apply dies_ret]).
  - apply smcr_dies, Hwf.
  - apply smcd_dies, Hwf.
  - apply smcdv2_dies, Hwf.
  - apply smcr_dies, Hwf.
  - apply smcd_dies, Hwf.
  - apply smcdv2_dies, Hwf.
  - apply decline_dies, Hwf.
  - apply declinev2_dies, Hwf.
Qed.
End Fixed.

(** ** v1 Proposals *)

Lemma proposal_dies m buf old : slice_ok m buf -> proposal_wf old -> 8 <= s_len buf ->
  52 <= N.to_nat (declared (s_bytes m buf)) ->
  dies (Proposal_Parse m old buf) (fun l =>
    l = v1_last_words (N.to_nat (declared (s_bytes m buf))) (reach m buf) (s_len buf)).
Proof.
  intros Hok Hwf H8 H52. rewrite Proposal_Parse_run by assumption. pose proof (len_le_cap _ _ Hok) as Hcap.
  pose proof (win_length m buf Hok) as Hw. change (reach m buf) with (win m buf).
  unfold p1_run. cbv zeta. set (L := N.to_nat (declared (s_bytes m buf))) in *.
  rewrite (proj2 (Nat.ltb_ge (s_len buf) 8)) by lia. rewrite (proj2 (Nat.ltb_ge L 52)) by lia.
  unfold v1_last_words. rewrite Hw.
  destruct (s_cap buf <? 40) eqn:E40; [apply dies_panic; reflexivity|].
  assert (Ho : p1_off (win m buf) = ip_area_offset (win m buf)).
  { unfold p1_off, num, ip_area_offset. bits_in_bytes. }
  assert (Hs : p1_start (win m buf) = ip_area_start (win m buf)).
  { unfold p1_start, ip_area_start. rewrite Ho. destruct (N.eqb_spec (ip_area_offset (win m buf)) 40) as [->|]; reflexivity. }
  rewrite Ho, Hs. set (start := ip_area_start (win m buf)) in *. cbn [orb].
  destruct ((ip_area_offset (win m buf) =? 40)%N && (s_cap buf <? 80)); [apply dies_panic; reflexivity|].
  destruct (L <? start + 12); [apply dies_fail; reflexivity|].
  destruct (le_lt_dec (start + 8) (s_len buf)) as [B|B].
  2: { rewrite !(proj2 (Nat.ltb_lt _ _)) by lia. apply dies_panic. reflexivity. }
  assert (Hcnt : N.to_nat (bn (win m buf) (start + 7)) = prefix_count (win m buf) start).
  { unfold prefix_count. rewrite bn_bits by lia. reflexivity. }
  rewrite Hcnt. destruct (s_len buf <? start + 8 + 17 * fitting L (start + 8) 17 (prefix_count (win m buf) start));
    [apply dies_panic; reflexivity|].
  match goal with |- dies (if ?c then _ else _) _ => destruct c end; [|intros l E; discriminate E].
  apply dies_bind; [apply dies_fail; reflexivity|]. intros ? ? _ l E. discriminate E.
Qed.

(** ** v2 Proposals *)

Section Any.
Context (m : mem) (buf : slice) (Hok : slice_ok m buf).
Local Notation bs := (s_bytes m buf).
Local Notation back := (win m buf).
Context (L : nat) (H8 : 8 <= s_len buf).
Local Notation np := (v2_prefixes L back).
Local Notation cnt := (prefix_count back 80).
Local Notation es := (v2_ext_start L back).
Local Notation ne := (v2_eids L back).
Local Notation ss := (v2_smcd_start L back).
Local Notation ng := (v2_gids L back).
Local Notation cap := (s_cap buf).
Local Notation len := (s_len buf).

Lemma ip_dies ip : ipinfo_wf ip -> 80 <= cap ->
  dies (ip_area_v2 m buf (hdr_of bs) L 80 ip) (fun l => l = v2_last_words L back len).
Proof.
  intros Hi H80. red in Hi. pose proof (len_le_cap _ _ Hok) as Hcap. pose proof (win_length m buf Hok) as Hw.
  unfold ip_area_v2, SMCTypeN. rewrite path_back by assumption.
  unfold v2_last_words. rewrite Hw, (proj2 (Nat.ltb_ge cap 80)) by lia. unfold v2_ext_start, has_ip.
  destruct (msg_path back =? 2)%N; cbn [negb]; [apply dies_ret|].
  unfold short, TrailerLen, EyecatcherLen. change (80 + (4 + 1 + 2 + 1 + 4)) with 92.
  destruct (L <? 92) eqn:E.
  { rewrite fail_run_eq. apply dies_fail. reflexivity. }
  destruct (le_lt_dec 88 len) as [H88|H88].
  - match goal with |- dies ?x _ => eassert (E0 : x = _) end.
    { rewrite (sub_self buf). run m buf Hok. rewrite <- sub_self. reflexivity. }
    rewrite E0; clear E0.
    rewrite prefixes_v2_run by (assumption || lia). cbv zeta.
    rewrite count_back by (assumption || lia).
    change (N.to_nat (bits back (8 * 87) 8)) with cnt. fold (v2_prefixes L back).
    destruct (len <? 88 + 17 * np) eqn:E1; [apply dies_panic; reflexivity|].
    destruct (np <? cnt) eqn:E2.
    + apply dies_bind; [apply dies_fail; intros C|dies_done].
      rewrite (proj2 (Nat.ltb_lt cap L)) by lia. reflexivity.
    + rewrite bind_ret. apply dies_ret.
  - match goal with |- dies ?x _ => replace x with (@panic (option (IPInfo * nat))) end.
    { apply dies_panic. rewrite (proj2 (Nat.ltb_lt _ _)) by lia. reflexivity. }
    symmetry. rewrite (sub_self buf). run_panic m buf Hok.
Qed.

Lemma ext_dies x : v2ext_wf x ->
  dies (ext_v2 m buf (hdr_of bs) L es x) (fun l => l = ext_last_words L back len).
Proof.
  intros (W5 & W6 & WA & WF). pose proof (len_le_cap _ _ Hok) as Hcap. pose proof (win_length m buf Hok) as Hw.
  unfold ext_v2, SMCTypeN. rewrite pathv2_back by assumption. unfold ext_last_words. rewrite Hw.
  destruct (msg_pathv2 back =? 2)%N; cbn [negb]; [apply dies_ret|].
  unfold short, ProposalV2ExtLen, TrailerLen, EyecatcherLen. change (40 + 4) with 44.
  destruct (L <? es + 44) eqn:E.
  { rewrite fail_run_eq. apply dies_fail. reflexivity. }
  destruct (le_lt_dec (es + 4) len) as [H4|H4].
  2:{ match goal with |- dies ?x _ => replace x with (@panic (option (V2Ext * nat))) end.
      { apply dies_panic. rewrite (proj2 (Nat.ltb_lt len _)) by lia. reflexivity. }
      symmetry. remember es as s eqn:Es. rewrite (sub_self buf). run_panic m buf Hok. }
  rewrite (proj2 (Nat.ltb_ge len _)) by lia. cbn [orb].
  destruct (le_lt_dec (es + 40) cap) as [H40|H40].
  2:{ match goal with |- dies ?x _ => replace x with (@panic (option (V2Ext * nat))) end.
      { apply dies_panic. rewrite (proj2 (Nat.ltb_lt cap ss)) by (unfold v2_smcd_start; lia). reflexivity. }
      symmetry. remember es as s eqn:Es. remember ss as s' eqn:Es'. clear Es'. rewrite (sub_self buf). run_panic m buf Hok. }
  match goal with |- dies ?x _ => eassert (E0 : x = _) end.
  { remember es as s eqn:Es. rewrite (sub_self buf). run m buf Hok. rewrite <- sub_self. subst s. reflexivity. }
  rewrite E0; clear E0.
  replace (es + 1 + 1 + 1 + 1 + 2 + 2 + 32) with (es + 40) by lia.
  rewrite eids_v2_run by (assumption || lia). cbv zeta.
  rewrite count_back by (assumption || lia). fold (v2_eid_count L back). fold (v2_eids L back). cbn [Nat.add].
  rewrite orb_comm. change (es + 40 + 32 * ne) with ss.
  destruct ((cap <? ss) || (8 <? ne)) eqn:E1; [apply dies_panic; reflexivity|].
  destruct (ne <? v2_eid_count L back) eqn:E2.
  - apply dies_bind; [apply dies_fail; intros C|dies_done].
    rewrite (proj2 (Nat.ltb_lt cap L)) by lia. reflexivity.
  - rewrite bind_ret. apply dies_ret.
Qed.

Lemma smcd_v2_dies y gn pos : smcdext_wf y ->
  (has_smcd back = true -> pos = ss /\ ss <= cap /\ gn = bits back (8 * (es + 1)) 8) ->
  dies (smcd_v2 m buf (hdr_of bs) L pos gn y) (fun l => l = smcd_last_words L back /\ has_smcd back = true).
Proof.
  intros (W5 & W6 & WA) Hp. pose proof (len_le_cap _ _ Hok) as Hcap. pose proof (win_length m buf Hok) as Hw.
  unfold smcd_v2, SMCTypeD, SMCTypeB. rewrite pathv2_back by assumption. fold (has_smcd back).
  unfold smcd_last_words. rewrite Hw.
  destruct (has_smcd back) eqn:EH; [|apply dies_ret].
  destruct (Hp eq_refl) as (-> & Hc & ->). clear Hp EH.
  unfold short, SMCDv2ExtLen, TrailerLen, EyecatcherLen. change (48 + 4) with 52.
  destruct (L <? ss + 52) eqn:E.
  { rewrite fail_run_eq. apply dies_fail. split; reflexivity. }
  fold (v2_gid_count L back).
  destruct (le_lt_dec (ss + 48) cap) as [H48|H48].
  2:{ match goal with |- dies ?x _ => replace x with (@panic (option SMCDExt)) end.
      { apply dies_panic. rewrite (proj2 (Nat.ltb_lt cap _)) by lia. split; reflexivity. }
      symmetry. remember (v2_gid_count L back) as gc. remember ss as s eqn:Es. rewrite (sub_self buf). run_panic m buf Hok. }
  match goal with |- dies ?x _ => eassert (E0 : x = _) end.
  { remember (v2_gid_count L back) as gc eqn:Eg. remember ss as s eqn:Es.
    rewrite (sub_self buf). run m buf Hok. rewrite <- sub_self. subst s gc. reflexivity. }
  rewrite E0; clear E0.
  replace (ss + 32 + 16) with (ss + 48) by lia.
  rewrite gids_v2_run by (assumption || lia). cbv zeta. fold (v2_gids L back). cbn [Nat.add].
  rewrite orb_comm.
  destruct ((cap <? ss + 48 + 10 * ng) || (8 <? ng)) eqn:E1; [apply dies_panic; split; reflexivity|].
  destruct (ng <? v2_gid_count L back) eqn:E2.
  - apply dies_bind; [apply dies_fail; split; reflexivity|dies_done].
  - rewrite bind_ret. apply dies_ret.
Qed.
End Any.

Lemma any_done {A} (x : M A) P Q l a : ends x P Q -> x = (l, Done a) -> ~ P.
Proof. intros H E. unfold ends in H. rewrite E in H. apply H. Qed.

Lemma proposalv2_dies m buf old : slice_ok m buf -> proposalv2_wf old -> 8 <= s_len buf ->
  84 <= N.to_nat (declared (s_bytes m buf)) ->
  dies (ProposalV2_Parse m old buf) (fun l =>
    l = v2_last_words (N.to_nat (declared (s_bytes m buf))) (reach m buf) (s_len buf)).
Proof.
  intros Hok Hwf H8 H84. change (reach m buf) with (win m buf).
  pose proof (len_le_cap _ _ Hok) as Hcap. destruct Hwf as (Hh & Hp & Hr & Hi & Hx & Hy & Ht).
  pose proof (s_bytes_length m buf Hok) as Hb. pose proof (win_length m buf Hok) as Hw.
  unfold ProposalV2_Parse. cbv zeta. rewrite Header_Parse_ok, bind_ret by assumption.
  rewrite declared_hdr by lia. set (L := N.to_nat (declared (s_bytes m buf))) in *. unfold ProposalV2Len.
  replace (declared (s_bytes m buf) <? 84)%N with (L <? 84) by (unfold L; lia).
  rewrite (proj2 (Nat.ltb_ge L 84)) by lia.
  destruct (le_lt_dec 80 (s_cap buf)) as [H80|H80].
  2:{ match goal with |- dies ?x _ => replace x with (@panic ProposalV2) end.
      { apply dies_panic. unfold v2_last_words. rewrite Hw, (proj2 (Nat.ltb_lt (s_cap buf) 80)) by lia. reflexivity. }
      symmetry. unfold HeaderLen, PeerIDLen. remember (hdr_of (s_bytes m buf)) as h. remember L as L' eqn:EL.
      clear EL. rewrite (sub_self buf). run_panic m buf Hok. }
  match goal with |- dies ?x _ => eassert (E0 : x = _) end.
  { unfold HeaderLen, PeerIDLen. rewrite (sub_self buf). run m buf Hok. rewrite <- sub_self. reflexivity. }
  rewrite E0; clear E0. rewrite !be_acc0.
  apply dies_bind; [apply (ip_dies m buf Hok L H8 (p2_IP old) Hi H80)|].
  intros l1 r1 E1. pose proof (ip_gives m buf Hok L H8 (p2_IP old) Hi H80 l1 r1 E1) as G1.
  pose proof (any_done _ _ _ _ _ (ip_any m buf Hok L H8 (p2_IP old) Hi H80) E1) as N1. clear E1.
  destruct r1 as [[ip pos]|]; cbn [ip_got] in G1; [|apply dies_ret].
  destruct G1 as (R1 & -> & -> & _ & _).
  assert (S1 : v2_last_words L (win m buf) (s_len buf)
               = (v2_prefix_log L (win m buf) ++ ext_last_words L (win m buf) (s_len buf))%list).
  { unfold v2_last_words. rewrite Hw, (proj2 (Nat.ltb_ge (s_cap buf) 80)) by lia. revert N1 R1.
    unfold v2_ip_room, v2_prefix_log at 2, v2_ext_start. destruct (has_ip (win m buf)) eqn:EI; [|reflexivity].
    intros N1 R1. specialize (R1 eq_refl). rewrite (proj2 (Nat.ltb_ge L 92)) by lia.
    rewrite (proj2 (Nat.ltb_ge (s_len buf) _)) by lia.
    replace ((v2_prefixes L (win m buf) <? prefix_count (win m buf) 80) && (s_cap buf <? L)) with false by lia.
    unfold v2_prefix_log. rewrite EI. reflexivity. }
  rewrite S1. clear S1.
  apply dies_bind.
  { intros l E. f_equal. exact (ext_dies m buf Hok L H8 (p2_Ext old) Hx l E). }
  intros l2 r2 E2. pose proof (ext_gives m buf Hok L H8 (p2_Ext old) Hx l2 r2 E2) as G2.
  pose proof (any_done _ _ _ _ _ (ext_any m buf Hok L H8 (p2_Ext old) Hx) E2) as N2. clear E2.
  destruct r2 as [[x pos]|]; cbn [ext_got] in G2; [|apply dies_ret].
  destruct G2 as (R2 & -> & _ & B2).
  assert (SE : has_smcd (win m buf) = true -> has_ext (win m buf) = true)
    by (unfold has_smcd, has_ext; generalize (msg_pathv2 (win m buf)); intros n; lia).
  apply dies_bind.
  - intros l E. destruct (smcd_v2_dies m buf Hok L H8 (p2_SMCD old) (x_GIDNumber x) pos Hy ltac:(auto) l E) as [-> S].
    f_equal. specialize (SE S). unfold ext_last_words. rewrite Hw.
    specialize (R2 SE). specialize (B2 SE). rewrite SE in N2.
    rewrite (proj2 (Nat.ltb_ge L _)) by lia. unfold v2_smcd_start in B2.
    replace ((s_len buf <? v2_ext_start L (win m buf) + 4) || (s_cap buf <? v2_smcd_start L (win m buf))
             || (8 <? v2_eids L (win m buf))) with false by (unfold v2_smcd_start; lia).
    replace ((v2_eids L (win m buf) <? v2_eid_count L (win m buf)) && (s_cap buf <? L)) with false by lia.
    reflexivity.
  - intros l3 r3 E3. destruct r3 as [y|]; [|apply dies_ret].
    apply dies_bind; [|dies_done]. intros l E. exfalso.
    rewrite (sub_self buf), Trailer_sub in E by (assumption || lia). discriminate.
Qed.

Lemma Message_dies m buf old : slice_ok m buf -> message_wf old ->
  dies (Message_Parse m old buf) (fun l => l = last_words (kind_of old) m buf).
Proof.
  intros Hok Hwf. pose proof (s_bytes_length m buf Hok) as Hl. unfold last_words. rewrite Hl.
  destruct (s_len buf <? 8) eqn:E.
  { intros l. destruct old; cbn [Message_Parse message_wf] in *.
    all: unfold Proposal_Parse, ProposalV2_Parse, ConfirmSMCR_Parse, ConfirmSMCD_Parse, ConfirmSMCDv2_Parse,
      AcceptSMCR_Parse, AcceptSMCD_Parse, AcceptSMCDv2_Parse, Decline_Parse, DeclineV2_Parse.
    all: rewrite Header_Parse_panic by (apply Hwf || assumption || lia); cbn; intros [= <-]; reflexivity. }
  destruct (is_proposal (kind_of old)) eqn:K.
  2: { intros l EL. rewrite (fixed_dies m buf Hok ltac:(lia) old Hwf K l EL).
       destruct old; try discriminate; cbn [kind_of]; destruct (gives_up _ _); reflexivity. }
  destruct old; try discriminate; cbn [Message_Parse kind_of message_wf] in *; unfold gives_up; cbn [min_length]; rewrite orb_false_r.
  - apply dies_bind; [|dies_done]. destruct (declared (s_bytes m buf) <? 52)%N eqn:E52.
    + rewrite Proposal_Parse_run by assumption. unfold p1_run. cbv zeta. rewrite E.
      rewrite (proj2 (Nat.ltb_lt _ 52)) by lia. apply dies_fail. reflexivity.
    + apply proposal_dies; [assumption..|lia|lia].
  - apply dies_bind; [|dies_done]. destruct (declared (s_bytes m buf) <? 84)%N eqn:E84.
    + unfold ProposalV2_Parse. cbv zeta. rewrite Header_Parse_ok, bind_ret by (apply Hwf || assumption || lia).
      rewrite declared_hdr by lia. unfold ProposalV2Len. rewrite E84. rewrite fail_run_eq. apply dies_fail. reflexivity.
    + apply proposalv2_dies; [assumption..|lia|lia].
Qed.

