(** * ClcProposalV2Any: when ProposalV2.Parse panics, for any buffer. Proofs only. *)

From Coq Require Import NArith ZArith Bool String Arith List Lia.
From Coq Require Import ZifyBool ZifyNat ZifyN.
From Verif Require Import GoBase GoFmt ClcModel Slices Wire WireLemmas ClcView Steps ClcParse ClcFixed
  ClcProposal ClcProposalV2 ClcProposalV2Inv.
Import ListNotations.
Local Open Scope nat_scope.

(** [ends x P Q]: [x] panics exactly if [P], never exits, and what it returns satisfies [Q] *)
Definition ends {A} (x : M A) (P : Prop) (Q : A -> Prop) : Prop :=
  match snd x with Done a => ~ P /\ Q a | Panicked => P | Exited => False end.

Lemma ends_ret {A} (a : A) (P : Prop) (Q : A -> Prop) : ~ P -> Q a -> ends (ret a) P Q.
Proof. intros; split; assumption. Qed.

Lemma ends_panic {A} (P : Prop) (Q : A -> Prop) : P -> ends (@panic A) P Q.
Proof. exact (fun H => H). Qed.

Lemma ends_bind {A B} (x : M A) (f : A -> M B) (P1 : Prop) (Q1 : A -> Prop) (P : Prop) (Q : B -> Prop) :
  ends x P1 Q1 -> (P1 -> P) -> (forall a, ~ P1 -> Q1 a -> ends (f a) P Q) -> ends (bind x f) P Q.
Proof.
  unfold ends. destruct x as [l [a| |]]; cbn; intros H1 H2 H3; auto.
  destruct H1 as [H1 Hq]. specialize (H3 a H1 Hq). destruct (f a) as [l' r]. exact H3.
Qed.

Lemma ends_fail {A} err m buf L (a : A) (P : Prop) (Q : A -> Prop) :
  (s_cap buf < L -> P) -> (L <= s_cap buf -> ~ P /\ Q a) -> ends (fail_run err m buf L a) P Q.
Proof.
  intros H1 H2. unfold ends, fail_run. destruct (L <=? s_cap buf) eqn:E; cbn; [apply H2|apply H1]; lia.
Qed.

Section Any.
Context (m : mem) (buf : slice) (Hok : slice_ok m buf).
Local Notation bs := (s_bytes m buf).
Local Notation back := (win m buf).
Context (L : nat) (H8 : 8 <= s_len buf).

Lemma hdr_back : hdr_of bs = hdr_of back.
Proof.
  unfold hdr_of, num. rewrite !bn_win by (assumption || lia). rewrite !win_split by (assumption || lia). reflexivity.
Qed.

Lemma path_back : h_Path (hdr_of bs) = msg_path back.
Proof.
  pose proof (len_le_cap _ _ Hok). pose proof (win_length m buf Hok). rewrite hdr_back. apply hdr_path. lia.
Qed.

Lemma pathv2_back : h_Pathv2 (hdr_of bs) = msg_pathv2 back.
Proof.
  pose proof (len_le_cap _ _ Hok). pose proof (win_length m buf Hok). rewrite hdr_back. apply hdr_pathv2. lia.
Qed.

Lemma count_back i : i < s_len buf -> N.to_nat (b2n (nth i back x00)) = N.to_nat (bits back (8 * i) 8).
Proof.
  intros H. pose proof (len_le_cap _ _ Hok). pose proof (win_length m buf Hok).
  rewrite <- bn_bits by lia. reflexivity.
Qed.

Local Notation np := (v2_prefixes L back).
Local Notation cnt := (prefix_count back 80).
Local Notation es := (v2_ext_start L back).
Local Notation ne := (v2_eids L back).
Local Notation ss := (v2_smcd_start L back).
Local Notation ng := (v2_gids L back).
Local Notation cap := (s_cap buf).
Local Notation len := (s_len buf).

Lemma ip_any ip : ipinfo_wf ip -> 80 <= cap ->
  ends (ip_area_v2 m buf (hdr_of bs) L 80 ip)
    (has_ip back = true /\ ((L < 92 /\ cap < L) \/ (92 <= L /\ (len < 88 + 17 * np \/ (np < cnt /\ cap < L)))))
    (fun r => match r with
              | None => has_ip back = true /\ L < 92
              | Some (i, pos) => v2_ip_room L back /\ pos = es
              end).
Proof.
  intros Hi H80. red in Hi. pose proof (len_le_cap _ _ Hok) as Hcap.
  unfold ip_area_v2, SMCTypeN. rewrite path_back. unfold v2_ip_room, v2_ext_start, has_ip.
  destruct (msg_path back =? 2)%N; cbn [negb].
  { apply ends_ret; [intros [[=] _]|]. split; [discriminate|reflexivity]. }
  unfold short, TrailerLen, EyecatcherLen. change (80 + (4 + 1 + 2 + 1 + 4)) with 92.
  destruct (L <? 92) eqn:E.
  { rewrite fail_run_eq. apply ends_fail; [intros; split; [reflexivity|lia]|intros; split; [|split; [reflexivity|]]; lia]. }
  destruct (le_lt_dec 88 len) as [H88|H88].
  - match goal with |- ends ?x _ _ => eassert (E0 : x = _) end.
    { rewrite (sub_self buf). run m buf Hok. rewrite <- sub_self. reflexivity. }
    rewrite E0; clear E0.
    rewrite prefixes_v2_run by (assumption || lia). cbv zeta.
    rewrite count_back by lia. change (N.to_nat (bits back (8 * 87) 8)) with cnt. fold (v2_prefixes L back).
    destruct (len <? 88 + 17 * np) eqn:E1.
    { apply ends_panic. split; [reflexivity|lia]. }
    destruct (np <? cnt) eqn:E2.
    + eapply (ends_bind _ _ (cap < L) (fun r => snd r = 88 + 17 * np)).
      * apply ends_fail; [auto|]. intros; split; [lia|reflexivity].
      * intros; split; [reflexivity|lia].
      * intros [a pos] N1 Q1. cbn [snd] in Q1. apply ends_ret; [intros [_ ?]; lia|]. split; [lia|exact Q1].
    + rewrite bind_ret. apply ends_ret; [intros [_ ?]; lia|]. split; [lia|reflexivity].
  - match goal with |- ends ?x _ _ => replace x with (@panic (option (IPInfo * nat))) end.
    { apply ends_panic. split; [reflexivity|lia]. }
    symmetry. rewrite (sub_self buf). run_panic m buf Hok.
Qed.

Lemma ext_any x : v2ext_wf x ->
  ends (ext_v2 m buf (hdr_of bs) L es x)
    (has_ext back = true /\
     ((L < es + 44 /\ cap < L) \/
      (es + 44 <= L /\ (len < es + 4 \/ cap < es + 40 + 32 * ne \/ 8 < ne \/ (ne < v2_eid_count L back /\ cap < L)))))
    (fun r => match r with
              | None => has_ext back = true /\ L < es + 44
              | Some (x', pos) => v2_ext_room L back /\
                  (has_ext back = true -> pos = ss /\ ss <= cap /\ x_GIDNumber x' = bits back (8 * (es + 1)) 8)
              end).
Proof.
  intros (W5 & W6 & WA & WF). pose proof (len_le_cap _ _ Hok) as Hcap. pose proof (win_length m buf Hok) as Hw.
  unfold ext_v2, SMCTypeN. rewrite pathv2_back. unfold v2_ext_room, has_ext.
  destruct (msg_pathv2 back =? 2)%N; cbn [negb].
  { apply ends_ret; [intros [[=] _]|]. split; discriminate. }
  unfold short, ProposalV2ExtLen, TrailerLen, EyecatcherLen. change (40 + 4) with 44.
  destruct (L <? es + 44) eqn:E.
  { rewrite fail_run_eq. apply ends_fail; [intros; split; [reflexivity|lia]|intros; split; [|split; [reflexivity|]]; lia]. }
  destruct (le_lt_dec (es + 4) len) as [H4|H4].
  2:{ match goal with |- ends ?x _ _ => replace x with (@panic (option (V2Ext * nat))) end.
      { apply ends_panic. split; [reflexivity|lia]. }
      symmetry. remember es as s eqn:Es. rewrite (sub_self buf). run_panic m buf Hok. }
  destruct (le_lt_dec (es + 40) cap) as [H40|H40].
  2:{ match goal with |- ends ?x _ _ => replace x with (@panic (option (V2Ext * nat))) end.
      { apply ends_panic. split; [reflexivity|lia]. }
      symmetry. remember es as s eqn:Es. rewrite (sub_self buf). run_panic m buf Hok. }
  remember es as s eqn:Es.
  match goal with |- ends ?x _ _ => eassert (E0 : x = _) end.
  { rewrite (sub_self buf). run m buf Hok. rewrite <- sub_self. reflexivity. }
  rewrite E0; clear E0. subst s.
  replace (es + 1 + 1 + 1 + 1 + 2 + 2 + 32) with (es + 40) by lia.
  rewrite eids_v2_run by (assumption || lia). cbv zeta.
  rewrite count_back by lia. fold (v2_eid_count L back). fold (v2_eids L back). cbn [Nat.add].
  destruct ((8 <? ne) || (cap <? es + 40 + 32 * ne)) eqn:E1.
  { apply ends_panic. split; [reflexivity|lia]. }
  assert (G : b2n (nth (es + 1) back x00) = bits back (8 * (es + 1)) 8) by (rewrite <- bn_bits by lia; reflexivity).
  destruct (ne <? v2_eid_count L back) eqn:E2.
  - eapply (ends_bind _ _ (cap < L) (fun r => snd r = es + 40 + 32 * ne)).
    + apply ends_fail; [auto|]. intros; split; [lia|reflexivity].
    + intros; split; [reflexivity|lia].
    + intros [a pos] N1 Q1. cbn [snd] in Q1. apply ends_ret; [intros [_ ?]; lia|]. split; [lia|].
      intros _. split; [exact Q1|]. split; [unfold v2_smcd_start; lia|exact G].
  - rewrite bind_ret. apply ends_ret; [intros [_ ?]; lia|]. split; [lia|].
    intros _. split; [reflexivity|]. split; [unfold v2_smcd_start; lia|exact G].
Qed.

Lemma smcd_any y gn pos : smcdext_wf y ->
  (has_smcd back = true -> pos = ss /\ ss <= cap /\ gn = bits back (8 * (es + 1)) 8) ->
  ends (smcd_v2 m buf (hdr_of bs) L pos gn y)
    (has_smcd back = true /\
     ((L < ss + 52 /\ cap < L) \/
      (ss + 52 <= L /\ (cap < ss + 48 + 10 * ng \/ 8 < ng \/ (ng < v2_gid_count L back /\ cap < L)))))
    (fun r => True).
Proof.
  intros (W5 & W6 & WA) Hp. pose proof (len_le_cap _ _ Hok) as Hcap.
  unfold smcd_v2, SMCTypeD, SMCTypeB. rewrite pathv2_back. fold (has_smcd back).
  destruct (has_smcd back) eqn:EH.
  2:{ apply ends_ret; [intros [[=] _]|exact I]. }
  destruct (Hp eq_refl) as (-> & Hc & ->). clear Hp EH.
  unfold short, SMCDv2ExtLen, TrailerLen, EyecatcherLen. change (48 + 4) with 52.
  destruct (L <? ss + 52) eqn:E.
  { rewrite fail_run_eq. apply ends_fail; [intros; split; [reflexivity|lia]|intros; split; [|exact I]; lia]. }
  fold (v2_gid_count L back).
  destruct (le_lt_dec (ss + 48) cap) as [H48|H48].
  2:{ match goal with |- ends ?x _ _ => replace x with (@panic (option SMCDExt)) end.
      { apply ends_panic. split; [reflexivity|lia]. }
      symmetry. remember (v2_gid_count L back) as gc. remember ss as s eqn:Es. rewrite (sub_self buf). run_panic m buf Hok. }
  remember (v2_gid_count L back) as gc eqn:Eg. remember ss as s eqn:Es.
  match goal with |- ends ?x _ _ => eassert (E0 : x = _) end.
  { rewrite (sub_self buf). run m buf Hok. rewrite <- sub_self. reflexivity. }
  rewrite E0; clear E0. subst s gc.
  replace (ss + 32 + 16) with (ss + 48) by lia.
  rewrite gids_v2_run by (assumption || lia). cbv zeta. fold (v2_gids L back). cbn [Nat.add].
  destruct ((8 <? ng) || (cap <? ss + 48 + 10 * ng)) eqn:E1.
  { apply ends_panic. split; [reflexivity|lia]. }
  destruct (ng <? v2_gid_count L back) eqn:E2.
  - eapply (ends_bind _ _ (cap < L) (fun r => True)).
    + apply ends_fail; [auto|]. intros; split; [lia|exact I].
    + intros; split; [reflexivity|lia].
    + intros a N1 _. apply ends_ret; [intros [_ ?]; lia|exact I].
  - rewrite bind_ret. apply ends_ret; [intros [_ ?]; lia|exact I].
Qed.
End Any.

Lemma ends_iff {A} (x : M A) P Q : ends x P Q -> (snd x = Panicked <-> P) /\ snd x <> Exited.
Proof.
  unfold ends. destruct (snd x); intros H.
  - destruct H as [H _]. split; [split; [discriminate|intros; tauto]|discriminate].
  - split; [tauto|discriminate].
  - destruct H.
Qed.

Theorem ProposalV2_panics m buf old : slice_ok m buf -> proposalv2_wf old ->
  let bs := s_bytes m buf in
  let back := bytes_at (m (s_arr buf)) (s_off buf) (s_cap buf) in
  let L := N.to_nat (declared bs) in
  let len := s_len buf in
  let cap := s_cap buf in
  let np := v2_prefixes L back in
  let es := v2_ext_start L back in
  let ne := v2_eids L back in
  let ss := v2_smcd_start L back in
  let ng := v2_gids L back in
  (snd (ProposalV2_Parse m old buf) = Panicked <->
   len < 8 \/ (L < 84 /\ cap < L) \/
   (84 <= L /\
    (cap < 80 \/
     (has_ip back = true /\
      ((L < 92 /\ cap < L) \/
       (92 <= L /\ (len < 88 + 17 * np \/ (np < prefix_count back 80 /\ cap < L))))) \/
     (v2_ip_room L back /\ has_ext back = true /\
      ((L < es + 44 /\ cap < L) \/
       (es + 44 <= L /\
        (len < es + 4 \/ cap < es + 40 + 32 * ne \/ 8 < ne \/ (ne < v2_eid_count L back /\ cap < L))))) \/
     (v2_ip_room L back /\ v2_ext_room L back /\ has_smcd back = true /\
      ((L < ss + 52 /\ cap < L) \/
       (ss + 52 <= L /\ (cap < ss + 48 + 10 * ng \/ 8 < ng \/ (ng < v2_gid_count L back /\ cap < L)))))))) /\
  snd (ProposalV2_Parse m old buf) <> Exited.
Proof.
  intros Hok Hwf bs back L len cap np es ne ss ng. apply (ends_iff _ _ (fun _ => True)).
  pose proof (len_le_cap _ _ Hok) as Hcap. destruct Hwf as (Hh & Hp & Hr & Hi & Hx & Hy & Ht).
  destruct (le_lt_dec 8 (s_len buf)) as [H8|H8].
  2:{ unfold ProposalV2_Parse. cbv zeta. rewrite Header_Parse_panic by assumption. apply ends_panic. left. exact H8. }
  unfold ProposalV2_Parse. cbv zeta. rewrite Header_Parse_ok, bind_ret by assumption.
  pose proof (s_bytes_length m buf Hok) as Hb.
  rewrite declared_hdr by lia. fold bs. fold L. unfold ProposalV2Len.
  replace (declared bs <? 84)%N with (L <? 84) by (unfold L; lia).
  destruct (L <? 84) eqn:E84.
  { rewrite fail_run_eq. apply ends_fail; intros; [right; left; unfold cap; lia|]. split; [|exact I]. unfold len, cap. lia. }
  destruct (le_lt_dec 80 (s_cap buf)) as [H80|H80].
  2:{ match goal with |- ends ?x _ _ => replace x with (@panic ProposalV2) end.
      { apply ends_panic. right. right. split; [lia|]. left. exact H80. }
      symmetry. unfold HeaderLen, PeerIDLen. remember (hdr_of bs) as h. remember L as L' eqn:EL. clear EL. rewrite (sub_self buf). run_panic m buf Hok. }
  match goal with |- ends ?x _ _ => eassert (E0 : x = _) end.
  { unfold HeaderLen, PeerIDLen. rewrite (sub_self buf). run m buf Hok. rewrite <- sub_self. reflexivity. }
  rewrite E0; clear E0.
  eapply ends_bind; [apply (ip_any m buf Hok L H8 (p2_IP old) Hi H80)| |].
  { intros A. right. right. split; [lia|]. right. left. exact A. }
  change (win m buf) with back. intros r NA QA. fold np in NA. destruct r as [[ip pos]|].
  2:{ destruct QA as [Q1 Q2]. fold back in Q1. apply ends_ret; [|exact I].
      intros [C|[C|[_ [C|[C|[C|C]]]]]]; unfold len, cap in *; try lia.
      - exact (NA C).
      - destruct C as [C _]. specialize (C Q1). lia.
      - destruct C as [C _]. specialize (C Q1). lia. }
  destruct QA as [RI ->].
  eapply ends_bind; [apply (ext_any m buf Hok L H8 (p2_Ext old) Hx)| |].
  { intros A. right. right. split; [lia|]. right. right. left. split; [exact RI|exact A]. }
  change (win m buf) with back. intros r NB QB. fold es ne in NB. destruct r as [[x pos]|].
  2:{ destruct QB as [Q1 Q2]. fold back es in Q1, Q2. apply ends_ret; [|exact I].
      intros [C|[C|[_ [C|[C|[C|C]]]]]]; unfold len, cap in *; try lia.
      - exact (NA C).
      - exact (NB (proj2 C)).
      - destruct C as [_ [C _]]. specialize (C Q1). fold es in C. lia. }
  destruct QB as [RE QB]. fold back in QB, RE.
  eapply ends_bind; [apply (smcd_any m buf Hok L H8 (p2_SMCD old) (x_GIDNumber x) pos Hy)| |].
  { change (win m buf) with back. intros S. apply QB. revert S. unfold has_smcd, has_ext. generalize (msg_pathv2 back). intros n. lia. }
  { intros A. right. right. split; [lia|]. right. right. right. split; [exact RI|]. split; [exact RE|exact A]. }
  change (win m buf) with back. intros r NC _. fold ss ng in NC.
  assert (NP : ~ (len < 8 \/ (L < 84 /\ cap < L) \/
   (84 <= L /\
    (cap < 80 \/
     (has_ip back = true /\
      ((L < 92 /\ cap < L) \/
       (92 <= L /\ (len < 88 + 17 * np \/ (np < prefix_count back 80 /\ cap < L))))) \/
     (v2_ip_room L back /\ has_ext back = true /\
      ((L < es + 44 /\ cap < L) \/
       (es + 44 <= L /\
        (len < es + 4 \/ cap < es + 40 + 32 * ne \/ 8 < ne \/ (ne < v2_eid_count L back /\ cap < L))))) \/
     (v2_ip_room L back /\ v2_ext_room L back /\ has_smcd back = true /\
      ((L < ss + 52 /\ cap < L) \/
       (ss + 52 <= L /\ (cap < ss + 48 + 10 * ng \/ 8 < ng \/ (ng < v2_gid_count L back /\ cap < L))))))))).
  { intros [C|[C|[_ [C|[C|[C|C]]]]]]; unfold len, cap in *; try lia.
    - exact (NA C).
    - exact (NB (proj2 C)).
    - exact (NC (proj2 (proj2 C))). }
  destruct r as [y|]; [|apply ends_ret; [exact NP|exact I]].
  eapply (ends_bind _ _ False (fun _ => True)).
  - rewrite (sub_self buf). rewrite Trailer_sub by (assumption || lia). split; [tauto|exact I].
  - tauto.
  - intros t _ _. apply ends_ret; [exact NP|exact I].
Qed.
