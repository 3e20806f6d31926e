(** * ClcAccepted: what Parse makes of any buffer that it accepts. Proofs only. *)

From Coq Require Import NArith ZArith Bool String Arith List Lia.
From Coq Require Import ZifyBool ZifyNat ZifyN.
From Verif Require Import GoBase GoFmt ClcModel Slices Wire WireLemmas ClcView Steps ClcParse ClcFixed ClcSmcdv2
  ClcProposal ClcProposalV2 ClcProposalV2Inv ClcProposalV2Any ClcMessage TextWhole Recover Accepted.
Import ListNotations.
Local Open Scope nat_scope.

(** [gives x Q]: if [x] returns, its logs and its result satisfy [Q] *)
Definition gives {A} (x : M A) (Q : list string -> A -> Prop) : Prop :=
  forall l a, x = (l, Done a) -> Q l a.

Lemma gives_ret {A} (a : A) (Q : list string -> A -> Prop) : Q [] a -> gives (ret a) Q.
Proof. intros H l b [= <- <-]. exact H. Qed.

Lemma gives_done {A} l (a : A) (Q : list string -> A -> Prop) : Q l a -> gives (l, Done a) Q.
Proof. intros H l' b [= <- <-]. exact H. Qed.

Lemma gives_panic {A} (Q : list string -> A -> Prop) : gives (@panic A) Q.
Proof. intros l a. discriminate. Qed.

Lemma gives_bind {A B} (x : M A) (f : A -> M B) Q1 Q :
  gives x Q1 -> (forall l a, Q1 l a -> gives (f a) (fun l' => Q (l ++ l'))) -> gives (bind x f) Q.
Proof.
  unfold gives. destruct x as [l [a| |]]; intros H1 H2 l' b; cbn; try discriminate.
  specialize (H1 l a eq_refl). specialize (H2 l a H1). destruct (f a) as [l2 [b2| |]]; cbn; try discriminate.
  intros [= <- <-]. exact (H2 l2 b2 eq_refl).
Qed.

Lemma fail_run_win {A} err m buf L (a : A) : L <= s_cap buf ->
  fail_run err m buf L a = ([err; dump_line (bytes_at (win m buf) 0 L)], Done a).
Proof. intros H. rewrite fail_run_ok by assumption. rewrite <- window_bytes by lia. reflexivity. Qed.

Lemma gives_fail {A} err m buf L (a : A) (Q : list string -> A -> Prop) :
  (L <= s_cap buf -> Q [err; dump_line (bytes_at (win m buf) 0 L)] a) -> gives (fail_run err m buf L a) Q.
Proof.
  intros H. destruct (le_lt_dec L (s_cap buf)) as [C|C].
  - rewrite fail_run_win by exact C. apply gives_done, H, C.
  - rewrite fail_run_bad by exact C. intros ? ?. discriminate.
Qed.

Lemma gives_over {A} err m buf L n c (a : A) (Q : list string -> A -> Prop) :
  Q (too_many_log err L (win m buf) n c) a -> gives (if n <? c then fail_run err m buf L a else ret a) Q.
Proof.
  unfold too_many_log. destruct (n <? c); intros H; [apply gives_fail; intros _; exact H|apply gives_ret, H].
Qed.

Lemma gives_trailer m buf t : slice_ok m buf -> 4 <= s_len buf -> length t = 4 ->
  gives (Trailer_Parse m t buf) (fun l t' =>
    l = trailer_log (last4 (s_bytes m buf)) /\ t' = last4 (s_bytes m buf)).
Proof.
  intros Hok H4 Ht. pose proof (len_le_cap _ _ Hok) as Hcap. pose proof (s_bytes_length m buf Hok) as Hb.
  assert (E : Trailer_Parse m t buf = (trailer_log (last4 (s_bytes m buf)), Done (last4 (s_bytes m buf)))).
  { rewrite (sub_self buf) at 1. rewrite Trailer_sub by (assumption || lia).
    rewrite last4_seg, Hb. cbn [Nat.add]. rewrite win_split by (assumption || lia). reflexivity. }
  rewrite E. apply gives_done. split; reflexivity.
Qed.

(** ** v1 *)

Lemma Proposal_accepted m buf old logs p : slice_ok m buf -> proposal_wf old ->
  let L := N.to_nat (declared (s_bytes m buf)) in
  52 <= L -> Proposal_Parse m old buf = (logs, Done p) ->
  v1_accepted L (reach m buf) (last4 (s_bytes m buf)) old logs p /\ p_Raw p = buf.
Proof.
  intros Hok Hwf L H52 E. pose proof (len_le_cap _ _ Hok) as Hcap. pose proof (win_length m buf Hok) as Hw.
  rewrite Proposal_Parse_run in E by assumption. revert E. unfold p1_run. cbv zeta. fold L.
  change (reach m buf) with (win m buf).
  destruct (s_len buf <? 8) eqn:E8; [discriminate|].
  rewrite (proj2 (Nat.ltb_ge L 52)) by lia.
  destruct (s_cap buf <? 40) eqn:E40; [discriminate|].
  assert (Ho : p1_off (win m buf) = ip_area_offset (win m buf))
    by (unfold p1_off, num, ip_area_offset; bits_in_bytes).
  assert (Hs : p1_start (win m buf) = ip_area_start (win m buf)).
  { unfold p1_start, ip_area_start. rewrite Ho.
    destruct (N.eqb_spec (ip_area_offset (win m buf)) 40) as [->|]; reflexivity. }
  rewrite Hs, Ho. rewrite (hdr_back m buf Hok) by lia.
  destruct ((ip_area_offset (win m buf) =? 40)%N && (s_cap buf <? 80)) eqn:E80; [discriminate|].
  unfold v1_accepted. cbv zeta.
  remember (ip_area_start (win m buf)) as start eqn:Est.
  assert (V : forall ip t,
    proposal_view (p1_of old buf (hdr_of (win m buf)) (win m buf) ip t)
      = decode (clc_header ++ proposal_body) (win m buf) /\
    (if (ip_area_offset (win m buf) =? 40)%N
     then proposal_smcd_view (p1_of old buf (hdr_of (win m buf)) (win m buf) ip t)
          = decode_at proposal_smcd_body (8 * 40) (win m buf)
     else proposal_smcd_view (p1_of old buf (hdr_of (win m buf)) (win m buf) ip t) = proposal_smcd_view old)).
  { intros ip t. split; [apply p1_fixed_view; lia|].
    destruct (N.eqb_spec (ip_area_offset (win m buf)) 40) as [E|E].
    - apply p1_smcd_view; [cbn [andb] in E80; lia|congruence].
    - unfold proposal_smcd_view, p1_of. cbn [p_SMCDGID p_reserved]. rewrite Ho.
      apply N.eqb_neq in E. rewrite E. reflexivity. }
  destruct (L <? start + 12) eqn:EL.
  { destruct (le_lt_dec L (s_cap buf)) as [C|C]; [rewrite fail_run_win by exact C|rewrite fail_run_bad by exact C; discriminate].
    intros [= <- <-]. destruct (V (p_IP old) (p_Trailer old)) as [V1 V2].
    split; [|reflexivity]. split; [exact V1|]. split; [exact V2|]. repeat split; reflexivity. }
  destruct (le_lt_dec (start + 8) (s_len buf)) as [S8|S8].
  2:{ rewrite (proj2 (Nat.ltb_lt _ _)) by lia. discriminate. }
  assert (Hcnt : N.to_nat (bn (win m buf) (start + 7)) = prefix_count (win m buf) start).
  { unfold prefix_count. rewrite bn_bits by lia. reflexivity. }
  rewrite Hcnt. remember (fitting L (start + 8) 17 (prefix_count (win m buf) start)) as n eqn:En.
  destruct (s_len buf <? start + 8 + 17 * n) eqn:EN; [discriminate|].
  intros E.
  assert (E' : (too_many_log "Error parsing CLC Proposal: IPv6 prefix count too big" L (win m buf) n
                  (prefix_count (win m buf) start) ++ trailer_log (last4 (s_bytes m buf)),
                Done (p1_of old buf (hdr_of (win m buf)) (win m buf)
                        (ip_of (win m buf) start n (p_IP old)) (last4 (s_bytes m buf)))) = (logs, Done p)).
  { rewrite <- E. unfold too_many_log. destruct (n <? prefix_count (win m buf) start); [|reflexivity].
    destruct (le_lt_dec L (s_cap buf)) as [C|C]; [rewrite fail_run_win by exact C; reflexivity|].
    rewrite fail_run_bad in E by exact C. discriminate. }
  injection E' as <- <-.
  destruct (V (ip_of (win m buf) start n (p_IP old)) (last4 (s_bytes m buf))) as [V1 V2].
  split; [|reflexivity]. split; [exact V1|]. split; [exact V2|]. split; [reflexivity|].
  split; [apply ip_view; lia|]. split; [|reflexivity].
  exists (prefixes_of (win m buf) (start + 8) n). split; [reflexivity|]. apply prefixes_view. lia.
Qed.

(** ** v2 *)

Section Any.
Context (m : mem) (buf : slice) (Hok : slice_ok m buf).
Local Notation bs := (s_bytes m buf).
Local Notation back := (win m buf).
Context (L : nat) (H8 : 8 <= s_len buf).
Local Notation np := (v2_prefixes L back).
Local Notation cnt := (prefix_count back 80).
Local Notation es := (v2_ext_start L back).
Local Notation ne := (v2_eids L back).
Local Notation ss := (v2_smcd_start L back).
Local Notation ng := (v2_gids L back).
Local Notation cap := (s_cap buf).
Local Notation len := (s_len buf).

Definition ip_got ip (r : option (IPInfo * nat)) (l : list string) : Prop :=
  match r with
  | None => ~ v2_ip_room L back /\ l = v2_no_room L back "IP Area Offset too big"
  | Some (i, pos) => v2_ip_room L back /\ pos = es /\ l = v2_prefix_log L back /\
      (i = if has_ip back then ip_of back 80 np ip else ip) /\ (has_ip back = true -> 88 + 17 * np <= cap)
  end.

Lemma ip_gives ip : ipinfo_wf ip -> 80 <= cap ->
  gives (ip_area_v2 m buf (hdr_of bs) L 80 ip) (fun l r => ip_got ip r l).
Proof.
  intros Hi H80. red in Hi. pose proof (len_le_cap _ _ Hok) as Hcap.
  unfold ip_got, ip_area_v2, SMCTypeN. rewrite path_back by assumption.
  unfold v2_ip_room, v2_ext_start, v2_prefix_log, has_ip.
  destruct (msg_path back =? 2)%N; cbn [negb].
  { apply gives_ret. repeat split; discriminate. }
  unfold short, TrailerLen, EyecatcherLen. change (80 + (4 + 1 + 2 + 1 + 4)) with 92.
  destruct (L <? 92) eqn:E.
  { rewrite fail_run_eq. apply gives_fail. intros. split; [|reflexivity]. intros C. specialize (C eq_refl). lia. }
  destruct (le_lt_dec 88 len) as [H88|H88].
  - match goal with |- gives ?x _ => eassert (E0 : x = _) end.
    { rewrite (sub_self buf). run m buf Hok. rewrite <- sub_self. reflexivity. }
    rewrite E0; clear E0.
    rewrite prefixes_v2_run by (assumption || lia). cbv zeta.
    rewrite count_back by (assumption || lia).
    change (N.to_nat (bits back (8 * 87) 8)) with cnt. fold (v2_prefixes L back).
    destruct (len <? 88 + 17 * np) eqn:E1; [apply gives_panic|].
    eapply gives_bind; [apply (gives_over _ _ _ _ _ _ _ (fun l r =>
      l = too_many_log v2_prefix_err L back np cnt /\
      r = (i_IPv6Prefixes ip ++ prefixes_of back 88 np, 88 + 17 * np))); split; reflexivity|].
    intros l a [-> ->]. apply gives_ret. rewrite app_nil_r.
    split; [intros; lia|]. split; [reflexivity|]. split; [reflexivity|]. split; [reflexivity|intros; lia].
  - match goal with |- gives ?x _ => replace x with (@panic (option (IPInfo * nat))) end.
    { apply gives_panic. }
    symmetry. rewrite (sub_self buf). run_panic m buf Hok.
Qed.

Definition ext_got x (r : option (V2Ext * nat)) (l : list string) : Prop :=
  match r with
  | None => ~ v2_ext_room L back /\ l = v2_no_room L back "Not enough space for Proposal v2 Extension"
  | Some (x', pos) => v2_ext_room L back /\ l = v2_eid_log L back /\
      (x' = if has_ext back then ext_of back es ne x else x) /\
      (has_ext back = true -> pos = ss /\ ss <= cap /\ x_GIDNumber x' = bits back (8 * (es + 1)) 8)
  end.

Lemma ext_gives x : v2ext_wf x ->
  gives (ext_v2 m buf (hdr_of bs) L es x) (fun l r => ext_got x r l).
Proof.
  intros (W5 & W6 & WA & WF). pose proof (len_le_cap _ _ Hok) as Hcap. pose proof (win_length m buf Hok) as Hw.
  unfold ext_got, ext_v2, SMCTypeN. rewrite pathv2_back by assumption. unfold v2_ext_room, v2_eid_log, has_ext.
  destruct (msg_pathv2 back =? 2)%N; cbn [negb].
  { apply gives_ret. repeat split; discriminate. }
  unfold short, ProposalV2ExtLen, TrailerLen, EyecatcherLen. change (40 + 4) with 44.
  destruct (L <? es + 44) eqn:E.
  { rewrite fail_run_eq. apply gives_fail. intros. split; [|reflexivity]. intros C. specialize (C eq_refl). lia. }
  destruct (le_lt_dec (es + 4) len) as [H4|H4].
  2:{ match goal with |- gives ?x _ => replace x with (@panic (option (V2Ext * nat))) end.
      { apply gives_panic. }
      symmetry. remember es as s eqn:Es. rewrite (sub_self buf). run_panic m buf Hok. }
  destruct (le_lt_dec (es + 40) cap) as [H40|H40].
  2:{ match goal with |- gives ?x _ => replace x with (@panic (option (V2Ext * nat))) end.
      { apply gives_panic. }
      symmetry. remember es as s eqn:Es. rewrite (sub_self buf). run_panic m buf Hok. }
  remember es as s eqn:Es.
  match goal with |- gives ?x _ => eassert (E0 : x = _) end.
  { rewrite (sub_self buf). run m buf Hok. rewrite <- sub_self. reflexivity. }
  rewrite E0; clear E0. subst s.
  replace (es + 1 + 1 + 1 + 1 + 2 + 2 + 32) with (es + 40) by lia.
  rewrite eids_v2_run by (assumption || lia). cbv zeta.
  rewrite count_back by (assumption || lia). fold (v2_eid_count L back). fold (v2_eids L back). cbn [Nat.add].
  destruct ((8 <? ne) || (cap <? es + 40 + 32 * ne)) eqn:E1; [apply gives_panic|].
  assert (G : b2n (nth (es + 1) back x00) = bits back (8 * (es + 1)) 8) by (rewrite <- bn_bits by lia; reflexivity).
  eapply gives_bind; [apply (gives_over _ _ _ _ _ _ _ (fun l r =>
      l = too_many_log v2_eid_err L back ne (v2_eid_count L back) /\
      r = (put (x_EIDArea x) 0 (eids_of back (es + 40) ne), es + 40 + 32 * ne))); split; reflexivity|].
  intros l a [-> ->]. apply gives_ret. rewrite app_nil_r.
  split; [intros; lia|]. split; [reflexivity|]. split.
  - remember es as s eqn:Es. unfold ext_of, num, bn. rewrite !be_acc0.
    replace (s + 1 + 1) with (s + 2) by lia. replace (s + 2 + 1) with (s + 3) by lia.
    replace (s + 3 + 1) with (s + 4) by lia. replace (s + 4 + 2) with (s + 6) by lia.
    replace (s + 6 + 2) with (s + 8) by lia.
    replace (s + 6 - (s + 4)) with 2 by lia. replace (s + 8 - (s + 6)) with 2 by lia.
    replace (s + 40 - (s + 8)) with 32 by lia. reflexivity.
  - intros _. split; [reflexivity|]. split; [unfold v2_smcd_start; lia|exact G].
Qed.

Definition smcd_got y (r : option SMCDExt) (l : list string) : Prop :=
  match r with
  | None => ~ v2_smcd_room L back /\ l = v2_no_room L back "Not enough space for SMC-D v2 Extension"
  | Some y' => v2_smcd_room L back /\ l = v2_gid_log L back /\
      (y' = if has_smcd back then smcd_ext_of back ss ng y else y) /\
      (has_smcd back = true -> ss + 48 + 10 * ng <= cap)
  end.

Lemma smcd_gives y gn pos : smcdext_wf y ->
  (has_smcd back = true -> pos = ss /\ ss <= cap /\ gn = bits back (8 * (es + 1)) 8) ->
  gives (smcd_v2 m buf (hdr_of bs) L pos gn y) (fun l r => smcd_got y r l).
Proof.
  intros (W5 & W6 & WA) Hp. pose proof (len_le_cap _ _ Hok) as Hcap.
  unfold smcd_got, smcd_v2, SMCTypeD, SMCTypeB. rewrite pathv2_back by assumption. fold (has_smcd back).
  unfold v2_smcd_room, v2_gid_log.
  destruct (has_smcd back) eqn:EH.
  2:{ apply gives_ret. repeat split; discriminate. }
  destruct (Hp eq_refl) as (-> & Hc & ->). clear Hp EH.
  unfold short, SMCDv2ExtLen, TrailerLen, EyecatcherLen. change (48 + 4) with 52.
  destruct (L <? ss + 52) eqn:E.
  { rewrite fail_run_eq. apply gives_fail. intros. split; [|reflexivity]. intros C. specialize (C eq_refl). lia. }
  fold (v2_gid_count L back).
  destruct (le_lt_dec (ss + 48) cap) as [H48|H48].
  2:{ match goal with |- gives ?x _ => replace x with (@panic (option SMCDExt)) end.
      { apply gives_panic. }
      symmetry. remember (v2_gid_count L back) as gc. remember ss as s eqn:Es. rewrite (sub_self buf). run_panic m buf Hok. }
  remember (v2_gid_count L back) as gc eqn:Eg. remember ss as s eqn:Es.
  match goal with |- gives ?x _ => eassert (E0 : x = _) end.
  { rewrite (sub_self buf). run m buf Hok. rewrite <- sub_self. reflexivity. }
  rewrite E0; clear E0. subst s gc.
  replace (ss + 32 + 16) with (ss + 48) by lia.
  rewrite gids_v2_run by (assumption || lia). cbv zeta. fold (v2_gids L back). cbn [Nat.add].
  destruct ((8 <? ng) || (cap <? ss + 48 + 10 * ng)) eqn:E1; [apply gives_panic|].
  eapply gives_bind; [apply (gives_over _ _ _ _ _ _ _ (fun l r =>
      l = too_many_log v2_gid_err L back ng (v2_gid_count L back) /\
      r = put (y_GIDArea y) 0 (gids_of back (ss + 48) ng))); split; reflexivity|].
  intros l a [-> ->]. apply gives_ret. rewrite app_nil_r.
  split; [intros; lia|]. split; [reflexivity|]. split; [|intros; lia].
  remember ss as s eqn:Es. unfold smcd_ext_of.
  replace (s + 32 - s) with 32 by lia. replace (s + 48 - (s + 32)) with 16 by lia. reflexivity.
Qed.

Definition p2_at (ip : IPInfo) (x : V2Ext) (y : SMCDExt) (t : list byte) : ProposalV2 :=
  mkProposalV2 buf (hdr_of back) (seg back 8 8) (seg back 16 16) (seg back 32 6) (num back 38 2)
    (num back 40 8) (num back 48 2) (num back 50 2) (seg back 52 28) ip x y t.

Lemma p2_at_view ip x y t : 80 <= cap ->
  proposalv2_view (p2_at ip x y t) = decode (clc_header_v2proposal ++ proposalv2_body) back.
Proof.
  intros H. pose proof (win_length m buf Hok) as Hw.
  unfold proposalv2_view. change (p2_Header (p2_at ip x y t)) with (hdr_of back).
  rewrite hdr_v2_view by lia. unfold p2_at, num, clc_header_v2proposal, proposalv2_body.
  cbn -[decode app bits seg BE b2n N.eqb win]. calc_layout. fields.
Qed.

Lemma ip_at old ip x y t : (has_ip back = true -> 88 + 17 * np <= cap) ->
  (ip = if has_ip back then ip_of back 80 np (p2_IP old) else p2_IP old) ->
  v2_ip_decoded L back old (p2_at ip x y t).
Proof.
  intros R ->. pose proof (win_length m buf Hok) as Hb. unfold v2_ip_decoded. cbn [p2_at p2_IP].
  destruct (has_ip back); [|reflexivity]. specialize (R eq_refl). split; [apply ip_view; lia|].
  eexists. split; [reflexivity|]. apply prefixes_view. lia.
Qed.

Lemma ext_at old ip x y t : (has_ext back = true -> ss <= cap) ->
  (x = if has_ext back then ext_of back es ne (p2_Ext old) else p2_Ext old) ->
  v2_ext_decoded L back old (p2_at ip x y t).
Proof.
  intros R ->. pose proof (win_length m buf Hok) as Hb. unfold v2_ext_decoded. cbn [p2_at p2_Ext].
  destruct (has_ext back); [|reflexivity]. specialize (R eq_refl). unfold v2_smcd_start in R.
  split; [apply ext_view; lia|]. unfold ext_of, put. cbn [x_EIDArea firstn app Nat.add].
  rewrite eids_of_length. reflexivity.
Qed.

Lemma smcd_at old ip x y t : (has_smcd back = true -> ss + 48 + 10 * ng <= cap) ->
  (y = if has_smcd back then smcd_ext_of back ss ng (p2_SMCD old) else p2_SMCD old) ->
  v2_smcd_decoded L back old (p2_at ip x y t).
Proof.
  intros R ->. pose proof (win_length m buf Hok) as Hb. unfold v2_smcd_decoded. cbn [p2_at p2_SMCD].
  destruct (has_smcd back); [|reflexivity]. specialize (R eq_refl).
  split; [apply smcd_ext_view; lia|]. unfold smcd_ext_of, put. cbn [y_GIDArea firstn app Nat.add].
  eexists. split; [unfold gids_of; rewrite map_length, seq_length; reflexivity|].
  apply gids_view. lia.
Qed.
End Any.

Lemma ProposalV2_gives m buf old : slice_ok m buf -> proposalv2_wf old ->
  let L := N.to_nat (declared (s_bytes m buf)) in
  84 <= L ->
  gives (ProposalV2_Parse m old buf) (fun logs p =>
    v2_accepted L (reach m buf) (last4 (s_bytes m buf)) old logs p /\ p2_Raw p = buf).
Proof.
  intros Hok Hwf L H84. change (reach m buf) with (win m buf).
  pose proof (len_le_cap _ _ Hok) as Hcap. destruct Hwf as (Hh & Hp & Hr & Hi & Hx & Hy & Ht).
  pose proof (s_bytes_length m buf Hok) as Hb.
  destruct (le_lt_dec 8 (s_len buf)) as [H8|H8].
  2:{ unfold ProposalV2_Parse. cbv zeta. rewrite Header_Parse_panic by assumption. apply gives_panic. }
  unfold ProposalV2_Parse. cbv zeta. rewrite Header_Parse_ok, bind_ret by assumption.
  rewrite declared_hdr by lia. fold L. unfold ProposalV2Len.
  replace (declared (s_bytes m buf) <? 84)%N with (L <? 84) by (unfold L; lia).
  rewrite (proj2 (Nat.ltb_ge L 84)) by lia.
  destruct (le_lt_dec 80 (s_cap buf)) as [H80|H80].
  2:{ match goal with |- gives ?x _ => replace x with (@panic ProposalV2) end.
      { apply gives_panic. }
      symmetry. unfold HeaderLen, PeerIDLen. remember (hdr_of (s_bytes m buf)) as h. remember L as L' eqn:EL.
      clear EL. rewrite (sub_self buf). run_panic m buf Hok. }
  match goal with |- gives ?x _ => eassert (E0 : x = _) end.
  { unfold HeaderLen, PeerIDLen. rewrite (sub_self buf). run m buf Hok. rewrite <- sub_self. reflexivity. }
  rewrite E0; clear E0. rewrite !be_acc0.
  eapply gives_bind; [apply (ip_gives m buf Hok L H8 (p2_IP old) Hi H80)|]. cbv beta.
  rewrite (hdr_back m buf Hok H8).
  intros l1 [[ip pos]|] G1; cbn [ip_got] in G1.
  2:{ destruct G1 as [R1 ->]. apply gives_ret. rewrite app_nil_r. split; [|reflexivity].
      split; [apply (p2_at_view m buf Hok H8 (p2_IP old) (p2_Ext old) (p2_SMCD old) (p2_Trailer old) H80)|].
      left. repeat split; auto. }
  destruct G1 as (R1 & -> & -> & EI & B1).
  eapply gives_bind; [rewrite <- (hdr_back m buf Hok H8); apply (ext_gives m buf Hok L H8 (p2_Ext old) Hx)|]. cbv beta.
  intros l2 [[x pos]|] G2; cbn [ext_got] in G2.
  2:{ destruct G2 as [R2 ->]. apply gives_ret. rewrite app_nil_r. split; [|reflexivity].
      split; [apply (p2_at_view m buf Hok H8 ip (p2_Ext old) (p2_SMCD old) (p2_Trailer old) H80)|].
      right. left. split; [exact R1|]. split; [exact R2|]. split; [reflexivity|].
      split; [apply (ip_at m buf Hok L H8 old ip (p2_Ext old) (p2_SMCD old) (p2_Trailer old) B1 EI)|].
      repeat split; auto. }
  destruct G2 as (R2 & -> & EX & B2).
  assert (SE : has_smcd (win m buf) = true -> has_ext (win m buf) = true)
    by (unfold has_smcd, has_ext; generalize (msg_pathv2 (win m buf)); intros n; lia).
  eapply gives_bind; [rewrite <- (hdr_back m buf Hok H8);
    apply (smcd_gives m buf Hok L H8 (p2_SMCD old) (x_GIDNumber x) pos Hy); auto|]. cbv beta.
  assert (B2' : has_ext (win m buf) = true -> v2_smcd_start L (win m buf) <= s_cap buf) by (intros; apply B2; assumption).
  intros l3 [y|] G3; cbn [smcd_got] in G3.
  2:{ destruct G3 as [R3 ->]. apply gives_ret. rewrite app_nil_r. split; [|reflexivity].
      split; [apply (p2_at_view m buf Hok H8 ip x (p2_SMCD old) (p2_Trailer old) H80)|].
      right. right. left. split; [exact R1|]. split; [exact R2|]. split; [exact R3|]. split; [reflexivity|].
      split; [apply (ip_at m buf Hok L H8 old ip x (p2_SMCD old) (p2_Trailer old) B1 EI)|].
      split; [apply (ext_at m buf Hok L H8 old ip x (p2_SMCD old) (p2_Trailer old) B2' EX)|].
      repeat split; auto. }
  destruct G3 as (R3 & -> & EY & B3).
  eapply gives_bind.
  { apply (gives_trailer m buf (p2_Trailer old)); (assumption || lia). }
  intros l4 t [-> ->]. apply gives_ret. rewrite app_nil_r. split; [|reflexivity].
  split; [apply (p2_at_view m buf Hok H8 ip x y (last4 (s_bytes m buf)) H80)|].
  right. right. right. split; [exact R1|]. split; [exact R2|]. split; [exact R3|]. split; [reflexivity|].
  split; [apply (ip_at m buf Hok L H8 old ip x y (last4 (s_bytes m buf)) B1 EI)|].
  split; [apply (ext_at m buf Hok L H8 old ip x y (last4 (s_bytes m buf)) B2' EX)|].
  split; [apply (smcd_at m buf Hok L H8 old ip x y (last4 (s_bytes m buf)) B3 EY)|]. reflexivity.
Qed.

(** ** All kinds of messages *)

Lemma not_panicked {A} (x : M A) l a : x = (l, Done a) -> snd x <> Panicked.
Proof. intros ->. discriminate. Qed.

Lemma gave_up m buf old logs new : slice_ok m buf -> message_wf old ->
  let bs := s_bytes m buf in
  8 <= s_len buf -> N.to_nat (declared bs) <= s_cap buf -> gives_up (kind_of old) bs = true ->
  Message_Parse m old buf = (logs, Done new) ->
  raw_of new = buf /\
  logs = [too_short_line (kind_of old) (msg_type bs); dump_line (bytes_at (reach m buf) 0 (N.to_nat (declared bs)))] /\
  exists h, header_view h = decode clc_header bs /\ h_Pathv2 h = msg_pathv2 bs /\ new = with_header old buf h.
Proof.
  intros Hok Hwf bs H8 HC G E. pose proof (s_bytes_length m buf Hok) as Hb. fold bs in Hb.
  assert (D : dump_line (bytes_at (reach m buf) 0 (N.to_nat (declared bs)))
              = dump_line (bytes_at (m (s_arr buf)) (s_off buf) (N.to_nat (declared bs)))).
  { rewrite <- window_bytes by exact HC. reflexivity. }
  rewrite D. clear D.
  assert (R : forall h, raw_of (with_header old buf h) = buf) by (intros h; destruct old; reflexivity).
  destruct (N.ltb_spec (declared bs) (min_length (kind_of old))) as [HL|HL].
  - destruct (Message_too_short m old buf Hok Hwf H8 HL HC) as (h & V1 & V2 & E'). fold bs in V1, V2, E'.
    rewrite E' in E. injection E as <- <-. split; [apply R|]. split; [reflexivity|].
    exists h. repeat split; assumption.
  - unfold gives_up in G. rewrite (proj2 (N.ltb_ge _ _)) in G by exact HL. cbn [orb] in G.
    destruct old as [p|p|a|a|a|c|c|c|d|d]; cbn [kind_of] in G; try discriminate G;
      cbn [Message_Parse kind_of min_length too_short_line with_header message_wf] in *.
    + destruct (AcceptSMCDv2_total m buf a Hok Hwf) as (_ & H & _). fold bs in H.
      rewrite H, short_run_ok in E by (assumption || lia). cbn [bind ret fst snd app] in E.
      injection E as <- <-. split; [reflexivity|]. split; [reflexivity|].
      exists (hdr_of bs). split; [apply hdr_view; lia|]. split; [apply hdr_pathv2; lia|reflexivity].
    + destruct (AcceptSMCDv2_total m buf (c2_Accept c) Hok Hwf) as (_ & H & _). fold bs in H.
      unfold ConfirmSMCDv2_Parse in E.
      rewrite H, short_run_ok in E by (assumption || lia). cbn [bind ret fst snd app] in E.
      injection E as <- <-. split; [reflexivity|]. split; [reflexivity|].
      exists (hdr_of bs). split; [apply hdr_view; lia|]. split; [apply hdr_pathv2; lia|reflexivity].
Qed.

Lemma gives_up_room m buf old logs new : slice_ok m buf -> message_wf old ->
  let bs := s_bytes m buf in
  Message_Parse m old buf = (logs, Done new) ->
  8 <= s_len buf /\ (gives_up (kind_of old) bs = true -> N.to_nat (declared bs) <= s_cap buf).
Proof.
  intros Hok Hwf bs E. pose proof (s_bytes_length m buf Hok) as Hb. fold bs in Hb.
  apply not_panicked in E. unfold gives_up.
  assert (NP : forall p, old = MProposal p -> snd (Proposal_Parse m p buf) <> Panicked).
  { intros p -> C. apply E. cbn [Message_Parse]. destruct (Proposal_Parse m p buf) as [l [a| |]]; try discriminate. reflexivity. }
  assert (NP2 : forall p, old = MProposalV2 p -> snd (ProposalV2_Parse m p buf) <> Panicked).
  { intros p -> C. apply E. cbn [Message_Parse]. destruct (ProposalV2_Parse m p buf) as [l [a| |]]; try discriminate. reflexivity. }
  assert (NF : is_proposal (kind_of old) = false ->
               ~ fixed_panics (kind_of old) (N.to_nat (declared bs)) (s_len buf) (s_cap buf)).
  { intros F C. apply E. apply (Message_fixed_panics m old buf Hok Hwf F). exact C. }
  clear E. unfold fixed_panics in NF.
  destruct old as [p|p|a|a|a|c|c|c|d|d]; cbn [kind_of min_length message_wf is_proposal] in *.
  - specialize (NP p eq_refl). destruct (Proposal_panics m buf p Hok Hwf) as [HP _]. cbv zeta in HP. fold bs in HP.
    rewrite HP in NP. clear HP. split; [|intros]; lia.
  - specialize (NP2 p eq_refl). destruct (ProposalV2_panics m buf p Hok Hwf) as [HP _]. cbv zeta in HP. fold bs in HP.
    rewrite HP in NP2. clear HP. split; [|intros]; lia.
  - specialize (NF eq_refl). split; [|intros]; lia.
  - specialize (NF eq_refl). split; [|intros]; lia.
  - specialize (NF eq_refl). split; [|intros]; lia.
  - specialize (NF eq_refl). split; [|intros]; lia.
  - specialize (NF eq_refl). split; [|intros]; lia.
  - specialize (NF eq_refl). split; [|intros]; lia.
  - specialize (NF eq_refl). split; [|intros]; lia.
  - specialize (NF eq_refl). split; [|intros]; lia.
Qed.

Lemma header_of_with old buf h : header_of (with_header old buf h) = h.
Proof. destruct old; reflexivity. Qed.

Lemma rotate (A B C D : Prop) : B /\ C -> A /\ D -> A /\ B /\ C /\ D.
Proof. tauto. Qed.

Lemma Message_accepted_wf m buf old logs new : slice_ok m buf -> message_wf old ->
  Message_Parse m old buf = (logs, Done new) -> accepted m buf old logs new.
Proof.
  intros Hok Hwf E. pose proof (s_bytes_length m buf Hok) as Hb.
  destruct (gives_up_room m buf old logs new Hok Hwf E) as [H8 HC].
  destruct (Message_header m old buf logs new Hok Hwf E) as (_ & Hh & _).
  unfold accepted. cbv zeta. apply rotate.
  { rewrite Hh. split; [apply hdr_view|apply hdr_pathv2]; lia. }
  clear Hh.
  destruct (gives_up (kind_of old) (s_bytes m buf)) eqn:G.
  { destruct (gave_up m buf old logs new Hok Hwf H8 (HC eq_refl) G E) as (A & B & h & _ & _ & C).
    split; [exact A|]. split; [exact B|]. rewrite C. rewrite header_of_with. reflexivity. }
  clear HC. set (bs := s_bytes m buf) in *.
  assert (NF : is_proposal (kind_of old) = false ->
               ~ fixed_panics (kind_of old) (N.to_nat (declared bs)) (s_len buf) (s_cap buf)).
  { intros F C. apply (not_panicked _ _ _ E). apply (Message_fixed_panics m old buf Hok Hwf F). exact C. }
  unfold fixed_panics in NF. unfold gives_up in G. unfold smcr_accepted, smcd_accepted, smcdv2_accepted.
  destruct old as [p|p|a|a|a|c|c|c|d|d]; cbn [Message_Parse kind_of min_length message_wf is_proposal] in *.
  - apply bind_inv in E. destruct E as (l1 & x & l2 & E & [= <- <-] & ->). rewrite app_nil_r.
    destruct (Proposal_accepted m buf p l1 x Hok Hwf) as [A R]; [fold bs; lia|exact E|].
    split; [exact R|exact A].
  - apply bind_inv in E. destruct E as (l1 & x & l2 & E & [= <- <-] & ->). rewrite app_nil_r.
    destruct (ProposalV2_gives m buf p Hok Hwf ltac:(fold bs; lia) l1 x E) as [A R].
    split; [exact R|exact A].
  - specialize (NF eq_refl).
    destruct (AcceptSMCR_decode m buf a Hok Hwf) as (x & E' & V & T & R); [lia|fold bs; lia|].
    rewrite E' in E. cbn [bind ret] in E. rewrite app_nil_r in E. injection E as <- <-. repeat split; assumption.
  - specialize (NF eq_refl).
    destruct (AcceptSMCD_decode m buf a Hok Hwf) as (x & E' & V & T & R); [lia|fold bs; lia|].
    rewrite E' in E. cbn [bind ret] in E. rewrite app_nil_r in E. injection E as <- <-. repeat split; assumption.
  - specialize (NF eq_refl).
    destruct (AcceptSMCDv2_decode m buf a Hok Hwf) as (x & E' & V & F & T & R); [lia|fold bs; lia|fold bs; lia|].
    rewrite E' in E. cbn [bind ret] in E. rewrite app_nil_r in E. injection E as <- <-. repeat split; assumption.
  - specialize (NF eq_refl). unfold ConfirmSMCR_Parse in E.
    destruct (AcceptSMCR_decode m buf (cr_Accept c) Hok Hwf) as (x & E' & V & T & R); [lia|fold bs; lia|].
    rewrite E' in E. cbn [bind ret] in E. rewrite !app_nil_r in E. injection E as <- <-. repeat split; assumption.
  - specialize (NF eq_refl). unfold ConfirmSMCD_Parse in E.
    destruct (AcceptSMCD_decode m buf (cd_Accept c) Hok Hwf) as (x & E' & V & T & R); [lia|fold bs; lia|].
    rewrite E' in E. cbn [bind ret] in E. rewrite !app_nil_r in E. injection E as <- <-. repeat split; assumption.
  - specialize (NF eq_refl). unfold ConfirmSMCDv2_Parse in E.
    destruct (AcceptSMCDv2_decode m buf (c2_Accept c) Hok Hwf) as (x & E' & V & F & T & R); [lia|fold bs; lia|fold bs; lia|].
    rewrite E' in E. cbn [bind ret] in E. rewrite !app_nil_r in E. injection E as <- <-. repeat split; assumption.
  - specialize (NF eq_refl).
    destruct (Decline_decode m buf d Hok Hwf) as (x & E' & V & T & R); [lia|fold bs; lia|].
    destruct (Decline_total m buf d Hok Hwf) as (_ & _ & _ & E2).
    assert (O : d_OSType x = d_OSType d).
    { rewrite E2 in E' by (fold bs; lia). injection E' as <-. reflexivity. }
    rewrite E' in E. cbn [bind ret] in E. rewrite app_nil_r in E. injection E as <- <-. repeat split; assumption.
  - specialize (NF eq_refl).
    destruct (DeclineV2_decode m buf d Hok Hwf) as (x & E' & V & T & R); [lia|fold bs; lia|].
    rewrite E' in E. cbn [bind ret] in E. rewrite app_nil_r in E. injection E as <- <-. repeat split; assumption.
Qed.

Theorem Message_accepted m buf old logs new : slice_ok m buf -> reachable old ->
  Message_Parse m old buf = (logs, Done new) -> accepted m buf old logs new.
Proof. intros Hok Hr. apply Message_accepted_wf; [exact Hok|apply reachable_wf, Hr]. Qed.

(** ** Nothing is left open by [accepted] *)

Lemma header_view_inj h g : header_view h = header_view g -> h_Pathv2 h = h_Pathv2 g -> h = g.
Proof. destruct h, g. cbn. intros [=] E. subst. reflexivity. Qed.

Lemma app_view_inj {A} (a b c d : list A) : length a = length b -> a ++ c = b ++ d -> c = d.
Proof. intros H E. apply (f_equal (skipn (length a))) in E. rewrite skipn_app, skipn_all, Nat.sub_diag in E.
  rewrite H, skipn_app, skipn_all, Nat.sub_diag in E. exact E. Qed.

Lemma smcr_inj a b : accept_smcr_view a = accept_smcr_view b -> ar_Header a = ar_Header b ->
  ar_Raw a = ar_Raw b -> ar_Trailer a = ar_Trailer b -> a = b.
Proof.
  intros V. apply app_view_inj in V; [|reflexivity]. revert V. destruct a, b. cbn.
  intros [=] -> -> ->. subst. reflexivity.
Qed.

Lemma smcd_inj a b : accept_smcd_view a = accept_smcd_view b -> ad_Header a = ad_Header b ->
  ad_Raw a = ad_Raw b -> ad_Trailer a = ad_Trailer b -> a = b.
Proof.
  intros V. apply app_view_inj in V; [|reflexivity]. revert V. destruct a, b. cbn.
  intros [=] -> -> ->. subst. reflexivity.
Qed.

Lemma smcdv2_inj a b : accept_smcdv2_view a = accept_smcdv2_view b -> fce_view a = fce_view b ->
  a2_Header a = a2_Header b -> a2_Raw a = a2_Raw b -> a2_Trailer a = a2_Trailer b -> a = b.
Proof.
  intros V. apply app_view_inj in V; [|reflexivity]. revert V. destruct a, b. cbn.
  intros [=] [=] -> -> ->. subst. reflexivity.
Qed.

Lemma decline_inj a b : decline_view a = decline_view b -> d_OSType a = d_OSType b ->
  d_Header a = d_Header b -> d_Raw a = d_Raw b -> d_Trailer a = d_Trailer b -> a = b.
Proof.
  intros V. apply app_view_inj in V; [|reflexivity]. revert V. destruct a, b. cbn.
  intros [=] -> -> -> ->. subst. reflexivity.
Qed.

Lemma declinev2_inj a b : declinev2_wf a -> declinev2_wf b -> declinev2_view a = declinev2_view b ->
  d2_Header a = d2_Header b -> d2_Raw a = d2_Raw b -> d2_Trailer a = d2_Trailer b -> a = b.
Proof.
  intros (_ & _ & W1 & _) (_ & _ & W2 & _) V. apply app_view_inj in V; [|reflexivity]. revert V W1 W2.
  destruct a as [? ? ? ? ? ra ?], b as [? ? ? ? ? rb ?]. cbn -[BE].
  intros [= -> -> -> R] W1 W2 -> -> ->. apply BE_inj in R; [|congruence]. subst. reflexivity.
Qed.

Lemma ipv6_prefix_view_inj l : forall l', map ipv6_prefix_view l = map ipv6_prefix_view l' -> l = l'.
Proof.
  induction l as [|[a b] l IH]; intros [|[a' b'] l']; try discriminate; [reflexivity|].
  cbn [map ipv6_prefix_view]. intros [= -> -> E]. f_equal. apply IH, E.
Qed.

Lemma gid_view_inj l : forall l', map gid_entry_view l = map gid_entry_view l' -> l = l'.
Proof.
  induction l as [|[a b] l IH]; intros [|[a' b'] l']; try discriminate; [reflexivity|].
  cbn [map gid_entry_view]. intros [= -> -> E]. f_equal. apply IH, E.
Qed.

Lemma ip_inj i j : ip_area_view i = ip_area_view j -> i_IPv6Prefixes i = i_IPv6Prefixes j -> i = j.
Proof. destruct i, j. cbn. intros [=] ->. subst. reflexivity. Qed.

Lemma ext_inj x y : v2_extension_view x = v2_extension_view y -> x_EIDArea x = x_EIDArea y -> x = y.
Proof. destruct x, y. cbn. intros [=] ->. subst. reflexivity. Qed.

Lemma smcdext_inj x y : smcdv2_extension_view x = smcdv2_extension_view y -> y_GIDArea x = y_GIDArea y -> x = y.
Proof. destruct x, y. cbn. intros [=] ->. subst. reflexivity. Qed.

Lemma proposal_inj p q : proposal_view p = proposal_view q -> proposal_smcd_view p = proposal_smcd_view q ->
  p_Header p = p_Header q -> p_Raw p = p_Raw q -> p_IP p = p_IP q -> p_Trailer p = p_Trailer q -> p = q.
Proof.
  intros V. apply app_view_inj in V; [|reflexivity]. revert V. destruct p, q. cbn.
  intros [=] [=] -> -> -> ->. subst. reflexivity.
Qed.

Lemma proposalv2_inj p q : proposalv2_view p = proposalv2_view q ->
  p2_Header p = p2_Header q -> p2_Raw p = p2_Raw q -> p2_IP p = p2_IP q -> p2_Ext p = p2_Ext q ->
  p2_SMCD p = p2_SMCD q -> p2_Trailer p = p2_Trailer q -> p = q.
Proof.
  intros V. apply app_view_inj in V; [|reflexivity]. revert V. destruct p, q. cbn.
  intros [=] -> -> -> -> -> ->. subst. reflexivity.
Qed.

Lemma v1_unique L back t o l1 p l2 q : v1_accepted L back t o l1 p -> v1_accepted L back t o l2 q ->
  p_Header p = p_Header q -> p_Raw p = p_Raw q -> l1 = l2 /\ p = q.
Proof.
  unfold v1_accepted. intros (V1 & S1 & R1) (V2 & S2 & R2) Hh Hr.
  assert (S : proposal_smcd_view p = proposal_smcd_view q).
  { destruct (ip_area_offset back =? 40)%N; congruence. }
  destruct (L <? ip_area_start back + 12).
  - destruct R1 as (-> & I1 & T1), R2 as (-> & I2 & T2). split; [reflexivity|].
    apply proposal_inj; congruence.
  - destruct R1 as (-> & I1 & (n1 & A1 & B1) & T1), R2 as (-> & I2 & (n2 & A2 & B2) & T2).
    split; [reflexivity|]. rewrite <- B2 in B1. apply ipv6_prefix_view_inj in B1. subst n2.
    apply proposal_inj; try congruence. apply ip_inj; congruence.
Qed.

Lemma ip_unique L back o p q : v2_ip_decoded L back o p -> v2_ip_decoded L back o q -> p2_IP p = p2_IP q.
Proof.
  unfold v2_ip_decoded. destruct (has_ip back); [|congruence].
  intros (I1 & n1 & A1 & B1) (I2 & n2 & A2 & B2).
  rewrite <- B2 in B1. apply ipv6_prefix_view_inj in B1. subst n2. apply ip_inj; congruence.
Qed.

Lemma ext_unique L back o p q : v2_ext_decoded L back o p -> v2_ext_decoded L back o q -> p2_Ext p = p2_Ext q.
Proof.
  unfold v2_ext_decoded. destruct (has_ext back); [|congruence].
  intros (I1 & A1) (I2 & A2). apply ext_inj; congruence.
Qed.

Lemma smcd_unique L back o p q : v2_smcd_decoded L back o p -> v2_smcd_decoded L back o q -> p2_SMCD p = p2_SMCD q.
Proof.
  unfold v2_smcd_decoded. destruct (has_smcd back); [|congruence].
  intros (I1 & n1 & A1 & B1) (I2 & n2 & A2 & B2).
  rewrite <- B2 in B1. apply gid_view_inj in B1. subst n2. apply smcdext_inj; congruence.
Qed.

Lemma v2_unique L back t o l1 p l2 q : v2_accepted L back t o l1 p -> v2_accepted L back t o l2 q ->
  p2_Header p = p2_Header q -> p2_Raw p = p2_Raw q -> l1 = l2 /\ p = q.
Proof.
  unfold v2_accepted. intros (V1 & R1) (V2 & R2) Hh Hr. rewrite <- V2 in V1.
  destruct R1 as [(N1 & -> & I1 & X1 & S1 & T1)|[(Y1 & N1 & -> & I1 & X1 & S1 & T1)|[(Y1 & Z1 & N1 & -> & I1 & X1 & S1 & T1)|(Y1 & Z1 & N1 & -> & I1 & X1 & S1 & T1)]]];
  destruct R2 as [(N2 & -> & I2 & X2 & S2 & T2)|[(Y2 & N2 & -> & I2 & X2 & S2 & T2)|[(Y2 & Z2 & N2 & -> & I2 & X2 & S2 & T2)|(Y2 & Z2 & N2 & -> & I2 & X2 & S2 & T2)]]];
  try contradiction; (split; [reflexivity|]); apply proposalv2_inj; try congruence;
  eauto using ip_unique, ext_unique, smcd_unique.
Qed.

Lemma accepted_unique m buf old l1 n1 l2 n2 : message_wf n1 -> message_wf n2 ->
  accepted m buf old l1 n1 -> accepted m buf old l2 n2 -> l1 = l2 /\ n1 = n2.
Proof.
  intros W1 W2. unfold accepted. cbv zeta. intros (R1 & V1 & P1 & A1) (R2 & V2 & P2 & A2).
  assert (H : header_of n1 = header_of n2) by (apply header_view_inj; congruence).
  assert (R : raw_of n1 = raw_of n2) by congruence. clear V1 V2 P1 P2.
  destruct (gives_up (kind_of old) (s_bytes m buf)).
  { destruct A1 as [-> A1], A2 as [-> A2]. split; [reflexivity|congruence]. }
  destruct old as [o|o|o|o|o|o|o|o|o|o], n1 as [a|a|a|a|a|a|a|a|a|a]; try (destruct A1 as (_ & _ & []); fail); try contradiction;
    destruct n2 as [b|b|b|b|b|b|b|b|b|b]; try (destruct A2 as (_ & _ & []); fail); try contradiction;
    cbn [header_of raw_of trailer_of message_wf] in *.
  1: destruct (v1_unique _ _ _ _ _ _ _ _ A1 A2 H R) as [-> ->]; split; reflexivity.
  1: destruct (v2_unique _ _ _ _ _ _ _ _ A1 A2 H R) as [-> ->]; split; reflexivity.
  all: destruct A1 as (-> & T1 & A1), A2 as (-> & T2 & A2); rewrite <- T2 in T1;
    unfold smcr_accepted, smcd_accepted, smcdv2_accepted in *; (split; [reflexivity|]); f_equal.
  - apply smcr_inj; congruence.
  - apply smcd_inj; congruence.
  - destruct A1 as [A1 F1], A2 as [A2 F2]. apply smcdv2_inj; try congruence.
  - destruct a as [a], b as [b]. f_equal. cbn [cr_Accept] in *. apply smcr_inj; congruence.
  - destruct a as [a], b as [b]. f_equal. cbn [cd_Accept] in *. apply smcd_inj; congruence.
  - destruct a as [a], b as [b]. f_equal. cbn [c2_Accept] in *.
    destruct A1 as [A1 F1], A2 as [A2 F2]. apply smcdv2_inj; congruence.
  - destruct A1 as [A1 O1], A2 as [A2 O2]. apply decline_inj; congruence.
  - apply declinev2_inj; try assumption; congruence.
Qed.

Lemma Message_no_exit m old buf : slice_ok m buf -> message_wf old -> snd (Message_Parse m old buf) <> Exited.
Proof.
  intros Hok Hwf.
  assert (MB : forall A B (f : A -> B) (x : M A), snd x <> Exited -> snd (bind x (fun y => ret (f y))) <> Exited).
  { intros A B f [l [a| |]] H; cbn in *; congruence. }
  destruct (is_proposal (kind_of old)) eqn:K.
  - destruct old; try discriminate K; cbn [Message_Parse message_wf] in *; apply MB.
    + apply (Proposal_panics m buf _ Hok Hwf).
    + apply (ProposalV2_panics m buf _ Hok Hwf).
  - apply (Message_fixed_panics m old buf Hok Hwf K).
Qed.

Theorem Message_accepts m buf old logs new : slice_ok m buf -> reachable old ->
  (Message_Parse m old buf = (logs, Done new) <->
   snd (Message_Parse m old buf) <> Panicked /\ message_wf new /\ accepted m buf old logs new).
Proof.
  intros Hok Hr. apply reachable_wf in Hr. split.
  - intros E. split; [apply (not_panicked _ _ _ E)|]. split; [|apply Message_accepted_wf; assumption].
    apply (Message_keeps_wf m old buf logs new Hok Hr E).
  - intros (NP & W & A). pose proof (Message_no_exit m old buf Hok Hr) as NE.
    destruct (Message_Parse m old buf) as [l [n| |]] eqn:E; cbn in NP, NE; try congruence.
    pose proof (Message_accepted_wf m buf old l n Hok Hr E) as A'.
    pose proof (Message_keeps_wf m old buf l n Hok Hr E) as W'.
    destruct (accepted_unique m buf old l n logs new W' W A' A) as [-> ->]. reflexivity.
Qed.
