(** * SoundFacts: sound messages are decoded silently, and only they. Proofs only. *)

From Coq Require Import NArith ZArith Bool String Arith List Lia.
From Coq Require Import ZifyBool ZifyNat ZifyN.
From Verif Require Import GoBase GoFmt ClcModel Slices Wire WireLemmas ClcView Steps ClcParse ClcFixed
  ClcProposal ClcProposalV2 ClcProposalV2Inv ClcMessage ClcNew Dumps Names Show TextFacts ClcText TextWhole TextRest Sound ClcHeader.
Import ListNotations.
Local Open Scope nat_scope.

Lemma fitting_all L q size n : 0 < size -> q + 4 <= L ->
  (fitting L q size n = n <-> q + size * n + 4 <= L).
Proof.
  intros Hs H. unfold fitting. split.
  - intros E. assert (n <= (L - 4 - q) / size) by lia.
    pose proof (Nat.mul_div_le (L - 4 - q) size ltac:(lia)). nia.
  - intros E. apply Nat.min_l. apply Nat.div_le_lower_bound; lia.
Qed.

Lemma fitting_lt L q size n : fitting L q size n <= n.
Proof. unfold fitting. lia. Qed.

Lemma trailer_log_nil t : trailer_log t = [] <-> is_eyecatcher t = true.
Proof. unfold trailer_log. destruct (is_eyecatcher t); split; congruence. Qed.

Lemma too_many_nil err L bs n c : n <= c -> (too_many_log err L bs n c = [] <-> n = c).
Proof.
  intros H. unfold too_many_log. destruct (n <? c) eqn:E.
  - apply Nat.ltb_lt in E. split; [discriminate|lia].
  - apply Nat.ltb_ge in E. split; [lia|reflexivity].
Qed.

(** how the positions of the two specifications relate *)
Section positions.
  Context (bs : list byte) (L : nat).

  Lemma ext_eq : (has_ip bs = true -> v2_prefixes L bs = prefix_count bs 80) -> v2_ext_start L bs = ext_at bs.
  Proof. unfold v2_ext_start, ext_at. destruct (has_ip bs); [intros H; rewrite H by reflexivity|]; reflexivity. Qed.

  Lemma eid_count_eq : v2_ext_start L bs = ext_at bs ->
    v2_eid_count L bs = eids_at bs /\ v2_gid_count L bs = gids_at bs.
  Proof. intros H. unfold v2_eid_count, v2_gid_count, eids_at, gids_at. rewrite H. split; reflexivity. Qed.
End positions.

Lemma smcd_ext bs : has_smcd bs = true -> has_ext bs = true.
Proof. unfold has_smcd, has_ext. generalize (msg_pathv2 bs). intros n. lia. Qed.

(** a sound v2 Proposal in terms of ClcView.v *)
Lemma sound_v2_room bs (L := length bs) : 84 <= L ->
  (sound_v2 bs <->
   v2_ip_room L bs /\ v2_ext_room L bs /\ v2_smcd_room L bs /\
   (has_ip bs = true -> v2_prefixes L bs = prefix_count bs 80) /\
   (has_ext bs = true -> v2_eids L bs = v2_eid_count L bs /\ v2_eids L bs <= 8) /\
   (has_smcd bs = true -> v2_gids L bs = v2_gid_count L bs /\ v2_gids L bs <= 8)).
Proof.
  intros H84. unfold sound_v2. fold L. split.
  - intros (A & B & C).
    assert (P : has_ip bs = true -> v2_prefixes L bs = prefix_count bs 80).
    { intros I. specialize (A I). unfold v2_prefixes. apply fitting_all; lia. }
    pose proof (ext_eq bs L P) as X. destruct (eid_count_eq bs L X) as [EC GC].
    assert (Q : has_ext bs = true -> v2_eids L bs = v2_eid_count L bs /\ v2_eids L bs <= 8).
    { intros I. specialize (B I). assert (v2_eids L bs = v2_eid_count L bs).
      { unfold v2_eids. apply fitting_all; rewrite ?X, ?EC; lia. } lia. }
    assert (S : has_smcd bs = true -> v2_smcd_start L bs = smcd_at bs).
    { intros I. apply smcd_ext in I. destruct (Q I) as [Q1 _]. unfold v2_smcd_start, smcd_at. rewrite Q1, X, EC. reflexivity. }
    assert (R : has_smcd bs = true -> v2_gids L bs = v2_gid_count L bs /\ v2_gids L bs <= 8).
    { intros I. specialize (C I). assert (v2_gids L bs = v2_gid_count L bs).
      { unfold v2_gids. rewrite (S I), GC. apply fitting_all; lia. } lia. }
    split; [|split; [|split]].
    + intros I. specialize (A I). lia.
    + intros I. specialize (B I). rewrite X. lia.
    + intros I. specialize (C I). rewrite (S I). lia.
    + auto.
  - intros (A & B & C & P & Q & R). pose proof (ext_eq bs L P) as X. destruct (eid_count_eq bs L X) as [EC GC].
    split; [|split].
    + intros I. specialize (A I). specialize (P I). unfold v2_prefixes in P. apply fitting_all in P; lia.
    + intros I. specialize (B I). destruct (Q I) as [Q1 Q2]. split; [|lia].
      unfold v2_eids in Q1. rewrite X in Q1, B. rewrite EC in Q1. apply fitting_all in Q1; lia.
    + intros I. specialize (C I). destruct (Q (smcd_ext bs I)) as [Q1 Q2]. destruct (R I) as [R1 R2].
      assert (S : v2_smcd_start L bs = smcd_at bs) by (unfold v2_smcd_start, smcd_at; rewrite Q1, X, EC; reflexivity).
      split; [|lia]. unfold v2_gids in R1. rewrite S in R1, C. rewrite GC in R1. apply fitting_all in R1; lia.
Qed.

(** ** Silence *)

Lemma bind_map_inv {A B} (x : M A) (f : A -> B) b : bind x (fun y => ret (f y)) = ([], Done b) ->
  exists a, x = ([], Done a).
Proof.
  intros H. apply bind_inv in H. destruct H as (l1 & a & l2 & E & F & G).
  symmetry in G. apply app_eq_nil in G. destruct G as [-> ->]. exists a. exact E.
Qed.

Lemma proposal_silent m buf old : slice_ok m buf -> proposal_wf old ->
  let bs := s_bytes m buf in N.to_nat (declared bs) = length bs -> 52 <= length bs ->
  ((exists p, Proposal_Parse m old buf = ([], Done p)) <-> is_eyecatcher (last4 bs) = true /\ sound_v1 bs).
Proof.
  intros Hok Hwf bs HL H52. pose proof (s_bytes_length m buf Hok) as Lb. fold bs in Lb. unfold sound_v1.
  destruct (le_lt_dec (ip_area_start bs + 12) (length bs)) as [R|R].
  - destruct (Proposal_decode m buf old Hok Hwf) as (p & E & _); fold bs; try lia. fold bs in E. rewrite E, HL. clear E.
    set (cnt := prefix_count bs (ip_area_start bs)). pose proof (fitting_lt (length bs) (ip_area_start bs + 8) 17 cnt) as F.
    pose proof (fitting_all (length bs) (ip_area_start bs + 8) 17 cnt ltac:(lia) ltac:(lia)) as G.
    split.
    + intros (q & Q). pose proof (f_equal fst Q) as Q1.
      cbn [fst] in Q1. apply app_eq_nil in Q1. destruct Q1 as [Q1 Q2].
      apply trailer_log_nil in Q2. split; [exact Q2|]. destruct (Nat.ltb_spec (fitting (length bs) (ip_area_start bs + 8) 17 cnt) cnt) as [Z|Z]; [discriminate|]. apply G. lia.
    + intros [T S]. exists p. apply trailer_log_nil in T. rewrite T. apply G in S. rewrite S, Nat.ltb_irrefl. reflexivity.
  - split; [|lia]. intros (q & Q). exfalso.
    destruct (le_lt_dec 80 (s_cap buf)) as [C|C].
    + destruct (Proposal_no_room m buf old Hok Hwf) as (p & E & _); fold bs; try lia. rewrite Q in E. discriminate.
    + destruct (N.eq_dec (ip_area_offset bs) 40) as [O|O].
      * destruct (Message_proposal_panics m buf old Hok Hwf) as [[_ P] _]; fold bs; try lia.
        cbn [Message_Parse] in P. rewrite Q in P. discriminate P. fold bs. lia.
      * destruct (Proposal_no_room m buf old Hok Hwf) as (p & E & _); fold bs; try lia. rewrite Q in E. discriminate.
Qed.

Lemma proposalv2_silent m buf old : slice_ok m buf -> proposalv2_wf old ->
  let bs := s_bytes m buf in N.to_nat (declared bs) = length bs -> 84 <= length bs ->
  ((exists p, ProposalV2_Parse m old buf = ([], Done p)) <-> is_eyecatcher (last4 bs) = true /\ sound_v2 bs).
Proof.
  intros Hok Hwf bs HL H84. pose proof (s_bytes_length m buf Hok) as Lb. fold bs in Lb.
  rewrite sound_v2_room by exact H84. set (L := length bs) in *.
  split.
  - intros (q & Q).
    assert (Hl : N.to_nat (declared bs) <= s_len buf) by lia.
    assert (H84' : 84 <= N.to_nat (declared bs)) by lia.
    destruct (Message_proposalv2_panics m buf old Hok Hwf) as [[_ P] _]; fold bs; try lia.
    fold bs in P. cbn [Message_Parse] in P. rewrite Q in P. cbn [bind snd ret] in P.
    assert (NP : ~ (84 <= N.to_nat (declared bs) /\ v2_ip_room (N.to_nat (declared bs)) bs /\ has_ext bs = true /\
       v2_ext_room (N.to_nat (declared bs)) bs /\
       (8 < v2_eids (N.to_nat (declared bs)) bs \/
        (v2_eids (N.to_nat (declared bs)) bs <= 8 /\ has_smcd bs = true /\ v2_smcd_room (N.to_nat (declared bs)) bs /\
         8 < v2_gids (N.to_nat (declared bs)) bs)))).
    { intros Z. specialize (P Z). discriminate. }
    clear P. rewrite HL in *. clear H84' Hl.
    assert (IR : v2_ip_room L bs).
    { unfold v2_ip_room. destruct (has_ip bs) eqn:I; [|discriminate]. intros _.
      destruct (le_lt_dec 92 L) as [Z|Z]; [exact Z|exfalso].
      destruct (ProposalV2_no_ip_room m buf old Hok Hwf) as (p & E & _); fold bs; rewrite ?HL; try lia.
      - intros Y. specialize (Y I). lia.
      - rewrite Q in E. discriminate. }
    assert (ER : v2_ext_room L bs).
    { unfold v2_ext_room. destruct (has_ext bs) eqn:I; [|discriminate]. intros _.
      destruct (le_lt_dec (v2_ext_start L bs + 44) L) as [Z|Z]; [exact Z|exfalso].
      destruct (ProposalV2_no_ext_room m buf old Hok Hwf) as (p & E & _); fold bs; rewrite ?HL; try lia; auto.
      - intros Y. specialize (Y I). lia.
      - rewrite Q in E. apply (f_equal fst) in E. cbn [fst] in E. symmetry in E. apply app_eq_nil in E. destruct E; discriminate. }
    assert (E8 : has_ext bs = true -> v2_eids L bs <= 8).
    { intros I. destruct (le_lt_dec (v2_eids L bs) 8) as [Z|Z]; [exact Z|exfalso]. apply NP. auto 8. }
    assert (SR : v2_smcd_room L bs).
    { unfold v2_smcd_room. destruct (has_smcd bs) eqn:I; [|discriminate]. intros _.
      destruct (le_lt_dec (v2_smcd_start L bs + 52) L) as [Z|Z]; [exact Z|exfalso].
      destruct (ProposalV2_no_smcd_room m buf old Hok Hwf) as (p & E & _); fold bs; rewrite ?HL; try lia; auto.
      - intros Y. specialize (Y I). lia.
      - rewrite Q in E. apply (f_equal fst) in E. cbn [fst] in E. symmetry in E.
        apply app_eq_nil in E. destruct E as [_ E]. apply app_eq_nil in E. destruct E; discriminate. }
    assert (G8 : has_smcd bs = true -> v2_gids L bs <= 8).
    { intros I. destruct (le_lt_dec (v2_gids L bs) 8) as [Z|Z]; [exact Z|exfalso]. apply NP.
      pose proof (smcd_ext bs I). auto 10. }
    destruct (ProposalV2_decode m buf old Hok Hwf) as (p & E & _); fold bs; rewrite ?HL; try lia; auto.
    fold bs in E. rewrite HL, Q in E. apply (f_equal fst) in E. cbn [fst] in E. symmetry in E.
    apply app_eq_nil in E. destruct E as [E1 E]. apply app_eq_nil in E. destruct E as [E2 E]. apply app_eq_nil in E. destruct E as [E3 E4].
    split; [apply trailer_log_nil; exact E4|]. repeat (split; [assumption|]).
    split; [|split].
    + intros I. unfold v2_prefix_log in E1. rewrite I in E1. apply too_many_nil in E1; [exact E1|apply fitting_lt].
    + intros I. split; [|auto]. unfold v2_eid_log in E2. rewrite I in E2. apply too_many_nil in E2; [exact E2|apply fitting_lt].
    + intros I. split; [|auto]. unfold v2_gid_log in E3. rewrite I in E3. apply too_many_nil in E3; [exact E3|apply fitting_lt].
  - intros (T & IR & ER & SR & P1 & P2 & P3).
    destruct (ProposalV2_decode m buf old Hok Hwf) as (p & E & _); fold bs; rewrite ?HL; fold L; try lia; auto;
      try (intros I; apply P2; exact I); try (intros I; apply P3; exact I).
    exists p. fold bs in E. rewrite HL in E. fold L in E. rewrite E. apply trailer_log_nil in T. rewrite T.
    assert (E1 : v2_prefix_log L bs = []).
      { unfold v2_prefix_log. destruct (has_ip bs); [|reflexivity]. apply too_many_nil; [apply fitting_lt|auto]. }
      assert (E2 : v2_eid_log L bs = []).
      { unfold v2_eid_log. destruct (has_ext bs); [|reflexivity]. apply too_many_nil; [apply fitting_lt|apply P2; reflexivity]. }
      assert (E3 : v2_gid_log L bs = []).
      { unfold v2_gid_log. destruct (has_smcd bs); [|reflexivity]. apply too_many_nil; [apply fitting_lt|apply P3; reflexivity]. }
      rewrite E1, E2, E3. reflexivity.
Qed.

Lemma map_silent {A B} (x : M A) (f : A -> B) :
  (exists b, bind x (fun y => ret (f y)) = ([], Done b)) <-> (exists a, x = ([], Done a)).
Proof.
  split.
  - intros (b & H). exact (bind_map_inv x f b H).
  - intros (a & H). exists (f a). exact (bind_map x f [] a H).
Qed.

Theorem silent_sound m msg buf : slice_ok m buf -> message_wf msg ->
  let bs := s_bytes m buf in let k := kind_of msg in
  8 <= length bs -> N.to_nat (declared bs) = length bs ->
  ((exists new, Message_Parse m msg buf = ([], Done new)) <-> sound k bs).
Proof.
  intros Hok Hwf bs k H8 HL. pose proof (s_bytes_length m buf Hok) as Lb. fold bs in Lb.
  pose proof (len_le_cap m buf Hok) as Hc. unfold sound.
  destruct (le_lt_dec (N.to_nat (min_length k)) (length bs)) as [Z|Z].
  2:{ split; [|lia]. intros (new & E). exfalso.
      destruct (Message_too_short m msg buf Hok Hwf) as (h & _ & _ & T); fold bs k; try lia. rewrite E in T. discriminate. }
  transitivity (is_eyecatcher (last4 bs) = true /\ match k with KProposal => sound_v1 bs | KProposalV2 => sound_v2 bs | _ => True end);
    [|split; [intros H; split; [exact Z|exact H] | intros [_ H]; exact H]].
  destruct (is_proposal k) eqn:P.
  - destruct msg as [p|p|a|a|a|c|c|c|d|d]; try discriminate P; cbn [Message_Parse kind_of message_wf] in *; rewrite map_silent.
    + apply proposal_silent; assumption.
    + apply proposalv2_silent; assumption.
  - assert (FP : fields_present k bs).
    { split; [lia|]. split; [exact Z|]. destruct k; try exact I; lia. }
    destruct (Message_fixed_full m msg buf Hok Hwf P FP) as (new & E & _). fold bs in E.
    rewrite <- trailer_log_nil. rewrite E. split.
    + intros (x & [= -> _]). split; [reflexivity|]. destruct k; try discriminate P; exact I.
    + intros [-> _]. exists new. reflexivity.
Qed.

(** ** Texts *)

Lemma entries_length body start size n bs : length (entries body start size n bs) = n.
Proof. unfold entries. rewrite map_length, seq_length. reflexivity. Qed.

Lemma proposal_sound_text res bs : N.to_nat (declared bs) = length bs -> sound_v1 bs ->
  proposal_text res bs = sound_text res KProposal bs.
Proof.
  intros HL S. unfold sound_v1 in S. unfold proposal_text, sound_text. rewrite HL.
  rewrite (proj2 (fitting_all (length bs) (ip_area_start bs + 8) 17 (prefix_count bs (ip_area_start bs)) ltac:(lia) ltac:(lia))) by lia.
  reflexivity.
Qed.

Lemma proposalv2_sound_text res bs : N.to_nat (declared bs) = length bs -> 84 <= length bs -> sound_v2 bs ->
  proposalv2_text res bs = sound_text res KProposalV2 bs.
Proof.
  intros HL H84 S. apply sound_v2_room in S; [|exact H84]. destruct S as (_ & _ & _ & P & Q & R).
  unfold proposalv2_text, sound_text. rewrite HL. set (L := length bs) in *.
  pose proof (ext_eq bs L P) as X. destruct (eid_count_eq bs L X) as [EC GC].
  assert (S : has_smcd bs = true -> v2_smcd_start L bs = smcd_at bs).
  { intros I. destruct (Q (smcd_ext bs I)) as [Q1 _]. unfold v2_smcd_start, smcd_at. rewrite Q1, X, EC. reflexivity. }
  f_equal. f_equal. f_equal; [|f_equal].
  - destruct (has_ip bs); [|reflexivity]. rewrite P by reflexivity. reflexivity.
  - destruct (has_ext bs); [|reflexivity]. destruct (Q eq_refl) as [Q1 _]. rewrite X, Q1, EC.
    f_equal. f_equal.
    apply (TextRest.areas_contained (N.of_nat (eids_at bs)) _ _ (repeat [] (eids_at bs)) []).
    + rewrite map_length, seq_length. lia.
    + rewrite repeat_length. lia.
  - destruct (has_smcd bs); [|reflexivity]. destruct (R eq_refl) as [R1 _]. rewrite (S eq_refl), R1, GC.
    f_equal. f_equal.
    apply (TextRest.areas_contained (N.of_nat (gids_at bs)) (repeat [] (gids_at bs)) []).
    + rewrite repeat_length. lia.
    + rewrite entries_length. lia.
Qed.

Lemma sound_texts m buf k : slice_ok m buf ->
  let bs := s_bytes m buf in
  N.to_nat (declared bs) = length bs -> sound k bs -> (is_smcdv2 k = true -> length bs <= 114) ->
  exists new, Message_Parse m (fresh k) buf = ([], Done new) /\
    Message_String new = sound_text false k bs /\ Message_Reserved new = sound_text true k bs.
Proof.
  intros Hok bs HL S H2. pose proof (s_bytes_length m buf Hok) as Lb. fold bs in Lb.
  assert (H8 : 28 <= length bs).
  { destruct S as [S _]. destruct k; cbn [min_length] in S; lia. }
  assert (KF : kind_of (fresh k) = k) by (destruct k; reflexivity).
  destruct (silent_sound m (fresh k) buf Hok (fresh_wf k)) as [_ Z]; fold bs; try lia. rewrite KF in Z.
  destruct (Z S) as (new & P). exists new. split; [exact P|].
  destruct S as (S1 & S2 & S3). destruct (is_proposal k) eqn:IP.
  - destruct k; try discriminate IP; cbn [min_length] in S1.
    + rewrite <- !proposal_sound_text by assumption.
      eapply proposal_texts; try eassumption; fold bs; unfold sound_v1 in S3; lia.
    + rewrite <- !proposalv2_sound_text by (assumption || lia).
      apply sound_v2_room in S3; [|lia]. destruct S3 as (A & B & C & D & F & G). rewrite <- HL in A, B, C, F, G.
      eapply proposalv2_texts; try eassumption; fold bs; try lia.
  - replace (sound_text false k bs) with (fixed_text false k bs) by (destruct k; try discriminate IP; reflexivity).
    replace (sound_text true k bs) with (fixed_text true k bs) by (destruct k; try discriminate IP; reflexivity).
    pose proof (fixed_texts m (fresh k) buf [] new Hok (reach_fresh k)) as FT. rewrite KF in FT.
    apply FT; try assumption; fold bs.
    + split; [lia|]. split; [exact S1|]. destruct k; try exact I; lia.
    + intros I. specialize (H2 I). lia.
Qed.

Theorem sound_end_to_end m buf k : slice_ok m buf ->
  let bs := s_bytes m buf in
  is_eyecatcher (bytes_at bs 0 4) = true ->
  kind_rel (msg_type bs) (msg_version bs) (msg_path bs) k ->
  N.to_nat (declared bs) = length bs -> length bs <= 1024 -> sound k bs ->
  (is_smcdv2 k = true -> length bs <= 114) ->
  NewMessage m buf = ([], Done (Some (fresh k), declared bs)) /\
  exists new, Message_Parse m (fresh k) buf = ([], Done new) /\
    Message_String new = sound_text false k bs /\ Message_Reserved new = sound_text true k bs /\
    Message_Dump m new = hex_dump bs.
Proof.
  intros Hok bs E K HL HM S H2. pose proof (s_bytes_length m buf Hok) as Lb. fold bs in Lb.
  assert (H8 : 28 <= length bs).
  { destruct S as [S _]. destruct k; cbn [min_length] in S; lia. }
  split.
  - apply NewMessage_some; fold bs; try assumption; try lia.
    revert E. unfold is_eyecatcher. destruct (list_eq_dec _ _ _) as [->|]; [left; reflexivity|].
    destruct (list_eq_dec _ _ _) as [->|]; [right; reflexivity|discriminate].
  - destruct (sound_texts m buf k Hok HL S H2) as (new & P & T1 & T2). exists new.
    split; [exact P|]. split; [exact T1|]. split; [exact T2|].
    exact (Message_dump m (fresh k) buf [] new P m).
Qed.
