(** * ClcMessage: facts about the interface type [Message]. Proofs only. *)

From Coq Require Import NArith ZArith Bool String Arith List Lia.
From Coq Require Import ZifyBool ZifyNat ZifyN.
From Verif Require Import GoBase GoFmt ClcModel Slices Wire WireLemmas ClcView Steps ClcParse ClcFixed
  ClcSmcdv2 ClcNew ClcProposal ClcProposalV2 ClcProposalV2Inv.
From Verif Require Keep.
Import ListNotations.
Local Open Scope nat_scope.

Lemma bind_inv {A B} (x : M A) (f : A -> M B) l b : bind x f = (l, Done b) ->
  exists l1 a l2, x = (l1, Done a) /\ f a = (l2, Done b) /\ l = l1 ++ l2.
Proof.
  destruct x as [l1 [a| |]]; cbn; try discriminate. destruct (f a) as [l2 r] eqn:E.
  intros [= <- ->]. exists l1, a, l2. auto.
Qed.

Lemma fresh_wf k : message_wf (fresh k).
Proof.
  destruct k; cbn; repeat split; try reflexivity. repeat constructor.
Qed.

Lemma Message_keeps_wf m old buf logs new : slice_ok m buf -> message_wf old ->
  Message_Parse m old buf = (logs, Done new) -> message_wf new.
Proof.
  intros Hok Hwf. destruct old as [p|p|a|a|a|c|c|c|d|d]; cbn [Message_Parse]; intros H;
    apply bind_inv in H; destruct H as (l1 & x & l2 & E & [= <- <-] & ->); cbn [message_wf] in *.
  - eapply Proposal_keeps_wf; eassumption.
  - eapply ProposalV2_keeps_wf; eassumption.
  - eapply AcceptSMCR_keeps_wf; eassumption.
  - eapply AcceptSMCD_keeps_wf; eassumption.
  - eapply AcceptSMCDv2_keeps_wf; eassumption.
  - apply bind_inv in E. destruct E as (? & y & ? & E & [= <- <-] & _). eapply AcceptSMCR_keeps_wf; eassumption.
  - apply bind_inv in E. destruct E as (? & y & ? & E & [= <- <-] & _). eapply AcceptSMCD_keeps_wf; eassumption.
  - apply bind_inv in E. destruct E as (? & y & ? & E & [= <- <-] & _). eapply AcceptSMCDv2_keeps_wf; eassumption.
  - eapply Decline_keeps_wf; eassumption.
  - eapply DeclineV2_keeps_wf; eassumption.
Qed.

Lemma reachable_wf msg : reachable msg -> message_wf msg.
Proof.
  induction 1 as [k|m old buf logs new H IH Hok E|m old buf logs new H IH Hok E];
    [apply fresh_wf| |eapply Keep.Message_W_wf; eassumption].
  eapply Message_keeps_wf; eassumption.
Qed.

(** ** Too short *)

Lemma bind_map {A B} (x : M A) (f : A -> B) l a : x = (l, Done a) -> bind x (fun y => ret (f y)) = (l, Done (f a)).
Proof. intros ->. cbn. rewrite app_nil_r. reflexivity. Qed.

Lemma Message_too_short m msg buf : slice_ok m buf -> message_wf msg -> 8 <= s_len buf ->
  let bs := s_bytes m buf in
  (declared bs < min_length (kind_of msg))%N ->
  N.to_nat (declared bs) <= s_cap buf ->
  exists h,
    header_view h = decode clc_header bs /\ h_Pathv2 h = msg_pathv2 bs /\
    Message_Parse m msg buf =
      ([too_short_line (kind_of msg) (msg_type bs);
        dump_line (bytes_at (m (s_arr buf)) (s_off buf) (N.to_nat (declared bs)))],
       Done (with_header msg buf h)).
Proof.
  intros Hok Hwf H8 bs HL HC. pose proof (s_bytes_length m buf Hok) as Hb. fold bs in Hb.
  exists (hdr_of bs). split; [apply hdr_view; lia|]. split; [apply hdr_pathv2; lia|].
  destruct msg as [p|p|a|a|a|c|c|c|d|d]; cbn [Message_Parse kind_of min_length too_short_line with_header message_wf] in *.
  - apply bind_map. rewrite Proposal_Parse_run by assumption. unfold p1_run. cbv zeta. fold bs.
    rewrite (proj2 (Nat.ltb_ge (s_len buf) 8)) by lia.
    rewrite (proj2 (Nat.ltb_lt (N.to_nat (declared bs)) 52)) by lia.
    rewrite fail_run_ok by lia. rewrite <- window_bytes by lia. reflexivity.
  - apply bind_map. rewrite ProposalV2_short by (assumption || (fold bs; lia)).
    rewrite fail_run_ok by (fold bs; lia). fold bs. rewrite <- window_bytes by lia. reflexivity.
  - apply bind_map. destruct (AcceptSMCR_total m buf a Hok Hwf) as (_ & H & _). fold bs in H.
    rewrite H, short_run_ok by (assumption || lia). reflexivity.
  - apply bind_map. destruct (AcceptSMCD_total m buf a Hok Hwf) as (_ & H & _). fold bs in H.
    rewrite H, short_run_ok by (assumption || lia). reflexivity.
  - apply bind_map. destruct (AcceptSMCDv2_total m buf a Hok Hwf) as (_ & H & _). fold bs in H.
    rewrite H, short_run_ok by (assumption || lia). reflexivity.
  - apply bind_map. apply bind_map. destruct (AcceptSMCR_total m buf (cr_Accept c) Hok Hwf) as (_ & H & _). fold bs in H.
    rewrite H, short_run_ok by (assumption || lia). reflexivity.
  - apply bind_map. apply bind_map. destruct (AcceptSMCD_total m buf (cd_Accept c) Hok Hwf) as (_ & H & _). fold bs in H.
    rewrite H, short_run_ok by (assumption || lia). reflexivity.
  - apply bind_map. apply bind_map. destruct (AcceptSMCDv2_total m buf (c2_Accept c) Hok Hwf) as (_ & H & _). fold bs in H.
    rewrite H, short_run_ok by (assumption || lia). reflexivity.
  - apply bind_map. destruct (Decline_total m buf d Hok Hwf) as (_ & H & _). fold bs in H.
    rewrite H, short_run_ok by (assumption || lia). reflexivity.
  - apply bind_map. destruct (DeclineV2_total m buf d Hok Hwf) as (_ & H & _). fold bs in H.
    rewrite H, short_run_ok by (assumption || lia). reflexivity.
Qed.

(** ** No panic for complete messages of fixed format *)

Lemma Message_fixed_complete m msg buf : slice_ok m buf -> message_wf msg ->
  is_proposal (kind_of msg) = false -> 8 <= s_len buf ->
  N.to_nat (declared (s_bytes m buf)) <= s_len buf ->
  exists logs new, Message_Parse m msg buf = (logs, Done new).
Proof.
  intros Hok Hwf HK H8 HL.
  destruct msg as [p|p|a|a|a|c|c|c|d|d]; try discriminate; cbn [Message_Parse message_wf] in *.
  - destruct (AcceptSMCR_complete m buf a Hok Hwf H8 HL) as (l & x & E).
    do 2 eexists. apply bind_map. exact E.
  - destruct (AcceptSMCD_complete m buf a Hok Hwf H8 HL) as (l & x & E).
    do 2 eexists. apply bind_map. exact E.
  - destruct (AcceptSMCDv2_complete m buf a Hok Hwf H8 HL) as (l & x & E).
    do 2 eexists. apply bind_map. exact E.
  - destruct (AcceptSMCR_complete m buf (cr_Accept c) Hok Hwf H8 HL) as (l & x & E).
    do 2 eexists. apply bind_map. apply bind_map. exact E.
  - destruct (AcceptSMCD_complete m buf (cd_Accept c) Hok Hwf H8 HL) as (l & x & E).
    do 2 eexists. apply bind_map. apply bind_map. exact E.
  - destruct (AcceptSMCDv2_complete m buf (c2_Accept c) Hok Hwf H8 HL) as (l & x & E).
    do 2 eexists. apply bind_map. apply bind_map. exact E.
  - destruct (Decline_complete m buf d Hok Hwf H8 HL) as (l & x & E).
    do 2 eexists. apply bind_map. exact E.
  - destruct (DeclineV2_complete m buf d Hok Hwf H8 HL) as (l & x & E).
    do 2 eexists. apply bind_map. exact E.
Qed.

(** ** Exact panic condition of the fixed formats *)

Lemma bind_ret_snd {A B} (x : M A) (f : A -> B) : snd (bind x (fun y => ret (f y))) =
  match snd x with Done a => Done (f a) | Panicked => Panicked | Exited => Exited end.
Proof. destruct x as [l [a| |]]; reflexivity. Qed.

Lemma panics_map {A B} (x : M A) (f : A -> B) (P : Prop) :
  (snd x = Panicked <-> P) /\ snd x <> Exited ->
  (snd (bind x (fun y => ret (f y))) = Panicked <-> P) /\ snd (bind x (fun y => ret (f y))) <> Exited.
Proof.
  rewrite bind_ret_snd. destruct (snd x) as [a| |]; intros [[H1 H2] H3]; try (exfalso; apply H3; reflexivity).
  - split; [|discriminate]. split; [discriminate|]. intros Q. apply H2 in Q. discriminate.
  - split; [|discriminate]. split; auto.
Qed.

Lemma Message_fixed_panics m msg buf : slice_ok m buf -> message_wf msg ->
  is_proposal (kind_of msg) = false ->
  (snd (Message_Parse m msg buf) = Panicked <->
   fixed_panics (kind_of msg) (N.to_nat (declared (s_bytes m buf))) (s_len buf) (s_cap buf)) /\
  snd (Message_Parse m msg buf) <> Exited.
Proof.
  intros Hok Hwf HK. unfold fixed_panics.
  destruct msg as [p|p|a|a|a|c|c|c|d|d]; try discriminate; cbn [Message_Parse message_wf kind_of min_length] in *.
  - apply panics_map. destruct (AcceptSMCR_panics m buf a Hok Hwf) as [H E].
    split; [|exact E]. rewrite H. split; intros; lia.
  - apply panics_map. destruct (AcceptSMCD_panics m buf a Hok Hwf) as [H E].
    split; [|exact E]. rewrite H. split; intros; lia.
  - apply panics_map. destruct (AcceptSMCDv2_panics m buf a Hok Hwf) as [H E].
    split; [|exact E]. rewrite H. split; intros; lia.
  - apply panics_map. apply panics_map. destruct (AcceptSMCR_panics m buf (cr_Accept c) Hok Hwf) as [H E].
    split; [|exact E]. rewrite H. split; intros; lia.
  - apply panics_map. apply panics_map. destruct (AcceptSMCD_panics m buf (cd_Accept c) Hok Hwf) as [H E].
    split; [|exact E]. rewrite H. split; intros; lia.
  - apply panics_map. apply panics_map. destruct (AcceptSMCDv2_panics m buf (c2_Accept c) Hok Hwf) as [H E].
    split; [|exact E]. rewrite H. split; intros; lia.
  - apply panics_map. destruct (Decline_panics m buf d Hok Hwf) as [H E].
    split; [|exact E]. rewrite H. split; intros; lia.
  - apply panics_map. destruct (DeclineV2_panics m buf d Hok Hwf) as [H E].
    split; [|exact E]. rewrite H. split; intros; lia.
Qed.

(** ** Locality of the fixed formats *)

Lemma Message_fixed_local m1 m2 msg buf : slice_ok m1 buf -> slice_ok m2 buf -> message_wf msg ->
  is_proposal (kind_of msg) = false -> s_bytes m1 buf = s_bytes m2 buf ->
  snd (Message_Parse m1 msg buf) = snd (Message_Parse m2 msg buf).
Proof.
  intros Hok1 Hok2 Hwf HK E.
  destruct msg as [p|p|a|a|a|c|c|c|d|d]; try discriminate; cbn [Message_Parse message_wf kind_of] in *;
    rewrite !bind_ret_snd.
  - rewrite (AcceptSMCR_local m1 m2) by assumption. reflexivity.
  - rewrite (AcceptSMCD_local m1 m2) by assumption. reflexivity.
  - rewrite (AcceptSMCDv2_local m1 m2) by assumption. reflexivity.
  - unfold ConfirmSMCR_Parse. rewrite !bind_ret_snd. rewrite (AcceptSMCR_local m1 m2) by assumption. reflexivity.
  - unfold ConfirmSMCD_Parse. rewrite !bind_ret_snd. rewrite (AcceptSMCD_local m1 m2) by assumption. reflexivity.
  - unfold ConfirmSMCDv2_Parse. rewrite !bind_ret_snd. rewrite (AcceptSMCDv2_local m1 m2) by assumption. reflexivity.
  - rewrite (Decline_local m1 m2) by assumption. reflexivity.
  - rewrite (DeclineV2_local m1 m2) by assumption. reflexivity.
Qed.

(** ** v1 Decline objects never get an OS type *)
Lemma reachable_decline d : reachable (MDecline d) -> d_OSType d = 0%N.
Proof.
  remember (MDecline d) as msg eqn:Em. intros H. revert d Em.
  induction H as [k|m old buf logs new H IH Hok E|m old buf logs new H IH Hok E]; intros d Em.
  - destruct k; try discriminate. injection Em as <-. reflexivity.
  - subst new. pose proof (reachable_wf _ H) as Hwf.
    destruct old as [p|p|a|a|a|c|c|c|d0|d0]; cbn [Message_Parse] in E;
      apply bind_inv in E; destruct E as (l1 & x & l2 & E & E2 & _); try discriminate.
    injection E2 as <- <-. specialize (IH d0 eq_refl). cbn [message_wf] in Hwf.
    destruct (Decline_total m buf d0 Hok Hwf) as (H1 & H2 & H3 & H4).
    destruct (le_lt_dec 8 (s_len buf)) as [L8|L8]; [|rewrite H1 in E by lia; discriminate].
    destruct (N.lt_ge_cases (declared (s_bytes m buf)) 28) as [D|D].
    + rewrite H2 in E by lia.
      destruct (le_lt_dec (N.to_nat (declared (s_bytes m buf))) (s_cap buf)) as [C|C];
        [rewrite short_run_ok in E by assumption|rewrite short_run_bad in E by assumption; discriminate].
      injection E as <- <-. exact IH.
    + destruct (le_lt_dec 28 (s_len buf)) as [L|L]; [|rewrite H3 in E by lia; discriminate].
      rewrite H4 in E by lia. injection E as <- <-. exact IH.
  - subst new. pose proof (Keep.Message_W_kind _ _ _ _ _ _ E) as Hk.
    destruct old as [p|p|a|a|a|c|c|c|d0|d0]; try discriminate.
    apply Keep.Message_W_codes in E; [exact E|]. exact (IH d0 eq_refl).
Qed.

(** ** Complete parses of fixed formats *)

Lemma Message_fixed_full m msg buf : slice_ok m buf -> message_wf msg ->
  is_proposal (kind_of msg) = false ->
  let bs := s_bytes m buf in
  fields_present (kind_of msg) bs ->
  exists new, Message_Parse m msg buf = (trailer_log (last4 bs), Done new) /\
    trailer_of new = last4 bs /\ kind_of new = kind_of msg.
Proof.
  intros Hok Hwf HK bs (HL & HB & HF). pose proof (s_bytes_length m buf Hok) as Hb. fold bs in Hb.
  destruct msg as [p|p|a|a|a|c|c|c|d|d]; try discriminate;
    cbn [Message_Parse message_wf kind_of min_length] in *.
  - destruct (AcceptSMCR_decode m buf a Hok Hwf) as (x & E & _ & T & _); [lia|exact HL|].
    eexists. split; [apply bind_map; exact E|]. split; [exact T|reflexivity].
  - destruct (AcceptSMCD_decode m buf a Hok Hwf) as (x & E & _ & T & _); [lia|exact HL|].
    eexists. split; [apply bind_map; exact E|]. split; [exact T|reflexivity].
  - destruct (AcceptSMCDv2_decode m buf a Hok Hwf) as (x & E & _ & _ & T & _); [lia|exact HL|rewrite <- Hb; exact HF|].
    eexists. split; [apply bind_map; exact E|]. split; [exact T|reflexivity].
  - destruct (AcceptSMCR_decode m buf (cr_Accept c) Hok Hwf) as (x & E & _ & T & _); [lia|exact HL|].
    eexists. split; [do 2 apply bind_map; exact E|]. split; [exact T|reflexivity].
  - destruct (AcceptSMCD_decode m buf (cd_Accept c) Hok Hwf) as (x & E & _ & T & _); [lia|exact HL|].
    eexists. split; [do 2 apply bind_map; exact E|]. split; [exact T|reflexivity].
  - destruct (AcceptSMCDv2_decode m buf (c2_Accept c) Hok Hwf) as (x & E & _ & _ & T & _); [lia|exact HL|rewrite <- Hb; exact HF|].
    eexists. split; [do 2 apply bind_map; exact E|]. split; [exact T|reflexivity].
  - destruct (Decline_decode m buf d Hok Hwf) as (x & E & _ & T & _); [lia|exact HL|].
    eexists. split; [apply bind_map; exact E|]. split; [exact T|reflexivity].
  - destruct (DeclineV2_decode m buf d Hok Hwf) as (x & E & _ & T & _); [lia|exact HL|].
    eexists. split; [apply bind_map; exact E|]. split; [exact T|reflexivity].
Qed.

Lemma Message_fixed_again m old buf : slice_ok m buf -> reachable old ->
  is_proposal (kind_of old) = false ->
  let bs := s_bytes m buf in
  fields_present (kind_of old) bs ->
  (is_smcdv2 (kind_of old) = true -> declared bs = 114%N) ->
  Message_Parse m old buf = Message_Parse m (fresh (kind_of old)) buf.
Proof.
  intros Hok HR HK bs (HL & HB & HF) HV. pose proof (s_bytes_length m buf Hok) as Hb. fold bs in Hb.
  pose proof (reachable_wf _ HR) as Hwf.
  destruct old as [p|p|a|a|a|c|c|c|d|d]; try discriminate;
    cbn [Message_Parse message_wf kind_of min_length fresh is_smcdv2] in *.
  - rewrite (AcceptSMCR_again m buf a) by (assumption || lia). reflexivity.
  - rewrite (AcceptSMCD_again m buf a) by (assumption || lia). reflexivity.
  - rewrite (AcceptSMCDv2_again m buf a AcceptSMCDv2_zero); try assumption; [reflexivity|repeat split|lia|].
    left. apply HV. reflexivity.
  - unfold ConfirmSMCR_Parse. rewrite (AcceptSMCR_again m buf (cr_Accept c)) by (assumption || lia). reflexivity.
  - unfold ConfirmSMCD_Parse. rewrite (AcceptSMCD_again m buf (cd_Accept c)) by (assumption || lia). reflexivity.
  - unfold ConfirmSMCDv2_Parse.
    rewrite (AcceptSMCDv2_again m buf (c2_Accept c) AcceptSMCDv2_zero); try assumption; [reflexivity|repeat split|lia|].
    left. apply HV. reflexivity.
  - rewrite (Decline_again m buf d); try assumption; [reflexivity|apply reachable_decline; assumption|lia].
  - rewrite (DeclineV2_again m buf d) by (assumption || lia). reflexivity.
Qed.

(** ** NewMessage, as a classification *)

Lemma NewMessage_some m buf : slice_ok m buf -> 8 <= s_len buf ->
  let bs := s_bytes m buf in
  forall k,
  (bytes_at bs 0 4 = [xe2; xd4; xc3; xd9] \/ bytes_at bs 0 4 = [xe2; xd4; xc3; xc4]) ->
  (declared bs <= 1024)%N -> kind_rel (msg_type bs) (msg_version bs) (msg_path bs) k ->
  NewMessage m buf = ([], Done (Some (fresh k), declared bs)).
Proof.
  intros Hok H8 bs k HE HL HK. rewrite NewMessage_8 by assumption. fold bs.
  apply is_eyecatcher_iff in HE. rewrite HE. replace (1024 <? declared bs)%N with false by lia.
  apply pick_rel in HK. rewrite HK. reflexivity.
Qed.

Lemma kind_exists t v p : (exists k, kind_rel t v p k) <->
  ((t = 1 \/ t = 4) \/ ((t = 2 \/ t = 3) /\ (p = 0 \/ p = 1)))%N.
Proof.
  split.
  - intros [k H]. destruct H; auto.
  - destruct (N.eq_dec v 2) as [->|V];
    (intros [[-> | ->]|[[-> | ->] [-> | ->]]]; eexists; (constructor; assumption) || constructor).
Qed.

Lemma NewMessage_none m buf : slice_ok m buf -> 8 <= s_len buf ->
  let bs := s_bytes m buf in
  let known := bytes_at bs 0 4 = [xe2; xd4; xc3; xd9] \/ bytes_at bs 0 4 = [xe2; xd4; xc3; xc4] in
  (snd (NewMessage m buf) = Done (None, 0%N) <->
   ~ known \/ (1024 < declared bs)%N \/
   ~ ((msg_type bs = 1 \/ msg_type bs = 4) \/
      ((msg_type bs = 2 \/ msg_type bs = 3) /\ (msg_path bs = 0 \/ msg_path bs = 1)))%N) /\
  (~ (known /\ (1024 < declared bs)%N) -> fst (NewMessage m buf) = []) /\
  (known /\ (1024 < declared bs)%N -> fst (NewMessage m buf) =
     ["Error parsing CLC header: message too big"%string; dump_line (bytes_at bs 0 8)]).
Proof.
  intros Hok H8 bs known. rewrite NewMessage_8 by assumption. fold bs.
  assert (HE : is_eyecatcher (bytes_at bs 0 4) = true <-> known) by apply is_eyecatcher_iff.
  rewrite <- kind_exists.
  destruct (is_eyecatcher (bytes_at bs 0 4)).
  2:{ assert (~ known) by (intros K; apply HE in K; discriminate). cbn.
      repeat split; try tauto. }
  assert (K : known) by (apply HE; reflexivity).
  destruct (N.ltb_spec 1024 (declared bs)) as [HL|HL].
  { cbn [fst snd]. split; [tauto|]. split; [tauto|reflexivity]. }
  destruct (pick (msg_type bs) (msg_version bs) (msg_path bs)) as [k|] eqn:EP.
  - apply pick_rel in EP. cbn [fst snd ret]. split; [|split; [reflexivity|lia]].
    split; [discriminate|]. intros [?|[?|H]]; [contradiction|lia|]. exfalso. apply H. eauto.
  - cbn [fst snd ret]. split; [|split; [reflexivity|lia]]. split; [|reflexivity]. intros _.
    right. right. intros [k Hk]. apply pick_rel in Hk. congruence.
Qed.

(** ** Accept and Confirm together *)

Lemma smcr_decode m buf old : slice_ok m buf -> accept_smcr_wf old ->
  let bs := s_bytes m buf in
  68 <= s_len buf -> (68 <= declared bs)%N ->
  exists a,
    AcceptSMCR_Parse m old buf = (trailer_log (last4 bs), Done a) /\
    ConfirmSMCR_Parse m (mkConfirmSMCR old) buf = (trailer_log (last4 bs), Done (mkConfirmSMCR a)) /\
    accept_smcr_view a = decode (clc_header ++ accept_smcr_body) bs /\
    ar_Trailer a = last4 bs /\ ar_Raw a = buf.
Proof.
  intros Hok Hwf bs H1 H2. destruct (AcceptSMCR_decode m buf old Hok Hwf H1 H2) as (a & E & H).
  exists a. split; [exact E|]. split; [apply (bind_map _ mkConfirmSMCR _ _ E)|exact H].
Qed.

Lemma smcd_decode m buf old : slice_ok m buf -> accept_smcd_wf old ->
  let bs := s_bytes m buf in
  48 <= s_len buf -> (48 <= declared bs)%N ->
  exists a,
    AcceptSMCD_Parse m old buf = (trailer_log (last4 bs), Done a) /\
    ConfirmSMCD_Parse m (mkConfirmSMCD old) buf = (trailer_log (last4 bs), Done (mkConfirmSMCD a)) /\
    accept_smcd_view a = decode (clc_header ++ accept_smcd_body) bs /\
    ad_Trailer a = last4 bs /\ ad_Raw a = buf.
Proof.
  intros Hok Hwf bs H1 H2. destruct (AcceptSMCD_decode m buf old Hok Hwf H1 H2) as (a & E & H).
  exists a. split; [exact E|]. split; [apply (bind_map _ mkConfirmSMCD _ _ E)|exact H].
Qed.

Lemma smcdv2_decode m buf old : slice_ok m buf -> accept_smcdv2_wf old ->
  let bs := s_bytes m buf in
  78 <= s_len buf -> (78 <= declared bs)%N -> (declared bs = 114%N -> 114 <= s_len buf) ->
  exists a,
    AcceptSMCDv2_Parse m old buf = (trailer_log (last4 bs), Done a) /\
    ConfirmSMCDv2_Parse m (mkConfirmSMCDv2 old) buf = (trailer_log (last4 bs), Done (mkConfirmSMCDv2 a)) /\
    accept_smcdv2_view a = decode (clc_header ++ accept_smcdv2_body) bs /\
    (declared bs = 114%N -> fce_view a = decode_at fce_body (8 * 74) bs) /\
    (declared bs <> 114%N -> fce_view a = fce_view old) /\
    a2_Trailer a = last4 bs /\ a2_Raw a = buf.
Proof.
  intros Hok Hwf bs H1 H2 H3. destruct (AcceptSMCDv2_decode m buf old Hok Hwf H1 H2 H3) as (a & E & V & F & T & R).
  exists a. split; [exact E|]. split; [apply (bind_map _ mkConfirmSMCDv2 _ _ E)|].
  fold bs in V, F, T. split; [exact V|]. split; [|split; [|split; assumption]].
  - intros EQ. rewrite EQ in F. exact F.
  - intros NE. apply N.eqb_neq in NE. rewrite NE in F. exact F.
Qed.

Lemma Trailer_whole m t buf : slice_ok m buf -> length t = 4 -> 4 <= s_len buf ->
  let bs := s_bytes m buf in
  exists logs, Trailer_Parse m t buf = (logs, Done (last4 bs)) /\
    (last4 bs = [xe2; xd4; xc3; xd9] \/ last4 bs = [xe2; xd4; xc3; xc4] -> logs = []) /\
    (last4 bs <> [xe2; xd4; xc3; xd9] /\ last4 bs <> [xe2; xd4; xc3; xc4] ->
     logs = ["Error parsing CLC message: invalid trailer"%string; dump_line (last4 bs)]).
Proof.
  intros Hok Ht H4 bs. exists (trailer_log (last4 bs)).
  split; [rewrite (sub_self buf) at 1; rewrite Trailer_end by (assumption || lia); reflexivity|].
  unfold trailer_log. pose proof (is_eyecatcher_iff (last4 bs)) as H.
  destruct (is_eyecatcher (last4 bs)); split; intros; tauto || (destruct H as [_ H]; specialize (H H0); discriminate).
Qed.

(** v1 Proposal behind NewMessage *)
Lemma Message_proposal_panics m buf old : slice_ok m buf -> proposal_wf old ->
  let bs := s_bytes m buf in
  let L := N.to_nat (declared bs) in
  8 <= s_len buf -> L <= s_len buf ->
  (snd (Message_Parse m (MProposal old) buf) = Panicked <->
   52 <= L /\ ip_area_offset bs = 40%N /\ s_cap buf < 80) /\
  snd (Message_Parse m (MProposal old) buf) <> Exited.
Proof.
  intros Hok Hwf bs L H8 HL. cbn [Message_Parse]. apply panics_map. split.
  - apply Proposal_complete_panics; assumption.
  - apply (Proposal_panics m buf old Hok Hwf).
Qed.

Lemma Message_proposalv2_panics m buf old : slice_ok m buf -> proposalv2_wf old ->
  let bs := s_bytes m buf in
  let L := N.to_nat (declared bs) in
  8 <= s_len buf -> L <= s_len buf ->
  (snd (Message_Parse m (MProposalV2 old) buf) = Panicked <->
   84 <= L /\ v2_ip_room L bs /\ has_ext bs = true /\ v2_ext_room L bs /\
   (8 < v2_eids L bs \/
    (v2_eids L bs <= 8 /\ has_smcd bs = true /\ v2_smcd_room L bs /\ 8 < v2_gids L bs))) /\
  snd (Message_Parse m (MProposalV2 old) buf) <> Exited.
Proof.
  intros Hok Hwf bs L H8 HL. cbn [Message_Parse]. apply panics_map.
  destruct (le_lt_dec 84 L) as [H84|H84].
  - destruct (ProposalV2_complete_panics m buf old Hok Hwf H84 HL) as [H E].
    split; [|exact E]. rewrite H. tauto.
  - rewrite ProposalV2_short_ok by assumption. cbn [snd]. split; [|discriminate].
    split; [discriminate|]. intros; lia.
Qed.

(** no optional part, or counts of at most 8: no panic *)
Lemma Message_proposalv2_ok m buf old : slice_ok m buf -> proposalv2_wf old ->
  let bs := s_bytes m buf in
  let L := N.to_nat (declared bs) in
  8 <= s_len buf -> L <= s_len buf ->
  (has_ext bs = true -> v2_eid_count L bs <= 8 /\ (has_smcd bs = true -> v2_gid_count L bs <= 8)) ->
  exists logs new, Message_Parse m (MProposalV2 old) buf = (logs, Done new).
Proof.
  intros Hok Hwf bs L H8 HL HC.
  destruct (Message_proposalv2_panics m buf old Hok Hwf H8 HL) as [H E].
  fold bs in H. fold L in H.
  destruct (Message_Parse m (MProposalV2 old) buf) as [logs [new| |]]; cbn [snd] in *; [eauto| |congruence].
  exfalso. destruct H as [H _]. destruct (H eq_refl) as (_ & _ & HE & _ & HN).
  destruct (HC HE) as [H1 H2].
  assert (v2_eids L bs <= v2_eid_count L bs) by (unfold v2_eids, fitting; lia).
  assert (v2_gids L bs <= v2_gid_count L bs) by (unfold v2_gids, fitting; lia).
  destruct HN as [HN|(_ & HS & _ & HN)]; [lia|]. specialize (H2 HS). lia.
Qed.
