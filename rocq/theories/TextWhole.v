(** * TextWhole: the texts of parsed messages in terms of the received bytes. Proofs only. *)

From Coq Require Import NArith ZArith Bool String Ascii Arith List Lia.
From Coq Require Import ZifyBool ZifyNat ZifyN.
From Verif Require Import GoBase GoFmt ClcModel Slices Wire WireLemmas ClcView
  ClcParse ClcFixed ClcMessage ClcProposal ClcProposalV2 ClcProposalV2Inv Dumps Names Show TextLemmas TextFacts ClcText.
Import ListNotations.
Local Open Scope nat_scope.

Ltac header_steps :=
  repeat lazymatch goal with
  | |- post _ (bind _ _) => apply post_bind; intros
  | |- post _ (ret _) => apply post_ret; reflexivity
  | |- post _ (if ?b then _ else _) => destruct b
  | |- post _ (match ?x with _ => _ end) => destruct x
  end.

Lemma post_done {A B} l (a : A) (f : A -> M B) (P : B -> Prop) : post P (f a) -> post P (bind (l, Done a) f).
Proof.
  intros H l2 b E. apply bind_inv in E. destruct E as (l1 & a1 & l3 & [= <- <-] & E & _). eapply H, E.
Qed.

(** whatever a parse does, it stores the header of the message *)
Lemma Message_header m old buf logs new : slice_ok m buf -> message_wf old ->
  Message_Parse m old buf = (logs, Done new) ->
  8 <= s_len buf /\ header_of new = hdr_of (s_bytes m buf) /\ kind_of new = kind_of old.
Proof.
  intros Hok Hwf E.
  assert (HP : forall h, header_wf h -> 8 <= s_len buf \/ Header_Parse m h buf = panic).
  { intros h Hh. destruct (Nat.le_gt_cases 8 (s_len buf)) as [H|H]; [left; exact H|right].
    apply Header_Parse_panic; assumption. }
  assert (HB : forall {A B} (c : A -> B) (P : B -> Prop) (x : M A),
    post (fun a => P (c a)) x -> post P (let* a := x in ret (c a))).
  { intros A B c P x H l b E'. apply bind_inv in E'. destruct E' as (l1 & a & l2 & E' & [= <- <-] & ->). eapply H, E'. }
  assert (H8 : 8 <= s_len buf).
  { destruct (Nat.le_gt_cases 8 (s_len buf)) as [H|H]; [exact H|exfalso].
    destruct old as [p|p|a|a|a|c|c|c|d|d]; cbn [Message_Parse message_wf] in *;
      unfold ConfirmSMCR_Parse, ConfirmSMCD_Parse, ConfirmSMCDv2_Parse, Proposal_Parse, ProposalV2_Parse, AcceptSMCR_Parse, AcceptSMCD_Parse,
        AcceptSMCDv2_Parse, Decline_Parse, DeclineV2_Parse in E;
      rewrite Header_Parse_panic in E by (assumption || apply Hwf); discriminate. }
  split; [exact H8|].
  revert logs new E.
  change (post (fun n => header_of n = hdr_of (s_bytes m buf) /\ kind_of n = kind_of old) (Message_Parse m old buf)).
  destruct old as [p|p|a|a|a|c|c|c|d|d]; cbn [Message_Parse message_wf] in *; apply HB; cbn [header_of kind_of];
    try (unfold ConfirmSMCR_Parse, ConfirmSMCD_Parse, ConfirmSMCDv2_Parse; apply HB; cbn [cr_Accept cd_Accept c2_Accept]);
    unfold Proposal_Parse, ProposalV2_Parse, AcceptSMCR_Parse, AcceptSMCD_Parse, AcceptSMCDv2_Parse, Decline_Parse, DeclineV2_Parse;
    cbv zeta; rewrite Header_Parse_ok by (assumption || apply Hwf); apply post_done.
  all: repeat lazymatch goal with
  | |- post _ (bind _ _) => apply post_bind; intros
  | |- post _ (ret _) => apply post_ret; split; reflexivity
  | |- post _ (if ?b then _ else _) => destruct b
  | |- post _ (match ?x with _ => _ end) => destruct x
  end.
Qed.

Lemma header_items_bytes res bs : 8 <= length bs -> header_items res (hdr_of bs) = bytes_header_items res bs.
Proof.
  intros H. unfold header_items, bytes_header_items.
  rewrite (hdr_view bs H), (hdr_v2_view bs H), (hdr_path bs H).
  assert (E1 : h_Type (hdr_of bs) = msg_type bs) by (apply msg_type_hdr, H).
  assert (E2 : h_Version (hdr_of bs) = msg_version bs).
  { pose proof (hdr_view bs H) as V. injection V. intros. assumption. }
  rewrite E1, E2. reflexivity.
Qed.

(** the text of a parsed object, up to its body *)
Lemma text_bytes m old buf logs new (res : bool) : slice_ok m buf -> reachable old ->
  Message_Parse m old buf = (logs, Done new) -> trailer_of new = last4 (s_bytes m buf) ->
  (if res then Message_Reserved new else Message_String new) =
  bytes_text res (s_bytes m buf) (body_items res new).
Proof.
  intros Hok Hr E Ht.
  assert (Hn : reachable new) by (eapply reach_parse; eassumption).
  destruct (Message_header m old buf logs new Hok (reachable_wf _ Hr) E) as (H8 & Hh & _).
  destruct (Message_text new (reachable_wf _ Hn) (reachable_size _ Hn)) as [T1 T2].
  assert (HL : 8 <= length (s_bytes m buf)) by (rewrite s_bytes_length; assumption).
  transitivity (clc_text res new); [destruct res; assumption|].
  unfold clc_text, bytes_text. rewrite Ht, Hh, (header_items_bytes res _ HL).
  do 2 f_equal. apply msg_type_hdr, HL.
Qed.

Lemma fixed_body m old buf logs new res : slice_ok m buf -> message_wf old ->
  is_proposal (kind_of old) = false ->
  let bs := s_bytes m buf in
  fields_present (kind_of old) bs ->
  (is_smcdv2 (kind_of old) = true -> (declared bs <= 114)%N) ->
  Message_Parse m old buf = (logs, Done new) ->
  trailer_of new = last4 bs /\
  body_items res new =
    clc_items res (fixed_rows (kind_of old)) (decode_at (fixed_layout (kind_of old)) 64 bs) ++
    (if (is_smcdv2 (kind_of old) && (declared bs =? 114)%N)%bool
     then clc_items res fce_rows (decode_at fce_body (8 * 74) bs) else []).
Proof.
  intros Hok Hwf Hp bs (F1 & F2 & F3) F4 E.
  assert (L : length bs = s_len buf) by (apply s_bytes_length; exact Hok).
  rewrite L in F2.
  destruct (Message_header m old buf logs new Hok Hwf E) as (H8 & Hh & _).
  destruct old as [p|p|a|a|a|c|c|c|d|d]; cbn [Message_Parse message_wf kind_of is_proposal is_smcdv2 min_length] in *;
    try discriminate; cbn [andb]; rewrite ?app_nil_r.
  - destruct (smcr_decode m buf a Hok Hwf) as (a' & D & _ & V & T & _); [lia|exact F1|].
    rewrite (bind_map _ MAcceptSMCR _ _ D) in E. injection E as _ <-. split; [exact T|].
    cbn [body_items]. unfold accept_smcr_items. rewrite V. reflexivity.
  - destruct (smcd_decode m buf a Hok Hwf) as (a' & D & _ & V & T & _); [lia|exact F1|].
    rewrite (bind_map _ MAcceptSMCD _ _ D) in E. injection E as _ <-. split; [exact T|].
    cbn [body_items]. unfold accept_smcd_items. rewrite V. reflexivity.
  - rewrite L in F3.
    destruct (smcdv2_decode m buf a Hok Hwf) as (a' & D & _ & V & G & _ & T & _); [lia|exact F1|exact F3|].
    rewrite (bind_map _ MAcceptSMCDv2 _ _ D) in E. injection E as _ <-. split; [exact T|].
    cbn [body_items]. unfold accept_smcdv2_items. rewrite V. cbn [header_of] in Hh. rewrite Hh, declared_hdr by (fold bs; lia).
    fold bs. specialize (F4 eq_refl). destruct (N.eqb_spec (declared bs) 114) as [E114|N114].
    + replace (114 <=? declared bs)%N with true by lia. fold bs in G. rewrite (G E114). reflexivity.
    + replace (114 <=? declared bs)%N with false by lia. reflexivity.
  - destruct (smcr_decode m buf (cr_Accept c) Hok Hwf) as (a' & _ & D & V & T & _); [lia|exact F1|].
    destruct c as [c]. cbn [cr_Accept] in *.
    rewrite (bind_map _ MConfirmSMCR _ _ D) in E. injection E as _ <-. split; [exact T|].
    cbn [body_items cr_Accept]. unfold accept_smcr_items. rewrite V. reflexivity.
  - destruct (smcd_decode m buf (cd_Accept c) Hok Hwf) as (a' & _ & D & V & T & _); [lia|exact F1|].
    destruct c as [c]. cbn [cd_Accept] in *.
    rewrite (bind_map _ MConfirmSMCD _ _ D) in E. injection E as _ <-. split; [exact T|].
    cbn [body_items cd_Accept]. unfold accept_smcd_items. rewrite V. reflexivity.
  - rewrite L in F3.
    destruct (smcdv2_decode m buf (c2_Accept c) Hok Hwf) as (a' & _ & D & V & G & _ & T & _); [lia|exact F1|exact F3|].
    destruct c as [c]. cbn [c2_Accept] in *.
    rewrite (bind_map _ MConfirmSMCDv2 _ _ D) in E. injection E as _ <-. split; [exact T|].
    cbn [body_items c2_Accept]. unfold accept_smcdv2_items. rewrite V. cbn [header_of c2_Accept] in Hh. rewrite Hh, declared_hdr by (fold bs; lia).
    fold bs. specialize (F4 eq_refl). destruct (N.eqb_spec (declared bs) 114) as [E114|N114].
    + replace (114 <=? declared bs)%N with true by lia. fold bs in G. rewrite (G E114). reflexivity.
    + replace (114 <=? declared bs)%N with false by lia. reflexivity.
  - destruct (Decline_decode m buf d Hok Hwf) as (a' & D & V & T & _); [lia|exact F1|].
    rewrite (bind_map _ MDecline _ _ D) in E. injection E as _ <-. split; [exact T|].
    cbn [body_items]. rewrite V. reflexivity.
  - destruct (DeclineV2_decode m buf d Hok Hwf) as (a' & D & V & T & _); [lia|exact F1|].
    rewrite (bind_map _ MDeclineV2 _ _ D) in E. injection E as _ <-. split; [exact T|].
    cbn [body_items]. rewrite V. reflexivity.
Qed.

Lemma fixed_texts m old buf logs new : slice_ok m buf -> reachable old ->
  is_proposal (kind_of old) = false ->
  let bs := s_bytes m buf in
  fields_present (kind_of old) bs ->
  (is_smcdv2 (kind_of old) = true -> (declared bs <= 114)%N) ->
  Message_Parse m old buf = (logs, Done new) ->
  Message_String new = fixed_text false (kind_of old) bs /\
  Message_Reserved new = fixed_text true (kind_of old) bs.
Proof.
  intros Hok Hr Hp bs F F4 E.
  destruct (fixed_body m old buf logs new false Hok (reachable_wf _ Hr) Hp F F4 E) as [T B1].
  destruct (fixed_body m old buf logs new true Hok (reachable_wf _ Hr) Hp F F4 E) as [_ B2].
  split.
  - rewrite (text_bytes m old buf logs new false Hok Hr E T), B1. reflexivity.
  - rewrite (text_bytes m old buf logs new true Hok Hr E T), B2. reflexivity.
Qed.

Lemma proposal_off p bs old_view : proposal_view p = decode (clc_header ++ proposal_body) bs -> old_view = tt ->
  p_IPAreaOffset p = ip_area_offset bs.
Proof. intros V _. injection V. intros. assumption. Qed.

Lemma proposal_texts m buf logs new : slice_ok m buf ->
  let bs := s_bytes m buf in
  let L := N.to_nat (declared bs) in
  52 <= L -> L <= s_len buf -> ip_area_start bs + 12 <= L ->
  Message_Parse m (fresh KProposal) buf = (logs, Done new) ->
  Message_String new = proposal_text false bs /\ Message_Reserved new = proposal_text true bs.
Proof.
  intros Hok bs L H1 H2 H3 E.
  destruct (Proposal_decode m buf Proposal_zero Hok (fresh_wf KProposal) H1 H2 H3)
    as (p & D & V & S1 & _ & I & (news & P1 & P2) & T & _).
  pose proof E as E'. cbn [Message_Parse fresh] in E'. rewrite (bind_map _ MProposal _ _ D) in E'. injection E' as _ <-.
  assert (B : forall res, body_items res (MProposal p) =
    clc_items res proposal_rows (decode_at proposal_body 64 bs) ++
     (if (ip_area_offset bs =? 40)%N
      then clc_items res proposal_smcd_rows (decode_at proposal_smcd_body (8 * 40) bs) else []) ++
     clc_items res ip_area_rows (decode_at ip_area_body (8 * ip_area_start bs) bs) ++
     prefix_items res (entries ipv6_prefix_body (ip_area_start bs + 8) 17
       (fitting L (ip_area_start bs + 8) 17 (prefix_count bs (ip_area_start bs))) bs)).
  { intros res. cbn [body_items]. unfold proposal_items.
    change (i_IPv6Prefixes (p_IP Proposal_zero) ++ news) with news in P1.
    rewrite (proposal_off p bs tt V eq_refl), V, I, P1, P2. fold bs.
    destruct (N.eqb_spec (ip_area_offset bs) 40) as [E40|N40]; [|reflexivity].
    unfold bs in E40. rewrite (S1 E40). reflexivity. }
  split.
  - rewrite (text_bytes m _ buf logs _ false Hok (reach_fresh KProposal) E T), B. reflexivity.
  - rewrite (text_bytes m _ buf logs _ true Hok (reach_fresh KProposal) E T), B. reflexivity.
Qed.

Lemma skipn_repeat {A} (x : A) n k : skipn k (repeat x n) = repeat x (n - k).
Proof. revert k. induction n; intros [|k]; cbn; try reflexivity. apply IHn. Qed.

Lemma map_rep {A B} (f : A -> B) (x : A) n : map f (repeat x n) = repeat (f x) n.
Proof. induction n as [|n IH]; cbn; [reflexivity|]. rewrite IH. reflexivity. Qed.

Lemma proposalv2_texts m buf logs new : slice_ok m buf ->
  let bs := s_bytes m buf in
  let L := N.to_nat (declared bs) in
  84 <= L -> L <= s_len buf ->
  v2_ip_room L bs -> v2_ext_room L bs -> v2_smcd_room L bs ->
  (has_ext bs = true -> v2_eids L bs <= 8) -> (has_smcd bs = true -> v2_gids L bs <= 8) ->
  Message_Parse m (fresh KProposalV2) buf = (logs, Done new) ->
  Message_String new = proposalv2_text false bs /\ Message_Reserved new = proposalv2_text true bs.
Proof.
  intros Hok bs L H1 H2 R1 R2 R3 C1 C2 E.
  destruct (ProposalV2_decode m buf ProposalV2_zero Hok (fresh_wf KProposalV2) H1 H2 R1 R2 R3 C1 C2)
    as (p & D & V & I & X & Y & T & _).
  pose proof E as E'. cbn [Message_Parse fresh] in E'. rewrite (bind_map _ MProposalV2 _ _ D) in E'. injection E' as _ <-.
  destruct (Message_header m _ buf logs _ Hok (fresh_wf KProposalV2) E) as (H8 & Hh & _).
  assert (HL : 8 <= length bs) by (unfold bs; rewrite s_bytes_length; assumption).
  assert (B : forall res, body_items res (MProposalV2 p) =
     clc_items res proposalv2_rows (decode_at proposalv2_body 64 bs) ++
     (if has_ip bs then
        clc_items res ip_area_rows (decode_at ip_area_body (8 * 80) bs) ++
        prefix_items res (entries ipv6_prefix_body 88 17 (v2_prefixes L bs) bs)
      else []) ++
     (if has_ext bs then
        clc_items res v2_extension_rows (decode_at v2_extension_body (8 * v2_ext_start L bs) bs) ++
        [eid_area (N.of_nat (v2_eid_count L bs))
           (map (fun k => bytes_at bs (v2_ext_start L bs + 40 + 32 * k) 32) (seq 0 (v2_eids L bs))
            ++ repeat (zeros 32) (8 - v2_eids L bs))]
      else []) ++
     (if has_smcd bs then
        clc_items res smcdv2_extension_rows (decode_at smcdv2_extension_body (8 * v2_smcd_start L bs) bs) ++
        [gid_area (N.of_nat (v2_gid_count L bs))
           (entries gid_entry_body (v2_smcd_start L bs + 48) 10 (v2_gids L bs) bs
            ++ repeat [("GID"%string, VN 0); ("VCHID"%string, VN 0)] (8 - v2_gids L bs))]
      else [])).
  { intros res. cbn [body_items]. unfold proposalv2_items. cbv zeta. change (p2_Header p = hdr_of bs) in Hh. rewrite Hh.
    rewrite (hdr_path bs HL), (hdr_pathv2 bs HL), V.
    f_equal. f_equal; [|f_equal].
    - unfold v2_ip_decoded in I. unfold has_ip in *. fold bs in I. destruct (msg_path bs =? 2)%N; cbn [negb] in *; [reflexivity|].
      destruct I as (I1 & news & I2 & I3). change (i_IPv6Prefixes (p2_IP ProposalV2_zero) ++ news) with news in I2. rewrite I1, I2, I3. reflexivity.
    - unfold v2_ext_decoded in X. unfold has_ext in *. fold bs in X. destruct (msg_pathv2 bs =? 2)%N; cbn [negb] in *; [reflexivity|].
      destruct X as (X1 & X2). rewrite X1, X2.
      assert (EN : x_EIDNumber (p2_Ext p) = N.of_nat (v2_eid_count L bs)).
      { injection X1. intros. unfold v2_eid_count. rewrite N2Nat.id. assumption. }
      rewrite EN.
      change (x_EIDArea (p2_Ext ProposalV2_zero)) with (repeat (zeros 32) 8). rewrite skipn_repeat. reflexivity.
    - unfold v2_smcd_decoded in Y. fold bs in Y. change ((msg_pathv2 bs =? 1) || (msg_pathv2 bs =? 3))%N%bool with (has_smcd bs).
      destruct (has_smcd bs) eqn:HS; [|reflexivity].
      destruct Y as (Y1 & news & Y2 & Y3). rewrite Y1, Y2.
      assert (HE : has_ext bs = true).
      { revert HS. unfold has_smcd, has_ext. lia. }
      unfold v2_ext_decoded in X. fold bs in X. rewrite HE in X. destruct X as (X1 & _).
      assert (EN : x_GIDNumber (p2_Ext p) = N.of_nat (v2_gid_count L bs)).
      { unfold v2_gid_count. rewrite N2Nat.id.
        replace (8 * (v2_ext_start L bs + 1)) with (8 * v2_ext_start L bs + 8) by lia.
        injection X1. intros. assumption. }
      rewrite EN, map_app, Y3.
      change (y_GIDArea (p2_SMCD ProposalV2_zero)) with (repeat (mkGIDEntry 0 0) 8). rewrite skipn_repeat, map_rep. reflexivity. }
  split.
  - rewrite (text_bytes m _ buf logs _ false Hok (reach_fresh KProposalV2) E T), B. reflexivity.
  - rewrite (text_bytes m _ buf logs _ true Hok (reach_fresh KProposalV2) E T), B. reflexivity.
Qed.
