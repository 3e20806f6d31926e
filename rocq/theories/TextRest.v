(** * TextRest: LLC, RoCE and FCE texts of parsed messages, and witnesses. Proofs only. *)

From Coq Require Import NArith ZArith Bool String Ascii Arith List Lia.
From Coq Require Import ZifyBool ZifyNat ZifyN.
From Verif Require Import GoBase GoFmt ClcModel LlcModel RoceModel Samples Slices Wire WireLemmas ClcView LlcView
  ClcParse ClcFixed ClcMessage LlcParse LlcMessage RoceParse RoceText LlcExamples Dumps Names Opcodes Show TextLemmas
  TextFacts LlcText ClcText TextWhole.
Import ListNotations.
Local Open Scope nat_scope.

(** ** SMC-D v2 *)

Lemma smcdv2_texts m old buf logs new : slice_ok m buf -> reachable old ->
  is_smcdv2 (kind_of old) = true ->
  let bs := s_bytes m buf in
  fields_present (kind_of old) bs ->
  Message_Parse m old buf = (logs, Done new) ->
  let fce := if (declared bs <? 114)%N then None
             else if (declared bs =? 114)%N then Some (decode_at fce_body (8 * 74) bs)
             else Some (fce_of old) in
  Message_String new = smcdv2_text false bs fce /\ Message_Reserved new = smcdv2_text true bs fce.
Proof.
  intros Hok Hr Hk bs (F1 & F2 & F3) E fce.
  pose proof (reachable_wf _ Hr) as Hwf.
  assert (L : length bs = s_len buf) by (apply s_bytes_length; exact Hok).
  rewrite L in F2.
  destruct (Message_header m old buf logs new Hok Hwf E) as (H8 & Hh & _).
  enough (H : trailer_of new = last4 bs /\ forall res, body_items res new =
     clc_items res accept_smcdv2_rows (decode_at accept_smcdv2_body 64 bs) ++
     match fce with Some vs => clc_items res fce_rows vs | None => [] end).
  { destruct H as [T B]. split.
    - rewrite (text_bytes m old buf logs new false Hok Hr E T), B. reflexivity.
    - rewrite (text_bytes m old buf logs new true Hok Hr E T), B. reflexivity. }
  destruct old as [p|p|a|a|a|c|c|c|d|d]; cbn [Message_Parse message_wf kind_of is_proposal is_smcdv2 min_length fce_of] in *;
    try discriminate; rewrite L in F3.
  - destruct (smcdv2_decode m buf a Hok Hwf) as (a' & D & _ & V & G & G' & T & _); [lia|exact F1|exact F3|].
    rewrite (bind_map _ MAcceptSMCDv2 _ _ D) in E. injection E as _ <-. split; [exact T|]. intros res.
    cbn [body_items]. unfold accept_smcdv2_items. rewrite V. change (a2_Header a' = hdr_of bs) in Hh. rewrite Hh, declared_hdr by lia.
    fold bs in G, G'. unfold fce. destruct (N.ltb_spec (declared bs) 114) as [H|H].
    + replace (114 <=? declared bs)%N with false by lia. reflexivity.
    + replace (114 <=? declared bs)%N with true by lia. destruct (N.eqb_spec (declared bs) 114) as [E114|N114].
      * rewrite (G E114). reflexivity.
      * rewrite (G' N114). reflexivity.
  - destruct c as [a]. cbn [c2_Accept] in *.
    destruct (smcdv2_decode m buf a Hok Hwf) as (a' & _ & D & V & G & G' & T & _); [lia|exact F1|exact F3|].
    rewrite (bind_map _ MConfirmSMCDv2 _ _ D) in E. injection E as _ <-. split; [exact T|]. intros res.
    cbn [body_items c2_Accept]. unfold accept_smcdv2_items. rewrite V. change (a2_Header a' = hdr_of bs) in Hh. rewrite Hh, declared_hdr by lia.
    fold bs in G, G'. unfold fce. destruct (N.ltb_spec (declared bs) 114) as [H|H].
    + replace (114 <=? declared bs)%N with false by lia. reflexivity.
    + replace (114 <=? declared bs)%N with true by lia. destruct (N.eqb_spec (declared bs) 114) as [E114|N114].
      * rewrite (G E114). reflexivity.
      * rewrite (G' N114). reflexivity.
Qed.

(** a message of 118 bytes with a First Contact Extension in place *)
Definition sample_long_fce : list byte :=
  Eval vm_compute in (firstn 5 sample_accept_d2_fce ++ [x00; x76] ++ skipn 7 sample_accept_d2_fce ++ [xe2; xd4; xc3; xc4])%list.

Lemma fce_witness : exists m buf new, slice_ok m buf /\ length (s_bytes m buf) = N.to_nat (declared (s_bytes m buf)) /\
  NewMessage m buf = ([], Done (Some (fresh KAcceptSMCDv2), declared (s_bytes m buf))) /\
  Message_Parse m (fresh KAcceptSMCDv2) buf = ([], Done new) /\
  shows (Message_String new) "OS Type: 0 (unknown), Release: 0, Hostname: , Trailer: SMC-D"%string /\
  In ("OS Type"%string, VN 2) (decode_at fce_body (8 * 74) (s_bytes m buf)).
Proof.
  exists (mem1 sample_long_fce), (slice1 sample_long_fce).
  eexists. split; [apply slice1_ok|]. split; [vm_compute; reflexivity|].
  split; [vm_compute; reflexivity|]. split; [vm_compute; reflexivity|]. split.
  - match goal with |- shows ?s ?t =>
      exists (substring 0 (String.length s - String.length t) s), ""%string end.
    vm_compute. reflexivity.
  - vm_compute. tauto.
Qed.

(** ** LLC *)

Lemma LLC_text msg : llc_wf msg -> text_complete (llc_kind_of msg) = true ->
  LLC_String msg = llc_text false (llc_kind_of msg) (llc_view msg) /\
  LLC_Reserved msg = llc_text true (llc_kind_of msg) (llc_view msg).
Proof.
  destruct msg; cbn [llc_wf llc_kind_of text_complete LLC_String LLC_Reserved llc_view]; intros Hwf Hc; try discriminate.
  - apply ConfirmLink_text.
  - apply DeleteLink_text.
  - apply ConfirmRKey_text, Hwf.
  - apply ConfirmRKeyCont_text, Hwf.
  - apply deleteRKey_text, Hwf.
  - apply TestLink_text.
  - apply CDC_text, Hwf.
  - split; reflexivity.
Qed.

Lemma LLC_add_link_text a : llc_wf (LAddLink a) ->
  LLC_String (LAddLink a) = llc_text false KAddLink (llc_view (LAddLink a)) /\
  LLC_Reserved (LAddLink a) = line (llc_title KAddLink)
    (items no_proto true add_link_reserved_rows (add_link_reserved_fields a)).
Proof. intros _. apply AddLink_text. Qed.

Lemma LLC_add_link_cont_text a : llc_wf (LAddLinkCont a) ->
  LLC_String (LAddLinkCont a) = line (llc_title KAddLinkCont)
    (items no_proto false add_link_cont_shown_rows (add_link_cont_shown_fields a)) /\
  LLC_Reserved (LAddLinkCont a) = line (llc_title KAddLinkCont)
    (items no_proto true add_link_cont_shown_rows (add_link_cont_shown_fields a)).
Proof. intros (_ & H & _). apply AddLinkCont_text, H. Qed.

(** parsing a payload keeps the array sizes *)
Lemma ParseLLC_wf m buf msg : slice_ok m buf -> ParseLLC m buf = ([], Done msg) -> llc_wf msg.
Proof.
  intros Hok E.
  assert (W : forall k logs x, llc_parser k m buf = (logs, Done x) -> llc_wf x).
  { intros k logs x Ek. apply llc_reachable_wf.
    eapply (llc_reach_parse m (llc_fresh k) buf logs x (llc_reach_fresh k) Hok). rewrite <- Ek. destruct k; reflexivity. }
  unfold ParseLLC in E. destruct (negb _); [exact (W KOther _ _ E)|].
  apply bind_inv in E. destruct E as (l1 & t & l2 & _ & E & _). cbv zeta in E.
  repeat match type of E with @eq _ (if ?b then _ else _) _ => destruct b end;
    first [exact (W KConfirmLink _ _ E) | exact (W KAddLink _ _ E) | exact (W KAddLinkCont _ _ E)
      | exact (W KDeleteLink _ _ E) | exact (W KConfirmRKey _ _ E) | exact (W KConfirmRKeyCont _ _ E)
      | exact (W KDeleteRKey _ _ E) | exact (W KTestLink _ _ E) | exact (W KCDC _ _ E) | exact (W KOther _ _ E)].
Qed.

Lemma ParseLLC_text m buf msg : slice_ok m buf ->
  let bs := s_bytes m buf in
  let k := kind_of_type (bits bs 0 8) in
  length bs = 44 -> text_complete k = true -> ParseLLC m buf = ([], Done msg) ->
  LLC_String msg = llc_text false k (decode (llc_layout k) bs) /\
  LLC_Reserved msg = llc_text true k (decode (llc_layout k) bs).
Proof.
  intros Hok bs k H44 Hc E.
  assert (K : k <> KConfirmRKeyCont).
  { intros K. destruct (ParseLLC_panics m buf Hok) as [P _]. fold bs in P.
    rewrite (proj2 P) in E; [discriminate|]. split; [exact H44|]. apply kind_rkeycont. exact K. }
  destruct (ParseLLC_decode m buf Hok H44 K) as (msg' & E' & Hk & Hv & _).
  rewrite E in E'. injection E' as <-. fold bs in Hk, Hv. fold k in Hk, Hv.
  pose proof (LLC_text msg (ParseLLC_wf m buf msg Hok E)) as T. rewrite Hk, Hv in T. apply T, Hc.
Qed.

Lemma ParseLLC_add_link_text m buf msg : slice_ok m buf ->
  let bs := s_bytes m buf in
  length bs = 44 -> bits bs 0 8 = 2%N -> ParseLLC m buf = ([], Done msg) ->
  LLC_String msg = llc_text false KAddLink (decode llc_add_link bs).
Proof.
  intros Hok bs H44 Ht E.
  assert (K : kind_of_type (bits bs 0 8) = KAddLink) by (rewrite Ht; reflexivity).
  destruct (ParseLLC_decode m buf Hok H44) as (msg' & E' & Hk & Hv & _); [fold bs; rewrite K; discriminate|].
  rewrite E in E'. injection E' as <-. fold bs in Hk, Hv. rewrite K in Hk, Hv.
  destruct msg; try discriminate. cbn [llc_layout] in Hv. rewrite <- Hv. apply AddLink_text.
Qed.

(** two packets with different first RKey pairs *)
Lemma add_link_cont_witness : exists m1 m2 buf msg1 msg2, slice_ok m1 buf /\ slice_ok m2 buf /\
  ParseLLC m1 buf = ([], Done msg1) /\ ParseLLC m2 buf = ([], Done msg2) /\
  llc_kind_of msg1 = KAddLinkCont /\ llc_kind_of msg2 = KAddLinkCont /\
  llc_view msg1 <> llc_view msg2 /\
  LLC_String msg1 = LLC_String msg2 /\ LLC_Reserved msg1 = LLC_Reserved msg2.
Proof.
  exists (mem1 ([x03; x2c] ++ zeros 42)), (mem1 ([x03; x2c] ++ zeros 6 ++ repeat xff 16 ++ zeros 20)), (slice1 (zeros 44)).
  do 2 eexists. split; [apply (slice1_ok ([x03; x2c] ++ zeros 42))|].
  split; [apply (slice1_ok ([x03; x2c] ++ zeros 6 ++ repeat xff 16 ++ zeros 20))|].
  split; [vm_compute; reflexivity|]. split; [vm_compute; reflexivity|].
  split; [vm_compute; reflexivity|]. split; [vm_compute; reflexivity|].
  split; [vm_compute; discriminate|]. split; vm_compute; reflexivity.
Qed.

(** two packets that differ in the two bytes behind the MAC *)
Lemma add_link_witness : exists m1 m2 buf msg1 msg2, slice_ok m1 buf /\ slice_ok m2 buf /\
  ParseLLC m1 buf = ([], Done msg1) /\ ParseLLC m2 buf = ([], Done msg2) /\
  llc_kind_of msg1 = KAddLink /\ llc_kind_of msg2 = KAddLink /\
  llc_view msg1 <> llc_view msg2 /\ LLC_Reserved msg1 = LLC_Reserved msg2 /\
  shows (LLC_Reserved msg1) "Reserved: 0x00000000000000000000"%string.
Proof.
  exists (mem1 ([x02; x2c] ++ zeros 42)), (mem1 ([x02; x2c] ++ zeros 8 ++ [xff; xff] ++ zeros 32)), (slice1 (zeros 44)).
  do 2 eexists. split; [apply (slice1_ok ([x02; x2c] ++ zeros 42))|].
  split; [apply (slice1_ok ([x02; x2c] ++ zeros 8 ++ [xff; xff] ++ zeros 32))|].
  split; [vm_compute; reflexivity|]. split; [vm_compute; reflexivity|].
  split; [vm_compute; reflexivity|]. split; [vm_compute; reflexivity|].
  split; [vm_compute; discriminate|]. split; [vm_compute; reflexivity|].
  match goal with |- shows ?s ?t =>
      exists (substring 0 (String.length s - String.length t - 1) s), nl end.
  vm_compute. reflexivity.
Qed.

(** ** RoCE *)

Lemma BTH_parsed_text m buf old b : slice_ok m buf ->
  let bs := s_bytes m buf in
  12 <= s_len buf -> BTH_Parse m old buf = ([], Done b) ->
  BTH_String b = bth_text false (decode bth bs) /\ BTH_Reserved b = bth_text true (decode bth bs).
Proof.
  intros Hok bs H E.
  destruct (BTH_decode m buf old Hok H) as (b' & E' & V & _). rewrite E in E'. injection E' as <-.
  fold bs in V. rewrite <- V. apply BTH_text.
  rewrite (BTH_ok m buf old Hok H) in E. injection E as <-. unfold BTH_of. cbn [bth_Opcode]. apply b2n_lt.
Qed.

Lemma GRH_parsed_text pn m buf old g : slice_ok m buf ->
  let bs := s_bytes m buf in
  40 <= s_len buf -> GRH_Parse m old buf = ([], Done g) ->
  GRH_String pn g = grh_text pn (decode grh bs) /\ GRH_Reserved pn g = grh_text pn (decode grh bs).
Proof.
  intros Hok bs H E.
  destruct (GRH_decode m old buf Hok H) as (g' & E' & V & _). rewrite E in E'. injection E' as <-.
  fold bs in V. rewrite <- V. apply GRH_text.
Qed.

(** the name BTH is shown for protocol 27 only, provided gopacket has no protocol of that name *)
Lemma next_header_text pn n : (forall k, pn k <> "BTH"%string) -> (next_text pn n = "BTH"%string <-> n = 27%N).
Proof.
  intros H. unfold next_text. destruct (N.eqb_spec n 27) as [->|E]; [tauto|].
  split; [intros F; exfalso; exact (H n F)|contradiction].
Qed.

(** ** Areas of v2 Proposals *)

Lemma combine_prefix {A B} (l : list A) : forall (x y : list B), length l <= length x -> combine l (x ++ y) = combine l x.
Proof.
  induction l as [|a l IH]; intros [|b x] y H; cbn in *; try reflexivity; [lia|].
  rewrite IH by lia. reflexivity.
Qed.

Lemma areas_contained n a b c d : length a = N.to_nat n -> length c = N.to_nat n ->
  eid_area n (a ++ b) = eid_area n a /\ gid_area n (c ++ d) = gid_area n c.
Proof.
  intros H1 H2. unfold eid_area, gid_area.
  rewrite !combine_prefix by (rewrite seq_length; lia). split; reflexivity.
Qed.

(** a v2 Proposal without IP area that announces two EIDs but contains none *)
Definition sample_missing_eids : list byte :=
  Eval vm_compute in (hexs "e2d4c3d901007c22" ++ zeros 72 ++ [x02; x00] ++ zeros 38 ++ hexs "e2d4c3d9")%list.

Lemma missing_eids_witness : exists m buf new logs, slice_ok m buf /\
  s_len buf = N.to_nat (declared (s_bytes m buf)) /\
  NewMessage m buf = ([], Done (Some (fresh KProposalV2), declared (s_bytes m buf))) /\
  has_ext (s_bytes m buf) = true /\ v2_eids (s_len buf) (s_bytes m buf) = 0 /\
  Message_Parse m (fresh KProposalV2) buf = (logs, Done new) /\
  shows (Message_String new) "EID Area: [EID 0: , EID 1: ]"%string.
Proof.
  exists (mem1 sample_missing_eids), (slice1 sample_missing_eids).
  do 2 eexists. split; [apply slice1_ok|]. split; [vm_compute; reflexivity|].
  split; [vm_compute; reflexivity|]. split; [vm_compute; reflexivity|]. split; [vm_compute; reflexivity|].
  split; [vm_compute; reflexivity|].
  match goal with |- shows ?s ?t =>
      exists (substring 0 (String.length s - String.length t - String.length ", Trailer: SMC-R") s), ", Trailer: SMC-R"%string end.
  vm_compute. reflexivity.
Qed.

(** a v2 Proposal whose IP Area Offset leaves eight bytes free behind the fixed part *)
Definition sample_ip_gap : list byte :=
  Eval vm_compute in (hexs "e2d4c3d901006428" ++ zeros 30 ++ [x00; x30] ++ zeros 40 ++ zeros 8
    ++ hexs "0a00000018000000" ++ hexs "e2d4c3d9")%list.

Lemma ip_gap_witness : exists m buf p, slice_ok m buf /\
  s_len buf = N.to_nat (declared (s_bytes m buf)) /\
  NewMessage m buf = ([], Done (Some (fresh KProposalV2), declared (s_bytes m buf))) /\
  has_ip (s_bytes m buf) = true /\ has_ext (s_bytes m buf) = false /\
  ip_area_start (s_bytes m buf) + 12 <= s_len buf /\
  Message_Parse m (fresh KProposalV2) buf = ([], Done (MProposalV2 p)) /\
  ip_area_view (p2_IP p) <> decode_at ip_area_body (8 * ip_area_start (s_bytes m buf)) (s_bytes m buf).
Proof.
  exists (mem1 sample_ip_gap), (slice1 sample_ip_gap).
  eexists. split; [apply slice1_ok|]. split; [vm_compute; reflexivity|].
  split; [vm_compute; reflexivity|]. split; [vm_compute; reflexivity|]. split; [vm_compute; reflexivity|].
  split; [apply Nat.leb_le; vm_compute; reflexivity|].
  split; [vm_compute; reflexivity|]. vm_compute. discriminate.
Qed.

(** with an offset that matches the fixed position, the IP area is found *)
Lemma ip_offset_ok m buf old : slice_ok m buf -> proposalv2_wf old ->
  let bs := s_bytes m buf in
  let L := N.to_nat (declared bs) in
  84 <= L -> L <= s_len buf ->
  v2_ip_room L bs -> v2_ext_room L bs -> v2_smcd_room L bs ->
  (has_ext bs = true -> v2_eids L bs <= 8) -> (has_smcd bs = true -> v2_gids L bs <= 8) ->
  has_ip bs = true -> ip_area_offset bs = 40%N ->
  exists logs p, ProposalV2_Parse m old buf = (logs, Done p) /\
    ip_area_view (p2_IP p) = decode_at ip_area_body (8 * ip_area_start bs) bs.
Proof.
  intros Hok Hwf bs L H1 H2 R1 R2 R3 C1 C2 Hi Ho.
  destruct (ClcProposalV2.ProposalV2_decode m buf old Hok Hwf H1 H2 R1 R2 R3 C1 C2) as (p & D & _ & I & _).
  exists (v2_prefix_log L bs ++ v2_eid_log L bs ++ v2_gid_log L bs ++ trailer_log (last4 bs)), p.
  split; [exact D|]. unfold v2_ip_decoded in I. fold bs in I. rewrite Hi in I. destruct I as (I & _).
  rewrite I. unfold ip_area_start. rewrite Ho. reflexivity.
Qed.

(** two messages that differ only in the SMCv2 Extension Offset *)
Lemma ext_offset_witness : exists m1 m2 buf p1 p2, slice_ok m1 buf /\ slice_ok m2 buf /\
  s_len buf = N.to_nat (declared (s_bytes m1 buf)) /\
  Message_Parse m1 (fresh KProposalV2) buf = ([], Done (MProposalV2 p1)) /\
  Message_Parse m2 (fresh KProposalV2) buf = ([], Done (MProposalV2 p2)) /\
  has_ext (s_bytes m1 buf) = true /\ has_ext (s_bytes m2 buf) = true /\
  p2_SMCv2Offset p1 = 25%N /\ p2_SMCv2Offset p2 = 999%N /\ p2_Ext p1 = p2_Ext p2 /\ p2_SMCD p1 = p2_SMCD p2.
Proof.
  exists (mem1 sample_prop2_6), (mem1 (firstn 50 sample_prop2_6 ++ [x03; xe7] ++ skipn 52 sample_prop2_6)), (slice1 sample_prop2_6).
  do 2 eexists. split; [apply slice1_ok|].
  split; [apply (slice1_ok (firstn 50 sample_prop2_6 ++ [x03; xe7] ++ skipn 52 sample_prop2_6))|].
  split; [vm_compute; reflexivity|]. split; [vm_compute; reflexivity|]. split; [vm_compute; reflexivity|].
  repeat split; vm_compute; reflexivity.
Qed.

(** ** Codes *)

Lemma code_texts c :
  MsgType_String c = type_text c /\ Path_String c = path_text c /\ OSType_String c = os_text c /\
  QPMTU_String c = mtu_text c /\ llc_QPMTU_String c = mtu_text c /\
  AddLinkRsnCode_String c = add_link_text c /\ DelLinkRsnCode_String c = delete_link_text c /\
  PeerDiagnosis_String c = diagnosis_text c.
Proof.
  split; [apply MsgType_text|]. split; [apply Path_text|]. split; [apply OSType_text|].
  split; [apply QPMTU_text|]. split; [apply llc_QPMTU_text|]. split; [apply AddLinkRsn_text|].
  split; [apply DelLinkRsn_text|apply Diagnosis_text].
Qed.

Lemma names_distinct (t : names) c c' s : NoDup (map snd t) -> In (c, s) t -> In (c', s) t -> c = c'.
Proof.
  induction t as [|[x y] t IH]; cbn [map snd In]; intros H A B; [contradiction|].
  inversion H as [|? ? H1 H2]; subst.
  destruct A as [A|A], B as [B|B].
  - congruence.
  - injection A as -> ->. apply (in_map snd) in B. contradiction.
  - injection B as -> ->. apply (in_map snd) in A. contradiction.
  - apply IH; assumption.
Qed.

Lemma documented_or_default t d c : unambiguous t d ->
  (forall s, In (c, s) t -> name_of t d c = s /\ s <> d) /\
  (~ In c (map fst t) -> name_of t d c = d) /\
  (forall c' s, In (c, s) t -> In (c', s) t -> c = c').
Proof.
  intros [H1 H2]. inversion H2 as [|? ? H3 H4]; subst.
  destruct (name_of_spec t d c H1) as [N1 N2]. split; [|split; [exact N2|]].
  - intros s Hs. split; [apply N1, Hs|]. intros ->. apply H3. apply (in_map snd) in Hs. exact Hs.
  - intros c' s A B. eapply names_distinct; eassumption.
Qed.

Lemma size_text_ok c : (c < 16)%N -> RMBESize_String c = named (dec c) (dec (16384 * 2 ^ c)).
Proof. intros H. apply RMBESize_text. lia. Qed.

(** all values of the type RMBESize: [1 << k] in 64 bits, [k] modulo 256 *)
Definition size_any (c : N) : string :=
  named (dec c)
    (if (c <? 49)%N then dec (16384 * 2 ^ c)
     else if (c =? 49)%N then "-" ++ dec (2 ^ 63)
     else if (c <? 242)%N then "0" else dec (2 ^ (c - 242)))%string.

Lemma size_text_any c : (c < 256)%N -> RMBESize_String c = size_any c.
Proof.
  intros H.
  assert (E : forallb (fun n => String.eqb (RMBESize_String (N.of_nat n)) (size_any (N.of_nat n))) (seq 0 256) = true)
    by (vm_compute; reflexivity).
  rewrite forallb_forall in E. specialize (E (N.to_nat c)). rewrite N2Nat.id in E.
  apply String.eqb_eq, E, in_seq. lia.
Qed.
