(** * ContentsFacts: which sound CLC messages have the same text. Proofs only. *)

From Coq Require Import NArith ZArith Bool String Ascii Arith List Lia.
From Coq Require Import ZifyBool ZifyNat ZifyN.
From Verif Require Import GoBase GoFmt ClcModel Slices Wire WireLemmas ClcView ClcMessage
  Names Opcodes Show TextLemmas Canon CanonNum CanonIp CanonDump Readable TextInj Lossless TextLossless
  Sound SoundFacts Encode EncodeFacts TextPadded Contents.
From Verif Require ClcRefute TextWhole TextRest Samples.
Import ListNotations.
Local Open Scope nat_scope.

(** ** Texts are functions of the fields they show *)

Lemma named_cons n v vs : named_fields ((n, v) :: vs) = if plain n then (n, v) :: named_fields vs else named_fields vs.
Proof. reflexivity. Qed.

Lemma group_named pn fs : forall l off off' bs bs', gtfits fs l = true ->
  forallb (fun nk => plain (fst nk)) (firstn (length fs) l) = true ->
  named_fields (readable_fields (decode_at l off bs)) = named_fields (readable_fields (decode_at l off' bs')) ->
  group_items pn fs (decode_at l off bs) = group_items pn fs (decode_at l off' bs') /\
  named_fields (readable_fields (skipn (length fs) (decode_at l off bs))) =
  named_fields (readable_fields (skipn (length fs) (decode_at l off' bs'))).
Proof.
  induction fs as [|[label s] fs IH]; intros l off off' bs bs' T N H; [split; [reflexivity|exact H]|].
  destruct l as [|[name k] l]; [discriminate|]. cbn [gtfits length firstn forallb fst] in T, N.
  apply andb_true_iff in T. destruct T as [T0 T]. apply andb_true_iff in N. destruct N as [N0 N].
  rewrite !decode_at_cons in *. unfold readable_fields in H. cbn [map] in H. rewrite !readable_field_eq, !named_cons, N0 in H.
  injection H as Hv H. destruct (IH l _ _ bs bs' T N H) as [A B].
  cbn [group_items length skipn]. split; [|exact B]. rewrite A. f_equal. f_equal.
  rewrite <- (show_readable pn name s k off bs T0), <- (show_readable pn name s k off' bs' T0), Hv. reflexivity.
Qed.

Lemma items_named pn t : forall l off off' bs bs', tfits t l = true -> nfits t l = true ->
  named_fields (readable_fields (decode_at l off bs)) = named_fields (readable_fields (decode_at l off' bs')) ->
  items pn false t (decode_at l off bs) = items pn false t (decode_at l off' bs').
Proof.
  induction t as [|r t IH]; intros l off off' bs bs' T N H; [destruct l; [reflexivity|discriminate]|].
  destruct r as [label s| |n|label|label fs]; cbn [tfits nfits] in T, N.
  - destruct l as [|[name k] l]; [discriminate|]. rewrite !decode_at_cons in *. unfold readable_fields in H. cbn [map] in H.
    apply andb_true_iff in T. destruct T as [T0 T]. apply andb_true_iff in N. destruct N as [N0 N].
    rewrite !readable_field_eq, !named_cons, N0 in H. injection H as Hv H. cbn [items]. f_equal; [|apply (IH l _ _ bs bs' T N H)].
    f_equal. rewrite <- (show_readable pn name s k off bs T0), <- (show_readable pn name s k off' bs' T0), Hv. reflexivity.
  - destruct l as [|[name k] l]; [discriminate|]. rewrite !decode_at_cons in *. unfold readable_fields in H. cbn [map] in H.
    apply andb_true_iff in T. destruct T as [T0 T]. apply andb_true_iff in N. destruct N as [N0 N]. apply negb_true_iff in N0.
    rewrite !readable_field_eq, !named_cons, N0 in H. cbn [items List.app]. apply (IH l _ _ bs bs' T N H).
  - destruct l as [|[name [w|w]] l]; try discriminate. rewrite !decode_at_cons in *. unfold readable_fields in H. cbn [map] in H.
    apply andb_true_iff in T. destruct T as [T0 T]. apply andb_true_iff in N. destruct N as [N0 N]. apply negb_true_iff in N0.
    rewrite !readable_field_eq, !named_cons, N0 in H. cbn [items List.app field_at]. apply (IH l _ _ bs bs' T N H).
  - destruct l as [|[name k] [|[name' [w|w]] l]]; try discriminate. rewrite !decode_at_cons in *. unfold readable_fields in H. cbn [map] in H.
    apply andb_true_iff in T. destruct T as [T0 T]. apply andb_true_iff in T0. destruct T0 as [Tn T0]. apply negb_true_iff in Tn.
    apply andb_true_iff in N. destruct N as [N0 N]. apply andb_true_iff in N0. destruct N0 as [N0 N1].
    rewrite !readable_field_eq, !named_cons, N0, N1 in H. rewrite !(rval_id _ _ Tn) in H. injection H as Hv Hw H.
    cbn [items field_at] in *. rewrite Hv, Hw. f_equal. apply (IH l _ _ bs bs' T N H).
  - apply andb_true_iff in T. destruct T as [T0 T]. apply andb_true_iff in N. destruct N as [N0 N]. cbn [items].
    destruct (group_named pn fs l off off' bs bs' T0 N0 H) as [A B]. rewrite A. f_equal.
    rewrite !skipn_decode_at in *. apply (IH (skipn (length fs) l) _ _ bs bs' T N B).
Qed.

Lemma items_same res t l off off' bs bs' : tfits t l = true -> nfits t l = true ->
  seen res (readable_fields (decode_at l off bs)) = seen res (readable_fields (decode_at l off' bs')) ->
  clc_items res t (decode_at l off bs) = clc_items res t (decode_at l off' bs').
Proof.
  intros T N H. unfold clc_items. destruct res; cbn [seen] in H.
  - rewrite <- (items_readable no_proto true t l off bs T), <- (items_readable no_proto true t l off' bs' T), H. reflexivity.
  - apply (items_named no_proto t l); assumption.
Qed.

(** ** Parts of messages *)

(** rows, layout and first byte *)
Definition part : Type := (list row * layout * nat)%type.
Definition p_rows (p : part) : list row := fst (fst p).
Definition p_lay (p : part) : layout := snd (fst p).
Definition p_off (p : part) : nat := snd p.
Definition nothing : part := ([], [], 0).

Definition fields (p : part) (bs : list byte) : list (string * val) := decode_at (p_lay p) (8 * p_off p) bs.
Definition sfields (res : bool) (p : part) (bs : list byte) : list (string * val) := seen res (readable_fields (fields p bs)).
Definition ptext (res : bool) (bs : list byte) (p : part) : list string := clc_items res (p_rows p) (fields p bs).
Definition fits_part (p : part) : Prop := tfits (p_rows p) (p_lay p) = true /\ nfits (p_rows p) (p_lay p) = true.
Definition inside (bs : list byte) (p : part) : Prop := 8 * p_off p + layout_bits (p_lay p) <= 8 * length bs.

Definition all_fields (ps : list part) (bs : list byte) : list (string * val) := concat (map (fun p => fields p bs) ps).
Definition all_text (res : bool) (ps : list part) (bs : list byte) : list string := concat (map (ptext res bs) ps).

(** each part follows from those before it *)
Fixpoint chain (res : bool) (bs bs' : list byte) (ps ps' : list part) : Prop :=
  match ps, ps' with
  | [], [] => True
  | p :: ps, p' :: ps' => p = p' /\ (sfields res p bs = sfields res p bs' -> chain res bs bs' ps ps')
  | _, _ => False
  end.
Fixpoint agree (res : bool) (bs bs' : list byte) (ps ps' : list part) : Prop :=
  match ps, ps' with
  | [], [] => True
  | p :: ps, p' :: ps' => p = p' /\ sfields res p bs = sfields res p bs' /\ agree res bs bs' ps ps'
  | _, _ => False
  end.

Lemma chain_fields res bs bs' ps : forall ps' e e', chain res bs bs' ps ps' ->
  (seen res (readable_fields (all_fields ps bs)) ++ e = seen res (readable_fields (all_fields ps' bs')) ++ e')%list ->
  agree res bs bs' ps ps' /\ e = e'.
Proof.
  induction ps as [|p ps IH]; intros [|p' ps'] e e' C H; try contradiction C.
  - split; [exact I|]. destruct res; exact H.
  - destruct C as [<- C]. unfold all_fields in H. cbn [map concat] in H. rewrite !readable_app, !seen_app, <- !app_assoc in H.
    apply app_inv_length in H; [|apply seen_length]. destruct H as [H0 H]. cbn [agree].
    destruct (IH ps' e e' (C H0) H) as [A B]. auto.
Qed.

Lemma agree_fields res bs bs' ps : forall ps', agree res bs bs' ps ps' ->
  seen res (readable_fields (all_fields ps bs)) = seen res (readable_fields (all_fields ps' bs')).
Proof.
  induction ps as [|p ps IH]; intros [|p' ps'] A; try contradiction A; [reflexivity|].
  destruct A as (<- & A & B). unfold all_fields. cbn [map concat]. rewrite !readable_app, !seen_app. f_equal; [exact A|apply IH, B].
Qed.

Lemma chain_texts res bs bs' ps : forall ps' e e', chain res bs bs' ps ps' -> Forall fits_part ps ->
  Forall (inside bs) ps -> Forall (inside bs') ps' -> plain_texts (all_fields ps bs) -> plain_texts (all_fields ps' bs') ->
  stops e -> stops e' -> joined (all_text res ps bs) e = joined (all_text res ps' bs') e' ->
  agree res bs bs' ps ps' /\ e = e'.
Proof.
  induction ps as [|p ps IH]; intros [|p' ps'] e e' C F I1 I2 P P' S S' H; try contradiction C.
  - split; [exact I|exact H].
  - destruct C as [<- C]. unfold all_text, all_fields in *. cbn [map concat] in *. rewrite !joined_app in H.
    apply plain_app in P. destruct P as [P P1]. apply plain_app in P'. destruct P' as [P' P1'].
    inversion F as [|? ? [T N] F']. inversion I1 as [|? ? I1p I1']. inversion I2 as [|? ? I2p I2']. subst.
    apply (part_inj res (p_rows p) (p_lay p)) in H; try assumption; try (apply joined_stops; assumption).
    destruct H as [H0 H]. cbn [agree]. destruct (IH ps' e e' (C H0)) as [A B]; auto.
Qed.

Lemma agree_texts res bs bs' ps : forall ps', Forall fits_part ps -> agree res bs bs' ps ps' ->
  all_text res ps bs = all_text res ps' bs'.
Proof.
  induction ps as [|p ps IH]; intros [|p' ps'] F A; try contradiction A; [reflexivity|].
  destruct A as (<- & A & B). inversion F as [|? ? [T N] F']. subst. unfold all_text. cbn [map concat]. f_equal.
  - apply items_same; assumption.
  - apply IH; assumption.
Qed.

(** ** The parts of CLC messages *)

Definition prefix_part (n start : nat) : part := (repeat (Pre "IPv6 Prefix: ") n, concat (repeat ipv6_prefix_body n), start).
Definition when (b : bool) (p : part) : part := if b then p else nothing.

Definition clc_parts (k : clc_kind) (bs : list byte) : list part :=
  match k with
  | KProposal =>
    [(proposal_rows, proposal_body, 8);
     when (ip_area_offset bs =? 40)%N (proposal_smcd_rows, proposal_smcd_body, 40);
     (ip_area_rows, ip_area_body, ip_area_start bs);
     prefix_part (prefix_count bs (ip_area_start bs)) (ip_area_start bs + 8)]
  | KProposalV2 =>
    [(proposalv2_rows, proposalv2_body, 8);
     when (has_ip bs) (ip_area_rows, ip_area_body, 80);
     when (has_ip bs) (prefix_part (prefix_count bs 80) 88);
     when (has_ext bs) (v2_extension_rows, v2_extension_body, ext_at bs);
     when (has_ext bs) ([eid_row (eids_at bs)], repeat ("EID"%string, A 32) (eids_at bs), ext_at bs + 40);
     when (has_smcd bs) (smcdv2_extension_rows, smcdv2_extension_body, smcd_at bs);
     when (has_smcd bs) ([gid_row (gids_at bs)], concat (repeat gid_entry_body (gids_at bs)), smcd_at bs + 48)]
  | KAcceptSMCDv2 | KConfirmSMCDv2 =>
    [(accept_smcdv2_rows, accept_smcdv2_body, 8); when (declared bs =? 114)%N (fce_rows, fce_body, 74)]
  | _ => [(fixed_rows k, fixed_layout k, 8)]
  end.

Lemma parts_fields k bs : concat (map (fun p => decode_at (fst p) (8 * snd p) bs) (parts k bs)) = all_fields (clc_parts k bs) bs.
Proof.
  unfold all_fields, fields. destruct k; cbn [parts clc_parts]; try reflexivity.
  - destruct (ip_area_offset bs =? 40)%N; reflexivity.
  - destruct (has_ip bs), (has_ext bs), (has_smcd bs); reflexivity.
  - destruct (declared bs =? 114)%N; reflexivity.
  - destruct (declared bs =? 114)%N; reflexivity.
Qed.

Lemma when_fits b p : fits_part p -> fits_part (when b p).
Proof. destruct b; [auto|split; reflexivity]. Qed.

Lemma parts_fit k bs : Forall fits_part (clc_parts k bs).
Proof.
  assert (X : forall n s, fits_part (prefix_part n s)) by (intros; split; [apply prefixes_tfit|apply prefixes_nfit]).
  assert (Y : forall n s, fits_part ([eid_row n], repeat ("EID"%string, A 32) n, s)) by (intros; split; [apply eid_tfits|apply eid_nfits]).
  assert (Z : forall n s, fits_part ([gid_row n], concat (repeat gid_entry_body n), s)) by (intros; split; [apply gid_tfits|apply gid_nfits]).
  destruct k; cbn [clc_parts]; repeat apply Forall_cons; try apply Forall_nil; try apply when_fits; auto; split; reflexivity.
Qed.

Lemma parts_inside k bs : sound k bs -> N.to_nat (declared bs) = length bs -> Forall (inside bs) (clc_parts k bs).
Proof.
  intros (S1 & _ & S3) D.
  assert (W : forall b p, (b = true -> inside bs p) -> inside bs (when b p)).
  { intros [] p H; [auto|]. unfold inside. cbn. lia. }
  destruct k; cbn [clc_parts min_length] in *; repeat apply Forall_cons; try apply Forall_nil; try apply W; try intros E;
    unfold inside, prefix_part, p_off, p_lay; cbn [fst snd]; rewrite ?prefixes_bits, ?eids_bits, ?gids_bits;
    try (match goal with |- context [layout_bits ?l] => let v := eval vm_compute in (layout_bits l) in change (layout_bits l) with v end);
    unfold sound_v1, sound_v2 in S3; try lia.
  - unfold ip_area_start in S3. lia.
  - destruct S3 as (H & _). specialize (H E). lia.
  - destruct S3 as (H & _). specialize (H E). lia.
  - destruct S3 as (_ & H & _). destruct (H E). lia.
  - destruct S3 as (_ & H & _). destruct (H E). lia.
  - destruct S3 as (_ & _ & H). destruct (H E). lia.
  - destruct S3 as (_ & _ & H). destruct (H E). lia.
Qed.

(** ** Headers *)

Lemma head_same res k bs bs' : seen res (decode (head k) bs) = seen res (decode (head k) bs') ->
  msg_type bs = msg_type bs' /\ msg_version bs = msg_version bs' /\ msg_path bs = msg_path bs' /\
  declared bs = declared bs' /\ (k = KProposalV2 -> msg_pathv2 bs = msg_pathv2 bs').
Proof.
  intros H. pose proof (fun i => number_of _ _ i H) as G.
  destruct k; destruct res; (split; [exact (G 1)|split; [exact (G 3)|split; [first [exact (G 6)|exact (G 5)]|split; [exact (G 2)|]]]]);
    intros X; try discriminate X; exact (G 4).
Qed.

Lemma head_text res k bs bs' : of_kind k bs -> of_kind k bs' ->
  seen res (decode (head k) bs) = seen res (decode (head k) bs') -> bytes_header_items res bs = bytes_header_items res bs'.
Proof.
  intros K K' H. destruct (head_same res k bs bs' H) as (T & V & P & _). unfold bytes_header_items. rewrite T, V, P.
  destruct ((msg_type bs' =? 1) && (msg_version bs' =? 2))%N%bool eqn:E.
  - assert (k = KProposalV2).
    { apply andb_true_iff in E. destruct E as [E1 E2]. apply N.eqb_eq in E1, E2. unfold of_kind in K'. rewrite E1, E2 in K'. inversion K'; congruence. }
    subst k. destruct res; exact (f_equal (clc_items _ header_v2proposal_rows) H).
  - assert (X : k <> KProposalV2).
    { intros ->. unfold of_kind in K'. inversion K' as [|? T1 V1| | | | | | | |]. rewrite <- T1, <- V1 in E. discriminate E. }
    assert (Y : head k = clc_header) by (destruct k; reflexivity || congruence). rewrite Y in H.
    destruct res; [exact (f_equal (clc_items true (header_rows _ _ _)) H)|].
    exact (f_equal (fun l => clc_items false (header_rows _ _ _) (firstn 5 l ++ [(""%string, VN 0)] ++ skipn 5 l)%list) H).
Qed.

(** ** Texts *)

Definition extra (res : bool) (k : clc_kind) (d : N) : list string :=
  if (is_smcdv2 k && (114 <? d)%N)%bool then clc_items res fce_rows (fce_of (fresh k)) else [].

Definition any_text (res : bool) (k : clc_kind) (bs : list byte) : string :=
  bytes_text res bs (all_text res (clc_parts k bs) bs ++ extra res k (declared bs)).

Lemma any_texts m buf k logs new : slice_ok m buf -> let bs := s_bytes m buf in
  N.to_nat (declared bs) = length bs -> sound k bs -> Message_Parse m (fresh k) buf = (logs, Done new) ->
  Message_String new = any_text false k bs /\ Message_Reserved new = any_text true k bs.
Proof.
  intros Hok bs D S P. destruct (is_smcdv2 k && (114 <? declared bs)%N)%bool eqn:E.
  - apply andb_true_iff in E. destruct E as [E1 E2].
    assert (KF : kind_of (fresh k) = k) by (destruct k; reflexivity).
    destruct (TextRest.smcdv2_texts m (fresh k) buf logs new Hok (reach_fresh k)) as [T1 T2]; rewrite ?KF; try exact E1; try exact P.
    { fold bs. destruct S as (S & _). repeat split; [lia|exact S|]. destruct k; try exact I; intros; lia. }
    fold bs in T1, T2. rewrite T1, T2. unfold any_text, smcdv2_text, extra. rewrite E1, E2.
    replace (declared bs <? 114)%N with false by lia. replace (declared bs =? 114)%N with false by lia.
    destruct k; try discriminate E1; cbn [clc_parts]; unfold all_text; cbn [map concat];
      replace (declared bs =? 114)%N with false by lia; cbn [when]; unfold ptext, fields; cbn [fst snd p_rows p_lay p_off nothing List.app decode_at];
      (split; unfold clc_items; cbn [items]; rewrite app_nil_r; reflexivity).
  - destruct (sound_texts m buf k Hok) as (new' & P' & T1 & T2); fold bs; try assumption.
    { intros X. rewrite X in E. cbn [andb] in E. lia. }
    rewrite P in P'. injection P' as -> ->. rewrite T1, T2. fold bs.
    assert (G : forall res, sound_text res k bs = any_text res k bs); [|split; apply G].
    intros res. unfold any_text, extra. rewrite E, app_nil_r.
    assert (N : forall a : list string, (a ++ [] = a)%list) by apply app_nil_r.
    destruct k; unfold sound_text, fixed_text, all_text; cbn [clc_parts map concat is_smcdv2 andb]; f_equal;
      unfold ptext, prefix_part, fields; cbn [p_rows p_lay p_off fst snd List.app];
      try (rewrite !app_nil_r; reflexivity).
    + rewrite app_nil_r. f_equal. f_equal; [destruct (ip_area_offset bs =? 40)%N; reflexivity|].
      rewrite entries_rows. reflexivity.
    + f_equal. rewrite entries_rows, <- (eid_area_row res), <- (gid_area_row res).
      destruct (has_ip bs), (has_ext bs), (has_smcd bs); cbn [when p_rows p_lay p_off fst snd nothing List.app];
        rewrite <- ?app_assoc, ?app_nil_r; reflexivity.
    + destruct (declared bs =? 114)%N; cbn [when p_rows p_lay p_off fst snd nothing]; rewrite ?app_nil_r; reflexivity.
    + destruct (declared bs =? 114)%N; cbn [when p_rows p_lay p_off fst snd nothing]; rewrite ?app_nil_r; reflexivity.
Qed.

Lemma parts_chain res k bs bs' : seen res (decode (head k) bs) = seen res (decode (head k) bs') ->
  chain res bs bs' (clc_parts k bs) (clc_parts k bs').
Proof.
  intros H. destruct (head_same res k bs bs' H) as (T & V & P & D & P2).
  destruct k; cbn [clc_parts chain]; try (split; [reflexivity|]; intros _; exact I).
  - split; [reflexivity|]. intros Q. change (8 * 8) with 64 in Q. pose proof (offset_seen res bs bs' Q) as O.
    unfold ip_area_start. rewrite O. split; [reflexivity|]. intros _. split; [reflexivity|]. intros Q2.
    pose proof (count_seen res _ bs bs' Q2) as C. cbn [p_off snd] in C. rewrite C. auto.
  - specialize (P2 eq_refl). split; [reflexivity|]. intros _.
    assert (HI : has_ip bs' = has_ip bs) by (unfold has_ip; rewrite P; reflexivity).
    assert (HX : has_ext bs' = has_ext bs) by (unfold has_ext; rewrite P2; reflexivity).
    assert (HS : has_smcd bs' = has_smcd bs) by (unfold has_smcd; rewrite P2; reflexivity).
    rewrite HI, HX, HS. split; [reflexivity|]. intros Q.
    assert (C : has_ip bs = true -> prefix_count bs 80 = prefix_count bs' 80).
    { intros Y. rewrite Y in Q. exact (count_seen res 80 bs bs' Q). }
    split; [destruct (has_ip bs); [rewrite C by reflexivity; reflexivity|reflexivity]|]. intros _.
    assert (XA : ext_at bs' = ext_at bs).
    { unfold ext_at. rewrite HI. destruct (has_ip bs); [rewrite C by reflexivity; reflexivity|reflexivity]. }
    rewrite XA. split; [reflexivity|]. intros Q2.
    assert (EG : has_ext bs = true -> eids_at bs = eids_at bs' /\ gids_at bs = gids_at bs').
    { intros Y. rewrite Y in Q2. apply ext_seen in Q2. destruct Q2 as [Q3 Q4]. cbn [p_off when snd] in Q3, Q4. unfold eids_at, gids_at. rewrite XA, Q3, Q4. auto. }
    split; [destruct (has_ext bs); [destruct (EG eq_refl) as [-> _]|]; reflexivity|]. intros _.
    pose proof (SoundFacts.smcd_ext bs) as SE. unfold smcd_at. rewrite XA.
    destruct (has_smcd bs); [|repeat split].
    destruct (EG (SE eq_refl)) as [-> ->]. repeat split.
  - rewrite D. repeat split.
  - rewrite D. repeat split.
Qed.

Lemma joined_cancel l e e' : joined l e = joined l e' -> e = e'.
Proof. induction l as [|x l IH]; intros H; [exact H|]. cbn [joined] in H. apply sapp_cancel, sapp_cancel in H. apply IH, H. Qed.

Lemma contents_split res k bs : seen res (readable_fields (contents k bs)) =
  (seen res (decode (head k) bs) ++ seen res (readable_fields (all_fields (clc_parts k bs) bs)) ++ [("Trailer"%string, VB (last4 bs))])%list.
Proof.
  unfold contents. rewrite parts_fields. change (header_layout k) with (head k).
  rewrite !readable_app, !seen_app, head_readable. do 2 f_equal. destruct res; reflexivity.
Qed.

Lemma head_length res k bs bs' : length (seen res (decode (head k) bs)) = length (seen res (decode (head k) bs')).
Proof. destruct k, res; reflexivity. Qed.

Lemma contents_parts res k bs bs' : seen res (readable_fields (contents k bs)) = seen res (readable_fields (contents k bs')) <->
  seen res (decode (head k) bs) = seen res (decode (head k) bs') /\
  agree res bs bs' (clc_parts k bs) (clc_parts k bs') /\ last4 bs = last4 bs'.
Proof.
  rewrite !contents_split. split.
  - intros H. apply app_inv_length in H; [|apply head_length]. destruct H as [H1 H]. split; [exact H1|].
    apply chain_fields in H; [|apply parts_chain, H1]. destruct H as [H H2]. split; [exact H|]. injection H2 as ->. reflexivity.
  - intros (H1 & H2 & ->). rewrite H1, (agree_fields res bs bs' _ _ H2). reflexivity.
Qed.

Lemma same_text res k bs bs' : of_kind k bs -> of_kind k bs' ->
  seen res (readable_fields (contents k bs)) = seen res (readable_fields (contents k bs')) ->
  any_text res k bs = any_text res k bs'.
Proof.
  intros K K' H. apply contents_parts in H. destruct H as (H1 & H2 & H3).
  destruct (head_same res k bs bs' H1) as (T & _ & _ & D & _). unfold any_text, bytes_text.
  rewrite T, D, H3, (head_text res k bs bs' K K' H1), (agree_texts res bs bs' _ _ (parts_fit k bs) H2). reflexivity.
Qed.

Lemma same_contents res k k' bs bs' : of_kind k bs -> of_kind k' bs' -> eyecatchers bs -> eyecatchers bs' ->
  N.to_nat (declared bs) = length bs -> N.to_nat (declared bs') = length bs' -> sound k bs -> sound k' bs' ->
  plain_texts (contents k bs) -> plain_texts (contents k' bs') -> any_text res k bs = any_text res k' bs' ->
  k = k' /\ seen res (readable_fields (contents k bs)) = seen res (readable_fields (contents k' bs')).
Proof.
  intros K K' E E' L L' S S' P P' H. unfold any_text in H.
  assert (M : forall b c, sound c b -> 8 <= length b) by (intros b [] (X & _); cbn [min_length] in X; lia).
  apply (head_inj res k k') in H; try assumption; try (eapply M; eassumption).
  destruct H as (<- & HD & _ & _ & HH & HB). split; [reflexivity|]. apply contents_parts. split; [exact HH|].
  rewrite !joined_app in HB.
  assert (PP : forall b, plain_texts (contents k b) -> plain_texts (all_fields (clc_parts k b) b)).
  { intros b X. unfold contents in X. rewrite parts_fields in X. apply plain_app in X. destruct X as [_ X]. apply plain_app in X. apply X. }
  apply chain_texts in HB; try (repeat apply joined_stops; exact I); auto using parts_chain, parts_fit, parts_inside.
  destruct HB as [HA HB]. split; [exact HA|]. rewrite HD in HB. apply joined_cancel in HB.
  apply trailer_step in HB; [exact HB|apply E|apply E'].
Qed.

(** ** The theorems *)

Theorem clc_same m m' k k' buf buf' logs logs' new new' : slice_ok m buf -> slice_ok m' buf' ->
  let bs := s_bytes m buf in let bs' := s_bytes m' buf' in
  of_kind k bs -> of_kind k' bs' -> eyecatchers bs -> eyecatchers bs' ->
  N.to_nat (declared bs) = length bs -> N.to_nat (declared bs') = length bs' -> sound k bs -> sound k' bs' ->
  plain_texts (contents k bs) -> plain_texts (contents k' bs') ->
  Message_Parse m (fresh k) buf = (logs, Done new) -> Message_Parse m' (fresh k') buf' = (logs', Done new') ->
  (Message_Reserved new = Message_Reserved new' <->
   k = k' /\ readable_fields (contents k bs) = readable_fields (contents k' bs')) /\
  (Message_String new = Message_String new' <->
   k = k' /\ named_fields (readable_fields (contents k bs)) = named_fields (readable_fields (contents k' bs'))).
Proof.
  intros Hok Hok' bs bs' K K' E E' L L' S S' P P' R R'.
  destruct (any_texts m buf k logs new Hok L S R) as [T1 T2]. destruct (any_texts m' buf' k' logs' new' Hok' L' S' R') as [T1' T2'].
  fold bs in T1, T2. fold bs' in T1', T2'. rewrite T1, T2, T1', T2'. split; split.
  - apply (same_contents true k k' bs bs'); assumption.
  - intros [<- H]. apply (same_text true); assumption.
  - apply (same_contents false k k' bs bs'); assumption.
  - intros [<- H]. apply (same_text false); assumption.
Qed.

Theorem clc_same_any m m' k buf buf' logs logs' new new' : slice_ok m buf -> slice_ok m' buf' ->
  let bs := s_bytes m buf in let bs' := s_bytes m' buf' in
  of_kind k bs -> of_kind k bs' ->
  N.to_nat (declared bs) = length bs -> N.to_nat (declared bs') = length bs' -> sound k bs -> sound k bs' ->
  Message_Parse m (fresh k) buf = (logs, Done new) -> Message_Parse m' (fresh k) buf' = (logs', Done new') ->
  (readable_fields (contents k bs) = readable_fields (contents k bs') -> Message_Reserved new = Message_Reserved new') /\
  (named_fields (readable_fields (contents k bs)) = named_fields (readable_fields (contents k bs')) ->
   Message_String new = Message_String new').
Proof.
  intros Hok Hok' bs bs' K K' L L' S S' R R'.
  destruct (any_texts m buf k logs new Hok L S R) as [T1 T2]. destruct (any_texts m' buf' k logs' new' Hok' L' S' R') as [T1' T2'].
  fold bs in T1, T2. fold bs' in T1', T2'. rewrite T1, T2, T1', T2'. split.
  - apply (same_text true); assumption.
  - apply (same_text false); assumption.
Qed.

(** ** Messages without gaps *)

Lemma dec_off l o o' bs : o = o' -> decode_at l o bs = decode_at l o' bs.
Proof. intros ->. reflexivity. Qed.

Lemma contents_whole k bs : whole k bs -> contents k bs = decode (wire_layout k bs) bs.
Proof.
  intros W. pose proof (whole_size k bs W) as Z. unfold contents. rewrite wire_split. unfold decode.
  rewrite !(decode_at_app (head k)). change (header_layout k) with (head k). f_equal.
  replace (0 + layout_bits (head k)) with 64 by (destruct k; reflexivity).
  rewrite (decode_at_app (body_lay k bs)).
  assert (T : decode_at [("Trailer"%string, A 4)] (64 + layout_bits (body_lay k bs)) bs = [("Trailer"%string, VB (last4 bs))]).
  { cbn [decode_at]. do 3 f_equal. unfold last4, bytes_at. replace ((64 + layout_bits (body_lay k bs)) / 8) with (length bs - 4).
    - apply firstn_all2. rewrite skipn_length. lia.
    - apply Nat.div_unique with 0; lia. }
  rewrite T. f_equal. clear T Z. unfold body_lay. destruct W as (_ & _ & W).
  destruct k; cbn [parts lay1 lay2 lay3 fixed_layout] in *; rewrite ?app_nil_r; try (cbn [map concat fst snd]; rewrite ?app_nil_r; reflexivity).
  - assert (S : ip_area_start bs = 40 + (if (ip_area_offset bs =? 40)%N then 40 else 0))
      by (unfold ip_area_start; destruct W as [-> | ->]; reflexivity).
    unfold smcd_layout. rewrite S. generalize (prefix_count bs (40 + (if (ip_area_offset bs =? 40)%N then 40 else 0))). intros n.
    destruct (ip_area_offset bs =? 40)%N; cbn [map concat fst snd List.app]; rewrite ?decode_at_app, ?app_nil_r; reflexivity.
  - pose proof (SoundFacts.smcd_ext bs) as SE. unfold smcd_at, ext_at.
    destruct (has_ip bs), (has_ext bs), (has_smcd bs); try discriminate (SE eq_refl);
      cbn [map concat fst snd List.app]; rewrite ?decode_at_app, ?app_nil_r, <- ?app_assoc; cbn [List.app];
      rewrite ?layout_bits_app, ?prefixes_bits, ?eids_bits;
      change (layout_bits proposalv2_body) with 576; change (layout_bits ip_area_body) with 64;
      change (layout_bits v2_extension_body) with 320; change (layout_bits smcdv2_extension_body) with 384;
      change (layout_bits []) with 0;
      repeat (apply app_eq; [apply dec_off; lia|]); try reflexivity; apply dec_off; lia.
  - destruct (declared bs =? 114)%N; cbn [map concat fst snd List.app]; rewrite ?decode_at_app, ?app_nil_r; reflexivity.
  - destruct (declared bs =? 114)%N; cbn [map concat fst snd List.app]; rewrite ?decode_at_app, ?app_nil_r; reflexivity.
Qed.

(** ** Examples *)

(** a v1 Proposal whose IP area starts 4 bytes behind the fixed part, and the same message with
    other bytes in between *)
Definition gap_a : list byte := Eval vm_compute in Samples.hexs
  "e2d4c3d901003810b1a098039babcdeffe800000000000009a039bfffeabcdef98039babcdef0004000000007f00000008000000e2d4c3d9".
Definition gap_b : list byte := Eval vm_compute in Samples.hexs
  "e2d4c3d901003810b1a098039babcdeffe800000000000009a039bfffeabcdef98039babcdef0004deadbeef7f00000008000000e2d4c3d9".

Lemma proposal_kind : kind_rel 1 1 0 KProposal. Proof. constructor. discriminate. Qed.

Lemma gap_witness : exists m m' buf new new', slice_ok m buf /\ slice_ok m' buf /\
  let bs := s_bytes m buf in let bs' := s_bytes m' buf in let k := KProposal in
  of_kind k bs /\ of_kind k bs' /\ eyecatchers bs /\ eyecatchers bs' /\
  N.to_nat (declared bs) = length bs /\ N.to_nat (declared bs') = length bs' /\ sound k bs /\ sound k bs' /\
  plain_texts (contents k bs) /\ plain_texts (contents k bs') /\
  Message_Parse m (fresh k) buf = ([], Done new) /\ Message_Parse m' (fresh k) buf = ([], Done new') /\
  Message_Reserved new = Message_Reserved new' /\ bs <> bs'.
Proof.
  exists (Samples.mem1 gap_a), (Samples.mem1 gap_b), (Samples.slice1 gap_a).
  do 2 eexists. split; [apply Samples.slice1_ok|]. split; [apply (Samples.slice1_ok gap_b)|]. cbv zeta.
  split; [exact proposal_kind|]. split; [exact proposal_kind|]. split; [split; vm_compute; reflexivity|]. split; [split; vm_compute; reflexivity|].
  split; [vm_compute; reflexivity|]. split; [vm_compute; reflexivity|].
  assert (X : forall m b, (N.to_nat (min_length KProposal) <=? length (s_bytes m b)) = true ->
     is_eyecatcher (last4 (s_bytes m b)) = true ->
     (ip_area_start (s_bytes m b) + 8 + 17 * prefix_count (s_bytes m b) (ip_area_start (s_bytes m b)) + 4 <=? length (s_bytes m b)) = true ->
     sound KProposal (s_bytes m b)).
  { intros m b A B C. apply Nat.leb_le in A, C. repeat split; assumption. }
  split; [apply X; vm_compute; reflexivity|]. split; [apply X; vm_compute; reflexivity|].
  split; [apply plain_check; vm_compute; reflexivity|]. split; [apply plain_check; vm_compute; reflexivity|].
  split; [vm_compute; reflexivity|]. split; [vm_compute; reflexivity|]. split; [vm_compute; reflexivity|].
  vm_compute. discriminate.
Qed.

(** an SMC-D v2 Accept that is longer than its fields: the bytes in between do not matter *)
Definition long_a : list byte := Eval vm_compute in Samples.hexs
  "e2d4c3c4020050210123456789abcdef0123456789abcdefff100000ffffffff0123546869734973534d43763245494430310000000000000000000000000000000000000000000000000000e2d4c3c4".

Lemma long_example :
  let bs := long_a in let k := KAcceptSMCDv2 in
  of_kind k bs /\ eyecatchers bs /\ N.to_nat (declared bs) = length bs /\ sound k bs /\ ~ whole k bs /\
  plain_texts (contents k bs) /\ In ("ISMv2 VCHID"%string, VN 291) (contents k bs) /\
  exists new, Message_Parse (Samples.mem1 bs) (fresh k) (Samples.slice1 bs) = ([], Done new).
Proof.
  cbv zeta. assert (T : kind_rel 2 2 1 KAcceptSMCDv2) by constructor.
  split; [exact T|]. split; [split; vm_compute; reflexivity|]. split; [vm_compute; reflexivity|].
  split; [split; [apply Nat.leb_le; vm_compute; reflexivity|split; [vm_compute; reflexivity|exact I]]|].
  split. { intros (W & _). vm_compute in W. discriminate W. }
  split; [apply plain_check; vm_compute; reflexivity|]. split; [vm_compute; tauto|]. eexists. vm_compute. reflexivity.
Qed.
