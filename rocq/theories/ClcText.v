(** * ClcText: the texts of CLC messages. Proofs only. *)

From Coq Require Import NArith ZArith Bool String Ascii Arith List Lia.
From Coq Require Import ZifyBool ZifyNat ZifyN.
From Verif Require Import GoBase GoFmt ClcModel LlcModel RoceModel Slices Wire WireLemmas ClcView LlcView
  ClcParse Dumps Names Opcodes Show TextLemmas.
Import ListNotations.
Local Open Scope nat_scope.

(** ** Comma-separated lists *)

(** the items behind the first one *)
Definition after (l : list string) : string := cat (map (append ", ") l).

Lemma after_nil : after [] = ""%string.
Proof. reflexivity. Qed.

Lemma concat_cons_empty x l : String.concat "" (x :: l) = (x ++ String.concat "" l)%string.
Proof. destruct l; cbn; [rewrite append_nil_r|]; reflexivity. Qed.

Lemma after_cons x l : after (x :: l) = (", " ++ x ++ after l)%string.
Proof. unfold after, cat. cbn [map]. rewrite concat_cons_empty, append_assoc_s. reflexivity. Qed.

Lemma after_app a b : after (a ++ b) = (after a ++ after b)%string.
Proof.
  induction a as [|x a IH]; [reflexivity|]. cbn [List.app]. rewrite !after_cons, IH, !append_assoc_s. reflexivity.
Qed.

Lemma commas_cons x l : commas (x :: l) = (x ++ after l)%string.
Proof.
  revert x. induction l as [|y l IH]; intros x; [cbn; rewrite append_nil_r; reflexivity|].
  rewrite after_cons. change (commas (x :: y :: l)) with (x ++ ", " ++ commas (y :: l))%string.
  rewrite IH. reflexivity.
Qed.

Lemma after_commas l : l <> [] -> after l = (", " ++ commas l)%string.
Proof. destruct l; [congruence|]. intros _. rewrite after_cons, commas_cons. reflexivity. Qed.

Lemma cat_nil : cat [] = ""%string.
Proof. reflexivity. Qed.
Lemma cat_cons x l : cat (x :: l) = (x ++ cat l)%string.
Proof. apply concat_cons_empty. Qed.

Ltac flat := repeat (progress (rewrite ?cat_cons, ?cat_nil, ?after_cons, ?after_nil, ?commas_cons, ?append_assoc_s,
    ?append_nil_r; cbn [append])).

Ltac rows := unfold clc_items; cbn [items show show_number show_bytes List.app skipn].

(** ** The header *)

(** the header text without the title *)
Lemma Header_text h : exists first rest,
  (forall res, header_items res h = first :: rest res) /\
  Header_String h = cat [type_text (h_Type h); ": "; first; after (rest false)]%string /\
  Header_Reserved h = cat [type_text (h_Type h); ": "; first; after (rest true)]%string.
Proof.
  set (flags := fun res : bool =>
    if ((h_Type h =? 1) && (h_Version h =? 2))%N%bool
    then [append "Pathv2: " (path_text (h_Pathv2 h))]
    else append (flag_label (h_Type h) (h_Version h) (h_Path h)) (dec (h_Flag h))
         :: if res then [append "Reserved: " (hexN (h_reserved h))] else []).
  assert (F : flagString h = match flags false with x :: _ => x | [] => ""%string end).
  { unfold flags, flagString, flag_label, TypeProposal, TypeAccept, TypeConfirm, TypeDecline, SMCv2, SMCTypeD.
    destruct (N.eqb_spec (h_Type h) 1) as [E1|E1].
    - rewrite E1. destruct (h_Version h =? 2)%N; cbn [andb N.eqb Pos.eqb]; rewrite ?Path_text; reflexivity.
    - cbn [andb]. destruct (N.eqb_spec (h_Type h) 2) as [E2|E2]; [reflexivity|].
      destruct (N.eqb_spec (h_Type h) 3) as [E3|E3].
      + rewrite E3. cbn [andb N.eqb Pos.eqb].
        destruct ((h_Version h =? 2)%N && (h_Path h =? 1)%N)%bool; reflexivity.
      + cbn [andb]. destruct (h_Type h =? 4)%N; reflexivity. }
  exists (append "Eyecatcher: " (eyecatcher_text (h_Eyecatcher h))).
  exists (fun res => [append "Type: " (named (dec (h_Type h)) (type_text (h_Type h)));
    append "Length: " (dec (h_Length h)); append "Version: " (dec (h_Version h))]
    ++ flags res ++ [append "Path: " (path_text (h_Path h))]).
  split; [|split].
  - intros res. unfold header_items, flags. destruct (_ && _)%bool; rows; destruct res; reflexivity.
  - unfold Header_String. rewrite F. unfold flags, named.
    rewrite (MsgType_text (h_Type h)), (Path_text (h_Path h)), (Eyecatcher_text (h_Eyecatcher h)).
    destruct (_ && _)%bool; cbn [List.app]; flat; reflexivity.
  - unfold Header_Reserved. rewrite F. unfold flags, named.
    rewrite (MsgType_text (h_Type h)), (Path_text (h_Path h)), (Eyecatcher_text (h_Eyecatcher h)). unfold TypeProposal, SMCv2.
    destruct (_ && _)%bool; cbn [List.app]; flat; reflexivity.
Qed.

(** ** Messages: header, body, trailer *)

Lemma message_text_parts msg body_s body_r :
  Message_String msg = cat [Header_String (header_of msg); body_s; ", Trailer: ";
    Eyecatcher_String (trailer_of msg)]%string ->
  Message_Reserved msg = cat [Header_Reserved (header_of msg); body_r; ", Trailer: ";
    Eyecatcher_String (trailer_of msg)]%string ->
  body_s = after (body_items false msg) -> body_r = after (body_items true msg) ->
  Message_String msg = clc_text false msg /\ Message_Reserved msg = clc_text true msg.
Proof.
  intros -> -> -> ->. destruct (Header_text (header_of msg)) as (f & r & H & -> & ->).
  unfold clc_text, trailer_item. rewrite !H. cbn [List.app]. rewrite !commas_cons, !after_app.
  rewrite Eyecatcher_text. split; flat; reflexivity.
Qed.

(** the formats are written with the header first and the trailer last *)
Lemma cat_app a b : cat (a ++ b) = (cat a ++ cat b)%string.
Proof. induction a; cbn [List.app]; [reflexivity|]. rewrite !cat_cons, IHa, append_assoc_s. reflexivity. Qed.

Ltac parts :=
  eapply message_text_parts;
  [cbn [Message_String Message_Reserved header_of trailer_of]; unfold Trailer_String; flat; reflexivity| | |].

Ltac values := rewrite ?QPMTU_text, ?Path_text, ?OSType_text, ?Diagnosis_text, ?EID_text.

Lemma smcr_body a : length (ar_SenderPeerID a) = 8 -> (ar_RMBESize a < 16)%N ->
  AcceptSMCR_String a = cat [Header_String (ar_Header a); after (accept_smcr_items false a); ", Trailer: ";
    Eyecatcher_String (ar_Trailer a)]%string /\
  AcceptSMCR_Reserved a = cat [Header_Reserved (ar_Header a); after (accept_smcr_items true a); ", Trailer: ";
    Eyecatcher_String (ar_Trailer a)]%string.
Proof.
  intros H1 H2. unfold AcceptSMCR_String, AcceptSMCR_Reserved, Trailer_String, accept_smcr_items, accept_smcr_rows,
    behind_header, accept_smcr_view, header_view. rows.
  rewrite PeerID_text, RMBESize_text, QPMTU_text by (assumption || lia). split; flat; reflexivity.
Qed.

Lemma smcd_body a : (ad_DMBESize a < 16)%N ->
  AcceptSMCD_String a = cat [Header_String (ad_Header a); after (accept_smcd_items false a); ", Trailer: ";
    Eyecatcher_String (ad_Trailer a)]%string /\
  AcceptSMCD_Reserved a = cat [Header_Reserved (ad_Header a); after (accept_smcd_items true a); ", Trailer: ";
    Eyecatcher_String (ad_Trailer a)]%string.
Proof.
  intros H2. unfold AcceptSMCD_String, AcceptSMCD_Reserved, Trailer_String, accept_smcd_items, accept_smcd_rows,
    behind_header, accept_smcd_view, header_view. rows.
  rewrite RMBESize_text by lia. split; flat; reflexivity.
Qed.

Lemma smcdv2_body a : (a2_DMBESize a < 16)%N ->
  AcceptSMCDv2_String a = cat [Header_String (a2_Header a); after (accept_smcdv2_items false a); ", Trailer: ";
    Eyecatcher_String (a2_Trailer a)]%string /\
  AcceptSMCDv2_Reserved a = cat [Header_Reserved (a2_Header a); after (accept_smcdv2_items true a); ", Trailer: ";
    Eyecatcher_String (a2_Trailer a)]%string.
Proof.
  intros H2. unfold AcceptSMCDv2_String, AcceptSMCDv2_Reserved, Trailer_String, accept_smcdv2_items,
    accept_smcdv2_rows, behind_header, accept_smcdv2_view, header_view, fceString, fceReserved, fce_view, fce_rows,
    AcceptSMCDv2FCELen.
  replace (h_Length (a2_Header a) <? 114)%N with (negb (114 <=? h_Length (a2_Header a))%N) by lia.
  rewrite !after_app. rows.
  rewrite RMBESize_text, OSType_text, !EID_text by lia.
  destruct (114 <=? h_Length (a2_Header a))%N; cbn [negb]; rows; split; flat; reflexivity.
Qed.

Lemma decline_body_text d : length (d_SenderPeerID d) = 8 ->
  Decline_String d = cat [Header_String (d_Header d); after (body_items false (MDecline d)); ", Trailer: ";
    Eyecatcher_String (d_Trailer d)]%string /\
  Decline_Reserved d = cat [Header_Reserved (d_Header d); after (body_items true (MDecline d)); ", Trailer: ";
    Eyecatcher_String (d_Trailer d)]%string.
Proof.
  intros H. unfold Decline_String, Decline_Reserved, Trailer_String, body_items, decline_rows,
    behind_header, decline_view, header_view. rows.
  rewrite PeerID_text, Diagnosis_text by assumption. split; flat; reflexivity.
Qed.

Lemma declinev2_body_text d : length (d2_SenderPeerID d) = 8 -> length (d2_reserved d) = 4 ->
  DeclineV2_String d = cat [Header_String (d2_Header d); after (body_items false (MDeclineV2 d)); ", Trailer: ";
    Eyecatcher_String (d2_Trailer d)]%string /\
  DeclineV2_Reserved d = cat [Header_Reserved (d2_Header d); after (body_items true (MDeclineV2 d)); ", Trailer: ";
    Eyecatcher_String (d2_Trailer d)]%string.
Proof.
  intros H H'. unfold DeclineV2_String, DeclineV2_Reserved, Trailer_String, body_items, declinev2_rows,
    behind_header, declinev2_view, header_view. rows.
  rewrite PeerID_text, Diagnosis_text, OSType_text by assumption.
  rewrite <- H', to_bytes_BE. split; flat; reflexivity.
Qed.

(** ** Proposals *)

Lemma prefixes_text res ps :
  ipv6_prefixes_string ps = after (prefix_items res (map ipv6_prefix_view ps)).
Proof.
  unfold ipv6_prefixes_string, prefix_items, ipv6_prefix_rows, ipv6_prefix_view.
  induction ps as [|p ps IH]; [reflexivity|]. cbn [map List.concat]. rewrite cat_cons, IH, after_app. rows.
  unfold IPv6Prefix_String. flat. reflexivity.
Qed.

Lemma proposal_body_text p : length (p_SenderPeerID p) = 8 ->
  Proposal_String p = cat [Header_String (p_Header p); after (proposal_items false p); ", Trailer: ";
    Eyecatcher_String (p_Trailer p)]%string /\
  Proposal_Reserved p = cat [Header_Reserved (p_Header p); after (proposal_items true p); ", Trailer: ";
    Eyecatcher_String (p_Trailer p)]%string.
Proof.
  intros H. unfold Proposal_String, Proposal_Reserved, Trailer_String, proposal_items. cbv zeta.
  rewrite !after_app, <- !prefixes_text.
  unfold proposal_rows, behind_header, proposal_view, header_view, proposal_smcd_rows, proposal_smcd_view,
    ip_area_rows, ip_area_view, SMCDIPAreaOffset. rows.
  rewrite PeerID_text by assumption.
  destruct (p_IPAreaOffset p =? 40)%N; rows; split; flat; reflexivity.
Qed.

Lemma eid_area_text n : forall area i,
  eid_area_string n i area =
  let l := map (fun ie => append "EID " (append (dec (N.of_nat (fst ie))) (append ": " (padded_text (snd ie)))))
             (combine (seq i (n - i)) area) in
  if (0 <? i)%nat then after l else commas l.
Proof.
  induction area as [|e area IH]; intros i.
  - cbn [eid_area_string gid_area_string map]. cbv zeta. destruct (0 <? i)%nat, (seq i (n - i)); reflexivity.
  - cbn [eid_area_string]. destruct (Nat.leb_spec n i) as [Hle|Hlt].
    + replace (n - i) with 0 by lia. destruct (0 <? i)%nat; reflexivity.
    + replace (n - i) with (S (n - S i)) by lia. cbn [seq combine map fst snd]. cbv zeta.
      rewrite IH. cbv zeta. replace (0 <? S i)%nat with true by lia. rewrite EID_text.
      rewrite after_cons, commas_cons. destruct (0 <? i)%nat; flat; reflexivity.
Qed.

Lemma gid_area_text n : forall area i,
  gid_area_string n i area =
  let l := concat (map (fun ie =>
       let i := dec (N.of_nat (fst ie)) in
       clc_items false [F (append "GID " (append i ": ")) Dec;
                        F (append "VCHID " (append i ": ")) Dec] (snd ie))
             (combine (seq i (n - i)) (map gid_entry_view area))) in
  if (0 <? i)%nat then after l else commas l.
Proof.
  induction area as [|e area IH]; intros i.
  - cbn [eid_area_string gid_area_string map]. cbv zeta. destruct (0 <? i)%nat, (seq i (n - i)); reflexivity.
  - cbn [gid_area_string]. destruct (Nat.leb_spec n i) as [Hle|Hlt].
    + replace (n - i) with 0 by lia. destruct (0 <? i)%nat; reflexivity.
    + replace (n - i) with (S (n - S i)) by lia. cbn [seq combine map fst snd List.concat]. cbv zeta.
      rewrite IH. cbv zeta. replace (0 <? S i)%nat with true by lia.
      match goal with |- context [gid_entry_view e] => change (gid_entry_view e) with [("GID", VN (g_GID e)); ("VCHID", VN (g_VCHID e))]%string end.
      rows. destruct (0 <? i)%nat; flat; reflexivity.
Qed.

Lemma EID_Area_text p : cat [", EID Area: ["; propV2ExtEIDString p; "]"]%string
  = after [eid_area (x_EIDNumber (p2_Ext p)) (x_EIDArea (p2_Ext p))].
Proof.
  unfold propV2ExtEIDString. rewrite eid_area_text. cbv zeta. rewrite Nat.sub_0_r. unfold eid_area. flat. reflexivity.
Qed.
Lemma GID_Area_text p : cat [", GID Area: ["; smcdV2ExtGIDString p; "]"]%string
  = after [gid_area (x_GIDNumber (p2_Ext p)) (map gid_entry_view (y_GIDArea (p2_SMCD p)))].
Proof.
  unfold smcdV2ExtGIDString. rewrite gid_area_text. cbv zeta. rewrite Nat.sub_0_r. unfold gid_area. flat. reflexivity.
Qed.

Lemma comma_first_commas l : (forall x, In x l -> x <> ""%string) -> comma_first (commas l) = after l.
Proof.
  destruct l as [|x l]; [reflexivity|]. intros H. rewrite commas_cons, after_cons. unfold comma_first.
  specialize (H x (or_introl eq_refl)). destruct x; [congruence|]. reflexivity.
Qed.

Definition v2_ip_items (res : bool) (p : ProposalV2) : list string :=
  if (h_Path (p2_Header p) =? 2)%N then []
   else clc_items res ip_area_rows (ip_area_view (p2_IP p)) ++
        prefix_items res (map ipv6_prefix_view (i_IPv6Prefixes (p2_IP p))).
Definition v2_ext_items (res : bool) (p : ProposalV2) : list string :=
  if (h_Pathv2 (p2_Header p) =? 2)%N then []
   else clc_items res v2_extension_rows (v2_extension_view (p2_Ext p)) ++
        [eid_area (x_EIDNumber (p2_Ext p)) (x_EIDArea (p2_Ext p))].
Definition v2_smcd_items (res : bool) (p : ProposalV2) : list string :=
  if ((h_Pathv2 (p2_Header p) =? 1) || (h_Pathv2 (p2_Header p) =? 3))%N%bool
   then clc_items res smcdv2_extension_rows (smcdv2_extension_view (p2_SMCD p)) ++
        [gid_area (x_GIDNumber (p2_Ext p)) (map gid_entry_view (y_GIDArea (p2_SMCD p)))]
   else [].

Lemma ip_text p :
  comma_first (ipInfoString p) = after (v2_ip_items false p) /\
  comma_first (ipInfoReserved p) = after (v2_ip_items true p).
Proof.
  unfold ipInfoString, ipInfoReserved, v2_ip_items, SMCTypeN.
  destruct (h_Path (p2_Header p) =? 2)%N; [split; reflexivity|].
  rewrite !after_app, <- !prefixes_text. unfold ipV4String, ipV6String, ip_area_rows, ip_area_view. rows.
  split; unfold comma_first; flat; reflexivity.
Qed.

Lemma ext_text p :
  comma_first (propV2ExtString p) = after (v2_ext_items false p) /\
  comma_first (propV2ExtReserved p) = after (v2_ext_items true p).
Proof.
  unfold propV2ExtString, propV2ExtReserved, v2_ext_items, SMCTypeN.
  destruct (h_Pathv2 (p2_Header p) =? 2)%N; [split; reflexivity|]. cbv zeta.
  rewrite !after_app, <- !EID_Area_text. unfold v2_extension_rows, v2_extension_view. rows.
  split; unfold comma_first; flat; reflexivity.
Qed.

Lemma smcd_text p :
  comma_first (smcdV2ExtString p) = after (v2_smcd_items false p) /\
  comma_first (smcdV2ExtReserved p) = after (v2_smcd_items true p).
Proof.
  unfold smcdV2ExtString, smcdV2ExtReserved, v2_smcd_items, SMCTypeD, SMCTypeB.
  rewrite <- negb_orb. destruct ((h_Pathv2 (p2_Header p) =? 1)%N || (h_Pathv2 (p2_Header p) =? 3)%N)%bool;
    cbn [negb]; [|split; reflexivity].
  rewrite !after_app, <- !GID_Area_text. unfold smcdv2_extension_rows, smcdv2_extension_view. rows.
  rewrite EID_text. split; unfold comma_first; flat; reflexivity.
Qed.

Lemma proposalv2_body_text p : length (p2_SenderPeerID p) = 8 ->
  ProposalV2_String p = cat [Header_String (p2_Header p); after (proposalv2_items false p); ", Trailer: ";
    Eyecatcher_String (p2_Trailer p)]%string /\
  ProposalV2_Reserved p = cat [Header_Reserved (p2_Header p); after (proposalv2_items true p); ", Trailer: ";
    Eyecatcher_String (p2_Trailer p)]%string.
Proof.
  intros H.
  assert (E : forall res, proposalv2_items res p =
    clc_items res proposalv2_rows (skipn 6 (proposalv2_view p)) ++
    v2_ip_items res p ++ v2_ext_items res p ++ v2_smcd_items res p) by reflexivity.
  rewrite !E, !after_app. unfold ProposalV2_String, ProposalV2_Reserved, Trailer_String. cbv zeta.
  destruct (ip_text p) as [-> ->], (ext_text p) as [-> ->], (smcd_text p) as [-> ->].
  unfold proposalv2_rows, proposal_rows, proposalv2_view, header_v2proposal_view. rows.
  rewrite PeerID_text by assumption. split; flat; reflexivity.
Qed.

(** ** All messages *)

Lemma Message_text msg : message_wf msg -> size_ok msg ->
  Message_String msg = clc_text false msg /\ Message_Reserved msg = clc_text true msg.
Proof.
  intros Hwf Hs. destruct msg as [p|p|a|a|a|a|a|a|d|d]; cbn [message_wf size_ok] in *;
    (eapply message_text_parts; [| |reflexivity|reflexivity]);
    cbn [Message_String Message_Reserved header_of trailer_of body_items].
  1,2: apply proposal_body_text; apply Hwf.
  1,2: apply proposalv2_body_text; apply Hwf.
  1,2,7,8: apply smcr_body; [apply Hwf|exact Hs].
  1,2,5,6: apply smcd_body; exact Hs.
  1-4: apply smcdv2_body; exact Hs.
  1,2: apply decline_body_text; apply Hwf.
  1,2: apply declinev2_body_text; apply Hwf.
Qed.
