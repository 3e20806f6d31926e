(** * PlainFacts: proofs of C82; restated in PropsPlain.v. *)

From Coq Require Import NArith ZArith Bool String Ascii Arith List Lia.
From Coq Require DecimalString HexadecimalString.
From Verif Require Import GoBase GoFmt ClcModel LlcModel RoceModel Show TextLemmas SizesFacts Plain.
Import ListNotations.
Local Open Scope string_scope.

(** ** Pieces of texts *)

Lemma plain_app a b : plain (a ++ b) = plain a && plain b.
Proof. induction a as [|c a IH]; [reflexivity|]. cbn. rewrite IH. apply andb_assoc. Qed.

Lemma plain_concat sep l : plain sep = true -> plain (String.concat sep l) = forallb plain l.
Proof.
  intros H. induction l as [|a l IH]; [reflexivity|]. destruct l as [|b l].
  - cbn. rewrite andb_true_r. reflexivity.
  - change (String.concat sep (a :: b :: l)) with (a ++ sep ++ String.concat sep (b :: l)).
    rewrite !plain_app, H, IH. reflexivity.
Qed.

Lemma plain_cat l : plain (cat l) = forallb plain l.
Proof. apply plain_concat. reflexivity. Qed.

Lemma plain_map {A} (f : A -> string) l : (forall x, plain (f x) = true) -> forallb plain (map f l) = true.
Proof. intros H. induction l as [|a l IH]; [reflexivity|]. cbn. rewrite H, IH. reflexivity. Qed.

Lemma plain_uint d : plain (DecimalString.NilEmpty.string_of_uint d) = true.
Proof. induction d; [reflexivity|..]; cbn; rewrite IHd; reflexivity. Qed.

Lemma plain_dec n : plain (dec n) = true.
Proof. unfold dec, DecimalString.NilZero.string_of_uint. destruct (N.to_uint n) eqn:E; rewrite <- ?E; try reflexivity; rewrite ?E; apply plain_uint. Qed.

Lemma plain_hexuint d : plain (HexadecimalString.NilEmpty.string_of_uint d) = true.
Proof. induction d; [reflexivity|..]; cbn; rewrite IHd; reflexivity. Qed.

Lemma plain_hexN n : plain (hexN n) = true.
Proof.
  unfold hexN. rewrite plain_app. change (plain "0x") with true. unfold HexadecimalString.NilZero.string_of_uint.
  destruct (N.to_hex_uint n) eqn:E; try reflexivity; apply plain_hexuint.
Qed.

Lemma plain_decZ z : plain (decZ z) = true.
Proof. destruct z; cbn [decZ]; rewrite ?plain_app, ?plain_dec; reflexivity. Qed.

Lemma plain_tf b : plain (tf b) = true.
Proof. destruct b; reflexivity. Qed.

Lemma plain_hexdigit n : plain (hexdigit n) = true.
Proof. unfold hexdigit. repeat match goal with |- plain (match ?x with _ => _ end) = true => destruct x end; reflexivity. Qed.

Lemma plain_hex2 b : plain (hex2 b) = true.
Proof. unfold hex2. rewrite plain_app, !plain_hexdigit. reflexivity. Qed.

Lemma plain_hexbytes l : plain (hexbytes l) = true.
Proof. destruct l as [|b l]; [reflexivity|]. unfold hexbytes. rewrite plain_app, plain_cat. apply plain_map, plain_hex2. Qed.

Lemma plain_bin p : forall acc, plain acc = true -> plain (bin_pos p acc) = true.
Proof. induction p as [p IH|p IH|]; intros acc H; cbn [bin_pos]; [apply IH|apply IH|]; exact H. Qed.

Lemma plain_binN n : plain (binN n) = true.
Proof. unfold binN. rewrite plain_app. destruct n as [|p]; [reflexivity|]. cbn. apply plain_bin. reflexivity. Qed.

Lemma plain_mac a : plain (mac_string a) = true.
Proof. unfold mac_string. rewrite plain_concat by reflexivity. apply plain_map, plain_hex2. Qed.

Lemma plain_hex16 x : plain (hex16 x) = true.
Proof.
  unfold hex16. rewrite !plain_app, plain_hexdigit, andb_true_r.
  repeat match goal with |- context [if ?c then _ else _] => destruct c end; rewrite ?plain_hexdigit; reflexivity.
Qed.

Lemma plain_ip6 ip zs ze n : forall i, plain (ip6_loop ip zs ze i n) = true.
Proof.
  induction n as [|n IH]; intros i; cbn [ip6_loop]; [reflexivity|].
  destruct (8 <=? i)%nat; [reflexivity|]. destruct (i =? zs)%nat.
  - rewrite plain_app. change (plain "::") with true. cbn [andb]. destruct (8 <=? ze)%nat; [reflexivity|].
    rewrite plain_app, plain_hex16, IH. reflexivity.
  - rewrite !plain_app, plain_hex16, IH. destruct (0 <? i)%nat; reflexivity.
Qed.

Lemma plain_ip ip : plain (ip_string ip) = true.
Proof.
  unfold ip_string. destruct (_ =? _)%nat; [reflexivity|]. destruct (negb _).
  - rewrite plain_app, plain_cat. apply plain_map, plain_hex2.
  - destruct (ip_to4 ip) as [ip4|].
    + unfold ip4_string. rewrite plain_concat by reflexivity. apply plain_map. intros b. apply plain_dec.
    + unfold ip6_string. destruct (zero_range ip). apply plain_ip6.
Qed.

(** ** Names *)

Lemma plain_bytes l : plain (bytes_string l) = forallb (fun b => visible (ascii_of_byte b)) l.
Proof. induction l as [|b l IH]; [reflexivity|]. unfold bytes_string in *. cbn. rewrite IH. reflexivity. Qed.

Lemma visible_byte b : visible (ascii_of_byte b) = true <-> (32 <= b2n b <= 126)%N.
Proof.
  unfold visible. assert (E : N_of_ascii (ascii_of_byte b) = b2n b) by (destruct b; reflexivity).
  rewrite E, andb_true_iff, !N.leb_le. reflexivity.
Qed.

Lemma drop_visible l : forallb (fun b => visible (ascii_of_byte b)) (drop_blanks l) = forallb (fun b => visible (ascii_of_byte b)) l.
Proof.
  induction l as [|b l IH]; [reflexivity|]. cbn [drop_blanks]. destruct (Byte.byte_eq_dec b x20) as [->|]; [|reflexivity].
  rewrite IH. reflexivity.
Qed.

Lemma forallb_rev {A} (f : A -> bool) l : forallb f (rev l) = forallb f l.
Proof.
  induction l as [|a l IH]; [reflexivity|]. cbn [rev forallb]. rewrite forallb_app, IH. cbn [forallb].
  rewrite andb_true_r. apply andb_comm.
Qed.

Definition ok_name (e : list byte) : bool := forallb (fun b => visible (ascii_of_byte b)) (before_nul e).

Lemma plain_eid e : plain (EID_String e) = ok_name e.
Proof.
  rewrite EID_text. unfold padded_text. rewrite plain_bytes, forallb_rev, drop_visible, forallb_rev. reflexivity.
Qed.

Lemma ok_name_spec e : ok_name e = true <-> plain_name e.
Proof.
  unfold ok_name, plain_name. rewrite forallb_forall. split; intros H b Hb; apply visible_byte, H, Hb.
Qed.

Lemma ok_names l : forallb ok_name l = true <-> Forall plain_name l.
Proof. rewrite forallb_forall, Forall_forall. split; intros H e He; apply ok_name_spec, H, He. Qed.

(** ** Texts *)

Ltac lit :=
  match goal with
  | |- context [plain (String ?a ?b)] => change (plain (String a b)) with true
  | |- context [plain EmptyString] => change (plain EmptyString) with true
  end.

Ltac tidy :=
  repeat first
    [ rewrite plain_cat | progress cbn [forallb map andb] | lit
    | rewrite plain_app | rewrite plain_dec | rewrite plain_hexN | rewrite plain_decZ | rewrite plain_tf
    | rewrite plain_hexbytes | rewrite plain_binN | rewrite plain_mac | rewrite plain_ip | rewrite plain_eid
    | rewrite andb_true_r ].

Ltac cases := repeat match goal with |- context [if ?c then _ else _] => destruct c end.

Lemma plain_eye e : plain (Eyecatcher_String e) = true.
Proof. unfold Eyecatcher_String. cases; reflexivity. Qed.

Lemma plain_type t : plain (MsgType_String t) = true.
Proof. unfold MsgType_String. cases; reflexivity. Qed.

Lemma plain_path t : plain (Path_String t) = true.
Proof. unfold Path_String. cases; reflexivity. Qed.

Lemma plain_size s : plain (RMBESize_String s) = true.
Proof. unfold RMBESize_String. cbv zeta. tidy. reflexivity. Qed.

Lemma plain_mtu s : plain (QPMTU_String s) = true.
Proof. unfold QPMTU_String. cbv zeta. tidy. cases; reflexivity. Qed.

Lemma plain_os s : plain (OSType_String s) = true.
Proof. unfold OSType_String. cbv zeta. tidy. cases; reflexivity. Qed.

Lemma plain_peer p : plain (PeerID_String p) = true.
Proof. unfold PeerID_String. cbv zeta. tidy. reflexivity. Qed.

Lemma plain_diag p : plain (PeerDiagnosis_String p) = true.
Proof. unfold PeerDiagnosis_String, PeerDiagnosis_name. tidy. cases; reflexivity. Qed.

Lemma plain_prefixes l : plain (ipv6_prefixes_string l) = true.
Proof. unfold ipv6_prefixes_string. rewrite plain_cat. apply plain_map. intros p. unfold IPv6Prefix_String. tidy. reflexivity. Qed.

Ltac tidy2 :=
  repeat first
    [ progress tidy | rewrite plain_eye | rewrite plain_type | rewrite plain_path | rewrite plain_size | rewrite plain_mtu
    | rewrite plain_os | rewrite plain_peer | rewrite plain_diag | rewrite plain_prefixes ].

Lemma plain_flag h : plain (flagString h) = true.
Proof. unfold flagString. cases; tidy2; reflexivity. Qed.

Lemma plain_header h : plain (Header_String h) = true /\ plain (Header_Reserved h) = true.
Proof.
  unfold Header_String, Header_Reserved. cbv zeta. split; [|cases]; tidy2; rewrite plain_flag; tidy2; reflexivity.
Qed.

Ltac tidy3 := repeat first [progress tidy2 | rewrite (proj1 (plain_header _)) | rewrite (proj2 (plain_header _))].

Lemma plain_smcr a : plain (AcceptSMCR_String a) = true /\ plain (AcceptSMCR_Reserved a) = true.
Proof. unfold AcceptSMCR_String, AcceptSMCR_Reserved, Trailer_String. split; tidy3; reflexivity. Qed.

Lemma plain_smcd a : plain (AcceptSMCD_String a) = true /\ plain (AcceptSMCD_Reserved a) = true.
Proof. unfold AcceptSMCD_String, AcceptSMCD_Reserved, Trailer_String. split; tidy3; reflexivity. Qed.

Lemma plain_decline a : plain (Decline_String a) = true /\ plain (Decline_Reserved a) = true.
Proof. unfold Decline_String, Decline_Reserved, Trailer_String. split; tidy3; reflexivity. Qed.

Lemma plain_declinev2 a : plain (DeclineV2_String a) = true /\ plain (DeclineV2_Reserved a) = true.
Proof. unfold DeclineV2_String, DeclineV2_Reserved, Trailer_String. split; tidy3; reflexivity. Qed.

Lemma plain_proposal p : plain (Proposal_String p) = true /\ plain (Proposal_Reserved p) = true.
Proof. unfold Proposal_String, Proposal_Reserved, Trailer_String. cbv zeta. split; cases; tidy3; reflexivity. Qed.

Lemma plain_smcdv2 a : let ns := a2_EID a :: (if (114 <=? h_Length (a2_Header a))%N then [a2_Hostname a] else []) in
  plain (AcceptSMCDv2_String a) = forallb ok_name ns /\ plain (AcceptSMCDv2_Reserved a) = forallb ok_name ns.
Proof.
  cbv zeta. unfold AcceptSMCDv2_String, AcceptSMCDv2_Reserved, Trailer_String, fceString, fceReserved, AcceptSMCDv2FCELen.
  destruct (N.ltb_spec (h_Length (a2_Header a)) 114) as [L|L];
    [apply N.leb_gt in L|apply N.leb_le in L]; rewrite L; split; tidy3; reflexivity.
Qed.

Lemma plain_eids n area : forall i, plain (eid_area_string n i area) = forallb ok_name (firstn (n - i) area).
Proof.
  induction area as [|e area IH]; intros i; cbn [eid_area_string]; [rewrite firstn_nil; reflexivity|].
  destruct (Nat.leb_spec n i) as [L|L]; [replace (n - i) with 0 by lia; reflexivity|].
  replace (n - i) with (S (n - S i)) by lia. cbn [firstn forallb]. rewrite <- IH.
  destruct (0 <? i)%nat; tidy; reflexivity.
Qed.

Lemma plain_gids n area : forall i, plain (gid_area_string n i area) = true.
Proof.
  induction area as [|e area IH]; intros i; cbn [gid_area_string]; [reflexivity|].
  destruct (n <=? i)%nat; [reflexivity|]. destruct (0 <? i)%nat; tidy; apply IH.
Qed.

Lemma plain_comma s : plain (comma_first s) = plain s.
Proof. unfold comma_first. destruct (s =? "")%string; [reflexivity|]. rewrite plain_app. reflexivity. Qed.

Lemma plain_ip_info p : plain (ipInfoString p) = true /\ plain (ipInfoReserved p) = true.
Proof. unfold ipInfoString, ipInfoReserved, ipV4String, ipV6String. split; cases; tidy2; reflexivity. Qed.

Lemma plain_proposalv2 p : let ns := shown_names (MProposalV2 p) in
  plain (ProposalV2_String p) = forallb ok_name ns /\ plain (ProposalV2_Reserved p) = forallb ok_name ns.
Proof.
  cbv zeta. unfold ProposalV2_String, ProposalV2_Reserved, Trailer_String. cbv zeta.
  split; tidy3; rewrite !plain_comma, ?(proj1 (plain_ip_info p)), ?(proj2 (plain_ip_info p)); cbn [shown_names andb];
    rewrite forallb_app;
    unfold propV2ExtString, smcdV2ExtString, propV2ExtReserved, smcdV2ExtReserved, propV2ExtEIDString, smcdV2ExtGIDString;
    (f_equal;
     [ destruct (h_Pathv2 (p2_Header p) =? SMCTypeN)%N; [reflexivity|]; cbv zeta; tidy; rewrite plain_eids, Nat.sub_0_r; reflexivity
     | destruct (h_Pathv2 (p2_Header p) =? SMCTypeD)%N, (h_Pathv2 (p2_Header p) =? SMCTypeB)%N; cbn [negb andb orb];
       [..|reflexivity]; tidy; rewrite plain_gids; tidy; reflexivity ]).
Qed.

Lemma plain_message_b msg :
  plain (Message_String msg) = forallb ok_name (shown_names msg) /\
  plain (Message_Reserved msg) = forallb ok_name (shown_names msg).
Proof.
  destruct msg as [p|p|a|a|a|[a]|[a]|[a]|a|a]; cbn [Message_String Message_Reserved cr_Accept cd_Accept c2_Accept].
  - apply plain_proposal.
  - apply plain_proposalv2.
  - apply plain_smcr.
  - apply plain_smcd.
  - apply plain_smcdv2.
  - apply plain_smcr.
  - apply plain_smcd.
  - apply plain_smcdv2.
  - apply plain_decline.
  - apply plain_declinev2.
Qed.

Lemma plain_message msg :
  (plain (Message_String msg) = true <-> Forall plain_name (shown_names msg)) /\
  (plain (Message_Reserved msg) = true <-> Forall plain_name (shown_names msg)).
Proof. destruct (plain_message_b msg) as [-> ->]. split; apply ok_names. Qed.

(** ** LLC, BTH, GRH: one line *)

Lemma cat_app a b : cat (a ++ b)%list = cat a ++ cat b.
Proof.
  unfold cat. induction a as [|x a IH]; [reflexivity|]. destruct a as [|y a].
  - destruct b as [|z b]; cbn; [|reflexivity]. induction x as [|c x IHx]; [reflexivity|]. cbn. f_equal. exact IHx.
  - change (String.concat "" ((x :: y :: a) ++ b)%list) with (x ++ String.concat "" ((y :: a) ++ b)%list).
    change (String.concat "" (x :: y :: a)) with (x ++ String.concat "" (y :: a)). rewrite IH.
    generalize (String.concat "" (y :: a)) (String.concat "" b). intros s t. induction x as [|c x IHx]; [reflexivity|].
    cbn. f_equal. exact IHx.
Qed.

Lemma line_cat l : forallb plain (removelast l) = true -> last l "" = nl -> lines (cat l) 1.
Proof.
  intros H L. exists [cat (removelast l)]. split; [|split; [constructor; [|constructor]|reflexivity]].
  - cbn [map String.concat]. transitivity (cat (removelast l ++ [last l ""])%list).
    + f_equal. apply app_removelast_last. intros ->. discriminate L.
    + rewrite cat_app, L. reflexivity.
  - rewrite plain_cat. exact H.
Qed.

Lemma plain_pairs ps : forall i s, plain s = true -> plain (pairs_string i ps s) = true.
Proof.
  induction ps as [|p ps IH]; intros i s H; cbn [pairs_string]; [exact H|]. cbv zeta. apply IH. unfold RKeyPair_String. tidy. reflexivity.
Qed.

Lemma plain_pairs_res ps : forall i s, plain s = true -> plain (pairs_reserved i ps s) = true.
Proof.
  induction ps as [|p ps IH]; intros i s H; cbn [pairs_reserved]; [exact H|]. cbv zeta. apply IH. unfold RKeyPair_String. tidy. reflexivity.
Qed.

Lemma plain_others rs : forall i, plain (others_string i rs) = true.
Proof. induction rs as [|r rs IH]; intros i; cbn [others_string]; [reflexivity|]. unfold RMBSpec_String. tidy. apply IH. Qed.

Lemma plain_others_res rs : forall i, plain (others_reserved i rs) = true.
Proof. induction rs as [|r rs IH]; intros i; cbn [others_reserved]; [reflexivity|]. unfold RMBSpec_String. tidy. apply IH. Qed.

Lemma plain_rkeys rs : forall i, plain (rkeys_string i rs) = true.
Proof. induction rs as [|r rs IH]; intros i; cbn [rkeys_string]; [reflexivity|]. tidy. apply IH. Qed.

Lemma plain_rkeys_res rs : forall i, plain (rkeys_reserved i rs) = true.
Proof. induction rs as [|r rs IH]; intros i; cbn [rkeys_reserved]; [reflexivity|]. tidy. apply IH. Qed.

Lemma plain_llc_mtu q : plain (llc_QPMTU_String q) = true.
Proof. unfold llc_QPMTU_String. cbv zeta. tidy. cases; reflexivity. Qed.

Lemma plain_add_rsn q : plain (AddLinkRsnCode_String q) = true.
Proof. unfold AddLinkRsnCode_String. cbv zeta. tidy. cases; reflexivity. Qed.

Lemma plain_del_rsn q : plain (DelLinkRsnCode_String q) = true.
Proof. unfold DelLinkRsnCode_String. cbv zeta. tidy. cases; reflexivity. Qed.

Ltac tidy4 :=
  repeat first
    [ progress tidy | rewrite plain_llc_mtu | rewrite plain_add_rsn | rewrite plain_del_rsn | rewrite plain_peer
    | rewrite plain_pairs by reflexivity | rewrite plain_pairs_res by reflexivity | rewrite plain_others
    | rewrite plain_others_res | rewrite plain_rkeys | rewrite plain_rkeys_res ].

Ltac line := apply line_cat; [cbn [removelast]; tidy4; reflexivity|reflexivity].

Lemma llc_line msg : lines (LLC_String msg) 1 /\ lines (LLC_Reserved msg) 1.
Proof.
  destruct msg; cbn [LLC_String LLC_Reserved];
    unfold ConfirmLink_String, AddLink_String, AddLinkCont_String, DeleteLink_String, ConfirmRKey_String, ConfirmRKeyCont_String,
      deleteRKey_String, TestLink_String, CDC_String, Other_Reserved, Other_String, ConfirmLink_Reserved, AddLink_Reserved,
      AddLinkCont_Reserved, DeleteLink_Reserved, ConfirmRKey_Reserved, ConfirmRKeyCont_Reserved, deleteRKey_Reserved,
      TestLink_Reserved, CDC_Reserved; split; line.
Qed.

Lemma plain_op l o : forallb plain l = true -> plain (match nth_error l o with Some s => s | None => "Reserved" end) = true.
Proof.
  intros H. destruct (nth_error l o) as [s|] eqn:E; [|reflexivity]. apply nth_error_In in E.
  rewrite forallb_forall in H. apply H, E.
Qed.

Lemma bth_line b : lines (BTH_String b) 1 /\ lines (BTH_Reserved b) 1.
Proof.
  assert (O : plain (Opcode_String (bth_Opcode b)) = true).
  { unfold Opcode_String, rcString, ucString, rdString, udString, cnpString, xrcString, rcString, lookup_op. cbv zeta. tidy.
    repeat match goal with |- context [if ?c then _ else _] => destruct c end; tidy; try reflexivity;
      apply plain_op; reflexivity. }
  unfold BTH_String, BTH_Reserved.
  split; (apply line_cat; [cbn [removelast]; tidy; rewrite O; tidy; reflexivity|reflexivity]).
Qed.

Lemma grh_line pn g : (forall v, plain (pn v) = true) -> lines (GRH_String pn g) 1 /\ lines (GRH_Reserved pn g) 1.
Proof.
  intros P. unfold GRH_Reserved, GRH_String. cbv zeta.
  split; (apply line_cat; [cbn [removelast]; destruct (negb _); tidy; rewrite ?P; tidy; reflexivity|reflexivity]).
Qed.

(** ** Dumps *)

Lemma app_assoc_s a b c : (a ++ b) ++ c = a ++ b ++ c.
Proof. induction a as [|x a IH]; [reflexivity|]. cbn. f_equal. exact IH. Qed.

Lemma lines_more l s k : plain l = true -> lines s k -> lines (l ++ nl ++ s) (S k).
Proof.
  intros P (ls & -> & F & L). exists (l :: ls). split; [|split; [constructor; assumption|cbn; rewrite L; reflexivity]].
  change (map (fun l => l ++ newline) (l :: ls)) with (([(l ++ newline)%string] ++ map (fun l => (l ++ newline)%string) ls)%list).
  fold (cat (map (fun l => l ++ newline) ls)). fold (cat ([(l ++ newline)%string] ++ map (fun l => (l ++ newline)%string) ls)%list).
  rewrite cat_app. change (cat [l ++ newline]) with (l ++ nl). rewrite app_assoc_s. reflexivity.
Qed.

Lemma lines_front p s k : plain p = true -> lines s (S k) -> lines (p ++ s) (S k).
Proof.
  intros P (ls & -> & F & L). destruct ls as [|l ls]; [discriminate L|]. inversion F as [|? ? Fl Fr]; subst.
  exists ((p ++ l) :: ls). split; [|split; [constructor; [rewrite plain_app, P, Fl; reflexivity|exact Fr]|exact L]].
  change (map (fun l => l ++ newline) (l :: ls)) with (([(l ++ newline)%string] ++ map (fun l => (l ++ newline)%string) ls)%list).
  change (map (fun l => l ++ newline) ((p ++ l) :: ls)) with (([((p ++ l) ++ newline)%string] ++ map (fun l => (l ++ newline)%string) ls)%list).
  fold (cat ([(l ++ newline)%string] ++ map (fun l => (l ++ newline)%string) ls)%list).
  fold (cat ([((p ++ l) ++ newline)%string] ++ map (fun l => (l ++ newline)%string) ls)%list).
  rewrite !cat_app. change (cat [l ++ newline]) with (l ++ newline). change (cat [(p ++ l) ++ newline]) with ((p ++ l) ++ newline).
  rewrite !app_assoc_s. reflexivity.
Qed.

Lemma plain_char b : plain (to_char b) = true.
Proof. destruct b; reflexivity. Qed.

Lemma plain_sep u : plain (dump_sep u) = true.
Proof. unfold dump_sep. cases; reflexivity. Qed.

Lemma plain_pad k : forall u, plain (dump_pad u k) = true.
Proof. induction k as [|k IH]; intros u; cbn [dump_pad]; [reflexivity|]. rewrite !plain_app, plain_sep, IH. reflexivity. Qed.

Lemma plain_offset n : plain (offset8 n) = true.
Proof. unfold offset8. rewrite plain_cat. apply plain_map, plain_hex2. Qed.

Lemma dump_lines data : forall n used r, used < 16 -> plain r = true ->
  lines (dump_loop n used r data) ((used + List.length data + 15) / 16).
Proof.
  induction data as [|b data IH]; intros n used r U R; cbn [dump_loop List.length].
  - destruct (Nat.eqb_spec used 0) as [->|N].
    + exists []. repeat split. constructor.
    + replace ((used + 0 + 15) / 16) with 1.
      * rewrite <- !app_assoc_s. replace (((dump_pad used (16 - used) ++ r) ++ "|") ++ nl) with (((dump_pad used (16 - used) ++ r) ++ "|") ++ nl ++ "") by reflexivity.
        apply lines_more; [rewrite !plain_app, plain_pad, R; reflexivity|]. exists []. repeat split. constructor.
      * apply (Nat.div_unique _ 16 1 (used + 0 + 15 - 16)); lia.
  - assert (F : plain (if (used =? 0)%nat then offset8 n ++ "  " else "") = true).
    { destruct (used =? 0)%nat; [rewrite plain_app, plain_offset|]; reflexivity. }
    destruct (Nat.eqb_spec used 15) as [->|N].
    + replace ((15 + S (List.length data) + 15) / 16) with (S ((0 + List.length data + 15) / 16)).
      * rewrite <- !app_assoc_s. rewrite (app_assoc_s _ nl). apply lines_more.
        -- rewrite !plain_app. cbn [Nat.eqb plain andb]. rewrite plain_hex2, plain_sep, R, plain_char. reflexivity.
        -- apply IH; [lia|reflexivity].
      * replace (15 + S (List.length data) + 15) with (0 + List.length data + 15 + 1 * 16) by lia. rewrite Nat.div_add by lia. lia.
    + specialize (IH (n + 1)%N (S used) (r ++ to_char b)).
      replace (used + S (List.length data) + 15) with (S used + List.length data + 15) by lia.
      destruct ((S used + List.length data + 15) / 16) as [|k] eqn:E.
      { apply Nat.div_small_iff in E; lia. }
      rewrite <- !app_assoc_s. apply lines_front.
      * rewrite !plain_app, F, plain_hex2, plain_sep. reflexivity.
      * apply IH; [lia|]. rewrite plain_app, R, plain_char. reflexivity.
Qed.

Lemma hex_dump_lines bs : lines (hex_dump bs) ((List.length bs + 15) / 16).
Proof. apply (dump_lines bs 0 0 ""); [lia|reflexivity]. Qed.

(** ** Logs *)

Definition fair {A} (x : M A) : Prop := Forall log_entry (fst x).

Lemma fair_bind {A B} (x : M A) (f : A -> M B) : fair x -> (forall v, fair (f v)) -> fair (bind x f).
Proof.
  unfold fair, bind. intros H K. destruct x as [l [v| |]]; [|exact H..]. specialize (K v). destruct (f v) as [l' o].
  apply Forall_app. split; assumption.
Qed.

Lemma fair_quiet {A} (x : M A) : quiet x -> fair x.
Proof. unfold quiet, fair. intros ->. constructor. Qed.

Lemma fair_log s : plain s = true -> fair (log_ln s).
Proof. intros H. constructor; [left; exact H|constructor]. Qed.

Lemma fair_dump m d : fair (errDump m d).
Proof.
  constructor; [|constructor]. right. eexists. apply lines_more; [reflexivity|apply hex_dump_lines].
Qed.

Ltac calm0 :=
  cbv zeta;
  lazymatch goal with
  | |- fair (bind _ _) => apply fair_bind; [|intros ?]
  | |- fair (log_ln _) => apply fair_log; cases; reflexivity
  | |- fair (errDump _ _) => apply fair_dump
  | |- fair (ret _) => apply fair_quiet; reflexivity
  | |- fair (if ?c then _ else _) => destruct c
  | |- fair (match ?c with _ => _ end) => destruct c
  | |- fair (Header_Parse _ _ _) => apply fair_quiet, quiet_header
  | |- fair _ => apply fair_quiet; solve [repeat hush2]
  end.

Lemma fair_trailer m t buf : fair (Trailer_Parse m t buf).
Proof. unfold Trailer_Parse. repeat calm0. Qed.

Lemma fair_prefixes_v1 m buf len n : forall skip acc, fair (prefixes_v1 m buf len skip acc n).
Proof. induction n as [|n IH]; intros skip acc; cbn [prefixes_v1]; repeat first [apply IH|calm0]. Qed.

Lemma fair_prefixes_v2 m buf len n : forall skip acc, fair (prefixes_v2 m buf len skip acc n).
Proof. induction n as [|n IH]; intros skip acc; cbn [prefixes_v2]; repeat first [apply IH|calm0]. Qed.

Lemma fair_eids m buf len n : forall skip acc i, fair (eids_v2 m buf len skip acc i n).
Proof. induction n as [|n IH]; intros skip acc i; cbn [eids_v2]; repeat first [apply IH|calm0]. Qed.

Lemma fair_gids m buf len n : forall skip acc i, fair (gids_v2 m buf len skip acc i n).
Proof. induction n as [|n IH]; intros skip acc i; cbn [gids_v2]; repeat first [apply IH|calm0]. Qed.

Ltac calm := first [apply fair_trailer|apply fair_prefixes_v1|apply fair_prefixes_v2|apply fair_eids|apply fair_gids|calm0].

Lemma fair_message m msg buf : Forall log_entry (fst (Message_Parse m msg buf)).
Proof.
  change (fair (Message_Parse m msg buf)).
  destruct msg; cbn [Message_Parse];
    unfold ConfirmSMCR_Parse, ConfirmSMCD_Parse, ConfirmSMCDv2_Parse, AcceptSMCR_Parse, AcceptSMCD_Parse, AcceptSMCDv2_Parse,
      fce_Parse, Decline_Parse, DeclineV2_Parse, Proposal_Parse, ProposalV2_Parse, ip_area_v1, ip_area_v2, ext_v2, smcd_v2;
    repeat calm.
Qed.

Lemma fair_new m buf : Forall log_entry (fst (NewMessage m buf)).
Proof. change (fair (NewMessage m buf)). unfold NewMessage, HasEyecatcher. repeat calm. Qed.
