(** * ClcHeader: the header of a message after any Parse that returns. Proofs only. *)

From Coq Require Import NArith ZArith Bool String Arith List Lia.
From Coq Require Import ZifyBool ZifyNat ZifyN.
From Verif Require Import GoBase GoFmt ClcModel Slices Wire WireLemmas ClcView Steps ClcParse ClcFixed
  ClcProposal ClcProposalV2 ClcProposalV2Inv ClcMessage.
From Verif Require Keep.
Import ListNotations.
Local Open Scope nat_scope.

Lemma hdr_path bs : 8 <= length bs -> h_Path (hdr_of bs) = bits bs 62 2.
Proof. intros; unfold hdr_of, bn; cbn [h_Path]. bits_in_byte. Qed.
Lemma hdr_version bs : 8 <= length bs -> h_Version (hdr_of bs) = bits bs 56 4.
Proof. intros; unfold hdr_of, bn; cbn [h_Version]. bits_in_byte. Qed.
Lemma hdr_flag bs : 8 <= length bs -> h_Flag (hdr_of bs) = bits bs 60 1.
Proof. intros; unfold hdr_of, bn; cbn [h_Flag]. bits_in_byte. Qed.
Lemma hdr_reserved bs : 8 <= length bs -> h_reserved (hdr_of bs) = bits bs 61 1.
Proof. intros; unfold hdr_of, bn; cbn [h_reserved]. bits_in_byte. Qed.
Lemma hdr_eye bs : 8 <= length bs -> h_Eyecatcher (hdr_of bs) = bytes_at bs 0 4.
Proof. intros; reflexivity. Qed.
Lemma hdr_type bs : 8 <= length bs -> h_Type (hdr_of bs) = bits bs 32 8.
Proof. intros; unfold hdr_of, bn; cbn [h_Type]. bits_in_byte. Qed.

(** whatever follows the header *)
Ltac rest :=
  repeat match goal with
  | |- ensures (ret _) _ => apply ens_ret
  | |- ensures panic _ => apply ens_panic
  | |- ensures (bind _ _) _ => eapply ens_bind; [apply ens_any|]; intros ? _; cbv beta
  | |- ensures (let '(_, _) := ?x in _) _ => destruct x
  | |- ensures (if ?b then _ else _) _ => destruct b
  | |- ensures (match ?x with None => _ | Some _ => _ end) _ => destruct x
  end.

Ltac start H :=
  cbv zeta; rewrite Header_Parse_ok, bind_ret by (assumption || apply H || lia).

Definition stored (get_raw : slice) (get_hdr : Header) (m : mem) (buf : slice) : Prop :=
  get_hdr = hdr_of (s_bytes m buf) /\ get_raw = buf.

Section parse.
  Context (m : mem) (buf : slice) (Hok : slice_ok m buf) (Hl : 8 <= s_len buf).

  Lemma smcr_stored a : accept_smcr_wf a -> ensures (AcceptSMCR_Parse m a buf) (fun n => stored (ar_Raw n) (ar_Header n) m buf).
  Proof. intros H. unfold AcceptSMCR_Parse. start H. rest; split; reflexivity. Qed.

  Lemma smcd_stored a : accept_smcd_wf a -> ensures (AcceptSMCD_Parse m a buf) (fun n => stored (ad_Raw n) (ad_Header n) m buf).
  Proof. intros H. unfold AcceptSMCD_Parse. start H. rest; split; reflexivity. Qed.

  Lemma smcdv2_stored a : accept_smcdv2_wf a -> ensures (AcceptSMCDv2_Parse m a buf) (fun n => stored (a2_Raw n) (a2_Header n) m buf).
  Proof. intros H. unfold AcceptSMCDv2_Parse. start H. rest; split; reflexivity. Qed.

  Lemma decline_stored a : decline_wf a -> ensures (Decline_Parse m a buf) (fun n => stored (d_Raw n) (d_Header n) m buf).
  Proof. intros H. unfold Decline_Parse. start H. rest; split; reflexivity. Qed.

  Lemma decline_os a : decline_wf a -> ensures (Decline_Parse m a buf) (fun n => d_OSType n = d_OSType a).
  Proof. intros H. unfold Decline_Parse. start H. rest; reflexivity. Qed.

  Lemma declinev2_stored a : declinev2_wf a -> ensures (DeclineV2_Parse m a buf) (fun n => stored (d2_Raw n) (d2_Header n) m buf).
  Proof. intros H. unfold DeclineV2_Parse. start H. rest; split; reflexivity. Qed.

  Lemma proposal_stored a : proposal_wf a -> ensures (Proposal_Parse m a buf) (fun n => stored (p_Raw n) (p_Header n) m buf).
  Proof. intros H. unfold Proposal_Parse. start H. rest; split; reflexivity. Qed.

  Lemma proposalv2_stored a : proposalv2_wf a -> ensures (ProposalV2_Parse m a buf) (fun n => stored (p2_Raw n) (p2_Header n) m buf).
  Proof. intros H. unfold ProposalV2_Parse. start H. rest; split; reflexivity. Qed.
End parse.

(** ** Any message *)

Lemma ens_map {A B} (f : A -> B) (x : M A) (P : B -> Prop) :
  ensures x (fun a => P (f a)) -> ensures (let* a := x in ret (f a)) P.
Proof. intros H. eapply ens_bind; [exact H|]. intros a Ha; cbv beta. apply ens_ret; exact Ha. Qed.

Lemma ens_imp {A} (x : M A) (P Q : A -> Prop) : (forall a, P a -> Q a) -> ensures x P -> ensures x Q.
Proof. unfold ensures. destruct (snd x); auto. Qed.

Lemma message_stored m msg buf : slice_ok m buf -> message_wf msg -> 8 <= s_len buf ->
  ensures (Message_Parse m msg buf) (fun n => stored (Message_Raw n) (header_of n) m buf /\ kind_of n = kind_of msg).
Proof.
  intros Hok Hwf Hl.
  destruct msg as [p|p|a|a|a|c|c|c|d|d]; cbn [Message_Parse message_wf kind_of] in *;
    unfold ConfirmSMCR_Parse, ConfirmSMCD_Parse, ConfirmSMCDv2_Parse; repeat apply ens_map;
    cbn [kind_of Message_Raw header_of cr_Accept cd_Accept c2_Accept];
    (eapply ens_imp; [|first [apply proposal_stored | apply proposalv2_stored | apply smcr_stored | apply smcd_stored
      | apply smcdv2_stored | apply decline_stored | apply declinev2_stored]; assumption]);
    intros n Hn; (split; [exact Hn | reflexivity]).
Qed.

Lemma message_short m msg buf : slice_ok m buf -> message_wf msg -> s_len buf < 8 ->
  snd (Message_Parse m msg buf) = Panicked.
Proof.
  intros Hok Hwf Hl.
  destruct msg as [p|p|a|a|a|c|c|c|d|d]; cbn [Message_Parse message_wf] in *;
    unfold ConfirmSMCR_Parse, ConfirmSMCD_Parse, ConfirmSMCDv2_Parse,
      Proposal_Parse, ProposalV2_Parse, AcceptSMCR_Parse, AcceptSMCD_Parse, AcceptSMCDv2_Parse,
      Decline_Parse, DeclineV2_Parse;
    cbv zeta; rewrite Header_Parse_panic by (assumption || apply Hwf); reflexivity.
Qed.

Lemma header_fields bs : 8 <= length bs ->
  h_Eyecatcher (hdr_of bs) = bytes_at bs 0 4 /\ h_Type (hdr_of bs) = bits bs 32 8 /\
  h_Length (hdr_of bs) = bits bs 40 16 /\ h_Version (hdr_of bs) = bits bs 56 4 /\
  h_Flag (hdr_of bs) = bits bs 60 1 /\ h_reserved (hdr_of bs) = bits bs 61 1 /\
  h_Pathv2 (hdr_of bs) = bits bs 60 2 /\ h_Path (hdr_of bs) = bits bs 62 2.
Proof.
  intros H. rewrite hdr_eye, hdr_type, hdr_version, hdr_flag, hdr_reserved, hdr_path by exact H.
  rewrite hdr_pathv2 by exact H. rewrite declared_hdr by exact H. repeat split.
Qed.

Lemma parse_header m old buf logs new : reachable old -> slice_ok m buf ->
  Message_Parse m old buf = (logs, Done new) ->
  let bs := s_bytes m buf in let h := header_of new in
  8 <= length bs /\ kind_of new = kind_of old /\ Message_Raw new = buf /\
  h_Eyecatcher h = bytes_at bs 0 4 /\ h_Type h = bits bs 32 8 /\
  h_Length h = bits bs 40 16 /\ h_Version h = bits bs 56 4 /\
  h_Flag h = bits bs 60 1 /\ h_reserved h = bits bs 61 1 /\
  h_Pathv2 h = bits bs 60 2 /\ h_Path h = bits bs 62 2.
Proof.
  intros Hr Hok E. cbv zeta. apply reachable_wf in Hr.
  destruct (le_lt_dec 8 (s_len buf)) as [Hl|Hl].
  2:{ pose proof (message_short m old buf Hok Hr Hl) as H. rewrite E in H. discriminate. }
  pose proof (message_stored m old buf Hok Hr Hl) as H. rewrite E in H.
  destruct H as [[-> ->] ->].
  assert (Hb : 8 <= length (s_bytes m buf)) by (rewrite s_bytes_length; assumption).
  split; [exact Hb|]. split; [reflexivity|]. split; [reflexivity|].
  exact (header_fields _ Hb).
Qed.

(** a v1 Decline never has an operating system type *)
Lemma decline_reach d : reachable (MDecline d) -> d_OSType d = 0%N.
Proof.
  intros H. remember (MDecline d) as msg eqn:E. revert d E.
  induction H as [k|m old buf logs new Hr IH Hok Hp|m old buf logs new Hr IH Hok Hp]; intros d E.
  - destruct k; try discriminate. injection E as <-. reflexivity.
  - subst new. pose proof (parse_header _ _ _ _ _ Hr Hok Hp) as (Hl & Hk & _).
    destruct old as [p|p|a|a|a|c|c|c|d0|d0]; try discriminate.
    cbn [Message_Parse] in Hp. apply reachable_wf in Hr.
    rewrite s_bytes_length in Hl by assumption.
    pose proof (decline_os m buf Hok Hl d0 Hr) as H. specialize (IH d0 eq_refl).
    unfold ensures in H. destruct (Decline_Parse m d0 buf) as [l [d'| |]]; cbn in Hp; try discriminate.
    injection Hp as _ <-. cbn in H. congruence.
  - subst new. pose proof (Keep.Message_W_kind _ _ _ _ _ _ Hp) as Hk.
    destruct old as [p|p|a|a|a|c|c|c|d0|d0]; try discriminate.
    apply Keep.Message_W_codes in Hp; [exact Hp|]. exact (IH d0 eq_refl).
Qed.
