(** * Dumps: hex dumps and what they show. Proofs only. *)

From Coq Require Import NArith ZArith Bool String Ascii Arith List Lia.
From Coq Require Import ZifyBool ZifyNat ZifyN.
From Verif Require Import GoBase GoFmt ClcModel LlcModel RoceModel Slices Wire WireLemmas ClcView LlcView Steps
  ClcParse LlcParse LlcMessage RoceParse.
Import ListNotations.
Local Open Scope nat_scope.

(** ** Strings *)

Lemma append_cancel a : forall b c : string, (a ++ b = a ++ c)%string -> b = c.
Proof. induction a as [|x a IH]; intros b c H; [exact H|]. injection H as H. apply IH, H. Qed.

Lemma append_split a : forall b c d : string, String.length a = String.length c ->
  (a ++ b = c ++ d)%string -> a = c /\ b = d.
Proof.
  induction a as [|x a IH]; intros b [|y c] d Hl H; try discriminate; [split; [reflexivity|exact H]|].
  injection Hl as Hl. injection H as -> H. destruct (IH _ _ _ Hl H) as [-> ->]. split; reflexivity.
Qed.

Lemma append_nil_r a : (a ++ "" = a)%string.
Proof. induction a as [|x a IH]; [reflexivity|]. cbn. rewrite IH. reflexivity. Qed.

Lemma append_assoc_s a b c : ((a ++ b) ++ c = a ++ b ++ c)%string.
Proof. induction a as [|x a IH]; [reflexivity|]. cbn. rewrite IH. reflexivity. Qed.

(** ** Two hex digits determine the byte *)

Fixpoint pairwise {A} (f : A -> A -> bool) (l : list A) : bool :=
  match l with [] => true | x :: r => forallb (f x) r && pairwise f r end.

Definition first_char (s : string) : ascii := match s with String c _ => c | EmptyString => Ascii.zero end.

Lemma hex2_inj_b : forallb (fun a => forallb (fun b => implb (String.eqb (hex2 a) (hex2 b)) (Byte.eqb a b)) all_bytes) all_bytes = true.
Proof. vm_compute. reflexivity. Qed.

Lemma hex2_inj a b : hex2 a = hex2 b -> a = b.
Proof.
  intros H. pose proof hex2_inj_b as E. rewrite forallb_forall in E.
  specialize (E a (all_bytes_complete a)). rewrite forallb_forall in E.
  specialize (E b (all_bytes_complete b)). rewrite H, String.eqb_refl in E. cbn [implb] in E.
  apply Byte.byte_dec_bl. exact E.
Qed.

Lemma hex2_length b : String.length (hex2 b) = 2.
Proof. destruct b; reflexivity. Qed.

Lemma hex2_head b : first_char (hex2 b) <> " "%char.
Proof. destruct b; discriminate. Qed.

Lemma offset8_cons n : exists c s, offset8 n = String c s.
Proof.
  unfold offset8. cbn [map cat]. pose proof (hex2_length (n2b (n / 16777216))) as H.
  destruct (hex2 (n2b (n / 16777216))) as [|c s]; [discriminate|]. cbn. eauto.
Qed.

Lemma dump_inj a : forall b n u r, u < 16 ->
  dump_loop n u r a = dump_loop n u r b -> a = b.
Proof.
  induction a as [|x a IH]; intros [|y b] n u r Hu H; cbn [dump_loop] in H.
  - reflexivity.
  - exfalso. destruct (Nat.eqb_spec u 0) as [->|].
    { destruct (offset8_cons n) as (c & s & E). rewrite E in H. discriminate. }
    replace (16 - u) with (S (15 - u)) in H by lia. cbn [dump_pad append] in H.
    pose proof (hex2_head y) as Hy. pose proof (hex2_length y) as Hl. destruct (hex2 y); [discriminate|].
    injection H as <- _. apply Hy. reflexivity.
  - exfalso. destruct (Nat.eqb_spec u 0) as [->|].
    { destruct (offset8_cons n) as (c & s & E). rewrite E in H. discriminate. }
    replace (16 - u) with (S (15 - u)) in H by lia. cbn [dump_pad append] in H.
    pose proof (hex2_head x) as Hy. pose proof (hex2_length x) as Hl. destruct (hex2 x); [discriminate|].
    injection H as -> _. apply Hy. reflexivity.
  - apply append_cancel in H. apply append_split in H; [|rewrite !hex2_length; reflexivity].
    destruct H as [E H]. apply hex2_inj in E. subst y. f_equal.
    apply append_cancel in H. destruct (Nat.eqb_spec u 15) as [->|].
    + do 4 apply append_cancel in H. apply (IH b (n + 1)%N 0 ""%string); [lia|exact H].
    + apply (IH b (n + 1)%N (S u) (r ++ to_char x)%string); [lia|exact H].
Qed.

Lemma hex_dump_inj a b : hex_dump a = hex_dump b -> a = b.
Proof. apply dump_inj. lia. Qed.

(** ** The buffer a parsed CLC message keeps *)

Definition post {A} (P : A -> Prop) (x : M A) : Prop := forall l a, x = (l, Done a) -> P a.

Lemma post_bind {A B} P (x : M A) (f : A -> M B) : (forall a, post P (f a)) -> post P (bind x f).
Proof.
  intros H l b E. unfold bind in E. destruct x as [l1 [a| |]]; try discriminate.
  destruct (f a) as [l2 o] eqn:F. injection E as <- ->. exact (H a _ _ F).
Qed.

Lemma post_ret {A} (P : A -> Prop) a : P a -> post P (ret a).
Proof. intros H l b E. injection E as <- <-. exact H. Qed.

Ltac post_steps :=
  repeat match goal with
  | |- post _ (bind _ _) => apply post_bind; intros
  | |- post _ (ret _) => apply post_ret; reflexivity
  | |- post _ (if ?b then _ else _) => destruct b
  | |- post _ (let '(_, _) := ?x in _) => destruct x
  | |- post _ (match ?x with _ => _ end) => destruct x
  end.

Lemma Message_keeps_buffer m msg buf logs new :
  Message_Parse m msg buf = (logs, Done new) -> Message_Raw new = buf.
Proof.
  revert logs new. change (post (fun new => Message_Raw new = buf) (Message_Parse m msg buf)).
  assert (B : forall {A B} (P : B -> Prop) (x : M A) (c : A -> B),
    post (fun a => P (c a)) x -> post P (let* a := x in ret (c a))).
  { intros A B P x c H l b E. unfold bind in E. destruct x as [l1 [a| |]]; try discriminate.
    injection E as <- <-. eapply H. reflexivity. }
  assert (HR : forall a, post (fun a => ar_Raw a = buf) (AcceptSMCR_Parse m a buf)).
  { intros a. unfold AcceptSMCR_Parse. cbv zeta. post_steps. }
  assert (HD : forall a, post (fun a => ad_Raw a = buf) (AcceptSMCD_Parse m a buf)).
  { intros a. unfold AcceptSMCD_Parse. cbv zeta. post_steps. }
  assert (H2 : forall a, post (fun a => a2_Raw a = buf) (AcceptSMCDv2_Parse m a buf)).
  { intros a. unfold AcceptSMCDv2_Parse. cbv zeta. post_steps. }
  destruct msg; cbn [Message_Parse]; apply B; cbn [Message_Raw].
  - unfold Proposal_Parse. cbv zeta. post_steps.
  - unfold ProposalV2_Parse. cbv zeta. post_steps.
  - apply HR.
  - apply HD.
  - apply H2.
  - unfold ConfirmSMCR_Parse. apply B. apply HR.
  - unfold ConfirmSMCD_Parse. apply B. apply HD.
  - unfold ConfirmSMCDv2_Parse. apply B. apply H2.
  - unfold Decline_Parse. cbv zeta. post_steps.
  - unfold DeclineV2_Parse. cbv zeta. post_steps.
Qed.

Lemma Message_dump m msg buf logs new :
  Message_Parse m msg buf = (logs, Done new) ->
  forall m', Message_Dump m' new = hex_dump (s_bytes m' buf).
Proof.
  intros H m'. unfold Message_Dump, Raw_Dump. rewrite (Message_keeps_buffer _ _ _ _ _ H). reflexivity.
Qed.

Lemma LLC_hex m old buf logs new : slice_ok m buf -> llc_wf old ->
  LLC_Parse m old buf = (logs, Done new) -> LLC_Hex new = hex_dump (s_bytes m buf).
Proof.
  intros Hok Hwf H. destruct (le_lt_dec (llc_min (llc_kind_of old)) (s_len buf)).
  - rewrite LLC_Parse_ok in H by assumption. injection H as <- <-. destruct old; reflexivity.
  - rewrite LLC_Parse_panic in H by assumption. discriminate.
Qed.

Lemma BTH_hex m old buf logs new : slice_ok m buf ->
  BTH_Parse m old buf = (logs, Done new) -> BTH_Hex new = hex_dump (s_bytes m buf).
Proof.
  intros Hok H. destruct (le_lt_dec 12 (s_len buf)).
  - rewrite BTH_ok in H by assumption. injection H as <- <-. reflexivity.
  - rewrite BTH_panic in H by assumption. discriminate.
Qed.
