(** * PartialFacts: new objects and incomplete LLC messages. Proofs only. *)

From Coq Require Import NArith ZArith Bool String Arith List Lia.
From Coq Require Import ZifyBool ZifyNat ZifyN.
From Verif Require Import GoBase GoFmt ClcModel LlcModel RoceModel Slices Wire WireLemmas ClcView LlcView Show Steps
  ClcParse ClcFixed LlcParse LlcDecode LlcMessage Partial.
From Verif Require TextRest ClcNew Dumps RoceParse.
Import ListNotations.
Local Open Scope nat_scope.

Lemma seg_app_l {A} (bs x : list A) o n : o + n <= length bs -> seg (bs ++ x) o n = seg bs o n.
Proof.
  intros H. unfold seg. rewrite skipn_app, firstn_app, skipn_length.
  replace (n - (length bs - o)) with 0 by lia. rewrite firstn_O. apply app_nil_r.
Qed.

Lemma bn_app_l bs x o : o < length bs -> bn (bs ++ x) o = bn bs o.
Proof. intros H. unfold bn. rewrite app_nth1 by assumption. reflexivity. Qed.

Lemma num_app_l bs x o n : o + n <= length bs -> num (bs ++ x) o n = num bs o n.
Proof. intros H. unfold num. rewrite seg_app_l by assumption. reflexivity. Qed.

Lemma nth_tail bs o t i : i < length t -> o <= length bs ->
  nth i (tail bs o t) x00 = if o + i <? length bs then nth (o + i) bs x00 else nth i t x00.
Proof.
  intros Hi Ho. unfold tail, go_copy.
  destruct (Nat.ltb_spec (o + i) (length bs)).
  - rewrite app_nth1 by (rewrite firstn_length, skipn_length; lia).
    rewrite nth_firstn by lia. apply nth_skipn.
  - rewrite app_nth2 by (rewrite firstn_length, skipn_length; lia).
    rewrite firstn_length, skipn_length, nth_skipn. f_equal. lia.
Qed.

Lemma tail_completed bs o t n : n <= length t -> o <= length bs ->
  firstn n (tail (bs ++ skipn (length bs - o) (firstn n t)) o t) = firstn n (tail bs o t).
Proof.
  intros Hn Ho. apply (nth_ext _ _ x00 x00).
  - rewrite !firstn_length, !tail_length. lia.
  - intros i Hi. rewrite firstn_length, tail_length in Hi. rewrite !nth_firstn by lia.
    rewrite !nth_tail by (rewrite ?app_length; lia). rewrite app_length, skipn_length, firstn_length.
    destruct (Nat.ltb_spec (o + i) (length bs)).
    + destruct (Nat.ltb_spec (o + i) (length bs + (Nat.min n (length t) - (length bs - o)))); [|lia].
      apply app_nth1. assumption.
    + destruct (Nat.ltb_spec (o + i) (length bs + (Nat.min n (length t) - (length bs - o)))); [|lia].
      rewrite app_nth2, nth_skipn, nth_firstn by lia. f_equal. lia.
Qed.

Lemma tail_completed_all bs o t n : length t = n -> o <= length bs ->
  tail (bs ++ skipn (length bs - o) (firstn n t)) o t = tail bs o t.
Proof.
  intros Hn Ho. pose proof (tail_completed bs o t n ltac:(lia) Ho) as H.
  rewrite !firstn_all2 in H by (rewrite ?tail_length; lia). rewrite firstn_all2 by lia. exact H.
Qed.

Lemma completed_length old bs : llc_wf old -> llc_min (llc_kind_of old) <= length bs ->
  llc_size (llc_kind_of old) <= length (completed old bs).
Proof.
  intros Hwf Hl. unfold completed. rewrite app_length, skipn_length, firstn_length.
  destruct old; cbn [llc_kind_of llc_min llc_size llc_tail llc_wf] in *; rewrite ?skipn_length; lia.
Qed.

Lemma completed_view old bs : llc_wf old -> llc_min (llc_kind_of old) <= length bs ->
  llc_view (llc_of bs old) = llc_view (llc_of (completed old bs) old).
Proof.
  intros Hwf Hl. unfold completed.
  destruct old; cbn [llc_kind_of llc_min llc_size llc_tail llc_wf Nat.sub] in *;
    cbn [llc_of llc_view]; try reflexivity;
    set (x := skipn (length bs - _) _);
  unfold confirm_link_view, add_link_view, add_link_cont_view, delete_link_view, confirm_rkey_view,
    confirm_rkey_cont_view, delete_rkey_view, test_link_view, cdc_view,
    ConfirmLink_of, AddLink_of, AddLinkCont_of, DeleteLink_of, ConfirmRKey_of, ConfirmRKeyCont_of,
      deleteRKey_of, TestLink_of, CDC_of, base_of, fl, mk;
    cbn -[firstn skipn tail num seg bn BE app];
    rewrite ?seg_app_l, ?bn_app_l, ?num_app_l by lia; 
    subst x; rewrite ?tail_completed by lia; rewrite ?tail_completed_all by (rewrite ?skipn_length; lia);
    reflexivity.
Qed.

(** ** C60 *)

Lemma LLC_incomplete m buf old : slice_ok m buf -> llc_wf old ->
  llc_min (llc_kind_of old) <= s_len buf ->
  let bs := s_bytes m buf in
  exists new, LLC_Parse m old buf = ([], Done new) /\ llc_kind_of new = llc_kind_of old /\ llc_wf new /\
    llc_view new = decode (llc_layout (llc_kind_of old)) (completed old bs) /\ b_Raw (LLC_Base new) = bs.
Proof.
  intros Hok Hwf Hlen bs. pose proof (s_bytes_length m buf Hok) as Hb. fold bs in Hb.
  exists (llc_of bs old). split; [apply LLC_Parse_ok; assumption|].
  split; [apply llc_of_kind|]. split; [apply llc_of_wf; [assumption|lia]|]. split.
  - rewrite completed_view by (assumption || lia). apply llc_of_view; [assumption|].
    apply completed_length; [assumption|lia].
  - destruct old; reflexivity.
Qed.

Lemma LLC_incomplete_text m buf old new logs : slice_ok m buf -> llc_wf old ->
  llc_min (llc_kind_of old) <= s_len buf -> text_complete (llc_kind_of old) = true ->
  let bs := s_bytes m buf in let k := llc_kind_of old in
  LLC_Parse m old buf = (logs, Done new) ->
  LLC_String new = llc_text false k (decode (llc_layout k) (completed old bs)) /\
  LLC_Reserved new = llc_text true k (decode (llc_layout k) (completed old bs)).
Proof.
  intros Hok Hwf Hlen Ht bs k H. destruct (LLC_incomplete m buf old Hok Hwf Hlen) as (n & P & K & W & V & _).
  rewrite H in P. injection P as -> ->. fold bs in V. fold k in V, K. rewrite <- V, <- K.
  apply TextRest.LLC_text; [assumption|]. rewrite K. assumption.
Qed.

(** ** C61 *)

Lemma bind_done {A B} (x : M A) (f : A -> M B) l b : bind x f = (l, Done b) ->
  exists a l1 l2, x = (l1, Done a) /\ f a = (l2, Done b).
Proof.
  unfold bind. destruct x as [lx [a| |]]; try discriminate. destruct (f a) as [l2 o] eqn:E.
  intros H. injection H as _ ->. eauto.
Qed.

Ltac blanks := repeat (constructor; [first [reflexivity | repeat constructor]|]); try constructor.

Lemma fresh_blank k : Forall blank (all_fields (fresh k)) /\ (forall later, Message_Dump later (fresh k) = ""%string) /\
  s_cap (Message_Raw (fresh k)) = 0.
Proof. split; [|destruct k; split; reflexivity]. destruct k; vm_compute; blanks. Qed.

Lemma new_message_blank m buf logs msg len : slice_ok m buf ->
  NewMessage m buf = (logs, Done (Some msg, len)) ->
  Forall blank (all_fields msg) /\ (forall later, Message_Dump later msg = ""%string) /\
  s_cap (Message_Raw msg) = 0.
Proof.
  intros Hok H. enough (exists k, msg = fresh k) as [k ->] by apply fresh_blank.
  destruct (le_lt_dec 8 (s_len buf)) as [H8|H8].
  - rewrite ClcNew.NewMessage_8 in H by assumption.
    destruct (is_eyecatcher _); [|discriminate]. destruct (1024 <? _)%N; [discriminate|].
    destruct (ClcNew.pick _ _ _) as [k|]; [|discriminate]. exists k. injection H as _ E _. symmetry. exact E.
  - exfalso. unfold NewMessage in H.
    apply bind_done in H. destruct H as (ok & l1 & l2 & _ & H).
    destruct (negb ok); [discriminate|].
    apply bind_done in H. destruct H as (n & l3 & l4 & _ & H).
    destruct (MaxMessageSize <? n)%N.
    + apply bind_done in H. destruct H as (? & ? & ? & _ & H).
      apply bind_done in H. destruct H as (? & ? & ? & _ & H).
      apply bind_done in H. destruct H as (? & ? & ? & _ & H). discriminate.
    + apply bind_done in H. destruct H as (? & ? & ? & _ & H).
      apply bind_done in H. destruct H as (b & ? & ? & E & _).
      unfold idx in E. destruct (Nat.ltb_spec 7 (s_len buf)); [lia|discriminate].
Qed.

Lemma llc_fresh_blank k : Forall blank (llc_view (llc_fresh k)) /\ Forall (fun b => b = x00) (llc_tail (llc_fresh k)) /\
  LLC_Hex (llc_fresh k) = ""%string /\ LLC_GetType (llc_fresh k) = 0%N /\ b_Length (LLC_Base (llc_fresh k)) = 0%N.
Proof. split; [destruct k; vm_compute; blanks|]. split; [destruct k; vm_compute; repeat constructor|]. destruct k; repeat split. Qed.

Lemma roce_zero_blank : Forall blank (bth_view BTH_zero) /\ BTH_Hex BTH_zero = ""%string /\
  Forall blank (grh_view GRH_zero) /\ GRH_Hex GRH_zero = ""%string.
Proof. split; [vm_compute; blanks|]. split; [reflexivity|]. split; [vm_compute; blanks|reflexivity]. Qed.

(** ** C62 *)

Lemma LLC_type m buf old logs new : slice_ok m buf -> llc_wf old -> 
  let bs := s_bytes m buf in
  LLC_Parse m old buf = (logs, Done new) ->
  LLC_GetType new = (if is_other (llc_kind_of old) then 257 else bits bs 0 8)%N /\
  b_Length (LLC_Base new) = (if is_other (llc_kind_of old) then N.of_nat (length bs) else bits bs 8 8)%N.
Proof.
  intros Hok Hwf bs H. pose proof (s_bytes_length m buf Hok) as Hb. fold bs in Hb.
  destruct (le_lt_dec (llc_min (llc_kind_of old)) (s_len buf)) as [Hm|Hm];
    [|rewrite LLC_Parse_panic in H by assumption; discriminate].
  rewrite LLC_Parse_ok in H by assumption. injection H as _ <-. fold bs.
  assert (T : 2 <= length bs -> bn bs 0 = bits bs 0 8) by (intros; clearbody bs; unfold bn; bits_in_byte).
  assert (L : 2 <= length bs -> bn bs 1 = bits bs 8 8) by (intros; clearbody bs; unfold bn; bits_in_byte).
  destruct old; cbn [llc_kind_of is_other llc_min] in *; split;
    try (apply T; lia); try (apply L; lia); reflexivity.
Qed.

Lemma roce_types b g : BTH_GetType b = 0x103%N /\ GRH_GetType g = 0x102%N.
Proof. split; reflexivity. Qed.

Lemma GRH_hex m old buf logs new : slice_ok m buf -> GRH_Parse m old buf = (logs, Done new) ->
  GRH_Hex new = hex_dump (if s_len buf <? 40 then [] else bytes_at (s_bytes m buf) 0 40).
Proof.
  intros Hok H. pose proof (s_bytes_length m buf Hok) as Hb. unfold GRH_Parse in H. injection H as _ <-.
  unfold GRH_Hex. destruct (Nat.ltb_spec (s_len buf) 40).
  - rewrite RoceParse.GRH_short by lia. reflexivity.
  - rewrite RoceParse.GRH_contents by lia. reflexivity.
Qed.
