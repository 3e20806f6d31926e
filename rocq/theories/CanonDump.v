(** * CanonDump: the lines of a hex dump. Proofs only. *)

From Coq Require Import NArith ZArith Bool String Ascii Arith List Lia.
From Coq Require Import ZifyBool ZifyNat ZifyN.
From Verif Require Import GoBase GoFmt Slices Wire WireLemmas Canon CanonNum CanonIp.
Import ListNotations.
Local Open Scope nat_scope.

Definition char1 (s : string) : ascii := match s with String c _ => c | _ => "0"%char end.
Definition char2 (s : string) : ascii := match s with String _ (String c _) => c | _ => "0"%char end.

Definition hi (b : byte) : ascii := char1 (hex2 b).
Definition lo (b : byte) : ascii := char2 (hex2 b).

Lemma hex2_chars b : hex2 b = String (hi b) (String (lo b) "").
Proof. destruct b; reflexivity. Qed.

Lemma to_char_shown b : to_char b = String (shown_char b) "".
Proof.
  unfold to_char, shown_char.
  destruct (N.ltb_spec (b2n b) 32); destruct (N.ltb_spec 126 (b2n b));
  destruct (N.leb_spec 32 (b2n b)); destruct (N.leb_spec (b2n b) 126); try lia; reflexivity.
Qed.

Lemma b2n_n2b x : b2n (n2b x) = (x mod 256)%N.
Proof.
  unfold b2n, n2b. pose proof (N.mod_lt x 256 ltac:(lia)) as H.
  destruct (Byte.of_N (x mod 256)) eqn:E.
  - apply Byte.to_of_N, E.
  - apply Byte.of_N_None_iff in E. lia.
Qed.

Lemma hex2_read b acc : read 16 acc (hex2 b) = Some (acc * 256 + b2n b)%N.
Proof.
  unfold hex2. pose proof (b2n_lt b) as Hb.
  assert (H1 : (b2n b / 16 < 16)%N) by (apply N.div_lt_upper_bound; lia).
  assert (H2 : (b2n b mod 16 < 16)%N) by (apply N.mod_lt; lia).
  pose proof (N.div_mod' (b2n b) 16) as E.
  destruct (hexdigit_digit _ H1) as (c & -> & D & _). destruct (hexdigit_digit _ H2) as (c' & -> & D' & _).
  cbn [append read]. rewrite D, D'.
  replace (b2n b / 16 <? 16)%N with true by lia. replace (b2n b mod 16 <? 16)%N with true by lia.
  f_equal. lia.
Qed.

Lemma offset8_digits n : hex_digits 8 (n mod 2 ^ 32) (offset8 n).
Proof.
  unfold offset8, hex_digits. cbn [map cat String.concat]. cbn [append]. split.
  - repeat (rewrite read_app, hex2_read; cbn iota beta).
    rewrite hex2_read, !b2n_n2b. f_equal.
    change (2 ^ 32)%N with (256 * (256 * (256 * 256)))%N.
    rewrite !N.mod_mul_r by lia. rewrite !N.div_div by lia.
    change (256 * 256)%N with 65536%N. change (256 * 65536)%N with 16777216%N. lia.
  - rewrite !hex2_chars. reflexivity.
Qed.

Lemma Forall2_hex2 l : Forall2 (fun b => hex_digits 2 (b2n b)) l (map hex2 l).
Proof. apply Forall2_map_r, hex2_digits. Qed.

Definition line_of (n : N) (bs : list byte) : string :=
  append (offset8 n) (append "  "
  (let l := String.concat " " (map hex2 (firstn 8 bs)) in
   let r := String.concat " " (map hex2 (skipn 8 bs)) in
   append l (append (blanks (23 - String.length l)) (append "  "
     (append r (append (blanks (23 - String.length r)) (append "  |"
     (append (string_of_list_ascii (map shown_char bs))
             (String "|" (String (ascii_of_nat 10) "")))))))))).

Lemma line_of_ok n bs : dump_row (n mod 2 ^ 32) bs (line_of n bs).
Proof.
  exists (offset8 n), (map hex2 (firstn 8 bs)), (map hex2 (skipn 8 bs)).
  split; [apply offset8_digits|]. split; [apply Forall2_hex2|]. split; [apply Forall2_hex2|]. reflexivity.
Qed.

Ltac dump_cbn :=
  cbn [dump_loop dump_sep dump_pad Nat.eqb Nat.sub app firstn skipn map String.concat];
  rewrite ?hex2_chars, ?to_char_shown;
  cbn [append String.length Nat.sub repeat blanks string_of_list_ascii].

Lemma full_line n bs rest : length bs = 16 ->
  dump_loop n 0 "" (bs ++ rest) = append (line_of n bs) (dump_loop (n + 16) 0 "" rest).
Proof.
  intros H. do 16 (destruct bs as [|? bs]; [discriminate|]). destruct bs; [|discriminate].
  replace (n + 16)%N with (n+1+1+1+1+1+1+1+1+1+1+1+1+1+1+1+1)%N by lia.
  unfold line_of, blanks, nl. dump_cbn. rewrite ?sapp_assoc. cbn [append]. reflexivity.
Qed.

Lemma last_line n bs : 1 <= length bs < 16 -> dump_loop n 0 "" bs = line_of n bs.
Proof.
  intros H. unfold line_of, blanks, nl.
  destruct bs as [|? bs]; [cbn in H; lia|].
  do 15 (destruct bs as [|? bs]; [dump_cbn; rewrite ?sapp_assoc; cbn [append]; reflexivity|]). cbn in H. lia.
Qed.

Lemma dump_loop_dump k : forall data n, length data <= k -> dump n data (dump_loop n 0 "" data).
Proof.
  induction k as [|k IH]; intros data n Hk.
  - destruct data; [constructor|cbn in Hk; lia].
  - destruct (Nat.lt_ge_cases (length data) 16) as [L|L].
    + destruct data as [|b data]; [constructor|].
      rewrite last_line by (cbn [length] in *; lia).
      rewrite <- (sapp_nil_r (line_of n _)). rewrite <- (app_nil_r (b :: data)) at 1.
      apply dump_cons; [cbn [length] in *; lia|congruence|apply line_of_ok|constructor].
    + rewrite <- (firstn_skipn 16 data) at 2. rewrite full_line by (rewrite firstn_length; lia).
      rewrite <- (firstn_skipn 16 data) at 1.
      apply dump_cons; [rewrite firstn_length; lia|intros _; rewrite firstn_length; lia|apply line_of_ok|].
      apply IH. rewrite skipn_length. lia.
Qed.

Lemma hex_dump_dump data : dump 0 data (hex_dump data).
Proof. apply (dump_loop_dump (length data)). lia. Qed.

(** ** The text is the only one of this form *)

Lemma hex_digits_unique w n s t : hex_digits w n s -> hex_digits w n t -> s = t.
Proof.
  intros [H L] [H' L']. refine (proj1 (read_inj 16 s t 0 0 n _ _ H H')); [lia|congruence].
Qed.

Lemma hex_list_unique l s t :
  Forall2 (fun b => hex_digits 2 (b2n b)) l s -> Forall2 (fun b => hex_digits 2 (b2n b)) l t -> s = t.
Proof.
  intros H. revert t. induction H; intros t' H'; inversion H'; subst; [reflexivity|].
  f_equal; [eapply hex_digits_unique; eassumption|auto].
Qed.

Lemma dump_row_unique off bs s t : dump_row off bs s -> dump_row off bs t -> s = t.
Proof.
  intros (o & l & r & Ho & Hl & Hr & ->) (o' & l' & r' & Ho' & Hl' & Hr' & ->).
  rewrite (hex_digits_unique _ _ _ _ Ho Ho'), (hex_list_unique _ _ _ Hl Hl'), (hex_list_unique _ _ _ Hr Hr').
  reflexivity.
Qed.

Lemma dump_inv off data s : dump off data s ->
  (data = [] /\ s = ""%string) \/
  (data <> [] /\ exists l s', s = append l s' /\ dump_row (off mod 2 ^ 32) (firstn 16 data) l /\
     dump (off + 16) (skipn 16 data) s').
Proof.
  intros H. destruct H as [off|off bs rest l s Hl Hr L D].
  - left. split; reflexivity.
  - right. split; [destruct bs; [cbn in Hl; lia|discriminate]|].
    exists l, s. split; [reflexivity|].
    destruct rest as [|x rest].
    + rewrite app_nil_r, firstn_all2, skipn_all2 by lia. split; assumption.
    + specialize (Hr ltac:(discriminate)). rewrite firstn_app, skipn_app, Hr, Nat.sub_diag.
      rewrite firstn_all2, skipn_all2 by lia. cbn [firstn skipn app]. rewrite app_nil_r. split; assumption.
Qed.

Lemma dump_unique off data s t : dump off data s -> dump off data t -> s = t.
Proof.
  intros H. revert t. remember (length data) as k eqn:K. revert off data s K H.
  induction k as [k IH] using lt_wf_ind. intros off data s K H t H'.
  apply dump_inv in H. apply dump_inv in H'.
  destruct H as [[E ->]|(E & l & s' & -> & L & D)]; destruct H' as [[E' ->]|(E' & l' & t' & -> & L' & D')];
    try congruence; try reflexivity.
  rewrite (dump_row_unique _ _ _ _ L L').
  rewrite (IH (length (skipn 16 data)) ltac:(rewrite skipn_length; destruct data; [congruence|cbn [length] in *; lia])
             _ _ _ eq_refl D _ D'). reflexivity.
Qed.
