(** * TextLemmas: texts of single values. Proofs only. *)

From Coq Require Import NArith ZArith Bool String Ascii Arith List Lia.
From Coq Require Import ZifyBool ZifyNat ZifyN.
From Verif Require Import GoBase GoFmt ClcModel LlcModel RoceModel Slices Wire WireLemmas ClcView LlcView
  ClcParse LlcParse RoceParse Dumps RoceText Names Opcodes Show.
Import ListNotations.
Local Open Scope nat_scope.

(** ** Names *)

Ltac names := intros; unfold type_text, path_text, os_text, mtu_text, add_link_text, delete_link_text,
    diagnosis_text, named; cbn [name_of type_names path_names os_names mtu_names add_link_reasons
    delete_link_reasons diagnosis_names]; reflexivity.

Lemma MsgType_text c : MsgType_String c = type_text c.
Proof. names. Qed.
Lemma Path_text c : Path_String c = path_text c.
Proof. names. Qed.
Lemma OSType_text c : OSType_String c = os_text c.
Proof. names. Qed.
Lemma QPMTU_text c : QPMTU_String c = mtu_text c.
Proof. names. Qed.
Lemma llc_QPMTU_text c : llc_QPMTU_String c = mtu_text c.
Proof. names. Qed.
Lemma AddLinkRsn_text c : AddLinkRsnCode_String c = add_link_text c.
Proof. names. Qed.
Lemma DelLinkRsn_text c : DelLinkRsnCode_String c = delete_link_text c.
Proof. names. Qed.
Lemma Diagnosis_text c : PeerDiagnosis_String c = diagnosis_text c.
Proof. names. Qed.

Lemma bytes_eq_true a : forall b, bytes_eq a b = true <-> a = b.
Proof.
  induction a as [|x a IH]; intros [|y b]; cbn; split; intros H; try discriminate; try reflexivity.
  - apply andb_true_iff in H. destruct H as [H1 H2]. apply Byte.byte_dec_bl in H1. apply IH in H2. congruence.
  - injection H as -> ->. apply andb_true_iff. split; [apply Byte.byte_dec_lb; reflexivity|apply IH; reflexivity].
Qed.

Lemma Eyecatcher_text e : Eyecatcher_String e = eyecatcher_text e.
Proof.
  unfold Eyecatcher_String, eyecatcher_text, SMCREyecatcher, SMCDEyecatcher.
  destruct (list_eq_dec _ _ _) as [->|H1]; [reflexivity|].
  destruct (bytes_eq e _) eqn:E1; [apply bytes_eq_true in E1; contradiction|].
  destruct (list_eq_dec _ _ _) as [->|H2]; [reflexivity|].
  destruct (bytes_eq e [xe2; xd4; xc3; xc4]) eqn:E2; [apply bytes_eq_true in E2; contradiction|].
  reflexivity.
Qed.

(** ** Sizes *)

Lemma RMBESize_text c : (c < 49)%N -> RMBESize_String c = size_text c.
Proof.
  intros H. unfold RMBESize_String, size_text, named. cbv zeta.
  rewrite N.mod_small by lia. replace (c + 14 <? 63)%N with true by lia.
  assert (E : decZ (Z.shiftl 1 (Z.of_N (c + 14))) = dec (16384 * 2 ^ c)%N).
  { rewrite Z.shiftl_mul_pow2 by lia.
    replace (1 * 2 ^ Z.of_N (c + 14))%Z with (Z.of_N (16384 * 2 ^ c)).
    - destruct (16384 * 2 ^ c)%N as [|p]; reflexivity.
    - rewrite N2Z.inj_mul, N2Z.inj_pow, N2Z.inj_add, Z.pow_add_r by lia.
      change (Z.of_N 2) with 2%Z. change (2 ^ Z.of_N 14)%Z with 16384%Z.
      change (Z.of_N 16384) with 16384%Z. lia. }
  rewrite E. reflexivity.
Qed.

(** ** Peer IDs *)

Lemma PeerID_text p : length p = 8 -> PeerID_String p = peer_text p.
Proof.
  intros H. destruct p as [|a [|b p]]; try discriminate. unfold PeerID_String, peer_text. cbv zeta.
  cbn [nth skipn firstn].
  replace (N.lor (b2n b) (N.shiftl (b2n a) 8)) with (BE [a; b]); [reflexivity|].
  cbn [BE length]. change (256 ^ N.of_nat 1)%N with 256%N. change (256 ^ N.of_nat 0)%N with 1%N.
  rewrite N.shiftl_mul_pow2. change (2 ^ 8)%N with 256%N.
  pose proof (b2n_lt b).
  assert (D : N.land (b2n b) (b2n a * 256) = 0%N).
  { change 256%N with (2 ^ 8)%N. rewrite <- N.shiftl_mul_pow2.
    apply N.bits_inj. intros i. rewrite N.land_spec, N.bits_0.
    destruct (N.lt_ge_cases i 8).
    - rewrite N.shiftl_spec_low by assumption. apply andb_false_r.
    - rewrite <- (N.mod_small (b2n b) (2 ^ 8)) by assumption.
      rewrite N.mod_pow2_bits_high by assumption. reflexivity. }
  rewrite <- N.lxor_lor by exact D. rewrite <- N.add_nocarry_lxor by exact D. lia.
Qed.

(** ** EIDs *)

Lemma until_zero_spec e : until_zero e = before_nul e.
Proof.
  induction e as [|b e IH]; [reflexivity|]. cbn. rewrite IH.
  destruct (Byte.byte_eq_dec b x00) as [->|H]; [reflexivity|].
  destruct (Byte.eqb b x00) eqn:E; [apply Byte.byte_dec_bl in E; contradiction|reflexivity].
Qed.

Lemma trim_app s b : trim_right_spaces (s ++ [b])
  = if Byte.eqb b x20 then trim_right_spaces s else s ++ [b].
Proof.
  induction s as [|x s IH]; cbn.
  - destruct (Byte.eqb b x20); reflexivity.
  - rewrite IH. destruct (Byte.eqb b x20); [reflexivity|]. destruct s; reflexivity.
Qed.

Lemma trim_spec s : trim_right_spaces s = rev (drop_blanks (rev s)).
Proof.
  induction s as [|b s IH] using rev_ind; [reflexivity|].
  rewrite trim_app, rev_app_distr. cbn.
  destruct (Byte.byte_eq_dec b x20) as [->|H]; [cbn; exact IH|].
  destruct (Byte.eqb b x20) eqn:E; [apply Byte.byte_dec_bl in E; contradiction|].
  cbn. rewrite rev_involutive. reflexivity.
Qed.

Lemma EID_text e : EID_String e = padded_text e.
Proof. unfold EID_String, padded_text. rewrite until_zero_spec, trim_spec. reflexivity. Qed.

(** ** Numbers as bytes *)

Lemma to_bytes_BE l : to_bytes (length l) (BE l) = l.
Proof.
  assert (H : forall l x, to_bytes (length l) (BE l + x * 256 ^ N.of_nat (length l)) = l).
  { clear l. induction l as [|b l IH]; intros x; [reflexivity|].
    cbn [length to_bytes BE]. f_equal.
    - assert (B := BE_lt l). rewrite Nat2N.inj_succ, N.pow_succ_r'.
      replace (b2n b * 256 ^ N.of_nat (length l) + BE l + x * (256 * 256 ^ N.of_nat (length l)))%N
        with ((b2n b + 256 * x) * 256 ^ N.of_nat (length l) + BE l)%N by lia.
      rewrite N.div_add_l by (apply N.pow_nonzero; discriminate).
      rewrite N.div_small by exact B. rewrite N.add_0_r.
      unfold n2b. pose proof (b2n_lt b). replace ((b2n b + 256 * x) mod 256)%N with (b2n b).
      + unfold b2n. rewrite Byte.of_to_N. reflexivity.
      + rewrite N.mul_comm, N.mod_add by discriminate. rewrite N.mod_small by assumption. reflexivity.
    - rewrite Nat2N.inj_succ, N.pow_succ_r'.
      replace (b2n b * 256 ^ N.of_nat (length l) + BE l + x * (256 * 256 ^ N.of_nat (length l)))%N
        with (BE l + (b2n b + 256 * x) * 256 ^ N.of_nat (length l))%N by lia.
      apply IH. }
  specialize (H l 0%N). rewrite N.mul_0_l, N.add_0_r in H. exact H.
Qed.

Lemma tf_bit b pn : show pn YesNo (bit b) = tf b.
Proof. destruct b; reflexivity. Qed.
