(** * RoceText: opcode names and the GRH text. Proofs only. *)

From Coq Require Import NArith ZArith Bool String Arith List Lia.
From Coq Require Import ZifyBool ZifyNat ZifyN.
From Verif Require Import GoBase GoFmt ClcModel LlcModel RoceModel Slices Wire WireLemmas ClcView LlcView
  ClcParse LlcParse RoceParse Opcodes Dumps.
Import ListNotations.
Local Open Scope nat_scope.

Lemma b2n_n2b n : (n < 256)%N -> b2n (n2b n) = n.
Proof.
  intros H. unfold n2b, b2n. rewrite N.mod_small by assumption.
  destruct (Byte.of_N n) as [b|] eqn:E; [apply Byte.to_of_N, E|].
  apply Byte.of_N_None_iff in E. lia.
Qed.

Lemma opcode_text_b : forallb (fun b =>
    String.eqb (Opcode_String (b2n b)) (nth (N.to_nat (b2n b)) opcode_texts ""%string)) all_bytes = true.
Proof. vm_compute. reflexivity. Qed.

Lemma opcode_text o : (o < 256)%N -> Opcode_String o = nth (N.to_nat o) opcode_texts ""%string.
Proof.
  intros H. pose proof opcode_text_b as E. rewrite forallb_forall in E.
  specialize (E (n2b o) (all_bytes_complete _)). apply String.eqb_eq in E.
  rewrite b2n_n2b in E by assumption. exact E.
Qed.

Lemma BTH_opcode_text m buf old logs b : slice_ok m buf ->
  BTH_Parse m old buf = (logs, Done b) ->
  Opcode_String (bth_Opcode b) = nth (N.to_nat (bits (s_bytes m buf) 0 8)) opcode_texts ""%string.
Proof.
  intros Hok H. destruct (le_lt_dec 12 (s_len buf)).
  - rewrite BTH_ok in H by assumption. injection H as <- <-.
    pose proof (s_bytes_length m buf Hok) as Hb. set (bs := s_bytes m buf) in *. clearbody bs.
    replace (bits bs 0 8) with (bn bs 0) by (unfold bn; bits_in_byte).
    apply opcode_text. apply b2n_lt.
  - rewrite BTH_panic in H by assumption. discriminate.
Qed.

Lemma GRH_total m old buf : exists g, GRH_Parse m old buf = ([], Done g) /\ ParseGRH m buf = ([], Done g).
Proof. eexists. split; reflexivity. Qed.

Lemma GRH_decode m old buf : slice_ok m buf ->
  let bs := s_bytes m buf in
  40 <= s_len buf ->
  exists g, GRH_Parse m old buf = ([], Done g) /\ grh_view g = decode grh bs /\ grh_Contents g = bytes_at bs 0 40.
Proof.
  intros Hok bs H. pose proof (s_bytes_length m buf Hok) as Hb. eexists. split; [reflexivity|].
  split; [apply GRH_view|apply GRH_contents]; subst bs; lia.
Qed.

Lemma GRH_decode_short m old buf : slice_ok m buf -> s_len buf < 40 ->
  GRH_Parse m old buf = ([], Done GRH_zero).
Proof.
  intros Hok H. pose proof (s_bytes_length m buf Hok) as Hb. unfold GRH_Parse.
  rewrite GRH_short by lia. reflexivity.
Qed.
