(** * IntFacts: proofs about the arithmetic with machine integers. *)

From Coq Require Import NArith ZArith Bool String Ascii Arith List Lia.
From Verif Require Import GoBase GoFmt ClcModel IntModel Slices Elsewhere ElsewhereFacts.
Import ListNotations.
Local Open Scope N_scope.

(** ** Numbers *)

Lemma wrap_id w z : (32 <= w -> - 2 ^ (w - 1) <= z < 2 ^ (w - 1) -> wrap w z = z)%Z.
Proof.
  intros W H. unfold wrap. assert (E : (2 ^ w = 2 * 2 ^ (w - 1))%Z).
  { replace w with (Z.succ (w - 1)) at 1 by lia. apply Z.pow_succ_r. lia. }
  rewrite Z.mod_small by lia. lia.
Qed.

Lemma half_le w : (32 <= w -> 2147483648 <= 2 ^ (w - 1))%Z.
Proof. intros W. change 2147483648%Z with (2 ^ 31)%Z. apply Z.pow_le_mono_r; lia. Qed.

Lemma wrap_small w z : (32 <= w -> - 2147483648 <= z < 2147483648 -> wrap w z = z)%Z.
Proof. intros W H. pose proof (half_le w W). apply wrap_id; lia. Qed.

Lemma int_of_small w x : (32 <= w)%Z -> x < 65536 -> int_of w x = Z.of_N x.
Proof. intros W H. apply wrap_small; lia. Qed.

Lemma iadd_nat w a b : (32 <= w)%Z -> (Z.of_nat a + Z.of_nat b < 1000000)%Z ->
  iadd w (Z.of_nat a) (Z.of_nat b) = Z.of_nat (a + b).
Proof. intros W H. unfold iadd. rewrite wrap_small by lia. lia. Qed.

Lemma slice_nat buf a b : slice_I buf (Z.of_nat a) (Z.of_nat b) = reslice buf a b.
Proof.
  unfold slice_I. destruct (Z.ltb_spec (Z.of_nat a) 0); [lia|]. destruct (Z.ltb_spec (Z.of_nat b) 0); [lia|].
  cbn [orb]. rewrite !Nat2Z.id. reflexivity.
Qed.

Lemma idx_nat m buf i : idx_I m buf (Z.of_nat i) = idx m buf i.
Proof. unfold idx_I. destruct (Z.ltb_spec (Z.of_nat i) 0); [lia|]. rewrite Nat2Z.id. reflexivity. Qed.

Lemma copy_nat m d buf a b : copy_I m d buf (Z.of_nat a) (Z.of_nat b) = copy_from m d buf a b.
Proof. unfold copy_I. rewrite slice_nat. reflexivity. Qed.

Lemma be16_nat m buf a b : be16_I m buf (Z.of_nat a) (Z.of_nat b) = be16 m buf a b.
Proof. unfold be16_I. rewrite slice_nat. reflexivity. Qed.

Lemma be64_nat m buf a b : be64_I m buf (Z.of_nat a) (Z.of_nat b) = be64 m buf a b.
Proof. unfold be64_I. rewrite slice_nat. reflexivity. Qed.

Lemma short_nat w len skip k : (32 <= w)%Z -> len < 65536 -> (Z.of_nat skip < 1000000)%Z ->
  short_I w len (Z.of_nat skip) k = short (N.to_nat len) skip k.
Proof.
  intros W L S. unfold short_I, short, isub. rewrite int_of_small by assumption. rewrite wrap_small by lia.
  destruct (Z.ltb_spec (Z.of_N len - Z.of_nat skip) (Z.of_nat k)), (Nat.ltb_spec (N.to_nat len) (skip + k)); lia.
Qed.

(** ** The ends of a buffer *)

Lemma last_ok w buf n : (32 <= w)%Z -> (Z.of_nat (s_len buf) < 2 ^ (w - 1))%Z -> (Z.of_nat n < 1000000)%Z ->
  last_I w buf n = last_n buf n.
Proof.
  intros W L B. pose proof (half_le w W). unfold last_I, last_n, isub. rewrite wrap_id by lia.
  destruct (Nat.ltb_spec (s_len buf) n) as [X|X].
  - unfold slice_I. destruct (Z.ltb_spec (Z.of_nat (s_len buf) - Z.of_nat n) 0); [reflexivity|lia].
  - replace (Z.of_nat (s_len buf) - Z.of_nat n)%Z with (Z.of_nat (s_len buf - n)) by lia. apply slice_nat.
Qed.

Lemma drop_last_ok w buf n : (32 <= w)%Z -> (Z.of_nat (s_len buf) < 2 ^ (w - 1))%Z -> (Z.of_nat n < 1000000)%Z ->
  drop_last_I w buf n = drop_last_n buf n.
Proof.
  intros W L B. pose proof (half_le w W). unfold drop_last_I, drop_last_n, isub. rewrite wrap_id by lia.
  destruct (Nat.ltb_spec (s_len buf) n) as [X|X].
  - unfold slice_I. destruct (Z.ltb_spec (Z.of_nat (s_len buf) - Z.of_nat n) 0); [reflexivity|lia].
  - replace (Z.of_nat (s_len buf) - Z.of_nat n)%Z with (Z.of_nat (s_len buf - n)) by lia. apply (slice_nat buf 0).
Qed.

Lemma Trailer_ok w m t buf : (32 <= w)%Z -> (Z.of_nat (s_len buf) < 2 ^ (w - 1))%Z ->
  Trailer_I w m t buf = Trailer_Parse m t buf.
Proof.
  intros W L. unfold Trailer_I, Trailer_Parse. rewrite last_ok by (assumption || (unfold TrailerLen, EyecatcherLen; lia)).
  reflexivity.
Qed.

(** ** Results of 16 bits *)

Lemma Uint16_bound m s : alike (fun a b => a = b /\ a < 65536) (Uint16 m s) (Uint16 m s).
Proof.
  unfold Uint16. eapply alike_bind; [apply alike_refl|intros ? _ _].
  eapply alike_bind; [apply alike_refl|intros b1 ? <-]. eapply alike_bind; [apply alike_refl|intros b0 ? <-].
  apply alike_ret. split; [reflexivity|]. rewrite lor_shift_add by (apply (b2n_lt b1)).
  pose proof (b2n_lt b0). pose proof (b2n_lt b1). change (2 ^ 8) with 256. lia.
Qed.

Lemma be16_bound m buf lo hi : alike (fun a b => a = b /\ a < 65536) (be16 m buf lo hi) (be16 m buf lo hi).
Proof. unfold be16. eapply alike_bind; [apply alike_refl|intros s ? <-]. apply Uint16_bound. Qed.

Lemma Header_bound m h buf :
  alike (fun a b => a = b /\ h_Length a < 65536) (Header_Parse m h buf) (Header_Parse m h buf).
Proof.
  unfold Header_Parse. eapply alike_bind; [apply alike_refl|intros ec ? <-].
  eapply alike_bind; [apply alike_refl|intros typ ? <-].
  eapply alike_bind; [apply be16_bound|intros len ? [<- L]].
  eapply alike_bind; [apply alike_refl|intros bf ? <-].
  apply alike_ret. split; [reflexivity|exact L].
Qed.

Lemma u8_next i cnt : i < cnt -> cnt < 256 -> u8 (i + 1) = i + 1.
Proof. intros. unfold u8. apply N.mod_small. lia. Qed.

Ltac same := eapply alike_bind; [apply alike_refl|intros ? ? <-].
Ltac consts := cbv [IPv6PrefixLen TrailerLen EyecatcherLen EIDLen HeaderLen PeerIDLen ProposalV2ExtLen SMCDv2ExtLen] in *.
Ltac nats W := rewrite ?(iadd_nat _ _ _ W) by lia; rewrite ?idx_nat, ?copy_nat, ?be16_nat, ?be64_nat.

Section parse.
  Context (w : Z) (fuel : nat) (m : mem) (W : (32 <= w)%Z) (F : (256 <= fuel)%nat).

  Lemma prefixes_v1_ok buf len cnt : len < 65536 -> cnt < 256 -> forall n fuel skip acc i,
    i + N.of_nat n = cnt -> (n < fuel)%nat -> (Z.of_nat skip + 17 * Z.of_nat n < 900000)%Z ->
    prefixes_v1_I w m fuel buf len (Z.of_nat skip) acc i cnt = prefixes_v1 m buf (N.to_nat len) skip acc n.
  Proof.
    intros L C. induction n as [|n IH]; intros [|k] skip acc i E K S; try lia; cbn [prefixes_v1_I prefixes_v1].
    - destruct (N.ltb_spec i cnt); [lia|reflexivity].
    - destruct (N.ltb_spec i cnt); [|lia]. rewrite (u8_next i cnt) by assumption. cbv zeta. nats W.
      rewrite short_nat by (assumption || lia).
      destruct (short _ _ _); [reflexivity|]. apply alike_eq. same. same.
      rewrite IH by lia. apply alike_refl.
  Qed.

  Lemma ip_area_v1_ok buf len skip ip : len < 65536 -> (Z.of_nat skip < 200000)%Z ->
    ip_area_v1_I w fuel m buf len (Z.of_nat skip) ip = ip_area_v1 m buf (N.to_nat len) skip ip.
  Proof.
    intros L S. unfold ip_area_v1_I, ip_area_v1. cbv zeta. nats W. rewrite short_nat by (assumption || lia).
    destruct (short _ _ _); [reflexivity|]. apply alike_eq. do 3 same.
    eapply alike_bind; [apply alike_refl|intros cnt ? <-]. pose proof (b2n_lt cnt).
    rewrite prefixes_v1_ok with (n := N.to_nat (b2n cnt)) by lia. apply alike_refl.
  Qed.

  Theorem Proposal_ok p buf : (Z.of_nat (s_len buf) < 2 ^ (w - 1))%Z ->
    Proposal_I w fuel m p buf = Proposal_Parse m p buf.
  Proof.
    intros B. unfold Proposal_I, Proposal_Parse. cbv zeta. apply alike_eq.
    eapply alike_bind; [apply Header_bound|intros hdr ? [<- L]].
    destruct (h_Length hdr <? ProposalLen); [apply alike_refl|].
    consts. nats W. do 3 same.
    eapply alike_bind; [apply be16_bound|intros offset ? [<- O]].
    eapply alike_bind with (Q := fun a b => fst a = fst b /\ snd a = Z.of_nat (snd b) /\ (Z.of_nat (snd b) < 200000)%Z).
    - destruct (offset =? SMCDIPAreaOffset).
      + do 2 same. apply alike_ret. cbn [fst snd]. repeat split; lia.
      + apply alike_ret. cbn [fst snd]. rewrite int_of_small by assumption.
        replace (Z.of_N offset) with (Z.of_nat (N.to_nat offset)) by lia. nats W. repeat split; lia.
    - intros [[g r] s] [[g' r'] s'] (E1 & E2 & E3). cbn [fst snd] in *. injection E1 as <- <-. subst s.
      rewrite ip_area_v1_ok by assumption.
      eapply alike_bind; [apply alike_refl|intros [o|] ? <-]; [|apply alike_refl].
      rewrite Trailer_ok by assumption. apply alike_refl.
  Qed.

  Lemma prefixes_v2_ok buf len cnt : len < 65536 -> cnt < 256 -> forall n fuel skip acc i,
    i + N.of_nat n = cnt -> (n < fuel)%nat -> (Z.of_nat skip + 17 * Z.of_nat n < 900000)%Z ->
    alike (fun a b => fst a = fst b /\ snd a = Z.of_nat (snd b) /\ (snd b <= skip + 17 * n)%nat)
      (prefixes_v2_I w m fuel buf len (Z.of_nat skip) acc i cnt) (prefixes_v2 m buf (N.to_nat len) skip acc n).
  Proof.
    intros L C. induction n as [|n IH]; intros [|k] skip acc i E K S; try lia; cbn [prefixes_v2_I prefixes_v2].
    - destruct (N.ltb_spec i cnt); [lia|]. apply alike_ret. cbn [fst snd]. repeat split; lia.
    - destruct (N.ltb_spec i cnt); [|lia]. rewrite (u8_next i cnt) by assumption. cbv zeta. nats W.
      rewrite short_nat by (assumption || lia).
      destruct (short _ _ _).
      + do 3 same. apply alike_ret. cbn [fst snd]. repeat split; lia.
      + do 2 same. eapply alike_weaken; [apply IH; lia|]. intros a b (X & Y & Z). repeat split; try assumption. lia.
  Qed.

  Lemma ip_area_v2_ok buf hdr len skip ip : len < 65536 -> (Z.of_nat skip < 200000)%Z ->
    alike (fun a b => match a, b with
                      | None, None => True
                      | Some (x, s), Some (x', s') => x = x' /\ s = Z.of_nat s' /\ (s' <= skip + 17 * 255 + 8)%nat
                      | _, _ => False
                      end)
      (ip_area_v2_I w fuel m buf hdr len (Z.of_nat skip) ip) (ip_area_v2 m buf hdr (N.to_nat len) skip ip).
  Proof.
    intros L S. unfold ip_area_v2_I, ip_area_v2. cbv zeta. nats W. rewrite short_nat by (assumption || lia).
    destruct (negb _); [|apply alike_ret; repeat split; lia].
    destruct (short _ _ _); [do 3 same; apply alike_ret; exact I|]. do 3 same.
    eapply alike_bind; [apply alike_refl|intros cnt ? <-]. pose proof (b2n_lt cnt).
    eapply alike_bind; [apply prefixes_v2_ok with (n := N.to_nat (b2n cnt)); lia|].
    intros [x s] [x' s'] H'. cbn [fst snd] in H'. destruct H' as (<- & -> & B). apply alike_ret. repeat split. lia.
  Qed.

  Lemma eids_v2_ok buf len cnt : len < 65536 -> cnt < 256 -> forall n fuel skip area i i',
    i + N.of_nat n = cnt -> i' = N.to_nat i -> (n < fuel)%nat -> (Z.of_nat skip + 32 * Z.of_nat n < 900000)%Z ->
    alike (fun a b => fst a = fst b /\ snd a = Z.of_nat (snd b) /\ (snd b <= skip + 32 * n)%nat)
      (eids_v2_I w m fuel buf len (Z.of_nat skip) area i cnt) (eids_v2 m buf (N.to_nat len) skip area i' n).
  Proof.
    intros L C. induction n as [|n IH]; intros [|k] skip acc i i' E -> K S; try lia; cbn [eids_v2_I eids_v2].
    - destruct (N.ltb_spec i cnt); [lia|]. apply alike_ret. cbn [fst snd]. repeat split; lia.
    - destruct (N.ltb_spec i cnt); [|lia]. rewrite (u8_next i cnt) by assumption. cbv zeta. consts. nats W.
      rewrite short_nat by (assumption || lia).
      destruct (short _ _ _).
      + do 3 same. apply alike_ret. cbn [fst snd]. repeat split; lia.
      + same. nats W. do 2 same. eapply alike_weaken; [apply IH; lia|].
        intros a b (X & Y & Z). repeat split; try assumption. lia.
  Qed.

  Lemma ext_v2_ok buf hdr len skip x : len < 65536 -> (Z.of_nat skip < 300000)%Z ->
    alike (fun a b => match a, b with
                      | None, None => True
                      | Some (x, s), Some (x', s') =>
                        x = x' /\ s = Z.of_nat s' /\ (s' <= skip + 32 * 255 + 40)%nat /\
                        (h_Pathv2 hdr <> SMCTypeN -> x_GIDNumber x < 256)
                      | _, _ => False
                      end)
      (ext_v2_I w fuel m buf hdr len (Z.of_nat skip) x) (ext_v2 m buf hdr (N.to_nat len) skip x).
  Proof.
    intros L S. unfold ext_v2_I, ext_v2. cbv zeta. consts. nats W. rewrite short_nat by (assumption || lia).
    destruct (N.eqb_spec (h_Pathv2 hdr) SMCTypeN) as [P|P]; cbn [negb].
    { apply alike_ret; repeat split; try lia; try (intros X; destruct (X P)). }
    destruct (short _ _ _); [do 3 same; apply alike_ret; exact I|].
    eapply alike_bind; [apply alike_refl|intros cnt ? <-]. eapply alike_bind; [apply alike_refl|intros gids ? <-].
    pose proof (b2n_lt cnt). pose proof (b2n_lt gids). do 7 same.
    eapply alike_bind; [apply eids_v2_ok with (n := N.to_nat (b2n cnt)); lia|].
    intros [y s] [y' s'] H'. cbn [fst snd] in H'. destruct H' as (<- & -> & B). apply alike_ret. cbn [x_GIDNumber].
    repeat split; try lia; intros; assumption.
  Qed.

  Lemma gids_v2_ok buf len cnt : len < 65536 -> cnt < 256 -> forall n fuel skip area i i',
    i + N.of_nat n = cnt -> i' = N.to_nat i -> (n < fuel)%nat -> (Z.of_nat skip + 10 * Z.of_nat n < 900000)%Z ->
    gids_v2_I w m fuel buf len (Z.of_nat skip) area i cnt = gids_v2 m buf (N.to_nat len) skip area i' n.
  Proof.
    intros L C. induction n as [|n IH]; intros [|k] skip acc i i' E -> K S; try lia; cbn [gids_v2_I gids_v2].
    - destruct (N.ltb_spec i cnt); [lia|]. reflexivity.
    - destruct (N.ltb_spec i cnt); [|lia]. rewrite (u8_next i cnt) by assumption. cbv zeta. consts. nats W.
      rewrite short_nat by (assumption || lia).
      destruct (short _ _ _); [reflexivity|]. apply alike_eq. do 6 same.
      rewrite (IH k _ _ (i + 1) (Datatypes.S (N.to_nat i))) by lia. apply alike_refl.
  Qed.

  Lemma smcd_v2_ok buf hdr len skip gids y : len < 65536 -> (Z.of_nat skip < 400000)%Z ->
    (h_Pathv2 hdr <> SMCTypeN -> gids < 256) ->
    smcd_v2_I w fuel m buf hdr len (Z.of_nat skip) gids y = smcd_v2 m buf hdr (N.to_nat len) skip gids y.
  Proof.
    intros L S G. unfold smcd_v2_I, smcd_v2. cbv zeta. consts. nats W. rewrite short_nat by (assumption || lia).
    destruct (_ || _)%bool eqn:P; [|reflexivity]. destruct (short _ _ _); [reflexivity|].
    assert (H : gids < 256).
    { apply G. intros E. rewrite E in P. discriminate P. }
    apply alike_eq. do 2 same.
    rewrite gids_v2_ok with (n := N.to_nat gids) (i' := 0%nat) by lia. apply alike_refl.
  Qed.

  Theorem ProposalV2_ok p buf : (Z.of_nat (s_len buf) < 2 ^ (w - 1))%Z ->
    ProposalV2_I w fuel m p buf = ProposalV2_Parse m p buf.
  Proof.
    intros B. unfold ProposalV2_I, ProposalV2_Parse. cbv zeta. apply alike_eq.
    eapply alike_bind; [apply Header_bound|intros hdr ? [<- L]].
    destruct (h_Length hdr <? ProposalV2Len); [apply alike_refl|].
    consts. nats W. do 8 same.
    eapply alike_bind; [apply ip_area_v2_ok; [assumption|lia]|].
    intros [[ip s]|] [[ip' s']|] H; try contradiction; [|apply alike_refl]. destruct H as (<- & -> & S1).
    eapply alike_bind; [apply ext_v2_ok; [assumption|lia]|].
    intros [[x s]|] [[x' s'']|] H; try contradiction; [|apply alike_refl]. destruct H as (<- & -> & S2 & G).
    rewrite smcd_v2_ok by (assumption || lia).
    eapply alike_bind; [apply alike_refl|intros [o|] ? <-]; [|apply alike_refl].
    rewrite Trailer_ok by assumption. apply alike_refl.
  Qed.
End parse.

(** ** Numbers of 24 bits *)

Lemma Z_of_lor a b : Z.of_N (N.lor a b) = Z.lor (Z.of_N a) (Z.of_N b).
Proof. destruct a, b; reflexivity. Qed.

Theorem be24_ok w m buf : (32 <= w)%Z -> alike (fun a b => a = Z.of_N b) (be24_I w m buf) (be24 m buf).
Proof.
  intros W. unfold be24_I, be24. eapply alike_bind; [apply alike_refl|intros b0 ? <-].
  eapply alike_bind; [apply alike_refl|intros b1 ? <-]. eapply alike_bind; [apply alike_refl|intros b2 ? <-].
  apply alike_ret. pose proof (b2n_lt b0). pose proof (b2n_lt b1). pose proof (b2n_lt b2).
  rewrite !int_of_small by (assumption || lia).
  rewrite !Z.shiftl_mul_pow2, !N.shiftl_mul_pow2 by lia. change (2 ^ 16)%Z with 65536%Z. change (2 ^ 8)%Z with 256%Z.
  change (2 ^ 16) with 65536. change (2 ^ 8) with 256.
  rewrite !wrap_small by lia. rewrite !Z_of_lor, !N2Z.inj_mul. reflexivity.
Qed.

(** ** The sizes of RMB elements *)

Lemma forall_u8 (f : N -> bool) : forallb (fun n => f (N.of_nat n)) (seq 0 256) = true ->
  forall s, s < 256 -> f s = true.
Proof.
  intros H s S. rewrite forallb_forall in H. specialize (H (N.to_nat s)). rewrite N2Nat.id in H. apply H.
  apply in_seq. lia.
Qed.

Theorem sizes_64 s : s < 256 -> RMBESize_I 64 s = RMBESize_String s.
Proof.
  intros S. apply String.eqb_eq. revert s S.
  apply (forall_u8 (fun s => String.eqb (RMBESize_I 64 s) (RMBESize_String s))). vm_compute. reflexivity.
Qed.

Theorem sizes_32 s : s < 256 -> RMBESize_I 32 s = RMBESize_String s <-> s <= 16 \/ 50 <= s.
Proof.
  intros S. rewrite <- String.eqb_eq.
  assert (E : Bool.eqb (String.eqb (RMBESize_I 32 s) (RMBESize_String s)) ((s <=? 16) || (50 <=? s)) = true).
  { revert s S. apply (forall_u8 (fun s =>
      Bool.eqb (String.eqb (RMBESize_I 32 s) (RMBESize_String s)) ((s <=? 16) || (50 <=? s)))). vm_compute. reflexivity. }
  apply Bool.eqb_prop in E. rewrite E, orb_true_iff, !N.leb_le. reflexivity.
Qed.
