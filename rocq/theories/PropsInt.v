(** * PropsInt: machine integers (C80).

    Vocabulary: IntModel.v models what the code computes with values of type int once more,
    with ints of [w] bits that wrap around, slice bounds and indices that may be negative, and
    loop counters of type uint8 that wrap around at 256; a loop with more than [fuel] iterations
    does not end. The models without suffix _I are those that the other properties are about;
    they compute with natural numbers. Go has ints of 32 or of 64 bits, and no slice is longer
    than the largest int. *)

From Coq Require Import NArith ZArith Bool String Arith List Lia.
From Verif Require Import GoBase GoFmt ClcModel IntModel Samples Elsewhere.
From Verif Require IntFacts.
From Verif Require Import IntExamples.
Import ListNotations.
Local Open Scope N_scope.

(** ** C80 *)

(** parsing a proposal does the same with ints of any size from 32 bits as with natural numbers,
    for all buffers that exist with such ints: the same message, log output and panics *)
Theorem C80_proposal : forall w fuel m p buf, (32 <= w)%Z -> (256 <= fuel)%nat ->
  (Z.of_nat (s_len buf) < 2 ^ (w - 1))%Z ->
  Proposal_I w fuel m p buf = Proposal_Parse m p buf.
Proof. exact (fun w fuel m p buf W F => IntFacts.Proposal_ok w fuel m W F p buf). Qed.
Print Assumptions C80_proposal.

Theorem C80_proposal_v2 : forall w fuel m p buf, (32 <= w)%Z -> (256 <= fuel)%nat ->
  (Z.of_nat (s_len buf) < 2 ^ (w - 1))%Z ->
  ProposalV2_I w fuel m p buf = ProposalV2_Parse m p buf.
Proof. exact (fun w fuel m p buf W F => IntFacts.ProposalV2_ok w fuel m W F p buf). Qed.
Print Assumptions C80_proposal_v2.

(** the last bytes of a buffer and the bytes before them, and the trailer *)
Theorem C80_ends : forall w m t buf n, (32 <= w)%Z -> (Z.of_nat (s_len buf) < 2 ^ (w - 1))%Z ->
  (Z.of_nat n < 1000000)%Z ->
  last_I w buf n = last_n buf n /\ drop_last_I w buf n = drop_last_n buf n /\
  Trailer_I w m t buf = Trailer_Parse m t buf.
Proof.
  exact (fun w m t buf n W L B => conj (IntFacts.last_ok w buf n W L B)
    (conj (IntFacts.drop_last_ok w buf n W L B) (IntFacts.Trailer_ok w m t buf W L))).
Qed.
Print Assumptions C80_ends.

(** QP numbers and packet sequence numbers *)
Theorem C80_24bit : forall w m buf, (32 <= w)%Z ->
  alike (fun a b => a = Z.of_N b) (be24_I w m buf) (be24 m buf).
Proof. exact IntFacts.be24_ok. Qed.
Print Assumptions C80_24bit.

(** the text of an RMBE size is that of the other models on 64-bit machines; on 32-bit machines
    it is another one for exactly the sizes from 17 to 49 *)
Theorem C80_sizes : forall s, s < 256 ->
  RMBESize_I 64 s = RMBESize_String s /\
  (RMBESize_I 32 s = RMBESize_String s <-> s <= 16 \/ 50 <= s).
Proof. exact (fun s S => conj (IntFacts.sizes_64 s S) (IntFacts.sizes_32 s S)). Qed.
Print Assumptions C80_sizes.

(** an offset behind the end of the message: a negative difference; with ints of 16 bits the
    position would be 24, and another check would find the message too short *)
Example C80_negative : let bs := with_offset xff xf0 in
  (Z.of_nat (List.length bs) < 2 ^ 31)%Z /\
  first_log (Proposal_I 32 256 (mem1 bs) Proposal_zero (slice1 bs)) =
    "Error parsing CLC Proposal: IP Area Offset too big"%string /\
  first_log (Proposal_I 16 256 (mem1 bs) Proposal_zero (slice1 bs)) =
    "Error parsing CLC Proposal: IPv6 prefix count too big"%string.
Proof. vm_compute. repeat split. Qed.

(** the largest number of prefixes: 256 tests of the loop's condition, so a limit of 255 is too low *)
Example C80_many : let bs := proposal_255 in
  (Z.of_nat (List.length bs) < 2 ^ 31)%Z /\
  prefixes_logs (Proposal_I 32 256 (mem1 bs) Proposal_zero (slice1 bs)) = (Some 255%nat, 0%nat) /\
  prefixes_logs (Proposal_I 32 255 (mem1 bs) Proposal_zero (slice1 bs)) = (None, 0%nat).
Proof. vm_compute. repeat split. Qed.

Example C80_v2 : let bs := sample_prop2_6 in
  ProposalV2_I 32 256 (mem1 bs) ProposalV2_zero (slice1 bs) = ProposalV2_Parse (mem1 bs) ProposalV2_zero (slice1 bs) /\
  snd (ProposalV2_I 32 256 (mem1 bs) ProposalV2_zero (slice1 bs)) <> Panicked.
Proof. split; [vm_compute; reflexivity|vm_compute; discriminate]. Qed.

(** a buffer of 3 bytes has no trailer *)
Example C80_short : let bs := [xe2; xd4; xc3] in
  snd (last_I 32 (slice1 bs) 4) = Panicked /\ snd (drop_last_I 32 (slice1 bs) 4) = Panicked /\
  snd (last_I 32 (slice1 bs) 3) = Done (slice1 bs).
Proof. vm_compute. repeat split. Qed.

Example C80_number : let bs := [xff; xfe; xfd] in snd (be24_I 32 (mem1 bs) (slice1 bs)) = Done 16776957%Z.
Proof. vm_compute. reflexivity. Qed.

Example C80_size_texts : RMBESize_I 32 2 = "2 (65536)"%string /\ RMBESize_I 64 17 = "17 (2147483648)"%string /\
  RMBESize_I 32 17 = "17 (-2147483648)"%string /\ RMBESize_I 32 18 = "18 (0)"%string.
Proof. vm_compute. repeat split. Qed.
