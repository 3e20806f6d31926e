(** * Samples: concrete messages for the examples beside the theorems.

    The CLC messages are those of the unit tests in /repo/pkg/clc. *)

From Coq Require Import NArith String Ascii Arith List.
From Verif Require Import GoBase.
Import ListNotations.
Local Open Scope string_scope.

Definition hexval (c : ascii) : N :=
  let n := N_of_ascii c in
  if (n <? 58)%N then (n - 48)%N else (n - 87)%N.

Fixpoint hexs (s : string) : list byte :=
  match s with
  | String a (String b rest) => n2b (16 * hexval a + hexval b) :: hexs rest
  | _ => []
  end.

(** a message in an array of its own *)
Definition mem1 (bs : list byte) : mem := fun i => match i with O => bs | _ => [] end.
Definition slice1 (bs : list byte) : slice := mkslice 0 0 (List.length bs) (List.length bs).

Lemma slice1_ok bs : slice_ok (mem1 bs) (slice1 bs).
Proof. split; apply le_n. Qed.

(** the first [n] bytes of a larger array *)
Definition slice_n (bs : list byte) (n : nat) : slice := mkslice 0 0 n (List.length bs).

Lemma slice_n_ok bs n : (n <= List.length bs)%nat -> slice_ok (mem1 bs) (slice_n bs n).
Proof. intros H. split; [exact H|apply le_n]. Qed.

Lemma slice1_bytes bs : s_bytes (mem1 bs) (slice1 bs) = bs.
Proof. unfold s_bytes. cbn. apply firstn_all. Qed.

Definition sample_accept_d : list byte :=
  Eval vm_compute in hexs "e2d4c3c4020030110123456789abcdef0123456789abcdefff100000ffffffff000000000000000000000000e2d4c3c4".
Definition sample_accept_d2 : list byte :=
  Eval vm_compute in hexs "e2d4c3c402004e210123456789abcdef0123456789abcdefff100000ffffffff0123546869734973534d4376324549443031000000000000000000000000000000000000000000000000e2d4c3c4".
Definition sample_accept_d2_fce : list byte :=
  Eval vm_compute in hexs "e2d4c3c4020072290123456789abcdef0123456789abcdefff100000ffffffff0123546869734973534d437632454944303100000000000000000000000000000000000000000000000000200000546869734973486f73746e616d65303100000000000000000000000000000000e2d4c3c4".
Definition sample_accept_r : list byte :=
  Eval vm_compute in hexs "e2d4c3d902004418b1a098039babcdeffe800000000000009a039bfffeabcdef98039babcdef0000e40000157d0100000005230000000000f0a600000072f5fee2d4c3d9".
Definition sample_confirm_d : list byte :=
  Eval vm_compute in hexs "e2d4c3c4030030110123456789abcdef0123456789abcdefff100000ffffffff000000000000000000000000e2d4c3c4".
Definition sample_confirm_d2 : list byte :=
  Eval vm_compute in hexs "e2d4c3c403004e210123456789abcdef0123456789abcdefff100000ffffffff0123546869734973534d4376324549443031000000000000000000000000000000000000000000000000e2d4c3c4".
Definition sample_confirm_d2_fce : list byte :=
  Eval vm_compute in hexs "e2d4c3c4030072290123456789abcdef0123456789abcdefff100000ffffffff0123546869734973534d437632454944303100000000000000000000000000000000000000000000000000200000546869734973486f73746e616d65303100000000000000000000000000000000e2d4c3c4".
Definition sample_confirm_r : list byte :=
  Eval vm_compute in hexs "e2d4c3d903004410b1a098039babcdeffe800000000000009a039bfffeabcdef98039babcdef0000e50000187f0100000006230000000000f0a40000000d89a4e2d4c3d9".
Definition sample_decline : list byte :=
  Eval vm_compute in hexs "e2d4c3d904001c1025252525252525000303000000000000e2d4c3d9".
Definition sample_decline2 : list byte :=
  Eval vm_compute in hexs "e2d4c3d904001c2025252525252525000303000020000000e2d4c3d9".
Definition sample_proposal : list byte :=
  Eval vm_compute in hexs "e2d4c3d901003410b1a098039babcdeffe800000000000009a039bfffeabcdef98039babcdef00007f00000008000000e2d4c3d9".
Definition sample_proposal_d : list byte :=
  Eval vm_compute in hexs "e2d4c3c401005c11b1a098039babcdef0000000000000000000000000000000000000000000000280123456789abcdef00000000000000000000000000000000000000000000000000000000000000007f00000008000000e2d4c3c4".
Definition sample_proposal_b : list byte :=
  Eval vm_compute in hexs "e2d4c3d901005c13b1a098039babcdeffe800000000000009a039bfffeabcdef98039babcdef00280123456789abcdef00000000000000000000000000000000000000000000000000000000000000007f00000008000000e2d4c3d9".
Definition sample_proposal_6 : list byte :=
  Eval vm_compute in hexs "e2d4c3d901004510394498039babcdeffe800000000000009a039bfffeabcdef98039babcdef000000000000000000010000000000000000000000000000000180e2d4c3d9".
Definition sample_proposal_b6 : list byte :=
  Eval vm_compute in hexs "e2d4c3d901006d13394498039babcdeffe800000000000009a039bfffeabcdef98039babcdef00280123456789abcdef000000000000000000000000000000000000000000000000000000000000000000000000000000010000000000000000000000000000000180e2d4c3d9".
(** Proposals with prefixes that differ *)
Definition sample_proposal_3 : list byte :=
  Eval vm_compute in hexs "e2d4c3d901006710394498039babcdeffe800000000000009a039bfffeabcdef98039babcdef0000000000000000000320010db80000000000000000000000014020010db80000000000000000000000024020010db800000000000000000000000340e2d4c3d9".
Definition sample_proposal_1a : list byte :=
  Eval vm_compute in hexs "e2d4c3d901004510394498039babcdeffe800000000000009a039bfffeabcdef98039babcdef0000000000000000000120010db800000000000000000000000a40e2d4c3d9".
Definition sample_proposal_1b : list byte :=
  Eval vm_compute in hexs "e2d4c3d901004510394498039babcdeffe800000000000009a039bfffeabcdef98039babcdef0000000000000000000120010db800000000000000000000000b40e2d4c3d9".
Definition sample_prop2_noip : list byte :=
  Eval vm_compute in hexs "e2d4c3d90100d62e394498039babcdeffe800000000000009a039bfffeabcdef98039babcdef00280123456789abcdef123400000000000000000000000000000000000000000000000000000000000001010001000000400000000000000000000000000000000000000000000000000000000000000000546869734973534d437632454944303100000000000000000000000000000000546869734973534d43763245494430320000000000000000000000000000000000000000000000000000000000000000abcdef01234567890123e2d4c3d9".
Definition sample_prop2 : list byte :=
  Eval vm_compute in hexs "e2d4c3d90100de2f394498039babcdeffe800000000000009a039bfffeabcdef98039babcdef00280123456789abcdef12340019000000000000000000000000000000000000000000000000000000007f0000000800000001010001000000400000000000000000000000000000000000000000000000000000000000000000546869734973534d437632454944303100000000000000000000000000000000546869734973534d43763245494430320000000000000000000000000000000000000000000000000000000000000000abcdef01234567890123e2d4c3d9".
Definition sample_prop2_6 : list byte :=
  Eval vm_compute in hexs "e2d4c3d90100ef2f394498039babcdeffe800000000000009a039bfffeabcdef98039babcdef00280123456789abcdef12340019000000000000000000000000000000000000000000000000000000000000000000000001000000000000000000000000000000018001010001000000400000000000000000000000000000000000000000000000000000000000000000546869734973534d437632454944303100000000000000000000000000000000546869734973534d43763245494430320000000000000000000000000000000000000000000000000000000000000000abcdef01234567890123e2d4c3d9".
Definition sample_prop2_noext : list byte :=
  Eval vm_compute in hexs "e2d4c3d901005c2b394498039babcdeffe800000000000009a039bfffeabcdef98039babcdef00280123456789abcdef12340000000000000000000000000000000000000000000000000000000000007f00000008000000e2d4c3d9".
Definition sample_prop2_noext6 : list byte :=
  Eval vm_compute in hexs "e2d4c3d901006d2b394498039babcdeffe800000000000009a039bfffeabcdef98039babcdef00280123456789abcdef123400000000000000000000000000000000000000000000000000000000000000000000000000010000000000000000000000000000000180e2d4c3d9".
