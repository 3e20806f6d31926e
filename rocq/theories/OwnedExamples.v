(** * OwnedExamples: a program for the examples of PropsOwned.v. *)

From Coq Require Import NArith ZArith Bool String Arith List Lia.
From Verif Require Import GoBase ClcModel LlcModel Samples ClcView LlcView HeapModel Owned LlcExamples.
Import ListNotations.
Local Open Scope nat_scope.

Definition start : world := mkworld (fun _ => []) 0 [] [].
Definition prog : list op :=
  [OMake sample_accept_r; ONew (NClc KAcceptSMCR); ONew (NLlc KConfirmLink); OMake sample_confirm_link;
   OParse 0 (mkslice 0 0 68 68); OParse 1 (mkslice 1 0 44 44)].
Definition w1 : world := run start prog.

(** a step that a program can take *)
Ltac is_allowed := cbn [allowed]; lazymatch goal with
  | |- True => exact I
  | |- _ < _ => apply Nat.ltb_lt; vm_compute; reflexivity
  | |- exists_slice _ _ => split;
      [split; apply Nat.leb_le; vm_compute; reflexivity|apply Nat.ltb_lt; vm_compute; reflexivity]
  end.
Ltac is_separate := lazymatch goal with
  | |- True => exact I
  | |- In _ _ => vm_compute; auto
  | |- _ <> _ => discriminate
  end.
