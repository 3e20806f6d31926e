(** * PropsAlias: objects that share IPv6 prefixes (C71).

    Alias.v says what programs do whose objects are independent values; AliasModel.v has
    the arrays that copies of an object share.  [spare] is how much room Go leaves in a new
    array. *)

From Coq Require Import NArith Bool String Arith List.
From Verif Require Import GoBase GoFmt ClcModel WriteModel Samples ClcView Sizes AliasModel Alias.
From Verif Require AliasFacts.
From Verif Require Import Witness.
Import ListNotations.

(** ** C71 *)

(** objects that are not copied are independent *)
Theorem C71_no_copies : forall spare acts, forallb (fun a => negb (is_copy a)) acts = true ->
  let (r, w) := perform_all spare empty_world acts in act_all [] acts = (r, objects w).
Proof. exact AliasFacts.no_copies. Qed.
Print Assumptions C71_no_copies.

Example C71_no_copies_case :
  let acts := [New KProposal; New KProposal; parse 0 sample_proposal_3; parse 1 sample_proposal_6;
               parse 0 sample_proposal_1a; parse 1 sample_proposal_1b] in
  forallb (fun a => negb (is_copy a)) acts = true /\
  map stored_prefixes (objects (snd (perform_all doubles empty_world acts))) = [4; 2].
Proof. computes. Qed.

(** the receiver never notices that it shares *)
Theorem C71_receiver : forall spare acts r w i m buf x, perform_all spare empty_world acts = (r, w) ->
  nth_error (objects w) i = Some x ->
  exists l o x1 w1, perform spare w (Parse i m buf) = (l, o, w1) /\
    Message_W m buf x = (l, o, x1) /\ nth_error (objects w1) i = Some x1.
Proof. exact AliasFacts.parse_receiver. Qed.
Print Assumptions C71_receiver.

Example C71_receiver_case :
  let acts := [New KProposal; parse 0 sample_proposal_3; Copy 0; parse 0 sample_proposal_1a] in
  exists r w x, perform_all doubles empty_world acts = (r, w) /\ nth_error (objects w) 1 = Some x /\
    stored_prefixes x = 3.
Proof. computes. Qed.

(** all that can change in other objects are prefixes behind as many as the receiver had; they
    become those that the receiver has at the same places *)
Theorem C71_others : forall spare acts r w i j m buf x y, perform_all spare empty_world acts = (r, w) -> j <> i ->
  nth_error (objects w) i = Some x -> nth_error (objects w) j = Some y ->
  exists x1 y1, let objs1 := objects (snd (perform spare w (Parse i m buf))) in
    nth_error objs1 i = Some x1 /\ nth_error objs1 j = Some y1 /\
    other_fields y1 = other_fields y /\
    stored_prefixes y1 = stored_prefixes y /\
    (forall n, nth_error (prefixes_of y1) n = nth_error (prefixes_of y) n \/
      0 < stored_prefixes x <= n /\ nth_error (prefixes_of y1) n = nth_error (prefixes_of x1) n).
Proof. exact AliasFacts.parse_others. Qed.
Print Assumptions C71_others.

Example C71_others_case : (* the last prefix changes *)
  let acts := [New KProposal; parse 0 sample_proposal_3; Copy 0; parse 0 sample_proposal_1a] in
  exists r w x y y1 p, perform_all doubles empty_world acts = (r, w) /\ 0 <> 1 /\
    nth_error (objects w) 1 = Some x /\ nth_error (objects w) 0 = Some y /\
    stored_prefixes x = 3 /\ stored_prefixes y = 4 /\
    nth_error (objects (snd (perform doubles w (parse 1 sample_proposal_1b)))) 0 = Some y1 /\
    nth_error (prefixes_of y) 3 = Some p /\
    nth_error (prefixes_of y1) 3 = Some (mkIPv6Prefix (firstn 15 (ip6_prefix p) ++ [n2b 11]) 64).
Proof. computes. Qed.

(** objects with no more prefixes than the receiver had do not change, and none do if it had none *)
Theorem C71_others_same : forall spare acts r w i j m buf x y, perform_all spare empty_world acts = (r, w) -> j <> i ->
  nth_error (objects w) i = Some x -> nth_error (objects w) j = Some y ->
  stored_prefixes y <= stored_prefixes x \/ stored_prefixes x = 0 ->
  nth_error (objects (snd (perform spare w (Parse i m buf)))) j = Some y.
Proof. exact AliasFacts.parse_others_same. Qed.
Print Assumptions C71_others_same.

Example C71_others_same_case :
  let acts := [New KProposal; parse 0 sample_proposal_3; Copy 0] in
  exists r w x y, perform_all doubles empty_world acts = (r, w) /\ 0 <> 1 /\
    nth_error (objects w) 1 = Some x /\ nth_error (objects w) 0 = Some y /\
    stored_prefixes y <= stored_prefixes x.
Proof. computes. Qed.

(** Parse of a copy changes the text of the original *)
Theorem C71_copies_refuted : ~ (forall acts,
  let (r, w) := perform_all doubles empty_world acts in act_all [] acts = (r, objects w)).
Proof. exact AliasFacts.copies_refuted. Qed.
Print Assumptions C71_copies_refuted.

Example C71_copies_refuted_case :
  let acts := [New KProposal; parse 0 sample_proposal_3; Copy 0; parse 0 sample_proposal_1a] in
  let text w := option_map Message_String (nth_error (objects w) 0) in
  let w := snd (perform_all doubles empty_world acts) in
  exists t t1, text w = Some t /\ text (snd (perform doubles w (parse 1 sample_proposal_1b))) = Some t1 /\
    contains "2001:db8::a/64" t = true /\ contains "2001:db8::b/64" t = false /\
    contains "2001:db8::a/64" t1 = false /\ contains "2001:db8::b/64" t1 = true.
Proof. computes. Qed.
