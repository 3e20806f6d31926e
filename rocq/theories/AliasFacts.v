(** * AliasFacts: what sharing arrays of prefixes can and cannot change. *)

From Coq Require Import List NArith Bool String Arith Lia.
From Verif Require Import GoBase GoFmt ClcModel Setters WriteModel Samples ClcView Sizes AliasModel Alias.
Import ListNotations.
Local Open Scope nat_scope.

(** ** Runs that do not concern the prefixes *)

Definition commutes {R A} (put : list IPv6Prefix -> R -> R) (w : W R A) : Prop :=
  forall L r, w (put L r) = let '(l, o, r1) := w r in (l, o, put L r1).

Section Commutes.
Context {R : Type} (put : list IPv6Prefix -> R -> R).

Lemma commutes_bind {A B} (x : W R A) (f : A -> W R B) :
  commutes put x -> (forall a, commutes put (f a)) -> commutes put (wbind x f).
Proof.
  intros Hx Hf L r. unfold wbind. rewrite (Hx L r). destruct (x r) as [[l o] r1].
  destruct o as [a| |]; [|reflexivity|reflexivity]. rewrite (Hf a L r1). destruct (f a r1) as [[l2 o2] r2]. reflexivity.
Qed.

Lemma commutes_ret {A} (a : A) : commutes put (wret a).
Proof. intros L r. reflexivity. Qed.

Lemma commutes_lift {A} (x : M A) : commutes put (lift x).
Proof. intros L r. reflexivity. Qed.

Lemma commutes_get {A} (f : R -> A) : (forall L r, f (put L r) = f r) -> commutes put (get f).
Proof. intros H L r. unfold get. rewrite H. reflexivity. Qed.

Lemma commutes_change (f : R -> R) : (forall L r, f (put L r) = put L (f r)) -> commutes put (change f).
Proof. intros H L r. unfold change. rewrite H. reflexivity. Qed.

Lemma commutes_part {S A} (f : R -> S) (set : S -> R -> R) (w : W S A) :
  (forall L r, f (put L r) = f r) -> (forall L x r, set x (put L r) = put L (set x r)) -> commutes put (part f set w).
Proof.
  intros Hf Hs L r. unfold part. rewrite Hf. destruct (w (f r)) as [[l o] s]. rewrite Hs. reflexivity.
Qed.
End Commutes.

Ltac commuting :=
  repeat first
  [ apply commutes_part; reflexivity
  | apply commutes_change; reflexivity
  | apply commutes_get; reflexivity
  | apply commutes_lift
  | apply commutes_ret
  | apply commutes_bind; [|intros ?]
  | match goal with |- commutes _ (if ?b then _ else _) => destruct b end
  | progress unfold assign, assignf, copyto, maketo, smcd_v1_W ].

(** ** The heap *)

Definition slice_in (h : pheap) (s : pslice) : Prop :=
  ps_array s < h_next h /\ ps_len s <= ps_cap s /\ List.length (h_array h (ps_array s)) = ps_cap s /\
  (ps_len s = 0 -> ps_array s = 0).

Definition grows (h : pheap) (s : pslice) (h1 : pheap) (s1 : pslice) : Prop :=
  h_next h <= h_next h1 /\ slice_in h1 s1 /\ ps_len s <= ps_len s1 /\
  (ps_array s1 = ps_array s \/ h_next h <= ps_array s1) /\
  (forall i, i < ps_len s -> nth_error (entries h1 s1) i = nth_error (entries h s) i) /\
  forall a, a < h_next h -> List.length (h_array h1 a) = List.length (h_array h a) /\
    forall i, nth_error (h_array h1 a) i = nth_error (h_array h a) i \/
      (a = ps_array s /\ ps_len s <= i < ps_len s1 /\ nth_error (h_array h1 a) i = nth_error (entries h1 s1) i).

Lemma grows_refl h s : slice_in h s -> grows h s h s.
Proof. intros H. repeat split; auto; apply H. Qed.

Lemma grows_trans h s h1 s1 h2 s2 : grows h s h1 s1 -> grows h1 s1 h2 s2 -> grows h s h2 s2.
Proof.
  intros (N1 & W1 & L1 & A1 & P1 & F1) (N2 & W2 & L2 & A2 & P2 & F2).
  split; [lia|]. split; [exact W2|]. split; [lia|]. split; [lia|].
  split; [intros i Hi; rewrite P2 by lia; apply P1, Hi|].
  intros a Ha. destruct (F1 a Ha) as [E1 G1]. destruct (F2 a) as [E2 G2]; [lia|]. split; [congruence|].
  intros i. destruct (G2 i) as [H2|(Ea & Hi & H2)].
  - rewrite H2. destruct (G1 i) as [H1|(Eb & Hj & H1)]; [left; exact H1|right].
    split; [exact Eb|]. split; [lia|]. rewrite H1. symmetry. apply P2. lia.
  - right. split; [lia|]. split; [lia|exact H2].
Qed.

Lemma entries_length h s : slice_in h s -> List.length (entries h s) = ps_len s.
Proof. intros (_ & H1 & H2 & _). unfold entries. rewrite firstn_length. lia. Qed.

Lemma firstn_ext {A} (l l' : list A) n :
  (forall i, i < n -> nth_error l i = nth_error l' i) -> firstn n l = firstn n l'.
Proof.
  revert l l'. induction n as [|n IH]; intros l l' H; [reflexivity|].
  pose proof (H 0 ltac:(lia)) as H0. destruct l as [|a l], l' as [|b l']; try discriminate; [reflexivity|].
  cbn in H0. injection H0 as ->. cbn. f_equal. apply IH. intros i Hi. apply (H (S i)). lia.
Qed.

(** slices of other arrays, and slices that end no later, keep their entries *)
Lemma grows_entries h s h1 s1 t : grows h s h1 s1 -> slice_in h t ->
  (ps_array t = ps_array s -> ps_len t <= ps_len s) -> entries h1 t = entries h t /\ slice_in h1 t.
Proof.
  intros (N1 & _ & _ & _ & _ & F) (H1 & H2 & H3 & H4) Hl. destruct (F _ H1) as [E G]. split.
  - apply firstn_ext. intros i Hi. destruct (G i) as [Hg|(Ea & Hj & _)]; [exact Hg|]. specialize (Hl Ea). lia.
  - repeat split; [lia|exact H2|congruence|exact H4].
Qed.

Lemma append_grows spare x h s : slice_in h s ->
  let (h1, s1) := go_append spare x h s in grows h s h1 s1 /\ entries h1 s1 = entries h s ++ [x].
Proof.
  intros H. pose proof H as (H1 & H2 & H3 & H4). pose proof (entries_length h s H) as EN.
  assert (EE : entries (fst (go_append spare x h s)) (snd (go_append spare x h s)) = entries h s ++ [x]).
  { unfold go_append. destruct (Nat.ltb_spec (ps_len s) (ps_cap s)) as [Hl|Hl]; cbn [fst snd].
    - set (l := h_array h (ps_array s)) in *.
      unfold entries. cbn [ps_len ps_array h_array set_array]. rewrite Nat.eqb_refl. fold l.
      rewrite firstn_app. rewrite firstn_length. rewrite firstn_firstn.
      replace (Nat.min (S (ps_len s)) (ps_len s)) with (ps_len s) by lia.
      replace (S (ps_len s) - Nat.min (ps_len s) (List.length l)) with 1 by lia. reflexivity.
    - unfold entries at 1. cbn [ps_len ps_array h_array]. rewrite Nat.eqb_refl.
      rewrite firstn_app, EN. replace (S (ps_len s) - ps_len s) with 1 by lia.
      rewrite firstn_all2; [reflexivity|lia]. }
  destruct (go_append spare x h s) as [h1 s1] eqn:E. cbn [fst snd] in EE. split; [|exact EE].
  assert (EP : forall i, i < ps_len s -> nth_error (entries h1 s1) i = nth_error (entries h s) i)
    by (intros i Hi; rewrite EE; apply nth_error_app1; lia).
  assert (EX : nth_error (entries h1 s1) (ps_len s) = Some x)
    by (rewrite EE, nth_error_app2, EN, Nat.sub_diag by lia; reflexivity).
  unfold go_append in E. destruct (Nat.ltb_spec (ps_len s) (ps_cap s)) as [Hl|Hl].
  - set (l := h_array h (ps_array s)) in *.
    assert (EL : List.length (firstn (ps_len s) l ++ x :: skipn (S (ps_len s)) l) = ps_cap s).
    { rewrite app_length, firstn_length. cbn [List.length]. rewrite skipn_length. lia. }
    apply pair_equal_spec in E as [<- <-]. split; [cbn; lia|]. split; [|split; [cbn; lia|split; [left; reflexivity|split; [exact EP|]]]].
    + split; [exact H1|]. split; [cbn; lia|]. split; [|discriminate]. cbn. rewrite Nat.eqb_refl. exact EL.
    + intros a Ha. cbn [h_array set_array]. destruct (Nat.eqb_spec a (ps_array s)) as [->|Hn];
        [|split; [reflexivity|left; reflexivity]].
      split; [fold l; lia|]. intros i. fold l. destruct (Nat.lt_trichotomy i (ps_len s)) as [Hi|[->|Hi]].
      * left. rewrite nth_error_app1; [|rewrite firstn_length; lia].
        rewrite <- (firstn_skipn (ps_len s) l) at 2. rewrite nth_error_app1; [reflexivity|rewrite firstn_length; lia].
      * right. split; [reflexivity|]. split; [cbn; lia|]. rewrite EX.
        rewrite nth_error_app2; rewrite firstn_length; [|lia]. rewrite Nat.min_l, Nat.sub_diag by lia. reflexivity.
      * left. rewrite nth_error_app2; rewrite firstn_length; [|lia]. rewrite Nat.min_l by lia.
        replace (i - ps_len s) with (S (i - S (ps_len s))) by lia. cbn [nth_error].
        rewrite <- (firstn_skipn (S (ps_len s)) l) at 2. rewrite nth_error_app2; rewrite firstn_length; [|lia].
        f_equal. lia.
  - apply pair_equal_spec in E as [<- <-]. split; [cbn; lia|]. split; [|split; [cbn; lia|split; [right; cbn; lia|split; [exact EP|]]]].
    + split; [cbn; lia|]. cbn. rewrite Nat.eqb_refl. split; [|split; [reflexivity|discriminate]].
      rewrite app_length. cbn [List.length]. lia.
    + intros a Ha. cbn. destruct (Nat.eqb_spec a (h_next h)) as [->|Hn]; [lia|split; [reflexivity|left; reflexivity]].
Qed.

(** ** Both models of Parse agree *)

Definition sim {R A} (put : list IPv6Prefix -> R -> R) (x : W (HS R) A) (w : W R A) : Prop :=
  forall h s r, slice_in h s -> exists l o h1 s1 r1,
    x (h, s, r) = (l, o, (h1, s1, r1)) /\ w (put (entries h s) r) = (l, o, put (entries h1 s1) r1) /\
    grows h s h1 s1.

Section Sim.
Context {R : Type} (put : list IPv6Prefix -> R -> R).

Lemma sim_on {A} (w : W R A) : commutes put w -> sim put (on w) w.
Proof.
  intros H h s r Hs. unfold on. rewrite H. destruct (w r) as [[l o] r1].
  do 5 eexists. split; [reflexivity|]. split; [reflexivity|]. apply grows_refl, Hs.
Qed.

Lemma sim_lift {A} (x : M A) : sim put (lift x) (lift x).
Proof.
  intros h s r Hs. unfold lift. do 5 eexists. split; [reflexivity|]. split; [reflexivity|]. apply grows_refl, Hs.
Qed.

Lemma sim_ret {A} (a : A) : sim put (wret a) (wret a).
Proof.
  intros h s r Hs. do 5 eexists. split; [reflexivity|]. split; [reflexivity|]. apply grows_refl, Hs.
Qed.

Lemma sim_bind {A B} (x : W (HS R) A) (w : W R A) (f : A -> W (HS R) B) (g : A -> W R B) :
  sim put x w -> (forall a, sim put (f a) (g a)) -> sim put (wbind x f) (wbind w g).
Proof.
  intros Hx Hf h s r Hs. destruct (Hx h s r Hs) as (l & o & h1 & s1 & r1 & E1 & E2 & G).
  unfold wbind. rewrite E1, E2. destruct o as [a| |].
  - pose proof G as (_ & Hs1 & _). destruct (Hf a h1 s1 r1 Hs1) as (l2 & o2 & h2 & s2 & r2 & E3 & E4 & G2).
    rewrite E3, E4. do 5 eexists. split; [reflexivity|]. split; [reflexivity|]. eapply grows_trans; eassumption.
  - do 5 eexists. split; [reflexivity|]. split; [reflexivity|]. exact G.
  - do 5 eexists. split; [reflexivity|]. split; [reflexivity|]. exact G.
Qed.

Lemma sim_hpart {S A} (puts : list IPv6Prefix -> S -> S) (f : R -> S) (set : S -> R -> R)
    (x : W (HS S) A) (w : W S A) :
  (forall L r, f (put L r) = puts L (f r)) -> (forall L L1 y r, set (puts L1 y) (put L r) = put L1 (set y r)) ->
  sim puts x w -> sim put (hpart f set x) (part f set w).
Proof.
  intros Hf Hset H h s r Hs. destruct (H h s (f r) Hs) as (l & o & h1 & s1 & r1 & E1 & E2 & G).
  unfold hpart, part. rewrite E1, Hf, E2, Hset. do 5 eexists. split; [reflexivity|]. split; [reflexivity|]. exact G.
Qed.
End Sim.

Definition put_i (L : list IPv6Prefix) (i : IPInfo) : IPInfo := set_i_IPv6Prefixes L i.
Definition put_p (L : list IPv6Prefix) (p : Proposal) : Proposal := set_p_IP (put_i L (p_IP p)) p.
Definition put_p2 (L : list IPv6Prefix) (p : ProposalV2) : ProposalV2 := set_p2_IP (put_i L (p2_IP p)) p.

Lemma sim_append spare x : sim put_i (append_prefix spare x)
  (change (fun ip => set_i_IPv6Prefixes (i_IPv6Prefixes ip ++ [x])%list ip)).
Proof.
  intros h s r Hs. unfold append_prefix, change. pose proof (append_grows spare x h s Hs) as H.
  destruct (go_append spare x h s) as [h1 s1]. destruct H as [G E].
  do 5 eexists. split; [reflexivity|]. split; [|exact G]. rewrite E. reflexivity.
Qed.

Ltac simulate :=
  repeat first
  [ apply sim_append
  | apply sim_ret
  | apply sim_lift
  | apply sim_on; solve [commuting]
  | apply sim_bind; [|intros ?]
  | match goal with |- sim _ (if ?b then _ else _) _ => destruct b end
  | match goal with |- sim _ (match ?b with _ => _ end) _ => destruct b end
  | progress unfold complain ].

Lemma prefixes_v1_sim spare m buf len : forall n skip,
  sim put_i (prefixes_v1_H spare m buf len skip n) (prefixes_v1_W m buf len skip n).
Proof.
  induction n as [|n IH]; intros skip; [apply sim_ret|].
  cbn [prefixes_v1_H prefixes_v1_W]. cbv zeta. simulate. apply IH.
Qed.

Lemma prefixes_v2_sim spare m buf len : forall n skip,
  sim put_i (prefixes_v2_H spare m buf len skip n) (prefixes_v2_W m buf len skip n).
Proof.
  induction n as [|n IH]; intros skip; [apply sim_ret|].
  cbn [prefixes_v2_H prefixes_v2_W]. cbv zeta. simulate. apply IH.
Qed.

Lemma ip_area_v1_sim spare m buf len skip :
  sim put_i (ip_area_v1_H spare m buf len skip) (ip_area_v1_W m buf len skip).
Proof. unfold ip_area_v1_H, ip_area_v1_W. cbv zeta. simulate. apply prefixes_v1_sim. Qed.

Lemma ip_area_v2_sim spare m buf hdr len skip :
  sim put_i (ip_area_v2_H spare m buf hdr len skip) (ip_area_v2_W m buf hdr len skip).
Proof. unfold ip_area_v2_H, ip_area_v2_W. cbv zeta. simulate. apply prefixes_v2_sim. Qed.

Lemma Proposal_sim spare m buf : sim put_p (Proposal_H spare m buf) (Proposal_W m buf).
Proof.
  unfold Proposal_H, Proposal_W. cbv zeta. simulate.
  apply sim_hpart with put_i; [reflexivity|reflexivity|]. apply ip_area_v1_sim.
Qed.

Lemma ProposalV2_sim spare m buf : sim put_p2 (ProposalV2_H spare m buf) (ProposalV2_W m buf).
Proof.
  unfold ProposalV2_H, ProposalV2_W. cbv zeta. simulate.
  apply sim_hpart with put_i; [reflexivity|reflexivity|]. apply ip_area_v2_sim.
Qed.

(** ** Objects *)

Lemma with_prefixes_other L msg : (match msg with MProposal _ | MProposalV2 _ => False | _ => True end) ->
  with_prefixes L msg = msg.
Proof. destruct msg; intros []; reflexivity. Qed.

Lemma Message_H_spec spare m buf h x : slice_in h (snd x) -> exists l o h1 x1,
  Message_H spare m buf h x = (l, o, (h1, x1)) /\ Message_W m buf (seen h x) = (l, o, seen h1 x1) /\
  grows h (snd x) h1 (snd x1).
Proof.
  destruct x as [msg s]. cbn [snd]. intros Hs.
  assert (Other : match msg with MProposal _ | MProposalV2 _ => False | _ => True end ->
    exists l o msg1, Message_H spare m buf h (msg, s) = (l, o, (h, (msg1, s))) /\
      Message_W m buf msg = (l, o, msg1) /\
      match msg1 with MProposal _ | MProposalV2 _ => False | _ => True end).
  { intros Hm. destruct (Message_W m buf msg) as [[l o] msg1] eqn:E. exists l, o, msg1. split; [|split; [reflexivity|]].
    - destruct msg; destruct Hm; cbn [Message_H]; rewrite E; reflexivity.
    - destruct msg; destruct Hm; cbn [Message_W] in E; unfold inside in E;
        match type of E with context [match ?w with _ => _ end] => destruct w as [[l1 o1] r] end;
        injection E as _ _ <-; exact I. }
  destruct msg.
  1: { cbn [Message_H]. destruct (Proposal_sim spare m buf h s p Hs) as (l & o & h1 & s1 & p1 & E1 & E2 & G).
    rewrite E1. do 4 eexists. split; [reflexivity|]. split; [|exact G].
    unfold seen, with_prefixes, fst, snd. cbn [Message_W]. unfold inside. unfold put_p, put_i in E2. rewrite E2. reflexivity. }
  1: { cbn [Message_H]. destruct (ProposalV2_sim spare m buf h s p Hs) as (l & o & h1 & s1 & p1 & E1 & E2 & G).
    rewrite E1. do 4 eexists. split; [reflexivity|]. split; [|exact G].
    unfold seen, with_prefixes, fst, snd. cbn [Message_W]. unfold inside. unfold put_p2, put_i in E2. rewrite E2. reflexivity. }
  all: destruct (Other I) as (l & o & msg1 & E1 & E2 & H1); rewrite E1;
    do 4 eexists; (split; [reflexivity|]); (split; [|apply grows_refl, Hs]);
    unfold seen; cbn [fst snd]; rewrite (with_prefixes_other _ msg1 H1); exact E2.
Qed.

Lemma nth_error_firstn {A} (l : list A) n k : nth_error (firstn k l) n = if n <? k then nth_error l n else None.
Proof.
  revert n k. induction l as [|a l IH]; intros n [|k].
  - destruct n; reflexivity.
  - cbn [firstn]. destruct (n <? S k); destruct n; reflexivity.
  - destruct n; reflexivity.
  - destruct n as [|n]; [reflexivity|]. cbn. rewrite IH. reflexivity.
Qed.

Definition proposal_like (msg : Message) : bool :=
  match msg with MProposal _ | MProposalV2 _ => true | _ => false end.

Lemma Message_H_shape spare m buf h x : let '(_, _, (h1, x1)) := Message_H spare m buf h x in
  if proposal_like (fst x) then proposal_like (fst x1) = true else h1 = h.
Proof.
  destruct x as [msg s]. destruct msg; cbn [Message_H fst proposal_like].
  all: match goal with
    | |- context [Proposal_H ?a ?b ?c ?d] => destruct (Proposal_H a b c d) as [[l o] [[h1 s1] p1]]
    | |- context [ProposalV2_H ?a ?b ?c ?d] => destruct (ProposalV2_H a b c d) as [[l o] [[h1 s1] p1]]
    | |- context [Message_W ?a ?b ?c] => destruct (Message_W a b c) as [[l o] msg1]
    end; reflexivity.
Qed.

(** ** Worlds *)

Definition well_formed (w : world) : Prop :=
  0 < h_next (w_heap w) /\ h_array (w_heap w) 0 = [] /\ Forall (fun x => slice_in (w_heap w) (snd x)) (w_objs w).

Lemma empty_well_formed : well_formed empty_world.
Proof. repeat split; cbn; auto. Qed.

Lemma nth_replace {A} (l : list A) i x j : i < List.length l ->
  nth_error (replace l i x) j = if Nat.eqb j i then Some x else nth_error l j.
Proof.
  intros Hi. unfold replace. destruct (Nat.eqb_spec j i) as [->|Hn].
  - rewrite nth_error_app2; rewrite firstn_length; [|lia].
    replace (i - Nat.min i (List.length l)) with 0 by lia. reflexivity.
  - destruct (Nat.lt_ge_cases j i) as [H|H].
    + rewrite nth_error_app1; [|rewrite firstn_length; lia].
      rewrite <- (firstn_skipn i l) at 2. rewrite nth_error_app1; [reflexivity|rewrite firstn_length; lia].
    + rewrite nth_error_app2; rewrite firstn_length; [|lia].
      replace (j - Nat.min i (List.length l)) with (S (j - S i)) by lia. cbn [nth_error].
      rewrite <- (firstn_skipn (S i) l) at 2. rewrite nth_error_app2; rewrite firstn_length; [|lia].
      f_equal. lia.
Qed.

Lemma nth_error_ext {A} (l l' : list A) : (forall i, nth_error l i = nth_error l' i) -> l = l'.
Proof.
  revert l'. induction l as [|a l IH]; intros [|b l'] H; [reflexivity|specialize (H 0); discriminate|specialize (H 0); discriminate|].
  pose proof (H 0) as H0. injection H0 as ->. f_equal. apply IH. intros i. exact (H (S i)).
Qed.

Lemma replace_length {A} (l : list A) i x : i < List.length l -> List.length (replace l i x) = List.length l.
Proof. intros H. unfold replace. rewrite app_length, firstn_length. cbn [List.length]. rewrite skipn_length. lia. Qed.

Lemma Forall_nth {A} (P : A -> Prop) l : Forall P l <-> forall i x, nth_error l i = Some x -> P x.
Proof.
  split.
  - intros H i x E. rewrite Forall_forall in H. apply H. eapply nth_error_In, E.
  - intros H. apply Forall_forall. intros x Hx. apply In_nth_error in Hx as [i E]. eauto.
Qed.

(** what Parse does to a world *)
Lemma parse_world spare w i m buf x : well_formed w -> nth_error (w_objs w) i = Some x ->
  exists l o h1 x1, perform spare w (Parse i m buf) = (l, o, mkworld h1 (replace (w_objs w) i x1)) /\
    Message_W m buf (seen (w_heap w) x) = (l, o, seen h1 x1) /\ grows (w_heap w) (snd x) h1 (snd x1) /\
    well_formed (mkworld h1 (replace (w_objs w) i x1)).
Proof.
  intros (Hn & Hz & Hf) Ei. pose proof (proj1 (Forall_nth _ _) Hf _ _ Ei) as Hx.
  destruct (Message_H_spec spare m buf (w_heap w) x Hx) as (l & o & h1 & x1 & E1 & E2 & G).
  exists l, o, h1, x1. cbn [perform]. rewrite Ei, E1. split; [reflexivity|]. split; [exact E2|]. split; [exact G|].
  pose proof G as (G1 & G2 & _ & _ & _ & GF). split; [cbn; lia|]. split.
  - destruct (GF 0 Hn) as [EL _]. rewrite Hz in EL. cbn in EL |- *. destruct (h_array h1 0); [reflexivity|discriminate].
  - apply Forall_nth. cbn [w_objs w_heap]. intros j y Ej.
    assert (Hi : i < List.length (w_objs w)) by (apply nth_error_Some; congruence).
    rewrite nth_replace in Ej by exact Hi. destruct (Nat.eqb_spec j i) as [->|Hj].
    + injection Ej as <-. exact G2.
    + pose proof (proj1 (Forall_nth _ _) Hf _ _ Ej) as (Y1 & Y2 & Y3 & Y4). destruct (GF _ Y1) as [EL _].
      repeat split; [lia|exact Y2|congruence|exact Y4].
Qed.

Lemma perform_well_formed spare w a : well_formed w -> well_formed (snd (perform spare w a)).
Proof.
  intros H. destruct a as [k|i|i m buf].
  - destruct H as (Hn & Hz & Hf). split; [exact Hn|]. split; [exact Hz|]. cbn. apply Forall_app. split; [exact Hf|].
    constructor; [|constructor]. repeat split; cbn; [lia|lia|]. rewrite Hz. reflexivity.
  - cbn. destruct (nth_error (w_objs w) i) as [x|] eqn:E; [|exact H].
    destruct H as (Hn & Hz & Hf). split; [exact Hn|]. split; [exact Hz|]. cbn. apply Forall_app. split; [exact Hf|].
    constructor; [|constructor]. exact (proj1 (Forall_nth _ _) Hf _ _ E).
  - destruct (nth_error (w_objs w) i) as [x|] eqn:E.
    + destruct (parse_world spare w i m buf x H E) as (l & o & h1 & x1 & -> & _ & _ & H1). exact H1.
    + cbn. rewrite E. exact H.
Qed.

Lemma perform_all_well_formed spare acts : forall w, well_formed w -> well_formed (snd (perform_all spare w acts)).
Proof.
  induction acts as [|a acts IH]; intros w H; [exact H|]. cbn.
  pose proof (perform_well_formed spare w a H) as H1. destruct (perform spare w a) as [[l o] w1].
  cbn in H1. specialize (IH w1 H1). destruct (perform_all spare w1 acts) as [r w2]. exact IH.
Qed.

(** the objects of a world after a Parse *)
Lemma objects_nth w i : nth_error (objects w) i = option_map (seen (w_heap w)) (nth_error (w_objs w) i).
Proof. unfold objects. apply nth_error_map. Qed.

Lemma parse_receiver spare acts r w i m buf x : perform_all spare empty_world acts = (r, w) ->
  nth_error (objects w) i = Some x ->
  exists l o x1 w1, perform spare w (Parse i m buf) = (l, o, w1) /\
    Message_W m buf x = (l, o, x1) /\ nth_error (objects w1) i = Some x1.
Proof.
  intros E Ei. pose proof (perform_all_well_formed spare acts _ empty_well_formed) as H. rewrite E in H. cbn in H.
  rewrite objects_nth in Ei. destruct (nth_error (w_objs w) i) as [y|] eqn:Ey; [|discriminate].
  injection Ei as <-. destruct (parse_world spare w i m buf y H Ey) as (l & o & h1 & x1 & E1 & E2 & _ & _).
  do 4 eexists. split; [exact E1|]. split; [exact E2|]. rewrite objects_nth. cbn [w_objs w_heap].
  rewrite nth_replace by (apply nth_error_Some; congruence). rewrite Nat.eqb_refl. reflexivity.
Qed.

(** the other objects *)
Lemma parse_others spare acts r w i j m buf x y : perform_all spare empty_world acts = (r, w) -> j <> i ->
  nth_error (objects w) i = Some x -> nth_error (objects w) j = Some y ->
  exists x1 y1, let objs1 := objects (snd (perform spare w (Parse i m buf))) in
    nth_error objs1 i = Some x1 /\ nth_error objs1 j = Some y1 /\
    other_fields y1 = other_fields y /\
    stored_prefixes y1 = stored_prefixes y /\
    (forall n, nth_error (prefixes_of y1) n = nth_error (prefixes_of y) n \/
      0 < stored_prefixes x <= n /\ nth_error (prefixes_of y1) n = nth_error (prefixes_of x1) n).
Proof.
  intros E Hj Ei Ej. pose proof (perform_all_well_formed spare acts _ empty_well_formed) as H. rewrite E in H. cbn in H.
  rewrite objects_nth in Ei, Ej. destruct (nth_error (w_objs w) i) as [x0|] eqn:Ex; [|discriminate].
  destruct (nth_error (w_objs w) j) as [y0|] eqn:Ey; [|discriminate]. injection Ei as <-. injection Ej as <-.
  destruct (parse_world spare w i m buf x0 H Ex) as (l & o & h1 & x1 & E1 & E2 & G & H1). rewrite E1. cbn [snd].
  exists (seen h1 x1), (seen h1 y0). rewrite !objects_nth. cbn [w_objs w_heap].
  assert (Hi : i < List.length (w_objs w)) by (apply nth_error_Some; congruence).
  assert (Ey1 : nth_error (replace (w_objs w) i x1) j = Some y0).
  { rewrite nth_replace by exact Hi. apply Nat.eqb_neq in Hj. rewrite Hj. exact Ey. }
  assert (Ex1 : nth_error (replace (w_objs w) i x1) i = Some x1).
  { rewrite nth_replace by exact Hi. rewrite Nat.eqb_refl. reflexivity. }
  rewrite Ey1, Ex1. split; [reflexivity|]. split; [reflexivity|].
  destruct H as (Hn & Hz & Hf). pose proof (proj1 (Forall_nth _ _) Hf _ _ Ey) as Hy.
  pose proof (proj1 (Forall_nth _ _) Hf _ _ Ex) as Hx.
  destruct H1 as (_ & _ & Hf1). pose proof (proj1 (Forall_nth _ _) Hf1 _ _ Ey1) as Hy1. cbn [w_heap] in Hy1.
  pose proof (Message_H_shape spare m buf (w_heap w) x0) as Sh.
  cbn [perform] in E1. rewrite Ex in E1. destruct (Message_H spare m buf (w_heap w) x0) as [[l2 o2] [h2 x2]].
  injection E1 as _ _ -> Er. assert (x2 = x1) as ->.
  { assert (Some x2 = Some x1); [|congruence]. rewrite <- Ex1, <- Er, nth_replace, Nat.eqb_refl by exact Hi. reflexivity. }
  destruct x0 as [xm xs], y0 as [ym ys], x1 as [xm1 xs1]. cbn [fst snd] in *. unfold seen in *. cbn [fst snd] in *.
  split; [destruct ym; reflexivity|].
  split; [destruct ym; try reflexivity; cbn; rewrite !entries_length by assumption; reflexivity|].
  intros n.
  destruct (proposal_like xm) eqn:Ek.
  2: { left. rewrite Sh. reflexivity. }
  assert (K : nth_error (entries h1 ys) n = nth_error (entries (w_heap w) ys) n \/
    0 < ps_len xs <= n /\ nth_error (entries h1 ys) n = nth_error (entries h1 xs1) n).
  { unfold entries at 1 2 3. rewrite !nth_error_firstn. destruct (Nat.ltb_spec n (ps_len ys)) as [Hl|Hl]; [|left; reflexivity].
    pose proof Hy as (Y1 & Y2 & Y3 & Y4). destruct G as (_ & _ & _ & _ & _ & F). destruct (F _ Y1) as [_ F1].
    destruct (F1 n) as [Hg|(Ea & Hb & Hg)]; [left; exact Hg|right]. split; [|exact Hg]. split; [|lia].
    destruct (ps_len xs) eqn:El; [|lia]. destruct Hx as (_ & _ & _ & X4). rewrite (X4 El) in Ea.
    rewrite Ea, Hz in Y3. cbn in Y3. lia. }
  replace (stored_prefixes (with_prefixes (entries (w_heap w) xs) xm)) with (ps_len xs)
    by (destruct xm; try discriminate Ek; cbn; rewrite entries_length by assumption; reflexivity).
  replace (prefixes_of (with_prefixes (entries h1 xs1) xm1)) with (entries h1 xs1)
    by (destruct xm1; try discriminate Sh; reflexivity).
  destruct ym; try (left; reflexivity); exact K.
Qed.

Lemma rebuild y : with_prefixes (prefixes_of y) (other_fields y) = y.
Proof.
  destruct y; try reflexivity; cbn.
  - destruct p; match goal with i : IPInfo |- _ => destruct i; reflexivity end.
  - destruct p; match goal with i : IPInfo |- _ => destruct i; reflexivity end.
Qed.

Lemma same_object y y1 : other_fields y1 = other_fields y -> prefixes_of y1 = prefixes_of y -> y1 = y.
Proof. intros H1 H2. rewrite <- (rebuild y1), H1, H2. apply rebuild. Qed.

(** nothing at all changes if the other object has no more prefixes, or the receiver had none *)
Lemma parse_others_same spare acts r w i j m buf x y : perform_all spare empty_world acts = (r, w) -> j <> i ->
  nth_error (objects w) i = Some x -> nth_error (objects w) j = Some y ->
  stored_prefixes y <= stored_prefixes x \/ stored_prefixes x = 0 ->
  nth_error (objects (snd (perform spare w (Parse i m buf)))) j = Some y.
Proof.
  intros E Hj Ei Ej Hs. destruct (parse_others spare acts r w i j m buf x y E Hj Ei Ej) as (x1 & y1 & _ & E1 & Ho & Hl & Hn).
  rewrite E1. f_equal. apply same_object; [exact Ho|]. apply nth_error_ext. intros n.
  assert (L : forall z, List.length (prefixes_of z) = stored_prefixes z) by (intros z; destruct z; reflexivity).
  destruct (Hn n) as [Hq|(Hq & _)]; [exact Hq|].
  rewrite (proj2 (nth_error_None _ _)); [symmetry; apply nth_error_None|]; rewrite L; lia.
Qed.

(** without copies *)
Definition separate (w : world) : Prop :=
  forall i j x y, i <> j -> nth_error (w_objs w) i = Some x -> nth_error (w_objs w) j = Some y ->
    ps_array (snd x) = ps_array (snd y) -> ps_array (snd x) = 0.

Lemma objects_replace w i h1 x1 : i < List.length (w_objs w) ->
  (forall j y, j <> i -> nth_error (w_objs w) j = Some y -> seen h1 y = seen (w_heap w) y) ->
  objects (mkworld h1 (replace (w_objs w) i x1)) = replace (objects w) i (seen h1 x1).
Proof.
  intros Hi H. apply nth_error_ext. intros j. rewrite objects_nth. cbn [w_objs w_heap].
  rewrite !nth_replace; [|unfold objects; rewrite map_length; exact Hi|exact Hi].
  destruct (Nat.eqb_spec j i) as [->|Hj]; [reflexivity|]. rewrite objects_nth.
  destruct (nth_error (w_objs w) j) as [y|] eqn:E; [|reflexivity]. cbn. f_equal. eapply H; eassumption.
Qed.

Lemma perform_value spare w a : well_formed w -> separate w -> is_copy a = false ->
  let '(l, o, w1) := perform spare w a in act (objects w) a = (l, o, objects w1) /\ separate w1.
Proof.
  intros H Hs Hc. destruct a as [k|i|i m buf]; [| discriminate|].
  - cbn [perform act]. split.
    + f_equal. unfold objects. cbn [w_objs w_heap]. rewrite map_app. cbn [map]. f_equal. f_equal.
      unfold seen. destruct k; reflexivity.
    + intros i j x y Hij Ex Ey Ea. cbn [w_objs] in Ex, Ey.
      destruct (Nat.lt_ge_cases i (List.length (w_objs w))) as [Hi|Hi].
      * rewrite nth_error_app1 in Ex by exact Hi. destruct (Nat.lt_ge_cases j (List.length (w_objs w))) as [Hj|Hj].
        -- rewrite nth_error_app1 in Ey by exact Hj. eapply Hs; eassumption.
        -- rewrite nth_error_app2 in Ey by exact Hj. destruct (j - List.length (w_objs w)) as [|[|n]]; [|discriminate|discriminate].
           injection Ey as <-. exact Ea.
      * rewrite nth_error_app2 in Ex by exact Hi. destruct (i - List.length (w_objs w)) as [|[|n]]; [|discriminate|discriminate].
        injection Ex as <-. reflexivity.
  - destruct (nth_error (w_objs w) i) as [x|] eqn:Ex.
    2: { cbn. rewrite Ex. rewrite objects_nth, Ex. split; [reflexivity|exact Hs]. }
    destruct (parse_world spare w i m buf x H Ex) as (l & o & h1 & x1 & E1 & E2 & G & H1). rewrite E1.
    assert (Hi : i < List.length (w_objs w)) by (apply nth_error_Some; congruence).
    pose proof H as (Hn & Hz & Hf). split.
    + cbn [act]. rewrite objects_nth, Ex. cbn [option_map]. rewrite E2. f_equal. symmetry.
      apply objects_replace; [exact Hi|]. intros j y Hj Ey. unfold seen. f_equal.
      pose proof (proj1 (Forall_nth _ _) Hf _ _ Ey) as Hy. pose proof Hy as (Y1 & Y2 & Y3 & _).
      destruct (Nat.eq_dec (ps_array (snd y)) (ps_array (snd x))) as [Ea|Ea].
      * pose proof (Hs _ _ _ _ Hj Ey Ex Ea) as E0. rewrite E0, Hz in Y3. cbn in Y3.
        unfold entries. replace (ps_len (snd y)) with 0 by lia. reflexivity.
      * eapply grows_entries; [exact G|exact Hy|]. intros Hq. contradiction.
    + intros j k y z Hjk Ey Ez Ea. cbn [w_objs] in Ey, Ez. rewrite nth_replace in Ey, Ez by exact Hi.
      pose proof G as (_ & _ & _ & GA & _).
      destruct (Nat.eqb_spec j i) as [->|Hj]; destruct (Nat.eqb_spec k i) as [->|Hk]; [lia| | |].
      * injection Ey as <-. pose proof (proj1 (Forall_nth _ _) Hf _ _ Ez) as (Z1 & _).
        destruct GA as [GA|GA]; [|lia]. rewrite GA in *. eapply (Hs i k); eassumption.
      * injection Ez as <-. pose proof (proj1 (Forall_nth _ _) Hf _ _ Ey) as (Z1 & _).
        destruct GA as [GA|GA]; [|lia]. rewrite GA in *. eapply (Hs j i); eassumption.
      * eapply (Hs j k); eassumption.
Qed.

Lemma no_copies spare acts : forallb (fun a => negb (is_copy a)) acts = true ->
  let (r, w) := perform_all spare empty_world acts in act_all [] acts = (r, objects w).
Proof.
  intros Hc. change (@nil Message) with (objects empty_world).
  assert (Hs : separate empty_world) by (intros [|i] j x y _ E; discriminate E).
  pose proof empty_well_formed as H. revert H Hs. generalize empty_world. revert Hc.
  induction acts as [|a acts IH]; intros Hc w H Hs; [reflexivity|].
  cbn in Hc. apply andb_true_iff in Hc as [Ha Hc]. apply negb_true_iff in Ha. cbn [perform_all act_all].
  pose proof (perform_value spare w a H Hs Ha) as Hv. pose proof (perform_well_formed spare w a H) as H1.
  destruct (perform spare w a) as [[l o] w1]. destruct Hv as [-> Hs1]. cbn in H1.
  specialize (IH Hc w1 H1 Hs1). destruct (perform_all spare w1 acts) as [r w2]. rewrite IH. reflexivity.
Qed.

(** ** Copies *)

Definition copy_acts : list action :=
  [New KProposal; parse 0 sample_proposal_3; Copy 0; parse 0 sample_proposal_1a; parse 1 sample_proposal_1b].

Lemma copies_refuted : ~ (forall acts,
  let (r, w) := perform_all doubles empty_world acts in act_all [] acts = (r, objects w)).
Proof.
  intros H. specialize (H copy_acts).
  set (a := perform_all doubles empty_world copy_acts) in H.
  set (b := act_all [] copy_acts) in H.
  assert (E : map prefixes_of (snd b) <> map prefixes_of (objects (snd a))) by (vm_compute; discriminate).
  destruct a as [r w]. apply E. rewrite H. reflexivity.
Qed.
