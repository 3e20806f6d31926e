(** * SizesGrow: how many IPv6 prefixes a Proposal collects. Proofs only. *)

From Coq Require Import NArith ZArith Bool String Arith List Lia.
From Verif Require Import GoBase GoFmt ClcModel Setters WriteModel Samples ClcView Sizes SizesFacts.
From Verif Require Keep ClcProposal ClcMessage RecoverFacts.
Import ListNotations.
Local Open Scope nat_scope.

(** [f] counts; a run adds at most [n], and at most one for 17 of [b] bytes *)
Definition grows {R A} (f : R -> nat) (n b : nat) (w : W R A) : Prop := forall r,
  f r <= f (snd (w r)) <= f r + n /\ 17 * f (snd (w r)) <= 17 * f r + b.

Lemma grows_none {R A} (f : R -> nat) n b (w : W R A) : (forall r, f (snd (w r)) = f r) -> grows f n b w.
Proof. intros H r. rewrite H. lia. Qed.

Lemma still_bind {R A B} (f : R -> nat) (x : W R A) (k : A -> W R B) n b :
  (forall r, f (snd (x r)) = f r) -> (forall a, grows f n b (k a)) -> grows f n b (wbind x k).
Proof.
  intros Hx Hk r. unfold wbind. specialize (Hx r).
  destruct (x r) as [[l [a| |]] r1]; cbn [snd] in *; [|lia..].
  specialize (Hk a r1). destruct (k a r1) as [[l2 o] r2]. cbn [snd] in *. lia.
Qed.

Lemma grows_end {R A B} (f : R -> nat) (x : W R A) (k : A -> W R B) n b :
  grows f n b x -> (forall a r, f (snd (k a r)) = f r) -> grows f n b (wbind x k).
Proof.
  intros Hx Hk r. unfold wbind. specialize (Hx r).
  destruct (x r) as [[l [a| |]] r1]; cbn [snd] in *; [|lia..].
  specialize (Hk a r1). destruct (k a r1) as [[l2 o] r2]. cbn [snd] in *. lia.
Qed.

Lemma grows_part {R S A} (f : R -> nat) (g : S -> nat) (get : R -> S) set (w : W S A) n b :
  (forall r, f r = g (get r)) -> (forall s r, f (set s r) = g s) -> grows g n b w -> grows f n b (part get set w).
Proof.
  intros Hg Hs Hw r. unfold part. specialize (Hw (get r)). destruct (w (get r)) as [[l o] s].
  cbn [snd] in *. rewrite Hs, Hg. exact Hw.
Qed.

Definition still {R A} (f : R -> nat) (w : W R A) : Prop := forall r, f (snd (w r)) = f r.

Lemma still_wbind {R A B} (f : R -> nat) (x : W R A) (k : A -> W R B) :
  still f x -> (forall a, still f (k a)) -> still f (wbind x k).
Proof.
  intros Hx Hk r. unfold wbind. specialize (Hx r).
  destruct (x r) as [[l [a| |]] r1]; cbn [snd] in *; [|assumption..].
  specialize (Hk a r1). destruct (k a r1) as [[l2 o] r2]. cbn [snd] in *. lia.
Qed.

Lemma still_part {R S A} (f : R -> nat) (get : R -> S) set (w : W S A) :
  (forall s r, f (set s r) = f r) -> still f (part get set w).
Proof. intros Hs r. unfold part. destruct (w (get r)) as [[l o] s]. apply Hs. Qed.

Ltac rest :=
  cbv zeta;
  lazymatch goal with
  | |- still _ (wbind _ _) => apply still_wbind; [|intros ?]
  | |- still _ (part _ _ _) => apply still_part; reflexivity
  | |- still _ (lift _) => intros ?; reflexivity
  | |- still _ (wret _) => intros ?; reflexivity
  | |- still _ (get _) => intros ?; reflexivity
  | |- still _ (change _) => intros ?; reflexivity
  | |- still _ (assign _ _) => unfold assign
  | |- still _ (assignf _ _ _) => unfold assignf
  | |- still _ (copyto _ _ _ _ _ _) => unfold copyto
  | |- still _ (maketo _ _ _ _ _ _ _) => unfold maketo
  | |- still _ (complain _ _ _ _) => intros ?; reflexivity
  | |- still _ (if ?c then _ else _) => destruct c
  | |- still _ (match ?c with _ => _ end) => destruct c
  end.

Ltac still1 := apply grows_none; match goal with |- forall r, ?f (snd (?w r)) = _ => change (still f w) end; solve [repeat rest].

Definition held (ip : IPInfo) : nat := length (i_IPv6Prefixes ip).

Lemma idx_done m s i l b : idx m s i = (l, Done b) -> i < s_len s.
Proof. unfold idx. destruct (Nat.ltb_spec i (s_len s)); [trivial|discriminate]. Qed.

(** one turn of both loops *)
Lemma turn {A} m buf skip (k : W IPInfo A) prefix i n b :
  grows held n b k -> i = skip + 16 -> b = s_len buf - (skip + 17) ->
  grows held (S n) (s_len buf - skip)
    (let? plen := lift (idx m buf i) in
     change (fun ip => set_i_IPv6Prefixes (i_IPv6Prefixes ip ++ [mkIPv6Prefix prefix (b2n plen)])%list ip) ;> k).
Proof.
  intros Hk -> -> r. unfold wbind, lift, change. cbv beta.
  destruct (idx m buf (skip + 16)) as [l [v| |]] eqn:E; cbn [fst snd]; [|lia..]. apply idx_done in E.
  match goal with |- context [k ?r] => set (r1 := r); specialize (Hk r1) end.
  assert (E1 : held r1 = held r + 1) by (unfold r1, held; cbn; rewrite app_length; reflexivity).
  destruct (k r1) as [[l2 o] r2]. cbn [snd] in *. lia.
Qed.

Lemma grow_v1 m buf len n : forall skip, grows held n (s_len buf - S skip) (prefixes_v1_W m buf len skip n).
Proof.
  induction n as [|n IH]; intros skip; cbn [prefixes_v1_W]; [still1|].
  destruct (short _ _ _); [still1|].
  apply still_bind; [reflexivity|]. intros prefix. cbv zeta. replace (S skip) with (skip + 1) by lia.
  eapply turn; [apply IH|lia|lia].
Qed.

Lemma grow_v2 m buf len n : forall skip, grows held n (s_len buf - skip) (prefixes_v2_W m buf len skip n).
Proof.
  induction n as [|n IH]; intros skip; cbn [prefixes_v2_W]; [still1|].
  destruct (short _ _ _); [still1|].
  apply still_bind; [reflexivity|]. intros prefix. cbv zeta.
  eapply turn; [apply IH|lia|lia].
Qed.

(** the count is a byte *)
Lemma counted {A} m buf i (k : nat -> W IPInfo A) b :
  (forall n, n <= 255 -> grows held n b (k n)) ->
  grows held 255 b (assignf set_i_IPv6PrefixesCnt b2n (idx m buf i) ;> let? cnt := get i_IPv6PrefixesCnt in k (N.to_nat cnt)).
Proof.
  intros Hk r. unfold assignf, wbind, lift, get, change. cbv beta.
  destruct (idx m buf i) as [l [v| |]]; cbn [fst snd]; [|lia..].
  cbn [i_IPv6PrefixesCnt set_i_IPv6PrefixesCnt].
  assert (L : N.to_nat (b2n v) <= 255) by (destruct v; apply Nat.leb_le; vm_compute; reflexivity).
  specialize (Hk _ L (set_i_IPv6PrefixesCnt (b2n v) r)).
  destruct (k (N.to_nat (b2n v)) (set_i_IPv6PrefixesCnt (b2n v) r)) as [[l2 o] r2]. cbn [snd] in *.
  change (held (set_i_IPv6PrefixesCnt (b2n v) r)) with (held r) in Hk. lia.
Qed.

Ltac past := apply still_bind; [match goal with |- forall r, ?f (snd (?w r)) = _ => change (still f w) end; solve [repeat rest]|intros ?].

Lemma grow_ip_v1 m buf len skip : grows held 255 (s_len buf) (ip_area_v1_W m buf len skip).
Proof.
  unfold ip_area_v1_W. destruct (short _ _ _); [still1|]. cbv zeta. do 3 past.
  apply (counted m buf _ (fun n => prefixes_v1_W m buf len _ n ;> wret true)). intros n _.
  apply grows_end; [|reflexivity]. intros r. pose proof (grow_v1 m buf len n (skip + 4 + 1 + 2) r). lia.
Qed.

Lemma grow_ip_v2 m buf hdr len skip : grows held 255 (s_len buf) (ip_area_v2_W m buf hdr len skip).
Proof.
  unfold ip_area_v2_W. destruct (negb _); [|still1].
  destruct (short _ _ _); [still1|]. cbv zeta. do 3 past.
  apply (counted m buf _ (fun n => let? skip := prefixes_v2_W m buf len _ n in wret (Some skip))). intros n _.
  apply grows_end; [|reflexivity]. intros r. pose proof (grow_v2 m buf len n (skip + 4 + 1 + 2 + 1) r). lia.
Qed.

Definition held_p (p : Proposal) : nat := held (p_IP p).
Definition held_p2 (p : ProposalV2) : nat := held (p2_IP p).

Lemma grow_proposal m buf : grows held_p 255 (s_len buf) (Proposal_W m buf).
Proof.
  unfold Proposal_W. do 3 past. cbv zeta. destruct (_ <? _)%N; [still1|]. do 4 past.
  apply still_bind; [match goal with |- forall r, ?f (snd (?w r)) = _ => change (still f w) end; unfold smcd_v1_W; repeat rest|].
  intros skip. apply grows_end.
  - apply (grows_part _ held); [reflexivity|reflexivity|apply grow_ip_v1].
  - intros go. match goal with |- forall r, ?f (snd (?w r)) = _ => change (still f w) end. repeat rest.
Qed.

Lemma grow_proposalv2 m buf : grows held_p2 255 (s_len buf) (ProposalV2_W m buf).
Proof.
  unfold ProposalV2_W. do 3 past. cbv zeta. destruct (_ <? _)%N; [still1|]. do 8 past.
  apply grows_end.
  - apply (grows_part _ held); [reflexivity|reflexivity|apply grow_ip_v2].
  - intros go. match goal with |- forall r, ?f (snd (?w r)) = _ => change (still f w) end. repeat rest.
Qed.

Lemma prefixes_grow m buf old l o new : Message_W m buf old = (l, o, new) ->
  stored_prefixes old <= stored_prefixes new <= stored_prefixes old + 255 /\
  17 * stored_prefixes new <= 17 * stored_prefixes old + s_len buf.
Proof.
  intros H. destruct old; cbn [Message_W] in H; unfold inside in H.
  3-10: match type of H with context [match ?w with _ => _ end] => destruct w as [[l' o'] r] end;
      injection H as _ _ <-; cbn [stored_prefixes]; lia.
  - pose proof (grow_proposal m buf p) as G. destruct (Proposal_W m buf p) as [[l' o'] r].
    injection H as _ _ <-. exact G.
  - pose proof (grow_proposalv2 m buf p) as G. destruct (ProposalV2_W m buf p) as [[l' o'] r].
    injection H as _ _ <-. exact G.
Qed.

(** ** A Proposal that is parsed into again and again *)

Lemma grown k : exists p, reachable (MProposal p) /\ k <= stored_prefixes (MProposal p).
Proof.
  induction k as [|k (p & Hr & Hk)].
  - exists Proposal_zero. split; [exact (reach_fresh KProposal)|apply Nat.le_0_l].
  - destruct (ClcProposal.Proposal_decode (mem1 sample_proposal_6) (slice1 sample_proposal_6) p) as (q & E & _ & _ & _ & _ & (new & EP & EV) & _).
    + split; apply Nat.leb_le; vm_compute; reflexivity.
    + exact (ClcMessage.reachable_wf _ Hr).
    + apply Nat.leb_le. vm_compute. reflexivity.
    + apply Nat.leb_le. vm_compute. reflexivity.
    + apply Nat.leb_le. vm_compute. reflexivity.
    + exists q. split.
      * eapply reach_parse; [exact Hr| |cbn [Message_Parse]; rewrite E; reflexivity]. split; apply Nat.leb_le; vm_compute; reflexivity.
      * cbn [stored_prefixes] in *. rewrite EP, app_length.
        assert (L : length new = 1) by (rewrite <- (map_length ipv6_prefix_view), EV; vm_compute; reflexivity).
        lia.
Qed.

Lemma text_grows p : length (i_IPv6Prefixes (p_IP p)) <= String.length (Proposal_String p).
Proof.
  assert (H : forall l, length l <= String.length (ipv6_prefixes_string l)).
  { unfold ipv6_prefixes_string. intros l. rewrite cat_size. induction l as [|e l IH]; [apply le_n|].
    cbn [map size length]. rewrite cat_size. cbn [size]. change (String.length ", IPv6 Prefix: ") with 15. lia. }
  specialize (H (i_IPv6Prefixes (p_IP p))). unfold Proposal_String. cbv zeta. rewrite cat_size. cbn [size]. lia.
Qed.

Lemma unbounded n : exists p, reachable (MProposal p) /\ n <= String.length (Message_String (MProposal p)).
Proof. destruct (grown n) as (p & Hr & H). exists p. split; [exact Hr|]. pose proof (text_grows p). cbn [Message_String stored_prefixes] in *. lia. Qed.
