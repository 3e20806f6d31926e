(** * OwnedFacts: proofs about the arrays that Parse makes, one call. *)

From Coq Require Import NArith ZArith Bool String Ascii Arith List Lia.
From Verif Require Import GoBase GoFmt ClcModel LlcModel RoceModel Setters WriteModel LlcWriteModel
  Elsewhere ElsewhereFacts ElsewhereWrite ClcView LlcView LlcParse RecoverRaw HeapModel Owned.
Import ListNotations.
Local Open Scope nat_scope.

#[local] Hint Resolve twins_idx twins_reslice twins_from twins_upto twins_last_n twins_drop_last_n
  both_pair twins_Uint16 twins_Uint32 twins_Uint64 twins_be16 twins_be32 twins_be64 twins_be24
  twins_copy twins_errDump twins_flag twins_masked twins_byte0 : twin.
#[local] Hint Resolve run_Header run_Trailer run_ext run_smcd run_BaseMsg run_RKeyPairs run_RMBSpecs run_rkeys : runs.

Definition cts {R} (x : hs R) (k : nat) : list byte := s_bytes (hm x) (hslot x k).

Lemma fill_prefixes_ext c c' l : (forall k, 3 <= k -> c k = c' k) -> forall i, fill_prefixes c i l = fill_prefixes c' i l.
Proof. intros h. induction l; intros i; cbn [fill_prefixes]; [reflexivity|]. rewrite h, IHl by (unfold sIPv6; lia). reflexivity. Qed.

Lemma fill_ip_ext c c' ip : (forall k, 2 <= k -> c k = c' k) -> fill_ip c ip = fill_ip c' ip.
Proof. intros h. unfold fill_ip. rewrite (fill_prefixes_ext c c'), h by (intros; try apply h; unfold sPrefix; lia). reflexivity. Qed.

Section call.
  (** the memory, the number of arrays and the slices of the object before the call *)
  Context (m0 : mem) (n0 : nat) (sl0 : nat -> slice).
  Context (old_slots : forall k, s_len (sl0 k) = 0 \/ s_arr (sl0 k) < n0).

  (** a slice of an array that existed before the call *)
  Definition inb (s : slice) : Prop := slice_ok m0 s /\ s_arr s < n0.

  (** a slice of an array of its own that the call made *)
  Definition own {R} (x : hs R) (k : nat) : Prop :=
    let s := hslot x k in
    n0 <= s_arr s < hn x /\ s_off s = 0 /\ s_cap s = s_len s /\ length (hm x (s_arr s)) = s_len s /\
    forall j, j <> k -> s_arr (hslot x j) <> s_arr s \/ s_len (hslot x j) = 0.

  Definition inv {R} (x : hs R) : Prop :=
    n0 <= hn x /\ (forall a, a < n0 -> hm x a = m0 a) /\ (forall k, hslot x k = sl0 k \/ own x k).

  (** the object in memory is the object [r]; the first [lo] slices show [c0] *)
  Definition same {R} (ab : (nat -> list byte) -> R -> R) (lo : nat) (c0 : nat -> list byte) (x : hs R) (r : R) : Prop :=
    inv x /\ (forall k, k < lo -> cts x k = c0 k) /\ r = ab (cts x) (hv x).

  Lemma slot_below {R} (x : hs R) k : inv x -> s_len (hslot x k) = 0 \/ s_arr (hslot x k) < hn x.
  Proof.
    intros (L & _ & I). destruct (I k) as [-> | ((_ & O) & _)]; [|auto].
    destruct (old_slots k); [auto|right; lia].
  Qed.

  Lemma agrees_twins {R} (x : hs R) s : inv x -> inb s -> twins (hm x) s m0 s.
  Proof.
    intros (_ & A & _) [O L]. specialize (A _ L). split; [|split; [exact O|]].
    - unfold slice_ok in *. rewrite A. exact O.
    - repeat split. unfold window. rewrite A. reflexivity.
  Qed.

  Lemma inb_reslice s lo hi : inb s -> alike (fun a b => a = b /\ inb a) (reslice s lo hi) (reslice s lo hi).
  Proof.
    intros [[O1 O2] L]. unfold reslice. destruct ((lo <=? hi) && (hi <=? s_cap s)) eqn:E; [|split; [reflexivity|exact I]].
    apply andb_prop in E as [E1 E2]. apply Nat.leb_le in E1, E2.
    split; [reflexivity|]. cbn. split; [reflexivity|]. split; [split; cbn; lia|exact L].
  Qed.

  Lemma inb_from s lo : inb s -> alike (fun a b => a = b /\ inb a) (from s lo) (from s lo).
  Proof. apply inb_reslice. Qed.

  (** ** Steps *)

  Lemma step_onval {R A} (ab : (nat -> list byte) -> R -> R) lo c0 (w : mem -> W R A) w0 :
    (forall m c, (forall s, inb s -> twins m s m0 s) -> runs (fun v r => r = ab c v) eq (w m) w0) ->
    runs (same ab lo c0) eq (onval w) w0.
  Proof.
    intros Hw x r (I & F & E). unfold onval.
    specialize (Hw (hm x) (cts x) (fun s B => agrees_twins x s I B) (hv x) r E).
    destruct (w (hm x) (hv x)) as [[l o] v], (w0 r) as [[l0 o0] r0]. destruct Hw as [Q Hr].
    split; [exact Q|]. split; [exact I|]. split; [exact F|exact Hr].
  Qed.

  Lemma step_lift {R A} (ab : (nat -> list byte) -> R -> R) lo c0 (e : M A) Q : alike Q e e ->
    runs (same ab lo c0) Q (lift e) (lift e).
  Proof. intros E. apply runs_lift, E. Qed.

  Lemma s_bytes_set_arr m a bs s : s_len s = 0 \/ s_arr s <> a -> s_bytes (set_arr m a bs) s = s_bytes m s.
  Proof.
    intros N. unfold s_bytes. destruct N as [-> | N]; [reflexivity|]. unfold set_arr.
    rewrite (proj2 (Nat.eqb_neq _ _) N). reflexivity.
  Qed.

  Lemma set_slot_same sl k s : set_slot sl k s k = s.
  Proof. unfold set_slot. rewrite Nat.eqb_refl. reflexivity. Qed.
  Lemma set_slot_other sl k s j : j <> k -> set_slot sl k s j = sl j.
  Proof. intros N. unfold set_slot. rewrite (proj2 (Nat.eqb_neq _ _) N). reflexivity. Qed.
  Lemma set_arr_same m a bs : set_arr m a bs a = bs.
  Proof. unfold set_arr. rewrite Nat.eqb_refl. reflexivity. Qed.
  Lemma set_arr_other m a bs b : b <> a -> set_arr m a bs b = m b.
  Proof. intros N. unfold set_arr. rewrite (proj2 (Nat.eqb_neq _ _) N). reflexivity. Qed.

  Lemma s_bytes_all m a n : length (m a) = n -> s_bytes m (mkslice a 0 n n) = m a.
  Proof. intros <-. unfold s_bytes. cbn. apply firstn_all. Qed.

  (** a new array with any bytes in slice [k] *)
  Lemma inv_new {R} (x : hs R) (v : R) k n bs : inv x -> length bs = n ->
    let y := mkhs v (set_slot (hslot x) k (mkslice (hn x) 0 n n)) (set_arr (hm x) (hn x) bs) (S (hn x)) in
    inv y /\ (forall j, j <> k -> cts y j = cts x j) /\ cts y k = bs.
  Proof.
    intros I Ln y. pose proof I as (L & A & S). split; [|split].
    - split; [cbn; lia|]. split; [intros a Ha; cbn; rewrite set_arr_other by lia; apply A, Ha|].
      intros j. destruct (Nat.eq_dec j k) as [->|N].
      + right. unfold own. cbn [y hslot hn hm]. rewrite set_slot_same. cbn [s_arr s_off s_len s_cap].
        rewrite set_arr_same. repeat split; try lia.
        intros j N. rewrite set_slot_other by exact N. destruct (slot_below x j I) as [->|B]; [auto|left; lia].
      + cbn [y hslot]. rewrite set_slot_other by exact N. destruct (S j) as [E|(B & O & C & G & U)]; [left; exact E|right].
        unfold own. cbn [y hslot hn hm]. rewrite set_slot_other by exact N. rewrite set_arr_other by lia.
        repeat split; try lia; try assumption. intros i Ni. destruct (Nat.eq_dec i k) as [->|Nk].
        * rewrite set_slot_same. cbn [s_arr]. left. lia.
        * rewrite set_slot_other by exact Nk. apply U, Ni.
    - intros j N. unfold cts. cbn [y hslot hm]. rewrite set_slot_other by exact N. apply s_bytes_set_arr.
      destruct (slot_below x j I) as [->|B]; [auto|right; lia].
    - unfold cts. cbn [y hslot hm]. rewrite set_slot_same. rewrite s_bytes_all; rewrite set_arr_same; [reflexivity|exact Ln].
  Qed.

  (** the state after [make], [copy] *)
  Lemma fresh_copy {R} (x : hs R) (v : R) sl n src : inv x -> inb src ->
    let s := mkslice (hn x) 0 n n in
    let m1 := set_arr (hm x) (hn x) (zeros n) in
    hcopy s src (mkhs v sl m1 (S (hn x))) =
    ([], Done tt, mkhs v sl (set_arr m1 (hn x) (go_copy (zeros n) (s_bytes m0 src))) (S (hn x))).
  Proof.
    intros I B s m1. unfold hcopy. cbn [hm hv hslot hn s s_arr s_off s_len firstn app plus].
    assert (E1 : s_bytes m1 s = zeros n).
    { unfold s, m1. rewrite s_bytes_all; rewrite set_arr_same; [reflexivity|]. apply repeat_length. }
    assert (E2 : s_bytes m1 src = s_bytes m0 src).
    { unfold m1. rewrite s_bytes_set_arr; [apply (twins_bytes _ _ _ _ (agrees_twins x src I B))|].
      right. destruct I as (L & _), B as [_ B]. lia. }
    fold s. rewrite E1, E2. unfold m1 at 2. rewrite set_arr_same, skipn_all2 by (unfold zeros; rewrite repeat_length; lia).
    rewrite app_nil_r. reflexivity.
  Qed.

  Lemma set_arr_set_arr m a b1 b2 c : set_arr (set_arr m a b1) a b2 c = set_arr m a b2 c.
  Proof. unfold set_arr. destruct (c =? a); reflexivity. Qed.

  (** memories that are equal everywhere *)
  Lemma inv_mem {R} v sl m m' n : (forall a, m a = m' a) -> inv (R := R) (mkhs v sl m n) -> inv (mkhs v sl m' n).
  Proof.
    intros E (L & A & S). split; [exact L|]. split; [intros a Ha; cbn in *; rewrite <- E; apply A, Ha|].
    intros k. destruct (S k) as [H|(B & O & C & G & U)]; [left; exact H|right].
    unfold own in *. cbn in *. rewrite <- E. auto.
  Qed.
  Lemma cts_mem {R} v sl m m' n : (forall a, m a = m' a) ->
    forall k, cts (R := R) (mkhs v sl m n) k = cts (mkhs v sl m' n) k.
  Proof. intros E k. unfold cts, s_bytes. cbn. rewrite E. reflexivity. Qed.

  Lemma go_copy_length d s : length (go_copy d s) = length d.
  Proof. unfold go_copy. rewrite app_length, firstn_length, skipn_length. lia. Qed.

  Definition only_contents {R} (ab : (nat -> list byte) -> R -> R) : Prop :=
    forall c c' v, (forall k, c k = c' k) -> ab c v = ab c' v.

  Definition is_slice {R} (ab : (nat -> list byte) -> R -> R) (k : nat) (set : list byte -> R -> R) : Prop :=
    forall c c' v, (forall j, j <> k -> c j = c' j) -> ab c' v = set (c' k) (ab c v).

  Lemma step_maketo {R} (ab : (nat -> list byte) -> R -> R) lo c0 k f set n buf lw hw :
    inb buf -> lo <= k -> is_slice ab k set -> (forall v r, f (set v r) = v) ->
    (forall v v' r, set v (set v' r) = set v r) ->
    runs (same ab lo c0) eq (hmaketo k n buf lw hw) (maketo f set n m0 buf lw hw).
  Proof.
    intros B Lk Sk Fs Ss x r (I & F & E). unfold hmaketo, maketo, copyto, wbind, hmake, hset, hget, get, lift, change.
    cbn [hv hslot hm hn].
    pose proof (inb_reslice buf lw hw B) as Q.
    destruct (inv_new x (hv x) k n (zeros n) I (repeat_length _ _)) as (I1 & O1 & C1).
    destruct (reslice buf lw hw) as [l [src| |]] eqn:ER; cbn [fst snd] in Q |- *.
    - destruct Q as [_ (_ & Bs)]. rewrite set_slot_same. rewrite (fresh_copy x (hv x) _ n src I Bs).
      destruct (inv_new x (hv x) k n (go_copy (zeros n) (s_bytes m0 src)) I) as (I2 & O2 & C2);
        [rewrite go_copy_length; apply repeat_length|].
      split; [split; [rewrite ?app_nil_r; reflexivity|reflexivity]|].
      assert (EM : forall a, set_arr (hm x) (hn x) (go_copy (zeros n) (s_bytes m0 src)) a =
        set_arr (set_arr (hm x) (hn x) (zeros n)) (hn x) (go_copy (zeros n) (s_bytes m0 src)) a).
      { intros a. symmetry. apply set_arr_set_arr. }
      split; [apply (inv_mem _ _ _ _ _ EM), I2|]. split.
      + intros j Hj. rewrite <- (cts_mem _ _ _ _ _ EM). rewrite O2 by lia. apply F, Hj.
      + cbn [hv]. rewrite Fs, Ss, E. symmetry. rewrite (Sk (cts x)).
        * rewrite <- (cts_mem _ _ _ _ _ EM), C2. reflexivity.
        * intros j N. rewrite <- (cts_mem _ _ _ _ _ EM). symmetry. apply O2, N.
    - split; [split; [rewrite ?app_nil_r; reflexivity|exact Logic.I]|]. split; [exact I1|]. split.
      + intros j Hj. rewrite O1 by lia. apply F, Hj.
      + cbn [hv]. rewrite E. symmetry. rewrite (Sk (cts x)); [rewrite C1; reflexivity|]. intros j N. symmetry. apply O1, N.
    - split; [split; [rewrite ?app_nil_r; reflexivity|exact Logic.I]|]. split; [exact I1|]. split.
      + intros j Hj. rewrite O1 by lia. apply F, Hj.
      + cbn [hv]. rewrite E. symmetry. rewrite (Sk (cts x)); [rewrite C1; reflexivity|]. intros j N. symmetry. apply O1, N.
  Qed.

  Lemma step_keep {R} (ab : (nat -> list byte) -> R -> R) lo c0 k set buf :
    inb buf -> lo <= k -> is_slice ab k set ->
    runs (same ab lo c0) eq (hkeep k buf) (change (set (go_copy (zeros (s_len buf)) (s_bytes m0 buf)))).
  Proof.
    intros B Lk Sk x r (I & F & E). unfold hkeep, wbind, hmake, hset, hget, get, change.
    cbn [hv hslot hm hn]. rewrite set_slot_same. rewrite (fresh_copy x (hv x) _ (s_len buf) buf I B).
    set (bs := go_copy (zeros (s_len buf)) (s_bytes m0 buf)).
    destruct (inv_new x (hv x) k (s_len buf) bs I) as (I2 & O2 & C2);
      [unfold bs; rewrite go_copy_length; apply repeat_length|].
    split; [split; reflexivity|].
    assert (EM : forall a, set_arr (hm x) (hn x) bs a =
      set_arr (set_arr (hm x) (hn x) (zeros (s_len buf))) (hn x) bs a).
    { intros a. symmetry. apply set_arr_set_arr. }
    split; [apply (inv_mem _ _ _ _ _ EM), I2|]. split.
    + intros j Hj. rewrite <- (cts_mem _ _ _ _ _ EM). rewrite O2 by lia. apply F, Hj.
    + cbn [hv]. rewrite E. symmetry. rewrite (Sk (cts x)).
      * rewrite <- (cts_mem _ _ _ _ _ EM), C2. reflexivity.
      * intros j N. rewrite <- (cts_mem _ _ _ _ _ EM). symmetry. apply O2, N.
  Qed.

  Lemma step_part {R S A} (ab : (nat -> list byte) -> R -> R) (abS : (nat -> list byte) -> S -> S) lo c0 hi f set
      (w : H S A) w0 (Q : A -> A -> Prop) :
    (forall c0, runs (same abS hi c0) Q w w0) -> lo <= hi ->
    (forall c v, f (ab c v) = abS c (f v)) ->
    (forall c c' s v, (forall k, k < hi -> c k = c' k) -> ab c' (set s v) = set (abS c' s) (ab c v)) ->
    runs (same ab lo c0) Q (hpart f set w) (part f set w0).
  Proof.
    intros Hw L Hf Hset x r (I & F & E). unfold hpart, part.
    set (x1 := mkhs (f (hv x)) (hslot x) (hm x) (hn x)).
    specialize (Hw (cts x) x1 (f r)).
    assert (I1 : same abS hi (cts x) x1 (f r)).
    { split; [exact I|]. split; [reflexivity|]. rewrite E, Hf. reflexivity. }
    specialize (Hw I1). destruct (w x1) as [[l o] y], (w0 (f r)) as [[l0 o0] s0]. destruct Hw as [HQ (I2 & F2 & E2)].
    split; [exact HQ|]. split; [exact I2|]. split.
    - intros k Hk. rewrite <- F by exact Hk. unfold cts in F2 at 1. unfold cts at 1. cbn [hm hslot]. apply F2. lia.
    - cbn [hv]. rewrite E, E2. symmetry. apply (Hset (cts x)). intros k Hk. symmetry. apply F2, Hk.
  Qed.

  (** ** The tactic *)

  Ltac fields := intros; subst; reflexivity.

  (** one piece of code that makes no array *)
  Ltac piece := apply step_onval; let m := fresh "m" in let c := fresh "c" in let Tw := fresh "Tw" in
    intros m c Tw;
    repeat match goal with B : inb ?s |- _ => let T := fresh "T" in pose proof (Tw s B) as T; clear B end;
    cbv beta;
    repeat wstep fields.


  Ltac outer := cbv beta zeta; match goal with
    | |- runs _ _ (wbind (lift (from _ _)) _) _ =>
        eapply runs_bind; [apply step_lift, inb_from; assumption|
          let s := fresh "buf" in let E := fresh in intros s ? (E & ?); subst]
    | |- runs _ _ (wbind (onval _) _) _ => eapply runs_bind; [piece|intros ? ? ?; subst]
    | |- runs _ _ (wbind (hmaketo _ _ _ _ _) _) _ =>
        eapply runs_bind; [apply step_maketo; [assumption|auto with arith| |reflexivity|reflexivity]|intros ? ? _]
    | |- runs _ _ (if ?c then _ else _) (if ?c then _ else _) => destruct c
    | |- runs _ _ (onval _) _ => piece
    | |- runs _ _ (wret _) _ => apply runs_ret; reflexivity
    end.

  (** ** SMC-R Accept and Confirm *)

  Lemma ar_0 : is_slice fill_ar sIBGID set_ar_IBGID.
  Proof. intros c c' v h. unfold fill_ar. rewrite (h sIBMAC) by discriminate. destruct v; reflexivity. Qed.
  Lemma ar_1 : is_slice fill_ar sIBMAC set_ar_IBMAC.
  Proof. intros c c' v h. unfold fill_ar. rewrite (h sIBGID) by discriminate. destruct v; reflexivity. Qed.
  #[local] Hint Resolve ar_0 ar_1 : core.

  Lemma AcceptSMCR_sim c0 buf : inb buf -> runs (same fill_ar 0 c0) eq (AcceptSMCR_H buf) (AcceptSMCR_W m0 buf).
  Proof. intros B. unfold AcceptSMCR_H, AcceptSMCR_W. repeat outer; auto. Qed.

  (** ** Proposals *)

  Lemma ip_2 : is_slice fill_ip sPrefix set_i_Prefix.
  Proof.
    intros c c' v h. unfold fill_ip. rewrite (fill_prefixes_ext c' c); [reflexivity|].
    intros k Hk. symmetry. apply h. unfold sPrefix. lia.
  Qed.
  Lemma p_0 : is_slice fill_p sIBGID set_p_IBGID.
  Proof.
    intros c c' v h. unfold fill_p. rewrite (h sIBMAC) by discriminate. rewrite (fill_ip_ext c c'); [reflexivity|].
    intros k Hk. apply h. unfold sIBGID. lia.
  Qed.
  Lemma p_1 : is_slice fill_p sIBMAC set_p_IBMAC.
  Proof.
    intros c c' v h. unfold fill_p. rewrite (h sIBGID) by discriminate. rewrite (fill_ip_ext c c'); [reflexivity|].
    intros k Hk. apply h. unfold sIBMAC. lia.
  Qed.
  Lemma p2_0 : is_slice fill_p2 sIBGID set_p2_IBGID.
  Proof.
    intros c c' v h. unfold fill_p2. rewrite (h sIBMAC) by discriminate. rewrite (fill_ip_ext c c'); [reflexivity|].
    intros k Hk. apply h. unfold sIBGID. lia.
  Qed.
  Lemma p2_1 : is_slice fill_p2 sIBMAC set_p2_IBMAC.
  Proof.
    intros c c' v h. unfold fill_p2. rewrite (h sIBGID) by discriminate. rewrite (fill_ip_ext c c'); [reflexivity|].
    intros k Hk. apply h. unfold sIBMAC. lia.
  Qed.
  #[local] Hint Resolve ip_2 p_0 p_1 p2_0 p2_1 : core.

  Lemma fill_prefixes_app c l e : forall i, fill_prefixes c i (l ++ [e]) =
    fill_prefixes c i l ++ [mkIPv6Prefix (c (sIPv6 (i + length l))) (ip6_prefixLen e)].
  Proof.
    induction l; intros i; cbn [fill_prefixes app length]; [rewrite Nat.add_0_r; reflexivity|].
    rewrite IHl, <- plus_n_Sm. reflexivity.
  Qed.

  Lemma fill_prefixes_below c c' l : forall i, (forall j, j < i + length l -> c (sIPv6 j) = c' (sIPv6 j)) ->
    fill_prefixes c i l = fill_prefixes c' i l.
  Proof.
    induction l; intros i h; cbn [fill_prefixes length] in *; [reflexivity|].
    rewrite h, IHl by (intros; try apply h; lia). reflexivity.
  Qed.

  (** a new array that no slice of the object refers to *)
  Lemma inv_alloc {R} (x : hs R) (v : R) bs : inv x ->
    let y := mkhs v (hslot x) (set_arr (hm x) (hn x) bs) (S (hn x)) in
    inv y /\ (forall j, cts y j = cts x j).
  Proof.
    intros I y. pose proof I as (L & A & S). split.
    - split; [cbn; lia|]. split; [intros a Ha; cbn; rewrite set_arr_other by lia; apply A, Ha|].
      intros j. cbn [y hslot]. destruct (S j) as [E|(B & O & C & G & U)]; [left; exact E|right].
      unfold own. cbn [y hslot hn hm]. rewrite set_arr_other by lia. repeat split; try lia; try assumption.
    - intros j. unfold cts. cbn [y hslot hm]. apply s_bytes_set_arr.
      destruct (slot_below x j I) as [->|B]; [auto|right; lia].
  Qed.

  (** one prefix *)
  Lemma prefix_sim lo c0 buf skip : inb buf -> lo <= 3 ->
    runs (same fill_ip lo c0) eq (prefix_H buf skip)
      (let? prefix := lift (copy_from m0 (zeros 16) buf skip (skip + 16)) in
       let? plen := lift (idx m0 buf (skip + 16)) in
       change (fun ip => set_i_IPv6Prefixes (i_IPv6Prefixes ip ++ [mkIPv6Prefix prefix (b2n plen)]) ip)).
  Proof.
    intros B L x r (I & F & E). unfold prefix_H, wbind, hmake, lift, copy_from, onval, get, change, hset.
    cbn [hv hslot hm hn].
    pose proof (inb_reslice buf skip (skip + 16) B) as Q.
    destruct (inv_alloc x (hv x) (zeros 16) I) as (I1 & O1).
    destruct (reslice buf skip (skip + 16)) as [l [src| |]] eqn:ER; cbn [fst snd bind ret] in Q |- *.
    2, 3: split; [split; [rewrite ?app_nil_r; reflexivity|exact Logic.I]|]; split; [exact I1|]; split;
      [intros j Hj; rewrite O1; apply F, Hj|cbn [hv]; rewrite E; apply fill_ip_ext; intros; symmetry; apply O1].
    destruct Q as [_ (_ & Bs)]. rewrite (fresh_copy x (hv x) (hslot x) 16 src I Bs). cbn [hv hslot hm hn].
    set (bs := go_copy (zeros 16) (s_bytes m0 src)).
    assert (Lb : length bs = 16) by (unfold bs; rewrite go_copy_length; reflexivity).
    set (m2 := set_arr (set_arr (hm x) (hn x) (zeros 16)) (hn x) bs).
    assert (EM : forall a, set_arr (hm x) (hn x) bs a = m2 a).
    { intros a. symmetry. apply set_arr_set_arr. }
    destruct (inv_alloc x (hv x) bs I) as (I2 & O2).
    assert (I2' := inv_mem _ _ _ _ _ EM I2). assert (O2' := cts_mem (hv x) (hslot x) _ _ (S (hn x)) EM).
    assert (EI : idx m2 buf (skip + 16) = idx m0 buf (skip + 16)).
    { apply alike_eq, twins_idx. apply (agrees_twins _ buf I2' B). }
    rewrite EI. destruct (idx m0 buf (skip + 16)) as [l2 [b| |]]; cbn [fst snd].
    2, 3: split; [split; [rewrite ?app_nil_r; reflexivity|exact Logic.I]|]; split; [exact I2'|]; split;
      [intros j Hj; rewrite <- O2', O2; apply F, Hj|cbn [hv]; rewrite E; apply fill_ip_ext; intros;
        rewrite <- O2'; symmetry; apply O2].
    split; [split; [rewrite ?app_nil_r; reflexivity|reflexivity]|].
    set (n := length (i_IPv6Prefixes (hv x))).
    set (v' := set_i_IPv6Prefixes (i_IPv6Prefixes (hv x) ++ [mkIPv6Prefix [] (b2n b)]) (hv x)).
    destruct (inv_new x v' (sIPv6 n) 16 bs I Lb) as (I3 & O3 & C3).
    assert (O3' := cts_mem v' (set_slot (hslot x) (sIPv6 n) (mkslice (hn x) 0 16 16)) _ _ (S (hn x)) EM).
    split; [apply (inv_mem _ _ _ _ _ EM), I3|]. split.
    - intros j Hj. rewrite <- O3', O3 by (unfold sIPv6; lia). apply F, Hj.
    - cbn [hv]. subst r. fold v'.
      set (y := mkhs v' (set_slot (hslot x) (sIPv6 n) (mkslice (hn x) 0 16 16)) m2 (S (hn x))).
      assert (P2 : cts y sPrefix = cts x sPrefix) by (unfold y; rewrite <- O3'; apply O3; discriminate).
      assert (PN : cts y (sIPv6 n) = bs) by (unfold y; rewrite <- O3'; exact C3).
      assert (PR : fill_prefixes (cts y) 0 (i_IPv6Prefixes (hv x)) = fill_prefixes (cts x) 0 (i_IPv6Prefixes (hv x))).
      { apply fill_prefixes_below. intros j Hj. unfold y. rewrite <- O3'. apply O3. unfold sIPv6, n. cbn in Hj. lia. }
      unfold fill_ip. rewrite P2. unfold v'. cbn [i_IPv6Prefixes set_i_IPv6Prefixes set_i_Prefix].
      rewrite fill_prefixes_app, PR. cbn [plus ip6_prefixLen]. fold n. rewrite PN. reflexivity.
  Qed.

  Lemma wbind_assoc3 {R A B C} (x : W R A) (y : A -> W R B) (z : B -> W R C) r :
    wbind (wbind x y) z r = wbind x (fun a => wbind (y a) z) r.
  Proof.
    unfold wbind. destruct (x r) as [[l [a| |]] r1]; try reflexivity.
    destruct (y a r1) as [[l2 [b| |]] r2]; try reflexivity.
    destruct (z b r2) as [[l3 o] r3]. rewrite app_assoc. reflexivity.
  Qed.

  Lemma wbind_ext {R A B} (x : W R A) (y z : A -> W R B) r : (forall a r, y a r = z a r) -> wbind x y r = wbind x z r.
  Proof. intros h. unfold wbind. destruct (x r) as [[l [a| |]] r1]; try reflexivity. rewrite h. reflexivity. Qed.

  Lemma runs_right {R1 R2 A1 A2} (S : R1 -> R2 -> Prop) (Q : A1 -> A2 -> Prop) w1 w2 w2' :
    (forall r, w2 r = w2' r) -> runs S Q w1 w2 -> runs S Q w1 w2'.
  Proof. intros E h r1 r2 HS. rewrite <- E. apply h, HS. Qed.

  Lemma prefixes_v1_sim lo c0 buf len : inb buf -> lo <= 3 -> forall n skip,
    runs (same fill_ip lo c0) eq (prefixes_v1_H buf len skip n) (prefixes_v1_W m0 buf len skip n).
  Proof.
    intros B L. induction n; intros skip; cbn [prefixes_v1_H prefixes_v1_W]; [apply runs_ret; reflexivity|].
    cbv zeta. destruct (short _ _ _); [piece|].
    eapply runs_right; [|eapply runs_bind; [apply prefix_sim; assumption|intros ? ? _; apply IHn]].
    intros r. rewrite wbind_assoc3. apply wbind_ext. intros a r1. rewrite wbind_assoc3. reflexivity.
  Qed.

  Lemma prefixes_v2_sim lo c0 buf len : inb buf -> lo <= 3 -> forall n skip,
    runs (same fill_ip lo c0) eq (prefixes_v2_H buf len skip n) (prefixes_v2_W m0 buf len skip n).
  Proof.
    intros B L. induction n; intros skip; cbn [prefixes_v2_H prefixes_v2_W]; [apply runs_ret; reflexivity|].
    cbv zeta. destruct (short _ _ _); [repeat outer|].
    eapply runs_right; [|eapply runs_bind; [apply prefix_sim; assumption|intros ? ? _; apply IHn]].
    intros r. rewrite wbind_assoc3. apply wbind_ext. intros a r1. rewrite wbind_assoc3. reflexivity.
  Qed.

  Lemma ip_area_v1_sim c0 buf len skip : inb buf ->
    runs (same fill_ip 2 c0) eq (ip_area_v1_H buf len skip) (ip_area_v1_W m0 buf len skip).
  Proof.
    intros B. unfold ip_area_v1_H, ip_area_v1_W. repeat outer; auto.
    eapply runs_bind; [apply prefixes_v1_sim; [exact B|lia]|intros ? ? _; apply runs_ret; reflexivity].
  Qed.

  Lemma ip_area_v2_sim c0 buf hdr len skip : inb buf ->
    runs (same fill_ip 2 c0) eq (ip_area_v2_H buf hdr len skip) (ip_area_v2_W m0 buf hdr len skip).
  Proof.
    intros B. unfold ip_area_v2_H, ip_area_v2_W. repeat outer; auto.
    eapply runs_bind; [apply prefixes_v2_sim; [exact B|lia]|intros ? ? ->; apply runs_ret; reflexivity].
  Qed.

  Lemma smcd_v1_run m buf skip c : twins m buf m0 buf ->
    runs (fun v r => r = fill_p c v) eq (smcd_v1_W m buf skip) (smcd_v1_W m0 buf skip).
  Proof. intros T. unfold smcd_v1_W. repeat wstep fields. Qed.
  #[local] Hint Resolve smcd_v1_run : runs.

  Lemma Proposal_sim c0 buf : inb buf -> runs (same fill_p 0 c0) eq (Proposal_H buf) (Proposal_W m0 buf).
  Proof.
    intros B. unfold Proposal_H, Proposal_W. repeat outer; auto.
    eapply runs_bind.
    - apply (step_part fill_p fill_ip 0 c0 2); [intros; apply ip_area_v1_sim, B|lia|reflexivity|].
      intros c c' s v h. unfold fill_p. rewrite (h sIBGID), (h sIBMAC) by (unfold sIBGID, sIBMAC; lia). reflexivity.
    - intros ? ? <-. repeat outer.
  Qed.

  Lemma ProposalV2_sim c0 buf : inb buf -> runs (same fill_p2 0 c0) eq (ProposalV2_H buf) (ProposalV2_W m0 buf).
  Proof.
    intros B. unfold ProposalV2_H, ProposalV2_W. repeat outer; auto.
    eapply runs_bind.
    - apply (step_part fill_p2 fill_ip 0 c0 2); [intros; apply ip_area_v2_sim, B|lia|reflexivity|].
      intros c c' s v h. unfold fill_p2. rewrite (h sIBGID), (h sIBMAC) by (unfold sIBGID, sIBMAC; lia). reflexivity.
    - intros [skip|] ? <-; [|apply runs_ret; reflexivity]. outer.
      match goal with o : option nat |- _ => destruct o end; [|apply runs_ret; reflexivity]. repeat outer.
  Qed.

  (** ** Messages with Raw *)

  Definition is_base {R} (f : R -> BaseMsg) (set : BaseMsg -> R -> R) : Prop :=
    (forall b r, f (set b r) = b) /\ (forall b b' r, set b (set b' r) = set b r).

  (** BaseMsg in a message of type [R] *)
  Lemma BaseMsg_sim {R} (ab : (nat -> list byte) -> R -> R) c0 f set buf : inb buf -> is_base f set ->
    is_slice ab sRaw (fun bs r => set (set_b_Raw bs (f r)) r) ->
    (forall c v, f (ab c v) = fill_base c (f v)) ->
    (forall c v b, ab c (set b v) = set (fill_base c b) (ab c v)) ->
    runs (same ab 0 c0) eq (BaseMsg_H f set buf) (part f set (BaseMsg_W m0 buf)).
  Proof.
    intros B (F1 & F2) Sl F4 F5.
    eapply (runs_right _ _ _
      (change (fun r => set (set_b_Raw (setRaw m0 buf) (f r)) r) ;>
       assign (fun v r => set (set_b_Type v (f r)) r) (byte0 m0 buf) ;>
       let? buf := lift (from buf 1) in
       assign (fun v r => set (set_b_Length v (f r)) r) (byte0 m0 buf))).
    { intros r. unfold BaseMsg_W, part, assign, wbind, change, lift.
      destruct (byte0 m0 buf) as [l [t| |]]; cbn [fst snd app]; try reflexivity.
      destruct (from buf 1) as [l1 [b1| |]]; cbn [fst snd app]; try (rewrite ?F1, ?F2; reflexivity).
      destruct (byte0 m0 b1) as [l2 [b2| |]]; cbn [fst snd app]; rewrite ?F1, ?F2; reflexivity. }
    unfold BaseMsg_H.
    eapply runs_bind;
      [apply (step_keep ab 0 c0 sRaw (fun bs r => set (set_b_Raw bs (f r)) r) buf); [exact B|lia|exact Sl]|intros ? ? _].
    assert (G1 : forall c v t, set (set_b_Type t (f (ab c v))) (ab c v) = ab c (set (set_b_Type t (f v)) v))
      by (intros; rewrite F4, F5; reflexivity).
    assert (G2 : forall c v t, set (set_b_Length t (f (ab c v))) (ab c v) = ab c (set (set_b_Length t (f v)) v))
      by (intros; rewrite F4, F5; reflexivity).
    eapply runs_bind; [|intros ? ? _; eapply runs_bind; [apply step_lift, inb_from, B|intros b ? (<- & B1)]].
    - apply step_onval. intros m c Tw. apply runs_assign; [auto with twin|]. intros v ? ? ->. apply G1.
    - apply step_onval. intros m c Tw. apply runs_assign; [auto with twin|]. intros v ? ? ->. apply G2.
  Qed.

  Lemma al_0 : is_slice fill_al sRaw (fun bs r => set_al_Base (set_b_Raw bs (al_Base r)) r).
  Proof. intros c c' v h. unfold fill_al. rewrite (h sSenderMAC), (h sSenderGID) by discriminate. reflexivity. Qed.
  Lemma al_1 : is_slice fill_al sSenderMAC set_al_SenderMAC.
  Proof. intros c c' v h. unfold fill_al, fill_base. rewrite (h sRaw), (h sSenderGID) by discriminate. reflexivity. Qed.
  Lemma al_2 : is_slice fill_al sSenderGID set_al_SenderGID.
  Proof. intros c c' v h. unfold fill_al, fill_base. rewrite (h sRaw), (h sSenderMAC) by discriminate. reflexivity. Qed.
  Lemma cl_0 : is_slice fill_cl sRaw (fun bs r => set_cl_Base (set_b_Raw bs (cl_Base r)) r).
  Proof. intros c c' v h. unfold fill_cl. rewrite (h sSenderMAC), (h sSenderGID) by discriminate. reflexivity. Qed.
  Lemma cl_1 : is_slice fill_cl sSenderMAC set_cl_SenderMAC.
  Proof. intros c c' v h. unfold fill_cl, fill_base. rewrite (h sRaw), (h sSenderGID) by discriminate. reflexivity. Qed.
  Lemma cl_2 : is_slice fill_cl sSenderGID set_cl_SenderGID.
  Proof. intros c c' v h. unfold fill_cl, fill_base. rewrite (h sRaw), (h sSenderMAC) by discriminate. reflexivity. Qed.
  #[local] Hint Resolve al_1 al_2 cl_1 cl_2 : core.

  Lemma AddLink_sim c0 buf : inb buf -> runs (same fill_al 0 c0) eq (AddLink_H buf) (AddLink_W m0 buf).
  Proof.
    intros B. unfold AddLink_H, AddLink_W. eapply runs_bind.
    - apply BaseMsg_sim; [exact B|split; reflexivity|exact al_0|reflexivity|reflexivity].
    - intros ? ? _. repeat outer; auto.
  Qed.

  Lemma ConfirmLink_sim c0 buf : inb buf -> runs (same fill_cl 0 c0) eq (ConfirmLink_H buf) (ConfirmLink_W m0 buf).
  Proof.
    intros B. unfold ConfirmLink_H, ConfirmLink_W. eapply runs_bind.
    - apply BaseMsg_sim; [exact B|split; reflexivity|exact cl_0|reflexivity|reflexivity].
    - intros ? ? _. repeat outer; auto.
  Qed.

  Lemma raw_first_sim {R} (getr : R -> list byte) (setr : list byte -> R -> R) (w : mem -> W R unit) c0 buf :
    inb buf ->
    (forall m, twins m buf m0 buf -> forall r, w m r = w m0 r) ->
    (forall v r, w m0 (setr v r) = w m0 r) ->
    (forall r, getr (snd (w m0 r)) = s_bytes m0 buf) ->
    (forall r, setr (getr r) r = r) -> (forall u v r, setr u (setr v r) = setr u r) ->
    runs (same (fun c r => setr (c sRaw) r) 0 c0) eq (raw_first buf w (setr [])) (w m0).
  Proof.
    intros B Hm Hi Hr Sg Ss x r S. unfold raw_first.
    assert (K : is_slice (fun c r => setr (c sRaw) r) sRaw setr) by (intros c c' v _; symmetry; apply Ss).
    pose proof (step_keep _ 0 c0 sRaw setr buf B (Nat.le_0_l _) K x r S) as Hk. unfold wbind.
    unfold hkeep, wbind, hmake, hset, hget, get, change in Hk |- *. cbn [hv hslot hm hn] in Hk |- *.
    rewrite set_slot_same in Hk |- *. destruct S as (I & F & E).
    rewrite (fresh_copy x (hv x) _ (s_len buf) buf I B) in Hk |- *. destruct Hk as (_ & (I2 & _ & E2)).
    unfold onval. cbn [hm hv hslot hn] in *.
    set (y := mkhs (hv x) _ _ _) in *.
    change (set_arr _ _ _) with (hm y). rewrite (Hm _ (agrees_twins y buf I2 B)).
    assert (EC : cts y sRaw = s_bytes m0 buf).
    { fold (setRaw m0 buf) in *. rewrite <- (setRaw_bytes m0 buf (proj1 B)). unfold cts, y. cbn [hslot hm].
      rewrite set_slot_same, s_bytes_all; rewrite set_arr_same; [reflexivity|]. unfold setRaw. rewrite go_copy_length. apply repeat_length. }
    replace (w m0 r) with (w m0 (hv x)) by (rewrite E; symmetry; apply Hi).
    specialize (Hr (hv x)). destruct (w m0 (hv x)) as [[l o] r1]. cbn [snd] in Hr.
    split; [split; [reflexivity|destruct o as [[]| |]; exact Logic.I || reflexivity]|]. split; [exact I2|]. split; [intros j Hj; inversion Hj|].
    cbn [hv]. rewrite Ss. change (cts _ sRaw) with (cts y sRaw). rewrite EC, <- Hr. symmetry. apply Sg.
  Qed.

  (** ** Any message *)

  Lemma hinside_sim {R} (con : R -> thing) (ab : (nat -> list byte) -> R -> R) (w : H R unit) (w0 : W R unit) v x c0 :
    (forall c0, runs (same ab 0 c0) eq w w0) -> (forall c v, fill c (con v) = con (ab c v)) -> inv x ->
    let '(l1, o1, y) := hinside con w v x in
    let '(l2, o2, r) := (let '(l, o, r) := w0 (ab (cts x) v) in (l, o, con r)) in
    alike eq (l1, o1) (l2, o2) /\ same fill 0 c0 y r.
  Proof.
    intros Hw Hf I. unfold hinside. set (x1 := mkhs v (hslot x) (hm x) (hn x)).
    assert (S1 : same ab 0 (cts x) x1 (ab (cts x) v)) by (split; [exact I|]; split; reflexivity).
    specialize (Hw (cts x) x1 _ S1). destruct (w x1) as [[l1 o1] y], (w0 (ab (cts x) v)) as [[l2 o2] r].
    destruct Hw as (Q & (I2 & _ & E2)). split; [exact Q|]. split; [exact I2|]. split; [intros j Hj; inversion Hj|].
    cbn [hv]. rewrite Hf, E2. reflexivity.
  Qed.

  Lemma first_same {R A B} (a : W R A) (k : A -> W R B) r1 r2 : a r1 = a r2 -> wbind a k r1 = wbind a k r2.
  Proof. intros E. unfold wbind. rewrite E. reflexivity. Qed.

  Lemma linside_inj {R} (con : R -> LLCMessage) (w1 w2 : W R unit) r : (forall a b, con a = con b -> a = b) ->
    linside con w1 r = linside con w2 r -> w1 r = w2 r.
  Proof.
    intros Hc. unfold linside. destruct (w1 r) as [[l1 o1] r1], (w2 r) as [[l2 o2] r2]. intros E. injection E as -> -> E.
    rewrite (Hc _ _ E). reflexivity.
  Qed.

  Ltac raw_sim B con f set := apply (raw_first_sim (fun r => b_Raw (f r)) (fun bs r => set (set_b_Raw bs (f r)) r));
    [ exact B
    | intros m (O1 & O2 & Sw) r; apply (linside_inj con); [intros ? ? [=]; assumption|];
      exact (proj1 (llc_write_elsewhere _ _ _ _ O1 O2 Sw) (con r))
    | intros v r; apply first_same; reflexivity
    | intros r; match goal with |- context [snd (?w _ ?b ?r)] =>
        pose proof (LLC_W_bytes m0 b (proj1 B) (con r)) as Hb; cbn [LLC_W] in Hb; unfold linside in Hb;
        destruct (w m0 b r) as [[l o] r1]; exact (Hb _ _ _ eq_refl) end
    | intros r; destruct r as [[]]; reflexivity
    | reflexivity ].

  Lemma AddLinkCont_sim c0 buf : inb buf ->
    runs (same (fun c r => set_ac_Base (fill_base c (ac_Base r)) r) 0 c0) eq
      (raw_first buf (fun m => AddLinkCont_W m buf) (fun r => set_ac_Base (no_raw (ac_Base r)) r)) (AddLinkCont_W m0 buf).
  Proof. intros B. raw_sim B LAddLinkCont ac_Base set_ac_Base. Qed.

  Lemma DeleteLink_sim c0 buf : inb buf ->
    runs (same (fun c r => set_dl_Base (fill_base c (dl_Base r)) r) 0 c0) eq
      (raw_first buf (fun m => DeleteLink_W m buf) (fun r => set_dl_Base (no_raw (dl_Base r)) r)) (DeleteLink_W m0 buf).
  Proof. intros B. raw_sim B LDeleteLink dl_Base set_dl_Base. Qed.

  Lemma ConfirmRKey_sim c0 buf : inb buf ->
    runs (same (fun c r => set_ck_Base (fill_base c (ck_Base r)) r) 0 c0) eq
      (raw_first buf (fun m => ConfirmRKey_W m buf) (fun r => set_ck_Base (no_raw (ck_Base r)) r)) (ConfirmRKey_W m0 buf).
  Proof. intros B. raw_sim B LConfirmRKey ck_Base set_ck_Base. Qed.

  Lemma ConfirmRKeyCont_sim c0 buf : inb buf ->
    runs (same (fun c r => set_cc_Base (fill_base c (cc_Base r)) r) 0 c0) eq
      (raw_first buf (fun m => ConfirmRKeyCont_W m buf) (fun r => set_cc_Base (no_raw (cc_Base r)) r)) (ConfirmRKeyCont_W m0 buf).
  Proof. intros B. raw_sim B LConfirmRKeyCont cc_Base set_cc_Base. Qed.

  Lemma deleteRKey_sim c0 buf : inb buf ->
    runs (same (fun c r => set_dk_Base (fill_base c (dk_Base r)) r) 0 c0) eq
      (raw_first buf (fun m => deleteRKey_W m buf) (fun r => set_dk_Base (no_raw (dk_Base r)) r)) (deleteRKey_W m0 buf).
  Proof. intros B. raw_sim B LDeleteRKey dk_Base set_dk_Base. Qed.

  Lemma TestLink_sim c0 buf : inb buf ->
    runs (same (fun c r => set_tl_Base (fill_base c (tl_Base r)) r) 0 c0) eq
      (raw_first buf (fun m => TestLink_W m buf) (fun r => set_tl_Base (no_raw (tl_Base r)) r)) (TestLink_W m0 buf).
  Proof. intros B. raw_sim B LTestLink tl_Base set_tl_Base. Qed.

  Lemma CDC_sim c0 buf : inb buf ->
    runs (same (fun c r => set_c_Base (fill_base c (c_Base r)) r) 0 c0) eq
      (raw_first buf (fun m => CDC_W m buf) (fun r => set_c_Base (no_raw (c_Base r)) r)) (CDC_W m0 buf).
  Proof. intros B. raw_sim B LCDC c_Base set_c_Base. Qed.

  Lemma Other_sim c0 buf : inb buf ->
    runs (same (fun c r => set_o_Base (fill_base c (o_Base r)) r) 0 c0) eq
      (raw_first buf (fun m => Other_W m buf) (fun r => set_o_Base (no_raw (o_Base r)) r)) (Other_W m0 buf).
  Proof. intros B. raw_sim B LOther o_Base set_o_Base. Qed.

  Lemma BTH_sim c0 buf : inb buf ->
    runs (same (fun c r => set_bth_Raw (c sRaw) r) 0 c0) eq
      (raw_first buf (fun m => BTH_W m buf) (set_bth_Raw [])) (BTH_W m0 buf).
  Proof.
    intros B. apply (raw_first_sim bth_Raw set_bth_Raw (fun m => BTH_W m buf)).
    - exact B.
    - intros m (O1 & O2 & Sw) r. exact (proj2 (llc_write_elsewhere _ _ _ _ O1 O2 Sw) r).
    - intros v r. apply first_same. reflexivity.
    - intros r. apply BTH_W_bytes, (proj1 B).
    - intros []. reflexivity.
    - reflexivity.
  Qed.

  (** CLC messages without slices other than Raw *)
  Lemma clc_same m buf msg : twins m buf m0 buf -> Message_W m buf msg = Message_W m0 buf msg.
  Proof.
    intros (O1 & O2 & Sw). pose proof (clc_write_elsewhere _ _ _ _ msg O1 O2 Sw) as E.
    destruct (Message_W m buf msg) as [[l1 o1] n1], (Message_W m0 buf msg) as [[l2 o2] n2].
    destruct E as (-> & -> & E1 & E2 & <-). do 2 f_equal.
    destruct n1 as [[]|[]|[]|[]|[]|[[]]|[[]]|[[]]|[]|[]]; cbn in E1; rewrite E1 in *; reflexivity.
  Qed.

  Ltac obj I h := generalize (h (fun _ _ => eq_refl) I); cbn [fill Thing_W Message_W LLC_W];
    unfold inside, linside; cbv beta; cbn [cr_Accept];
    match goal with |- context [?w m0 ?b ?a] => destruct (w m0 b a) as [[? ?] ?] end; exact (fun z => z).

  Ltac plain x I B := unfold hinside, onval; cbn [hm hv hslot hn fill Thing_W];
    rewrite (clc_same _ _ _ (agrees_twins x _ I B)); cbn [Message_W]; unfold inside;
    match goal with |- context [?w m0 ?b ?a] => destruct (w m0 b a) as [[? ?] ?] end;
    split; [apply alike_refl|]; split; [exact I|]; split; [intros j Hj; inversion Hj|reflexivity].

  Theorem Parse_sim x buf : inv x -> inb buf ->
    let '(l1, o1, y) := Parse_H buf x in
    let '(l2, o2, r) := Thing_W m0 buf (fill (cts x) (hv x)) in
    l1 = l2 /\ o1 = o2 /\ r = fill (cts y) (hv y) /\ inv y.
  Proof.
    intros I B.
    cut (let '(l1, o1, y) := Parse_H buf x in let '(l2, o2, r) := Thing_W m0 buf (fill (cts x) (hv x)) in
      alike eq (l1, o1) (l2, o2) /\ same fill 0 (cts x) y r).
    { destruct (Parse_H buf x) as [[l1 o1] y], (Thing_W _ _ _) as [[l2 o2] r]. intros ((E1 & E2) & (I2 & _ & E3)).
      cbn in E1, E2. repeat split; try assumption; try apply I2. destruct o1, o2; try contradiction; subst; reflexivity. }
    unfold Parse_H. destruct (hv x) as [msg|msg|b] eqn:EV.
    - destruct msg as [p|p|a|a|a|c|c|c|d|d].
      + obj I (hinside_sim (fun p => TClc (MProposal p)) fill_p _ (Proposal_W m0 buf) p x (cts x) (fun c0 => Proposal_sim c0 buf B)).
      + obj I (hinside_sim (fun p => TClc (MProposalV2 p)) fill_p2 _ (ProposalV2_W m0 buf) p x (cts x) (fun c0 => ProposalV2_sim c0 buf B)).
      + obj I (hinside_sim (fun p => TClc (MAcceptSMCR p)) fill_ar _ (AcceptSMCR_W m0 buf) a x (cts x) (fun c0 => AcceptSMCR_sim c0 buf B)).
      + plain x I B.
      + plain x I B.
      + obj I (hinside_sim (fun p => TClc (MConfirmSMCR (mkConfirmSMCR p))) fill_ar _ (AcceptSMCR_W m0 buf) (cr_Accept c) x (cts x)
          (fun c0 => AcceptSMCR_sim c0 buf B)).
      + plain x I B.
      + plain x I B.
      + plain x I B.
      + plain x I B.
    - destruct msg as [a|a|a|a|a|a|a|a|a|a].
      + obj I (hinside_sim (fun p => TLlc (LConfirm p)) fill_cl _ (ConfirmLink_W m0 buf) a x (cts x) (fun c0 => ConfirmLink_sim c0 buf B)).
      + obj I (hinside_sim (fun p => TLlc (LAddLink p)) fill_al _ (AddLink_W m0 buf) a x (cts x) (fun c0 => AddLink_sim c0 buf B)).
      + obj I (hinside_sim (fun p => TLlc (LAddLinkCont p)) _ _ (AddLinkCont_W m0 buf) a x (cts x) (fun c0 => AddLinkCont_sim c0 buf B)).
      + obj I (hinside_sim (fun p => TLlc (LDeleteLink p)) _ _ (DeleteLink_W m0 buf) a x (cts x) (fun c0 => DeleteLink_sim c0 buf B)).
      + obj I (hinside_sim (fun p => TLlc (LConfirmRKey p)) _ _ (ConfirmRKey_W m0 buf) a x (cts x) (fun c0 => ConfirmRKey_sim c0 buf B)).
      + obj I (hinside_sim (fun p => TLlc (LConfirmRKeyCont p)) _ _ (ConfirmRKeyCont_W m0 buf) a x (cts x) (fun c0 => ConfirmRKeyCont_sim c0 buf B)).
      + obj I (hinside_sim (fun p => TLlc (LDeleteRKey p)) _ _ (deleteRKey_W m0 buf) a x (cts x) (fun c0 => deleteRKey_sim c0 buf B)).
      + obj I (hinside_sim (fun p => TLlc (LTestLink p)) _ _ (TestLink_W m0 buf) a x (cts x) (fun c0 => TestLink_sim c0 buf B)).
      + obj I (hinside_sim (fun p => TLlc (LCDC p)) _ _ (CDC_W m0 buf) a x (cts x) (fun c0 => CDC_sim c0 buf B)).
      + obj I (hinside_sim (fun p => TLlc (LOther p)) _ _ (Other_W m0 buf) a x (cts x) (fun c0 => Other_sim c0 buf B)).
    - obj I (hinside_sim TBth _ _ (BTH_W m0 buf) b x (cts x) (fun c0 => BTH_sim c0 buf B)).
  Qed.
End call.
