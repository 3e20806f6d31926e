(** * PacketFacts: proofs about what a RoCE packet owns. *)

From Coq Require Import NArith ZArith Bool String Ascii Arith List Lia.
From Verif Require Import GoBase GoFmt ClcModel LlcModel RoceModel Setters WriteModel LlcWriteModel WriteFacts LlcWriteFacts
  ClcView LlcView Elsewhere ElsewhereFacts ElsewhereWrite HeapModel Owned OwnedFacts OwnedWorld PacketModel PacketSpec.
Import ListNotations.
Local Open Scope nat_scope.

Lemma extends_refl w : extends w w.
Proof. repeat split; auto using incl_refl. Qed.

Lemma extends_trans w1 w2 w3 : extends w1 w2 -> extends w2 w3 -> extends w1 w3.
Proof.
  intros (A1 & A2 & A3 & A4 & A5) (B1 & B2 & B3 & B4 & B5). split; [lia|]. split; [|split; [lia|split; [|exact (incl_tran A5 B5)]]].
  - intros a L. rewrite B2, A2 by lia. reflexivity.
  - intros j L. rewrite B4, A4 by lia. reflexivity.
Qed.

Lemma shown_some w j : j < length (w_objs w) -> exists x, shown w j = Some x.
Proof.
  intros L. unfold shown. destruct (nth_error (w_objs w) j) as [[t sl]|] eqn:E; [eauto|].
  apply nth_error_None in E. lia.
Qed.

(** ** New objects *)

Lemma fill_new m t : fill (fun _ => s_bytes m nil_slice) (new t) = new t.
Proof. destruct t as [[]|[]|]; reflexivity. Qed.

Lemma slice_extends w w' s : extends w w' -> exists_slice w s -> exists_slice w' s.
Proof. intros (A & B & _) [[O1 O2] L]. split; [split; [exact O1|rewrite (B _ L); exact O2]|lia]. Qed.

Lemma length_replace {A} (l : list A) j x : length (replace l j x) = length l.
Proof. revert j. induction l as [|y l IH]; intros [|j]; cbn; try reflexivity. f_equal. apply IH. Qed.

Lemma new_object_ok t s w : reached w -> exists_slice w s ->
  let '(l, o, w') := new_object t s w in
  let '(l0, o0, r) := Thing_W (w_mem w) s (new t) in
  l = l0 /\ o = match o0 with Done _ => Done (length (w_objs w)) | Panicked => Panicked | Exited => Exited end /\
  reached w' /\ extends w w' /\ length (w_objs w') = S (length (w_objs w)) /\ w_made w' = w_made w /\
  shown w' (length (w_objs w)) = Some r.
Proof.
  intros R Ex. unfold new_object. set (j := length (w_objs w)). set (w1 := step w (ONew t)).
  assert (R1 : reached w1) by (apply reached_step; [exact R|exact I]).
  assert (E1 : nth_error (w_objs w1) j = Some (new t, fun _ => nil_slice)).
  { cbn [w1 step w_objs]. rewrite nth_error_app2 by (unfold j; lia). replace (j - length (w_objs w)) with 0 by (unfold j; lia).
    reflexivity. }
  assert (Ex1 : exists_slice w1 s) by exact Ex.
  pose proof (owned_parse w1 j _ _ s R1 Ex1 E1) as P. cbv zeta in P. cbn [w1 step w_mem w_next] in P.
  rewrite fill_new in P. fold w1 in P.
  destruct (Parse_H s (mkhs (new t) (fun _ => nil_slice) (w_mem w) (w_next w))) as [[l o] y] eqn:EP.
  destruct (Thing_W (w_mem w) s (new t)) as [[l0 o0] r].
  destruct P as (-> & -> & S1 & S2 & S3 & _).
  pose proof (parse_world w1 j _ _ s (sound_reached _ R1) Ex1 E1) as Q. cbn [w1 step w_mem w_next] in Q.
  rewrite EP in Q. destruct (Thing_W (w_mem w) s (fill (fun _ => s_bytes (w_mem w) nil_slice) (new t))) as [[l2 o2] r2].
  destruct Q as (_ & _ & _ & (N & _)).
  assert (SP : step w1 (OParse j s) = mkworld (hm y) (hn y) (w_made w) (replace (w_objs w1) j (hv y, hslot y))).
  { exact (step_parse w1 j _ _ s y _ _ E1 EP). }
  assert (LO : length (w_objs (step w1 (OParse j s))) = S j).
  { rewrite SP. cbn [w_objs]. transitivity (length (w_objs w1)).
    - apply length_replace.
    - cbn [w1 step w_objs]. rewrite app_length. unfold j. cbn. lia. }
  split; [reflexivity|]. split; [reflexivity|]. split; [apply reached_step; [exact R1|exact Ex1]|].
  split; [|split; [exact LO|split; [rewrite SP; reflexivity|exact S1]]].
  split; [rewrite SP; exact N|]. split; [exact S3|]. split; [rewrite LO; unfold j; lia|].
  split; [|rewrite SP; apply incl_refl]. intros i Li. rewrite S2 by (unfold j; lia). destruct (shown_some w i Li) as [x X]. rewrite X. apply (shown_new w t i x X).
Qed.

Lemma new_GRH_ok s w : reached w ->
  let '(l, o, w') := new_GRH s w in
  l = [] /\ o = Done (w_next w, gopacket_IPv6 (s_bytes (w_mem w) s)) /\ reached w' /\ extends w w' /\
  w_objs w' = w_objs w /\ w_mem w' (w_next w) = s_bytes (w_mem w) s /\ w_next w' = S (w_next w) /\ In (w_next w) (w_made w').
Proof.
  intros R. unfold new_GRH. split; [reflexivity|]. split; [reflexivity|].
  split; [apply reached_step; [exact R|exact I]|]. split; [|split; [reflexivity|split; [|split; [reflexivity|left; reflexivity]]]].
  - split; [cbn [step w_next]; lia|]. split; [|split; [cbn [step w_objs]; lia|split; [|intros x Hx; right; exact Hx]]].
    + intros a L. cbn [step w_mem]. unfold set_arr. rewrite (proj2 (Nat.eqb_neq _ _)) by lia. reflexivity.
    + intros j _. apply shown_make, R.
  - cbn [step w_mem]. unfold set_arr. rewrite Nat.eqb_refl. reflexivity.
Qed.

(** ** Runs with a world and runs with a memory *)

(** started in [w], [x] does what [y] does; results are related by [Q] *)
Definition simw {A B} (w : world) (Q : world -> A -> B -> Prop) (x : W world A) (y : M B) : Prop :=
  let '(l, o, w') := x w in
  l = fst y /\ reached w' /\ extends w w' /\
  match o, snd y with
  | Done a, Done b => Q w' a b
  | Panicked, Panicked | Exited, Exited => True
  | _, _ => False
  end.

(** the four parts of [simw] *)
Ltac four := cbn [fst snd]; split; [reflexivity|split; [try assumption|split; [try assumption; try apply extends_refl|try assumption; try exact I]]].

Lemma simw_bind {A B A' B'} w (Q : world -> A -> B -> Prop) (R : world -> A' -> B' -> Prop) x y f g :
  simw w Q x y -> (forall w' a b, reached w' -> extends w w' -> Q w' a b -> simw w' R (f a) (g b)) ->
  simw w R (wbind x f) (bind y g).
Proof.
  unfold simw, wbind. destruct (x w) as [[l o] w'], y as [l0 o0]. cbn [fst snd]. intros (-> & Re & E & H) F.
  destruct o as [a| |], o0 as [b| |]; try contradiction; cbn [bind]; try (four; fail).
  - specialize (F w' a b Re E H). destruct (f a w') as [[l2 o2] w2], (g b) as [l3 o3]. cbn [fst snd] in *.
    destruct F as (-> & R2 & E2 & H2). four. exact (extends_trans _ _ _ E E2).
Qed.

Lemma simw_ret {A B} w (Q : world -> A -> B -> Prop) a b : reached w -> Q w a b -> simw w Q (wret a) (ret b).
Proof. intros R H. unfold simw, wret, ret. four. Qed.

(** slices of a slice that was there before, at [w0] *)
Lemma sub_ok w0 w t lo hi : reached w -> extends w0 w -> exists_slice w0 t ->
  simw w (fun w' a b => a = b /\ w' = w /\ exists_slice w0 a /\ s_len a = hi - lo) (lift (reslice t lo hi)) (reslice t lo hi).
Proof.
  intros R E [[O1 O2] L]. unfold simw, lift, reslice. destruct ((lo <=? hi) && (hi <=? s_cap t)) eqn:B.
  - apply andb_true_iff in B. destruct B as [X Y]. apply Nat.leb_le in X, Y. cbn [fst snd ret].
    split; [reflexivity|]. split; [exact R|]. split; [apply extends_refl|]. split; [reflexivity|]. split; [reflexivity|].
    split; [|reflexivity]. split; [|exact L]. split; cbn [s_len s_cap s_off s_arr]; lia.
  - cbn. split; [reflexivity|]. split; [exact R|]. split; [apply extends_refl|exact I].
Qed.

Lemma panic_ok {A B} w (Q : world -> A -> B -> Prop) : reached w -> simw w Q (lift panic) panic.
Proof. intros R. unfold simw, lift, panic. four. Qed.

Lemma last_ok w0 w s n : reached w -> extends w0 w -> exists_slice w0 s ->
  simw w (fun w' a b => a = b /\ w' = w) (lift (last_n s n)) (last_n s n).
Proof.
  intros R E X. unfold last_n. destruct (s_len s <? n); [apply panic_ok, R|].
  pose proof (sub_ok w0 w s (s_len s - n) (s_len s) R E X) as P. unfold simw, lift, from in *.
  destruct P as (A & B & C & D). split; [exact A|]. split; [exact B|]. split; [exact C|].
  destruct (snd (reslice s (s_len s - n) (s_len s))); auto.
Qed.

Lemma drop_ok w0 w s n : reached w -> extends w0 w -> exists_slice w0 s ->
  simw w (fun w' a b => a = b /\ w' = w /\ exists_slice w0 a /\ s_len a = s_len s - n - 0) (lift (drop_last_n s n)) (drop_last_n s n).
Proof.
  intros R E X. unfold drop_last_n. destruct (s_len s <? n); [apply panic_ok, R|]. exact (sub_ok w0 w s 0 (s_len s - n) R E X).
Qed.

Section parse.
  (** the world before the call *)
  Context (w0 : world).

  Lemma window_same w s : extends w0 w -> exists_slice w0 s ->
    slice_ok (w_mem w) s /\ slice_ok (w_mem w0) s /\ same_window (w_mem w) s (w_mem w0) s.
  Proof.
    intros E X. pose proof (slice_extends _ _ _ E X) as [O _]. destruct X as [O0 L].
    split; [exact O|]. split; [exact O0|]. destruct E as (_ & M & _). repeat split. unfold window. rewrite (M _ L). reflexivity.
  Qed.

  Lemma bth_ok w s : reached w -> extends w0 w -> exists_slice w0 s ->
    simw w (fun w' j b => shown w' j = Some (TBth b) /\ length (w_objs w) <= j < length (w_objs w'))
      (new_object NBth s) (ParseBTH (w_mem w0) s).
  Proof.
    intros R E X. pose proof (new_object_ok NBth s w R (slice_extends _ _ _ E X)) as P. unfold simw.
    destruct (new_object NBth s w) as [[l o] w']. cbn [Thing_W new] in P. unfold ParseBTH. rewrite <- BTH_agrees.
    destruct (window_same w s E X) as (O1 & O2 & S).
    rewrite (proj2 (llc_write_elsewhere _ _ _ _ O1 O2 S)) in P.
    destruct (BTH_W (w_mem w0) s BTH_zero) as [[l0 o0] r]. destruct P as (-> & -> & R' & E' & L & _ & Sh).
    destruct o0 as [u| |]; cbn [res]; four. split; [exact Sh|lia].
  Qed.

  Lemma llc_kind_ok k w s : reached w -> extends w0 w -> exists_slice w0 s ->
    simw w (fun w' j m => shown w' j = Some (TLlc m) /\ length (w_objs w) <= j < length (w_objs w'))
      (new_object (NLlc k) s) (LLC_Parse (w_mem w0) (llc_fresh k) s).
  Proof.
    intros R E X. pose proof (new_object_ok (NLlc k) s w R (slice_extends _ _ _ E X)) as P. unfold simw.
    destruct (new_object (NLlc k) s w) as [[l o] w']. cbn [Thing_W new] in P. rewrite <- LLC_agrees.
    destruct (window_same w s E X) as (O1 & O2 & S).
    rewrite (proj1 (llc_write_elsewhere _ _ _ _ O1 O2 S)) in P.
    destruct (LLC_W (w_mem w0) s (llc_fresh k)) as [[l0 o0] r]. destruct P as (-> & -> & R' & E' & L & _ & Sh).
    destruct o0 as [u| |]; cbn [res]; four. split; [exact Sh|lia].
  Qed.

  Lemma llc_ok w s : reached w -> extends w0 w -> exists_slice w0 s ->
    simw w (fun w' j m => shown w' j = Some (TLlc m) /\ length (w_objs w) <= j < length (w_objs w'))
      (ParseLLC_P s) (ParseLLC (w_mem w0) s).
  Proof.
    intros R E X. unfold ParseLLC_P, ParseLLC. destruct (negb _).
    { exact (llc_kind_ok KOther w s R E X). }
    eapply simw_bind with (Q := fun w' a b => a = b /\ w' = w).
    - unfold simw, lift. destruct E as (_ & M & _). unfold idx. rewrite (M _ (proj2 X)).
      destruct (0 <? s_len s); [destruct (nth_error _ _)|]; unfold ret, panic; four. split; reflexivity.
    - intros w' a b _ _ [<- ->]. cbv zeta.
      repeat match goal with |- context[if ?c then _ else _] => destruct c end.
      all: first [exact (llc_kind_ok KConfirmLink w s R E X) | exact (llc_kind_ok KAddLink w s R E X)
        | exact (llc_kind_ok KAddLinkCont w s R E X) | exact (llc_kind_ok KDeleteLink w s R E X)
        | exact (llc_kind_ok KConfirmRKey w s R E X) | exact (llc_kind_ok KConfirmRKeyCont w s R E X)
        | exact (llc_kind_ok KDeleteRKey w s R E X) | exact (llc_kind_ok KTestLink w s R E X)
        | exact (llc_kind_ok KCDC w s R E X) | exact (llc_kind_ok KOther w s R E X)].
  Qed.

  (** the part that both versions have in common *)
  Lemma rest_ok v1 grh g w s : reached w -> extends w0 w -> exists_slice w0 s ->
    match grh, g with
    | Some (a, n), Some b => (w_next w0 <= a < w_next w /\ In a (w_made w)) /\ grh_now (w_mem w a) n = b
    | None, None => True
    | _, _ => False
    end ->
    simw w (fun w' k r => packet_shown w' k = Some r /\ is_new w0 w' k)
      (let? s' := lift (upto s BTHLen) in
       let? bth := new_object NBth s' in
       let? buffer := lift (from s BTHLen) in
       let? icrc := lift (last_n buffer 4) in
       let? buffer := lift (drop_last_n buffer 4) in
       let? llc := ParseLLC_P buffer in
       wret (mkpacket v1 grh bth llc icrc))
      (let* s' := upto s BTHLen in
       let* bth := ParseBTH (w_mem w0) s' in
       let* buffer := from s BTHLen in
       let* icrc := last_n buffer 4 in
       let* buffer := drop_last_n buffer 4 in
       let* llc := ParseLLC (w_mem w0) buffer in
       ret (mkRoCE v1 g bth llc icrc)).
  Proof.
    intros R E X G.
    eapply simw_bind; [apply (sub_ok w0 w s 0 BTHLen R E X)|]. intros w1 s1 ? _ _ (<- & -> & X1 & _).
    eapply simw_bind; [apply (bth_ok w s1 R E X1)|]. intros w2 j b R2 E2 (Sb & Lj).
    pose proof (extends_trans _ _ _ E E2) as E02.
    eapply simw_bind; [apply (sub_ok w0 w2 s BTHLen (s_len s) R2 E02 X)|]. intros w3 s3 ? _ _ (<- & -> & X3 & _).
    eapply simw_bind; [apply (last_ok w0 w2 s3 4 R2 E02 X3)|].
    intros w4 icrc ? _ _ (<- & ->).
    eapply simw_bind; [apply (drop_ok w0 w2 s3 4 R2 E02 X3)|].
    intros w5 s5 ? _ _ (<- & -> & X5 & _).
    eapply simw_bind; [apply (llc_ok w2 s5 R2 E02 X5)|]. intros w6 i msg R6 E6 (Sl & Li).
    apply simw_ret; [exact R6|]. pose proof (extends_trans _ _ _ E02 E6) as E06.
    assert (Sb6 : shown w6 j = Some (TBth b)).
    { destruct E6 as (_ & _ & _ & K & _). rewrite K by lia. exact Sb. }
    destruct E as (N0 & M0 & L0 & K0 & _), E2 as (N2 & M2 & L2 & K2 & I2), E6 as (N6 & M6 & L6 & K6 & I6).
    split.
    - unfold packet_shown. cbn [k_BTH k_LLC k_Type k_GRH k_ICRC]. rewrite Sb6, Sl. do 2 f_equal.
      destruct grh as [[a n]|], g as [b'|]; try contradiction; [|reflexivity]. destruct G as [[Ga _] Gb].
      cbn [option_map fst snd]. rewrite M6, M2, Gb by lia. reflexivity.
    - unfold is_new. cbn [k_BTH k_LLC k_GRH]. split; [lia|]. split; [lia|]. split; [lia|].
      destruct grh as [[a n]|]; [|exact I]. destruct g; [|contradiction]. destruct G as [[Ga Gi] _]. split; [lia|]. apply I6, I2, Gi.
  Qed.
End parse.

Lemma grh_now_id bs : length bs = 40 -> grh_now bs (gopacket_IPv6 bs) = gopacket_IPv6 bs.
Proof.
  intros L. unfold gopacket_IPv6. rewrite L. reflexivity.
Qed.

Theorem packet_parse v1 w buf : reached w -> exists_slice w buf ->
  let '(l, o, w') := ParseRoCE_P v1 buf w in
  let r := ParseRoCE v1 (w_mem w) buf in
  l = fst r /\ reached w' /\ extends w w' /\
  match o, snd r with
  | Done k, Done p => packet_shown w' k = Some p /\ is_new w w' k
  | Panicked, Panicked | Exited, Exited => True
  | _, _ => False
  end.
Proof.
  intros R X. destruct v1; cbn [ParseRoCE_P ParseRoCE]; cbv zeta.
  - change (simw w (fun w' k r => packet_shown w' k = Some r /\ is_new w w' k) (ParseRoCEv1_P buf) (ParseRoCEv1 (w_mem w) buf)).
    unfold ParseRoCEv1_P, ParseRoCEv1.
    eapply simw_bind; [apply (sub_ok w w buf 0 GRHLen R (extends_refl w) X)|]. intros w1 s ? _ _ (<- & -> & Xs & Ls).
    eapply simw_bind with (Q := fun w2 ag g => (w_next w <= fst ag < w_next w2 /\ In (fst ag) (w_made w2)) /\ grh_now (w_mem w2 (fst ag)) (snd ag) = g).
    { pose proof (new_GRH_ok s w R) as P. unfold simw. destruct (new_GRH s w) as [[l o] w2].
      destruct P as (-> & -> & R2 & E2 & _ & Mg & Ng & Ig). unfold ParseGRH, GRH_Parse. cbn [fst snd ret].
      split; [reflexivity|]. split; [exact R2|]. split; [exact E2|]. split; [split; [cbn [fst]; lia|exact Ig]|]. cbn [fst]. rewrite Mg. apply grh_now_id.
      destruct Xs as [[O1 O2] _]. unfold s_bytes. rewrite firstn_length, skipn_length. rewrite Ls in *. unfold GRHLen in *. cbn [Nat.sub] in *. lia. }
    intros w2 [a n] g R2 E2 [Ga Gb]. cbn [fst snd] in *.
    eapply simw_bind; [apply (sub_ok w w2 buf GRHLen (s_len buf) R2 E2 X)|]. intros w3 s3 ? _ _ (<- & -> & X3 & _).
    apply (rest_ok w "RoCEv1"%string (Some (a, n)) (Some g) w2 s3 R2 E2 X3). split; assumption.
  - apply (rest_ok w "RoCEv2"%string None None w buf R (extends_refl w) X I).
Qed.

(** ** Later *)

Lemma leaves_both k w os : leaves_packet k w os -> leaves_alone (k_BTH k) w os /\ leaves_alone (k_LLC k) w os.
Proof.
  revert w. induction os as [|o os IH]; intros w; [split; exact I|]. intros (A & N & L). destruct (IH _ L) as [L1 L2].
  split; (split; [exact A|split; [|assumption]]); destruct o as [bs|a i b|t|j s]; try exact I; try apply N;
    intros x Hh; apply N.
  - left. exists x. exact Hh.
  - right. left. exists x. exact Hh.
Qed.

Lemma step_next w o : reached w -> allowed w o -> w_next w <= w_next (step w o).
Proof.
  intros R A. destruct o as [bs|a i b|t|j s]; cbn [step w_next]; try lia.
  destruct (nth_error (w_objs w) j) as [[t sl]|] eqn:E; [|lia].
  pose proof (parse_world w j t sl s (sound_reached w R) A E) as P.
  destruct (Parse_H s (mkhs t sl (w_mem w) (w_next w))) as [[l1 o1] y].
  destruct (Thing_W _ _ _) as [[l2 o2] r]. destruct P as (_ & _ & _ & N & _). exact N.
Qed.

(** an array of which nobody changes a byte *)
Lemma step_array w o a : reached w -> allowed w o -> a < w_next w ->
  match o with OStore a' _ _ => a' <> a | _ => True end -> w_mem (step w o) a = w_mem w a.
Proof.
  intros R A L D. destruct o as [bs|a' i b|t|j s]; cbn [step w_mem]; try reflexivity.
  - unfold set_arr. rewrite (proj2 (Nat.eqb_neq _ _)) by lia. reflexivity.
  - unfold set_arr. rewrite (proj2 (Nat.eqb_neq _ _)) by congruence. reflexivity.
  - destruct (nth_error (w_objs w) j) as [[t sl]|] eqn:E; [|reflexivity].
    pose proof (parse_world w j t sl s (sound_reached w R) A E) as P.
    destruct (Parse_H s (mkhs t sl (w_mem w) (w_next w))) as [[l1 o1] y].
    destruct (Thing_W _ _ _) as [[l2 o2] r]. destruct P as (_ & _ & _ & _ & M & _). apply M, L.
Qed.

Theorem packet_later k os : forall w p, reached w -> match k_GRH k with Some (a, _) => a < w_next w | None => True end ->
  leaves_packet k w os -> packet_shown w k = Some p -> packet_shown (run w os) k = Some p.
Proof.
  intros w p R G L S. destruct (leaves_both k w os L) as [LB LL].
  assert (A : match k_GRH k with Some (a, _) => w_mem (run w os) a = w_mem w a | None => True end).
  { destruct (k_GRH k) as [[a g]|] eqn:EG; [|exact I]. clear S LB LL. revert w R G L.
    induction os as [|o os IH]; intros w R G L; [reflexivity|]. destruct L as (Al & N & L). unfold run. cbn [fold_left].
    change (fold_left step os (step w o)) with (run (step w o) os).
    rewrite IH; [|apply reached_step; assumption| |exact L].
    - apply step_array; try assumption. destruct o as [bs|a' i b|t|j s]; try exact I. intros ->. apply N. right. right. eauto.
    - pose proof (step_next w o R Al). lia. }
  revert S. unfold packet_shown.
  destruct (shown w (k_BTH k)) as [x|] eqn:EB; [|discriminate]. rewrite (owned_later os w _ x R LB EB).
  destruct x as [?|?|b]; try discriminate.
  destruct (shown w (k_LLC k)) as [y|] eqn:EL; [|discriminate]. rewrite (owned_later os w _ y R LL EL).
  destruct y as [?|l|?]; try discriminate. intros <-. do 2 f_equal.
  destruct (k_GRH k) as [[a g]|]; [|reflexivity]. cbn [option_map fst snd]. rewrite A. reflexivity.
Qed.

Theorem packet_buffers k os : forall w p, reached w -> match k_GRH k with Some (a, _) => a < w_next w | None => True end ->
  own_buffers_packet k w os -> packet_shown w k = Some p -> packet_shown (run w os) k = Some p.
Proof.
  intros w p R G B. apply packet_later; [exact R|exact G|]. clear p G. revert w R B.
  induction os as [|o os IH]; intros w R B; [exact I|]. destruct B as (A & N & B).
  split; [exact A|]. split; [|apply IH; [apply reached_step; assumption|exact B]].
  destruct o as [bs|a i b|t|j s]; try exact N. destruct N as [Ma D]. intros [[x Hh]|[[x Hh]|[g Hg]]].
  - destruct (owned_apart w a _ _ R Hh) as (_ & No & _). contradiction.
  - destruct (owned_apart w a _ _ R Hh) as (_ & No & _). contradiction.
  - rewrite Hg in D. congruence.
Qed.

(** the copy of the header *)
Theorem packet_grh w k p a g i b : reached w -> packet_shown w k = Some p -> k_GRH k = Some (a, g) -> In a (w_made w) ->
  packet_shown (step w (OStore a i b)) k =
  Some (mkRoCE (r_Type p) (Some (grh_now (put (w_mem w a) i b) g)) (r_BTH p) (r_LLC p) (r_ICRC p)).
Proof.
  intros R S EG Ma. revert S. unfold packet_shown.
  assert (N : forall j x, ~ holds w a j x).
  { intros j x Hh. destruct (owned_apart w a j x R Hh) as (_ & No & _). contradiction. }
  rewrite !owned_store by apply N.
  destruct (shown w (k_BTH k)) as [[?|?|bth]|]; try discriminate.
  destruct (shown w (k_LLC k)) as [[?|llc|?]|]; try discriminate. intros S. injection S as <-.
  cbn [r_Type r_BTH r_LLC r_ICRC]. rewrite EG. cbn [option_map fst snd step w_mem]. unfold set_arr. rewrite Nat.eqb_refl.
  reflexivity.
Qed.
