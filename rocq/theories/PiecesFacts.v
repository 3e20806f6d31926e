(** * PiecesFacts: proofs about messages that arrive in pieces. *)

From Coq Require Import NArith ZArith Bool String Arith List Lia.
From Coq Require Import ZifyBool ZifyNat ZifyN.
From Verif Require Import GoBase GoFmt ClcModel Slices Wire WireLemmas ClcView Steps ClcParse ClcNew
  ClcMessage Show Sound ClcHeader SoundFacts Samples Stream StreamFacts Elsewhere ElsewhereFacts Pieces.
Import ListNotations.
Local Open Scope nat_scope.

Lemma bind_bind {A B C} (x : M A) (f : A -> M B) (g : B -> M C) :
  bind (bind x f) g = bind x (fun a => bind (f a) g).
Proof.
  destruct x as [l [a| |]]; try reflexivity. cbn [bind]. destruct (f a) as [l2 [b| |]]; try reflexivity.
  cbn [bind]. destruct (g b) as [l3 o]. rewrite app_assoc. reflexivity.
Qed.

Lemma bind_ext {A B} (x : M A) (f g : A -> M B) : (forall a, f a = g a) -> bind x f = bind x g.
Proof. intros H. destruct x as [l [a| |]]; try reflexivity. cbn [bind]. rewrite H. reflexivity. Qed.

Lemma ret_bind {A B} (a : A) (f : A -> M B) : bind (ret a) f = f a.
Proof. cbn. destruct (f a). reflexivity. Qed.

(** ** The first eight bytes *)

Lemma front8 a b : 8 <= length a -> 8 <= length b -> firstn 8 a = firstn 8 b ->
  bytes_at a 0 4 = bytes_at b 0 4 /\ declared a = declared b /\ msg_type a = msg_type b /\
  msg_version a = msg_version b /\ msg_path a = msg_path b.
Proof.
  intros La Lb E. split.
  - unfold bytes_at. cbn [skipn]. change 4 with (Nat.min 4 8) at 1 2. rewrite <- !firstn_firstn, E. reflexivity.
  - assert (H : forall off w, off + w <= 64 -> bits a off w = bits b off w).
    { intros off w Hw. rewrite <- (firstn_skipn 8 a), <- (firstn_skipn 8 b).
      rewrite !bits_front by (rewrite firstn_length; lia). rewrite E. reflexivity. }
    unfold declared, msg_type, msg_version, msg_path. repeat split; apply H; lia.
Qed.

Lemma whole_front k bs b : entire k bs -> 8 <= length b -> firstn 8 b = firstn 8 bs ->
  (bytes_at b 0 4 = [xe2; xd4; xc3; xd9] \/ bytes_at b 0 4 = [xe2; xd4; xc3; xc4]) /\
  N.to_nat (declared b) = length bs /\ (declared b <= 1024)%N /\ kind_rel (msg_type b) (msg_version b) (msg_path b) k.
Proof.
  intros (E & K & D & H8 & H1) Lb F. destruct (front8 b bs Lb H8 F) as (-> & -> & -> & -> & ->).
  repeat split; try assumption; try lia. apply eyecatcher_cases, E.
Qed.

(** ** Messages that have arrived *)

Fixpoint unread (ms : list (clc_kind * list byte)) (n : nat) : list (clc_kind * list byte) :=
  match ms with
  | [] => []
  | (k, bs) :: ms => if length bs <=? n then unread ms (n - length bs) else (k, bs) :: ms
  end.

Definition size (ms : list (clc_kind * list byte)) : nat := length (concat (map snd ms)).

Lemma arrived_unread ms : forall n, ms = arrived ms n ++ unread ms n.
Proof.
  induction ms as [|[k bs] ms IH]; intros n; [reflexivity|]. cbn [arrived unread].
  destruct (length bs <=? n); [|reflexivity]. cbn [app]. f_equal. apply IH.
Qed.

Lemma arrived_size ms : forall n, size (arrived ms n) <= n.
Proof.
  unfold size. induction ms as [|[k bs] ms IH]; intros n; cbn [arrived]; [cbn; lia|].
  destruct (length bs <=? n) eqn:E; [|cbn; lia]. apply Nat.leb_le in E. cbn [map concat snd].
  rewrite app_length. specialize (IH (n - length bs)). lia.
Qed.

Lemma arrived_more ms : forall n d, arrived ms (n + d) = arrived ms n ++ arrived (unread ms n) (n - size (arrived ms n) + d).
Proof.
  induction ms as [|[k bs] ms IH]; intros n d; [reflexivity|]. cbn [arrived unread].
  destruct (length bs <=? n) eqn:E.
  - apply Nat.leb_le in E. rewrite (proj2 (Nat.leb_le _ _)) by lia. cbn [app]. f_equal.
    replace (n + d - length bs) with (n - length bs + d) by lia. rewrite IH. f_equal. f_equal.
    unfold size. cbn [map concat snd]. rewrite app_length. pose proof (arrived_size ms (n - length bs)) as H.
    unfold size in H. lia.
  - cbn [app size map concat length]. unfold size. cbn. rewrite Nat.sub_0_r. reflexivity.
Qed.

Lemma one_by_one_app a b : one_by_one (a ++ b) = let* x := one_by_one a in let* y := one_by_one b in ret (x ++ y).
Proof.
  induction a as [|[k bs] a IH]; cbn [app one_by_one].
  - rewrite ret_bind. destruct (one_by_one b) as [l [y| |]]; cbn; rewrite ?app_nil_r; reflexivity.
  - rewrite bind_bind. apply bind_ext. intros x. rewrite IH, !bind_bind. apply bind_ext. intros y.
    rewrite ret_bind, !bind_bind. apply bind_ext. intros z. rewrite ret_bind. reflexivity.
Qed.

(** ** Parsing a message where it is *)

Definition parse_there (m : mem) (k : clc_kind) (part : slice) : M seen :=
  let* new := Message_Parse m (fresh k) part in ret (see m new).

(** a message whose parts of the buffer are parsed like the message alone *)
Definition stays (only : bool) (kb : clc_kind * list byte) : Prop :=
  entire (fst kb) (snd kb) /\
  forall m part, slice_ok m part -> s_bytes m part = snd kb -> (only = true -> s_cap part = s_len part) ->
  parse_there m (fst kb) part = alone (fst kb) (snd kb).

Lemma whole_stays k bs : entire k bs -> stays true (k, bs).
Proof.
  intros W. split; [exact W|]. cbn [fst snd]. intros m part Hok B C. specialize (C eq_refl).
  assert (L : s_len part = length bs) by (rewrite <- (s_bytes_length m part Hok), B; reflexivity).
  assert (SW : same_window m part (mem1 bs) (slice1 bs)).
  { unfold same_window. cbn [s_len s_cap slice1]. split; [exact L|split; [lia|]].
    unfold window. cbn [s_cap s_off s_arr slice1 mem1 skipn]. rewrite firstn_all, C. exact B. }
  pose proof (clc_elsewhere m part (mem1 bs) (slice1 bs) (fresh k) Hok (slice1_ok bs) SW) as A.
  unfold parse_there, alone. apply alike_eq. eapply alike_bind; [exact A|].
  intros n1 n2 S. apply alike_ret.
  destruct (same_clc_texts m part (mem1 bs) (slice1 bs) n1 n2 Hok (slice1_ok bs) SW S) as (T1 & T2 & T3).
  unfold see. rewrite T1, T2, T3. f_equal. f_equal. f_equal. destruct S as (_ & _ & <-). destruct n1; reflexivity.
Qed.

Lemma good_whole k bs : good k bs -> entire k bs.
Proof.
  intros G. pose proof (good_28 _ _ G). destruct G as (E & K & D & L & _). repeat split; try assumption; lia.
Qed.

Lemma good_there m part k bs : slice_ok m part -> s_bytes m part = bs -> good k bs ->
  parse_there m k part = ([], Done (k, sound_text false k bs, sound_text true k bs, hex_dump bs)).
Proof.
  intros Hok B G. destruct G as (E & K & D & L & S & H2).
  destruct (sound_end_to_end m part k) as (_ & new & P & T1 & T2 & T3); try (rewrite B; assumption); try assumption.
  unfold parse_there. rewrite P. cbn [bind ret app]. unfold see. rewrite T1, T2, T3, B.
  destruct (parse_header m (fresh k) part [] new (reach_fresh k) Hok P) as (_ & KN & _).
  rewrite KN. destruct k; reflexivity.
Qed.

Lemma good_alone k bs : good k bs ->
  alone k bs = ([], Done (k, sound_text false k bs, sound_text true k bs, hex_dump bs)).
Proof. intros G. apply (good_there (mem1 bs) (slice1 bs) k bs (slice1_ok bs) (slice1_bytes bs) G). Qed.

Lemma good_stays only k bs : good k bs -> stays only (k, bs).
Proof.
  intros G. split; [apply good_whole, G|]. cbn [fst snd]. intros m part Hok B _.
  rewrite good_alone by exact G. apply good_there; assumption.
Qed.

(** ** Taking all complete messages *)

Lemma take_all only m : forall ms fuel buf missing, slice_ok m buf -> Forall (stays only) ms ->
  s_bytes m buf ++ missing = concat (map snd ms) -> s_len buf < fuel ->
  exists rest, slice_ok m rest /\ s_bytes m rest ++ missing = concat (map snd (unread ms (s_len buf))) /\
    s_len rest = s_len buf - size (arrived ms (s_len buf)) /\
    take only fuel m buf = let* rs := one_by_one (arrived ms (s_len buf)) in ret (rs, rest).
Proof.
  induction ms as [|[k bs] ms IH]; intros fuel buf missing Hok HS HB HF; (destruct fuel as [|fuel]; [lia|]);
    pose proof (s_bytes_length m buf Hok) as Lb.
  - cbn [map concat] in HB. apply app_eq_nil in HB. destruct HB as [B ->]. rewrite B in Lb. cbn [length] in Lb.
    exists buf. repeat split; try (apply Hok); try (cbn; lia).
    + rewrite B. reflexivity.
    + cbn [take arrived one_by_one]. rewrite (proj2 (Nat.ltb_lt _ _)) by lia. rewrite ret_bind. reflexivity.
  - inversion HS as [|? ? [W P] HS']; subst. cbn [fst snd] in W, P.
    assert (W8 : 8 <= length bs <= 1024) by apply W.
    cbn [map concat snd] in HB. cbn [arrived unread]. destruct (length bs <=? s_len buf) eqn:E.
    + apply Nat.leb_le in E.
      assert (F : firstn (length bs) (s_bytes m buf) = bs).
      { apply (f_equal (firstn (length bs))) in HB. rewrite !firstn_app, Nat.sub_diag, Lb in HB.
        replace (length bs - s_len buf) with 0 in HB by lia. cbn [firstn] in HB. rewrite !app_nil_r, firstn_all in HB.
        exact HB. }
      assert (R : s_bytes m buf = bs ++ skipn (length bs) (s_bytes m buf)) by (rewrite <- F at 1; apply eq_sym, firstn_skipn).
      set (more := skipn (length bs) (s_bytes m buf)) in *.
      assert (HB' : more ++ missing = concat (map snd ms)).
      { rewrite R, <- app_assoc in HB. apply app_inv_head in HB. exact HB. }
      assert (Lm : length more = s_len buf - length bs) by (unfold more; rewrite skipn_length; lia).
      destruct (whole_front k bs (s_bytes m buf) W ltac:(lia)) as (A1 & A2 & A3 & A4).
      { rewrite R, firstn_app. replace (8 - length bs) with 0 by lia. cbn [firstn]. apply app_nil_r. }
      pose proof (len_le_cap m buf Hok) as Hcap.
      set (next := sub buf (length bs) (length more)).
      assert (Nok : slice_ok m next) by (destruct Hok; split; cbn; lia).
      assert (Ns : s_bytes m next = more).
      { unfold next. rewrite s_bytes_sub by (assumption || lia). rewrite seg_win by (assumption || lia).
        unfold seg. fold more. apply firstn_all. }
      destruct (IH fuel next missing Nok HS') as (rest & R1 & R2 & R3 & R4).
      { rewrite Ns. exact HB'. }
      { cbn [next sub s_len]. unfold next. cbn [sub s_len]. lia. }
      assert (Ln : s_len next = s_len buf - length bs) by (unfold next; cbn [sub s_len]; lia).
      rewrite Ln in R2, R3, R4.
      exists rest. split; [exact R1|]. split; [exact R2|]. split.
      { rewrite R3. unfold size. cbn [map concat snd]. rewrite app_length. lia. }
      cbn [take one_by_one].
      rewrite (proj2 (Nat.ltb_ge _ _)) by lia.
      rewrite (NewMessage_some m buf Hok ltac:(lia) k) by assumption.
      change (([], Done (Some (fresh k), declared (s_bytes m buf))) : M (option Message * N)) with
        (ret (Some (fresh k), declared (s_bytes m buf))). rewrite ret_bind, A2.
      rewrite (proj2 (Nat.ltb_ge _ _)) by lia.
      assert (V : from buf (length bs) = ret next).
      { unfold from, reslice. rewrite (proj2 (Nat.leb_le _ _)), (proj2 (Nat.leb_le _ _)) by lia.
        unfold next, sub. cbn [andb]. rewrite Lm. reflexivity. }
      assert (U : exists part, (if only then upto_only buf (length bs) else upto buf (length bs)) = ret part /\
        slice_ok m part /\ s_bytes m part = bs /\ (only = true -> s_cap part = s_len part)).
      { destruct only.
        - exists (mkslice (s_arr buf) (s_off buf) (length bs) (length bs)). unfold upto_only.
          rewrite (proj2 (Nat.leb_le _ _)) by lia. split; [reflexivity|]. split; [destruct Hok; split; cbn; lia|].
          split; [|reflexivity]. transitivity (firstn (length bs) (s_bytes m buf)); [|exact F].
          unfold s_bytes. cbn [s_len s_off s_arr]. rewrite firstn_firstn, Nat.min_l by lia. reflexivity.
        - exists (mkslice (s_arr buf) (s_off buf + 0) (length bs - 0) (s_cap buf - 0)). unfold upto, reslice.
          rewrite (proj2 (Nat.leb_le _ _)), (proj2 (Nat.leb_le _ _)) by lia. split; [reflexivity|].
          split; [destruct Hok; split; cbn; lia|]. split; [|discriminate].
          transitivity (firstn (length bs) (s_bytes m buf)); [|exact F].
          unfold s_bytes. cbn [s_len s_off s_arr]. rewrite Nat.sub_0_r, Nat.add_0_r.
          rewrite firstn_firstn, Nat.min_l by lia. reflexivity. }
      destruct U as (part & U & Pok & Ps & Pc). rewrite U, ret_bind, V.
      specialize (P m part Pok Ps Pc). unfold parse_there in P.
      rewrite bind_bind, <- P, bind_bind. apply bind_ext. intros new. rewrite !ret_bind, R4, !bind_bind.
      apply bind_ext. intros rs. rewrite !ret_bind. reflexivity.
    + apply Nat.leb_gt in E. exists buf. split; [exact Hok|]. split; [exact HB|]. split; [cbn; lia|].
      cbn [take one_by_one]. rewrite ret_bind. destruct (s_len buf <? 8) eqn:E8; [reflexivity|].
      apply Nat.ltb_ge in E8.
      destruct (whole_front k bs (s_bytes m buf) W ltac:(lia)) as (A1 & A2 & A3 & A4).
      { apply (f_equal (firstn 8)) in HB. rewrite !firstn_app in HB.
        replace (8 - length (s_bytes m buf)) with 0 in HB by lia. replace (8 - length bs) with 0 in HB by lia.
        cbn [firstn] in HB. rewrite !app_nil_r in HB. exact HB. }
      rewrite (NewMessage_some m buf Hok ltac:(lia) k) by assumption.
      change (([], Done (Some (fresh k), declared (s_bytes m buf))) : M (option Message * N)) with
        (ret (Some (fresh k), declared (s_bytes m buf))). rewrite ret_bind, A2.
      rewrite (proj2 (Nat.ltb_lt _ _)) by lia. reflexivity.
Qed.

(** ** Piece by piece *)

Lemma unread_stays only ms : forall n, Forall (stays only) ms -> Forall (stays only) (unread ms n).
Proof.
  induction ms as [|[k bs] ms IH]; intros n H; cbn [unread]; [constructor|].
  destruct (length bs <=? n); [|exact H]. inversion H; subst. apply IH. assumption.
Qed.

(** what was reported after each piece, given how many messages each batch must have *)
Lemma receive_all only place : keeps place -> forall pieces i pending ms missing,
  Forall (stays only) ms -> arrived ms (length pending) = [] ->
  pending ++ concat pieces ++ missing = concat (map snd ms) ->
  (let* rs := receive only place i pending pieces in ret (concat rs)) =
    one_by_one (arrived ms (length pending + length (concat pieces))) /\
  forall l rs, receive only place i pending pieces = (l, Done rs) ->
    length rs = length pieces /\
    forall j, length (concat (firstn j rs)) = length (arrived ms (length pending + length (concat (firstn j pieces)))).
Proof.
  intros K. induction pieces as [|p pieces IH]; intros i pending ms missing HS HA HB.
  - cbn [receive concat length]. rewrite Nat.add_0_r, HA. split; [reflexivity|].
    intros l rs H. injection H as _ <-. split; [reflexivity|]. intros j. rewrite !firstn_nil. cbn [concat length].
    rewrite Nat.add_0_r, HA. reflexivity.
  - cbn [receive concat]. destruct (K i (pending ++ p)) as [Hok B].
    set (m := fst (place i (pending ++ p))) in *. set (buf := snd (place i (pending ++ p))) in *.
    pose proof (s_bytes_length m buf Hok) as Lb. rewrite B, app_length in Lb.
    cbn [concat] in HB. rewrite <- app_assoc in HB.
    destruct (take_all only m ms (S (s_len buf)) buf (concat pieces ++ missing) Hok HS) as (rest & R1 & R2 & R3 & R4).
    { rewrite B, <- app_assoc. exact HB. } { lia. }
    pose proof (s_bytes_length m rest R1) as Lr.
    pose proof (arrived_size ms (s_len buf)) as Az.
    assert (HA' : arrived (unread ms (s_len buf)) (length (s_bytes m rest)) = []).
    { rewrite Lr, R3. pose proof (arrived_more ms (s_len buf) 0) as M0. rewrite !Nat.add_0_r in M0.
      rewrite <- (app_nil_r (arrived ms (s_len buf))) in M0 at 1. apply app_inv_head in M0. symmetry. exact M0. }
    destruct (IH (S i) (s_bytes m rest) (unread ms (s_len buf)) missing (unread_stays _ _ _ HS) HA' R2) as [I1 I2].
    assert (N : forall d, arrived ms (length pending + (length p + d)) =
      arrived ms (s_len buf) ++ arrived (unread ms (s_len buf)) (length (s_bytes m rest) + d)).
    { intros d. rewrite Nat.add_assoc, Lb, arrived_more, Lr, R3. reflexivity. }
    split.
    + rewrite app_length, N, one_by_one_app, <- I1, R4, !bind_bind. apply bind_ext. intros rs.
      rewrite ret_bind. cbn [fst snd]. rewrite !bind_bind. apply bind_ext. intros others.
      rewrite !ret_bind. reflexivity.
    + intros l rs H. rewrite R4, bind_bind in H.
      destruct (one_by_one (arrived ms (s_len buf))) as [l1 [b| |]] eqn:O; try discriminate.
      assert (Lo : length b = length (arrived ms (s_len buf))).
      { clear - O. revert l1 b O. generalize (arrived ms (s_len buf)). intros a. induction a as [|[k bs] a IH]; intros l1 b O.
        - injection O as _ <-. reflexivity.
        - cbn [one_by_one] in O. destruct (alone k bs) as [l2 [x| |]]; try discriminate. cbn [bind] in O.
          destruct (one_by_one a) as [l3 [y| |]] eqn:Y; try discriminate. cbn [bind ret] in O. injection O as _ <-.
          cbn [length]. f_equal. eapply IH. reflexivity. }
      cbn [bind] in H. rewrite ret_bind in H. cbn [fst snd] in H.
      destruct (receive only place (S i) (s_bytes m rest) pieces) as [l2 [others| |]] eqn:E; try discriminate.
      cbn [bind ret] in H. injection H as _ <-. destruct (I2 l2 others eq_refl) as [I3 I4].
      split; [cbn [length]; lia|]. intros [|j]; cbn [firstn concat length].
      * rewrite Nat.add_0_r, HA. reflexivity.
      * rewrite !app_length, N, app_length, I4, Lo. reflexivity.
Qed.

Theorem pieces_whole place pieces ms missing : keeps place -> Forall (fun kb => entire (fst kb) (snd kb)) ms ->
  concat pieces ++ missing = concat (map snd ms) ->
  (let* rs := receive true place 0 [] pieces in ret (concat rs)) = one_by_one (arrived ms (length (concat pieces))) /\
  forall l rs, receive true place 0 [] pieces = (l, Done rs) ->
    length rs = length pieces /\
    forall j, length (concat (firstn j rs)) = length (arrived ms (length (concat (firstn j pieces)))).
Proof.
  intros K H B. apply (receive_all true place K pieces 0 [] ms missing); [|destruct ms as [|[k bs] ms]; [reflexivity|]|exact B].
  - eapply Forall_impl; [|exact H]. intros [k bs] W. apply whole_stays, W.
  - inversion H as [|? ? W _]; subst. destruct W as (_ & _ & _ & W & _). cbn [fst snd length arrived] in *.
    destruct (length bs) eqn:E; [lia|]. reflexivity.
Qed.

Lemma good_one_by_one ms : Forall (fun kb => good (fst kb) (snd kb)) ms ->
  one_by_one ms = ([], Done (map (fun kb => (fst kb, sound_text false (fst kb) (snd kb),
    sound_text true (fst kb) (snd kb), hex_dump (snd kb))) ms)).
Proof.
  induction 1 as [|[k bs] ms G _ IH]; [reflexivity|]. cbn [fst snd] in G. cbn [one_by_one]. rewrite good_alone by exact G.
  rewrite IH. reflexivity.
Qed.

Lemma arrived_Forall (P : clc_kind * list byte -> Prop) ms : forall n, Forall P ms -> Forall P (arrived ms n).
Proof.
  induction ms as [|[k bs] ms IH]; intros n H; cbn [arrived]; [constructor|].
  destruct (length bs <=? n); [|constructor]. inversion H; subst. constructor; [assumption|apply IH; assumption].
Qed.

Theorem pieces_good only place pieces ms missing : keeps place -> Forall (fun kb => good (fst kb) (snd kb)) ms ->
  concat pieces ++ missing = concat (map snd ms) ->
  exists rs, receive only place 0 [] pieces = ([], Done rs) /\ length rs = length pieces /\
    forall j, concat (firstn j rs) =
      map (fun kb => (fst kb, sound_text false (fst kb) (snd kb), sound_text true (fst kb) (snd kb), hex_dump (snd kb)))
        (arrived ms (length (concat (firstn j pieces)))).
Proof.
  intros K H B.
  assert (A : arrived ms (length (@nil byte)) = []).
  { destruct ms as [|[k bs] ms]; [reflexivity|]. inversion H as [|? ? G _]; subst. apply good_28 in G. cbn [fst snd length arrived] in *.
    destruct (length bs) eqn:E; [lia|]. reflexivity. }
  assert (S : Forall (stays only) ms) by (eapply Forall_impl; [|exact H]; intros [k bs] G; apply good_stays, G).
  destruct (receive_all only place K pieces 0 [] ms missing S A B) as [R1 R2].
  cbn [length] in R1. rewrite Nat.add_0_l, good_one_by_one in R1 by (apply arrived_Forall, H).
  destruct (receive only place 0 [] pieces) as [l [rs| |]] eqn:E; try discriminate.
  cbn [bind ret] in R1. rewrite app_nil_r in R1. injection R1 as -> R1.
  destruct (R2 [] rs eq_refl) as [R3 R4]. exists rs. split; [reflexivity|]. split; [exact R3|].
  intros j. specialize (R4 j). rewrite Nat.add_0_l in R4.
  (* a prefix of the list with the right length *)
  assert (P : firstn (length (concat (firstn j rs))) (concat rs) = concat (firstn j rs)).
  { rewrite <- (firstn_skipn j rs) at 2. rewrite concat_app, firstn_app, Nat.sub_diag, firstn_all. apply app_nil_r. }
  rewrite <- P, R1, R4, firstn_map. f_equal.
  set (n := length (concat (firstn j pieces))). 
  assert (Q : length (concat pieces) = n + length (concat (skipn j pieces))).
  { rewrite <- (firstn_skipn j pieces) at 1. rewrite concat_app, app_length. reflexivity. }
  rewrite Q, arrived_more, firstn_app, Nat.sub_diag, firstn_all. apply app_nil_r.
Qed.

Theorem pieces_split place1 place2 pieces1 pieces2 ms missing : keeps place1 -> keeps place2 ->
  Forall (fun kb => entire (fst kb) (snd kb)) ms -> concat pieces1 = concat pieces2 ->
  concat pieces1 ++ missing = concat (map snd ms) ->
  (let* rs := receive true place1 0 [] pieces1 in ret (concat rs)) =
  (let* rs := receive true place2 0 [] pieces2 in ret (concat rs)).
Proof.
  intros K1 K2 H E B. destruct (pieces_whole place1 pieces1 ms missing K1 H B) as [A1 _].
  rewrite E in B. destruct (pieces_whole place2 pieces2 ms missing K2 H B) as [A2 _].
  rewrite A1, A2, E. reflexivity.
Qed.
