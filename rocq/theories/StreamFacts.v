(** * StreamFacts: messages back to back are read one after another. Proofs only. *)

From Coq Require Import NArith ZArith Bool String Arith List Lia.
From Coq Require Import ZifyBool ZifyNat ZifyN.
From Verif Require Import GoBase GoFmt ClcModel Slices Wire WireLemmas ClcView Steps ClcParse ClcNew
  ClcMessage Show Sound ClcHeader SoundFacts Stream.
Import ListNotations.
Local Open Scope nat_scope.

Lemma eyecatcher_cases t : is_eyecatcher t = true ->
  t = [xe2; xd4; xc3; xd9] \/ t = [xe2; xd4; xc3; xc4].
Proof.
  unfold is_eyecatcher. destruct (list_eq_dec _ _ _) as [->|]; [left; reflexivity|].
  destruct (list_eq_dec _ _ _) as [->|]; [right; reflexivity|discriminate].
Qed.

Lemma bits_front a b off w : off + w <= 8 * length a -> bits (a ++ b) off w = bits a off w.
Proof.
  intros H. rewrite <- (Nat.add_0_l off) at 1. change 0 with (8 * 0) at 1.
  rewrite (bits_seg (a ++ b) 0 (length a)) by (rewrite ?app_length; lia).
  unfold seg. cbn [skipn]. rewrite firstn_app, Nat.sub_diag, firstn_all, app_nil_r. reflexivity.
Qed.

Lemma good_28 k bs : good k bs -> 28 <= length bs.
Proof.
  intros (_ & _ & _ & _ & [S _] & _). destruct k; cbn [min_length] in S; lia.
Qed.

Lemma good_front k bs r : good k bs ->
  let b := bs ++ r in
  (bytes_at b 0 4 = [xe2; xd4; xc3; xd9] \/ bytes_at b 0 4 = [xe2; xd4; xc3; xc4]) /\
  declared b = declared bs /\ kind_rel (msg_type b) (msg_version b) (msg_path b) k.
Proof.
  intros G b. pose proof (good_28 _ _ G) as H28. destruct G as (E & K & _). subst b.
  unfold declared, msg_type, msg_version, msg_path in *.
  rewrite !bits_front by lia. split; [|split; [reflexivity|exact K]].
  apply eyecatcher_cases. rewrite <- E. f_equal. unfold bytes_at. cbn [skipn].
  rewrite firstn_app. replace (4 - length bs) with 0 by lia. rewrite app_nil_r. reflexivity.
Qed.

Lemma stream_read m : forall ms fuel buf tail, slice_ok m buf ->
  Forall (fun kb => good (fst kb) (snd kb)) ms ->
  s_bytes m buf = concat (map snd ms) ++ tail -> length tail < 8 -> length ms < fuel ->
  exists news, read_stream fuel m buf = ([], Done news) /\
    Forall2 (fun kb new => shows_message m (fst kb) (snd kb) new) ms news.
Proof.
  induction ms as [|[k bs] ms IH]; intros fuel buf tail Hok HG HB HT HF; (destruct fuel as [|fuel]; [inversion HF|]).
  - exists []. split; [|constructor]. pose proof (s_bytes_length m buf Hok) as Lb.
    rewrite HB in Lb. cbn [map concat app] in Lb. cbn [length read_stream].
    rewrite (proj2 (Nat.ltb_lt _ _)) by lia. reflexivity.
  - inversion HG as [|? ? G HG']; subst. cbn [fst snd] in G.
    pose proof (good_28 _ _ G) as H28. pose proof (s_bytes_length m buf Hok) as Lb.
    pose proof (len_le_cap m buf Hok) as Hcap.
    cbn [map concat snd] in HB. rewrite <- app_assoc in HB.
    set (rest := concat (map snd ms) ++ tail) in *.
    assert (Ll : s_len buf = length bs + length rest) by (rewrite <- Lb, HB, app_length; reflexivity).
    destruct (good_front k bs rest G) as (A1 & A2 & A3). rewrite <- HB in A1, A2, A3.
    pose proof G as (E & K & D & L1 & S & H2).
    set (part := sub buf 0 (length bs)).
    assert (Ps : s_bytes m part = bs).
    { unfold part. rewrite s_bytes_sub by (assumption || lia). rewrite seg_win by (assumption || lia).
      rewrite HB. unfold seg. cbn [skipn]. rewrite firstn_app, Nat.sub_diag, firstn_all, app_nil_r. reflexivity. }
    assert (Pok : slice_ok m part) by (destruct Hok; split; cbn; lia).
    destruct (sound_end_to_end m part k) as (_ & new & P & T1 & T2 & T3);
      try (rewrite Ps; assumption); try assumption.
    set (next := sub buf (length bs) (length rest)).
    assert (Nok : slice_ok m next) by (destruct Hok; split; cbn; lia).
    assert (Ns : s_bytes m next = rest).
    { unfold next. rewrite s_bytes_sub by (assumption || lia). rewrite seg_win by (assumption || lia).
      rewrite HB. unfold seg. rewrite skipn_app, Nat.sub_diag, skipn_all. cbn [app skipn]. apply firstn_all. }
    destruct (IH fuel next tail Nok HG' Ns HT ltac:(cbn [length] in HF; lia)) as (news & R & F).
    exists (new :: news). split.
    + cbn [read_stream].
      rewrite (proj2 (Nat.ltb_ge _ _)) by lia.
      rewrite (NewMessage_some m buf Hok ltac:(lia) k) by (try assumption; rewrite A2; lia).
      rewrite A2.
      change (([], Done (Some (fresh k), declared bs)) : M (option Message * N)) with
        (ret (Some (fresh k), declared bs)). rewrite bind_ret. rewrite D.
      assert (U : upto buf (length bs) = ret part).
      { unfold upto, reslice. rewrite (proj2 (Nat.leb_le _ _)), (proj2 (Nat.leb_le _ _)) by lia.
        unfold part, sub. cbn [andb]. repeat f_equal; lia. }
      assert (V : from buf (length bs) = ret next).
      { unfold from, reslice. rewrite (proj2 (Nat.leb_le _ _)), (proj2 (Nat.leb_le _ _)) by lia.
        unfold next, sub. cbn [andb]. repeat f_equal; lia. }
      rewrite U, bind_ret, P, V. change (([], Done new) : M Message) with (ret new).
      rewrite !bind_ret, R. change (([], Done news) : M (list Message)) with (ret news).
      rewrite bind_ret. reflexivity.
    + constructor; [|exact F]. cbn [fst snd]. rewrite Ps in T1, T2, T3.
      repeat split; try assumption.
      destruct (parse_header m (fresh k) part [] new (reach_fresh k) Pok P) as (_ & KN & _).
      rewrite KN. destruct k; reflexivity.
Qed.
