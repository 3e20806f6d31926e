(** * ClcProposal: what Proposal.Parse (v1) computes, for every buffer. Proofs only. *)

From Coq Require Import NArith ZArith Bool String Arith List Lia.
From Coq Require Import ZifyBool ZifyNat ZifyN.
From Verif Require Import GoBase GoFmt ClcModel Slices Wire WireLemmas ClcView Steps ClcParse ClcFixed.
Import ListNotations.
Local Open Scope nat_scope.

(** log an error, dump the declared bytes *)
Definition fail_run {A} (err : string) (m : mem) (buf : slice) (L : nat) (a : A) : M A :=
  if (L <=? s_cap buf) then ([err; dump_line (seg (win m buf) 0 L)], Done a)
  else ([err], Panicked).

Lemma fail_run_eq {A} err m buf L (a : A) :
  (log_ln err ;; let* d := upto buf L in errDump m d ;; ret a) = fail_run err m buf L a.
Proof.
  unfold fail_run. rewrite bind_log, (sub_self buf).
  destruct (Nat.leb_spec L (s_cap (sub buf 0 (s_len buf)))) as [H|H]; cbn [s_cap sub] in H.
  - rewrite upto_sub by lia. rewrite bind_ret. unfold errDump. rewrite bind_log.
    rewrite (s_bytes_sub m buf) by lia. rewrite <- sub_self. reflexivity.
  - rewrite upto_sub_panic by lia. reflexivity.
Qed.

Lemma fail_run_ok {A} err m buf L (a : A) : L <= s_cap buf ->
  fail_run err m buf L a = ([err; dump_line (bytes_at (m (s_arr buf)) (s_off buf) L)], Done a).
Proof.
  intros H. unfold fail_run. rewrite (proj2 (Nat.leb_le _ _)) by lia.
  rewrite window_bytes by lia. reflexivity.
Qed.

Lemma fail_run_bad {A} err m buf L (a : A) : s_cap buf < L ->
  fail_run err m buf L a = ([err], Panicked).
Proof. intros H. unfold fail_run. rewrite (proj2 (Nat.leb_gt _ _)) by lia. reflexivity. Qed.

(** ** The IPv6 prefix loop *)

Definition prefix_at (W : list byte) (q k : nat) : IPv6Prefix :=
  mkIPv6Prefix (seg W (q + 17 * k) 16) (bn W (q + 17 * k + 16)).

Definition prefixes_of (W : list byte) (q e : nat) : list IPv6Prefix := map (prefix_at W q) (seq 0 e).

Lemma prefixes_of_S W q e : prefixes_of W q (S e) = prefix_at W q 0 :: prefixes_of W (q + 17) e.
Proof.
  unfold prefixes_of. cbn [seq map]. f_equal. rewrite <- seq_shift, map_map.
  apply map_ext. intros k. unfold prefix_at. f_equal; f_equal; lia.
Qed.

Definition v1_count_err : string := "Error parsing CLC Proposal: IPv6 prefix count too big".

Lemma prefixes_v1_run m buf L : slice_ok m buf -> forall n q acc, 1 <= q -> q <= s_len buf ->
  prefixes_v1 m buf L (q - 1) acc n =
  let e := fitting L q 17 n in
  if s_len buf <? q + 17 * e then panic
  else if e <? n then fail_run v1_count_err m buf L (acc ++ prefixes_of (win m buf) q e)
  else ret (acc ++ prefixes_of (win m buf) q e).
Proof.
  intros Hok. pose proof (len_le_cap _ _ Hok) as Hcap.
  induction n as [|n IH]; intros q acc Hq Hl; cbv zeta.
  - unfold fitting. rewrite Nat.min_0_l. cbn [prefixes_v1 Nat.mul].
    rewrite !(proj2 (Nat.ltb_ge _ _)) by lia. rewrite app_nil_r. reflexivity.
  - cbn [prefixes_v1]. unfold short, IPv6PrefixLen, TrailerLen, EyecatcherLen.
    replace (q - 1 + 1) with q by lia. unfold fitting.
    destruct (L <? q + (17 + 4)) eqn:E.
    + rewrite fail_run_eq.
      replace ((L - 4 - q) / 17) with 0 by lia. rewrite Nat.min_0_r.
      rewrite (proj2 (Nat.ltb_ge _ _)) by lia.
      rewrite (proj2 (Nat.ltb_lt _ _)) by lia. rewrite app_nil_r. reflexivity.
    + assert (HE : Nat.min (S n) ((L - 4 - q) / 17) = S (fitting L (q + 17) 17 n))
        by (unfold fitting; lia).
      rewrite HE.
      destruct (le_lt_dec (q + 17) (s_len buf)) as [H17|H17].
      * rewrite (sub_self buf).
        rewrite (copy_sub m buf Hok) by (rewrite ?zeros_length; lia). rewrite bind_ret.
        rewrite (idx_sub m buf Hok), bind_ret by lia. rewrite <- sub_self. cbn [Nat.add].
        replace (q + 16) with (q + 17 - 1) at 1 by lia.
        rewrite IH by lia. cbv zeta.
        rewrite prefixes_of_S.
        replace (q + 17 + 17 * fitting L (q + 17) 17 n)
          with (q + 17 * S (fitting L (q + 17) 17 n)) by lia.
        change (S (fitting L (q + 17) 17 n) <? S n) with (fitting L (q + 17) 17 n <? n).
        assert (EP : prefix_at (win m buf) q 0
                     = mkIPv6Prefix (seg (win m buf) q 16) (b2n (nth (q + 16) (win m buf) x00)))
          by (unfold prefix_at, bn; f_equal; f_equal; f_equal; lia).
        rewrite EP, <- app_assoc. cbn [app].
        replace (q + 16 - q) with 16 by lia. reflexivity.
      * rewrite (proj2 (Nat.ltb_lt _ _)) by lia.
        rewrite (sub_self buf).
        destruct (le_lt_dec (q + 16) (s_cap buf)) as [C|C].
        -- rewrite (copy_sub m buf Hok) by (rewrite ?zeros_length; lia). rewrite bind_ret.
           rewrite (idx_sub_panic m buf) by lia. reflexivity.
        -- rewrite (copy_sub_panic m buf) by lia. reflexivity.
Qed.

(** ** The IP area *)

Definition v1_area_err : string := "Error parsing CLC Proposal: IP Area Offset too big".

Definition ip_of (W : list byte) (s e : nat) (old : IPInfo) : IPInfo :=
  mkIPInfo (seg W s 4) (bn W (s + 4)) (seg W (s + 5) 2) (bn W (s + 7))
    (i_IPv6Prefixes old ++ prefixes_of W (s + 8) e).

Lemma ip_area_v1_run m buf L s ip : slice_ok m buf -> ipinfo_wf ip ->
  ip_area_v1 m buf L s ip =
  let W := win m buf in
  let c := N.to_nat (bn W (s + 7)) in
  let e := fitting L (s + 8) 17 c in
  if L <? s + 12 then fail_run v1_area_err m buf L None
  else if s_len buf <? s + 8 then panic
  else if s_len buf <? s + 8 + 17 * e then panic
  else if e <? c then fail_run v1_count_err m buf L (Some (ip_of W s e ip))
  else ret (Some (ip_of W s e ip)).
Proof.
  intros Hok Hwf. pose proof (len_le_cap _ _ Hok) as Hcap. red in Hwf.
  unfold ip_area_v1, short, TrailerLen, EyecatcherLen. cbv zeta.
  replace (s + (4 + 1 + 2 + 1 + 4)) with (s + 12) by lia.
  destruct (L <? s + 12) eqn:E; [apply fail_run_eq|].
  destruct (s_len buf <? s + 8) eqn:E8.
  { rewrite (sub_self buf). run_panic m buf Hok. }
  rewrite (sub_self buf). run m buf Hok. rewrite <- sub_self.
  replace (s + 4 - s) with 4 by lia.
  replace (s + 4 + 1 + 2 - (s + 4 + 1)) with 2 by lia.
  replace (s + 4 + 1 + 2) with (s + 8 - 1) by lia.
  rewrite prefixes_v1_run by (assumption || lia). cbv zeta. unfold bn.
  replace (s + 8 - 1) with (s + 7) by lia.
  replace (s + 4 + 1) with (s + 5) by lia.
  clear E8. set (c := N.to_nat _). set (e := fitting L (s + 8) 17 c).
  destruct (s_len buf <? s + 8 + 17 * e); [reflexivity|].
  destruct (e <? c); [|reflexivity].
  unfold fail_run. destruct (L <=? s_cap buf); reflexivity.
Qed.

(** ** The whole message *)

Definition p1_off (W : list byte) : N := num W 38 2.
Definition p1_start (W : list byte) : nat :=
  if (p1_off W =? 40)%N then 80 else 40 + N.to_nat (p1_off W).

Definition p1_of (old : Proposal) (buf : slice) (hdr : Header) (W : list byte) (ip : IPInfo)
    (t : list byte) : Proposal :=
  mkProposal buf hdr (seg W 8 8) (seg W 16 16) (seg W 32 6) (p1_off W)
    (if (p1_off W =? 40)%N then num W 40 8 else p_SMCDGID old)
    (if (p1_off W =? 40)%N then seg W 48 32 else p_reserved old) ip t.

Definition p1_short (old : Proposal) (buf : slice) (hdr : Header) : Proposal :=
  mkProposal buf hdr (p_SenderPeerID old) (p_IBGID old) (p_IBMAC old) (p_IPAreaOffset old)
    (p_SMCDGID old) (p_reserved old) (p_IP old) (p_Trailer old).

Definition p1_run (m : mem) (old : Proposal) (buf : slice) : M Proposal :=
  let bs := s_bytes m buf in
  let W := win m buf in
  let L := N.to_nat (declared bs) in
  let s := p1_start W in
  let c := N.to_nat (bn W (s + 7)) in
  let e := fitting L (s + 8) 17 c in
  if s_len buf <? 8 then panic
  else if L <? 52 then
    fail_run "Error parsing CLC Proposal: message too short" m buf L (p1_short old buf (hdr_of bs))
  else if s_cap buf <? 40 then panic
  else if (p1_off W =? 40)%N && (s_cap buf <? 80) then panic
  else if L <? s + 12 then
    fail_run v1_area_err m buf L (p1_of old buf (hdr_of bs) W (p_IP old) (p_Trailer old))
  else if s_len buf <? s + 8 + 17 * e then panic
  else
    let r := (trailer_log (last4 bs),
              Done (p1_of old buf (hdr_of bs) W (ip_of W s e (p_IP old)) (last4 bs))) in
    if e <? c then bind (fail_run v1_count_err m buf L tt) (fun _ => r) else r.

Lemma p1_tail m buf L s ip t (mk : IPInfo -> list byte -> Proposal) :
  slice_ok m buf -> ipinfo_wf ip -> length t = 4 ->
  (let* r := ip_area_v1 m buf L s ip in
   match r with
   | None => ret (mk ip t)
   | Some ip => let* t := Trailer_Parse m t buf in ret (mk ip t)
   end) =
  let W := win m buf in
  let bs := s_bytes m buf in
  let c := N.to_nat (bn W (s + 7)) in
  let e := fitting L (s + 8) 17 c in
  if L <? s + 12 then fail_run v1_area_err m buf L (mk ip t)
  else if s_len buf <? s + 8 + 17 * e then panic
  else
    let r := (trailer_log (last4 bs), Done (mk (ip_of W s e ip) (last4 bs))) in
    if e <? c then bind (fail_run v1_count_err m buf L tt) (fun _ => r) else r.
Proof.
  intros Hok Hi Ht. rewrite ip_area_v1_run by assumption. cbv zeta.
  set (c := N.to_nat (bn (win m buf) (s + 7))). set (e := fitting L (s + 8) 17 c).
  destruct (L <? s + 12) eqn:EL.
  { unfold fail_run. destruct (L <=? s_cap buf); reflexivity. }
  destruct (s_len buf <? s + 8) eqn:EL8.
  { rewrite (proj2 (Nat.ltb_lt _ _)) by lia. reflexivity. }
  destruct (s_len buf <? s + 8 + 17 * e) eqn:ELE; [reflexivity|].
  assert (ET : forall t, length t = 4 -> Trailer_Parse m t buf =
            (trailer_log (last4 (s_bytes m buf)), Done (last4 (s_bytes m buf)))).
  { intros t' Ht'. rewrite (sub_self buf) at 1.
    apply (Trailer_end m buf); (assumption || lia). }
  destruct (e <? c).
  - unfold fail_run. destruct (L <=? s_cap buf); [|reflexivity].
    rewrite !bind_done, ET by assumption. cbn. rewrite app_nil_r. reflexivity.
  - rewrite bind_ret, ET by assumption. cbn. rewrite app_nil_r. reflexivity.
Qed.

Lemma Proposal_Parse_run m old buf : slice_ok m buf -> proposal_wf old ->
  Proposal_Parse m old buf = p1_run m old buf.
Proof.
  intros Hok (Hh & Hp & Hr & Hi & Ht). pose proof (len_le_cap _ _ Hok) as Hcap.
  pose proof (s_bytes_length m buf Hok) as Hb.
  unfold p1_run, Proposal_Parse. cbv zeta.
  destruct (s_len buf <? 8) eqn:E8.
  { rewrite Header_Parse_panic by (assumption || lia). reflexivity. }
  rewrite Header_Parse_ok, bind_ret by (assumption || lia).
  rewrite declared_hdr by lia.
  set (bs := s_bytes m buf) in *. set (L := N.to_nat (declared bs)).
  destruct (declared bs <? ProposalLen)%N eqn:E52.
  { replace (L <? 52) with true by (unfold L, ProposalLen in *; lia).
    rewrite fail_run_eq. reflexivity. }
  replace (L <? 52) with false by (unfold L, ProposalLen in *; lia).
  unfold HeaderLen, PeerIDLen.
  destruct (s_cap buf <? 40) eqn:E40.
  { rewrite (sub_self buf). run_panic m buf Hok. }
  rewrite (sub_self buf). run m buf Hok. rewrite <- sub_self.
  rewrite be_acc0. fold (num (win m buf) 38 2). fold (p1_off (win m buf)).
  unfold SMCDIPAreaOffset, p1_start, p1_of.
  destruct (p1_off (win m buf) =? 40)%N eqn:EO.
  - destruct (s_cap buf <? 80) eqn:E80.
    { rewrite (sub_self buf). run_panic m buf Hok. }
    rewrite (sub_self buf). run m buf Hok. rewrite <- sub_self.
    rewrite be_acc0. cbn [andb].
    rewrite (p1_tail m buf L 80 (p_IP old) (p_Trailer old)
               (fun ip t => mkProposal buf (hdr_of bs) (seg (win m buf) 8 8) (seg (win m buf) 16 16)
                  (seg (win m buf) 32 6) (p1_off (win m buf)) (BE (seg (win m buf) 40 8))
                  (seg (win m buf) 48 32) ip t)) by assumption.
    reflexivity.
  - rewrite bind_ret. cbn [andb].
    rewrite (p1_tail m buf L _ (p_IP old) (p_Trailer old)
               (fun ip t => mkProposal buf (hdr_of bs) (seg (win m buf) 8 8) (seg (win m buf) 16 16)
                  (seg (win m buf) 32 6) (p1_off (win m buf)) (p_SMCDGID old)
                  (p_reserved old) ip t)) by assumption.
    reflexivity.
Qed.

(** ** Consequences for completely received messages *)

Lemma win_split m buf : slice_ok m buf ->
  forall o n, o + n <= s_len buf -> seg (win m buf) o n = seg (s_bytes m buf) o n.
Proof. intros Hok o n H. apply (seg_win m buf Hok); lia. Qed.

Lemma p1_off_win m buf : slice_ok m buf -> 40 <= s_len buf ->
  p1_off (win m buf) = ip_area_offset (s_bytes m buf).
Proof.
  intros Hok H. unfold p1_off, num, ip_area_offset. rewrite win_split by (assumption || lia).
  pose proof (s_bytes_length m buf Hok). bits_in_bytes.
Qed.

Lemma p1_start_win m buf : slice_ok m buf -> 40 <= s_len buf ->
  p1_start (win m buf) = ip_area_start (s_bytes m buf).
Proof.
  intros Hok H. unfold p1_start, ip_area_start. rewrite p1_off_win by assumption.
  destruct (N.eqb_spec (ip_area_offset (s_bytes m buf)) 40) as [->|]; reflexivity.
Qed.

Lemma bn_win m buf i : slice_ok m buf -> i < s_len buf ->
  bn (win m buf) i = bn (s_bytes m buf) i.
Proof. intros Hok H. unfold bn. rewrite (nth_win m buf Hok) by lia. reflexivity. Qed.

Lemma bn_bits bs i : i < length bs -> bn bs i = bits bs (8 * i) 8.
Proof.
  intros H. unfold bn. symmetry. rewrite (bits_bytes bs i 1) by lia.
  rewrite (seg_S _ _ _ x00), seg_0 by lia. cbn [BE length]. change (256 ^ N.of_nat 0)%N with 1%N. lia.
Qed.

Lemma prefix_view_at bs q k : q + 17 * k + 17 <= length bs ->
  ipv6_prefix_view (prefix_at bs q k) = decode_at ipv6_prefix_body (8 * (q + 17 * k)) bs.
Proof.
  intros H. unfold ipv6_prefix_view, prefix_at, ipv6_prefix_body. cbn [ip6_prefix ip6_prefixLen decode_at].
  replace (8 * (q + 17 * k) / 8) with (q + 17 * k) by lia.
  rewrite bn_bits by lia.
  replace (8 * (q + 17 * k) + 8 * 16) with (8 * (q + 17 * k + 16)) by lia. reflexivity.
Qed.

Lemma prefixes_view bs q e : q + 17 * e <= length bs ->
  map ipv6_prefix_view (prefixes_of bs q e) = entries ipv6_prefix_body q 17 e bs.
Proof.
  intros H. unfold prefixes_of, entries. rewrite map_map. apply map_ext_in.
  intros k Hk. apply in_seq in Hk. apply prefix_view_at. lia.
Qed.

Lemma prefixes_win m buf q e : slice_ok m buf -> q + 17 * e <= s_len buf ->
  prefixes_of (win m buf) q e = prefixes_of (s_bytes m buf) q e.
Proof.
  intros Hok H. apply map_ext_in. intros k Hk. apply in_seq in Hk. unfold prefix_at.
  rewrite win_split, bn_win by (assumption || lia). reflexivity.
Qed.

Lemma ip_view bs s e old : s + 8 <= length bs ->
  ip_area_view (ip_of bs s e old) = decode_at ip_area_body (8 * s) bs.
Proof.
  intros H. unfold ip_area_view, ip_of, ip_area_body. cbn [i_Prefix i_PrefixLen i_reserved2 i_IPv6PrefixesCnt decode_at].
  rewrite !bn_bits by lia.
  replace (8 * s + 8 * 4) with (8 * (s + 4)) by lia.
  replace (8 * (s + 4) + 8) with (8 * (s + 5)) by lia.
  replace (8 * (s + 5) + 8 * 2) with (8 * (s + 7)) by lia.
  replace (8 * s / 8) with s by lia. replace (8 * (s + 5) / 8) with (s + 5) by lia. reflexivity.
Qed.

Lemma ip_of_win m buf s e old : slice_ok m buf -> s + 8 + 17 * e <= s_len buf ->
  ip_of (win m buf) s e old = ip_of (s_bytes m buf) s e old.
Proof.
  intros Hok H. unfold ip_of. rewrite !win_split, !bn_win, prefixes_win by (assumption || lia).
  reflexivity.
Qed.

Lemma fitting_room L q size n : 0 < size -> q + 4 <= L -> q + size * fitting L q size n + 4 <= L.
Proof.
  intros Hs H. unfold fitting.
  assert (size * Nat.min n ((L - 4 - q) / size) <= size * ((L - 4 - q) / size)) by (apply Nat.mul_le_mono_l; lia).
  pose proof (Nat.mul_div_le (L - 4 - q) size). lia.
Qed.

Lemma p1_fixed_view bs old buf ip t : 40 <= length bs ->
  proposal_view (p1_of old buf (hdr_of bs) bs ip t) = decode (clc_header ++ proposal_body) bs.
Proof.
  intros Hb. unfold proposal_view. change (p_Header (p1_of old buf (hdr_of bs) bs ip t)) with (hdr_of bs).
  rewrite hdr_view by lia. unfold p1_of, p1_off, num, clc_header, proposal_body.
  cbn -[decode app bits seg BE b2n N.eqb]. calc_layout. fields.
Qed.

Lemma p1_smcd_view bs old buf ip t : 80 <= length bs -> p1_off bs = 40%N ->
  proposal_smcd_view (p1_of old buf (hdr_of bs) bs ip t) = decode_at proposal_smcd_body (8 * 40) bs.
Proof.
  intros Hb E. unfold proposal_smcd_view, p1_of, proposal_smcd_body. rewrite E.
  cbn -[bits seg BE b2n]. unfold num. fields.
Qed.

Lemma p1_of_win m buf old ip t : slice_ok m buf -> 40 <= s_len buf ->
  (ip_area_offset (s_bytes m buf) = 40%N -> 80 <= s_len buf) ->
  p1_of old buf (hdr_of (s_bytes m buf)) (win m buf) ip t
  = p1_of old buf (hdr_of (s_bytes m buf)) (s_bytes m buf) ip t.
Proof.
  intros Hok H40 H80. unfold p1_of.
  assert (E1 : p1_off (win m buf) = p1_off (s_bytes m buf))
    by (unfold p1_off, num; rewrite win_split by (assumption || lia); reflexivity).
  rewrite <- (p1_off_win m buf) in H80 by assumption. rewrite E1 in H80.
  rewrite !win_split, E1 by (assumption || lia).
  destruct (N.eqb_spec (p1_off (s_bytes m buf)) 40) as [E|E]; [|reflexivity].
  specialize (H80 E). unfold num. rewrite !win_split by (assumption || lia). reflexivity.
Qed.

Lemma p1_off_bytes m buf : slice_ok m buf -> 40 <= s_len buf ->
  p1_off (s_bytes m buf) = ip_area_offset (s_bytes m buf).
Proof.
  intros Hok H. unfold p1_off, num, ip_area_offset. pose proof (s_bytes_length m buf Hok). bits_in_bytes.
Qed.

(** messages with room for the IP area *)
Lemma Proposal_decode m buf old : slice_ok m buf -> proposal_wf old ->
  let bs := s_bytes m buf in
  let L := N.to_nat (declared bs) in
  let start := ip_area_start bs in
  let cnt := prefix_count bs start in
  let n := fitting L (start + 8) 17 cnt in
  52 <= L -> L <= s_len buf -> start + 12 <= L ->
  exists p,
    Proposal_Parse m old buf =
    ((if n <? cnt then ["Error parsing CLC Proposal: IPv6 prefix count too big"%string;
                        dump_line (bytes_at bs 0 L)] else [])
     ++ trailer_log (last4 bs), Done p) /\
    proposal_view p = decode (clc_header ++ proposal_body) bs /\
    (ip_area_offset bs = 40%N -> proposal_smcd_view p = decode_at proposal_smcd_body (8 * 40) bs) /\
    (ip_area_offset bs <> 40%N -> proposal_smcd_view p = proposal_smcd_view old) /\
    ip_area_view (p_IP p) = decode_at ip_area_body (8 * start) bs /\
    (exists new, i_IPv6Prefixes (p_IP p) = i_IPv6Prefixes (p_IP old) ++ new /\
       map ipv6_prefix_view new = entries ipv6_prefix_body (start + 8) 17 n bs) /\
    p_Trailer p = last4 bs /\ p_Raw p = buf.
Proof.
  intros Hok Hwf bs L start cnt n H52 HL Hroom.
  pose proof (len_le_cap _ _ Hok) as Hcap.
  pose proof (s_bytes_length m buf Hok) as Hb. fold bs in Hb.
  assert (Hs : p1_start (win m buf) = start) by (apply p1_start_win; [assumption|lia]).
  assert (Ho : p1_off (win m buf) = ip_area_offset bs) by (apply p1_off_win; [assumption|lia]).
  assert (H80 : ip_area_offset bs = 40%N -> 80 <= s_len buf)
    by (intros E; unfold start, ip_area_start in Hroom; rewrite E in Hroom; lia).
  assert (Hcnt : N.to_nat (bn (win m buf) (start + 7)) = cnt).
  { unfold cnt, prefix_count. rewrite bn_win by (assumption || lia). fold bs.
    rewrite bn_bits by lia. reflexivity. }
  assert (Hn : start + 8 + 17 * n + 4 <= L) by (apply (fitting_room L (start + 8) 17 cnt); lia).
  exists (p1_of old buf (hdr_of bs) bs (ip_of bs start n (p_IP old)) (last4 bs)).
  split; [|split; [|split; [|split; [|split; [|split; [|split; reflexivity]]]]]].
  - rewrite Proposal_Parse_run by assumption. unfold p1_run. cbv zeta.
    fold bs. rewrite Hs, Ho, Hcnt. fold L. fold n.
    rewrite (proj2 (Nat.ltb_ge (s_len buf) 8)) by lia.
    rewrite (proj2 (Nat.ltb_ge L 52)) by lia.
    rewrite (proj2 (Nat.ltb_ge (s_cap buf) 40)) by lia.
    replace ((ip_area_offset bs =? 40)%N && (s_cap buf <? 80))%bool with false
      by (destruct (N.eqb_spec (ip_area_offset bs) 40) as [E|]; [specialize (H80 E)|]; lia).
    rewrite (proj2 (Nat.ltb_ge L (start + 12))) by lia.
    rewrite (proj2 (Nat.ltb_ge (s_len buf) (start + 8 + 17 * n))) by lia.
    assert (EQ : forall ip t, p1_of old buf (hdr_of bs) (win m buf) ip t
                              = p1_of old buf (hdr_of bs) bs ip t)
      by (intros; apply p1_of_win; (assumption || lia)).
    rewrite !EQ.
    rewrite (ip_of_win m buf) by (assumption || lia). fold bs.
    destruct (n <? cnt); [|reflexivity].
    rewrite fail_run_ok by lia. rewrite bind_done.
    cbn [fst snd]. unfold v1_count_err. do 4 f_equal.
    rewrite <- window_bytes by lia. rewrite win_split by (assumption || lia). reflexivity.
  - apply p1_fixed_view. lia.
  - intros E. apply p1_smcd_view; [rewrite Hb; apply H80, E|]. unfold bs. rewrite p1_off_bytes by (assumption || lia). exact E.
  - intros E. unfold proposal_smcd_view, p1_of. cbn [p_SMCDGID p_reserved].
    unfold bs. rewrite p1_off_bytes by (assumption || lia). fold bs.
    apply N.eqb_neq in E. rewrite E. reflexivity.
  - apply ip_view. lia.
  - exists (prefixes_of bs (start + 8) n). split; [reflexivity|]. apply prefixes_view. lia.
Qed.

(** messages without room for the IP area: everything behind the fixed part keeps its value,
    except for the SMC-D fields, which are read unconditionally if the offset is 40 *)
Lemma Proposal_no_room m buf old : slice_ok m buf -> proposal_wf old ->
  let bs := s_bytes m buf in
  let L := N.to_nat (declared bs) in
  let start := ip_area_start bs in
  52 <= L -> L <= s_len buf -> L < start + 12 ->
  (ip_area_offset bs = 40%N -> 80 <= s_cap buf) ->
  exists p,
    Proposal_Parse m old buf =
    (["Error parsing CLC Proposal: IP Area Offset too big"%string; dump_line (bytes_at bs 0 L)], Done p) /\
    proposal_view p = decode (clc_header ++ proposal_body) bs /\
    (ip_area_offset bs = 40%N -> proposal_smcd_view p =
       decode_at proposal_smcd_body (8 * 40) (bytes_at (m (s_arr buf)) (s_off buf) (s_cap buf))) /\
    (ip_area_offset bs <> 40%N -> proposal_smcd_view p = proposal_smcd_view old) /\
    p_IP p = p_IP old /\ p_Trailer p = p_Trailer old /\ p_Raw p = buf.
Proof.
  intros Hok Hwf bs L start H52 HL Hroom H80.
  pose proof (len_le_cap _ _ Hok) as Hcap.
  pose proof (s_bytes_length m buf Hok) as Hb. fold bs in Hb.
  assert (Hs : p1_start (win m buf) = start) by (apply p1_start_win; [assumption|lia]).
  assert (Ho : p1_off (win m buf) = ip_area_offset bs) by (apply p1_off_win; [assumption|lia]).
  exists (p1_of old buf (hdr_of bs) (win m buf) (p_IP old) (p_Trailer old)).
  split; [|split; [|split; [|split; [|split; [|split; reflexivity]]]]].
  - rewrite Proposal_Parse_run by assumption. unfold p1_run. cbv zeta.
    fold bs. rewrite Hs, Ho. fold L.
    rewrite (proj2 (Nat.ltb_ge (s_len buf) 8)) by lia.
    rewrite (proj2 (Nat.ltb_ge L 52)) by lia.
    rewrite (proj2 (Nat.ltb_ge (s_cap buf) 40)) by lia.
    replace ((ip_area_offset bs =? 40)%N && (s_cap buf <? 80))%bool with false
      by (destruct (N.eqb_spec (ip_area_offset bs) 40) as [E|]; [specialize (H80 E)|]; lia).
    rewrite (proj2 (Nat.ltb_lt L (start + 12))) by lia.
    rewrite fail_run_ok by lia. unfold v1_area_err. do 4 f_equal.
    rewrite <- window_bytes by lia. rewrite win_split by (assumption || lia). reflexivity.
  - unfold proposal_view. change (p_Header (p1_of old buf (hdr_of bs) (win m buf) (p_IP old) (p_Trailer old))) with (hdr_of bs).
    rewrite hdr_view by lia. unfold p1_of. cbn [p_SenderPeerID p_IBGID p_IBMAC p_IPAreaOffset].
    rewrite Ho, !win_split by (assumption || lia). fold bs. unfold ip_area_offset, clc_header, proposal_body.
    calc_layout. fields.
  - intros E. unfold proposal_smcd_view, p1_of, proposal_smcd_body. cbn [p_SMCDGID p_reserved].
    change (bytes_at (m (s_arr buf)) (s_off buf) (s_cap buf)) with (win m buf).
    rewrite Ho, E. cbn [N.eqb Pos.eqb decode_at]. unfold num.
    assert (80 <= length (win m buf)) by (rewrite (win_length m buf Hok); apply H80, E).
    fields.
  - intros E. unfold proposal_smcd_view, p1_of. cbn [p_SMCDGID p_reserved]. rewrite Ho.
    apply N.eqb_neq in E. rewrite E. reflexivity.
  - reflexivity.
Qed.

(** ** Panics *)

Lemma Proposal_panics m buf old : slice_ok m buf -> proposal_wf old ->
  let bs := s_bytes m buf in
  let back := bytes_at (m (s_arr buf)) (s_off buf) (s_cap buf) in
  let L := N.to_nat (declared bs) in
  let start := ip_area_start back in
  let cnt := prefix_count back start in
  let n := fitting L (start + 8) 17 cnt in
  (snd (Proposal_Parse m old buf) = Panicked <->
   s_len buf < 8 \/
   (L < 52 /\ s_cap buf < L) \/
   (52 <= L /\
    (s_cap buf < 40 \/
     (ip_area_offset back = 40%N /\ s_cap buf < 80) \/
     (L < start + 12 /\ s_cap buf < L) \/
     (start + 12 <= L /\
      (s_len buf < start + 8 + 17 * n \/ (n < cnt /\ s_cap buf < L)))))) /\
  snd (Proposal_Parse m old buf) <> Exited.
Proof.
  intros Hok Hwf bs back L start cnt n.
  pose proof (len_le_cap _ _ Hok) as Hcap.
  change back with (win m buf) in *. clear back.
  pose proof (win_length m buf Hok) as Hw.
  rewrite Proposal_Parse_run by assumption. unfold p1_run. cbv zeta. fold bs. fold L.
  destruct (s_len buf <? 8) eqn:E8.
  { cbn [snd panic]. split; [|discriminate]. split; [intros; lia|reflexivity]. }
  destruct (L <? 52) eqn:E52.
  { unfold fail_run. destruct (L <=? s_cap buf) eqn:EC; cbn [snd];
      (split; [|discriminate]); (split; [try discriminate; intros; lia|intros; try reflexivity; lia]). }
  destruct (s_cap buf <? 40) eqn:E40.
  { cbn [snd panic]. split; [|discriminate]. split; [intros; lia|reflexivity]. }
  assert (Ho : p1_off (win m buf) = ip_area_offset (win m buf))
    by (unfold p1_off, num, ip_area_offset; bits_in_bytes).
  assert (Hs : p1_start (win m buf) = start).
  { unfold p1_start, start, ip_area_start. rewrite Ho.
    destruct (N.eqb_spec (ip_area_offset (win m buf)) 40) as [->|]; reflexivity. }
  rewrite Hs, Ho.
  destruct ((ip_area_offset (win m buf) =? 40)%N && (s_cap buf <? 80)) eqn:E80.
  { cbn [snd panic]. split; [|discriminate]. split; [intros; lia|reflexivity]. }
  destruct (L <? start + 12) eqn:EL.
  { unfold fail_run. destruct (L <=? s_cap buf) eqn:EC; cbn [snd];
      (split; [|discriminate]); (split; [try discriminate; intros; lia|intros; try reflexivity; lia]). }
  destruct (s_len buf <? start + 8) eqn:EL8.
  { rewrite (proj2 (Nat.ltb_lt _ _)) by lia.
    cbn [snd panic]. split; [|discriminate]. split; [intros; lia|reflexivity]. }
  assert (Hcnt : N.to_nat (bn (win m buf) (start + 7)) = cnt).
  { unfold cnt, prefix_count. rewrite bn_bits by lia. reflexivity. }
  rewrite Hcnt. fold n.
  destruct (s_len buf <? start + 8 + 17 * n) eqn:EN.
  { cbn [snd panic]. split; [|discriminate]. split; [intros; lia|reflexivity]. }
  destruct (n <? cnt) eqn:EC.
  - unfold fail_run. destruct (L <=? s_cap buf) eqn:EP; cbn [snd bind];
      (split; [|discriminate]); (split; [try discriminate; intros; lia|intros; try reflexivity; lia]).
  - cbn [snd]. split; [|discriminate]. split; [discriminate|intros; lia].
Qed.

(** on a complete message *)
Lemma Proposal_complete_panics m buf old : slice_ok m buf -> proposal_wf old ->
  let bs := s_bytes m buf in
  let L := N.to_nat (declared bs) in
  8 <= s_len buf -> L <= s_len buf ->
  (snd (Proposal_Parse m old buf) = Panicked <->
   52 <= L /\ ip_area_offset bs = 40%N /\ s_cap buf < 80).
Proof.
  intros Hok Hwf bs L H8 HL. pose proof (len_le_cap _ _ Hok) as Hcap.
  destruct (Proposal_panics m buf old Hok Hwf) as [HP _]. cbv zeta in HP.
  change (bytes_at (m (s_arr buf)) (s_off buf) (s_cap buf)) with (win m buf) in HP.
  fold bs in HP. fold L in HP. rewrite HP. clear HP.
  destruct (le_lt_dec 52 L) as [H52|H52]; [|split; intros; lia].
  assert (Ho : ip_area_offset (win m buf) = ip_area_offset bs).
  { unfold bs. rewrite <- (p1_off_win m buf) by (assumption || lia).
    unfold p1_off, num, ip_area_offset. pose proof (win_length m buf Hok). symmetry. bits_in_bytes. }
  rewrite Ho. set (start := ip_area_start (win m buf)).
  set (cnt := prefix_count (win m buf) start).
  split.
  - intros [?|[?|[_ [?|[?|[?|[Hr [Hn|?]]]]]]]]; try lia.
    pose proof (fitting_room L (start + 8) 17 cnt). lia.
  - intros. right. right. split; [assumption|]. right. left. lia.
Qed.

(** ** Invariants, re-parsing, locality *)

Lemma p1_ip_wf W s e old : s + 8 <= length W -> ipinfo_wf (ip_of W s e old).
Proof. intros. unfold ipinfo_wf, ip_of. cbn [i_reserved2]. rewrite seg_length; lia. Qed.

Lemma Proposal_keeps_wf m buf old logs p : slice_ok m buf -> proposal_wf old ->
  Proposal_Parse m old buf = (logs, Done p) -> proposal_wf p.
Proof.
  intros Hok Hwf. pose proof (len_le_cap _ _ Hok) as Hcap.
  pose proof (s_bytes_length m buf Hok) as Hb. pose proof (win_length m buf Hok) as Hw.
  rewrite Proposal_Parse_run by assumption. unfold p1_run. cbv zeta.
  set (bs := s_bytes m buf) in *. set (L := N.to_nat (declared bs)).
  set (s := p1_start (win m buf)). set (c := N.to_nat (bn (win m buf) (s + 7))).
  set (e := fitting L (s + 8) 17 c).
  destruct Hwf as (Hh & Hp & Hr & Hi & Ht).
  destruct (s_len buf <? 8) eqn:E8; [discriminate|].
  assert (HW := hdr_wf bs).
  destruct (L <? 52) eqn:E52.
  { unfold fail_run. destruct (L <=? s_cap buf); [|discriminate]. intros [= <- <-].
    unfold proposal_wf. cbn. repeat split; try assumption. apply HW; lia. }
  destruct (s_cap buf <? 40) eqn:E40; [discriminate|].
  destruct ((p1_off (win m buf) =? 40)%N && (s_cap buf <? 80)) eqn:E80; [discriminate|].
  assert (G : forall ip t, ipinfo_wf ip -> length t = 4 ->
                proposal_wf (p1_of old buf (hdr_of bs) (win m buf) ip t)).
  { intros ip t Hip Ht'. unfold proposal_wf, p1_of.
    cbn [p_Header p_SenderPeerID p_reserved p_IP p_Trailer].
    repeat split; try assumption.
    - apply HW; lia.
    - rewrite seg_length; lia.
    - destruct (p1_off (win m buf) =? 40)%N; [|assumption]. rewrite seg_length; lia. }
  destruct (L <? s + 12) eqn:EL.
  { unfold fail_run. destruct (L <=? s_cap buf); [|discriminate]. intros [= <- <-]. apply G; assumption. }
  destruct (s_len buf <? s + 8 + 17 * e) eqn:EN; [discriminate|].
  assert (G' : proposal_wf (p1_of old buf (hdr_of bs) (win m buf) (ip_of (win m buf) s e (p_IP old)) (last4 bs))).
  { apply G; [apply p1_ip_wf; lia|apply last4_length; lia]. }
  destruct (e <? c).
  - unfold fail_run. destruct (L <=? s_cap buf); [|discriminate]. rewrite bind_done. cbn [fst snd].
    intros [= <- <-]. exact G'.
  - intros [= <- <-]. exact G'.
Qed.

(** what a used object makes different *)
Lemma Proposal_again m buf old : slice_ok m buf -> proposal_wf old ->
  let bs := s_bytes m buf in
  let L := N.to_nat (declared bs) in
  52 <= L -> L <= s_len buf -> ip_area_start bs + 12 <= L ->
  exists logs p0,
    Proposal_Parse m Proposal_zero buf = (logs, Done p0) /\
    Proposal_Parse m old buf = (logs, Done
      {| p_Raw := p_Raw p0; p_Header := p_Header p0; p_SenderPeerID := p_SenderPeerID p0;
         p_IBGID := p_IBGID p0; p_IBMAC := p_IBMAC p0; p_IPAreaOffset := p_IPAreaOffset p0;
         p_SMCDGID := if (ip_area_offset bs =? 40)%N then p_SMCDGID p0 else p_SMCDGID old;
         p_reserved := if (ip_area_offset bs =? 40)%N then p_reserved p0 else p_reserved old;
         p_IP := {| i_Prefix := i_Prefix (p_IP p0); i_PrefixLen := i_PrefixLen (p_IP p0);
                    i_reserved2 := i_reserved2 (p_IP p0);
                    i_IPv6PrefixesCnt := i_IPv6PrefixesCnt (p_IP p0);
                    i_IPv6Prefixes := i_IPv6Prefixes (p_IP old) ++ i_IPv6Prefixes (p_IP p0) |};
         p_Trailer := p_Trailer p0 |}).
Proof.
  intros Hok Hwf bs L H52 HL Hroom. pose proof (len_le_cap _ _ Hok) as Hcap.
  assert (Hs : p1_start (win m buf) = ip_area_start bs) by (apply p1_start_win; [assumption|lia]).
  assert (Ho : p1_off (win m buf) = ip_area_offset bs) by (apply p1_off_win; [assumption|lia]).
  assert (H80 : ip_area_offset bs = 40%N -> 80 <= s_len buf)
    by (intros E; unfold ip_area_start in Hroom; rewrite E in Hroom; lia).
  rewrite !Proposal_Parse_run by (assumption || (repeat split)).
  unfold p1_run. cbv zeta. fold bs. rewrite Hs, Ho. fold L.
  set (s := ip_area_start bs) in *. set (c := N.to_nat (bn (win m buf) (s + 7))).
  set (e := fitting L (s + 8) 17 c).
  assert (Hn : s + 8 + 17 * e + 4 <= L) by (apply (fitting_room L (s + 8) 17 c); lia).
  rewrite !(proj2 (Nat.ltb_ge (s_len buf) 8)) by lia.
  rewrite !(proj2 (Nat.ltb_ge L 52)) by lia.
  rewrite !(proj2 (Nat.ltb_ge (s_cap buf) 40)) by lia.
  replace ((ip_area_offset bs =? 40)%N && (s_cap buf <? 80))%bool with false
    by (destruct (N.eqb_spec (ip_area_offset bs) 40) as [E|]; [specialize (H80 E)|]; lia).
  rewrite !(proj2 (Nat.ltb_ge L (s + 12))) by lia.
  rewrite !(proj2 (Nat.ltb_ge (s_len buf) (s + 8 + 17 * e))) by lia.
  set (t := last4 bs).
  assert (EQ : forall logs : list string,
    (logs, Done (p1_of old buf (hdr_of bs) (win m buf) (ip_of (win m buf) s e (p_IP old)) t)) =
    (logs, Done (let p0 := p1_of Proposal_zero buf (hdr_of bs) (win m buf) (ip_of (win m buf) s e (p_IP Proposal_zero)) t in
      {| p_Raw := p_Raw p0; p_Header := p_Header p0; p_SenderPeerID := p_SenderPeerID p0;
         p_IBGID := p_IBGID p0; p_IBMAC := p_IBMAC p0; p_IPAreaOffset := p_IPAreaOffset p0;
         p_SMCDGID := if (ip_area_offset bs =? 40)%N then p_SMCDGID p0 else p_SMCDGID old;
         p_reserved := if (ip_area_offset bs =? 40)%N then p_reserved p0 else p_reserved old;
         p_IP := {| i_Prefix := i_Prefix (p_IP p0); i_PrefixLen := i_PrefixLen (p_IP p0);
                    i_reserved2 := i_reserved2 (p_IP p0);
                    i_IPv6PrefixesCnt := i_IPv6PrefixesCnt (p_IP p0);
                    i_IPv6Prefixes := i_IPv6Prefixes (p_IP old) ++ i_IPv6Prefixes (p_IP p0) |};
         p_Trailer := p_Trailer p0 |}))).
  { intros logs. unfold p1_of, ip_of. rewrite Ho. cbv zeta.
    cbn [p_Raw p_Header p_SenderPeerID p_IBGID p_IBMAC p_IPAreaOffset p_SMCDGID p_reserved p_IP p_Trailer
         i_Prefix i_PrefixLen i_reserved2 i_IPv6PrefixesCnt i_IPv6Prefixes IPInfo_zero Proposal_zero app].
    destruct (ip_area_offset bs =? 40)%N; reflexivity. }
  destruct (e <? c).
  - rewrite fail_run_ok by lia. rewrite !bind_done. cbn [fst snd].
    eexists. eexists. split; [reflexivity|]. rewrite EQ. reflexivity.
  - eexists. eexists. split; [reflexivity|]. rewrite EQ. reflexivity.
Qed.

Lemma Proposal_local m1 m2 buf old : slice_ok m1 buf -> slice_ok m2 buf -> proposal_wf old ->
  s_bytes m1 buf = s_bytes m2 buf ->
  let bs := s_bytes m1 buf in
  N.to_nat (declared bs) <= s_len buf ->
  (ip_area_offset bs = 40%N -> 80 <= s_len buf) ->
  Proposal_Parse m1 old buf = Proposal_Parse m2 old buf.
Proof.
  intros Hok1 Hok2 Hwf Eb bs HL H80. pose proof (len_le_cap _ _ Hok1) as Hcap.
  rewrite !Proposal_Parse_run by assumption. unfold p1_run. cbv zeta.
  rewrite <- Eb. fold bs. set (L := N.to_nat (declared bs)) in *.
  destruct (s_len buf <? 8) eqn:E8; [reflexivity|].
  assert (FR : forall A err (a : A), fail_run err m1 buf L a = fail_run err m2 buf L a).
  { intros. unfold fail_run. destruct (L <=? s_cap buf); [|reflexivity].
    rewrite !(win_split _ buf) by (assumption || lia). rewrite Eb. reflexivity. }
  destruct (L <? 52) eqn:E52; [apply FR|].
  assert (Hs : p1_start (win m1 buf) = p1_start (win m2 buf))
    by (rewrite !p1_start_win by (assumption || lia); rewrite Eb; reflexivity).
  assert (Ho : p1_off (win m1 buf) = p1_off (win m2 buf))
    by (rewrite !p1_off_win by (assumption || lia); rewrite Eb; reflexivity).
  assert (EP : forall ip t, p1_of old buf (hdr_of bs) (win m1 buf) ip t = p1_of old buf (hdr_of bs) (win m2 buf) ip t).
  { intros. unfold bs. rewrite p1_of_win by (assumption || lia). rewrite Eb.
    rewrite p1_of_win; (try assumption; try lia); rewrite <- Eb; [reflexivity|exact H80]. }
  rewrite <- Hs, <- Ho. set (s := p1_start (win m1 buf)).
  destruct (s_cap buf <? 40); [reflexivity|].
  destruct ((p1_off (win m1 buf) =? 40)%N && (s_cap buf <? 80)); [reflexivity|].
  destruct (L <? s + 12) eqn:EL; [rewrite EP; apply FR|].
  assert (EB : bn (win m1 buf) (s + 7) = bn (win m2 buf) (s + 7))
    by (rewrite !bn_win by (assumption || lia); rewrite Eb; reflexivity).
  rewrite <- EB. set (c := N.to_nat (bn (win m1 buf) (s + 7))). set (e := fitting L (s + 8) 17 c).
  assert (Hn : s + 8 + 17 * e + 4 <= L) by (apply (fitting_room L (s + 8) 17 c); lia).
  assert (EI : ip_of (win m1 buf) s e (p_IP old) = ip_of (win m2 buf) s e (p_IP old))
    by (rewrite !ip_of_win by (assumption || lia); rewrite Eb; reflexivity).
  rewrite EI, EP. destruct (s_len buf <? s + 8 + 17 * e); [reflexivity|].
  rewrite FR. reflexivity.
Qed.
