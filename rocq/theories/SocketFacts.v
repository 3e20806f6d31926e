(** * SocketFacts: address parsing and the behaviours of Dial and Listen. *)

From Coq Require Import NArith Bool String Ascii Arith List Lia.
From Verif Require Import GoBase SocketModel SocketSpec.
Import ListNotations.
Local Open Scope string_scope.

(** ** Strings *)

Lemma occurs_app : forall c a b, occurs c (a ++ b) <-> occurs c a \/ occurs c b.
Proof. intros c a b. induction a; cbn; [tauto|]. rewrite IHa. tauto. Qed.

Lemma sapp_assoc : forall a b c : string, (a ++ b) ++ c = a ++ b ++ c.
Proof. induction a; cbn; intros; [reflexivity|]. now rewrite IHa. Qed.

Lemma sapp_nil : forall a : string, a ++ "" = a.
Proof. induction a; cbn; [reflexivity|]. now rewrite IHa. Qed.

Lemma slen_app : forall a b, String.length (a ++ b) = String.length a + String.length b.
Proof. induction a; cbn; intros; [reflexivity|]. now rewrite IHa. Qed.

Lemma substring_all : forall s, substring 0 (String.length s) s = s.
Proof. induction s; cbn; [reflexivity|]. now rewrite IHs. Qed.

Lemma substring_app_r : forall a b n, substring (String.length a) n (a ++ b) = substring 0 n b.
Proof. induction a; cbn; intros; [reflexivity|]. apply IHa. Qed.

Lemma substring_app_l : forall a b, substring 0 (String.length a) (a ++ b) = a.
Proof.
  induction a; cbn; intros.
  - now destruct b.
  - now rewrite IHa.
Qed.

Lemma str_from_app : forall a b, str_from (a ++ b) (String.length a) = b.
Proof.
  intros. unfold str_from. rewrite slen_app, substring_app_r.
  replace (String.length a + String.length b - String.length a) with (String.length b) by lia.
  apply substring_all.
Qed.

Lemma str_from_0 : forall s, str_from s 0 = s.
Proof. intros. unfold str_from. rewrite Nat.sub_0_r. apply substring_all. Qed.

Lemma str_slice_app : forall a b, str_slice (a ++ b) 0 (String.length a) = a.
Proof. intros. unfold str_slice. rewrite Nat.sub_0_r. apply substring_app_l. Qed.

Lemma str_slice_mid : forall a b c,
  str_slice (a ++ b ++ c) (String.length a) (String.length a + String.length b) = b.
Proof.
  intros. unfold str_slice. rewrite substring_app_r.
  replace (String.length a + String.length b - String.length a) with (String.length b) by lia.
  apply substring_app_l.
Qed.

Lemma index_byte_spec : forall c s,
  match index_byte c s with
  | None => ~ occurs c s
  | Some i => exists a b, s = a ++ String c b /\ String.length a = i /\ ~ occurs c a
  end.
Proof.
  intros c. induction s as [|d s]; cbn; [tauto|].
  destruct (Ascii.eqb_spec d c) as [->|N].
  - exists "", s. cbn. tauto.
  - destruct (index_byte c s).
    + destruct IHs as [a [b [-> [H1 H2]]]]. exists (String d a), b. cbn. rewrite H1. intuition.
    + tauto.
Qed.

Lemma last_index_byte_spec : forall c s,
  match last_index_byte c s with
  | None => ~ occurs c s
  | Some i => exists a b, s = a ++ String c b /\ String.length a = i /\ ~ occurs c b
  end.
Proof.
  intros c. induction s as [|d s]; cbn; [tauto|].
  destruct (last_index_byte c s).
  - destruct IHs as [a [b [-> [H1 H2]]]]. exists (String d a), b. cbn. rewrite H1. intuition.
  - destruct (Ascii.eqb_spec d c) as [->|N].
    + exists "", s. cbn. tauto.
    + tauto.
Qed.

Lemma index_byte_none : forall c s, index_byte c s = None <-> ~ occurs c s.
Proof.
  intros c s. assert (H := index_byte_spec c s). destruct (index_byte c s); [|tauto].
  destruct H as [a [b [-> _]]]. split; [discriminate|]. intros H. exfalso. apply H.
  rewrite occurs_app. right. now left.
Qed.

Lemma index_byte_first : forall c a b, ~ occurs c a ->
  index_byte c (a ++ String c b) = Some (String.length a).
Proof.
  intros c. induction a as [|d a]; cbn; intros b H.
  - now rewrite Ascii.eqb_refl.
  - destruct (Ascii.eqb_spec d c); [tauto|]. rewrite IHa by tauto. reflexivity.
Qed.

Lemma last_index_byte_none : forall c s, last_index_byte c s = None <-> ~ occurs c s.
Proof.
  intros c s. assert (H := last_index_byte_spec c s). destruct (last_index_byte c s); [|tauto].
  destruct H as [a [b [-> _]]]. split; [discriminate|]. intros H. exfalso. apply H.
  rewrite occurs_app. right. now left.
Qed.

Lemma last_index_byte_last : forall c a b, ~ occurs c b ->
  last_index_byte c (a ++ String c b) = Some (String.length a).
Proof.
  intros c. induction a as [|d a]; cbn; intros b H.
  - apply last_index_byte_none in H. rewrite H, Ascii.eqb_refl. reflexivity.
  - rewrite IHa by assumption. reflexivity.
Qed.

(** ** SplitHostPort *)

Lemma app_eq_length : forall a b c d : string,
  a ++ b = c ++ d -> String.length a = String.length c -> a = c /\ b = d.
Proof.
  induction a; destruct c; cbn; intros d H L; try discriminate; [tauto|].
  injection H as -> H. destruct (IHa b c d H) as [-> ->]; [lia|]. tauto.
Qed.

Lemma split_complete : forall address h p,
  splits address h p -> SplitHostPort address = inl (h, p).
Proof.
  intros address h p [[Hh1 Hh2] [[Hp1 Hp2] [Hp3 [[-> Hh3]| ->]]]].
  - unfold SplitHostPort.
    change (h ++ ":" ++ p) with (h ++ String ":" p).
    rewrite last_index_byte_last by assumption.
    rewrite str_slice_app. apply index_byte_none in Hh3 as Hh3'. rewrite Hh3'.
    rewrite str_from_0.
    assert (E1 : index_byte "[" (h ++ String ":" p) = None).
    { apply index_byte_none. rewrite occurs_app. cbn. intuition discriminate. }
    assert (E2 : index_byte "]" (h ++ String ":" p) = None).
    { apply index_byte_none. rewrite occurs_app. cbn. intuition discriminate. }
    rewrite E1, E2.
    replace (str_from (h ++ String ":" p) (String.length h + 1)) with p.
    2:{ change (String ":" p) with (":" ++ p). rewrite <- sapp_assoc.
        replace (String.length h + 1) with (String.length (h ++ ":")) by (rewrite slen_app; reflexivity).
        now rewrite str_from_app. }
    destruct h as [|d h]; [reflexivity|]. cbn [append String.get].
    assert (d <> "["%char) by (cbn in Hh1; tauto).
    destruct d as [[] [] [] [] [] [] [] []]; try reflexivity. now destruct H.
  - unfold SplitHostPort.
    assert (E : "[" ++ h ++ "]:" ++ p = ("[" ++ h ++ "]") ++ String ":" p).
    { rewrite !sapp_assoc. reflexivity. }
    rewrite E. rewrite last_index_byte_last by assumption.
    assert (E0 : String.get 0 (("[" ++ h ++ "]") ++ String ":" p) = Some "["%char) by reflexivity.
    rewrite E0. clear E0.
    assert (E1 : ("[" ++ h ++ "]") ++ String ":" p = ("[" ++ h) ++ String "]" (String ":" p)).
    { rewrite !sapp_assoc. reflexivity. }
    assert (E2 : index_byte "]" (("[" ++ h ++ "]") ++ String ":" p) = Some (String.length ("[" ++ h))).
    { rewrite E1. apply index_byte_first. rewrite occurs_app. cbn. intuition discriminate. }
    rewrite E2.
    assert (L : String.length ("[" ++ h ++ "]") = String.length ("[" ++ h) + 1).
    { cbn. rewrite slen_app. reflexivity. }
    rewrite L.
    destruct (Nat.eqb_spec (String.length ("[" ++ h) + 1)
                (String.length (("[" ++ h ++ "]") ++ String ":" p))) as [X|_].
    { exfalso. rewrite (slen_app ("[" ++ h ++ "]")), L in X. cbn in X. lia. }
    rewrite Nat.eqb_refl.
    replace (str_from (("[" ++ h ++ "]") ++ String ":" p) 1) with (h ++ "]:" ++ p).
    2:{ rewrite E1, sapp_assoc. change 1 with (String.length "["). now rewrite str_from_app. }
    rewrite <- L, str_from_app.
    assert (E3 : index_byte "[" (h ++ "]:" ++ p) = None).
    { apply index_byte_none. rewrite occurs_app. cbn. intuition discriminate. }
    assert (E4 : index_byte "]" (String ":" p) = None).
    { apply index_byte_none. cbn. intuition discriminate. }
    rewrite E3, E4. f_equal. f_equal.
    + rewrite E1, sapp_assoc. apply (str_slice_mid "[" h).
    + change (String ":" p) with (":" ++ p). rewrite <- sapp_assoc.
      replace (String.length ("[" ++ h ++ "]") + 1) with (String.length (("[" ++ h ++ "]") ++ ":"))
        by (rewrite slen_app; reflexivity).
      apply str_from_app.
Qed.

Lemma split_sound : forall address h p,
  SplitHostPort address = inl (h, p) -> splits address h p.
Proof.
  intros address h p. unfold SplitHostPort.
  assert (HL := last_index_byte_spec ":" address).
  destruct (last_index_byte ":" address) as [i|]; [|discriminate].
  destruct HL as [a [b [E [L Nb]]]].
  destruct (match String.get 0 address with Some "["%char => true | _ => false end) eqn:Br.
  - assert (G : String.get 0 address = Some "["%char).
    { destruct (String.get 0 address) as [c|]; [|discriminate].
      destruct c as [[] [] [] [] [] [] [] []]; try discriminate Br. reflexivity. }
    rewrite G. assert (HE := index_byte_spec "]" address).
    destruct (index_byte "]" address) as [e|]; [|discriminate].
    destruct HE as [x [y [Ey [Lx Nx]]]].
    destruct (e + 1 =? String.length address)%nat; [discriminate|].
    destruct (Nat.eqb_spec (e + 1) i) as [Ei|_].
    2:{ unfold addrErr. destruct (String.get (e + 1) address) as [c|]; [|discriminate].
        destruct c as [[] [] [] [] [] [] [] []]; discriminate. }
    destruct (index_byte "[" (str_from address 1)) eqn:I1; [discriminate|].
    destruct (index_byte "]" (str_from address (e + 1))) eqn:I2; [discriminate|].
    intros H. injection H as Hh Hp.
    apply index_byte_none in I1, I2.
    (* address = "[" ++ x' ++ "]" ++ ":" ++ b *)
    assert (Ea : a = x ++ "]" /\ String ":" b = y).
    { apply app_eq_length; [|rewrite slen_app; cbn; lia].
      rewrite <- E, Ey, sapp_assoc. reflexivity. }
    destruct Ea as [Ea Eb].
    destruct x as [|c x].
    { exfalso. rewrite Ey in G. discriminate G. }
    assert (c = "["%char) as -> by (rewrite Ey in G; cbn in G; congruence).
    assert (EA : address = "[" ++ x ++ "]:" ++ b).
    { rewrite Ey, <- Eb. reflexivity. }
    assert (S1 : str_from address 1 = x ++ "]:" ++ b).
    { rewrite EA. apply (str_from_app "["). }
    assert (S2 : str_from address (e + 1) = ":" ++ b).
    { rewrite E. replace (e + 1) with (String.length a) by lia. apply str_from_app. }
    assert (S3 : str_from address (i + 1) = b).
    { rewrite E. change (String ":" b) with (":" ++ b). rewrite <- sapp_assoc.
      replace (i + 1) with (String.length (a ++ ":")) by (rewrite slen_app; cbn; lia).
      apply str_from_app. }
    assert (S4 : str_slice address 1 e = x).
    { rewrite EA, <- Lx. apply (str_slice_mid "[" x). }
    rewrite S1 in I1. rewrite S2 in I2. rewrite S3 in Hp. rewrite S4 in Hh. subst h p.
    rewrite occurs_app in I1. cbn in I1, I2, Nx.
    unfold splits, no_brackets, no_colon. repeat split; try tauto.
  - assert (H : match index_byte ":" (str_slice address 0 i) with
                | Some _ => addrErr address tooManyColons
                | None =>
                  match index_byte "[" (str_from address 0) with
                  | Some _ => addrErr address "unexpected '[' in address"
                  | None =>
                    match index_byte "]" (str_from address 0) with
                    | Some _ => addrErr address "unexpected ']' in address"
                    | None => inl (str_slice address 0 i, str_from address (i + 1))
                    end
                  end
                end = inl (h, p) -> splits address h p).
    { rewrite str_from_0.
      destruct (index_byte ":" (str_slice address 0 i)) eqn:I0; [discriminate|].
      destruct (index_byte "[" address) eqn:I1; [discriminate|].
      destruct (index_byte "]" address) eqn:I2; [discriminate|].
      intros H. injection H as Hh Hp. apply index_byte_none in I0, I1, I2.
      assert (S1 : str_slice address 0 i = a) by (rewrite E, <- L; apply str_slice_app).
      assert (S3 : str_from address (i + 1) = b).
      { rewrite E. change (String ":" b) with (":" ++ b). rewrite <- sapp_assoc.
        replace (i + 1) with (String.length (a ++ ":")) by (rewrite slen_app; cbn; lia).
        apply str_from_app. }
      rewrite S1 in *. rewrite S3 in Hp. subst h p.
      rewrite E, occurs_app in I1, I2. cbn in I1, I2.
      unfold splits, no_brackets, no_colon. repeat split; try tauto. }
    destruct (String.get 0 address) as [c|]; [|exact H].
    destruct c as [[] [] [] [] [] [] [] []]; try exact H. discriminate Br.
Qed.

Lemma split_spec : forall address h p,
  SplitHostPort address = inl (h, p) <-> splits address h p.
Proof. split; [apply split_sound|apply split_complete]. Qed.

Lemma splits_det : forall address h p h' p',
  splits address h p -> splits address h' p' -> h = h' /\ p = p'.
Proof.
  intros address h p h' p' A B. apply split_complete in A, B. rewrite A in B.
  injection B. auto.
Qed.

Lemma round_trip : forall host port,
  no_brackets host -> no_brackets port -> no_colon port ->
  SplitHostPort ("[" ++ host ++ "]:" ++ port) = inl (host, port) /\
  (no_colon host -> SplitHostPort (host ++ ":" ++ port) = inl (host, port)).
Proof.
  intros host port H1 H2 H3. split; [|intros H4]; apply split_complete; unfold splits; auto 8.
Qed.

(** ** Addresses *)

Lemma names_iff : forall address host p,
  names address host p <->
  exists h q, SplitHostPort address = inl (h, q) /\
              host = default "0.0.0.0" h /\ p = default "0" q.
Proof.
  intros. unfold names. split; intros [h [q [A B]]]; exists h, q; apply split_spec in A; auto.
Qed.

Lemma names_det : forall address host p host' p',
  names address host p -> names address host' p' -> host = host' /\ p = p'.
Proof.
  intros address host p host' p' [h [q [A [-> ->]]]] [h' [q' [B [-> ->]]]].
  destruct (splits_det _ _ _ _ _ A B) as [-> ->]. auto.
Qed.

(** What parseAddress does. *)
Lemma parseAddress_spec : forall e address,
  (exists host p port, names address host p /\ LookupPort e p = inl port /\
     parseAddress e address = ret (host, port)) \/
  (malformed e address /\ exists err, parseAddress e address = ([err], Exited)).
Proof.
  intros e address. unfold parseAddress.
  destruct (SplitHostPort address) as [[h p]|err] eqn:S.
  - assert (N : names address (default "0.0.0.0" h) (default "0" p))
      by (apply names_iff; eauto).
    change (if String.eqb h "" then "0.0.0.0" else h) with (default "0.0.0.0" h).
    change (if String.eqb p "" then "0" else p) with (default "0" p).
    destruct (LookupPort e (default "0" p)) as [port|err] eqn:LP.
    + left. eauto 7.
    + right. split; [right; eauto|]. exists err. reflexivity.
  - right. split; [|exists err; reflexivity].
    left. intros host p H. apply names_iff in H. destruct H as [h [q [A _]]]. congruence.
Qed.

Lemma length_4 : forall b : list byte, List.length b = 4 -> exists b0 b1 b2 b3, b = [b0; b1; b2; b3].
Proof.
  intros [|b0 [|b1 [|b2 [|b3 [|? ?]]]]] H; try discriminate. eauto.
Qed.

Lemma To4_spec : forall ip,
  match To4 ip with
  | Some b => ipv4_of ip b
  | None => forall b, ~ ipv4_of ip b
  end.
Proof.
  intros ip. unfold To4. destruct (Nat.eqb_spec (List.length ip) 4) as [L|L].
  { split; auto. }
  destruct (Nat.eqb_spec (List.length ip) 16) as [L'|L'].
  2:{ cbn. intros b [Lb [-> | ->]]; [congruence|]. apply L'. rewrite app_length, Lb. reflexivity. }
  do 16 (destruct ip as [|? ip]; [discriminate L'|]).
  destruct ip; [|discriminate L']. cbn [andb firstn forallb nth skipn].
  match goal with |- match (if ?c then _ else _) with _ => _ end => destruct c eqn:E end.
  - repeat match goal with
    | H : (_ && _)%bool = true |- _ => apply andb_true_iff in H; destruct H
    end.
    repeat match goal with
    | H : Byte.eqb _ _ = true |- _ => apply Byte.byte_dec_bl in H; subst
    end.
    split; [reflexivity|]. right. reflexivity.
  - intros b' [Lb [X|X]].
    + subst b'. discriminate Lb.
    + injection X. intros. subst. cbn in E. discriminate E.
Qed.

Lemma copy_full : forall n b, List.length b = n -> go_copy (zeros n) (firstn n b) = b.
Proof.
  intros n b H. unfold go_copy. unfold zeros. rewrite repeat_length.
  rewrite <- H, !firstn_all. rewrite skipn_all2; [apply app_nil_r|].
  rewrite repeat_length. lia.
Qed.

Lemma endpoint_det : forall e port a sa sa',
  endpoint e port a sa -> endpoint e port a sa' -> sa = sa'.
Proof.
  intros e port a sa sa' [[b [A ->]]|[L [N [id [Z ->]]]]] [[b' [A' ->]]|[L' [N' [id' [Z' ->]]]]].
  - f_equal. destruct A as [Lb [E|E]], A' as [Lb' [E'|E']]; rewrite E in E'.
    + assumption.
    + apply (f_equal (@List.length _)) in E'. rewrite app_length, Lb, Lb' in E'. discriminate.
    + apply (f_equal (@List.length _)) in E'. rewrite app_length, Lb, Lb' in E'. discriminate.
    + apply app_inv_head in E'. assumption.
  - exfalso. apply (N' b A).
  - exfalso. apply (N b' A').
  - f_equal. destruct Z as [[Z1 Z2]|[Z1 [i [Z2 Z3]]]], Z' as [[Z1' Z2']|[Z1' [i' [Z2' Z3']]]]; try congruence.
Qed.

Lemma target_det : forall e address sa sa',
  target e address sa -> target e address sa' -> sa = sa'.
Proof.
  intros e address sa sa' [h [p [port [a [o [N [LP [LI E]]]]]]]]
    [h' [p' [port' [a' [o' [N' [LP' [LI' E']]]]]]]].
  destruct (names_det _ _ _ _ _ N N') as [<- <-].
  rewrite LP in LP'. injection LP' as <-. rewrite LI in LI'. injection LI' as <- <-.
  eapply endpoint_det; eauto.
Qed.

(** What createSockaddr does. *)
Lemma createSockaddr_spec : forall e address,
  (exists sa, target e address sa /\
     createSockaddr e address =
       ret (match sa with SockaddrInet4 _ _ => "ipv4" | _ => "ipv6" end, Some sa)) \/
  (unresolved e address /\ createSockaddr e address = ret ("err", None)) \/
  (resolved_to_nothing e address /\ createSockaddr e address = panic) \/
  (malformed e address /\ exists err, createSockaddr e address = ([err], Exited)).
Proof.
  intros e address. unfold createSockaddr.
  destruct (parseAddress_spec e address) as [[host [p [port [N [LP E]]]]]|[M [err E]]]; rewrite E.
  2:{ right. right. right. split; [exact M|]. exists err. reflexivity. }
  unfold parseIP. cbn [bind ret].
  destruct (LookupIPAddr e host) as [[|a others]|] eqn:LI.
  - right. right. left. split; [|reflexivity]. exists host, p, port. auto.
  - cbn [bind ret app]. assert (T4 := To4_spec (IP a)).
    destruct (To4 (IP a)) as [b|].
    { left. exists (SockaddrInet4 port b). split.
      - exists host, p, port, a, others. repeat split; auto. left. eauto.
      - rewrite copy_full by apply T4. reflexivity. }
    unfold To16. destruct (Nat.eqb_spec (List.length (IP a)) 4) as [L4|L4].
    { exfalso. apply (T4 (IP a)). split; auto. }
    destruct (Nat.eqb_spec (List.length (IP a)) 16) as [L16|L16].
    2:{ right. left. split; [|reflexivity].
        exists host, p, port. repeat split; auto. right. exists a, others. split; [exact LI|].
        intros sa [[b [A _]]|[L _]]; [exact (T4 b A)|contradiction]. }
    rewrite copy_full by assumption.
    destruct (String.eqb_spec (Zone a) "") as [Z|Z]; cbn [negb].
    { left. exists (SockaddrInet6 port 0 (IP a)). split; [|reflexivity].
      exists host, p, port, a, others. repeat split; auto. right. repeat split; auto.
      exists 0%N. split; [left; auto|reflexivity]. }
    destruct (InterfaceByName e (Zone a)) as [index|] eqn:I.
    { left. exists (SockaddrInet6 port (index mod 2 ^ 32) (IP a)). split; [|reflexivity].
      exists host, p, port, a, others. repeat split; auto. right. repeat split; auto.
      exists (index mod 2 ^ 32)%N. split; [right; eauto|reflexivity]. }
    right. left. split; [|reflexivity].
    exists host, p, port. repeat split; auto. right. exists a, others. split; [exact LI|].
    intros sa [[b [A _]]|[_ [_ [id [[[S1 _]|[_ [i [S2 _]]]] _]]]]]; [exact (T4 b A)|contradiction|congruence].
  - right. left. split; [|reflexivity]. exists host, p, port. auto.
Qed.

(** The four cases exclude each other. *)
Lemma cases_exclusive : forall e address,
  (forall sa, target e address sa -> ~ unresolved e address /\ ~ resolved_to_nothing e address /\ ~ malformed e address) /\
  (unresolved e address -> ~ resolved_to_nothing e address /\ ~ malformed e address) /\
  (resolved_to_nothing e address -> ~ malformed e address).
Proof.
  intros e address.
  assert (K : forall host p port, names address host p -> LookupPort e p = inl port ->
              ~ malformed e address).
  { intros host p port N LP [M|[h' [p' [err [N' LP']]]]].
    - exact (M _ _ N).
    - destruct (names_det _ _ _ _ _ N N') as [<- <-]. congruence. }
  split; [|split].
  - intros sa [h [p [port [a [o [N [LP [LI E]]]]]]]]. split; [|split].
    + intros [h' [p' [port' [N' [LP' R]]]]].
      destruct (names_det _ _ _ _ _ N N') as [<- <-]. rewrite LP in LP'. injection LP' as <-.
      destruct R as [R|[a' [o' [R1 R2]]]]; [congruence|].
      rewrite LI in R1. injection R1 as <- <-. exact (R2 sa E).
    + intros [h' [p' [port' [N' [LP' R]]]]].
      destruct (names_det _ _ _ _ _ N N') as [<- <-]. congruence.
    + eapply K; eauto.
  - intros [h [p [port [N [LP R]]]]]. split; [|eapply K; eauto].
    intros [h' [p' [port' [N' [LP' R']]]]]. destruct (names_det _ _ _ _ _ N N') as [<- <-].
    destruct R as [R|[a' [o' [R1 R2]]]]; congruence.
  - intros [h [p [port [N [LP R]]]]]. eapply K; eauto.
Qed.

(** ** The behaviours of Dial and Listen *)

Lemma run_return : forall log o rs tr log' o',
  run (Return log o) rs = Some (tr, log', o') -> rs = [] /\ tr = [] /\ log' = log /\ o' = o.
Proof. intros log o [|r rs] tr log' o' H; cbn in H; [|discriminate]. injection H as <- <- <-. auto. Qed.

Lemma run_sys : forall c k rs tr log o,
  run (Sys c k) rs = Some (tr, log, o) ->
  exists r rs' tr', rs = r :: rs' /\ tr = (c, r) :: tr' /\ run (k r) rs' = Some (tr', log, o).
Proof.
  intros c k [|r rs] tr log o H; cbn in H; [discriminate|].
  destruct (run (k r) rs) as [[[tr' log'] o']|] eqn:E; [|discriminate].
  injection H as <- <- <-. exists r, rs, tr'. auto.
Qed.

Ltac run_inv H :=
  first [ apply run_return in H; destruct H as [-> [-> [-> ->]]]
        | let r := fresh "r" in let rs' := fresh "rs" in let tr' := fresh "tr" in
          apply run_sys in H; destruct H as [r [rs' [tr' [-> [-> H]]]]] ].

Definition proto_of (sa : Sockaddr) : string :=
  match sa with SockaddrInet4 _ _ => "ipv4" | _ => "ipv6" end.

Lemma with_sockaddr_cases : forall e address,
  (exists sa, target e address sa /\ forall k, with_sockaddr e address k = k (proto_of sa) sa) \/
  (unresolved e address /\ forall k, with_sockaddr e address k = Return [] (Done (None, Some ParsingIP))) \/
  (resolved_to_nothing e address /\ forall k, with_sockaddr e address k = Return [] Panicked) \/
  (malformed e address /\ exists err, forall k, with_sockaddr e address k = Return [err] Exited).
Proof.
  intros e address. unfold with_sockaddr.
  destruct (createSockaddr_spec e address) as [[sa [T E]]|[[U E]|[[U E]|[U [err E]]]]]; rewrite E.
  - left. exists sa. split; [exact T|]. intros k. destruct sa; reflexivity.
  - right. left. auto.
  - right. right. left. auto.
  - right. right. right. split; [exact U|]. exists err. reflexivity.
Qed.

Lemma with_socket_family : forall sa k,
  with_socket (proto_of sa) k =
  Sys (Socket 43 1 (family sa)) (fun r =>
    match r with
    | Err e => Return [] (Done (None, Some (SysErr e)))
    | Ok fd => k fd
    end).
Proof. destruct sa; reflexivity. Qed.

Lemma finish_run : forall fd rs tr log o, run (finish fd) rs = Some (tr, log, o) ->
  exists r0 rf r, map snd tr = rs /\ log = [] /\ tr = [(NewFile fd, r0); (FileConn fd, rf); (Close fd, r)] /\
  o = Done (match rf with Ok c => (Some c, None) | Err e => (None, Some (SysErr e)) end).
Proof.
  intros fd rs tr log o H. unfold finish, close_and_return in H.
  run_inv H. run_inv H. run_inv H. run_inv H. exists r, r0, r1. auto.
Qed.

Lemma dial_attempts : forall e address sa rs tr log o, target e address sa ->
  run (Dial e address) rs = Some (tr, log, o) ->
  map snd tr = rs /\ log = [] /\ exists r, o = Done r /\ attempt sa (dial_setup sa) tr r.
Proof.
  intros e address sa rs tr log o T H. unfold Dial in H.
  destruct (with_sockaddr_cases e address) as [[sa' [T' E]]|C].
  2:{ exfalso. destruct (cases_exclusive e address) as [X _]. destruct (X _ T) as [X1 [X2 X3]].
      destruct C as [[C _]|[[C _]|[C _]]]; contradiction. }
  assert (sa' = sa) as -> by (eapply target_det; eauto). rewrite E, with_socket_family in H.
  run_inv H. destruct r as [fd|err].
  2:{ run_inv H. repeat split; auto. exists (None, Some (SysErr err)). split; [reflexivity|constructor]. }
  run_inv H. destruct r as [v|err].
  - apply finish_run in H. destruct H as [r0 [rf [r [<- [-> [-> ->]]]]]].
    repeat split; auto. destruct rf as [c|err].
    + exists (Some c, None). split; [reflexivity|].
      apply (attempt_conn sa (dial_setup sa) fd [(Connect fd sa, Ok v)]); [reflexivity|].
      repeat constructor.
    + exists (None, Some (SysErr err)). split; [reflexivity|].
      apply (attempt_no_conn sa (dial_setup sa) fd [(Connect fd sa, Ok v)]); [reflexivity|].
      repeat constructor.
  - run_inv H. run_inv H. repeat split; auto. exists (None, Some (SysErr err)). split; [reflexivity|].
    apply (attempt_setup_fails sa (dial_setup sa) fd [] (Connect fd sa) []); [reflexivity|constructor].
Qed.

Lemma listen_attempts : forall e address sa rs tr log o, target e address sa ->
  run (Listen e address) rs = Some (tr, log, o) ->
  map snd tr = rs /\ log = [] /\ exists r, o = Done r /\ attempt sa (listen_setup sa) tr r.
Proof.
  intros e address sa rs tr log o T H. unfold Listen in H.
  destruct (with_sockaddr_cases e address) as [[sa' [T' E]]|C].
  2:{ exfalso. destruct (cases_exclusive e address) as [X _]. destruct (X _ T) as [X1 [X2 X3]].
      destruct C as [[C _]|[[C _]|[C _]]]; contradiction. }
  assert (sa' = sa) as -> by (eapply target_det; eauto). rewrite E, with_socket_family in H.
  run_inv H. destruct r as [fd|err].
  2:{ run_inv H. repeat split; auto. exists (None, Some (SysErr err)). split; [reflexivity|constructor]. }
  run_inv H. destruct r as [v|err].
  2:{ run_inv H. run_inv H. repeat split; auto. exists (None, Some (SysErr err)). split; [reflexivity|].
      apply (attempt_setup_fails sa (listen_setup sa) fd [] (Bind fd sa) [ListenFd fd 1]);
        [reflexivity|constructor]. }
  run_inv H. destruct r as [w|err].
  - apply finish_run in H. destruct H as [r0 [rf [r [<- [-> [-> ->]]]]]].
    repeat split; auto. destruct rf as [c|err].
    + exists (Some c, None). split; [reflexivity|].
      apply (attempt_conn sa (listen_setup sa) fd [(Bind fd sa, Ok v); (ListenFd fd 1, Ok w)]); [reflexivity|].
      repeat constructor.
    + exists (None, Some (SysErr err)). split; [reflexivity|].
      apply (attempt_no_conn sa (listen_setup sa) fd [(Bind fd sa, Ok v); (ListenFd fd 1, Ok w)]); [reflexivity|].
      repeat constructor.
  - run_inv H. run_inv H. repeat split; auto. exists (None, Some (SysErr err)). split; [reflexivity|].
    apply (attempt_setup_fails sa (listen_setup sa) fd [(Bind fd sa, Ok v)] (ListenFd fd 1) []);
      [reflexivity|repeat constructor].
Qed.

(** ... and every attempt is possible. *)
Lemma attempts_dial : forall e address sa tr r, target e address sa ->
  attempt sa (dial_setup sa) tr r ->
  run (Dial e address) (map snd tr) = Some (tr, [], Done r).
Proof.
  intros e address sa tr r T A. unfold Dial.
  destruct (with_sockaddr_cases e address) as [[sa' [T' E]]|C].
  2:{ exfalso. destruct (cases_exclusive e address) as [X _]. destruct (X _ T) as [X1 [X2 X3]].
      destruct C as [[C _]|[[C _]|[C _]]]; contradiction. }
  assert (sa' = sa) as -> by (eapply target_det; eauto). rewrite E, with_socket_family.
  destruct A as [err|fd done c todo err r' S D|fd done r0 err r' S D|fd done r0 conn r' S D].
  - reflexivity.
  - destruct done as [|[c1 r1] done].
    + cbn in S. injection S as <- <-. reflexivity.
    + cbn in S. injection S as _ S. destruct done; discriminate S.
  - destruct done as [|[c1 r1] [|? ?]]; try discriminate S. cbn in S. injection S as <-.
    inversion D as [|x l D1 _]; subst. destruct r1; [|destruct D1]. reflexivity.
  - destruct done as [|[c1 r1] [|? ?]]; try discriminate S. cbn in S. injection S as <-.
    inversion D as [|x l D1 _]; subst. destruct r1; [|destruct D1]. reflexivity.
Qed.

Lemma attempts_listen : forall e address sa tr r, target e address sa ->
  attempt sa (listen_setup sa) tr r ->
  run (Listen e address) (map snd tr) = Some (tr, [], Done r).
Proof.
  intros e address sa tr r T A. unfold Listen.
  destruct (with_sockaddr_cases e address) as [[sa' [T' E]]|C].
  2:{ exfalso. destruct (cases_exclusive e address) as [X _]. destruct (X _ T) as [X1 [X2 X3]].
      destruct C as [[C _]|[[C _]|[C _]]]; contradiction. }
  assert (sa' = sa) as -> by (eapply target_det; eauto). rewrite E, with_socket_family.
  destruct A as [err|fd done c todo err r' S D|fd done r0 err r' S D|fd done r0 conn r' S D].
  - reflexivity.
  - destruct done as [|[c1 r1] [|[c2 r2] done]].
    + cbn in S. injection S as <- <-. reflexivity.
    + cbn in S. injection S as <- <- <-. inversion D as [|x l D1 _]; subst.
      destruct r1; [|destruct D1]. reflexivity.
    + cbn in S. injection S as _ _ S. destruct done; discriminate S.
  - destruct done as [|[c1 r1] [|[c2 r2] [|? ?]]]; try discriminate S. cbn in S. injection S as <- <-.
    inversion D as [|x l D1 D2]; subst. inversion D2 as [|x l D3 _]; subst.
    destruct r1; [|destruct D1]. destruct r2; [|destruct D3]. reflexivity.
  - destruct done as [|[c1 r1] [|[c2 r2] [|? ?]]]; try discriminate S. cbn in S. injection S as <- <-.
    inversion D as [|x l D1 D2]; subst. inversion D2 as [|x l D3 _]; subst.
    destruct r1; [|destruct D1]. destruct r2; [|destruct D3]. reflexivity.
Qed.

(** Both end in one of four ways, depending on the address. *)
Lemma outcomes : forall p e address, (p = Dial \/ p = Listen) ->
  forall rs tr log o, run (p e address) rs = Some (tr, log, o) ->
  (o = Exited <-> malformed e address) /\
  (o = Panicked <-> resolved_to_nothing e address) /\
  (o = Done (None, Some ParsingIP) <-> unresolved e address) /\
  ((exists sa, target e address sa) \/ tr = []) /\
  (forall r, o = Done r -> (fst r = None <-> snd r <> None)).
Proof.
  intros p e address P rs tr log o H.
  destruct (cases_exclusive e address) as [X1 [X2 X3]].
  destruct (with_sockaddr_cases e address) as [[sa [T _]]|C].
  - destruct (X1 _ T) as [N1 [N2 N3]].
    assert (A : exists r setup, o = Done r /\ attempt sa setup tr r).
    { destruct P as [-> | ->]; [eapply dial_attempts in H|eapply listen_attempts in H]; eauto;
        destruct H as [_ [_ [r [A B]]]]; eauto. }
    destruct A as [r [setup [-> A]]]. repeat split; try discriminate; try contradiction.
    + intros H1. injection H1 as ->. inversion A.
    + left. eauto.
    + injection H0 as <-. inversion A; subst; cbn; congruence.
    + injection H0 as <-. inversion A; subst; cbn; congruence.
  - assert (C' : (unresolved e address /\ p e address = Return [] (Done (None, Some ParsingIP))) \/
                 (resolved_to_nothing e address /\ p e address = Return [] Panicked) \/
                 (malformed e address /\ exists err, p e address = Return [err] Exited)).
    { destruct P as [-> | ->]; unfold Dial, Listen.
      - destruct C as [[C E]|[[C E]|[C [err E]]]]; rewrite E; eauto.
      - destruct C as [[C E]|[[C E]|[C [err E]]]]; rewrite E; eauto. }
    clear C. destruct C' as [[C E]|[[C E]|[C [err E]]]]; rewrite E in H; run_inv H.
    + destruct (X2 C). repeat split; try discriminate; try contradiction; auto.
      * injection H1 as <-. cbn. discriminate.
      * injection H1 as <-. reflexivity.
    + specialize (X3 C). repeat split; try discriminate; try contradiction; auto.
      intros H1. destruct (X2 H1). contradiction.
    + repeat split; try discriminate; auto; try (intros; exfalso; tauto).
Qed.

(** Alone, both can always be run to the end, whatever the responses are. *)
Lemma runs : forall p e address, (p = Dial \/ p = Listen) ->
  forall f : nat -> response, exists n tr log o,
    run (p e address) (map f (seq 0 n)) = Some (tr, log, o).
Proof.
  intros p e address P f.
  assert (H : exists n x, run (p e address) (map f (seq 0 n)) = Some x).
  { destruct (with_sockaddr_cases e address) as [[sa [T E]]|C].
    - destruct P as [-> | ->]; unfold Dial, Listen; rewrite E, with_socket_family.
      + destruct (f 0) as [fd|err] eqn:F0.
        2:{ exists 1. cbn. rewrite F0. eexists. reflexivity. }
        destruct (f 1) as [v|err] eqn:F1.
        * exists 5. cbn. rewrite F0, F1. eexists. reflexivity.
        * exists 3. cbn. rewrite F0, F1. eexists. reflexivity.
      + destruct (f 0) as [fd|err] eqn:F0.
        2:{ exists 1. cbn. rewrite F0. eexists. reflexivity. }
        destruct (f 1) as [v|err] eqn:F1.
        2:{ exists 3. cbn. rewrite F0, F1. eexists. reflexivity. }
        destruct (f 2) as [w|err] eqn:F2.
        * exists 6. cbn. rewrite F0, F1, F2. eexists. reflexivity.
        * exists 4. cbn. rewrite F0, F1, F2. eexists. reflexivity.
    - exists 0. destruct P as [-> | ->]; unfold Dial, Listen;
        destruct C as [[C E]|[[C E]|[C [err E]]]]; rewrite E; eexists; reflexivity. }
  destruct H as [n [[[tr log] o] H]]. eauto.
Qed.
