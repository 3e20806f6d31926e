(** * QueryFacts: when a request flushes (pkg/http/http.go:29-30). *)

From Coq Require Import NArith Bool String Ascii Arith List Lia.
From Verif Require Import GoBase QueryModel HttpModel HttpSpec.
Import ListNotations.
Local Open Scope string_scope.

(** ** Hexadecimal digits *)

Definition lookup_hex (c : ascii) : option N :=
  match find (fun x => Ascii.eqb (fst x) c) hex_digits with
  | Some (_, v) => Some v
  | None => None
  end.

Lemma unhex_lookup c : unhex c = lookup_hex c.
Proof. destruct c as [[] [] [] [] [] [] [] []]; vm_compute; reflexivity. Qed.

Lemma hex_table_fun c v v' : In (c, v) hex_digits -> In (c, v') hex_digits -> v = v'.
Proof.
  unfold hex_digits. cbn. intros H H'.
  repeat (destruct H as [H|H]; [inversion H; subst; clear H;
    repeat (destruct H' as [H'|H']; [inversion H'; reflexivity|]); contradiction|]).
  contradiction.
Qed.

Lemma unhex_spec c v : unhex c = Some v <-> In (c, v) hex_digits.
Proof.
  rewrite unhex_lookup. unfold lookup_hex. split.
  - destruct (find _ _) as [[d w]|] eqn:F; [|discriminate]. intros E. inversion E; subst.
    apply find_some in F as [F Q]. cbn in Q. apply Ascii.eqb_eq in Q. subst. exact F.
  - intros H. destruct (find _ _) as [[d w]|] eqn:F.
    + apply find_some in F as [F Q]. cbn in Q. apply Ascii.eqb_eq in Q. subst.
      f_equal. eapply hex_table_fun; eauto.
    + eapply find_none in F; [|exact H]. cbn in F. rewrite Ascii.eqb_refl in F. discriminate.
Qed.

(** ** Unescaping *)

Lemma unescape_sound n : forall s t, String.length s <= n ->
  QueryUnescape s = Some t -> decodes s t.
Proof.
  induction n as [|n IH]; intros s t L E.
  - destruct s; cbn in L; [|lia]. cbn in E. inversion E; subst. constructor.
  - destruct s as [|c s]; cbn in E; [inversion E; subst; constructor|].
    cbn in L. destruct (Ascii.eqb c "%") eqn:P.
    + apply Ascii.eqb_eq in P. subst c.
      destruct s as [|h [|l s]]; try discriminate.
      destruct (unhex h) as [vh|] eqn:Hh; [|discriminate].
      destruct (unhex l) as [vl|] eqn:Hl; [|discriminate].
      destruct (QueryUnescape s) as [t'|] eqn:Q; [|discriminate].
      inversion E; subst. rewrite N.mul_comm.
      constructor; try (apply unhex_spec; assumption).
      apply IH; auto. cbn in L. lia.
    + destruct (QueryUnescape s) as [t'|] eqn:Q; [|discriminate].
      assert (D : decodes s t') by (apply IH; auto; lia).
      inversion E; subst. apply Ascii.eqb_neq in P.
      destruct (Ascii.eqb c "+") eqn:U.
      * apply Ascii.eqb_eq in U. subst c. constructor. exact D.
      * apply Ascii.eqb_neq in U. constructor; auto.
Qed.

Lemma unescape_complete s t : decodes s t -> QueryUnescape s = Some t.
Proof.
  induction 1.
  - reflexivity.
  - cbn. apply Ascii.eqb_neq in H, H0. rewrite H, H0, IHdecodes. reflexivity.
  - cbn. rewrite IHdecodes. reflexivity.
  - cbn. apply unhex_spec in H, H0. rewrite H, H0, IHdecodes.
    rewrite N.mul_comm. reflexivity.
Qed.

Lemma unescape_spec s t : QueryUnescape s = Some t <-> decodes s t.
Proof.
  split; [apply (unescape_sound (String.length s)); lia|apply unescape_complete].
Qed.

(** ** Splitting *)

Lemma contains_spec x s : contains x s = false <-> free x s.
Proof.
  induction s as [|c s IH]; cbn; [tauto|].
  rewrite orb_false_iff, Ascii.eqb_neq, IH. tauto.
Qed.

Lemma cut_spec sep s : forall b a f, cut sep s = (b, a, f) ->
  free sep b /\
  (f = true /\ s = b ++ String sep a \/ f = false /\ s = b /\ a = "").
Proof.
  induction s as [|c s IH]; intros b a f E; cbn in E.
  - inversion E; subst. cbn. auto.
  - destruct (Ascii.eqb c sep) eqn:Q.
    + apply Ascii.eqb_eq in Q. inversion E; subst. cbn. auto.
    + destruct (cut sep s) as [[b' a'] f'] eqn:K. inversion E; subst.
      apply Ascii.eqb_neq in Q.
      destruct (IH _ _ _ eq_refl) as [F [[-> ->]|[-> [-> ->]]]]; cbn; auto.
Qed.

Lemma cut_found sep b a : free sep b -> cut sep (b ++ String sep a) = (b, a, true).
Proof.
  induction b as [|c b IH]; cbn; intros F.
  - rewrite Ascii.eqb_refl. reflexivity.
  - destruct F as [F1 F2]. apply Ascii.eqb_neq in F1. rewrite F1, IH by exact F2.
    reflexivity.
Qed.

Lemma cut_absent sep s : free sep s -> cut sep s = (s, "", false).
Proof.
  induction s as [|c s IH]; cbn; intros F; auto.
  destruct F as [F1 F2]. apply Ascii.eqb_neq in F1. rewrite F1, IH by exact F2.
  reflexivity.
Qed.

(** ** Parameters *)

(** The key and value of one part of the query, if it is well-formed. *)
Definition part (p : string) : Values :=
  if contains ";" p then []
  else if String.eqb p "" then []
  else let '(k, v, _) := cut "=" p in
       match QueryUnescape k, QueryUnescape v with
       | Some k', Some v' => [(k', v')]
       | _, _ => []
       end.

Lemma part_spec p : (exists k v, part p = [(k, v)] /\ param p k v) \/
  (part p = [] /\ forall k v, ~ param p k v).
Proof.
  unfold part, param.
  destruct (contains ";" p) eqn:C.
  { right. split; auto. intros k v (_ & H & _). apply contains_spec in H. congruence. }
  apply contains_spec in C.
  destruct (String.eqb p "") eqn:Z.
  { right. split; auto. apply String.eqb_eq in Z. intros k v (H & _). auto. }
  apply String.eqb_neq in Z.
  destruct (cut "=" p) as [[sk sv] f] eqn:K.
  assert (U : forall k v, ((exists sk' sv', p = sk' ++ "=" ++ sv' /\ free "=" sk' /\
                 decodes sk' k /\ decodes sv' v) \/ free "=" p /\ decodes p k /\ v = "") ->
              decodes sk k /\ decodes sv v).
  { intros k v [(sk' & sv' & -> & F & D1 & D2)|(F & D1 & ->)].
    - change ("=" ++ sv') with (String "=" sv') in K. rewrite cut_found in K by exact F.
      inversion K; subst. auto.
    - rewrite cut_absent in K by exact F. inversion K; subst. split; auto. constructor. }
  destruct (QueryUnescape sk) as [k'|] eqn:Uk.
  2:{ right. split; auto. intros k v (_ & _ & H). apply U in H as [H _].
      apply unescape_spec in H. congruence. }
  destruct (QueryUnescape sv) as [v'|] eqn:Uv.
  2:{ right. split; auto. intros k v (_ & _ & H). apply U in H as [_ H].
      apply unescape_spec in H. congruence. }
  left. exists k', v'. split; auto. repeat split; auto.
  apply unescape_spec in Uk, Uv.
  destruct (cut_spec _ _ _ _ _ K) as [F [[-> ->]|[-> [-> ->]]]].
  - left. exists sk, sv. auto.
  - right. repeat split; auto. inversion Uv. reflexivity.
Qed.

Lemma concat_cons p q ps : String.concat "&" (p :: q :: ps) = p ++ String "&" (String.concat "&" (q :: ps)).
Proof. reflexivity. Qed.

Lemma append_length a b : String.length (a ++ b) = String.length a + String.length b.
Proof. induction a; cbn; auto. Qed.

Lemma parseQuery_parts fuel : forall q m, String.length q <= fuel ->
  exists ps, ps <> [] /\ parameters q ps /\
    parseQuery fuel q m = (m ++ flat_map part ps)%list.
Proof.
  induction fuel as [|fuel IH]; intros q m L.
  - destruct q; cbn in L; [|lia]. exists [""]. split; [discriminate|].
    split; [split; [reflexivity|repeat constructor]|]. cbn. rewrite app_nil_r. reflexivity.
  - cbn [parseQuery]. destruct (String.eqb q "") eqn:Z.
    + apply String.eqb_eq in Z. subst q. exists [""]. split; [discriminate|].
      split; [split; [reflexivity|repeat constructor]|]. cbn. rewrite app_nil_r. reflexivity.
    + apply String.eqb_neq in Z.
      destruct (cut "&" q) as [[key q'] f] eqn:K.
      destruct (cut_spec _ _ _ _ _ K) as [F X].
      assert (L' : String.length q' <= fuel).
      { destruct X as [[-> ->]|[-> [-> ->]]]; cbn in *; [|lia].
        rewrite append_length in L. cbn in L. lia. }
      assert (G : forall m', exists ps, ps <> [] /\ parameters q' ps /\
                parseQuery fuel q' m' = (m' ++ flat_map part ps)%list)
        by (intros m'; apply IH; exact L').
      assert (E : forall m', (let '(k, v, _) := cut "=" key in
                    match QueryUnescape k with
                    | Some k' => match QueryUnescape v with
                                 | Some v' => parseQuery fuel q' (m' ++ [(k', v')])%list
                                 | None => parseQuery fuel q' m'
                                 end
                    | None => parseQuery fuel q' m'
                    end) = parseQuery fuel q' (m' ++ let '(k, v, _) := cut "=" key in
                       match QueryUnescape k, QueryUnescape v with
                       | Some k', Some v' => [(k', v')]
                       | _, _ => []
                       end)%list).
      { intros m'. destruct (cut "=" key) as [[k v] g].
        destruct (QueryUnescape k); [destruct (QueryUnescape v)|];
          rewrite ?app_nil_r; reflexivity. }
      assert (E2 : (if contains ";" key then parseQuery fuel q' m
                    else if String.eqb key "" then parseQuery fuel q' m
                    else parseQuery fuel q' (m ++ let '(k, v, _) := cut "=" key in
                       match QueryUnescape k, QueryUnescape v with
                       | Some k', Some v' => [(k', v')]
                       | _, _ => []
                       end)%list) = parseQuery fuel q' (m ++ part key)%list).
      { unfold part. destruct (contains ";" key); [rewrite app_nil_r; reflexivity|].
        destruct (String.eqb key ""); [rewrite app_nil_r; reflexivity|reflexivity]. }
      rewrite E, E2. destruct (G (m ++ part key)%list) as (ps & N & [P1 P2] & P3).
      destruct X as [[-> ->]|[-> [-> ->]]].
      * exists (key :: ps). split; [discriminate|]. split.
        -- split; [|constructor; auto]. destruct ps as [|p ps]; [contradiction|].
           rewrite concat_cons, <- P1. reflexivity.
        -- rewrite P3. cbn. rewrite app_assoc. reflexivity.
      * exists [key]. split; [discriminate|]. split.
        -- split; [reflexivity|repeat constructor; auto].
        -- rewrite P3. cbn. rewrite app_nil_r.
           assert (W : flat_map part ps = []).
           { clear - P1 P2 N. destruct ps as [|p [|p' ps]]; [contradiction| |].
             - cbn in P1. subst p. reflexivity.
             - rewrite concat_cons in P1. destruct p; discriminate P1. }
           rewrite W, app_nil_r. reflexivity.
Qed.

(** There is one way to split a query. *)
Lemma split_unique ps : forall qs, ps <> [] -> qs <> [] ->
  Forall (free "&") ps -> Forall (free "&") qs ->
  String.concat "&" ps = String.concat "&" qs -> ps = qs.
Proof.
  induction ps as [|p ps IH]; intros qs N1 N2 F1 F2 E; [contradiction|].
  destruct qs as [|q qs]; [contradiction|].
  inversion F1; subst. inversion F2; subst.
  destruct ps as [|p' ps], qs as [|q' qs].
  - cbn in E. subst. reflexivity.
  - exfalso. rewrite concat_cons in E. cbn in E.
    apply cut_absent in H1. rewrite E in H1. rewrite cut_found in H1 by assumption.
    discriminate.
  - exfalso. rewrite concat_cons in E. cbn in E.
    apply cut_absent in H3. rewrite <- E in H3. rewrite cut_found in H3 by assumption.
    discriminate.
  - rewrite !concat_cons in E.
    assert (K : cut "&" (p ++ String "&" (String.concat "&" (p' :: ps))) =
                cut "&" (q ++ String "&" (String.concat "&" (q' :: qs)))) by (rewrite E; reflexivity).
    rewrite !cut_found in K by assumption. inversion K; subst. f_equal.
    apply IH; auto; discriminate.
Qed.

Lemma find_parts ps v : v <> "" ->
  (match find (fun kv => String.eqb (fst kv) "flush") (flat_map part ps) with
   | Some (_, x) => x | None => "" end = v <->
   exists before p after, ps = (before ++ p :: after)%list /\ param p "flush" v /\
     Forall (fun q => forall v', ~ param q "flush" v') before).
Proof.
  intros Nv. induction ps as [|p ps IH]; cbn.
  - split; [congruence|]. intros (b & p & a & E & _). destruct b; discriminate.
  - destruct (part_spec p) as [(k & w & E & P)|[E P]].
    + assert (U : forall k' w', param p k' w' -> k' = k /\ w' = w).
      { intros k' w' P'. clear - E P P'.
        unfold part in E. destruct P' as (_ & F & X). apply contains_spec in F.
        rewrite F in E. destruct (String.eqb p ""); [discriminate|].
        destruct X as [(sk & sv & -> & F' & D1 & D2)|(F' & D1 & ->)].
        - change ("=" ++ sv) with (String "=" sv) in E. rewrite cut_found in E by exact F'.
          apply unescape_spec in D1, D2. rewrite D1, D2 in E. inversion E; auto.
        - rewrite cut_absent in E by exact F'. apply unescape_spec in D1.
          rewrite D1 in E. cbn in E. inversion E; auto. }
      rewrite E. cbn. destruct (String.eqb k "flush") eqn:Q.
      * apply String.eqb_eq in Q. subst k. split.
        -- intros <-. exists [], p, ps. repeat split; auto; try apply P. 
        -- intros (b & p' & a & X & P' & N). destruct b as [|q b].
           ++ cbn in X. inversion X; subst. apply U in P'. symmetry. tauto.
           ++ cbn in X. inversion X; subst. inversion N; subst. exfalso. eapply H1; eauto.
      * apply String.eqb_neq in Q. rewrite IH. split.
        -- intros (b & p' & a & -> & P' & N). exists (p :: b), p', a.
           repeat split; auto; try apply P'. constructor; auto.
           intros v' P''. apply U in P''. destruct P''. auto.
        -- intros (b & p' & a & X & P' & N). destruct b as [|q b].
           ++ cbn in X. inversion X; subst. apply U in P'. destruct P'. congruence.
           ++ cbn in X. inversion X; subst. inversion N; subst. exists b, p', a. auto.
    + rewrite E. cbn. rewrite IH. split.
      * intros (b & p' & a & -> & P' & N). exists (p :: b), p', a.
        repeat split; auto; try apply P'.
      * intros (b & p' & a & X & P' & N). destruct b as [|q b].
        -- cbn in X. inversion X; subst. exfalso. eapply P; eauto.
        -- cbn in X. inversion X; subst. inversion N; subst. exists b, p', a. auto.
Qed.

(** The model decides as specified. *)
Lemma flushes_spec raw : flushes raw = true <-> wants_flush raw.
Proof.
  unfold flushes, Get, Query.
  destruct (parseQuery_parts (String.length raw) raw [] (le_n _)) as (ps & N & [P1 P2] & P3).
  rewrite P3, String.eqb_eq. cbn [app]. rewrite find_parts by discriminate.
  split.
  - intros (b & p & a & -> & P & F). exists b, p, a. repeat split; auto; apply P.
  - intros (b & p & a & [Q1 Q2] & P & F). exists b, p, a. split; [|auto].
    apply split_unique; auto; [destruct b; discriminate|congruence].
Qed.

Lemma flushes_false raw : flushes raw = false <-> ~ wants_flush raw.
Proof.
  rewrite <- flushes_spec. destruct (flushes raw); split; congruence || auto.
Qed.
