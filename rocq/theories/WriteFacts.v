(** * WriteFacts: the runs of WriteModel.v agree with the functions of ClcModel.v. *)

From Coq Require Import NArith ZArith Bool String Ascii Arith List Lia ZifyBool ZifyNat ZifyN.
From Verif Require Import GoBase GoFmt ClcModel LlcModel RoceModel Setters WriteModel.
Import ListNotations.
Local Open Scope nat_scope.

(** The result of a run when only returning runs count. *)
Definition res {R A B} (f : A -> R -> B) (x : list string * outcome A * R) : M B :=
  let '(l, o, r) := x in
  (l, match o with Done a => Done (f a r) | Panicked => Panicked | Exited => Exited end).

Lemma bind_ext {A B} (x : M A) (f g : A -> M B) : (forall v, f v = g v) -> bind x f = bind x g.
Proof. intros H. destruct x as [l [a| |]]; cbn; [rewrite H|..]; reflexivity. Qed.

Lemma bind_assoc {A B C} (x : M A) (f : A -> M B) (g : B -> M C) :
  bind (bind x f) g = bind x (fun v => bind (f v) g).
Proof.
  destruct x as [l [a| |]]; cbn; [|reflexivity|reflexivity].
  destruct (f a) as [l1 [b| |]]; cbn; [|reflexivity|reflexivity].
  destruct (g b) as [l2 o]. rewrite app_assoc. reflexivity.
Qed.

Lemma res_bind {R A B C} (f : B -> R -> C) (x : W R A) (k : A -> W R B) r :
  res f (wbind x k r) = bind (res pair (x r)) (fun p => res f (k (fst p) (snd p))).
Proof.
  unfold wbind. destruct (x r) as [[l [a| |]] r1]; cbn; try reflexivity.
  destruct (k a r1) as [[l2 o] r2]. cbn. reflexivity.
Qed.

Lemma res_lift {R A B C} (f : B -> R -> C) (x : M A) (k : A -> W R B) r :
  res f (wbind (lift x) k r) = bind x (fun v => res f (k v r)).
Proof. rewrite res_bind. destruct x as [l [a| |]]; reflexivity. Qed.

Lemma bind_nil {A} (x : M A) : (let (l, o) := x in (([] ++ l)%list, o)) = x.
Proof. destruct x; reflexivity. Qed.

Lemma res_change {R B C} (f : B -> R -> C) (g : R -> R) (k : unit -> W R B) r :
  res f (wbind (change g) k r) = res f (k tt (g r)).
Proof. rewrite res_bind. cbn. apply bind_nil. Qed.

Lemma res_get {R A B C} (f : B -> R -> C) (g : R -> A) (k : A -> W R B) r :
  res f (wbind (get g) k r) = res f (k (g r) r).
Proof. rewrite res_bind. cbn. apply bind_nil. Qed.

Lemma res_wret {R A B} (f : A -> R -> B) a r : res f (wret a r) = ret (f a r).
Proof. reflexivity. Qed.

Lemma res_wret_bind {R A B C} (f : B -> R -> C) a (k : A -> W R B) r :
  res f (wbind (wret a) k r) = res f (k a r).
Proof. rewrite res_bind. cbn. apply bind_nil. Qed.

Lemma res_end {R A B} (f : A -> R -> B) (w : W R A) r :
  res f (w r) = bind (res pair (w r)) (fun p => ret (f (fst p) (snd p))).
Proof. destruct (w r) as [[l [a| |]] r1]; cbn; rewrite ?app_nil_r; reflexivity. Qed.

(** A last step is a step followed by nothing. *)
Lemma res_last {R A B} (f : A -> R -> B) (w : W R A) r :
  res f (w r) = res f (wbind w wret r).
Proof. rewrite res_bind, res_end. apply bind_ext. reflexivity. Qed.

Lemma res_wassoc {R A B C D} (f : C -> R -> D) (x : W R A) (k : A -> W R B) (h : B -> W R C) r :
  res f (wbind (wbind x k) h r) = res f (wbind x (fun a => wbind (k a) h) r).
Proof.
  rewrite (res_bind f (wbind x k)), (res_bind f x), (res_bind pair x), bind_assoc.
  apply bind_ext. intros p. rewrite res_bind. reflexivity.
Qed.

Lemma res_assign {R A B C} (f : B -> R -> C) (s : A -> R -> R) e (k : unit -> W R B) r :
  res f (wbind (assign s e) k r) = bind e (fun v => res f (k tt (s v r))).
Proof. unfold assign. rewrite res_wassoc, res_lift. apply bind_ext. intros v. apply res_change. Qed.

Lemma res_assignf {R A A' B C} (f : B -> R -> C) (s : A -> R -> R) (g : A' -> A) e
    (k : unit -> W R B) r :
  res f (wbind (assignf s g e) k r) = bind e (fun v => res f (k tt (s (g v) r))).
Proof. unfold assignf. rewrite res_wassoc, res_lift. apply bind_ext. intros v. apply res_change. Qed.

Lemma res_copyto {R B C} (f : B -> R -> C) g s m buf lo hi (k : unit -> W R B) r :
  res f (wbind (copyto g s m buf lo hi) k r)
  = bind (copy_from m (g r) buf lo hi) (fun v => res f (k tt (s v r))).
Proof.
  unfold copyto, copy_from. rewrite res_wassoc, res_lift, bind_assoc. apply bind_ext. intros v.
  rewrite res_change. symmetry. apply bind_nil.
Qed.

Lemma res_maketo {R B C} (f : B -> R -> C) g s n m buf lo hi (k : unit -> W R B) r :
  (forall v, g (s v r) = v) -> (forall v w, s v (s w r) = s v r) ->
  res f (wbind (maketo g s n m buf lo hi) k r)
  = bind (copy_from m (zeros n) buf lo hi) (fun v => res f (k tt (s v r))).
Proof.
  intros Hg Hs. unfold maketo. rewrite res_wassoc, res_change, res_copyto, Hg.
  apply bind_ext. intros v. rewrite Hs. reflexivity.
Qed.

Lemma res_write24 {R B C} (f : B -> R -> C) g s m buf (k : unit -> W R B) r :
  (forall v, g (s v r) = v) -> (forall v w, s v (s w r) = s v r) ->
  res f (wbind (write24 g s m buf) k r) = bind (be24 m buf) (fun v => res f (k tt (s v r))).
Proof.
  intros Hg Hs. unfold write24, be24. rewrite res_wassoc, res_lift, bind_assoc.
  apply bind_ext. intros b0. rewrite res_wassoc, res_change, res_wassoc, res_lift, bind_assoc.
  apply bind_ext. intros b1. rewrite res_wassoc, res_change, res_wassoc, res_lift, bind_assoc.
  apply bind_ext. intros b2. rewrite res_change, Hg, Hs, Hg, Hs. symmetry. apply bind_nil.
Qed.

Lemma res_part {R S A B C} (f : B -> R -> C) (g : R -> S) s (w : W S A) (k : A -> W R B) r :
  res f (wbind (part g s w) k r)
  = bind (res pair (w (g r))) (fun p => res f (k (fst p) (s (snd p) r))).
Proof.
  rewrite res_bind. unfold part. destruct (w (g r)) as [[l [a| |]] r1]; reflexivity.
Qed.

Lemma res_complain {R B C} (f : B -> R -> C) m t buf n (k : unit -> W R B) r :
  res f (wbind (complain m t buf n) k r)
  = (log_ln t ;; let* d := upto buf n in errDump m d ;; res f (k tt r)).
Proof.
  unfold complain. rewrite res_lift, bind_assoc. apply bind_ext. intros u. rewrite bind_assoc.
  apply bind_ext. intros d. apply bind_ext. intros []. reflexivity.
Qed.

Lemma res_fst {R A B} (f : A -> R -> B) (x : list string * outcome A * R) :
  res f x = bind (res pair x) (fun p => ret (f (fst p) (snd p))).
Proof. destruct x as [[l [a| |]] r1]; cbn; rewrite ?app_nil_r; reflexivity. Qed.

Lemma res_unit {R} (w : W R unit) (P : R -> M R) r :
  res (fun _ x => x) (w r) = P r -> res pair (w r) = bind (P r) (fun x => ret (tt, x)).
Proof.
  intros <-. destruct (w r) as [[l [[]| |]] r1]; cbn; rewrite ?app_nil_r; reflexivity.
Qed.

Lemma ret_bind {A B} (a : A) (f : A -> M B) : bind (ret a) f = f a.
Proof. apply bind_nil. Qed.

Lemma res_part_unit {R S B C} (f : B -> R -> C) (g : R -> S) s (w : W S unit) (P : S -> M S)
    (k : unit -> W R B) r :
  res (fun _ x => x) (w (g r)) = P (g r) ->
  res f (wbind (part g s w) k r) = bind (P (g r)) (fun p => res f (k tt (s p r))).
Proof.
  intros H. rewrite res_part, (res_unit w P) by exact H. rewrite bind_assoc.
  apply bind_ext. intros p. rewrite ret_bind. reflexivity.
Qed.

Lemma res_call {R B C} (f : B -> R -> C) (w : W R unit) (x : M R) (k : unit -> W R B) r :
  res (fun _ x => x) (w r) = x ->
  res f (wbind w k r) = bind x (fun v => res f (k tt v)).
Proof.
  intros <-. rewrite res_bind. destruct (w r) as [[l [[]| |]] r1]; reflexivity.
Qed.

Lemma res_call2 {R A B C} (f : B -> R -> C) (w : W R A) (x : M (A * R)) (k : A -> W R B) r :
  res pair (w r) = x ->
  res f (wbind w k r) = bind x (fun v => res f (k (fst v) (snd v))).
Proof. intros <-. apply res_bind. Qed.

Lemma res_part2 {R S A B C} (f : B -> R -> C) (g : R -> S) s (w : W S A) x (k : A -> W R B) r :
  res pair (w (g r)) = x ->
  res f (wbind (part g s w) k r) = bind x (fun p => res f (k (fst p) (s (snd p) r))).
Proof. intros <-. apply res_part. Qed.

(** ** Header and trailer *)
Lemma Header_agrees m buf h : res (fun _ x => x) (Header_W m buf h) = Header_Parse m h buf.
Proof.
  unfold Header_W, Header_Parse. rewrite res_copyto. apply bind_ext. intros ec.
  rewrite res_assignf. apply bind_ext. intros t. rewrite res_assign. apply bind_ext. intros len.
  rewrite res_lift. apply bind_ext. intros bf. cbv zeta. rewrite !res_change. reflexivity.
Qed.

Lemma Trailer_agrees m buf t : res (fun _ x => x) (Trailer_W m buf t) = Trailer_Parse m t buf.
Proof.
  unfold Trailer_W, Trailer_Parse. rewrite res_lift. apply bind_ext. intros s. cbv zeta.
  rewrite res_change, res_get. destruct (HasEyecatcher_arr _); [reflexivity|].
  rewrite res_last, res_lift, bind_assoc. apply bind_ext. intros u. rewrite bind_assoc.
  reflexivity.
Qed.

(** computing a receiver that is a constructor application *)
Ltac fields r :=
  eval cbv beta iota delta [
    set_h_Eyecatcher h_Eyecatcher set_h_Type h_Type set_h_Length h_Length set_h_Version
    h_Version set_h_Flag h_Flag set_h_reserved h_reserved set_h_Pathv2 h_Pathv2 set_h_Path
    h_Path set_ad_Raw ad_Raw set_ad_Header ad_Header set_ad_GID ad_GID set_ad_Token ad_Token
    set_ad_DMBEIdx ad_DMBEIdx set_ad_DMBESize ad_DMBESize set_ad_reserved ad_reserved
    set_ad_reserved2 ad_reserved2 set_ad_LinkID ad_LinkID set_ad_reserved3 ad_reserved3
    set_ad_Trailer ad_Trailer set_ar_Raw ar_Raw set_ar_Header ar_Header set_ar_SenderPeerID
    ar_SenderPeerID set_ar_IBGID ar_IBGID set_ar_IBMAC ar_IBMAC set_ar_QPN ar_QPN set_ar_RMBRKey
    ar_RMBRKey set_ar_RMBEIdx ar_RMBEIdx set_ar_RMBEAlertToken ar_RMBEAlertToken set_ar_RMBESize
    ar_RMBESize set_ar_QPMTU ar_QPMTU set_ar_reserved ar_reserved set_ar_RMBDMAAddr
    ar_RMBDMAAddr set_ar_reserved2 ar_reserved2 set_ar_PSN ar_PSN set_ar_Trailer ar_Trailer
    set_a2_Raw a2_Raw set_a2_Header a2_Header set_a2_GID a2_GID set_a2_Token a2_Token
    set_a2_DMBEIdx a2_DMBEIdx set_a2_DMBESize a2_DMBESize set_a2_reserved a2_reserved
    set_a2_reserved2 a2_reserved2 set_a2_LinkID a2_LinkID set_a2_ISMv2VCHID a2_ISMv2VCHID
    set_a2_EID a2_EID set_a2_reserved3 a2_reserved3 set_a2_reserved4 a2_reserved4 set_a2_OSType
    a2_OSType set_a2_Release a2_Release set_a2_reserved5 a2_reserved5 set_a2_Hostname
    a2_Hostname set_a2_Trailer a2_Trailer set_cd_Accept cd_Accept set_cr_Accept cr_Accept
    set_c2_Accept c2_Accept set_d_Raw d_Raw set_d_Header d_Header set_d_SenderPeerID
    d_SenderPeerID set_d_PeerDiagnosis d_PeerDiagnosis set_d_OSType d_OSType set_d_reserved
    d_reserved set_d_Trailer d_Trailer set_d2_Raw d2_Raw set_d2_Header d2_Header
    set_d2_SenderPeerID d2_SenderPeerID set_d2_PeerDiagnosis d2_PeerDiagnosis set_d2_OSType
    d2_OSType set_d2_reserved d2_reserved set_d2_Trailer d2_Trailer set_i_Prefix i_Prefix
    set_i_PrefixLen i_PrefixLen set_i_reserved2 i_reserved2 set_i_IPv6PrefixesCnt
    i_IPv6PrefixesCnt set_i_IPv6Prefixes i_IPv6Prefixes set_p_Raw p_Raw set_p_Header p_Header
    set_p_SenderPeerID p_SenderPeerID set_p_IBGID p_IBGID set_p_IBMAC p_IBMAC set_p_IPAreaOffset
    p_IPAreaOffset set_p_SMCDGID p_SMCDGID set_p_reserved p_reserved set_p_IP p_IP set_p_Trailer
    p_Trailer set_g_GID g_GID set_g_VCHID g_VCHID set_x_EIDNumber x_EIDNumber set_x_GIDNumber
    x_GIDNumber set_x_reserved3 x_reserved3 set_x_Release x_Release set_x_reserved4 x_reserved4
    set_x_SEIDInd x_SEIDInd set_x_reserved5 x_reserved5 set_x_SMCDv2Off x_SMCDv2Off
    set_x_reserved6 x_reserved6 set_x_EIDArea x_EIDArea set_y_SEID y_SEID set_y_reserved7
    y_reserved7 set_y_GIDArea y_GIDArea set_p2_Raw p2_Raw set_p2_Header p2_Header
    set_p2_SenderPeerID p2_SenderPeerID set_p2_IBGID p2_IBGID set_p2_IBMAC p2_IBMAC
    set_p2_IPAreaOffset p2_IPAreaOffset set_p2_SMCDGID p2_SMCDGID set_p2_ISMv2VCHID
    p2_ISMv2VCHID set_p2_SMCv2Offset p2_SMCv2Offset set_p2_reserved p2_reserved set_p2_IP p2_IP
    set_p2_Ext p2_Ext set_p2_SMCD p2_SMCD set_p2_Trailer p2_Trailer set_b_Raw b_Raw set_b_Type
    b_Type set_b_Length b_Length set_c_Base c_Base set_c_SeqNum c_SeqNum set_c_AlertTkn
    c_AlertTkn set_c_res1 c_res1 set_c_ProdWrap c_ProdWrap set_c_ProdCurs c_ProdCurs set_c_res2
    c_res2 set_c_ConsWrap c_ConsWrap set_c_ConsCurs c_ConsCurs set_c_B c_B set_c_P c_P set_c_U
    c_U set_c_R c_R set_c_F c_F set_c_res3 c_res3 set_c_D c_D set_c_C c_C set_c_A c_A set_c_res4
    c_res4 set_o_Base o_Base set_al_Base al_Base set_al_res1 al_res1 set_al_RsnCode al_RsnCode
    set_al_Reply al_Reply set_al_Reject al_Reject set_al_res2 al_res2 set_al_SenderMAC
    al_SenderMAC set_al_res5 al_res5 set_al_SenderGID al_SenderGID set_al_SenderQP al_SenderQP
    set_al_Link al_Link set_al_res3 al_res3 set_al_MTU al_MTU set_al_PSN al_PSN set_al_res4
    al_res4 set_rp_ReferenceRKey rp_ReferenceRKey set_rp_NewRKey rp_NewRKey set_rp_NewVAddr
    rp_NewVAddr set_ac_Base ac_Base set_ac_res1 ac_res1 set_ac_Reply ac_Reply set_ac_res2
    ac_res2 set_ac_Link ac_Link set_ac_NumRTokens ac_NumRTokens set_ac_res3 ac_res3
    set_ac_RKeyPairs ac_RKeyPairs set_ac_res4 ac_res4 set_cl_Base cl_Base set_cl_res1 cl_res1
    set_cl_Reply cl_Reply set_cl_res2 cl_res2 set_cl_SenderMAC cl_SenderMAC set_cl_SenderGID
    cl_SenderGID set_cl_SenderQP cl_SenderQP set_cl_Link cl_Link set_cl_SenderLinkUserID
    cl_SenderLinkUserID set_cl_MaxLinks cl_MaxLinks set_cl_res3 cl_res3 set_rs_Link rs_Link
    set_rs_RKey rs_RKey set_rs_VAddr rs_VAddr set_ck_Base ck_Base set_ck_res1 ck_res1
    set_ck_Reply ck_Reply set_ck_res2 ck_res2 set_ck_Reject ck_Reject set_ck_Retry ck_Retry
    set_ck_res3 ck_res3 set_ck_NumTkns ck_NumTkns set_ck_RKey ck_RKey set_ck_VAddr ck_VAddr
    set_ck_OtherRMBs ck_OtherRMBs set_ck_res4 ck_res4 set_cc_Base cc_Base set_cc_res1 cc_res1
    set_cc_Reply cc_Reply set_cc_res2 cc_res2 set_cc_Reject cc_Reject set_cc_res3 cc_res3
    set_cc_NumTkns cc_NumTkns set_cc_OtherRMBs cc_OtherRMBs set_cc_res4 cc_res4 set_dl_Base
    dl_Base set_dl_res1 dl_res1 set_dl_Reply dl_Reply set_dl_All dl_All set_dl_Orderly
    dl_Orderly set_dl_res2 dl_res2 set_dl_Link dl_Link set_dl_RsnCode dl_RsnCode set_dl_res3
    dl_res3 set_dk_Base dk_Base set_dk_res1 dk_res1 set_dk_reply dk_reply set_dk_res2 dk_res2
    set_dk_reject dk_reject set_dk_res3 dk_res3 set_dk_count dk_count set_dk_errorMask
    dk_errorMask set_dk_res4 dk_res4 set_dk_rkeys dk_rkeys set_dk_res5 dk_res5 set_tl_Base
    tl_Base set_tl_res1 tl_res1 set_tl_Reply tl_Reply set_tl_res2 tl_res2 set_tl_UserData
    tl_UserData set_tl_res3 tl_res3 set_bth_Raw bth_Raw set_bth_Opcode bth_Opcode set_bth_SE
    bth_SE set_bth_M bth_M set_bth_Pad bth_Pad set_bth_TVer bth_TVer set_bth_PKey bth_PKey
    set_bth_FECN bth_FECN set_bth_BECN bth_BECN set_bth_res1 bth_res1 set_bth_DestQP bth_DestQP
    set_bth_A bth_A set_bth_res2 bth_res2 set_bth_PSN bth_PSN] in r.


Ltac compute_receiver :=
  match goal with
  | |- res _ (_ ?r) = _ => let r' := fields r in change r with r'
  end.

Ltac step :=
  cbv zeta; try compute_receiver;
  match goal with
  | |- res _ (wbind (wbind _ _) _ _) = _ => rewrite res_wassoc
  | |- res _ (wbind (wret _) _ _) = _ => rewrite res_wret_bind
  | |- bind (bind ?x ?f) ?g = _ => rewrite (bind_assoc x f g)
  | |- bind (ret ?a) ?f = _ => rewrite (ret_bind a f)
  | |- _ = bind (bind _ _) _ => rewrite bind_assoc
  | |- _ = bind (ret _) _ => rewrite ret_bind
  | |- res _ (wbind (change _) _ _) = _ => rewrite res_change
  | |- res _ (wbind (get _) _ _) = _ => rewrite res_get
  | |- res _ (wbind (lift _) _ _) = _ => rewrite res_lift; apply bind_ext; intros ?
  | |- res _ (wbind (assign _ _) _ _) = _ => rewrite res_assign; apply bind_ext; intros ?
  | |- res _ (wbind (assignf _ _ _) _ _) = _ => rewrite res_assignf; apply bind_ext; intros ?
  | |- res _ (wbind (copyto _ _ _ _ _ _) _ _) = _ => rewrite res_copyto; apply bind_ext; intros ?
  | |- res _ (wbind (maketo _ _ _ _ _ _ _) _ _) = _ =>
    rewrite res_maketo by reflexivity; apply bind_ext; intros ?
  | |- res _ (wbind (write24 _ _ _ _) _ _) = _ =>
    rewrite res_write24 by reflexivity; apply bind_ext; intros ?
  | |- res _ (wbind (part _ _ (Header_W ?m ?b)) _ _) = _ =>
    rewrite (res_part_unit _ _ _ _ (fun h => Header_Parse m h b)) by apply Header_agrees;
    apply bind_ext; intros ?
  | |- res _ (wbind (part _ _ (Trailer_W ?m ?b)) _ _) = _ =>
    rewrite (res_part_unit _ _ _ _ (fun h => Trailer_Parse m h b)) by apply Trailer_agrees;
    apply bind_ext; intros ?
  | |- res _ (part _ _ _ _) = _ => rewrite res_last
  | |- res _ (complain _ _ _ _ _) = _ => rewrite res_last
  | |- res _ (wbind (complain _ _ _ _) _ _) = _ => rewrite res_complain
  | |- res _ ((if ?c then _ else _) _) = (if ?c' then _ else _) =>
    change c with c'; destruct c'
  | |- res _ (wbind (if ?c then _ else _) _ _) = (bind (if ?c' then _ else _) _) =>
    change c with c'; destruct c'
  | |- res _ ((if ?c then _ else _) _) = (bind (if ?c' then _ else _) _) =>
    change c with c'; destruct c'
  | |- bind _ _ = bind _ _ => apply bind_ext; intros ?
  | |- res _ (wret _ _) = _ => reflexivity
  end.

Lemma AcceptSMCD_agrees m buf r :
  res (fun _ x => x) (AcceptSMCD_W m buf r) = AcceptSMCD_Parse m r buf.
Proof. destruct r. unfold AcceptSMCD_W, AcceptSMCD_Parse. repeat step. Qed.

Lemma AcceptSMCR_agrees m buf r :
  res (fun _ x => x) (AcceptSMCR_W m buf r) = AcceptSMCR_Parse m r buf.
Proof. destruct r. unfold AcceptSMCR_W, AcceptSMCR_Parse. repeat step. Qed.

Lemma Decline_agrees m buf r :
  res (fun _ x => x) (Decline_W m buf r) = Decline_Parse m r buf.
Proof. destruct r. unfold Decline_W, Decline_Parse. repeat step. Qed.

Lemma DeclineV2_agrees m buf r :
  res (fun _ x => x) (DeclineV2_W m buf r) = DeclineV2_Parse m r buf.
Proof. destruct r. unfold DeclineV2_W, DeclineV2_Parse. repeat step. Qed.

Lemma AcceptSMCDv2_agrees m buf r :
  res (fun _ x => x) (AcceptSMCDv2_W m buf r) = AcceptSMCDv2_Parse m r buf.
Proof. destruct r. unfold AcceptSMCDv2_W, AcceptSMCDv2_Parse, fce_W, fce_Parse. repeat step. Qed.

(** ** Proposal *)
Lemma prefixes_v1_agrees m buf len n : forall skip ip,
  res (fun _ x => x) (prefixes_v1_W m buf len skip n ip)
  = let* ps := prefixes_v1 m buf len skip (i_IPv6Prefixes ip) n in
    ret (set_i_IPv6Prefixes ps ip).
Proof.
  induction n as [|n IH]; intros skip ip; cbn [prefixes_v1_W prefixes_v1].
  - rewrite ret_bind. destruct ip. reflexivity.
  - destruct ip. repeat step. rewrite IH. reflexivity.
Qed.

Lemma ip_area_v1_agrees m buf len skip ip :
  res pair (ip_area_v1_W m buf len skip ip)
  = let* o := ip_area_v1 m buf len skip ip in
    ret (match o with None => (false, ip) | Some i => (true, i) end).
Proof.
  unfold ip_area_v1_W, ip_area_v1. destruct ip. repeat step.
  rewrite (res_call _ _ _ _ _ (prefixes_v1_agrees _ _ _ _ _ _)). repeat step.
Qed.

Lemma Proposal_agrees m buf r :
  res (fun _ x => x) (Proposal_W m buf r) = Proposal_Parse m r buf.
Proof.
  destruct r. unfold Proposal_W, Proposal_Parse, smcd_v1_W. repeat step.
  all: rewrite (res_part2 _ _ _ _ _ _ _ (ip_area_v1_agrees _ _ _ _ _)); cbn [ClcModel.p_IP].
  all: repeat step.
  all: match goal with |- context [match ?x with Some _ => _ | None => _ end] => destruct x end.
  all: cbn [fst snd]; repeat step.
Qed.

(** ** Proposal v2 *)
Lemma prefixes_v2_agrees m buf len n : forall skip ip,
  res pair (prefixes_v2_W m buf len skip n ip)
  = let* ps := prefixes_v2 m buf len skip (i_IPv6Prefixes ip) n in
    ret (snd ps, set_i_IPv6Prefixes (fst ps) ip).
Proof.
  induction n as [|n IH]; intros skip ip; cbn [prefixes_v2_W prefixes_v2].
  - rewrite ret_bind. destruct ip. reflexivity.
  - destruct ip. repeat step. rewrite IH. reflexivity.
Qed.

Lemma ip_area_v2_agrees m buf hdr len skip ip :
  res pair (ip_area_v2_W m buf hdr len skip ip)
  = let* o := ip_area_v2 m buf hdr len skip ip in
    ret (match o with None => (None, ip) | Some (i, k) => (Some k, i) end).
Proof.
  unfold ip_area_v2_W, ip_area_v2. destruct ip. repeat step.
  rewrite (res_call2 _ _ _ _ _ (prefixes_v2_agrees _ _ _ _ _ _)). repeat step.
  match goal with p : (_ * _)%type |- _ => destruct p end. cbn [fst snd]. repeat step.
Qed.

Lemma eids_v2_agrees m buf len n : forall i skip x,
  res pair (eids_v2_W m buf len skip i n x)
  = let* r := eids_v2 m buf len skip (x_EIDArea x) i n in
    ret (snd r, set_x_EIDArea (fst r) x).
Proof.
  induction n as [|n IH]; intros i skip x; cbn [eids_v2_W eids_v2].
  - rewrite ret_bind. destruct x. reflexivity.
  - destruct x. repeat step. rewrite IH. reflexivity.
Qed.

Lemma ext_v2_agrees m buf hdr len skip x :
  res pair (ext_v2_W m buf hdr len skip x)
  = let* o := ext_v2 m buf hdr len skip x in
    ret (match o with None => (None, x) | Some (y, k) => (Some k, y) end).
Proof.
  unfold ext_v2_W, ext_v2. destruct x. repeat step.
  rewrite (res_call2 _ _ _ _ _ (eids_v2_agrees _ _ _ _ _ _ _)). repeat step.
  match goal with p : (_ * _)%type |- _ => destruct p end. cbn [fst snd]. repeat step.
Qed.

Lemma gids_v2_agrees m buf len n : forall i skip y,
  res (fun _ x => x) (gids_v2_W m buf len skip i n y)
  = let* a := gids_v2 m buf len skip (y_GIDArea y) i n in ret (set_y_GIDArea a y).
Proof.
  induction n as [|n IH]; intros i skip y; cbn [gids_v2_W gids_v2].
  - rewrite ret_bind. destruct y. reflexivity.
  - destruct y. repeat step. rewrite IH. reflexivity.
Qed.

Lemma smcd_v2_agrees m buf hdr len skip g y :
  res pair (smcd_v2_W m buf hdr len skip g y)
  = let* o := smcd_v2 m buf hdr len skip g y in
    ret (match o with None => (false, y) | Some z => (true, z) end).
Proof.
  unfold smcd_v2_W, smcd_v2. destruct y. repeat step.
  rewrite (res_call _ _ _ _ _ (gids_v2_agrees _ _ _ _ _ _ _)). repeat step.
Qed.

Lemma ProposalV2_agrees m buf r :
  res (fun _ x => x) (ProposalV2_W m buf r) = ProposalV2_Parse m r buf.
Proof.
  destruct r. unfold ProposalV2_W, ProposalV2_Parse. repeat step.
  rewrite (res_part2 _ _ _ _ _ _ _ (ip_area_v2_agrees _ _ _ _ _ _)); cbn [ClcModel.p2_IP].
  repeat step.
  match goal with o : option (IPInfo * nat) |- _ => destruct o as [[ip skip]|] end; cbn [fst snd]; repeat step.
  rewrite (res_part2 _ _ _ _ _ _ _ (ext_v2_agrees _ _ _ _ _ _)); cbn [ClcModel.p2_Ext].
  repeat step.
  match goal with o : option (V2Ext * nat) |- _ => destruct o as [[x skip2]|] end; cbn [fst snd]; repeat step.
  rewrite (res_part2 _ _ _ _ _ _ _ (smcd_v2_agrees _ _ _ _ _ _ _)); cbn [ClcModel.p2_SMCD].
  repeat step.
  match goal with o : option SMCDExt |- _ => destruct o as [y|] end; cbn [fst snd]; repeat step.
Qed.

(** ** All messages *)
Lemma inside_res {R} con (w : W R unit) r :
  res (fun _ x => x) (inside con w r) = let* x := res (fun _ x => x) (w r) in ret (con x).
Proof. unfold inside. destruct (w r) as [[l [[]| |]] r1]; cbn; rewrite ?app_nil_r; reflexivity. Qed.

Lemma Message_agrees m buf msg :
  res (fun _ x => x) (Message_W m buf msg) = Message_Parse m msg buf.
Proof.
  destruct msg as [p|p|a|a|a|c|c|c|d|d]; cbn [Message_W Message_Parse]; rewrite inside_res.
  - rewrite Proposal_agrees. reflexivity.
  - rewrite ProposalV2_agrees. reflexivity.
  - rewrite AcceptSMCR_agrees. reflexivity.
  - rewrite AcceptSMCD_agrees. reflexivity.
  - rewrite AcceptSMCDv2_agrees. reflexivity.
  - rewrite AcceptSMCR_agrees. unfold ConfirmSMCR_Parse. rewrite bind_assoc.
    apply bind_ext. intros x. rewrite ret_bind. reflexivity.
  - rewrite AcceptSMCD_agrees. unfold ConfirmSMCD_Parse. rewrite bind_assoc.
    apply bind_ext. intros x. rewrite ret_bind. reflexivity.
  - rewrite AcceptSMCDv2_agrees. unfold ConfirmSMCDv2_Parse. rewrite bind_assoc.
    apply bind_ext. intros x. rewrite ret_bind. reflexivity.
  - rewrite Decline_agrees. reflexivity.
  - rewrite DeclineV2_agrees. reflexivity.
Qed.
