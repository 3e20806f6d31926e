(** * Owned: programs with message objects, buffers and the arrays of address fields.
    Specification only. *)

From Coq Require Import NArith Bool String Arith List.
From Verif Require Import GoBase GoFmt ClcModel LlcModel RoceModel Setters WriteModel LlcWriteModel ClcView LlcView HeapModel.
Import ListNotations.
Local Open Scope nat_scope.

(** the entries of IPv6Prefixes from number [i] on, with the bytes of their prefixes *)
Fixpoint fill_prefixes (c : nat -> list byte) (i : nat) (l : list IPv6Prefix) : list IPv6Prefix :=
  match l with
  | [] => []
  | e :: l => mkIPv6Prefix (c (sIPv6 i)) (ip6_prefixLen e) :: fill_prefixes c (S i) l
  end.

(** an object as the other models have it: with the bytes that its slices show; [c k] are the
    bytes of slice number [k] *)
Definition fill_ip (c : nat -> list byte) (ip : IPInfo) : IPInfo :=
  set_i_Prefix (c sPrefix) (set_i_IPv6Prefixes (fill_prefixes c 0 (i_IPv6Prefixes ip)) ip).
Definition fill_p (c : nat -> list byte) (p : Proposal) : Proposal :=
  set_p_IBGID (c sIBGID) (set_p_IBMAC (c sIBMAC) (set_p_IP (fill_ip c (p_IP p)) p)).
Definition fill_p2 (c : nat -> list byte) (p : ProposalV2) : ProposalV2 :=
  set_p2_IBGID (c sIBGID) (set_p2_IBMAC (c sIBMAC) (set_p2_IP (fill_ip c (p2_IP p)) p)).
Definition fill_ar (c : nat -> list byte) (a : AcceptSMCR) : AcceptSMCR :=
  set_ar_IBGID (c sIBGID) (set_ar_IBMAC (c sIBMAC) a).
Definition fill_base (c : nat -> list byte) (b : BaseMsg) : BaseMsg := set_b_Raw (c sRaw) b.
Definition fill_al (c : nat -> list byte) (a : AddLink) : AddLink :=
  set_al_SenderMAC (c sSenderMAC) (set_al_SenderGID (c sSenderGID) (set_al_Base (fill_base c (al_Base a)) a)).
Definition fill_cl (c : nat -> list byte) (a : ConfirmLink) : ConfirmLink :=
  set_cl_SenderMAC (c sSenderMAC) (set_cl_SenderGID (c sSenderGID) (set_cl_Base (fill_base c (cl_Base a)) a)).

Definition fill (c : nat -> list byte) (t : thing) : thing :=
  match t with
  | TClc (MProposal p) => TClc (MProposal (fill_p c p))
  | TClc (MProposalV2 p) => TClc (MProposalV2 (fill_p2 c p))
  | TClc (MAcceptSMCR a) => TClc (MAcceptSMCR (fill_ar c a))
  | TClc (MConfirmSMCR a) => TClc (MConfirmSMCR (mkConfirmSMCR (fill_ar c (cr_Accept a))))
  | TClc msg => TClc msg
  | TLlc (LConfirm a) => TLlc (LConfirm (fill_cl c a))
  | TLlc (LAddLink a) => TLlc (LAddLink (fill_al c a))
  | TLlc (LAddLinkCont a) => TLlc (LAddLinkCont (set_ac_Base (fill_base c (ac_Base a)) a))
  | TLlc (LDeleteLink a) => TLlc (LDeleteLink (set_dl_Base (fill_base c (dl_Base a)) a))
  | TLlc (LConfirmRKey a) => TLlc (LConfirmRKey (set_ck_Base (fill_base c (ck_Base a)) a))
  | TLlc (LConfirmRKeyCont a) => TLlc (LConfirmRKeyCont (set_cc_Base (fill_base c (cc_Base a)) a))
  | TLlc (LDeleteRKey a) => TLlc (LDeleteRKey (set_dk_Base (fill_base c (dk_Base a)) a))
  | TLlc (LTestLink a) => TLlc (LTestLink (set_tl_Base (fill_base c (tl_Base a)) a))
  | TLlc (LCDC a) => TLlc (LCDC (set_c_Base (fill_base c (c_Base a)) a))
  | TLlc (LOther a) => TLlc (LOther (set_o_Base (fill_base c (o_Base a)) a))
  | TBth b => TBth (set_bth_Raw (c sRaw) b)
  end.

(** Parse as the other models have it *)
Definition Thing_W (m : mem) (buf : slice) (t : thing) : list string * outcome unit * thing :=
  match t with
  | TClc msg => let '(l, o, r) := Message_W m buf msg in (l, o, TClc r)
  | TLlc msg => let '(l, o, r) := LLC_W m buf msg in (l, o, TLlc r)
  | TBth b => let '(l, o, r) := BTH_W m buf b in (l, o, TBth r)
  end.

(** ** Programs *)

(** the types of which a program can make objects *)
Inductive type := NClc (k : clc_kind) | NLlc (k : llc_kind) | NBth.
Definition new (t : type) : thing :=
  match t with NClc k => TClc (fresh k) | NLlc k => TLlc (llc_fresh k) | NBth => TBth BTH_zero end.

(** arrays with numbers below [w_next] exist; [w_made] are those that the program made itself,
    the others were made by Parse *)
Record world := mkworld {
  w_mem : mem; w_next : nat; w_made : list nat; w_objs : list (thing * (nat -> slice)) }.

(** A program makes arrays and objects, parses any slices of any arrays into its objects and
    recovers when this panics, and changes any bytes of any arrays, also of those that hold the
    addresses of its objects, say [msg.IBMAC[2] = 7]. *)
Inductive op :=
| OMake (bs : list byte)
| OStore (a i : nat) (b : byte)
| ONew (t : type)
| OParse (j : nat) (s : slice).

Definition put (l : list byte) (i : nat) (b : byte) : list byte :=
  if i <? length l then firstn i l ++ b :: skipn (S i) l else l.

Fixpoint replace {A} (l : list A) (j : nat) (x : A) : list A :=
  match l, j with
  | [], _ => []
  | _ :: l, O => x :: l
  | y :: l, S j => y :: replace l j x
  end.

Definition step (w : world) (o : op) : world :=
  match o with
  | OMake bs => mkworld (set_arr (w_mem w) (w_next w) bs) (S (w_next w)) (w_next w :: w_made w) (w_objs w)
  | OStore a i b => mkworld (set_arr (w_mem w) a (put (w_mem w a) i b)) (w_next w) (w_made w) (w_objs w)
  | ONew t => mkworld (w_mem w) (w_next w) (w_made w) (w_objs w ++ [(new t, fun _ => nil_slice)])
  | OParse j s =>
    match nth_error (w_objs w) j with
    | None => w
    | Some (t, sl) =>
      let '(_, _, x) := Parse_H s (mkhs t sl (w_mem w) (w_next w)) in
      mkworld (hm x) (hn x) (w_made w) (replace (w_objs w) j (hv x, hslot x))
    end
  end.

(** arrays and slices that a program can have *)
Definition exists_slice (w : world) (s : slice) : Prop := slice_ok (w_mem w) s /\ s_arr s < w_next w.
Definition allowed (w : world) (o : op) : Prop :=
  match o with
  | OStore a _ _ => a < w_next w
  | OParse j s => exists_slice w s
  | _ => True
  end.

Inductive reached : world -> Prop :=
| reached_start m : reached (mkworld m 0 [] [])
| reached_step w o : reached w -> allowed w o -> reached (step w o).

(** object number [j] as the program sees it *)
Definition shown (w : world) (j : nat) : option thing :=
  match nth_error (w_objs w) j with
  | Some (t, sl) => Some (fill (fun k => s_bytes (w_mem w) (sl k)) t)
  | None => None
  end.

(** array [a] holds bytes of slice number [k] of object number [j] *)
Definition holds (w : world) (a j k : nat) : Prop :=
  exists t sl, nth_error (w_objs w) j = Some (t, sl) /\ s_arr (sl k) = a /\ s_len (sl k) <> 0.

(** the steps of a program that neither parses into object [j] nor writes to its arrays *)
Fixpoint leaves_alone (j : nat) (w : world) (os : list op) : Prop :=
  match os with
  | [] => True
  | o :: os => allowed w o /\
    match o with
    | OParse j' _ => j' <> j
    | OStore a _ _ => forall k, ~ holds w a j k
    | _ => True
    end /\ leaves_alone j (step w o) os
  end.
Definition run (w : world) (os : list op) : world := fold_left step os w.

(** the steps of a program that does not parse into object [j] and writes only to arrays that
    it made itself, say the buffers that it reads into *)
Fixpoint own_buffers (j : nat) (w : world) (os : list op) : Prop :=
  match os with
  | [] => True
  | o :: os => allowed w o /\
    match o with
    | OParse j' _ => j' <> j
    | OStore a _ _ => In a (w_made w)
    | _ => True
    end /\ own_buffers j (step w o) os
  end.
