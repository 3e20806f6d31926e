(** * AliasModel: Proposal objects whose IPv6 prefixes live in shared memory.

    [p.IPv6Prefixes] is the only field of a message that Parse does not make anew or
    overwrite in place, but extends with [append].  The other models treat it as a list.  In
    Go it is a slice: it refers to an array, which has room for more entries than the
    slice has, and which copies of the object ([q := *p]) share.  This file models the two
    Parse methods once more, with a heap of such arrays.  What does not concern the
    prefixes is taken from WriteModel.v.

    The addresses ([net.IP], [net.HardwareAddr]) are slices, too; but Parse makes a new array
    for each (clc_proposal.go:128, :133, :163, :194, clc_proposal_v2.go:305, :310, :345, :374,
    clc_accept_smcr.go:126, :131) and no code writes to it later, so that sharing it
    makes no difference. *)

From Coq Require Import List NArith Bool String Arith.
From Verif Require Import GoBase GoFmt ClcModel Setters WriteModel ClcView.
Import ListNotations.
Local Open Scope string_scope.
Local Open Scope N_scope.

(** arrays of IPv6Prefix; [h_next] is the number of the next array *)
Record pheap := mkpheap { h_next : nat; h_array : nat -> list IPv6Prefix }.

(** a value of type [[]IPv6Prefix] (clc_proposal.go:46, clc_proposal_v2.go:68); it starts at the beginning
    of its array, as no code reslices it *)
Record pslice := mkpslice { ps_array : nat; ps_len : nat; ps_cap : nat }.

(** array 0 has no entries; nil refers to it *)
Definition nil_prefixes : pslice := mkpslice 0 0 0.
Definition no_arrays : pheap := mkpheap 1 (fun _ => []).

(** the entries of a slice *)
Definition entries (h : pheap) (s : pslice) : list IPv6Prefix := firstn (ps_len s) (h_array h (ps_array s)).

Definition set_array (h : pheap) (a : nat) (l : list IPv6Prefix) : pheap :=
  mkpheap (h_next h) (fun b => if Nat.eqb b a then l else h_array h b).

(** an entry of a new array that has not been written *)
Definition IPv6Prefix_zero : IPv6Prefix := mkIPv6Prefix [] 0.

(** [append(s, x)]: into the array if it has room, into a larger copy otherwise.  How much
    larger is not specified by Go: [spare] is the number of entries that remain free. *)
Definition go_append (spare : pheap -> pslice -> nat) (x : IPv6Prefix) (h : pheap) (s : pslice) : pheap * pslice :=
  if Nat.ltb (ps_len s) (ps_cap s) then
    let l := h_array h (ps_array s) in
    (set_array h (ps_array s) (firstn (ps_len s) l ++ x :: skipn (S (ps_len s)) l),
     mkpslice (ps_array s) (S (ps_len s)) (ps_cap s))
  else
    let l := (entries h s ++ x :: repeat IPv6Prefix_zero (spare h s))%list in
    (mkpheap (S (h_next h)) (fun b => if Nat.eqb b (h_next h) then l else h_array h b),
     mkpslice (h_next h) (S (ps_len s)) (List.length l)).

(** ** Runs over the heap, the slice of the receiver and its other fields *)
Definition HS (R : Type) : Type := (pheap * pslice * R)%type.

(** what does not concern the prefixes *)
Definition on {R A} (w : W R A) : W (HS R) A :=
  fun '(h, s, r) => let '(l, o, r1) := w r in (l, o, (h, s, r1)).

(** [x.f.method(..)], [f] an embedded struct *)
Definition hpart {R S A} (f : R -> S) (set : S -> R -> R) (w : W (HS S) A) : W (HS R) A :=
  fun '(h, s, r) => let '(l, o, (h1, s1, x)) := w (h, s, f r) in (l, o, (h1, s1, set x r)).

(** [p.IPv6Prefixes = append(p.IPv6Prefixes, x)] *)
Definition append_prefix {R} (spare : pheap -> pslice -> nat) (x : IPv6Prefix) : W (HS R) unit :=
  fun '(h, s, r) => let (h1, s1) := go_append spare x h s in ([], Done tt, (h1, s1, r)).

(** the loop of clc_proposal.go:178-203, [n] iterations remaining *)
Fixpoint prefixes_v1_H (spare : pheap -> pslice -> nat) (m : mem) (buf : slice) (len skip n : nat) : W (HS IPInfo) unit :=
  match n with
  | O => wret tt
  | S n' =>
    let skip := (skip + 1)%nat in
    if short len skip (IPv6PrefixLen + TrailerLen) then
      complain m "Error parsing CLC Proposal: IPv6 prefix count too big" buf len
    else
      let? prefix := lift (copy_from m (zeros 16) buf skip (skip + 16)) in
      let skip := (skip + 16)%nat in
      let? plen := lift (idx m buf skip) in
      append_prefix spare (mkIPv6Prefix prefix (b2n plen)) ;>
      prefixes_v1_H spare m buf len skip n'
  end.

(** clc_proposal.go:154-203; [false] = Parse returns here *)
Definition ip_area_v1_H (spare : pheap -> pslice -> nat) (m : mem) (buf : slice) (len skip : nat) : W (HS IPInfo) bool :=
  if short len skip (4 + 1 + 2 + 1 + TrailerLen) then
    complain m "Error parsing CLC Proposal: IP Area Offset too big" buf len ;>
    wret false
  else
    on (maketo i_Prefix set_i_Prefix 4 m buf skip (skip + 4)) ;>
    let skip := (skip + 4)%nat in
    on (assignf set_i_PrefixLen b2n (idx m buf skip)) ;>
    let skip := (skip + 1)%nat in
    on (copyto i_reserved2 set_i_reserved2 m buf skip (skip + 2)) ;>
    let skip := (skip + 2)%nat in
    on (assignf set_i_IPv6PrefixesCnt b2n (idx m buf skip)) ;>
    let? cnt := on (get i_IPv6PrefixesCnt) in
    prefixes_v1_H spare m buf len skip (N.to_nat cnt) ;>
    wret true.

(** clc_proposal.go:105-207 *)
Definition Proposal_H (spare : pheap -> pslice -> nat) (m : mem) (buf : slice) : W (HS Proposal) unit :=
  on (change (set_p_Raw buf)) ;>
  on (part p_Header set_p_Header (Header_W m buf)) ;>
  let? hdr := on (get p_Header) in
  let len := N.to_nat (h_Length hdr) in
  if h_Length hdr <? ProposalLen then
    complain m "Error parsing CLC Proposal: message too short" buf len
  else
    let skip := HeaderLen in
    on (copyto p_SenderPeerID set_p_SenderPeerID m buf skip (skip + PeerIDLen)) ;>
    let skip := (skip + PeerIDLen)%nat in
    on (maketo p_IBGID set_p_IBGID 16 m buf skip (skip + 16)) ;>
    let skip := (skip + 16)%nat in
    on (maketo p_IBMAC set_p_IBMAC 6 m buf skip (skip + 6)) ;>
    let skip := (skip + 6)%nat in
    on (assign set_p_IPAreaOffset (be16 m buf skip (skip + 2))) ;>
    let skip := (skip + 2)%nat in
    let? skip := on (smcd_v1_W m buf skip) in
    let? go_on := hpart p_IP set_p_IP (ip_area_v1_H spare m buf len skip) in
    if go_on then on (part p_Trailer set_p_Trailer (Trailer_W m buf)) else wret tt.

(** the loop of clc_proposal_v2.go:361-384; returns the final [skip] *)
Fixpoint prefixes_v2_H (spare : pheap -> pslice -> nat) (m : mem) (buf : slice) (len skip n : nat) : W (HS IPInfo) nat :=
  match n with
  | O => wret skip
  | S n' =>
    if short len skip (IPv6PrefixLen + TrailerLen) then
      complain m "Error parsing CLC Proposal v2: IPv6 prefix count too big" buf len ;>
      wret skip
    else
      let? prefix := lift (copy_from m (zeros 16) buf skip (skip + 16)) in
      let skip := (skip + 16)%nat in
      let? plen := lift (idx m buf skip) in
      let skip := (skip + 1)%nat in
      append_prefix spare (mkIPv6Prefix prefix (b2n plen)) ;>
      prefixes_v2_H spare m buf len skip n'
  end.

(** clc_proposal_v2.go:334-385; [None] = Parse returns here *)
Definition ip_area_v2_H (spare : pheap -> pslice -> nat) (m : mem) (buf : slice) (hdr : Header) (len skip : nat)
  : W (HS IPInfo) (option nat) :=
  if negb (h_Path hdr =? SMCTypeN) then
    if short len skip (4 + 1 + 2 + 1 + TrailerLen) then
      complain m "Error parsing CLC Proposal v2: IP Area Offset too big" buf len ;>
      wret None
    else
      on (maketo i_Prefix set_i_Prefix 4 m buf skip (skip + 4)) ;>
      let skip := (skip + 4)%nat in
      on (assignf set_i_PrefixLen b2n (idx m buf skip)) ;>
      let skip := (skip + 1)%nat in
      on (copyto i_reserved2 set_i_reserved2 m buf skip (skip + 2)) ;>
      let skip := (skip + 2)%nat in
      on (assignf set_i_IPv6PrefixesCnt b2n (idx m buf skip)) ;>
      let skip := (skip + 1)%nat in
      let? cnt := on (get i_IPv6PrefixesCnt) in
      let? skip := prefixes_v2_H spare m buf len skip (N.to_nat cnt) in
      wret (Some skip)
  else wret (Some skip).

(** clc_proposal_v2.go:282-487 *)
Definition ProposalV2_H (spare : pheap -> pslice -> nat) (m : mem) (buf : slice) : W (HS ProposalV2) unit :=
  on (change (set_p2_Raw buf)) ;>
  on (part p2_Header set_p2_Header (Header_W m buf)) ;>
  let? hdr := on (get p2_Header) in
  let len := N.to_nat (h_Length hdr) in
  if h_Length hdr <? ProposalV2Len then
    complain m "Error parsing CLC Proposal v2: message too short" buf len
  else
    let skip := HeaderLen in
    on (copyto p2_SenderPeerID set_p2_SenderPeerID m buf skip (skip + PeerIDLen)) ;>
    let skip := (skip + PeerIDLen)%nat in
    on (maketo p2_IBGID set_p2_IBGID 16 m buf skip (skip + 16)) ;>
    let skip := (skip + 16)%nat in
    on (maketo p2_IBMAC set_p2_IBMAC 6 m buf skip (skip + 6)) ;>
    let skip := (skip + 6)%nat in
    on (assign set_p2_IPAreaOffset (be16 m buf skip (skip + 2))) ;>
    let skip := (skip + 2)%nat in
    on (assign set_p2_SMCDGID (be64 m buf skip (skip + 8))) ;>
    let skip := (skip + 8)%nat in
    on (assign set_p2_ISMv2VCHID (be16 m buf skip (skip + 2))) ;>
    let skip := (skip + 2)%nat in
    on (assign set_p2_SMCv2Offset (be16 m buf skip (skip + 2))) ;>
    let skip := (skip + 2)%nat in
    on (copyto p2_reserved set_p2_reserved m buf skip (skip + 28)) ;>
    let skip := (skip + 28)%nat in
    let? r := hpart p2_IP set_p2_IP (ip_area_v2_H spare m buf hdr len skip) in
    match r with
    | None => wret tt
    | Some skip =>
      let? r := on (part p2_Ext set_p2_Ext (ext_v2_W m buf hdr len skip)) in
      match r with
      | None => wret tt
      | Some skip =>
        let? ext := on (get p2_Ext) in
        let? go_on := on (part p2_SMCD set_p2_SMCD
                        (smcd_v2_W m buf hdr len skip (x_GIDNumber ext))) in
        if go_on then on (part p2_Trailer set_p2_Trailer (Trailer_W m buf)) else wret tt
      end
    end.

(** ** Programs with several objects *)

(** an object: its fields without the entries of the slice, and the slice *)
Definition hobj : Type := (Message * pslice)%type.

(** [msg.Parse(buf)]; only the Proposals have prefixes *)
Definition Message_H (spare : pheap -> pslice -> nat) (m : mem) (buf : slice) (h : pheap) (x : hobj)
  : list string * outcome unit * (pheap * hobj) :=
  let '(msg, s) := x in
  match msg with
  | MProposal p =>
    let '(l, o, (h1, s1, p1)) := Proposal_H spare m buf (h, s, p) in (l, o, (h1, (MProposal p1, s1)))
  | MProposalV2 p =>
    let '(l, o, (h1, s1, p1)) := ProposalV2_H spare m buf (h, s, p) in (l, o, (h1, (MProposalV2 p1, s1)))
  | _ => let '(l, o, msg1) := Message_W m buf msg in (l, o, (h, (msg1, s)))
  end.

Record world := mkworld { w_heap : pheap; w_objs : list hobj }.

Definition empty_world : world := mkworld no_arrays [].

(** What a program can do with objects: make a new one ([NewMessage], message.go:24-75, or
    [&Proposal{}]), copy one ([q := *p]), and parse into one. *)
Inductive action :=
| New (k : clc_kind)
| Copy (i : nat)
| Parse (i : nat) (m : mem) (buf : slice).

Definition replace {A} (l : list A) (i : nat) (x : A) : list A := (firstn i l ++ x :: skipn (S i) l)%list.

(** what the action logs, how it ends, and the world afterwards; nothing happens if there is
    no such object *)
Definition perform (spare : pheap -> pslice -> nat) (w : world) (a : action)
  : list string * outcome unit * world :=
  match a with
  | New k => ([], Done tt, mkworld (w_heap w) (w_objs w ++ [(fresh k, nil_prefixes)]))
  | Copy i =>
    match nth_error (w_objs w) i with
    | Some x => ([], Done tt, mkworld (w_heap w) (w_objs w ++ [x]))
    | None => ([], Done tt, w)
    end
  | Parse i m buf =>
    match nth_error (w_objs w) i with
    | Some x =>
      let '(l, o, (h1, x1)) := Message_H spare m buf (w_heap w) x in
      (l, o, mkworld h1 (replace (w_objs w) i x1))
    | None => ([], Done tt, w)
    end
  end.

(** a program that recovers from panics *)
Fixpoint perform_all (spare : pheap -> pslice -> nat) (w : world) (acts : list action)
  : list (list string * outcome unit) * world :=
  match acts with
  | [] => ([], w)
  | a :: rest =>
    let '(l, o, w1) := perform spare w a in
    let (r, w2) := perform_all spare w1 rest in ((l, o) :: r, w2)
  end.

(** an object as its methods see it: with the entries of its slice *)
Definition with_prefixes (l : list IPv6Prefix) (msg : Message) : Message :=
  match msg with
  | MProposal p => MProposal (set_p_IP (set_i_IPv6Prefixes l (p_IP p)) p)
  | MProposalV2 p => MProposalV2 (set_p2_IP (set_i_IPv6Prefixes l (p2_IP p)) p)
  | _ => msg
  end.
Definition seen (h : pheap) (x : hobj) : Message := with_prefixes (entries h (snd x)) (fst x).
Definition objects (w : world) : list Message := map (seen (w_heap w)) (w_objs w).
