(** * Alias: programs with objects that share nothing.

    The same actions on a list of independent values. *)

From Coq Require Import List String.
From Verif Require Import GoBase ClcModel Setters WriteModel Samples ClcView AliasModel.
Import ListNotations.

Definition act (objs : list Message) (a : action) : list string * outcome unit * list Message :=
  match a with
  | New k => ([], Done tt, objs ++ [fresh k])
  | Copy i => match nth_error objs i with Some x => ([], Done tt, objs ++ [x]) | None => ([], Done tt, objs) end
  | Parse i m buf =>
    match nth_error objs i with
    | Some x => let '(l, o, x1) := Message_W m buf x in (l, o, replace objs i x1)
    | None => ([], Done tt, objs)
    end
  end.

Fixpoint act_all (objs : list Message) (acts : list action) : list (list string * outcome unit) * list Message :=
  match acts with
  | [] => ([], objs)
  | a :: rest =>
    let '(l, o, objs1) := act objs a in
    let (r, objs2) := act_all objs1 rest in ((l, o) :: r, objs2)
  end.

Definition is_copy (a : action) : bool := match a with Copy _ => true | _ => false end.

(** the IPv6 prefixes of an object, and all but them *)
Definition prefixes_of (msg : Message) : list IPv6Prefix :=
  match msg with
  | MProposal p => i_IPv6Prefixes (p_IP p)
  | MProposalV2 p => i_IPv6Prefixes (p2_IP p)
  | _ => []
  end.

Definition other_fields (msg : Message) : Message :=
  match msg with
  | MProposal p => MProposal (set_p_IP (set_i_IPv6Prefixes [] (p_IP p)) p)
  | MProposalV2 p => MProposalV2 (set_p2_IP (set_i_IPv6Prefixes [] (p2_IP p)) p)
  | _ => msg
  end.

(** room as in Go, which doubles small arrays *)
Definition doubles (h : pheap) (s : pslice) : nat := ps_len s - 1.

(** an action for examples *)
Definition parse (i : nat) (bs : list byte) : action := Parse i (mem1 bs) (slice1 bs).
