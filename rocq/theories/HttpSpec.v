(** * HttpSpec: what the output buffer of pkg/http is meant to be.

    A sequential buffer, linearizability, and the flush parameter of a query;
    written without reference to the implementation (only the event
    vocabulary of [HttpModel] is used). *)

From Coq Require Import NArith Bool String Ascii Arith List.
From Verif Require Import GoBase HttpModel.
Import ListNotations.

(** ** The sequential buffer *)

(** A completed call: its identity, the call and its result. *)
Definition entry := (nat * call * result)%type.
Definition e_id (e : entry) : nat := fst (fst e).

(** [legal s l s']: executing the calls of [l] one after the other on a buffer
    containing [s] gives the results in [l] and leaves [s']. *)
Inductive legal : list byte -> list entry -> list byte -> Prop :=
| legal_nil s : legal s [] s
| legal_write s id p l s' :
    legal (s ++ p) l s' ->
    legal s ((id, Write p, ResWrite (List.length p)) :: l) s'
| legal_copy s id l s' :
    legal s l s' -> legal s ((id, CopyBuffer, ResCopy s) :: l) s'
| legal_reset s id l s' :
    legal [] l s' -> legal s ((id, Reset, ResReset) :: l) s'.

(** ** Linearizability *)

(** [x] occurs before [y] *)
Definition precedes {A} (l : list A) (x y : A) : Prop :=
  exists l1 l2, l = l1 ++ l2 /\ In x l1 /\ In y l2.

(** [l] is a sequential order of calls that explains the events [tr]. *)
Definition explains (l : list entry) (tr : list event) : Prop :=
  (* each call occurs once *)
  NoDup (map e_id l) /\
  (* only calls that were made occur *)
  (forall id c r, In (id, c, r) l -> exists t o, In (Inv id t c o) tr) /\
  (* all calls that returned occur, with the result they returned *)
  (forall id r, In (Ret id r) tr -> exists c, In (id, c, r) l) /\
  (* a call that returned before another one was made comes before it *)
  (forall id1 r1 id2 t2 c2 o2,
      precedes tr (Ret id1 r1) (Inv id2 t2 c2 o2) ->
      In id2 (map e_id l) -> precedes (map e_id l) id1 id2).

(** The identities of the calls made. *)
Definition invoked (tr : list event) : list nat :=
  flat_map (fun e => match e with Inv id _ _ _ => [id] | _ => [] end) tr.

(** ** Bytes written, read and removed *)

(** All bytes written by the calls of [l]. *)
Definition written (l : list entry) : list byte :=
  flat_map (fun e => match snd (fst e) with Write p => p | _ => [] end) l.

Definition is_reset (e : entry) : bool :=
  match snd (fst e) with Reset => true | _ => false end.

(** The calls since the last [Reset]. *)
Fixpoint since_reset (l : list entry) : list entry :=
  match l with
  | [] => []
  | e :: l' => if existsb is_reset l' then since_reset l'
               else if is_reset e then l' else e :: l'
  end.

(** The bytes removed by the calls of [l], in order, if the buffer contains [s]
    before them. *)
Fixpoint removed (s : list byte) (l : list entry) : list byte :=
  match l with
  | [] => []
  | (_, Write p, _) :: l' => removed (s ++ p) l'
  | (_, CopyBuffer, _) :: l' => removed s l'
  | (_, Reset, _) :: l' => s ++ removed [] l'
  end.

(** ** The flush parameter of a raw query *)

Local Open Scope string_scope.

(** The hexadecimal digits. *)
Definition hex_digits : list (ascii * N) :=
  [("0",0);("1",1);("2",2);("3",3);("4",4);("5",5);("6",6);("7",7);("8",8);
   ("9",9);("a",10);("b",11);("c",12);("d",13);("e",14);("f",15);
   ("A",10);("B",11);("C",12);("D",13);("E",14);("F",15)]%char%N.

(** [decodes s t]: [s] is a correct application/x-www-form-urlencoded form of
    [t]. *)
Inductive decodes : string -> string -> Prop :=
| decodes_nil : decodes "" ""
| decodes_plain c s t : c <> "%"%char -> c <> "+"%char -> decodes s t ->
    decodes (String c s) (String c t)
| decodes_plus s t : decodes s t -> decodes (String "+" s) (String " " t)
| decodes_hex h vh l vl s t : In (h, vh) hex_digits -> In (l, vl) hex_digits ->
    decodes s t ->
    decodes (String "%" (String h (String l s)))
            (String (ascii_of_N (16 * vh + vl)) t).

(** [free c s]: the character [c] does not occur in [s]. *)
Fixpoint free (c : ascii) (s : string) : Prop :=
  match s with
  | EmptyString => True
  | String d s' => d <> c /\ free c s'
  end.

(** [param s k v]: [s] is a well-formed parameter with name [k] and value
    [v]; the value is empty when there is no "=". *)
Definition param (s k v : string) : Prop :=
  s <> "" /\ free ";" s /\
  ((exists sk sv, s = sk ++ "=" ++ sv /\ free "=" sk /\ decodes sk k /\ decodes sv v)
   \/ (free "=" s /\ decodes s k /\ v = "")).

(** The parameters of a query are separated by "&". *)
Definition parameters (raw : string) (ps : list string) : Prop :=
  raw = String.concat "&" ps /\ Forall (free "&") ps.

(** The first well-formed parameter named "flush" has the value "true". *)
Definition wants_flush (raw : string) : Prop :=
  exists before p after,
    parameters raw (before ++ p :: after)%list /\
    param p "flush" "true" /\
    Forall (fun q => forall v, ~ param q "flush" v) before.
