(** * Global: programs that use the exported variables of package clc. Specification only. *)

From Coq Require Import NArith Bool String Arith List.
From Verif Require Import GoBase ClcModel GlobalModel.
Import ListNotations.

Definition same_variable (v w : variable) : bool :=
  match v, w with
  | VSMCREyecatcher, VSMCREyecatcher | VSMCDEyecatcher, VSMCDEyecatcher | VSMCOption, VSMCOption => true
  | _, _ => false
  end.

(** [e] is a part of the variable [v] *)
Fixpoint part_of (v : variable) (e : expr) : bool :=
  match e with Own _ => false | Var w => same_variable v w | Cut e _ _ => part_of v e end.

Definition of_stmt (st : stmt) : expr := match st with Store e _ _ | Assign _ e => e end.

(** the program never mentions [v], neither to write to it nor to copy it *)
Definition never_used (v : variable) (p : list stmt) : bool :=
  forallb (fun st => negb (part_of v (of_stmt st)) &&
                     match st with Store _ _ _ => true | Assign w _ => negb (same_variable v w) end) p.

Definition never_assigned (v : variable) (p : list stmt) : bool :=
  forallb (fun st => match st with Store _ _ _ => true | Assign w _ => negb (same_variable v w) end) p.

(** the slices of the program are parts of its own arrays *)
Fixpoint own_expr (e : expr) : Prop :=
  match e with
  | Own s => s_arr s <> array_R /\ s_arr s <> array_D
  | Var _ => True
  | Cut e _ _ => own_expr e
  end.
Definition own_arrays (p : list stmt) : Prop := Forall (fun st => own_expr (of_stmt st)) p.

(** everything is as if the variables were constants *)
Definition as_constants (g : globals) : Prop :=
  (forall e, Eyecatcher_String_G g e = Eyecatcher_String e) /\
  (forall buf, HasEyecatcher_G g buf = HasEyecatcher (g_mem g) buf) /\
  (forall t buf, Trailer_Parse_G g t buf = Trailer_Parse (g_mem g) t buf) /\
  (forall t, Trailer_String_G g t = Trailer_String t) /\
  (forall opts, CheckSMCOption_G g opts = CheckSMCOption opts) /\
  (forall buf, NewMessage_G g buf = NewMessage (g_mem g) buf).

(** an option as the code looks for it *)
Definition smc_option (data : list byte) : TCPOption := {| OptionType := 254; OptionLength := 6; OptionData := data |}.
