(** * PropsGlobal: the exported variables of package clc (C72).

    GlobalModel.v has the variables, programs that change them, and the functions that use
    them (with suffix [_G]); [content g v] are the bytes of variable [v] in state [g], [start m] is the
    state at the start of a program.  [reach m buf] are the bytes up to the capacity of
    a slice. *)

From Coq Require Import NArith Bool String Arith List.
From Verif Require Import GoBase GoFmt ClcModel Samples ClcView Accepted GlobalModel Global.
From Verif Require GlobalFacts.
From Verif Require Import Witness.
Import ListNotations.
Local Open Scope string_scope.

(** ** C72 *)

(** programs that leave the variables alone can take them for constants *)
Theorem C72_untouched : forall m p, own_arrays p -> (forall v, never_used v p = true) ->
  as_constants (exec_all (start m) p).
Proof. exact GlobalFacts.untouched. Qed.
Print Assumptions C72_untouched.

Example C72_untouched_case :
  let m a := if Nat.eqb a 3 then sample_accept_r else [] in
  let buf := mkslice 3 0 68 68 in
  let p := [Store (Own buf) 4 x03; Store (Cut (Own buf) 5 7) 0 x04] in
  own_arrays p /\ (forall v, never_used v p = true) /\
  NewMessage_G (start m) buf = ([], Done (Some (MAcceptSMCR AcceptSMCR_zero), 68%N)) /\
  exists l, NewMessage_G (exec_all (start m) p) buf = (l, Done (None, 0%N)) /\ List.length l = 2.
Proof.
  cbv zeta. split; [repeat constructor; discriminate|]. split; [intros []; reflexivity|].
  split; [vm_compute; reflexivity|]. eexists. split; vm_compute; reflexivity.
Qed.

(** the first four bytes that can be reached are compared with what the variables have now *)
Theorem C72_recognition : forall g buf, slice_ok (g_mem g) buf ->
  let known := firstn 4 (reach (g_mem g) buf) = content g VSMCREyecatcher \/
               firstn 4 (reach (g_mem g) buf) = content g VSMCDEyecatcher in
  (s_cap buf < 4 -> HasEyecatcher_G g buf = panic /\ NewMessage_G g buf = panic) /\
  (4 <= s_cap buf -> known -> HasEyecatcher_G g buf = ret true) /\
  (4 <= s_cap buf -> ~ known -> HasEyecatcher_G g buf = ret false /\ NewMessage_G g buf = ret (None, 0%N)).
Proof. exact GlobalFacts.recognition. Qed.
Print Assumptions C72_recognition.

Example C72_recognition_case :
  let m a := if Nat.eqb a 3 then (hexs "01020304" ++ skipn 4 sample_accept_r)%list
             else if Nat.eqb a 4 then hexs "01020304" else [] in
  let buf := mkslice 3 0 68 68 in
  let g := exec_all (start m) [Assign VSMCDEyecatcher (Own (mkslice 4 0 4 4))] in
  slice_ok (g_mem g) buf /\ content g VSMCDEyecatcher = hexs "01020304" /\
  HasEyecatcher_G (start m) buf = ret false /\ HasEyecatcher_G g buf = ret true /\
  NewMessage_G g buf = ret (Some (MAcceptSMCR AcceptSMCR_zero), 68%N).
Proof.
  cbv zeta. split; [split; apply Nat.leb_le; vm_compute; reflexivity|].
  repeat split; vm_compute; reflexivity.
Qed.

Theorem C72_texts : forall g e,
  (Eyecatcher_String_G g e = "SMC-R" <-> e = content g VSMCREyecatcher) /\
  (Eyecatcher_String_G g e = "SMC-D" <-> e <> content g VSMCREyecatcher /\ e = content g VSMCDEyecatcher) /\
  Trailer_String_G g e = Eyecatcher_String_G g e.
Proof. exact GlobalFacts.texts. Qed.
Print Assumptions C72_texts.

Example C72_texts_case : (* both variables refer to one array *)
  let g := exec_all (start (fun _ => [])) [Assign VSMCREyecatcher (Var VSMCDEyecatcher)] in
  Eyecatcher_String_G g (hexs "e2d4c3c4") = "SMC-R" /\ Eyecatcher_String_G g (hexs "e2d4c3d9") = "Unknown".
Proof. computes. Qed.

Theorem C72_trailer : forall g t buf, slice_ok (g_mem g) buf -> List.length t = 4 ->
  let bs := last4 (s_bytes (g_mem g) buf) in
  (s_len buf < 4 -> Trailer_Parse_G g t buf = panic) /\
  (4 <= s_len buf -> bs = content g VSMCREyecatcher \/ bs = content g VSMCDEyecatcher ->
   Trailer_Parse_G g t buf = ret bs) /\
  (4 <= s_len buf -> bs <> content g VSMCREyecatcher -> bs <> content g VSMCDEyecatcher ->
   Trailer_Parse_G g t buf = (["Error parsing CLC message: invalid trailer"; dump_line bs], Done bs)).
Proof. exact GlobalFacts.trailer. Qed.
Print Assumptions C72_trailer.

Example C72_trailer_case : (* a usual trailer after the variable was changed *)
  let m a := if Nat.eqb a 3 then sample_accept_r else [] in
  let buf := mkslice 3 0 68 68 in
  let g := exec_all (start m) [Store (Var VSMCREyecatcher) 3 x00] in
  slice_ok (g_mem g) buf /\ last4 (s_bytes (g_mem g) buf) = hexs "e2d4c3d9" /\
  content g VSMCREyecatcher = hexs "e2d4c300" /\
  Trailer_Parse_G g (zeros 4) buf
  = (["Error parsing CLC message: invalid trailer"; dump_line (hexs "e2d4c3d9")], Done (hexs "e2d4c3d9")) /\
  Trailer_String_G g (hexs "e2d4c3d9") = "Unknown".
Proof.
  cbv zeta. split; [split; apply Nat.leb_le; vm_compute; reflexivity|].
  repeat split; vm_compute; reflexivity.
Qed.

Theorem C72_options : forall g opts, CheckSMCOption_G g opts = true <->
  exists opt, In opt opts /\ opt = smc_option (content g VSMCOption).
Proof. exact GlobalFacts.options. Qed.
Print Assumptions C72_options.

Example C72_options_case : (* the option shortened to two of its bytes *)
  let g := exec_all (start (fun _ => [])) [Assign VSMCOption (Cut (Var VSMCOption) 1 3)] in
  content g VSMCOption = hexs "d4c3" /\ CheckSMCOption_G g [smc_option (hexs "d4c3")] = true /\
  CheckSMCOption_G g [smc_option (hexs "e2d4c3d9")] = false.
Proof. computes. Qed.

(** the rest of a recognised message is judged as behind the usual eyecatcher *)
Theorem C72_behind : forall g buf m1 buf1, slice_ok (g_mem g) buf -> HasEyecatcher_G g buf = ret true ->
  slice_ok m1 buf1 -> s_len buf1 = s_len buf -> s_cap buf1 = s_cap buf ->
  firstn 4 (reach m1 buf1) = hexs "e2d4c3d9" -> skipn 4 (reach m1 buf1) = skipn 4 (reach (g_mem g) buf) ->
  snd (NewMessage_G g buf) = snd (NewMessage m1 buf1).
Proof. exact GlobalFacts.behind. Qed.
Print Assumptions C72_behind.

Example C72_behind_case :
  let m a := if Nat.eqb a 3 then (x00 :: skipn 1 sample_accept_r)%list else [] in
  let buf := mkslice 3 0 68 68 in
  let g := exec_all (start m) [Store (Var VSMCREyecatcher) 0 x00] in
  slice_ok (g_mem g) buf /\ HasEyecatcher_G g buf = ret true /\
  slice_ok (mem1 sample_accept_r) (slice1 sample_accept_r) /\
  s_len (slice1 sample_accept_r) = s_len buf /\ s_cap (slice1 sample_accept_r) = s_cap buf /\
  firstn 4 (reach (mem1 sample_accept_r) (slice1 sample_accept_r)) = hexs "e2d4c3d9" /\
  skipn 4 (reach (mem1 sample_accept_r) (slice1 sample_accept_r)) = skipn 4 (reach (g_mem g) buf).
Proof.
  cbv zeta. split; [split; apply Nat.leb_le; vm_compute; reflexivity|]. split; [vm_compute; reflexivity|].
  split; [apply slice1_ok|]. repeat split; vm_compute; reflexivity.
Qed.

(** unless one of the two is assigned to, the option is the SMC-R eyecatcher, whatever is written to either *)
Theorem C72_in_step : forall m p, never_assigned VSMCREyecatcher p = true -> never_assigned VSMCOption p = true ->
  let g := exec_all (start m) p in
  content g VSMCOption = content g VSMCREyecatcher /\
  forall data, CheckSMCOption_G g [smc_option data] = true <-> Eyecatcher_String_G g data = "SMC-R".
Proof. exact GlobalFacts.in_step. Qed.
Print Assumptions C72_in_step.

Example C72_in_step_case :
  let p := [Store (Var VSMCREyecatcher) 0 x01; Store (Cut (Var VSMCOption) 2 4) 0 x02; Store (Var VSMCOption) 4 x03] in
  never_assigned VSMCREyecatcher p = true /\ never_assigned VSMCOption p = true /\
  content (exec_all (start (fun _ => [])) p) VSMCOption = hexs "01d402d9".
Proof. computes. Qed.

(** what a program does with the two leaves the SMC-D eyecatcher alone *)
Theorem C72_smcd : forall m p, own_arrays p -> never_used VSMCDEyecatcher p = true ->
  content (exec_all (start m) p) VSMCDEyecatcher = hexs "e2d4c3c4".
Proof. exact GlobalFacts.smcd_kept. Qed.
Print Assumptions C72_smcd.

Example C72_smcd_case :
  let p := [Store (Var VSMCOption) 3 xc4; Assign VSMCREyecatcher (Cut (Var VSMCOption) 0 3)] in
  own_arrays p /\ never_used VSMCDEyecatcher p = true /\
  content (exec_all (start (fun _ => [])) p) VSMCREyecatcher = hexs "e2d4c3".
Proof. split; [repeat constructor|]. split; vm_compute; reflexivity. Qed.

(** the option is not a variable of its own: writing to it changes which CLC messages are found *)
Theorem C72_option_refuted : ~ (forall m buf i b, s_arr buf <> array_R -> s_arr buf <> array_D ->
  NewMessage_G (exec (start m) (Store (Var VSMCOption) i b)) buf = NewMessage_G (start m) buf).
Proof. exact GlobalFacts.option_refuted. Qed.
Print Assumptions C72_option_refuted.

Example C72_option_refuted_case :
  let m a := if Nat.eqb a 3 then sample_accept_r else [] in
  let buf := mkslice 3 0 68 68 in
  NewMessage_G (start m) buf = ret (Some (MAcceptSMCR AcceptSMCR_zero), 68%N) /\
  NewMessage_G (exec (start m) (Store (Var VSMCOption) 0 x00)) buf = ret (None, 0%N).
Proof. computes. Qed.
