(** * RecoverFacts: proofs of C64; restated in PropsRecover.v. *)

From Coq Require Import NArith ZArith Bool String Arith List Lia.
From Verif Require Import GoBase GoFmt ClcModel LlcModel RoceModel WriteModel LlcWriteModel Slices Samples Wire
  ClcView LlcView Recover.
From Verif Require Keep WriteFacts LlcWriteFacts RecoverClc RecoverLlc RecoverRaw ClcMessage LlcMessage.
Import ListNotations.
Local Open Scope nat_scope.

Lemma run_of {R} (x : list string * outcome unit * R) (y : M R) :
  WriteFacts.res (fun _ r => r) x = y -> same_run x y.
Proof. intros <-. destruct x as [[l [[]| |]] r]; reflexivity. Qed.

Lemma clc_run m buf old : same_run (Message_W m buf old) (Message_Parse m old buf).
Proof. apply run_of, WriteFacts.Message_agrees. Qed.

Lemma llc_run m buf old : same_run (LLC_W m buf old) (LLC_Parse m old buf).
Proof. apply run_of, LlcWriteFacts.LLC_agrees. Qed.

Lemma bth_run m buf old : same_run (BTH_W m buf old) (BTH_Parse m old buf).
Proof. apply run_of, LlcWriteFacts.BTH_agrees. Qed.

Lemma clc_object m buf old l new : slice_ok m buf -> reachable old ->
  Message_W m buf old = (l, Panicked, new) ->
  kind_of new = kind_of old /\ after_panic m buf old new.
Proof.
  intros Hok Hr E. split; [exact (Keep.Message_W_kind _ _ _ _ _ _ E)|].
  apply (RecoverClc.Message_torn m buf old l new Hok); [|exact E]. apply ClcMessage.reachable_wf, Hr.
Qed.

Lemma llc_object m buf old l new : slice_ok m buf -> llc_reachable old ->
  LLC_W m buf old = (l, Panicked, new) ->
  llc_kind_of new = llc_kind_of old /\ LLC_Hex new = hex_dump (s_bytes m buf) /\
  kept_fields (llc_layout (llc_kind_of old)) m buf (llc_view old) (llc_view new).
Proof.
  intros Hok Hr E. split; [exact (Keep.LLC_W_kind _ _ _ _ _ _ E)|].
  split; [exact (RecoverRaw.LLC_W_raw _ _ Hok _ _ _ _ E)|].
  apply (RecoverLlc.LLC_torn m buf old l new Hok); [|exact E]. apply LlcMessage.llc_reachable_wf, Hr.
Qed.

Lemma bth_object m buf old l new : slice_ok m buf -> BTH_W m buf old = (l, Panicked, new) ->
  BTH_Hex new = hex_dump (s_bytes m buf) /\ kept_fields bth m buf (bth_view old) (bth_view new).
Proof.
  intros Hok E. split.
  - pose proof (RecoverRaw.BTH_W_raw m buf Hok old) as H. rewrite E in H. exact H.
  - pose proof (RecoverLlc.BTH_torn m buf old Hok) as H. rewrite E in H. apply H. reflexivity.
Qed.

(** ** Examples *)

(** what the program of the examples has after parsing [first], then [second] *)
Definition parsed_decline : Message := snd (Message_W (mem1 sample_decline) (slice1 sample_decline) (fresh KDecline)).
Definition torn_bytes : list byte := Eval vm_compute in hexs "e2d4c3d904001c10aabbccddeeff00110333".
Definition torn_decline : Message := snd (Message_W (mem1 torn_bytes) (slice1 torn_bytes) parsed_decline).

Lemma torn_example :
  reachable parsed_decline /\
  Message_W (mem1 torn_bytes) (slice1 torn_bytes) parsed_decline = ([], Panicked, torn_decline) /\
  map snd (skipn 7 (read_view parsed_decline))
  = [VB (hexs "2525252525252500"); VN 50528256; VB (zeros 4)] /\
  map snd (skipn 7 (read_view torn_decline))
  = [VB (hexs "aabbccddeeff0011"); VN 50528256; VB (zeros 4)] /\
  trailer_of torn_decline = hexs "e2d4c3d9".
Proof.
  split.
  - apply (reach_parse (mem1 sample_decline) (fresh KDecline) (slice1 sample_decline) []);
      [constructor|apply slice1_ok|vm_compute; reflexivity].
  - vm_compute. repeat split.
Qed.

Lemma unchanged_refuted : exists m buf old l new,
  slice_ok m buf /\ reachable old /\ Message_W m buf old = (l, Panicked, new) /\
  Message_String new <> Message_String old.
Proof.
  exists (mem1 torn_bytes), (slice1 torn_bytes), parsed_decline, [], torn_decline.
  split; [apply slice1_ok|]. split; [apply torn_example|]. split; [apply torn_example|].
  vm_compute. discriminate.
Qed.

(** a later complete message replaces everything *)
Lemma again_example :
  exists new, Message_Parse (mem1 sample_decline) torn_decline (slice1 sample_decline) = ([], Done new) /\
    Message_String new = Message_String parsed_decline.
Proof. eexists. split; [vm_compute; reflexivity|]. vm_compute. reflexivity. Qed.

Definition torn_llc : list byte := Eval vm_compute in hexs "042c000011223344".
Lemma llc_example :
  exists l new, LLC_W (mem1 torn_llc) (slice1 torn_llc) (llc_fresh KDeleteLink) = (l, Panicked, new) /\
    map snd (llc_view new) = [VN 4; VN 44; VN 0; VN 0; VN 0; VN 0; VN 0; VN 17; VN 0; VB (zeros 35)].
Proof. do 2 eexists. split; [vm_compute; reflexivity|]. vm_compute. reflexivity. Qed.

Lemma bth_example :
  exists l new, BTH_W (mem1 torn_llc) (slice1 torn_llc) BTH_zero = (l, Panicked, new) /\
    map snd (bth_view new) = [VN 4; VN 0; VN 0; VN 2; VN 12; VN 0; VN 0; VN 0; VN 17; VN 2241348; VN 0; VN 0; VN 0].
Proof. do 2 eexists. split; [vm_compute; reflexivity|]. vm_compute. reflexivity. Qed.

(** an SMC-R Accept parsed, then one of 40 bytes: two of the three bytes of the QP number; then
    one of 20 bytes: four bytes of the GID *)
Definition accept_40 : list byte := Eval vm_compute in
  firstn 8 sample_accept_r ++ hexs "aabbccddeeff0011" ++ repeat x77 16 ++ repeat x88 6 ++ hexs "0102".
Definition accept_20 : list byte := Eval vm_compute in firstn 20 sample_accept_r.

Definition fields_of (bs : list byte) (old : Message) : outcome unit * list val :=
  match Message_W (mem1 bs) (slice1 bs) old with
  | (_, o, new) => (o, map snd (firstn 5 (skipn 7 (read_view new))))
  end.

Lemma torn_field_example :
  let old := snd (Message_W (mem1 sample_accept_r) (slice1 sample_accept_r) (fresh KAcceptSMCR)) in
  fields_of sample_accept_r (fresh KAcceptSMCR)
  = (Done tt, [VB (hexs "b1a098039babcdef"); VB (hexs "fe800000000000009a039bfffeabcdef");
               VB (hexs "98039babcdef"); VN 228; VN 5501]) /\
  fields_of accept_40 old
  = (Panicked, [VB (hexs "aabbccddeeff0011"); VB (repeat x77 16); VB (repeat x88 6); VN 66048; VN 5501]) /\
  fields_of accept_20 old
  = (Panicked, [VB (hexs "b1a098039babcdef"); VB (zeros 16); VB (hexs "98039babcdef"); VN 228; VN 5501]).
Proof. vm_compute. repeat split. Qed.
