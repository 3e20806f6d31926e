(** * PropsRecover: objects after a panic from which the program recovered (C64).

    Vocabulary: [Message_W m buf old], [LLC_W], [BTH_W] are runs of the Parse methods that also
    tell what the object is at the end, if they panic, too (WriteModel.v, LlcWriteModel.v);
    [same_run], [after_panic], [kept_fields], [torn_field] are defined in Recover.v.  [reachable] and
    [llc_reachable] include objects left behind by panics, so that every theorem about
    reachable objects speaks about those, too. *)

From Coq Require Import NArith Bool String List.
From Verif Require Import GoBase GoFmt ClcModel LlcModel RoceModel WriteModel LlcWriteModel Samples Wire
  ClcView LlcView Recover.
From Verif Require RecoverFacts.
Import ListNotations.

(** ** C64 *)

(** both models of Parse agree *)
Theorem C64_same_runs : forall m buf,
  (forall old, same_run (Message_W m buf old) (Message_Parse m old buf)) /\
  (forall old, same_run (LLC_W m buf old) (LLC_Parse m old buf)) /\
  (forall old, same_run (BTH_W m buf old) (BTH_Parse m old buf)).
Proof. exact (fun m buf => conj (RecoverFacts.clc_run m buf) (conj (RecoverFacts.llc_run m buf) (RecoverFacts.bth_run m buf))). Qed.
Print Assumptions C64_same_runs.

Theorem C64_clc : forall m buf old l new, slice_ok m buf -> reachable old ->
  Message_W m buf old = (l, Panicked, new) ->
  kind_of new = kind_of old /\ after_panic m buf old new.
Proof. exact RecoverFacts.clc_object. Qed.
Print Assumptions C64_clc.

Theorem C64_llc : forall m buf old l new, slice_ok m buf -> llc_reachable old ->
  LLC_W m buf old = (l, Panicked, new) ->
  llc_kind_of new = llc_kind_of old /\ LLC_Hex new = hex_dump (s_bytes m buf) /\
  kept_fields (llc_layout (llc_kind_of old)) m buf (llc_view old) (llc_view new).
Proof. exact RecoverFacts.llc_object. Qed.
Print Assumptions C64_llc.

Theorem C64_bth : forall m buf old l new, slice_ok m buf -> BTH_W m buf old = (l, Panicked, new) ->
  BTH_Hex new = hex_dump (s_bytes m buf) /\ kept_fields bth m buf (bth_view old) (bth_view new).
Proof. exact RecoverFacts.bth_object. Qed.
Print Assumptions C64_bth.

(** "a Parse that panics leaves the object as it was" is not true *)
Theorem C64_unchanged_refuted : exists m buf old l new,
  slice_ok m buf /\ reachable old /\ Message_W m buf old = (l, Panicked, new) /\
  Message_String new <> Message_String old.
Proof. exact RecoverFacts.unchanged_refuted. Qed.
Print Assumptions C64_unchanged_refuted.

(** 18 bytes of a Decline parsed into the object of an earlier Decline: the peer ID is new, the
    diagnosis is still the old one *)
Example C64_example_clc :
  reachable RecoverFacts.parsed_decline /\
  Message_W (mem1 RecoverFacts.torn_bytes) (slice1 RecoverFacts.torn_bytes) RecoverFacts.parsed_decline
  = ([], Panicked, RecoverFacts.torn_decline) /\
  map snd (skipn 7 (read_view RecoverFacts.parsed_decline))
  = [VB (hexs "2525252525252500"); VN 50528256; VB (zeros 4)] /\
  map snd (skipn 7 (read_view RecoverFacts.torn_decline))
  = [VB (hexs "aabbccddeeff0011"); VN 50528256; VB (zeros 4)] /\
  trailer_of RecoverFacts.torn_decline = hexs "e2d4c3d9".
Proof. exact RecoverFacts.torn_example. Qed.

(** the first field that is not there completely: of three-byte numbers the bytes that are
    there are new; addresses are zero *)
Example C64_example_torn_field :
  let old := snd (Message_W (mem1 sample_accept_r) (slice1 sample_accept_r) (fresh KAcceptSMCR)) in
  RecoverFacts.fields_of sample_accept_r (fresh KAcceptSMCR)
  = (Done tt, [VB (hexs "b1a098039babcdef"); VB (hexs "fe800000000000009a039bfffeabcdef");
               VB (hexs "98039babcdef"); VN 228; VN 5501]) /\
  RecoverFacts.fields_of RecoverFacts.accept_40 old
  = (Panicked, [VB (hexs "aabbccddeeff0011"); VB (repeat x77 16); VB (repeat x88 6); VN 66048; VN 5501]) /\
  RecoverFacts.fields_of RecoverFacts.accept_20 old
  = (Panicked, [VB (hexs "b1a098039babcdef"); VB (zeros 16); VB (hexs "98039babcdef"); VN 228; VN 5501]).
Proof. exact RecoverFacts.torn_field_example. Qed.

(** the next complete message replaces all of it *)
Example C64_example_again :
  exists new, Message_Parse (mem1 sample_decline) RecoverFacts.torn_decline (slice1 sample_decline)
              = ([], Done new) /\
    Message_String new = Message_String RecoverFacts.parsed_decline.
Proof. exact RecoverFacts.again_example. Qed.

Example C64_example_llc :
  exists l new, LLC_W (mem1 RecoverFacts.torn_llc) (slice1 RecoverFacts.torn_llc) (llc_fresh KDeleteLink)
                = (l, Panicked, new) /\
    map snd (llc_view new) = [VN 4; VN 44; VN 0; VN 0; VN 0; VN 0; VN 0; VN 17; VN 0; VB (zeros 35)].
Proof. exact RecoverFacts.llc_example. Qed.

Example C64_example_bth :
  exists l new, BTH_W (mem1 RecoverFacts.torn_llc) (slice1 RecoverFacts.torn_llc) BTH_zero
                = (l, Panicked, new) /\
    map snd (bth_view new)
    = [VN 4; VN 0; VN 0; VN 2; VN 12; VN 0; VN 0; VN 0; VN 17; VN 2241348; VN 0; VN 0; VN 0].
Proof. exact RecoverFacts.bth_example. Qed.
