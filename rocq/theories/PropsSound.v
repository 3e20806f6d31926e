(** * PropsSound: headers after any parse, and sound messages end to end (C55, C56).

    Vocabulary: as in PropsClc.v and PropsText.v; [header_of] and [Message_Raw] give the
    header and the raw bytes of an object, Sound.v says what a sound message is and what
    its text is. *)

From Coq Require Import NArith Bool String Arith List Lia.
From Verif Require Import GoBase GoFmt ClcModel Samples Wire ClcView Show Sound.
From Verif Require ClcHeader SoundFacts.
Import ListNotations.
Local Open Scope nat_scope.

(** ** C55 *)

(** whatever the message and however the parse ends, short of a panic; flag and path of v2
    share their bits *)
Theorem C55_header : forall m old buf logs new, reachable old -> slice_ok m buf ->
  Message_Parse m old buf = (logs, Done new) ->
  let bs := s_bytes m buf in let h := header_of new in
  8 <= length bs /\ kind_of new = kind_of old /\ Message_Raw new = buf /\
  h_Eyecatcher h = bytes_at bs 0 4 /\ h_Type h = bits bs 32 8 /\
  h_Length h = bits bs 40 16 /\ h_Version h = bits bs 56 4 /\
  h_Flag h = bits bs 60 1 /\ h_reserved h = bits bs 61 1 /\
  h_Pathv2 h = bits bs 60 2 /\ h_Path h = bits bs 62 2.
Proof. exact ClcHeader.parse_header. Qed.
Print Assumptions C55_header.

(** the OS type of a v1 Decline object, which no v1 message contains *)
Theorem C55_decline_os_type : forall d, reachable (MDecline d) -> d_OSType d = 0%N.
Proof. exact ClcHeader.decline_reach. Qed.
Print Assumptions C55_decline_os_type.

Example C55_example : (* a v2 Proposal header in front of too few bytes, parsed as a Decline *)
  let bs := hexs "e2d4c3c40100142f0000000000000000e2d4c3c4" in
  exists logs new, Message_Parse (mem1 bs) (fresh KDecline) (slice1 bs) = (logs, Done new) /\
    logs <> [] /\ h_Pathv2 (header_of new) = 3%N /\ h_Flag (header_of new) = 1%N /\ h_Length (header_of new) = 20%N.
Proof. do 2 eexists. split; [vm_compute; reflexivity|]. split; [discriminate|]. vm_compute. repeat split. Qed.

(** ** C56 *)

(** of the messages that are complete in their buffer the sound ones are those that are
    parsed without panic or complaint *)
Theorem C56_silent_exactly_if_sound : forall m msg buf, slice_ok m buf -> message_wf msg ->
  let bs := s_bytes m buf in let k := kind_of msg in
  8 <= length bs -> N.to_nat (declared bs) = length bs ->
  ((exists new, Message_Parse m msg buf = ([], Done new)) <-> sound k bs).
Proof. exact SoundFacts.silent_sound. Qed.
Print Assumptions C56_silent_exactly_if_sound.

(** from the received bytes to the texts *)
Theorem C56_end_to_end : forall m buf k, slice_ok m buf ->
  let bs := s_bytes m buf in
  is_eyecatcher (bytes_at bs 0 4) = true ->
  kind_rel (msg_type bs) (msg_version bs) (msg_path bs) k ->
  N.to_nat (declared bs) = length bs -> length bs <= 1024 -> sound k bs ->
  (is_smcdv2 k = true -> length bs <= 114) ->
  NewMessage m buf = ([], Done (Some (fresh k), declared bs)) /\
  exists new, Message_Parse m (fresh k) buf = ([], Done new) /\
    Message_String new = sound_text false k bs /\ Message_Reserved new = sound_text true k bs /\
    Message_Dump m new = hex_dump bs.
Proof. exact SoundFacts.sound_end_to_end. Qed.
Print Assumptions C56_end_to_end.

Example C56_example : (* one IPv6 prefix, one EID, one GID *)
  let bs := sample_prop2_6 in
  is_eyecatcher (bytes_at bs 0 4) = true /\
  kind_rel (msg_type bs) (msg_version bs) (msg_path bs) KProposalV2 /\
  N.to_nat (declared bs) = length bs /\ length bs <= 1024 /\ sound KProposalV2 bs /\
  prefix_count bs 80 = 1 /\ eids_at bs = 1 /\ gids_at bs = 1.
Proof.
  cbv zeta. split; [vm_compute; reflexivity|]. split.
  { replace (msg_type sample_prop2_6) with 1%N by (vm_compute; reflexivity).
    replace (msg_version sample_prop2_6) with 2%N by (vm_compute; reflexivity). constructor. }
  split; [vm_compute; reflexivity|]. split; [apply Nat.leb_le; vm_compute; reflexivity|].
  split; [|vm_compute; repeat split].
  split; [apply Nat.leb_le; vm_compute; reflexivity|]. split; [vm_compute; reflexivity|].
  split; [|split]; intros _.
  - apply Nat.leb_le; vm_compute; reflexivity.
  - split; apply Nat.leb_le; vm_compute; reflexivity.
  - split; apply Nat.leb_le; vm_compute; reflexivity.
Qed.

Example C56_example_unsound : (* the same with a second EID announced *)
  let bs := firstn 105 sample_prop2_6 ++ [x02] ++ skipn 106 sample_prop2_6 in
  N.to_nat (declared bs) = length bs /\ ~ sound KProposalV2 bs.
Proof.
  cbv zeta. split; [vm_compute; reflexivity|]. intros (_ & _ & _ & _ & H).
  assert (E : (smcd_at (firstn 105 sample_prop2_6 ++ [x02] ++ skipn 106 sample_prop2_6) + 48 +
    10 * gids_at (firstn 105 sample_prop2_6 ++ [x02] ++ skipn 106 sample_prop2_6) + 4 <=?
    length (firstn 105 sample_prop2_6 ++ [x02] ++ skipn 106 sample_prop2_6)) = false) by (vm_compute; reflexivity).
  apply Nat.leb_gt in E. destruct H as [H _]; [vm_compute; reflexivity|].
  revert H E. generalize (length (firstn 105 sample_prop2_6 ++ [x02] ++ skipn 106 sample_prop2_6)). intros. lia.
Qed.
