(** * PropsLlc: the property theorems about packages llc and roce and about hex dumps
      (C17, C18, C25 - C29, C31 - C35, C44 - C46).

    Vocabulary: as in PropsClc.v; the LLC kinds, their layouts, field lists and sizes are
    defined in LlcView.v, the opcode texts in Opcodes.v. *)

From Coq Require Import NArith Bool String Arith List.
From Verif Require Import GoBase GoFmt ClcModel LlcModel RoceModel Samples Wire ClcView LlcView Opcodes.
From Verif Require LlcMessage LlcParse RoceParse RoceText Dumps LlcExamples.
From Verif Require Import Witness.
Import ListNotations.
Local Open Scope nat_scope.

(** ** C17 *)

Theorem C17_clc_dump_is_live : forall m msg buf logs new,
  Message_Parse m msg buf = (logs, Done new) ->
  forall later, Message_Dump later new = hex_dump (s_bytes later buf).
Proof. exact Dumps.Message_dump. Qed.
Print Assumptions C17_clc_dump_is_live.

Example C17_clc_dump_is_live_case : (* after a parse that logs an error, too *)
  let bs := firstn 27 sample_decline ++ [x00] in
  exists logs msg, Message_Parse (mem1 bs) (fresh KDecline) (slice1 bs) = (logs, Done msg) /\
    length logs = 2 /\ Message_Dump (mem1 bs) msg = hex_dump bs.
Proof. computes. Qed.

Theorem C17_llc_hex_is_a_copy : forall m old buf logs new, slice_ok m buf -> llc_wf old ->
  LLC_Parse m old buf = (logs, Done new) -> LLC_Hex new = hex_dump (s_bytes m buf).
Proof. exact Dumps.LLC_hex. Qed.
Print Assumptions C17_llc_hex_is_a_copy.

Example C17_llc_hex_is_a_copy_case :
  let m := mem1 LlcExamples.sample_confirm_link in let buf := slice1 LlcExamples.sample_confirm_link in
  slice_ok m buf /\ llc_wf (llc_fresh KConfirmLink) /\
  exists new, LLC_Parse m (llc_fresh KConfirmLink) buf = ([], Done new) /\
    LLC_Hex new = hex_dump LlcExamples.sample_confirm_link.
Proof. computes. Qed.

Theorem C17_bth_hex_is_a_copy : forall m old buf logs new, slice_ok m buf ->
  BTH_Parse m old buf = (logs, Done new) -> BTH_Hex new = hex_dump (s_bytes m buf).
Proof. exact Dumps.BTH_hex. Qed.
Print Assumptions C17_bth_hex_is_a_copy.

Example C17_bth_hex_is_a_copy_case :
  let m := mem1 LlcExamples.sample_bth in let buf := slice1 LlcExamples.sample_bth in
  slice_ok m buf /\
  exists new, BTH_Parse m BTH_zero buf = ([], Done new) /\ BTH_Hex new = hex_dump LlcExamples.sample_bth.
Proof. computes. Qed.

(** a Decline whose buffer is overwritten after parsing *)
Example C17_example :
  let bs := sample_decline in
  exists msg, Message_Parse (mem1 bs) (fresh KDecline) (slice1 bs) = ([], Done msg) /\
    Message_Dump (mem1 bs) msg <> Message_Dump (mem1 (zeros 28)) msg /\
    Message_Dump (mem1 (zeros 28)) msg = hex_dump (zeros 28).
Proof.
  eexists. split; [vm_compute; reflexivity|]. split; [vm_compute; discriminate|vm_compute; reflexivity].
Qed.

(** ** C18 *)

Theorem C18_hex_dump_injective : forall a b, hex_dump a = hex_dump b -> a = b.
Proof. exact Dumps.hex_dump_inj. Qed.
Print Assumptions C18_hex_dump_injective.

Example C18_example : (* both bytes print as a dot *)
  to_char x00 = to_char x01 /\ hex_dump [x00] <> hex_dump [x01].
Proof. split; [reflexivity|vm_compute; discriminate]. Qed.

(** ** C25 *)

Theorem C25_dispatch : forall m buf, slice_ok m buf ->
  let bs := s_bytes m buf in
  let k := if length bs =? 44 then kind_of_type (bits bs 0 8) else KOther in
  k <> KConfirmRKeyCont ->
  exists msg, ParseLLC m buf = ([], Done msg) /\ llc_kind_of msg = k.
Proof. exact LlcMessage.ParseLLC_dispatch. Qed.
Print Assumptions C25_dispatch.

Example C25_dispatch_case :
  let m := mem1 ([x07; x2c] ++ zeros 42) in let buf := slice1 ([x07; x2c] ++ zeros 42) in
  let bs := s_bytes m buf in
  slice_ok m buf /\ length bs = 44 /\ kind_of_type (bits bs 0 8) = KTestLink /\ KTestLink <> KConfirmRKeyCont /\
  exists msg, ParseLLC m buf = ([], Done msg) /\ llc_kind_of msg = KTestLink.
Proof. computes. Qed.

Theorem C25_other : forall m buf msg, slice_ok m buf ->
  let bs := s_bytes m buf in
  ParseLLC m buf = ([], Done msg) ->
  (llc_kind_of msg = KOther <->
   length bs <> 44 \/ ~ In (bits bs 0 8) [1; 2; 3; 4; 6; 7; 8; 9; 254]%N).
Proof. exact LlcExamples.ParseLLC_other. Qed.
Print Assumptions C25_other.

Example C25_example :
  let bs := LlcExamples.sample_confirm_link in
  exists msg, ParseLLC (mem1 bs) (slice1 bs) = ([], Done msg) /\ llc_kind_of msg = KConfirmLink.
Proof. eexists. split; vm_compute; reflexivity. Qed.

Example C25_example_other : (* one byte too many *)
  let bs := (LlcExamples.sample_confirm_link ++ [x00])%list in
  exists msg, ParseLLC (mem1 bs) (slice1 bs) = ([], Done msg) /\ llc_kind_of msg = KOther.
Proof. eexists. split; vm_compute; reflexivity. Qed.

(** ** C26 *)

Theorem C26_panics_exactly_on_rkey_cont : forall m buf, slice_ok m buf ->
  let bs := s_bytes m buf in
  (ParseLLC m buf = ([], Panicked) <-> length bs = 44 /\ bits bs 0 8 = 8%N) /\
  (~ (length bs = 44 /\ bits bs 0 8 = 8%N) -> exists msg, ParseLLC m buf = ([], Done msg)).
Proof. exact LlcMessage.ParseLLC_panics. Qed.
Print Assumptions C26_panics_exactly_on_rkey_cont.

Example C26_panics_exactly_on_rkey_cont_case : (* one byte less, and there is no panic *)
  let bs := [x08; x2c] ++ zeros 42 in
  slice_ok (mem1 bs) (slice1 bs) /\ slice_ok (mem1 bs) (slice_n bs 43) /\
  length bs = 44 /\ bits bs 0 8 = 8%N /\ ParseLLC (mem1 bs) (slice1 bs) = ([], Panicked) /\
  exists msg, ParseLLC (mem1 bs) (slice_n bs 43) = ([], Done msg).
Proof. computes. Qed.

(** "ParseLLC never panics" is false *)
Theorem C26_never_panics_refuted :
  exists m buf, slice_ok m buf /\ length (s_bytes m buf) = 44 /\ ParseLLC m buf = ([], Panicked).
Proof. exact LlcExamples.ParseLLC_panic_witness. Qed.
Print Assumptions C26_never_panics_refuted.

(** ** C27 *)

Theorem C27_decode : forall m buf old, slice_ok m buf -> llc_wf old ->
  llc_size (llc_kind_of old) <= s_len buf ->
  let bs := s_bytes m buf in
  exists new, LLC_Parse m old buf = ([], Done new) /\ llc_kind_of new = llc_kind_of old /\
    llc_view new = decode (llc_layout (llc_kind_of old)) bs /\ b_Raw (LLC_Base new) = bs.
Proof. exact LlcMessage.LLC_decode. Qed.
Print Assumptions C27_decode.

Example C27_decode_case : (* a CDC message in front of other bytes *)
  let bs := hexs "fe2c00010000000200000003000000040000000500000006000000070000000800000009" ++ repeat xee 20 in
  let m := mem1 bs in let buf := slice1 bs in
  slice_ok m buf /\ llc_wf (llc_fresh KCDC) /\ llc_size (llc_kind_of (llc_fresh KCDC)) <= s_len buf /\
  exists new, LLC_Parse m (llc_fresh KCDC) buf = ([], Done new) /\
    In ("Sequence Number"%string, VN 1) (llc_view new).
Proof. computes. Qed.

Theorem C27_decode_payload : forall m buf, slice_ok m buf ->
  let bs := s_bytes m buf in
  let k := kind_of_type (bits bs 0 8) in
  length bs = 44 -> k <> KConfirmRKeyCont ->
  exists msg, ParseLLC m buf = ([], Done msg) /\ llc_kind_of msg = k /\
    llc_view msg = decode (llc_layout k) bs /\ b_Raw (LLC_Base msg) = bs.
Proof. exact LlcMessage.ParseLLC_decode. Qed.
Print Assumptions C27_decode_payload.

Example C27_decode_payload_case :
  let m := mem1 LlcExamples.sample_packet_v2 in let buf := mkslice 0 12 44 48 in
  slice_ok m buf /\ length (s_bytes m buf) = 44 /\
  kind_of_type (bits (s_bytes m buf) 0 8) = KConfirmLink /\ KConfirmLink <> KConfirmRKeyCont /\
  exists msg, ParseLLC m buf = ([], Done msg) /\ In ("Sender QP"%string, VN 228) (llc_view msg).
Proof. split; [split; apply Nat.leb_le; reflexivity|]. computes. Qed.

Theorem C27_lossless : forall m1 buf1 old1 m2 buf2 old2 new1 new2 l1 l2,
  slice_ok m1 buf1 -> slice_ok m2 buf2 -> llc_wf old1 -> llc_wf old2 ->
  llc_kind_of old1 = llc_kind_of old2 -> llc_kind_of old1 <> KOther ->
  s_len buf1 = llc_size (llc_kind_of old1) -> s_len buf2 = llc_size (llc_kind_of old1) ->
  LLC_Parse m1 old1 buf1 = (l1, Done new1) -> LLC_Parse m2 old2 buf2 = (l2, Done new2) ->
  llc_view new1 = llc_view new2 -> s_bytes m1 buf1 = s_bytes m2 buf2.
Proof. exact LlcMessage.LLC_lossless. Qed.
Print Assumptions C27_lossless.

Example C27_lossless_case : (* the same message in two places *)
  let m := mem1 LlcExamples.sample_packet_v2 in let buf := mkslice 0 12 44 44 in
  let m' := mem1 LlcExamples.sample_confirm_link in let buf' := slice1 LlcExamples.sample_confirm_link in
  let old := llc_fresh KConfirmLink in
  slice_ok m buf /\ slice_ok m' buf' /\ llc_wf old /\ llc_kind_of old <> KOther /\
  s_len buf = llc_size (llc_kind_of old) /\ s_len buf' = llc_size (llc_kind_of old) /\
  exists new new', LLC_Parse m old buf = ([], Done new) /\ LLC_Parse m' old buf' = ([], Done new') /\
    llc_view new = llc_view new'.
Proof. split; [split; apply Nat.leb_le; reflexivity|]. computes. Qed.

(** every object a program can get hold of has arrays of the declared sizes *)
Theorem C27_objects_wf : forall msg, llc_reachable msg -> llc_wf msg.
Proof. exact LlcMessage.llc_reachable_wf. Qed.
Print Assumptions C27_objects_wf.

Example C27_example :
  let bs := LlcExamples.sample_confirm_link in
  length bs = 44 /\
  exists msg, ParseLLC (mem1 bs) (slice1 bs) = ([], Done msg) /\
    In ("Sender QP"%string, VN 228) (llc_view msg) /\ In ("Max Links"%string, VN 2) (llc_view msg).
Proof.
  split; [reflexivity|]. eexists. split; [vm_compute; reflexivity|]. vm_compute. intuition discriminate.
Qed.

(** ** C28 *)

Theorem C28_exported_parsers : forall k m buf, slice_ok m buf ->
  (llc_parser k m buf = ([], Panicked) <-> s_len buf < llc_min k) /\
  (llc_min k <= s_len buf -> exists msg, llc_parser k m buf = ([], Done msg) /\ llc_kind_of msg = k).
Proof. exact LlcMessage.llc_parser_panics. Qed.
Print Assumptions C28_exported_parsers.

Theorem C28_parse_methods : forall m buf old, slice_ok m buf -> llc_wf old ->
  (LLC_Parse m old buf = ([], Panicked) <-> s_len buf < llc_min (llc_kind_of old)) /\
  (llc_min (llc_kind_of old) <= s_len buf -> exists new, LLC_Parse m old buf = ([], Done new)).
Proof. exact LlcMessage.LLC_panics. Qed.
Print Assumptions C28_parse_methods.

Example C28_example :
  let bs := zeros 20 in
  slice_ok (mem1 bs) (slice1 bs) /\ llc_min KTestLink = 20 /\
  (exists msg, llc_parser KTestLink (mem1 bs) (slice1 bs) = ([], Done msg)) /\
  llc_parser KTestLink (mem1 bs) (slice_n bs 19) = ([], Panicked).
Proof.
  split; [apply slice1_ok|]. split; [reflexivity|].
  split; [eexists; vm_compute; reflexivity|vm_compute; reflexivity].
Qed.

(** ** C29 *)

Theorem C29_type_and_length : forall m buf msg, slice_ok m buf ->
  let bs := s_bytes m buf in
  ParseLLC m buf = ([], Done msg) ->
  LLC_GetType msg = (if (length bs =? 44)%nat && existsb (N.eqb (bits bs 0 8)) [1; 2; 3; 4; 6; 7; 9; 254]%N
                     then bits bs 0 8 else 257)%N /\
  b_Length (LLC_Base msg) = (if (length bs =? 44)%nat && existsb (N.eqb (bits bs 0 8)) [1; 2; 3; 4; 6; 7; 9; 254]%N
                     then bits bs 8 8 else N.of_nat (length bs))%N.
Proof. exact LlcMessage.ParseLLC_type. Qed.
Print Assumptions C29_type_and_length.

Example C29_example :
  let bs := LlcExamples.sample_confirm_link in
  exists msg, ParseLLC (mem1 bs) (slice1 bs) = ([], Done msg) /\
    LLC_GetType msg = 1%N /\ b_Length (LLC_Base msg) = 44%N.
Proof. eexists. repeat split; vm_compute; reflexivity. Qed.

(** ** C31 *)

Theorem C31_v1_partition : forall m buf, slice_ok m buf -> 56 <= s_len buf ->
  let bs := s_bytes m buf in
  ~ (length bs = 100 /\ bits bs (8 * 52) 8 = 8%N) ->
  exists g b l ic,
    ParseRoCEv1 m buf = ([], Done (mkRoCE "RoCEv1" (Some g) b l ic)) /\
    grh_view g = decode grh (bytes_at bs 0 40) /\ grh_Contents g = bytes_at bs 0 40 /\
    bth_view b = decode bth (bytes_at bs 40 12) /\ bth_Raw b = bytes_at bs 40 12 /\
    (exists p, slice_ok m p /\ s_bytes m p = bytes_at bs 52 (length bs - 56) /\ ParseLLC m p = ([], Done l)) /\
    b_Raw (LLC_Base l) = bytes_at bs 52 (length bs - 56) /\
    bs = (grh_Contents g ++ bth_Raw b ++ b_Raw (LLC_Base l) ++ s_bytes m ic)%list.
Proof. exact LlcExamples.v1_partition. Qed.
Print Assumptions C31_v1_partition.

Example C31_v1_partition_case :
  let bs := LlcExamples.sample_grh ++ LlcExamples.sample_packet_v2 in
  let m := mem1 bs in let buf := slice1 bs in
  slice_ok m buf /\ 56 <= s_len buf /\ length bs = 100 /\ bits bs (8 * 52) 8 <> 8%N /\
  exists r, ParseRoCEv1 m buf = ([], Done r) /\
    llc_kind_of (r_LLC r) = KConfirmLink /\ s_bytes m (r_ICRC r) = [xde; xad; xbe; xef].
Proof. computes. Qed.

Theorem C31_v2_partition : forall m buf, slice_ok m buf -> 16 <= s_len buf ->
  let bs := s_bytes m buf in
  ~ (length bs = 60 /\ bits bs (8 * 12) 8 = 8%N) ->
  exists b l ic,
    ParseRoCEv2 m buf = ([], Done (mkRoCE "RoCEv2" None b l ic)) /\
    bth_view b = decode bth (bytes_at bs 0 12) /\ bth_Raw b = bytes_at bs 0 12 /\
    (exists p, slice_ok m p /\ s_bytes m p = bytes_at bs 12 (length bs - 16) /\ ParseLLC m p = ([], Done l)) /\
    b_Raw (LLC_Base l) = bytes_at bs 12 (length bs - 16) /\
    bs = (bth_Raw b ++ b_Raw (LLC_Base l) ++ s_bytes m ic)%list.
Proof. exact LlcExamples.v2_partition. Qed.
Print Assumptions C31_v2_partition.

Example C31_example :
  let bs := LlcExamples.sample_packet_v2 in
  length bs = 60 /\ bits bs (8 * 12) 8 <> 8%N /\
  exists r, ParseRoCEv2 (mem1 bs) (slice1 bs) = ([], Done r) /\
    llc_kind_of (r_LLC r) = KConfirmLink /\ s_bytes (mem1 bs) (r_ICRC r) = [xde; xad; xbe; xef].
Proof.
  split; [reflexivity|]. split; [vm_compute; discriminate|]. eexists.
  split; [vm_compute; reflexivity|]. split; vm_compute; reflexivity.
Qed.

(** ** C32 *)

Theorem C32_v1_panics : forall m buf, slice_ok m buf ->
  let bs := s_bytes m buf in
  (ParseRoCEv1 m buf = ([], Panicked) <->
    length bs < 56 \/ (length bs = 100 /\ bits bs (8 * 52) 8 = 8%N)) /\
  (ParseRoCEv1 m buf <> ([], Panicked) -> exists r, ParseRoCEv1 m buf = ([], Done r)).
Proof. exact RoceParse.RoCEv1_panics. Qed.
Print Assumptions C32_v1_panics.

Example C32_v1_panics_case :
  let bs := LlcExamples.sample_grh ++ LlcExamples.sample_crash_v2 in
  slice_ok (mem1 bs) (slice1 bs) /\ slice_ok (mem1 bs) (slice_n bs 55) /\
  length bs = 100 /\ bits bs (8 * 52) 8 = 8%N /\ ParseRoCEv1 (mem1 bs) (slice1 bs) = ([], Panicked) /\
  ParseRoCEv1 (mem1 bs) (slice_n bs 55) = ([], Panicked) /\
  exists r, ParseRoCEv1 (mem1 bs) (slice_n bs 56) = ([], Done r).
Proof. computes. Qed.

Theorem C32_v2_panics : forall m buf, slice_ok m buf ->
  let bs := s_bytes m buf in
  (ParseRoCEv2 m buf = ([], Panicked) <->
    length bs < 16 \/ (length bs = 60 /\ bits bs (8 * 12) 8 = 8%N)) /\
  (ParseRoCEv2 m buf <> ([], Panicked) -> exists r, ParseRoCEv2 m buf = ([], Done r)).
Proof. exact RoceParse.RoCEv2_panics. Qed.
Print Assumptions C32_v2_panics.

Example C32_example : (* 15 bytes of a larger array, and a well-formed RKey continuation packet *)
  ParseRoCEv2 (mem1 (zeros 40)) (slice_n (zeros 40) 15) = ([], Panicked) /\
  let bs := LlcExamples.sample_crash_v2 in
  length bs = 60 /\ bits bs (8 * 12) 8 = 8%N /\ ParseRoCEv2 (mem1 bs) (slice1 bs) = ([], Panicked).
Proof. repeat split; vm_compute; reflexivity. Qed.

(** ** C33 *)

Theorem C33_bth_decode : forall m buf old, slice_ok m buf ->
  let bs := s_bytes m buf in
  12 <= s_len buf ->
  exists b, BTH_Parse m old buf = ([], Done b) /\ bth_view b = decode bth bs /\ bth_Raw b = bs.
Proof. exact LlcExamples.BTH_decode. Qed.
Print Assumptions C33_bth_decode.

Example C33_bth_decode_case : (* over another header *)
  let m := mem1 LlcExamples.sample_bth in let buf := slice1 LlcExamples.sample_bth in
  let ones := repeat xff 12 in
  slice_ok m buf /\ 12 <= s_len buf /\
  exists old b, BTH_Parse (mem1 ones) BTH_zero (slice1 ones) = ([], Done old) /\
    BTH_Parse m old buf = ([], Done b) /\ In ("DestQP"%string, VN 228) (bth_view b).
Proof. computes. Qed.

Theorem C33_bth_lossless : forall m1 buf1 old1 b1 m2 buf2 old2 b2,
  slice_ok m1 buf1 -> slice_ok m2 buf2 -> s_len buf1 = 12 -> s_len buf2 = 12 ->
  BTH_Parse m1 old1 buf1 = ([], Done b1) -> BTH_Parse m2 old2 buf2 = ([], Done b2) ->
  bth_view b1 = bth_view b2 -> s_bytes m1 buf1 = s_bytes m2 buf2.
Proof. exact LlcExamples.BTH_lossless. Qed.
Print Assumptions C33_bth_lossless.

Example C33_bth_lossless_case : (* the same header in two places *)
  let m := mem1 (x00 :: LlcExamples.sample_bth) in let buf := mkslice 0 1 12 12 in
  let m' := mem1 LlcExamples.sample_bth in let buf' := slice1 LlcExamples.sample_bth in
  slice_ok m buf /\ slice_ok m' buf' /\ s_len buf = 12 /\ s_len buf' = 12 /\
  exists b b', BTH_Parse m BTH_zero buf = ([], Done b) /\ BTH_Parse m' BTH_zero buf' = ([], Done b') /\
    bth_view b = bth_view b'.
Proof. split; [split; apply Nat.leb_le; reflexivity|]. computes. Qed.

Theorem C33_bth_short : forall m buf old, slice_ok m buf -> s_len buf < 12 ->
  BTH_Parse m old buf = ([], Panicked).
Proof. exact RoceParse.BTH_panic. Qed.
Print Assumptions C33_bth_short.

Example C33_example :
  let bs := hexs "04f11234c0abcdef80123456" in
  exists b, ParseBTH (mem1 bs) (slice1 bs) = ([], Done b) /\
    bth_view b =
    [("OpCode", VN 4); ("SE", VN 1); ("M", VN 1); ("Pad", VN 3); ("TVer", VN 1); ("PKey", VN 0x1234);
     ("FECN", VN 1); ("BECN", VN 1); ("Res", VN 0); ("DestQP", VN 0xabcdef); ("A", VN 1);
     ("Res", VN 0); ("PSN", VN 0x123456)]%string.
Proof. eexists. split; vm_compute; reflexivity. Qed.

(** ** C34 *)

Theorem C34_opcode_texts : forall o, (o < 256)%N ->
  Opcode_String o = nth (N.to_nat o) opcode_texts ""%string.
Proof. exact RoceText.opcode_text. Qed.
Print Assumptions C34_opcode_texts.

Theorem C34_parsed_opcode : forall m buf old logs b, slice_ok m buf ->
  BTH_Parse m old buf = (logs, Done b) ->
  Opcode_String (bth_Opcode b) = nth (N.to_nat (bits (s_bytes m buf) 0 8)) opcode_texts ""%string.
Proof. exact RoceText.BTH_opcode_text. Qed.
Print Assumptions C34_parsed_opcode.

Example C34_example :
  Opcode_String 0x64 = "0b1100100 (UD SEND Only)"%string /\ Opcode_String 0x9f = "0b10011111 (CNP Reserved)"%string.
Proof. split; reflexivity. Qed.

(** ** C35 *)

Theorem C35_grh_decode : forall m old buf, slice_ok m buf ->
  let bs := s_bytes m buf in
  40 <= s_len buf ->
  exists g, GRH_Parse m old buf = ([], Done g) /\ grh_view g = decode grh bs /\
    grh_Contents g = bytes_at bs 0 40.
Proof. exact RoceText.GRH_decode. Qed.
Print Assumptions C35_grh_decode.

Example C35_grh_decode_case : (* in front of other bytes *)
  let bs := LlcExamples.sample_grh ++ LlcExamples.sample_packet_v2 in
  slice_ok (mem1 bs) (slice1 bs) /\ 40 <= s_len (slice1 bs) /\
  exists g, GRH_Parse (mem1 bs) GRH_zero (slice1 bs) = ([], Done g) /\ grh_Contents g = LlcExamples.sample_grh.
Proof. computes. Qed.

Theorem C35_grh_short : forall m old buf, slice_ok m buf -> s_len buf < 40 ->
  GRH_Parse m old buf = ([], Done GRH_zero).
Proof. exact RoceText.GRH_decode_short. Qed.
Print Assumptions C35_grh_short.

Example C35_grh_short_case :
  let bs := LlcExamples.sample_grh in
  slice_ok (mem1 bs) (slice_n bs 39) /\ s_len (slice_n bs 39) < 40 /\
  exists old, GRH_Parse (mem1 bs) GRH_zero (slice1 bs) = ([], Done old) /\ old <> GRH_zero /\
    GRH_Parse (mem1 bs) old (slice_n bs 39) = ([], Done GRH_zero).
Proof. computes. Qed.

Theorem C35_grh_total : forall m old buf,
  exists g, GRH_Parse m old buf = ([], Done g) /\ ParseGRH m buf = ([], Done g).
Proof. exact RoceText.GRH_total. Qed.
Print Assumptions C35_grh_total.

Example C35_example :
  let bs := LlcExamples.sample_grh in
  length bs = 40 /\
  exists g, ParseGRH (mem1 bs) (slice1 bs) = ([], Done g) /\
    In ("Flow Label"%string, VN 0x54321) (grh_view g) /\ In ("Traffic Class"%string, VN 0xab) (grh_view g).
Proof. split; [reflexivity|]. eexists. split; [vm_compute; reflexivity|]. vm_compute. intuition discriminate. Qed.

(** ** C44 *)

Theorem C44_llc_used_object : forall m buf old, slice_ok m buf -> llc_wf old ->
  llc_size (llc_kind_of old) <= s_len buf -> llc_kind_of old <> KAddLink ->
  LLC_Parse m old buf = LLC_Parse m (llc_fresh (llc_kind_of old)) buf.
Proof. exact LlcMessage.LLC_again. Qed.
Print Assumptions C44_llc_used_object.

(** Add Link is the exception: two bytes of an earlier, longer message survive *)
Theorem C44_add_link_keeps_two_bytes : forall m buf old, slice_ok m buf -> llc_wf (LAddLink old) ->
  s_len buf = 44 ->
  exists new, AddLink_Parse m old buf = ([], Done new) /\
    al_res4 new = (bytes_at (s_bytes m buf) 36 8 ++ skipn 8 (al_res4 old))%list.
Proof. exact LlcMessage.AddLink_stale. Qed.
Print Assumptions C44_add_link_keeps_two_bytes.

Example C44_add_link_keeps_two_bytes_case :
  let used := repeat xff 46 in let bs := [x02; x2c] ++ zeros 42 in
  exists old, AddLink_Parse (mem1 used) AddLink_zero (slice1 used) = ([], Done old) /\
  llc_wf (LAddLink old) /\ slice_ok (mem1 bs) (slice1 bs) /\ s_len (slice1 bs) = 44 /\
  exists new, AddLink_Parse (mem1 bs) old (slice1 bs) = ([], Done new) /\
    al_res4 new = [x00; x00; x00; x00; x00; x00; x00; x00; xff; xff].
Proof. computes. Qed.

Theorem C44_add_link_refuted :
  exists m buf old, slice_ok m buf /\ llc_reachable (LAddLink old) /\ s_len buf = 44 /\
    LLC_Parse m (LAddLink old) buf <> LLC_Parse m (llc_fresh KAddLink) buf.
Proof. exact LlcExamples.add_link_again_witness. Qed.
Print Assumptions C44_add_link_refuted.

(** with fewer bytes than a complete message the rest of the reserved tail is old *)
Theorem C44_partial_tail : forall m buf old, slice_ok m buf -> llc_wf old ->
  llc_min (llc_kind_of old) <= s_len buf ->
  let bs := s_bytes m buf in
  exists new, LLC_Parse m old buf = ([], Done new) /\ llc_kind_of new = llc_kind_of old /\
    forall i, i < length (llc_tail old) ->
    nth i (llc_tail new) x00 =
      if llc_min (llc_kind_of old) + i <? s_len buf
      then nth (llc_min (llc_kind_of old) + i) bs x00 else nth i (llc_tail old) x00.
Proof. exact LlcMessage.LLC_partial. Qed.
Print Assumptions C44_partial_tail.

Example C44_partial_tail_case : (* 30 bytes of a Test Link message *)
  let used := repeat xff 44 in let bs := [x07; x2c] ++ zeros 42 in
  exists old, LLC_Parse (mem1 used) (llc_fresh KTestLink) (slice1 used) = ([], Done old) /\
  llc_wf old /\ slice_ok (mem1 bs) (slice_n bs 30) /\ llc_min (llc_kind_of old) <= s_len (slice_n bs 30) /\
  exists new, LLC_Parse (mem1 bs) old (slice_n bs 30) = ([], Done new) /\
    nth 9 (llc_tail new) xaa = x00 /\ nth 10 (llc_tail new) xaa = xff.
Proof. computes. Qed.

Example C44_example :
  let bs := LlcExamples.sample_confirm_link in
  let old := LConfirm (LlcParse.ConfirmLink_of (repeat xff 44) ConfirmLink_zero) in
  llc_wf old /\ old <> llc_fresh KConfirmLink /\ llc_size (llc_kind_of old) <= s_len (slice1 bs) /\
  LLC_Parse (mem1 bs) old (slice1 bs) = LLC_Parse (mem1 bs) (llc_fresh KConfirmLink) (slice1 bs).
Proof.
  split; [reflexivity|]. split; [vm_compute; discriminate|].
  split; [apply le_n|vm_compute; reflexivity].
Qed.

(** ** C45 *)

Theorem C45_llc_only_visible_bytes : forall m1 m2 buf old, slice_ok m1 buf -> slice_ok m2 buf -> llc_wf old ->
  s_bytes m1 buf = s_bytes m2 buf -> LLC_Parse m1 old buf = LLC_Parse m2 old buf.
Proof. exact LlcMessage.LLC_local. Qed.
Print Assumptions C45_llc_only_visible_bytes.

Example C45_llc_only_visible_bytes_case :
  let m1 := mem1 (LlcExamples.sample_confirm_link ++ [x00]) in
  let m2 := mem1 (LlcExamples.sample_confirm_link ++ [xff]) in
  let buf := mkslice 0 0 44 45 in
  slice_ok m1 buf /\ slice_ok m2 buf /\ llc_wf (llc_fresh KConfirmLink) /\
  s_bytes m1 buf = s_bytes m2 buf /\ m1 0 <> m2 0.
Proof. do 2 (split; [split; apply Nat.leb_le; reflexivity|]). computes. Qed.

Theorem C45_roce_only_visible_bytes : forall m1 m2 buf, slice_ok m1 buf -> slice_ok m2 buf ->
  s_bytes m1 buf = s_bytes m2 buf ->
  ParseLLC m1 buf = ParseLLC m2 buf /\ ParseRoCEv1 m1 buf = ParseRoCEv1 m2 buf /\
  ParseRoCEv2 m1 buf = ParseRoCEv2 m2 buf.
Proof. exact LlcExamples.roce_local. Qed.
Print Assumptions C45_roce_only_visible_bytes.

Example C45_example : (* the arrays differ behind the slice *)
  let bs1 := (LlcExamples.sample_packet_v2 ++ [x01])%list in
  let bs2 := (LlcExamples.sample_packet_v2 ++ [x02])%list in
  slice_ok (mem1 bs1) (slice_n bs1 60) /\ slice_ok (mem1 bs2) (slice_n bs1 60) /\
  s_bytes (mem1 bs1) (slice_n bs1 60) = s_bytes (mem1 bs2) (slice_n bs1 60) /\ bs1 <> bs2.
Proof.
  split; [apply slice_n_ok; apply Nat.leb_le; reflexivity|].
  split; [apply (slice_n_ok (LlcExamples.sample_packet_v2 ++ [x02])); apply Nat.leb_le; reflexivity|].
  split; [vm_compute; reflexivity|vm_compute; discriminate].
Qed.

(** ** C46 *)

Theorem C46_icrc_is_live : forall m buf r, slice_ok m buf ->
  (ParseRoCEv1 m buf = ([], Done r) \/ ParseRoCEv2 m buf = ([], Done r)) ->
  forall later, slice_ok later buf -> s_bytes later (r_ICRC r) = last4 (s_bytes later buf).
Proof. exact LlcExamples.icrc_live. Qed.
Print Assumptions C46_icrc_is_live.

Example C46_example :
  let bs := LlcExamples.sample_packet_v2 in
  exists r, ParseRoCEv2 (mem1 bs) (slice1 bs) = ([], Done r) /\
    s_bytes (mem1 bs) (r_ICRC r) = [xde; xad; xbe; xef] /\
    s_bytes (mem1 (zeros 60)) (r_ICRC r) = zeros 4.
Proof. eexists. split; [vm_compute; reflexivity|]. split; vm_compute; reflexivity. Qed.
