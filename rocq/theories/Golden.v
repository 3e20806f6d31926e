(** * Golden: the unit tests of /repo, replayed against the model.

    Generated by tools/gen_golden.py from the *_test.go files (read as text; the
    Go code is never run).  Each Example evaluates the model on the bytes of a unit
    test and compares with the expected text of that test.  This ties the model,
    including the formatting library, to the behaviour of the code. *)

From Coq Require Import List NArith Bool String Ascii.
From Verif Require Import GoBase GoFmt ClcModel LlcModel RoceModel Samples.
Import ListNotations.
Local Open Scope string_scope.

Definition run_clc (bs : list byte) : option (N * string * string * string) :=
  match NewMessage (mem1 bs) (slice1 bs) with
  | ([], Done (Some msg, len)) =>
    match Message_Parse (mem1 bs) msg (slice1 bs) with
    | ([], Done msg) =>
      Some (len, Message_String msg, Message_Reserved msg, Message_Dump (mem1 bs) msg)
    | _ => None
    end
  | _ => None
  end.

Definition run {A} (parse : mem -> slice -> M A) (bs : list byte) : option A :=
  match parse (mem1 bs) (slice1 bs) with ([], Done a) => Some a | _ => None end.

(** a parser of one message type, as an llc.Message *)
Definition as_llc {A} (wrap : A -> LLCMessage) (parse : mem -> slice -> M A)
  : mem -> slice -> M LLCMessage :=
  fun m s => let* a := parse m s in ret (wrap a).

Definition show_llc (msg : LLCMessage) := (LLC_String msg, LLC_Reserved msg, LLC_Hex msg, LLC_GetType msg).

(** pkg/clc/clc_accept_smcd_test.go:9 TestParseSMCDAccept *)
Example golden_TestParseSMCDAccept :
  match run_clc (hexs "e2d4c3c4020030110123456789abcdef0123456789abcdefff100000ffffffff000000000000000000000000e2d4c3c4") with
  | Some (len, s, r, _) =>
    len = 48%N /\ s = ("Accept: Eyecatcher: SMC-D, Type: 2 (Accept), Length: 48, Version: 1, First Contact: 0, Path: SMC-D, SMC-D GID: 81985529216486895, SMC-D Token: 81985529216486895, DMBE Index: 255, DMBE Size: 1 (32768), Link ID: 4294967295, Trailer: SMC-D") /\ r = ("Accept: Eyecatcher: SMC-D, Type: 2 (Accept), Length: 48, Version: 1, First Contact: 0, Reserved: 0x0, Path: SMC-D, SMC-D GID: 81985529216486895, SMC-D Token: 81985529216486895, DMBE Index: 255, DMBE Size: 1 (32768), Reserved: 0x0, Reserved: 0x0000, Link ID: 4294967295, Reserved: 0x000000000000000000000000, Trailer: SMC-D")
  | None => False
  end.
Proof. vm_compute. repeat split. Qed.

(** pkg/clc/clc_accept_smcd_v2_test.go:9 TestParseSMCDv2Accept *)
Example golden_TestParseSMCDv2Accept :
  match run_clc (hexs "e2d4c3c402004e210123456789abcdef0123456789abcdefff100000ffffffff0123546869734973534d4376324549443031000000000000000000000000000000000000000000000000e2d4c3c4") with
  | Some (len, s, r, _) =>
    len = AcceptSMCDv2Len /\ s = ("Accept: Eyecatcher: SMC-D, Type: 2 (Accept), Length: 78, Version: 2, First Contact: 0, Path: SMC-D, SMC-D GID: 81985529216486895, SMC-D Token: 81985529216486895, DMBE Index: 255, DMBE Size: 1 (32768), Link ID: 4294967295, ISMv2 VCHID: 291, EID: ThisIsSMCv2EID01, Trailer: SMC-D") /\ r = ("Accept: Eyecatcher: SMC-D, Type: 2 (Accept), Length: 78, Version: 2, First Contact: 0, Reserved: 0x0, Path: SMC-D, SMC-D GID: 81985529216486895, SMC-D Token: 81985529216486895, DMBE Index: 255, DMBE Size: 1 (32768), Reserved: 0x0, Reserved: 0x0000, Link ID: 4294967295, ISMv2 VCHID: 291, EID: ThisIsSMCv2EID01, Reserved: 0x0000000000000000, Trailer: SMC-D")
  | None => False
  end.
Proof. vm_compute. repeat split. Qed.

(** pkg/clc/clc_accept_smcd_v2_test.go:60 TestParseSMCDv2FCEAccept *)
Example golden_TestParseSMCDv2FCEAccept :
  match run_clc (hexs "e2d4c3c4020072290123456789abcdef0123456789abcdefff100000ffffffff0123546869734973534d437632454944303100000000000000000000000000000000000000000000000000200000546869734973486f73746e616d65303100000000000000000000000000000000e2d4c3c4") with
  | Some (len, s, r, _) =>
    len = AcceptSMCDv2FCELen /\ s = ("Accept: Eyecatcher: SMC-D, Type: 2 (Accept), Length: 114, Version: 2, First Contact: 1, Path: SMC-D, SMC-D GID: 81985529216486895, SMC-D Token: 81985529216486895, DMBE Index: 255, DMBE Size: 1 (32768), Link ID: 4294967295, ISMv2 VCHID: 291, EID: ThisIsSMCv2EID01, OS Type: 2 (Linux), Release: 0, Hostname: ThisIsHostname01, Trailer: SMC-D") /\ r = ("Accept: Eyecatcher: SMC-D, Type: 2 (Accept), Length: 114, Version: 2, First Contact: 1, Reserved: 0x0, Path: SMC-D, SMC-D GID: 81985529216486895, SMC-D Token: 81985529216486895, DMBE Index: 255, DMBE Size: 1 (32768), Reserved: 0x0, Reserved: 0x0000, Link ID: 4294967295, ISMv2 VCHID: 291, EID: ThisIsSMCv2EID01, Reserved: 0x0000000000000000, Reserved: 0x0, OS Type: 2 (Linux), Release: 0, Reserved: 0x0000, Hostname: ThisIsHostname01, Trailer: SMC-D")
  | None => False
  end.
Proof. vm_compute. repeat split. Qed.

(** pkg/clc/clc_accept_smcr_test.go:9 TestParseSMCRAccept *)
Example golden_TestParseSMCRAccept :
  match run_clc (hexs "e2d4c3d902004418b1a098039babcdeffe800000000000009a039bfffeabcdef98039babcdef0000e40000157d0100000005230000000000f0a600000072f5fee2d4c3d9") with
  | Some (len, s, r, _) =>
    len = 68%N /\ s = ("Accept: Eyecatcher: SMC-R, Type: 2 (Accept), Length: 68, Version: 1, First Contact: 1, Path: SMC-R, Peer ID: 45472@98:03:9b:ab:cd:ef, SMC-R GID: fe80::9a03:9bff:feab:cdef, RoCE MAC: 98:03:9b:ab:cd:ef, QP Number: 228, RMB RKey: 5501, RMBE Index: 1, RMBE Alert Token: 5, RMBE Size: 2 (65536), QP MTU: 3 (1024), RMB Virtual Address: 0xf0a60000, Packet Sequence Number: 7534078, Trailer: SMC-R") /\ r = ("Accept: Eyecatcher: SMC-R, Type: 2 (Accept), Length: 68, Version: 1, First Contact: 1, Reserved: 0x0, Path: SMC-R, Peer ID: 45472@98:03:9b:ab:cd:ef, SMC-R GID: fe80::9a03:9bff:feab:cdef, RoCE MAC: 98:03:9b:ab:cd:ef, QP Number: 228, RMB RKey: 5501, RMBE Index: 1, RMBE Alert Token: 5, RMBE Size: 2 (65536), QP MTU: 3 (1024), Reserved: 0x0, RMB Virtual Address: 0xf0a60000, Reserved: 0x0, Packet Sequence Number: 7534078, Trailer: SMC-R")
  | None => False
  end.
Proof. vm_compute. repeat split. Qed.

(** pkg/clc/clc_confirm_smcd_test.go:9 TestParseSMCDConfirm *)
Example golden_TestParseSMCDConfirm :
  match run_clc (hexs "e2d4c3c4030030110123456789abcdef0123456789abcdefff100000ffffffff000000000000000000000000e2d4c3c4") with
  | Some (len, s, r, _) =>
    len = 48%N /\ s = ("Confirm: Eyecatcher: SMC-D, Type: 3 (Confirm), Length: 48, Version: 1, Flag: 0, Path: SMC-D, SMC-D GID: 81985529216486895, SMC-D Token: 81985529216486895, DMBE Index: 255, DMBE Size: 1 (32768), Link ID: 4294967295, Trailer: SMC-D") /\ r = ("Confirm: Eyecatcher: SMC-D, Type: 3 (Confirm), Length: 48, Version: 1, Flag: 0, Reserved: 0x0, Path: SMC-D, SMC-D GID: 81985529216486895, SMC-D Token: 81985529216486895, DMBE Index: 255, DMBE Size: 1 (32768), Reserved: 0x0, Reserved: 0x0000, Link ID: 4294967295, Reserved: 0x000000000000000000000000, Trailer: SMC-D")
  | None => False
  end.
Proof. vm_compute. repeat split. Qed.

(** pkg/clc/clc_confirm_smcd_v2_test.go:9 TestParseSMCDv2Confirm *)
Example golden_TestParseSMCDv2Confirm :
  match run_clc (hexs "e2d4c3c403004e210123456789abcdef0123456789abcdefff100000ffffffff0123546869734973534d4376324549443031000000000000000000000000000000000000000000000000e2d4c3c4") with
  | Some (len, s, r, _) =>
    len = AcceptSMCDv2Len /\ s = ("Confirm: Eyecatcher: SMC-D, Type: 3 (Confirm), Length: 78, Version: 2, First Contact: 0, Path: SMC-D, SMC-D GID: 81985529216486895, SMC-D Token: 81985529216486895, DMBE Index: 255, DMBE Size: 1 (32768), Link ID: 4294967295, ISMv2 VCHID: 291, EID: ThisIsSMCv2EID01, Trailer: SMC-D") /\ r = ("Confirm: Eyecatcher: SMC-D, Type: 3 (Confirm), Length: 78, Version: 2, First Contact: 0, Reserved: 0x0, Path: SMC-D, SMC-D GID: 81985529216486895, SMC-D Token: 81985529216486895, DMBE Index: 255, DMBE Size: 1 (32768), Reserved: 0x0, Reserved: 0x0000, Link ID: 4294967295, ISMv2 VCHID: 291, EID: ThisIsSMCv2EID01, Reserved: 0x0000000000000000, Trailer: SMC-D")
  | None => False
  end.
Proof. vm_compute. repeat split. Qed.

(** pkg/clc/clc_confirm_smcd_v2_test.go:60 TestParseSMCDv2FCEConfirm *)
Example golden_TestParseSMCDv2FCEConfirm :
  match run_clc (hexs "e2d4c3c4030072290123456789abcdef0123456789abcdefff100000ffffffff0123546869734973534d437632454944303100000000000000000000000000000000000000000000000000200000546869734973486f73746e616d65303100000000000000000000000000000000e2d4c3c4") with
  | Some (len, s, r, _) =>
    len = AcceptSMCDv2FCELen /\ s = ("Confirm: Eyecatcher: SMC-D, Type: 3 (Confirm), Length: 114, Version: 2, First Contact: 1, Path: SMC-D, SMC-D GID: 81985529216486895, SMC-D Token: 81985529216486895, DMBE Index: 255, DMBE Size: 1 (32768), Link ID: 4294967295, ISMv2 VCHID: 291, EID: ThisIsSMCv2EID01, OS Type: 2 (Linux), Release: 0, Hostname: ThisIsHostname01, Trailer: SMC-D") /\ r = ("Confirm: Eyecatcher: SMC-D, Type: 3 (Confirm), Length: 114, Version: 2, First Contact: 1, Reserved: 0x0, Path: SMC-D, SMC-D GID: 81985529216486895, SMC-D Token: 81985529216486895, DMBE Index: 255, DMBE Size: 1 (32768), Reserved: 0x0, Reserved: 0x0000, Link ID: 4294967295, ISMv2 VCHID: 291, EID: ThisIsSMCv2EID01, Reserved: 0x0000000000000000, Reserved: 0x0, OS Type: 2 (Linux), Release: 0, Reserved: 0x0000, Hostname: ThisIsHostname01, Trailer: SMC-D")
  | None => False
  end.
Proof. vm_compute. repeat split. Qed.

(** pkg/clc/clc_confirm_smcr_test.go:9 TestParseSMCRConfirm *)
Example golden_TestParseSMCRConfirm :
  match run_clc (hexs "e2d4c3d903004410b1a098039babcdeffe800000000000009a039bfffeabcdef98039babcdef0000e50000187f0100000006230000000000f0a40000000d89a4e2d4c3d9") with
  | Some (len, s, r, _) =>
    len = 68%N /\ s = ("Confirm: Eyecatcher: SMC-R, Type: 3 (Confirm), Length: 68, Version: 1, Flag: 0, Path: SMC-R, Peer ID: 45472@98:03:9b:ab:cd:ef, SMC-R GID: fe80::9a03:9bff:feab:cdef, RoCE MAC: 98:03:9b:ab:cd:ef, QP Number: 229, RMB RKey: 6271, RMBE Index: 1, RMBE Alert Token: 6, RMBE Size: 2 (65536), QP MTU: 3 (1024), RMB Virtual Address: 0xf0a40000, Packet Sequence Number: 887204, Trailer: SMC-R") /\ r = ("Confirm: Eyecatcher: SMC-R, Type: 3 (Confirm), Length: 68, Version: 1, Flag: 0, Reserved: 0x0, Path: SMC-R, Peer ID: 45472@98:03:9b:ab:cd:ef, SMC-R GID: fe80::9a03:9bff:feab:cdef, RoCE MAC: 98:03:9b:ab:cd:ef, QP Number: 229, RMB RKey: 6271, RMBE Index: 1, RMBE Alert Token: 6, RMBE Size: 2 (65536), QP MTU: 3 (1024), Reserved: 0x0, RMB Virtual Address: 0xf0a40000, Reserved: 0x0, Packet Sequence Number: 887204, Trailer: SMC-R")
  | None => False
  end.
Proof. vm_compute. repeat split. Qed.

(** pkg/clc/clc_decline_test.go:9 TestParseCLCDecline *)
Example golden_TestParseCLCDecline :
  match run_clc (hexs "e2d4c3d904001c1025252525252525000303000000000000e2d4c3d9") with
  | Some (len, s, r, _) =>
    len = 28%N /\ s = ("Decline: Eyecatcher: SMC-R, Type: 4 (Decline), Length: 28, Version: 1, Out of Sync: 0, Path: SMC-R, Peer ID: 9509@25:25:25:25:25:00, Peer Diagnosis: 0x3030000 (no SMC device found (R or D)), Trailer: SMC-R") /\ r = ("Decline: Eyecatcher: SMC-R, Type: 4 (Decline), Length: 28, Version: 1, Out of Sync: 0, Reserved: 0x0, Path: SMC-R, Peer ID: 9509@25:25:25:25:25:00, Peer Diagnosis: 0x3030000 (no SMC device found (R or D)), Reserved: 0x00000000, Trailer: SMC-R")
  | None => False
  end.
Proof. vm_compute. repeat split. Qed.

(** pkg/clc/clc_decline_v2_test.go:9 TestParseCLCDeclineV2 *)
Example golden_TestParseCLCDeclineV2 :
  match run_clc (hexs "e2d4c3d904001c2025252525252525000303000020000000e2d4c3d9") with
  | Some (len, s, r, _) =>
    len = 28%N /\ s = ("Decline: Eyecatcher: SMC-R, Type: 4 (Decline), Length: 28, Version: 2, Out of Sync: 0, Path: SMC-R, Peer ID: 9509@25:25:25:25:25:00, Peer Diagnosis: 0x3030000 (no SMC device found (R or D)), OS Type: 2 (Linux), Trailer: SMC-R") /\ r = ("Decline: Eyecatcher: SMC-R, Type: 4 (Decline), Length: 28, Version: 2, Out of Sync: 0, Reserved: 0x0, Path: SMC-R, Peer ID: 9509@25:25:25:25:25:00, Peer Diagnosis: 0x3030000 (no SMC device found (R or D)), OS Type: 2 (Linux), Reserved: 0x00000000, Trailer: SMC-R")
  | None => False
  end.
Proof. vm_compute. repeat split. Qed.

(** pkg/clc/clc_proposal_test.go:9 TestParseCLCProposalSMCRIPv4 *)
Example golden_TestParseCLCProposalSMCRIPv4 :
  match run_clc (hexs "e2d4c3d901003410b1a098039babcdeffe800000000000009a039bfffeabcdef98039babcdef00007f00000008000000e2d4c3d9") with
  | Some (len, s, r, _) =>
    len = 52%N /\ s = ("Proposal: Eyecatcher: SMC-R, Type: 1 (Proposal), Length: 52, Version: 1, Flag: 0, Path: SMC-R, Peer ID: 45472@98:03:9b:ab:cd:ef, SMC-R GID: fe80::9a03:9bff:feab:cdef, RoCE MAC: 98:03:9b:ab:cd:ef, IP Area Offset: 0, IPv4 Prefix: 127.0.0.0/8, IPv6 Prefix Count: 0, Trailer: SMC-R") /\ r = ("Proposal: Eyecatcher: SMC-R, Type: 1 (Proposal), Length: 52, Version: 1, Flag: 0, Reserved: 0x0, Path: SMC-R, Peer ID: 45472@98:03:9b:ab:cd:ef, SMC-R GID: fe80::9a03:9bff:feab:cdef, RoCE MAC: 98:03:9b:ab:cd:ef, IP Area Offset: 0, IPv4 Prefix: 127.0.0.0/8, Reserved: 0x0000, IPv6 Prefix Count: 0, Trailer: SMC-R")
  | None => False
  end.
Proof. vm_compute. repeat split. Qed.

(** pkg/clc/clc_proposal_test.go:60 TestParseCLCProposalSMCDIPv4 *)
Example golden_TestParseCLCProposalSMCDIPv4 :
  match run_clc (hexs "e2d4c3c401005c11b1a098039babcdef0000000000000000000000000000000000000000000000280123456789abcdef00000000000000000000000000000000000000000000000000000000000000007f00000008000000e2d4c3c4") with
  | Some (len, s, r, _) =>
    len = 92%N /\ s = ("Proposal: Eyecatcher: SMC-D, Type: 1 (Proposal), Length: 92, Version: 1, Flag: 0, Path: SMC-D, Peer ID: 45472@98:03:9b:ab:cd:ef, SMC-R GID: ::, RoCE MAC: 00:00:00:00:00:00, IP Area Offset: 40, SMC-D GID: 81985529216486895, IPv4 Prefix: 127.0.0.0/8, IPv6 Prefix Count: 0, Trailer: SMC-D") /\ r = ("Proposal: Eyecatcher: SMC-D, Type: 1 (Proposal), Length: 92, Version: 1, Flag: 0, Reserved: 0x0, Path: SMC-D, Peer ID: 45472@98:03:9b:ab:cd:ef, SMC-R GID: ::, RoCE MAC: 00:00:00:00:00:00, IP Area Offset: 40, SMC-D GID: 81985529216486895, Reserved: 0x0000000000000000000000000000000000000000000000000000000000000000, IPv4 Prefix: 127.0.0.0/8, Reserved: 0x0000, IPv6 Prefix Count: 0, Trailer: SMC-D")
  | None => False
  end.
Proof. vm_compute. repeat split. Qed.

(** pkg/clc/clc_proposal_test.go:114 TestParseCLCProposalSMCBIPv4 *)
Example golden_TestParseCLCProposalSMCBIPv4 :
  match run_clc (hexs "e2d4c3d901005c13b1a098039babcdeffe800000000000009a039bfffeabcdef98039babcdef00280123456789abcdef00000000000000000000000000000000000000000000000000000000000000007f00000008000000e2d4c3d9") with
  | Some (len, s, r, _) =>
    len = 92%N /\ s = ("Proposal: Eyecatcher: SMC-R, Type: 1 (Proposal), Length: 92, Version: 1, Flag: 0, Path: SMC-R + SMC-D, Peer ID: 45472@98:03:9b:ab:cd:ef, SMC-R GID: fe80::9a03:9bff:feab:cdef, RoCE MAC: 98:03:9b:ab:cd:ef, IP Area Offset: 40, SMC-D GID: 81985529216486895, IPv4 Prefix: 127.0.0.0/8, IPv6 Prefix Count: 0, Trailer: SMC-R") /\ r = ("Proposal: Eyecatcher: SMC-R, Type: 1 (Proposal), Length: 92, Version: 1, Flag: 0, Reserved: 0x0, Path: SMC-R + SMC-D, Peer ID: 45472@98:03:9b:ab:cd:ef, SMC-R GID: fe80::9a03:9bff:feab:cdef, RoCE MAC: 98:03:9b:ab:cd:ef, IP Area Offset: 40, SMC-D GID: 81985529216486895, Reserved: 0x0000000000000000000000000000000000000000000000000000000000000000, IPv4 Prefix: 127.0.0.0/8, Reserved: 0x0000, IPv6 Prefix Count: 0, Trailer: SMC-R")
  | None => False
  end.
Proof. vm_compute. repeat split. Qed.

(** pkg/clc/clc_proposal_test.go:170 TestParseCLCProposalSMCRIPv6 *)
Example golden_TestParseCLCProposalSMCRIPv6 :
  match run_clc (hexs "e2d4c3d901004510394498039babcdeffe800000000000009a039bfffeabcdef98039babcdef000000000000000000010000000000000000000000000000000180e2d4c3d9") with
  | Some (len, s, r, _) =>
    len = 69%N /\ s = ("Proposal: Eyecatcher: SMC-R, Type: 1 (Proposal), Length: 69, Version: 1, Flag: 0, Path: SMC-R, Peer ID: 14660@98:03:9b:ab:cd:ef, SMC-R GID: fe80::9a03:9bff:feab:cdef, RoCE MAC: 98:03:9b:ab:cd:ef, IP Area Offset: 0, IPv4 Prefix: 0.0.0.0/0, IPv6 Prefix Count: 1, IPv6 Prefix: ::1/128, Trailer: SMC-R") /\ r = ("Proposal: Eyecatcher: SMC-R, Type: 1 (Proposal), Length: 69, Version: 1, Flag: 0, Reserved: 0x0, Path: SMC-R, Peer ID: 14660@98:03:9b:ab:cd:ef, SMC-R GID: fe80::9a03:9bff:feab:cdef, RoCE MAC: 98:03:9b:ab:cd:ef, IP Area Offset: 0, IPv4 Prefix: 0.0.0.0/0, Reserved: 0x0000, IPv6 Prefix Count: 1, IPv6 Prefix: ::1/128, Trailer: SMC-R")
  | None => False
  end.
Proof. vm_compute. repeat split. Qed.

(** pkg/clc/clc_proposal_test.go:223 TestParseCLCProposalSMCBIPv6 *)
Example golden_TestParseCLCProposalSMCBIPv6 :
  match run_clc (hexs "e2d4c3d901006d13394498039babcdeffe800000000000009a039bfffeabcdef98039babcdef00280123456789abcdef000000000000000000000000000000000000000000000000000000000000000000000000000000010000000000000000000000000000000180e2d4c3d9") with
  | Some (len, s, r, _) =>
    len = 109%N /\ s = ("Proposal: Eyecatcher: SMC-R, Type: 1 (Proposal), Length: 109, Version: 1, Flag: 0, Path: SMC-R + SMC-D, Peer ID: 14660@98:03:9b:ab:cd:ef, SMC-R GID: fe80::9a03:9bff:feab:cdef, RoCE MAC: 98:03:9b:ab:cd:ef, IP Area Offset: 40, SMC-D GID: 81985529216486895, IPv4 Prefix: 0.0.0.0/0, IPv6 Prefix Count: 1, IPv6 Prefix: ::1/128, Trailer: SMC-R") /\ r = ("Proposal: Eyecatcher: SMC-R, Type: 1 (Proposal), Length: 109, Version: 1, Flag: 0, Reserved: 0x0, Path: SMC-R + SMC-D, Peer ID: 14660@98:03:9b:ab:cd:ef, SMC-R GID: fe80::9a03:9bff:feab:cdef, RoCE MAC: 98:03:9b:ab:cd:ef, IP Area Offset: 40, SMC-D GID: 81985529216486895, Reserved: 0x0000000000000000000000000000000000000000000000000000000000000000, IPv4 Prefix: 0.0.0.0/0, Reserved: 0x0000, IPv6 Prefix Count: 1, IPv6 Prefix: ::1/128, Trailer: SMC-R")
  | None => False
  end.
Proof. vm_compute. repeat split. Qed.

(** pkg/clc/clc_proposal_v2_test.go:58 TestParseCLCProposalV2SMCB *)
Example golden_TestParseCLCProposalV2SMCB :
  match run_clc (hexs "e2d4c3d90100d62e394498039babcdeffe800000000000009a039bfffeabcdef98039babcdef00280123456789abcdef123400000000000000000000000000000000000000000000000000000000000001010001000000400000000000000000000000000000000000000000000000000000000000000000546869734973534d437632454944303100000000000000000000000000000000546869734973534d43763245494430320000000000000000000000000000000000000000000000000000000000000000abcdef01234567890123e2d4c3d9") with
  | Some (len, s, r, _) =>
    len = 214%N /\ s = ("Proposal: Eyecatcher: SMC-R, Type: 1 (Proposal), Length: 214, Version: 2, Pathv2: SMC-R + SMC-D, Path: No SMC-R/SMC-D, Peer ID: 14660@98:03:9b:ab:cd:ef, SMC-R GID: fe80::9a03:9bff:feab:cdef, RoCE MAC: 98:03:9b:ab:cd:ef, IP Area Offset: 40, SMC-D GID: 81985529216486895, ISMv2 VCHID: 4660, SMCv2 Extension Offset: 0, EID Number: 1, GID Number: 1, Release: 0, SEID Indicator: 1, SMC-Dv2 Extension Offset: 64, EID Area: [EID 0: ThisIsSMCv2EID01], SEID: ThisIsSMCv2EID02, GID Area: [GID 0: 12379813738877118345, VCHID 0: 291], Trailer: SMC-R") /\ r = ("Proposal: Eyecatcher: SMC-R, Type: 1 (Proposal), Length: 214, Version: 2, Pathv2: SMC-R + SMC-D, Path: No SMC-R/SMC-D, Peer ID: 14660@98:03:9b:ab:cd:ef, SMC-R GID: fe80::9a03:9bff:feab:cdef, RoCE MAC: 98:03:9b:ab:cd:ef, IP Area Offset: 40, SMC-D GID: 81985529216486895, ISMv2 VCHID: 4660, SMCv2 Extension Offset: 0, Reserved: 0x00000000000000000000000000000000000000000000000000000000, EID Number: 1, GID Number: 1, Reserved: 0x0, Release: 0, Reserved: 0x0, SEID Indicator: 1, Reserved: 0x0000, SMC-Dv2 Extension Offset: 64, Reserved: 0x0000000000000000000000000000000000000000000000000000000000000000, EID Area: [EID 0: ThisIsSMCv2EID01], SEID: ThisIsSMCv2EID02, Reserved: 0x00000000000000000000000000000000, GID Area: [GID 0: 12379813738877118345, VCHID 0: 291], Trailer: SMC-R")
  | None => False
  end.
Proof. vm_compute. repeat split. Qed.

(** pkg/clc/clc_proposal_v2_test.go:153 TestParseCLCProposalV2SMCBIPv4 *)
Example golden_TestParseCLCProposalV2SMCBIPv4 :
  match run_clc (hexs "e2d4c3d90100de2f394498039babcdeffe800000000000009a039bfffeabcdef98039babcdef00280123456789abcdef12340019000000000000000000000000000000000000000000000000000000007f0000000800000001010001000000400000000000000000000000000000000000000000000000000000000000000000546869734973534d437632454944303100000000000000000000000000000000546869734973534d43763245494430320000000000000000000000000000000000000000000000000000000000000000abcdef01234567890123e2d4c3d9") with
  | Some (len, s, r, _) =>
    len = 222%N /\ s = ("Proposal: Eyecatcher: SMC-R, Type: 1 (Proposal), Length: 222, Version: 2, Pathv2: SMC-R + SMC-D, Path: SMC-R + SMC-D, Peer ID: 14660@98:03:9b:ab:cd:ef, SMC-R GID: fe80::9a03:9bff:feab:cdef, RoCE MAC: 98:03:9b:ab:cd:ef, IP Area Offset: 40, SMC-D GID: 81985529216486895, ISMv2 VCHID: 4660, SMCv2 Extension Offset: 25, IPv4 Prefix: 127.0.0.0/8, IPv6 Prefix Count: 0, EID Number: 1, GID Number: 1, Release: 0, SEID Indicator: 1, SMC-Dv2 Extension Offset: 64, EID Area: [EID 0: ThisIsSMCv2EID01], SEID: ThisIsSMCv2EID02, GID Area: [GID 0: 12379813738877118345, VCHID 0: 291], Trailer: SMC-R") /\ r = ("Proposal: Eyecatcher: SMC-R, Type: 1 (Proposal), Length: 222, Version: 2, Pathv2: SMC-R + SMC-D, Path: SMC-R + SMC-D, Peer ID: 14660@98:03:9b:ab:cd:ef, SMC-R GID: fe80::9a03:9bff:feab:cdef, RoCE MAC: 98:03:9b:ab:cd:ef, IP Area Offset: 40, SMC-D GID: 81985529216486895, ISMv2 VCHID: 4660, SMCv2 Extension Offset: 25, Reserved: 0x00000000000000000000000000000000000000000000000000000000, IPv4 Prefix: 127.0.0.0/8, Reserved: 0x0000, IPv6 Prefix Count: 0, EID Number: 1, GID Number: 1, Reserved: 0x0, Release: 0, Reserved: 0x0, SEID Indicator: 1, Reserved: 0x0000, SMC-Dv2 Extension Offset: 64, Reserved: 0x0000000000000000000000000000000000000000000000000000000000000000, EID Area: [EID 0: ThisIsSMCv2EID01], SEID: ThisIsSMCv2EID02, Reserved: 0x00000000000000000000000000000000, GID Area: [GID 0: 12379813738877118345, VCHID 0: 291], Trailer: SMC-R")
  | None => False
  end.
Proof. vm_compute. repeat split. Qed.

(** pkg/clc/clc_proposal_v2_test.go:252 TestParseCLCProposalV2SMCBIPv6 *)
Example golden_TestParseCLCProposalV2SMCBIPv6 :
  match run_clc (hexs "e2d4c3d90100ef2f394498039babcdeffe800000000000009a039bfffeabcdef98039babcdef00280123456789abcdef12340019000000000000000000000000000000000000000000000000000000000000000000000001000000000000000000000000000000018001010001000000400000000000000000000000000000000000000000000000000000000000000000546869734973534d437632454944303100000000000000000000000000000000546869734973534d43763245494430320000000000000000000000000000000000000000000000000000000000000000abcdef01234567890123e2d4c3d9") with
  | Some (len, s, r, _) =>
    len = 239%N /\ s = ("Proposal: Eyecatcher: SMC-R, Type: 1 (Proposal), Length: 239, Version: 2, Pathv2: SMC-R + SMC-D, Path: SMC-R + SMC-D, Peer ID: 14660@98:03:9b:ab:cd:ef, SMC-R GID: fe80::9a03:9bff:feab:cdef, RoCE MAC: 98:03:9b:ab:cd:ef, IP Area Offset: 40, SMC-D GID: 81985529216486895, ISMv2 VCHID: 4660, SMCv2 Extension Offset: 25, IPv4 Prefix: 0.0.0.0/0, IPv6 Prefix Count: 1, IPv6 Prefix: ::1/128, EID Number: 1, GID Number: 1, Release: 0, SEID Indicator: 1, SMC-Dv2 Extension Offset: 64, EID Area: [EID 0: ThisIsSMCv2EID01], SEID: ThisIsSMCv2EID02, GID Area: [GID 0: 12379813738877118345, VCHID 0: 291], Trailer: SMC-R") /\ r = ("Proposal: Eyecatcher: SMC-R, Type: 1 (Proposal), Length: 239, Version: 2, Pathv2: SMC-R + SMC-D, Path: SMC-R + SMC-D, Peer ID: 14660@98:03:9b:ab:cd:ef, SMC-R GID: fe80::9a03:9bff:feab:cdef, RoCE MAC: 98:03:9b:ab:cd:ef, IP Area Offset: 40, SMC-D GID: 81985529216486895, ISMv2 VCHID: 4660, SMCv2 Extension Offset: 25, Reserved: 0x00000000000000000000000000000000000000000000000000000000, IPv4 Prefix: 0.0.0.0/0, Reserved: 0x0000, IPv6 Prefix Count: 1, IPv6 Prefix: ::1/128, EID Number: 1, GID Number: 1, Reserved: 0x0, Release: 0, Reserved: 0x0, SEID Indicator: 1, Reserved: 0x0000, SMC-Dv2 Extension Offset: 64, Reserved: 0x0000000000000000000000000000000000000000000000000000000000000000, EID Area: [EID 0: ThisIsSMCv2EID01], SEID: ThisIsSMCv2EID02, Reserved: 0x00000000000000000000000000000000, GID Area: [GID 0: 12379813738877118345, VCHID 0: 291], Trailer: SMC-R")
  | None => False
  end.
Proof. vm_compute. repeat split. Qed.

(** pkg/clc/clc_proposal_v2_test.go:352 TestParseCLCProposalV2SMCBv1IPv4 *)
Example golden_TestParseCLCProposalV2SMCBv1IPv4 :
  match run_clc (hexs "e2d4c3d901005c2b394498039babcdeffe800000000000009a039bfffeabcdef98039babcdef00280123456789abcdef12340000000000000000000000000000000000000000000000000000000000007f00000008000000e2d4c3d9") with
  | Some (len, s, r, _) =>
    len = 92%N /\ s = ("Proposal: Eyecatcher: SMC-R, Type: 1 (Proposal), Length: 92, Version: 2, Pathv2: No SMC-R/SMC-D, Path: SMC-R + SMC-D, Peer ID: 14660@98:03:9b:ab:cd:ef, SMC-R GID: fe80::9a03:9bff:feab:cdef, RoCE MAC: 98:03:9b:ab:cd:ef, IP Area Offset: 40, SMC-D GID: 81985529216486895, ISMv2 VCHID: 4660, SMCv2 Extension Offset: 0, IPv4 Prefix: 127.0.0.0/8, IPv6 Prefix Count: 0, Trailer: SMC-R") /\ r = ("Proposal: Eyecatcher: SMC-R, Type: 1 (Proposal), Length: 92, Version: 2, Pathv2: No SMC-R/SMC-D, Path: SMC-R + SMC-D, Peer ID: 14660@98:03:9b:ab:cd:ef, SMC-R GID: fe80::9a03:9bff:feab:cdef, RoCE MAC: 98:03:9b:ab:cd:ef, IP Area Offset: 40, SMC-D GID: 81985529216486895, ISMv2 VCHID: 4660, SMCv2 Extension Offset: 0, Reserved: 0x00000000000000000000000000000000000000000000000000000000, IPv4 Prefix: 127.0.0.0/8, Reserved: 0x0000, IPv6 Prefix Count: 0, Trailer: SMC-R")
  | None => False
  end.
Proof. vm_compute. repeat split. Qed.

(** pkg/clc/clc_proposal_v2_test.go:417 TestParseCLCProposalV2SMCBv1IPv6 *)
Example golden_TestParseCLCProposalV2SMCBv1IPv6 :
  match run_clc (hexs "e2d4c3d901006d2b394498039babcdeffe800000000000009a039bfffeabcdef98039babcdef00280123456789abcdef123400000000000000000000000000000000000000000000000000000000000000000000000000010000000000000000000000000000000180e2d4c3d9") with
  | Some (len, s, r, _) =>
    len = 109%N /\ s = ("Proposal: Eyecatcher: SMC-R, Type: 1 (Proposal), Length: 109, Version: 2, Pathv2: No SMC-R/SMC-D, Path: SMC-R + SMC-D, Peer ID: 14660@98:03:9b:ab:cd:ef, SMC-R GID: fe80::9a03:9bff:feab:cdef, RoCE MAC: 98:03:9b:ab:cd:ef, IP Area Offset: 40, SMC-D GID: 81985529216486895, ISMv2 VCHID: 4660, SMCv2 Extension Offset: 0, IPv4 Prefix: 0.0.0.0/0, IPv6 Prefix Count: 1, IPv6 Prefix: ::1/128, Trailer: SMC-R") /\ r = ("Proposal: Eyecatcher: SMC-R, Type: 1 (Proposal), Length: 109, Version: 2, Pathv2: No SMC-R/SMC-D, Path: SMC-R + SMC-D, Peer ID: 14660@98:03:9b:ab:cd:ef, SMC-R GID: fe80::9a03:9bff:feab:cdef, RoCE MAC: 98:03:9b:ab:cd:ef, IP Area Offset: 40, SMC-D GID: 81985529216486895, ISMv2 VCHID: 4660, SMCv2 Extension Offset: 0, Reserved: 0x00000000000000000000000000000000000000000000000000000000, IPv4 Prefix: 0.0.0.0/0, Reserved: 0x0000, IPv6 Prefix Count: 1, IPv6 Prefix: ::1/128, Trailer: SMC-R")
  | None => False
  end.
Proof. vm_compute. repeat split. Qed.

(** pkg/llc/cdc_test.go:10 TestCDC *)
Example golden_TestCDC :
  option_map show_llc (run (as_llc LCDC ParseCDC) (hexs "fe2c000100000003000000000000000d00000000000000000000000000000000000000000000000000000000"))
  = Some (("CDC: Type: 254, Length 44, Sequence Number: 1, Alert Token: 3, Producer Wrap: 0, Producer Cursor: 13, Consumer Wrap: 0, Consumer Cursor: 0, Writer Blocked: false, Urgent Data Pending: false, Urgent Data Present: false, Request for Consumer Cursor Update: false, Failover Validation: false, Sending Done: false, Peer Connection Closed: false, Abnormal Close: false" ++ nl ++ ""), ("CDC: Type: 254, Length 44, Sequence Number: 1, Alert Token: 3, Reserved: 0x0000, Producer Wrap: 0, Producer Cursor: 13, Reserved: 0x0000, Consumer Wrap: 0, Consumer Cursor: 0, Writer Blocked: false, Urgent Data Pending: false, Urgent Data Present: false, Request for Consumer Cursor Update: false, Failover Validation: false, Reserved: 0x0, Sending Done: false, Peer Connection Closed: false, Abnormal Close: false, Reserved: 0x00000000000000000000000000000000000000" ++ nl ++ ""), ("00000000  fe 2c 00 01 00 00 00 03  00 00 00 00 00 00 00 0d  |.,..............|" ++ nl ++ "00000010  00 00 00 00 00 00 00 00  00 00 00 00 00 00 00 00  |................|" ++ nl ++ "00000020  00 00 00 00 00 00 00 00  00 00 00 00              |............|" ++ nl ++ ""), TypeCDC).
Proof. vm_compute. reflexivity. Qed.

(** pkg/llc/llc_addlink_test.go:10 TestAddLink *)
Example golden_TestAddLink :
  option_map show_llc (run (as_llc LAddLink ParseAddLink) (hexs "022c000098039babcdef0000fe800000000000009a039bfffeabcdef00000000000000000000000000000000"))
  = Some (("LLC Add Link: Type: 2, Length: 44, Reason Code: 0 (unknown), Reply: false, Rejection: false, Sender MAC: 98:03:9b:ab:cd:ef, Sender GID: fe80::9a03:9bff:feab:cdef, Sender QP: 0, Link: 0, MTU: 0 (reserved), Initial PSN: 0" ++ nl ++ ""), ("LLC Add Link: Type: 2, Length: 44, Reserved: 0x0, Reason Code: 0 (unknown), Reply: false, Rejection: false, Reserved: 0x0, Sender MAC: 98:03:9b:ab:cd:ef, Sender GID: fe80::9a03:9bff:feab:cdef, Sender QP: 0, Link: 0, Reserved: 0x0, MTU: 0 (reserved), Initial PSN: 0, Reserved: 0x00000000000000000000" ++ nl ++ ""), ("00000000  02 2c 00 00 98 03 9b ab  cd ef 00 00 fe 80 00 00  |.,..............|" ++ nl ++ "00000010  00 00 00 00 9a 03 9b ff  fe ab cd ef 00 00 00 00  |................|" ++ nl ++ "00000020  00 00 00 00 00 00 00 00  00 00 00 00              |............|" ++ nl ++ ""), TypeAddLink).
Proof. vm_compute. reflexivity. Qed.

(** pkg/llc/llc_addlinkcont_test.go:10 TestAddLinkCont *)
Example golden_TestAddLinkCont :
  option_map show_llc (run (as_llc LAddLinkCont ParseAddLinkCont) (hexs "032c008001010000000000010000000200000000000000030000000400000005000000000000000600000000"))
  = Some (("LLC Add Link Continuation: Type: 3, Length: 44, Reply: true, Link: 1, Number of RTokens: 1, RKey Pair 2: [Reference RKey: 4, New RKey: 5, New Virtual Address: 0x6]" ++ nl ++ ""), ("LLC Add Link Continuation: Type: 3, Length: 44, Reserved: 0x0, Reply: true, Reserved: 0x0, Link: 1, Number of RTokens: 1, Reserved: 0x0000, RKey Pair 2: [Reference RKey: 4, New RKey: 5, New Virtual Address: 0x6], Reserved: 0x00000000" ++ nl ++ ""), ("00000000  03 2c 00 80 01 01 00 00  00 00 00 01 00 00 00 02  |.,..............|" ++ nl ++ "00000010  00 00 00 00 00 00 00 03  00 00 00 04 00 00 00 05  |................|" ++ nl ++ "00000020  00 00 00 00 00 00 00 06  00 00 00 00              |............|" ++ nl ++ ""), TypeAddLinkCont).
Proof. vm_compute. reflexivity. Qed.

(** pkg/llc/llc_confirmlink_test.go:10 TestConfirmLink *)
Example golden_TestConfirmLink :
  option_map show_llc (run (as_llc LConfirm ParseConfirm) (hexs "012c000398039babcdeffe800000000000009a039bfffeabcdef000107000001000002000000000000000000"))
  = Some (("LLC Confirm Link: Type: 1, Length: 44, Reply: false, Sender MAC: 98:03:9b:ab:cd:ef, Sender GID: fe80::9a03:9bff:feab:cdef, Sender QP: 263, Link: 0, Sender Link UserID: 65536, Max Links: 2" ++ nl ++ ""), ("LLC Confirm Link: Type: 1, Length: 44, Reserved: 0x0, Reply: false, Reserved: 0x3, Sender MAC: 98:03:9b:ab:cd:ef, Sender GID: fe80::9a03:9bff:feab:cdef, Sender QP: 263, Link: 0, Sender Link UserID: 65536, Max Links: 2, Reserved: 0x000000000000000000" ++ nl ++ ""), ("00000000  01 2c 00 03 98 03 9b ab  cd ef fe 80 00 00 00 00  |.,..............|" ++ nl ++ "00000010  00 00 9a 03 9b ff fe ab  cd ef 00 01 07 00 00 01  |................|" ++ nl ++ "00000020  00 00 02 00 00 00 00 00  00 00 00 00              |............|" ++ nl ++ ""), TypeConfirmLink).
Proof. vm_compute. reflexivity. Qed.

(** pkg/llc/llc_confirmrkey_test.go:10 TestConfirmRKey *)
Example golden_TestConfirmRKey :
  option_map show_llc (run (as_llc LConfirmRKey ParseConfirmRKey) (hexs "062c0000000000155d0000000eef4d0000000000000000000000000000000000000000000000000000000000"))
  = Some (("LLC Confirm RKey: Type: 6, Length: 44, Reply: false, Negative Response: false, Configuration Retry: false, Number of Tokens: 0, This RKey: 5469, This VAddr: 0xeef4d0000, Other Link RMB 1: [Link: 0, RKey: 0, Virtual Address: 0x0], Other Link RMB 2: [Link: 0, RKey: 0, Virtual Address: 0x0]" ++ nl ++ ""), ("LLC Confirm RKey: Type: 6, Length: 44, Reserved: 0x0, Reply: false, Reserved: 0x0, Negative Response: false, Configuration Retry: false, Reserved: 0x0, Number of Tokens: 0, This RKey: 5469, This VAddr: 0xeef4d0000, Other Link RMB 1: [Link: 0, RKey: 0, Virtual Address: 0x0], Other Link RMB 2: [Link: 0, RKey: 0, Virtual Address: 0x0], Reserved: 0x0" ++ nl ++ ""), ("00000000  06 2c 00 00 00 00 00 15  5d 00 00 00 0e ef 4d 00  |.,......].....M.|" ++ nl ++ "00000010  00 00 00 00 00 00 00 00  00 00 00 00 00 00 00 00  |................|" ++ nl ++ "00000020  00 00 00 00 00 00 00 00  00 00 00 00              |............|" ++ nl ++ ""), TypeConfirmRKey).
Proof. vm_compute. reflexivity. Qed.

(** pkg/llc/llc_confirmrkeycont_test.go:10 TestConfirmRKeyCont *)
Example golden_TestConfirmRKeyCont :
  option_map show_llc (run (as_llc LConfirmRKeyCont ParseConfirmRKeyCont) (hexs "082c00a00101000000020000000000000003040000000500000000000000060700000008000000000000000900"))
  = Some (("LLC Confirm RKey Continuation: Type: 8, Length: 44, Reply: true, Negative Response: true, Number of Tokens: 1, Other Link RMB 1: [Link: 1, RKey: 2, Virtual Address: 0x3], Other Link RMB 2: [Link: 4, RKey: 5, Virtual Address: 0x6], Other Link RMB 3: [Link: 7, RKey: 8, Virtual Address: 0x9]" ++ nl ++ ""), ("LLC Confirm RKey Continuation: Type: 8, Length: 44, Reserved: 0x0, Reply: true, Reserved: 0x0, Negative Response: true, Reserved: 0x0, Number of Tokens: 1, Other Link RMB 1: [Link: 1, RKey: 2, Virtual Address: 0x3], Other Link RMB 2: [Link: 4, RKey: 5, Virtual Address: 0x6], Other Link RMB 3: [Link: 7, RKey: 8, Virtual Address: 0x9], Reserved: 0x0" ++ nl ++ ""), ("00000000  08 2c 00 a0 01 01 00 00  00 02 00 00 00 00 00 00  |.,..............|" ++ nl ++ "00000010  00 03 04 00 00 00 05 00  00 00 00 00 00 00 06 07  |................|" ++ nl ++ "00000020  00 00 00 08 00 00 00 00  00 00 00 09 00           |.............|" ++ nl ++ ""), TypeConfirmRKeyCont).
Proof. vm_compute. reflexivity. Qed.

(** pkg/llc/llc_deletelink_test.go:10 TestDeleteLink *)
Example golden_TestDeleteLink :
  option_map show_llc (run (as_llc LDeleteLink ParseDeleteLink) (hexs "042c006000000000000000000000000000000000000000000000000000000000000000000000000000000000"))
  = Some (("LLC Delete Link: Type: 4, Length: 44, Reply: false, All: true, Orderly: true, Link: 0, Reason Code: 0 (unknown)" ++ nl ++ ""), ("LLC Delete Link: Type: 4, Length: 44, Reserved: 0x0, Reply: false, All: true, Orderly: true, Reserved: 0x0, Link: 0, Reason Code: 0 (unknown), Reserved: 0x0000000000000000000000000000000000000000000000000000000000000000000000" ++ nl ++ ""), ("00000000  04 2c 00 60 00 00 00 00  00 00 00 00 00 00 00 00  |.,.`............|" ++ nl ++ "00000010  00 00 00 00 00 00 00 00  00 00 00 00 00 00 00 00  |................|" ++ nl ++ "00000020  00 00 00 00 00 00 00 00  00 00 00 00              |............|" ++ nl ++ ""), TypeDeleteLink).
Proof. vm_compute. reflexivity. Qed.

(** pkg/llc/llc_deleterkey_test.go:10 TestDeleteRKey *)
Example golden_TestDeleteRKey :
  option_map show_llc (run (as_llc LDeleteRKey parseDeleteRKey) (hexs "092c0000010000000000155d0000000000000000000000000000000000000000000000000000000000000000"))
  = Some (("LLC Delete RKey: Type: 9, Length: 44, Reply: false, Negative Response: false, Count: 1, Error Mask: 0b0, RKey 0: 5469, RKey 1: 0, RKey 2: 0, RKey 3: 0, RKey 4: 0, RKey 5: 0, RKey 6: 0, RKey 7: 0" ++ nl ++ ""), ("LLC Delete RKey: Type: 9, Length: 44, Reserved: 0x0, Reply: false, Reserved: 0x0, Negative Response: false, Reserved: 0x0, Count: 1, Error Mask: 0b0, Reserved: 0x0000, RKey 0: 5469, RKey 1: 0, RKey 2: 0, RKey 3: 0, RKey 4: 0, RKey 5: 0, RKey 6: 0, RKey 7: 0, Reserved: 0x00000000" ++ nl ++ ""), ("00000000  09 2c 00 00 01 00 00 00  00 00 15 5d 00 00 00 00  |.,.........]....|" ++ nl ++ "00000010  00 00 00 00 00 00 00 00  00 00 00 00 00 00 00 00  |................|" ++ nl ++ "00000020  00 00 00 00 00 00 00 00  00 00 00 00              |............|" ++ nl ++ ""), TypeDeleteRKey).
Proof. vm_compute. reflexivity. Qed.

(** pkg/llc/llc_testlink_test.go:10 TestTestLink *)
Example golden_TestTestLink :
  option_map show_llc (run (as_llc LTestLink ParseTestLink) (hexs "072c00800000000000000000000000000000000000"))
  = Some (("LLC Test Link: Type 7, Length: 44, Reply: true, User Data: 0x00000000000000000000000000000000" ++ nl ++ ""), ("LLC Test Link: Type 7, Length: 44, Reserved: 0x0, Reply: true, Reserved: 0x0, User Data: 0x00000000000000000000000000000000, Reserved: 0x000000000000000000000000000000000000000000000000" ++ nl ++ ""), ("00000000  07 2c 00 80 00 00 00 00  00 00 00 00 00 00 00 00  |.,..............|" ++ nl ++ "00000010  00 00 00 00 00                                    |.....|" ++ nl ++ ""), TypeTestLink).
Proof. vm_compute. reflexivity. Qed.

(** pkg/llc/other_test.go:10 TestOther *)
Example golden_TestOther :
  option_map show_llc (run (as_llc LOther ParseOther) (hexs "0a000001"))
  = Some (("Other Payload" ++ nl ++ ""), ("Other Payload" ++ nl ++ ""), ("00000000  0a 00 00 01                                       |....|" ++ nl ++ ""), TypeOther).
Proof. vm_compute. reflexivity. Qed.

(** pkg/roce/bth_test.go:10 TestBTH *)
Example golden_TestBTH :
  option_map (fun b => (BTH_String b, BTH_Reserved b, BTH_Hex b, BTH_GetType b))
    (run ParseBTH (hexs "04c0ffff00000107807b2894"))
  = Some (("BTH: OpCode: 0b100 (RC SEND Only), SE: true, M: true, Pad: 0, TVer: 0, PKey: 65535, FECN: false, BECN: false, DestQP: 263, A: true, PSN: 8071316" ++ nl ++ ""), ("BTH: OpCode: 0b100 (RC SEND Only), SE: true, M: true, Pad: 0, TVer: 0, PKey: 65535, FECN: false, BECN: false, Res: 0x0, DestQP: 263, A: true, Res: 0x0, PSN: 8071316" ++ nl ++ ""), ("00000000  04 c0 ff ff 00 00 01 07  80 7b 28 94              |.........{(.|" ++ nl ++ ""), typeBTH).
Proof. vm_compute. reflexivity. Qed.

(** pkg/roce/grh_test.go:10 TestGRH *)
Example golden_TestGRH :
  option_map (fun g => (GRH_String (fun _ => "?") g, GRH_Reserved (fun _ => "?") g, GRH_Hex g, GRH_GetType g))
    (run ParseGRH (hexs "60200000003c1b01fe800000000000009a039bfffeabcdeffe800000000000009a039bfffeabcdef"))
  = Some (("GRH: Version: 6, Traffic Class: 2, Flow Label: 0, Length: 60, Next Header: BTH, Hop Limit: 1, Source: fe80::9a03:9bff:feab:cdef, Destination: fe80::9a03:9bff:feab:cdef" ++ nl ++ ""), ("GRH: Version: 6, Traffic Class: 2, Flow Label: 0, Length: 60, Next Header: BTH, Hop Limit: 1, Source: fe80::9a03:9bff:feab:cdef, Destination: fe80::9a03:9bff:feab:cdef" ++ nl ++ ""), ("00000000  60 20 00 00 00 3c 1b 01  fe 80 00 00 00 00 00 00  |` ...<..........|" ++ nl ++ "00000010  9a 03 9b ff fe ab cd ef  fe 80 00 00 00 00 00 00  |................|" ++ nl ++ "00000020  9a 03 9b ff fe ab cd ef                           |........|" ++ nl ++ ""), typeGRH).
Proof. vm_compute. reflexivity. Qed.

(** pkg/clc/clc_proposal_v2_test.go:10 TestEIDString (bytes written out by hand) *)
Example golden_TestEIDString :
  EID_String (zeros 32) = "" /\
  EID_String (repeat x31 8 ++ zeros 24)%list = "11111111" /\
  EID_String (repeat x31 32) = "11111111111111111111111111111111" /\
  EID_String (repeat x31 8 ++ repeat x20 24)%list = "11111111".
Proof. vm_compute. repeat split. Qed.

(** pkg/clc/tcp_option_test.go:9 TestCheckSMCOption (by hand) *)
Example golden_TestCheckSMCOption :
  CheckSMCOption [] = false /\
  CheckSMCOption [{| OptionType := 254; OptionLength := 6; OptionData := SMCREyecatcher |}] = true.
Proof. vm_compute. repeat split. Qed.
