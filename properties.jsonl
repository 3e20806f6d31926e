{"id": "C01", "title": "NewMessage classifies every buffer exactly", "statement": "For every buffer of at least 8 bytes, clc.NewMessage returns the message type determined by eyecatcher, type byte, version nibble and path bits, together with the big-endian length in bytes 5-6; it returns (nil, 0) exactly when the eyecatcher is neither SMC-R nor SMC-D, the length exceeds 1024, the type is not 1..4, or an Accept/Confirm has a path other than SMC-R/SMC-D.", "quantifier": "all buffers with at least 8 bytes, all contents, all backing arrays", "why_tests_cant": "2^64 header values; the unit tests exercise about fifteen of them", "anchors": ["pkg/clc/message.go:NewMessage", "pkg/clc/eyecatcher.go:HasEyecatcher"]}
{"id": "C02", "title": "NewMessage never panics once 8 bytes are there, and exactly when it does otherwise", "statement": "clc.NewMessage does not panic on any buffer with len >= 8. With fewer bytes it panics in precisely characterised cases (which depend on the slice capacity), so 8 is the sharp bound a caller must guarantee.", "quantifier": "all slices (any length, any capacity, any content)", "why_tests_cant": "tests only use complete messages; slice bounds in Go depend on capacity as well as length", "anchors": ["pkg/clc/message.go:NewMessage", "pkg/clc/eyecatcher.go:HasEyecatcher"]}
{"id": "C03", "title": "CLC SMC-R Accept/Confirm decode follows the wire layout", "statement": "For every buffer of at least 68 bytes whose declared length is at least 68, AcceptSMCR.Parse/ConfirmSMCR.Parse yields exactly the values found at the RFC 7609 bit positions for every field, reserved fields included, and takes the trailer from the last four bytes of the data following the fields.", "quantifier": "all buffers, all field values, all previous receiver states", "why_tests_cant": "68 bytes of free input; a swapped or shifted field is only visible for particular values", "anchors": ["pkg/clc/clc_accept_smcr.go:AcceptSMCR.Parse", "pkg/clc/clc_confirm_smcr.go:ConfirmSMCR", "pkg/clc/header.go:Header.Parse"]}
{"id": "C04", "title": "CLC SMC-D v1 Accept/Confirm decode follows the wire layout", "statement": "For every buffer of at least 48 bytes whose declared length is at least 48, AcceptSMCD.Parse/ConfirmSMCD.Parse yields exactly the values found at the wire bit positions for every field, reserved fields included.", "quantifier": "all buffers, all field values, all previous receiver states", "why_tests_cant": "48 bytes of free input", "anchors": ["pkg/clc/clc_accept_smcd.go:AcceptSMCD.Parse", "pkg/clc/clc_confirm_smcd.go:ConfirmSMCD"]}
{"id": "C05", "title": "CLC SMC-D v2 Accept/Confirm decode follows the wire layout, FCE exactly when length is 114", "statement": "For every buffer of at least 78 bytes with declared length >= 78 the fixed fields have the values at the wire positions. The First Contact Extension fields are taken from the message exactly when the declared length is 114; for any other declared length they keep their previous values.", "quantifier": "all buffers, all field values, all previous receiver states", "why_tests_cant": "both variants with all field contents; tests cover one literal for each", "anchors": ["pkg/clc/clc_accept_smcd_v2.go:AcceptSMCDv2.Parse", "pkg/clc/clc_confirm_smcd_v2.go:ConfirmSMCDv2"]}
{"id": "C06", "title": "CLC Decline (v1 and v2) decode follows the wire layout", "statement": "For every buffer of at least 28 bytes whose declared length is at least 28, Decline.Parse and DeclineV2.Parse yield exactly the wire field values; v2 splits the first reserved byte into OS type (high nibble) and reserved (low nibble).", "quantifier": "all buffers, all field values, all previous receiver states", "why_tests_cant": "28 bytes of free input", "anchors": ["pkg/clc/clc_decline.go:Decline.Parse", "pkg/clc/clc_decline_v2.go:DeclineV2.Parse"]}
{"id": "C07", "title": "CLC Proposal v1 decode follows the wire layout for every IP area offset and prefix count", "statement": "For every complete v1 Proposal (buffer length = declared length >= 52), every IP area offset that leaves room for the IP area, and every prefix count, Proposal.Parse yields the wire values; the IPv6 prefixes it appends are exactly the first min(count, number that fit before the trailer) 17-byte entries, and a log entry about a too big count appears exactly when not all fit.", "quantifier": "all message lengths, offsets, prefix counts and contents", "why_tests_cant": "the number and position of the variable parts is input controlled", "anchors": ["pkg/clc/clc_proposal.go:Proposal.Parse"]}
{"id": "C08", "title": "CLC Proposal v2 decode follows the wire layout for every combination of optional parts", "statement": "For every complete v2 Proposal, ProposalV2.Parse yields the wire values of the fixed part, of the IP area exactly when Path is not 'none', of the v2 extension and the EIDs exactly when Pathv2 is not 'none', and of the SMC-D v2 extension and GIDs exactly when Pathv2 is SMC-D or both, each located directly behind the previous part; at most as many array entries as fit before the trailer are read.", "quantifier": "all message lengths, path combinations, counts and contents", "why_tests_cant": "four nested variable-length parts with input controlled counts", "anchors": ["pkg/clc/clc_proposal_v2.go:ProposalV2.Parse"]}
{"id": "C09", "title": "Declared length below the minimum: nothing but raw bytes and header changes, error is logged", "statement": "If a complete header declares a length below the minimum of its message type, Parse leaves every field except raw bytes and header untouched, does not look at the rest of the buffer, and logs one 'message too short' line naming Accept or Confirm according to the type byte plus one dump of the declared bytes.", "quantifier": "all seven CLC message types, all buffers, all declared lengths below the minimum, all previous receiver states", "why_tests_cant": "all lengths x all contents x all previous states", "anchors": ["pkg/clc/clc_accept_smcr.go:AcceptSMCR.Parse", "pkg/clc/clc_accept_smcd.go:AcceptSMCD.Parse", "pkg/clc/clc_accept_smcd_v2.go:AcceptSMCDv2.Parse", "pkg/clc/clc_decline.go:Decline.Parse", "pkg/clc/clc_decline_v2.go:DeclineV2.Parse", "pkg/clc/clc_proposal.go:Proposal.Parse", "pkg/clc/clc_proposal_v2.go:ProposalV2.Parse", "pkg/clc/errdump.go:errDump"]}
{"id": "C10", "title": "Fixed-format CLC messages: Parse never panics on a completely received message", "statement": "For Accept/Confirm (SMC-R, SMC-D v1, SMC-D v2) and Decline (v1, v2): if the buffer holds at least the declared number of bytes and at least 8, Parse does not panic, whatever the content.", "quantifier": "all buffers and declared lengths", "why_tests_cant": "panic freedom is a for-all statement over attacker-controlled bytes", "anchors": ["pkg/clc/clc_accept_smcr.go", "pkg/clc/clc_accept_smcd.go", "pkg/clc/clc_accept_smcd_v2.go", "pkg/clc/clc_decline.go", "pkg/clc/clc_decline_v2.go"]}
{"id": "C11", "title": "Exact panic condition of the fixed-format CLC parsers", "statement": "Each of these parsers panics exactly when fewer than 8 bytes are given, or the declared length is below the minimum and exceeds the buffer's capacity, or the declared length is at least the minimum and the buffer is shorter than the fields (for SMC-D v2: buffer shorter than 78 with declared length exceeding capacity, or declared length 114 with a buffer shorter than 114).", "quantifier": "all slices: any length, capacity, content and declared length", "why_tests_cant": "captures are truncated at arbitrary points; tests never truncate", "anchors": ["pkg/clc/clc_accept_smcr.go", "pkg/clc/clc_accept_smcd.go", "pkg/clc/clc_accept_smcd_v2.go", "pkg/clc/clc_decline.go", "pkg/clc/clc_decline_v2.go", "pkg/clc/trailer.go"]}
{"id": "C12", "title": "When a completely received v1 Proposal crashes the parser", "statement": "A user expects that parsing a completely received v1 Proposal never panics. The code violates this: it panics exactly when the declared length is at least 52, the IP area offset is 40 and the slice has capacity below 80, because the announced SMC-D area is read before its bounds are checked. On every other complete message it returns.", "quantifier": "all complete v1 Proposal messages", "why_tests_cant": "needs the one combination of offset and length that the tests do not contain", "anchors": ["pkg/clc/clc_proposal.go:Proposal.Parse"]}
{"id": "C13", "title": "When a completely received v2 Proposal crashes the parser", "statement": "A user expects that parsing a completely received v2 Proposal never panics. The code violates this: it panics exactly when the v2 extension is reached and more than 8 EIDs, or the SMC-D v2 extension is reached and more than 8 GIDs, are announced and fit into the message. In particular it never panics if both counts are at most 8. For truncated buffers the exact condition is given as well, in terms of length, capacity and announced counts.", "quantifier": "all v2 Proposal messages, complete or truncated, all slices", "why_tests_cant": "needs counts that tests do not contain", "anchors": ["pkg/clc/clc_proposal_v2.go:ProposalV2.Parse"]}
{"id": "C14", "title": "CLC trailer check", "statement": "After a complete parse the trailer is the last four bytes of the buffer passed in, and an 'invalid trailer' log entry with a dump of exactly these four bytes is written if and only if they are neither the SMC-R nor the SMC-D eyecatcher.", "quantifier": "all buffers with at least four bytes", "why_tests_cant": "2^32 trailers", "anchors": ["pkg/clc/trailer.go:Trailer.Parse", "pkg/clc/eyecatcher.go"]}
{"id": "C15", "title": "What an earlier message leaves behind when a CLC object is parsed into again", "statement": "Parsing a complete Accept, Confirm or Decline into an already used object gives the same object as parsing it into a fresh one, except that the FCE fields of an SMC-D v2 object survive a message whose length is not 114. For Proposals the IPv6 prefixes of the earlier message stay in front of the new ones, and the optional parts survive a message without them. Both exceptions show up in String().", "quantifier": "all buffers and all previous object states", "why_tests_cant": "quantifies over histories of an object", "anchors": ["pkg/clc/clc_proposal.go:Proposal.Parse", "pkg/clc/clc_proposal_v2.go:ProposalV2.Parse", "pkg/clc/clc_accept_smcd_v2.go:AcceptSMCDv2.Parse"]}
{"id": "C16", "title": "CLC parsers use only the bytes inside the buffer they are given", "statement": "The decoded fields of Accept, Confirm and Decline messages depend only on buf[0:len(buf)], never on bytes of the backing array beyond it. For Proposals this is not so: bytes between len and cap of the slice are decoded as fields, even for some completely received v1 messages; it holds for v2 Proposals that are completely received and for v1 Proposals whose SMC-D area is too.", "quantifier": "all memories, all slices, all pairs of memories that agree on the visible bytes", "why_tests_cant": "a hyperproperty (two runs), and it depends on slice capacity", "anchors": ["pkg/clc/clc_accept_smcr.go", "pkg/clc/clc_accept_smcd.go", "pkg/clc/clc_decline.go", "pkg/clc/clc_proposal.go:Proposal.Parse"]}
{"id": "C17", "title": "CLC Dump shows the caller's current buffer, LLC Hex and BTH Hex show the buffer as it was parsed", "statement": "After Parse, clc Message.Dump is the hex dump of the caller's buffer as it is at the time of Dump (the bytes are not copied), whereas llc Message.Hex and BTH.Hex are the hex dump of the bytes at the time of Parse, whatever is later written to the buffer.", "quantifier": "all messages, all buffers, all later memory states", "why_tests_cant": "quantifies over later mutations of the buffer", "anchors": ["pkg/clc/raw.go", "pkg/llc/base.go:BaseMsg.setRaw", "pkg/roce/bth.go:BTH.Parse"]}
{"id": "C18", "title": "Hex dumps lose nothing", "statement": "From the text of Dump()/Hex() all bytes of the message can be recovered: two different byte sequences never have the same dump, for any length. The layout is exact: per sixteen bytes one line with an eight-digit offset, the bytes in hexadecimal in two columns, and the printable characters between bars.", "quantifier": "all byte sequences of any length", "why_tests_cant": "unbounded inputs; pairwise statement", "anchors": ["pkg/clc/raw.go:Raw.Dump", "pkg/llc/base.go:BaseMsg.Hex", "pkg/roce/bth.go:BTH.Hex"]}
{"id": "C19", "title": "String() and Reserved() of CLC messages show every field, under the right label, in wire order", "statement": "For every CLC message type, String() is the header text followed by exactly the labelled values of all non-reserved fields in order, and Reserved() is the same with the reserved fields inserted at their place; optional parts appear exactly under the documented conditions.", "quantifier": "all field values of all CLC message types", "why_tests_cant": "argument order and label mix-ups show only for particular values; all values are claimed", "anchors": ["pkg/clc/clc_accept_smcr.go:AcceptSMCR.String", "pkg/clc/clc_accept_smcd.go:AcceptSMCD.String", "pkg/clc/clc_accept_smcd_v2.go:AcceptSMCDv2.String", "pkg/clc/clc_decline.go:Decline.String", "pkg/clc/clc_decline_v2.go:DeclineV2.String", "pkg/clc/clc_proposal.go:Proposal.String", "pkg/clc/clc_proposal_v2.go:ProposalV2.String", "pkg/clc/clc_accept_smcr.go:AcceptSMCR.Reserved", "pkg/clc/clc_accept_smcd.go:AcceptSMCD.Reserved", "pkg/clc/clc_accept_smcd_v2.go:AcceptSMCDv2.Reserved", "pkg/clc/clc_decline.go:Decline.Reserved", "pkg/clc/clc_decline_v2.go:DeclineV2.Reserved", "pkg/clc/clc_proposal.go:Proposal.Reserved", "pkg/clc/clc_proposal_v2.go:ProposalV2.Reserved"]}
{"id": "C20", "title": "The First Contact Extension shown for an SMC-D v2 message", "statement": "String() and Reserved() of an SMC-D v2 Accept/Confirm show no FCE if the declared length is below 114, the FCE of the message if it is exactly 114, and for longer messages not theirs but the FCE values the object held before (all zero in a new object), because Parse reads an FCE only for length 114 while String prints one for every length >= 114.", "quantifier": "all declared lengths", "why_tests_cant": "needs declared lengths the tests do not contain", "anchors": ["pkg/clc/clc_accept_smcd_v2.go:fceString", "pkg/clc/clc_accept_smcd_v2.go:AcceptSMCDv2.Parse"]}
{"id": "C21", "title": "EID text is the longest prefix without NUL and without trailing blanks", "statement": "EID.String() is a prefix of the 32 bytes, contains no NUL, does not end in a blank, and nothing but blanks is cut off between it and the first NUL (or the end).", "quantifier": "all 32-byte EIDs", "why_tests_cant": "256^32 inputs", "anchors": ["pkg/clc/clc_proposal_v2.go:EID.String"]}
{"id": "C22", "title": "Eyecatcher and TCP option recognition is exact", "statement": "HasEyecatcher is true exactly for buffers starting with e2d4c3d9 or e2d4c3c4; CheckSMCOption is true exactly when some TCP option has kind 254, length 6 and data e2d4c3d9, wherever in the option list it is.", "quantifier": "all buffers of at least 4 bytes; all option lists of any length", "why_tests_cant": "unbounded option lists", "anchors": ["pkg/clc/eyecatcher.go:HasEyecatcher", "pkg/clc/tcp_option.go:CheckSMCOption"]}
{"id": "C23", "title": "Code names are total and unambiguous", "statement": "For every code value, MsgType, Path, OSType, PeerDiagnosis, QPMTU, AddLinkRsnCode and DelLinkRsnCode have a text; values with a documented meaning get their documented name, different documented codes never share a text, and all others are reported as unknown/reserved.", "quantifier": "all 2^8 resp. 2^32 code values", "why_tests_cant": "2^32 values", "anchors": ["pkg/clc/header.go", "pkg/clc/clc_decline.go:PeerDiagnosis.String", "pkg/clc/clc_decline_v2.go:OSType.String", "pkg/llc/llc_addlink.go", "pkg/llc/llc_deletelink.go"]}
{"id": "C24", "title": "RMBE/DMBE size text", "statement": "For every size code that a parsed message can contain (0..15) the text shows 16384 * 2^code, and no other code value can result from parsing. For the other values of the type the text shows 2^(code+14) with the exponent modulo 256, as far as it fits into a 64-bit integer, else -2^63 (code 49) or 0.", "quantifier": "all messages, all size codes", "why_tests_cant": "must hold for every parsed message", "anchors": ["pkg/clc/rmbesize.go:RMBESize.String"]}
{"id": "C25", "title": "ParseLLC dispatches by length and type byte only", "statement": "Whenever ParseLLC returns, it returns an 'other' message exactly for payloads whose length is not 44 or whose type byte is not 1,2,3,4,6,7,8,9,254; otherwise the message type that belongs to the type byte.", "quantifier": "all payloads of any length", "why_tests_cant": "all lengths x all type bytes", "anchors": ["pkg/llc/llc.go:ParseLLC", "pkg/llc/other.go"]}
{"id": "C26", "title": "ParseLLC panics on every Confirm RKey Continuation message, and on nothing else", "statement": "A payload parser should not panic on any payload, but ParseLLC panics exactly on the 44-byte payloads with type byte 8 (Confirm RKey Continuation), because that parser expects 45 bytes; on all others it returns.", "quantifier": "all payloads of any length", "why_tests_cant": "for-all over untrusted network input; the unit test of this type uses a 45-byte buffer", "anchors": ["pkg/llc/llc.go:ParseLLC", "pkg/llc/llc_confirmrkeycont.go:ConfirmRKeyCont.Parse"]}
{"id": "C27", "title": "LLC and CDC decode follows the wire layout", "statement": "For every 44-byte LLC/CDC message (45 for Confirm RKey Continuation) each decoded field, reserved fields included, has the value at its bit position; two messages of the same type and full size with the same decoded fields are equal.", "quantifier": "all message contents of all LLC/CDC types", "why_tests_cant": "44 bytes of free input per type", "anchors": ["pkg/llc/llc_confirmlink.go", "pkg/llc/llc_addlink.go", "pkg/llc/llc_addlinkcont.go", "pkg/llc/llc_confirmrkey.go", "pkg/llc/llc_confirmrkeycont.go", "pkg/llc/llc_deletelink.go", "pkg/llc/llc_deleterkey.go", "pkg/llc/llc_testlink.go", "pkg/llc/cdc.go"]}
{"id": "C28", "title": "Exact input sizes the exported LLC parse functions accept", "statement": "Each exported ParseX function of package llc panics exactly when the buffer is shorter than that message's last mandatory field; longer buffers are accepted.", "quantifier": "all slices of any length and capacity", "why_tests_cant": "for-all over lengths", "anchors": ["pkg/llc/llc_addlink.go:ParseAddLink", "pkg/llc/llc_addlinkcont.go:ParseAddLinkCont", "pkg/llc/llc_confirmlink.go:ParseConfirm", "pkg/llc/llc_confirmrkey.go:ParseConfirmRKey", "pkg/llc/llc_confirmrkeycont.go:ParseConfirmRKeyCont", "pkg/llc/llc_deletelink.go:ParseDeleteLink", "pkg/llc/llc_testlink.go:ParseTestLink", "pkg/llc/other.go:ParseOther", "pkg/llc/cdc.go:ParseCDC"]}
{"id": "C29", "title": "LLC GetType and Length", "statement": "For every payload on which ParseLLC returns, GetType() is the payload's type byte and the length field its second byte for a recognised 44-byte message, and GetType() is 0x101 with the real payload length for an 'other' message.", "quantifier": "all payloads", "why_tests_cant": "all lengths x all contents", "anchors": ["pkg/llc/base.go", "pkg/llc/other.go"]}
{"id": "C30", "title": "String() and Reserved() of LLC/CDC/BTH messages show every field", "statement": "For every LLC, CDC and BTH message String() shows exactly the non-reserved fields in order under their labels and Reserved() additionally the reserved ones, with two exceptions: both texts of Add Link Continuation show only the second RKey pair, and Reserved() of Add Link omits the two bytes behind the MAC and ends in ten reserved bytes although the message has eight.", "quantifier": "all field values of all types", "why_tests_cant": "pairwise/for-all statement over field values", "anchors": ["pkg/llc/llc_addlink.go:AddLink.String", "pkg/llc/llc_addlinkcont.go:AddLinkCont.String", "pkg/llc/llc_confirmlink.go:ConfirmLink.String", "pkg/llc/llc_confirmrkey.go:ConfirmRKey.String", "pkg/llc/llc_confirmrkeycont.go:ConfirmRKeyCont.String", "pkg/llc/llc_deletelink.go:DeleteLink.String", "pkg/llc/llc_deleterkey.go:deleteRKey.String", "pkg/llc/llc_testlink.go:TestLink.String", "pkg/llc/other.go:Other.String", "pkg/llc/cdc.go:CDC.String", "pkg/llc/llc_addlink.go:AddLink.Reserved", "pkg/llc/llc_addlinkcont.go:AddLinkCont.Reserved", "pkg/llc/llc_confirmlink.go:ConfirmLink.Reserved", "pkg/llc/llc_confirmrkey.go:ConfirmRKey.Reserved", "pkg/llc/llc_confirmrkeycont.go:ConfirmRKeyCont.Reserved", "pkg/llc/llc_deletelink.go:DeleteLink.Reserved", "pkg/llc/llc_deleterkey.go:deleteRKey.Reserved", "pkg/llc/llc_testlink.go:TestLink.Reserved", "pkg/llc/other.go:Other.Reserved", "pkg/llc/cdc.go:CDC.Reserved", "pkg/roce/bth.go:String"]}
{"id": "C31", "title": "RoCE packets are partitioned without loss or overlap", "statement": "ParseRoCEv1 splits every packet of at least 56 bytes into 40 bytes GRH, 12 bytes BTH, payload and 4 bytes ICRC whose concatenation is the packet; ParseRoCEv2 does the same for at least 16 bytes without GRH. The payload is handed to LLC parsing unchanged.", "quantifier": "all packets of any length", "why_tests_cant": "unbounded packet lengths", "anchors": ["pkg/roce/roce.go:ParseRoCEv1", "pkg/roce/roce.go:ParseRoCEv2"]}
{"id": "C32", "title": "Exact panic condition of the RoCE parsers", "statement": "ParseRoCEv1 (v2) panics exactly when the packet is shorter than 56 (16) bytes or carries a 44-byte payload of type 8.", "quantifier": "all slices", "why_tests_cant": "for-all over untrusted input", "anchors": ["pkg/roce/roce.go:ParseRoCEv1", "pkg/roce/roce.go:ParseRoCEv2"]}
{"id": "C33", "title": "BTH decode follows the wire layout", "statement": "For every buffer of at least 12 bytes every BTH field has the value at its bit position, and the 12 bytes can be reconstructed from the fields; shorter buffers panic.", "quantifier": "all buffers", "why_tests_cant": "12 bytes of free input", "anchors": ["pkg/roce/bth.go:BTH.Parse"]}
{"id": "C34", "title": "BTH opcode names are total and follow the transport/operation split", "statement": "For every opcode byte the text is its binary value and a name determined by the top three bits (service) and low five bits (operation); the operation tables are never indexed out of range.", "quantifier": "all 256 opcodes", "why_tests_cant": "exhaustive statement; tests check one opcode", "anchors": ["pkg/roce/bth.go:Opcode.String"]}
{"id": "C35", "title": "GRH decode", "statement": "For every 40-byte GRH, the fields are the IPv6 header fields at their bit positions, parsing never panics for any buffer, and the next header is shown as BTH exactly for 0x1B.", "quantifier": "all buffers", "why_tests_cant": "40 bytes of free input", "anchors": ["pkg/roce/grh.go:GRH.Parse", "pkg/roce/grh.go:GRH.String"]}
{"id": "C36", "title": "The HTTP output buffer is linearizable", "statement": "Under every interleaving of any number of goroutines calling Write, CopyBuffer and Reset, every completed call returns what some sequential order of the calls consistent with real time would return; in particular every copy is the exact concatenation of all writes ordered between the last reset and the copy, never a torn write.", "quantifier": "all numbers of goroutines, all programs, all interleavings, any length", "why_tests_cant": "schedules cannot be enumerated by tests", "anchors": ["pkg/http/buffer.go:Buffer.Write", "pkg/http/buffer.go:Buffer.CopyBuffer", "pkg/http/buffer.go:Buffer.Reset"]}
{"id": "C37", "title": "Copies of the HTTP buffer are isolated", "statement": "The buffer returned by CopyBuffer never changes because of later writes to or resets of the original.", "quantifier": "all later operations and interleavings", "why_tests_cant": "for-all over schedules", "anchors": ["pkg/http/buffer.go:Buffer.CopyBuffer"]}
{"id": "C38", "title": "What a flushing HTTP request removes, and what it delivers", "statement": "The reset of a flushing request removes exactly the bytes the request copied followed by all bytes written between its copy and its reset (if another reset comes in between: the bytes written after that), while the client gets a prefix of the copy. So nothing is lost if nothing is written in between and the response arrives completely. 'Every byte removed was part of the response' is false in general: a write in the window between copy and reset is lost although its Write succeeded and all responses were complete, and a response that fails half-way flushes all the same.", "quantifier": "all interleavings of any number of writers and requests, all partial deliveries", "why_tests_cant": "a race window that a test practically never hits", "anchors": ["pkg/http/http.go:handleRequest"]}
{"id": "C39", "title": "A request flushes exactly when its first flush parameter is 'true'", "statement": "handleRequest resets the buffer if and only if the first well-formed 'flush' parameter of the query string (after splitting at & and =, dropping pairs with ';' or bad escapes, and unescaping) is exactly 'true'.", "quantifier": "all query strings", "why_tests_cant": "unbounded strings", "anchors": ["pkg/http/http.go:handleRequest"]}
{"id": "C40", "title": "Dial and Listen open the socket family of the first resolved address", "statement": "For every address whose first resolved IP has an IPv4 form (including IPv4-mapped IPv6) the socket is created with protocol 0 and connected/bound to exactly these four bytes and the looked-up port; otherwise with protocol 1 and the sixteen bytes, the port and the zone's interface index.", "quantifier": "all address strings, all resolver results, all interfaces", "why_tests_cant": "depends on name resolution results that tests do not control", "anchors": ["pkg/socket/socket.go:createSockaddr", "pkg/socket/dial.go:Dial", "pkg/socket/listen.go:Listen"]}
{"id": "C41", "title": "How Dial and Listen end, for every address and environment", "statement": "Dial and Listen exit the process exactly when the address cannot be split into host and port or the port is unknown, panic exactly when the resolver succeeds without an address, and in all other cases return either a connection/listener or an error, never both and never neither; for an address that cannot be resolved the error is 'Error parsing IP' and no system call is made. The expectation that every failure is reported as an error is therefore wrong.", "quantifier": "all address strings, all environments (resolver, services, interfaces), all system call results", "why_tests_cant": "process exit cannot be observed inside a test; environments cannot be enumerated", "anchors": ["pkg/socket/socket.go:parseAddress", "pkg/socket/socket.go:parseIP", "pkg/socket/dial.go:Dial", "pkg/socket/listen.go:Listen"]}
{"id": "C42", "title": "host:port addresses round-trip", "statement": "For every host without brackets and every port text without colon or bracket, the address formed as host:port (or [host]:port if the host contains a colon) is split back into exactly this host and port; an empty host becomes 0.0.0.0 and an empty port 0.", "quantifier": "all hosts and ports", "why_tests_cant": "unbounded strings", "anchors": ["pkg/socket/socket.go:parseAddress"]}
{"id": "C43", "title": "Dial and Listen close their own socket exactly once, and their os.File closes it again", "statement": "In every interleaving of any number of Dial and Listen calls, other descriptor activity and failures at any step, as long as no finalizer runs: a call closes only the socket it created, after it returned nothing of it is left open but the returned connection, and that stays open until its user closes it. But every successful call leaves an os.File behind whose finalizer closes the same descriptor number again, so that an unrelated descriptor (or another call's connection) can be closed by the garbage collector, or by the deferred close if the finalizer runs first.", "quantifier": "all failure points, all garbage collection points, all other descriptor activity in the process", "why_tests_cant": "depends on GC timing and descriptor reuse", "anchors": ["pkg/socket/dial.go:Dial", "pkg/socket/listen.go:Listen"]}
{"id": "C44", "title": "LLC parse results do not depend on what the object held before", "statement": "Parsing a complete LLC/CDC message into an object that was used before gives the same object as parsing into a new one, for every type except Add Link: there the last two of the ten bytes of the trailing reserved array are not part of a 44-byte message and keep the bytes of an earlier, longer buffer. For buffers that are long enough not to panic but shorter than a message, exactly the reserved bytes behind the end keep their old values.", "quantifier": "all previous receiver states, all buffers of any length", "why_tests_cant": "needs sequences of parses into one object; the tests parse each object once", "anchors": ["pkg/llc/llc_addlink.go:AddLink.Parse", "pkg/llc/llc.go:ParseLLC", "pkg/llc/cdc.go:CDC.Parse"]}
{"id": "C45", "title": "LLC and RoCE parsers use only the bytes inside the buffer they are given", "statement": "The result of every LLC parse method, of ParseLLC, ParseRoCEv1 and ParseRoCEv2, panics included, depends only on the visible bytes of the slice, never on what the backing array holds between length and capacity.", "quantifier": "all slices, all pairs of memories that agree on the visible bytes", "why_tests_cant": "slices with spare capacity and different hidden contents are not covered by tests", "anchors": ["pkg/llc/llc.go:ParseLLC", "pkg/roce/roce.go:ParseRoCEv1", "pkg/roce/roce.go:ParseRoCEv2"]}
{"id": "C46", "title": "The ICRC of a parsed RoCE packet is a live view of the caller's buffer", "statement": "RoCE.ICRC always shows the current last four bytes of the buffer passed to ParseRoCEv1/v2: later writes to the buffer change it (unlike the BTH, GRH and LLC parts, which are copies).", "quantifier": "all packets, all later memory contents", "why_tests_cant": "aliasing is only visible when the buffer is reused", "anchors": ["pkg/roce/roce.go:ParseRoCEv1", "pkg/roce/roce.go:ParseRoCEv2"]}
{"id": "C47", "title": "EIDs and GIDs shown for a v2 Proposal", "statement": "The EID and GID areas in the text of a v2 Proposal show exactly the entries contained in the message if all announced entries are contained. If fewer are contained, as many entries as announced are shown all the same, the missing ones as empty EIDs and zero GIDs.", "quantifier": "all contents of the areas, all announced numbers", "why_tests_cant": "announced and contained numbers never differ in the tests", "anchors": ["pkg/clc/clc_proposal_v2.go:ProposalV2.String", "pkg/clc/clc_proposal_v2.go:ProposalV2.Reserved"]}
{"id": "C48", "title": "Offsets in a v2 Proposal are not used to find its parts", "statement": "The IP area of a v2 Proposal is decoded correctly if its IP Area Offset is 40 (byte 80); a message with another valid offset is decoded without complaint, but the IP area fields are not those at the offset. Likewise the SMCv2 Extension Offset has no influence on where the extension is taken from. In general, two completely received messages that differ in the three offset fields only are parsed with the same outcome, the same logs up to the dumped bytes, and the same object but for those fields.", "quantifier": "all v2 Proposals", "why_tests_cant": "all test messages have their parts back to back", "anchors": ["pkg/clc/clc_proposal_v2.go:ProposalV2.Parse"]}
{"id": "C49", "title": "No call of the HTTP buffer can be stuck", "statement": "In every reachable state of any program, a Write, CopyBuffer or Reset that was called and did not return yet can be brought to its return by scheduling goroutines, without any new call; a goroutine that holds the mutex releases it by its own steps.", "quantifier": "all programs, all interleavings, any length", "why_tests_cant": "deadlock freedom is a statement about all schedules", "anchors": ["pkg/http/buffer.go:Buffer.Write", "pkg/http/buffer.go:Buffer.CopyBuffer", "pkg/http/buffer.go:Buffer.Reset"]}
{"id": "C50", "title": "Every byte written to the HTTP buffer is accounted for", "statement": "In every execution, the concatenation of all writes equals the bytes removed so far followed by the bytes still in the buffer; bytes are removed only by Reset calls of client code and by requests whose query asks for a flush.", "quantifier": "all programs, all interleavings, any length", "why_tests_cant": "a for-all over schedules and histories", "anchors": ["pkg/http/buffer.go:Buffer.Write", "pkg/http/buffer.go:Buffer.Reset", "pkg/http/http.go:handleRequest"]}
{"id": "C51", "title": "StartServer works once per process", "statement": "The first successful StartServer call of a process serves its listener; every further one panics (its handler pattern is registered already), and has by then replaced Server.Listener of the one global server by a listener nobody serves. A listen error exits the process.", "quantifier": "all sequences of calls, any number", "why_tests_cant": "a second call panics, so no test contains one", "anchors": ["pkg/http/http.go:StartServer"]}
{"id": "C52", "title": "Numbers in texts are exact", "statement": "Every number in a text is the shortest numeral of its value: decimal without sign or leading zero, hexadecimal and binary with prefix and lower case digits without leading zero, byte arrays as two hexadecimal digits per byte. A numeral has one value and a value has one numeral.", "quantifier": "all values of any size, all byte arrays", "why_tests_cant": "tests compare a few sample texts", "anchors": ["pkg/clc/clc_accept_smcr.go:AcceptSMCR.String", "pkg/llc/llc_deleterkey.go:deleteRKey.String", "pkg/roce/bth.go:BTH.Reserved"]}
{"id": "C53", "title": "Addresses in texts are canonical and lossless", "statement": "IP addresses in texts are written canonically (dotted decimal for IPv4 and IPv4-mapped addresses, RFC 5952 for all other IPv6 addresses: lower case groups without leading zeros, the first longest run of at least two zero groups replaced by ::); MAC addresses are two hexadecimal digits per byte with colons. Different addresses of one size have different texts.", "quantifier": "all IPv4, IPv6 and MAC addresses", "why_tests_cant": "2^128 addresses; the compression rule has many corner cases", "anchors": ["pkg/clc/clc_proposal.go:Proposal.String", "pkg/clc/clc_proposal.go:IPv6Prefix.String", "pkg/llc/llc_confirmlink.go:ConfirmLink.String"]}
{"id": "C54", "title": "Texts stand for one message only", "statement": "If two CLC messages that fill their buffers (fixed formats and v1 Proposals, known eyecatchers) have the same Reserved() text, they are the same bytes; if they have the same String() text, they agree in kind and all fields that are not reserved. The same holds for LLC and CDC messages with complete texts, and for the BTH. It does not hold for SMC-D v2 messages: bytes of an EID behind a NUL are not shown.", "quantifier": "all pairs of messages", "why_tests_cant": "injectivity is a property of pairs of inputs", "anchors": ["pkg/clc/clc_accept_smcr.go:AcceptSMCR.Reserved", "pkg/clc/clc_proposal.go:Proposal.Reserved", "pkg/clc/clc_decline.go:Decline.Reserved", "pkg/llc/llc_testlink.go:TestLink.Reserved", "pkg/llc/cdc.go:CDC.Reserved", "pkg/roce/bth.go:BTH.Reserved"]}
{"id": "C55", "title": "Every CLC parse stores the header and the buffer it was given", "statement": "Whenever Parse of a CLC message returns, whatever the object held before, whatever kind it is and however early it gave up, all eight header fields have the values at their bit positions in the buffer (flag and v2 path being two readings of the same bits), the raw bytes are the buffer and the type of the object is unchanged. The OS type of a v1 Decline stays 0 forever.", "quantifier": "all buffers of any length and capacity, all kinds, all objects reachable by any sequence of parses", "why_tests_cant": "tests parse complete messages of the matching type into new objects", "anchors": ["pkg/clc/header.go:Header.Parse", "pkg/clc/clc_decline.go:Decline.Parse", "pkg/clc/clc_proposal_v2.go:ProposalV2.Parse"]}
{"id": "C56", "title": "Sound messages, and only they, are decoded silently, end to end", "statement": "A completely received CLC message is parsed without panic and without any log output if and only if it is sound: at least the minimum length of its kind, every announced prefix, EID and GID inside the message, at most 8 EIDs and GIDs, a known trailer. For sound messages with known eyecatcher, at most 1024 bytes long, NewMessage, Parse, String, Reserved and Dump together yield the kind, the texts with all announced entries, and the dump of the received bytes.", "quantifier": "all messages of all kinds, all previous contents of the object", "why_tests_cant": "a for-all over the full pipeline; the only-if direction speaks about all malformed messages", "anchors": ["pkg/clc/message.go:NewMessage", "pkg/clc/clc_proposal.go:Proposal.Parse", "pkg/clc/clc_proposal_v2.go:ProposalV2.Parse", "pkg/clc/trailer.go:Trailer.Parse", "pkg/clc/clc_proposal_v2.go:ProposalV2.String"]}
{"id": "C57", "title": "Messages back to back in a buffer are read one by one", "statement": "If a buffer contains sound CLC messages one after another, followed by less than 8 further bytes, the loop that calls NewMessage, parses the first length bytes and continues behind them yields an object for every message and no other: each has the kind, the texts and the dump of its message alone, and nothing is logged, although NewMessage and Parse see slices whose capacity reaches into the following messages.", "quantifier": "all numbers, kinds and contents of messages, all buffers they can be in", "why_tests_cant": "tests parse one message per buffer", "anchors": ["pkg/clc/message.go:NewMessage", "pkg/clc/header.go:Header.Parse", "pkg/clc/clc_proposal.go:Proposal.Parse", "pkg/clc/clc_proposal_v2.go:ProposalV2.Parse"]}
{"id": "C58", "title": "Decoding inverts encoding", "statement": "If the field values of a CLC message (any kind, with any announced prefixes, EIDs and GIDs) are written one after another with the widths of the wire format, parsing the result gives an object whose fields are exactly these values; conversely the fields of an object parsed from a message that consists of nothing but its fields rebuild the message bit by bit. The same holds for LLC and CDC messages, the BTH and the GRH.", "quantifier": "all values of all fields, all numbers of entries", "why_tests_cant": "the library has no encoder, so no test can do a round trip", "anchors": ["pkg/clc/clc_proposal.go:Proposal.Parse", "pkg/clc/clc_proposal_v2.go:ProposalV2.Parse", "pkg/clc/clc_accept_smcd_v2.go:AcceptSMCDv2.Parse", "pkg/clc/clc_decline.go:Decline.Parse", "pkg/llc/llc.go:ParseLLC", "pkg/roce/bth.go:BTH.Parse", "pkg/roce/grh.go:GRH.Parse"]}
{"id": "C59", "title": "Texts determine the readable fields of every CLC message", "statement": "Two whole CLC messages of any kinds, including v2 Proposals and messages with EIDs, SEIDs and host names, that have the same Reserved() text agree in kind and in all fields, text fields being compared by their readable part (in front of a NUL and of trailing blanks). Same String() texts mean the same for all fields that are not reserved. If both messages fill their text fields with the same byte, equal Reserved() texts mean equal messages. This holds as long as readable parts contain no comma, closing bracket or newline; a pair of v2 Proposals whose EIDs contain commas has one text.", "quantifier": "all pairs of messages", "why_tests_cant": "injectivity is a property of pairs of inputs", "anchors": ["pkg/clc/clc_proposal_v2.go:ProposalV2.Reserved", "pkg/clc/clc_proposal_v2.go:ProposalV2.String", "pkg/clc/clc_accept_smcd_v2.go:AcceptSMCDv2.Reserved", "pkg/clc/clc_accept_smcd_v2.go:AcceptSMCDv2.String"]}
{"id": "C60", "title": "Incomplete LLC messages are decoded as far as they go", "statement": "If a buffer ends somewhere in the reserved field at the end of an LLC or CDC format, Parse returns, decodes every field in front of it from the buffer, fills the reserved field with the bytes that are there followed by the bytes the object held before, and keeps a copy of exactly the given bytes. The texts are those of the message completed in this way.", "quantifier": "all message types, all lengths from the panic limit on, all previous objects", "why_tests_cant": "tests parse complete messages into new objects", "anchors": ["pkg/llc/llc_confirmlink.go:ConfirmLink.Parse", "pkg/llc/llc_addlink.go:AddLink.Parse", "pkg/llc/llc_deletelink.go:DeleteLink.Parse", "pkg/llc/llc_testlink.go:TestLink.Parse", "pkg/llc/cdc.go:CDC.Parse"]}
{"id": "C61", "title": "New objects are blank", "statement": "Every message NewMessage returns, and every new object of any CLC, LLC, BTH or GRH type, has zero in all fields, including those that its texts do not show, and an empty dump.", "quantifier": "all buffers NewMessage accepts, all types", "why_tests_cant": "tests look at objects after parsing only", "anchors": ["pkg/clc/message.go:NewMessage", "pkg/llc/base.go:BaseMsg.Hex", "pkg/roce/bth.go:ParseBTH", "pkg/roce/grh.go:ParseGRH"]}
{"id": "C62", "title": "Type codes and dumps of parsed headers and LLC messages", "statement": "After any LLC Parse method has returned, GetType and Length are the first two bytes of the buffer, whatever type of object it was parsed into, except that objects for other payloads report type 0x101 and the length of the buffer. BTH and GRH report the types 0x103 and 0x102, which no byte can have. The dump of a GRH shows the first 40 bytes it was given, or nothing if there are fewer.", "quantifier": "all buffers, all types, all previous objects", "why_tests_cant": "tests check single messages of the matching type", "anchors": ["pkg/llc/base.go:BaseMsg.GetType", "pkg/llc/base.go:BaseMsg.SetBaseMsg", "pkg/llc/other.go:Other.Parse", "pkg/roce/bth.go:BTH.GetType", "pkg/roce/grh.go:GRH.GetType", "pkg/roce/grh.go:GRH.Hex"]}
{"id": "C63", "title": "Nil pointers", "statement": "String() and Reserved() of a nil pointer to a CLC Proposal, Accept or Decline of either version return n/a, but those of a nil pointer to a Confirm panic; Dump and Parse panic for all nil pointers. Nil pointers to LLC and CDC messages panic in every method, except that other payloads have their texts. Nil pointers to BTH and GRH panic in every method except GetType. Hence printing or dumping the GRH of a RoCEv2 packet panics, while that of a RoCEv1 packet never does. Pointers to objects never panic in String, Reserved, Dump, Hex or GetType.", "quantifier": "all types, all methods, all buffers, all objects, all parsed packets", "why_tests_cant": "no test uses nil pointers", "anchors": ["pkg/clc/clc_proposal.go:Proposal.String", "pkg/clc/clc_accept_smcr.go:AcceptSMCR.Reserved", "pkg/clc/clc_confirm_smcr.go:ConfirmSMCR", "pkg/clc/clc_decline_v2.go:DeclineV2.String", "pkg/llc/other.go:Other.String", "pkg/llc/base.go:BaseMsg.GetType", "pkg/roce/roce.go:ParseRoCEv2", "pkg/roce/grh.go:GRH.String"]}
{"id": "C64", "title": "What a panicking Parse leaves behind", "statement": "A program that recovers from a panic of Parse still holds the object. It has kept its type; its raw bytes are the new buffer; its trailer, for CLC, is the old one. Every field that the buffer contains completely is decoded; the fields behind the first incomplete one have their old values, provided the buffer has no spare capacity. The first incomplete field then has its old value, too, except that an address has become zero and a three-byte number has those of its bytes that are there, followed by zeros. If a CLC message declares less than the minimum length of its kind (or an SMC-D v2 message has fewer bytes), only the header is decoded. The object can be used again: all other properties about objects hold for it, too. That a panicking Parse leaves the object unchanged is false.", "quantifier": "all buffers, all types, all objects reachable by any sequence of parses and recovered panics", "why_tests_cant": "no test recovers from panics", "anchors": ["pkg/clc/header.go:Header.Parse", "pkg/clc/clc_accept_smcr.go:AcceptSMCR.Parse", "pkg/clc/clc_accept_smcd.go:AcceptSMCD.Parse", "pkg/clc/clc_accept_smcd_v2.go:AcceptSMCDv2.Parse", "pkg/clc/clc_decline.go:Decline.Parse", "pkg/clc/clc_decline_v2.go:DeclineV2.Parse", "pkg/clc/clc_proposal.go:Proposal.Parse", "pkg/clc/clc_proposal_v2.go:ProposalV2.Parse", "pkg/llc/llc_confirmlink.go:ConfirmLink.Parse", "pkg/llc/cdc.go:CDC.Parse", "pkg/roce/bth.go:BTH.Parse"]}
{"id": "C65", "title": "Completely received Proposals whose Parse panics", "statement": "A completely received CLC message makes Parse panic only if it is a Proposal that announces an SMC-D area reaching behind the buffer, or a v2 Proposal that contains more than eight EIDs or more than eight GIDs. A program that recovers then holds an object in which everything before the failing place is decoded: the fixed fields and the SMC-D GID of the Proposal; the fixed fields, the IP area with all its prefixes, the extension and the first eight EIDs of the v2 Proposal; or additionally the SMC-D extension and the first eight GIDs. The trailer and everything behind the failing place have their old values. The only lines logged are those about earlier entries that did not fit.", "quantifier": "all completely received messages, all types, all objects reachable by any sequence of parses and recovered panics", "why_tests_cant": "no test parses such messages or recovers from panics", "anchors": ["pkg/clc/clc_proposal.go:Proposal.Parse", "pkg/clc/clc_proposal_v2.go:ProposalV2.Parse"]}
{"id": "C66", "title": "The output buffer is free of data races", "statement": "In no reachable state of the HTTP output server are two goroutines, or a goroutine and code that changes a copy it got, both about to access the buffer's slice or the same byte of any array, one of them writing. What a step reads and writes is defined by its effects: it writes what it changes and reads what its other effects depend on. The buffer and the array behind it are only accessed by the goroutine that holds the mutex.", "quantifier": "all executions of any number of goroutines calling Write, Reset, CopyBuffer, Read and handling requests, all interleavings", "why_tests_cant": "the race detector sees the executions that happen to occur", "anchors": ["pkg/http/buffer.go:Buffer.Write", "pkg/http/buffer.go:Buffer.CopyBuffer", "pkg/http/buffer.go:Buffer.Reset", "pkg/http/http.go:handleRequest"]}
{"id": "C67", "title": "Areas of variable size after a panic", "statement": "When Parse of a Proposal panics and the buffer has no spare capacity, the areas behind the fixed fields are left as follows. An area is only touched if Parse gets there: the areas in front of it are in the buffer with all their entries, their arrays had room for the entries, and the declared length has room for the area. Of an area that is reached, the fields that the buffer contains are decoded and the others are as they were (an incomplete IPv4 prefix has become zero). IPv6 prefixes that the buffer contains are appended to those the object held; EIDs and GIDs replace those at their positions, at most eight, and the others are as they were; of the first incomplete GID entry the GID may already be there. Areas that are not reached are unchanged.", "quantifier": "all buffers without spare capacity, all Proposals of both versions, all objects reachable by any sequence of parses and recovered panics", "why_tests_cant": "no test recovers from panics", "anchors": ["pkg/clc/clc_proposal.go:Proposal.Parse", "pkg/clc/clc_proposal_v2.go:ProposalV2.Parse"]}
{"id": "C68", "title": "Every field fits its format", "statement": "Whatever an object was used for, each of its fields has a value that its place in the message format can hold: a field of w bits is smaller than 2^w, also where Go stores it in a wider integer; byte arrays, EID, GID and RKey lists have their fixed sizes; each stored IPv6 prefix has 16 bytes; an address has its size or is nil if it was never read. This holds for all fields, also those of optional parts, and after recovered panics. The one exception is the reserved field of a v2 Decline, whose upper four bits can hold the OS type after a panic.", "quantifier": "all CLC and LLC objects and BTHs reachable by any sequence of parses and recovered panics; all parsed GRHs of at least 40 bytes", "why_tests_cant": "tests check the values of a few messages", "anchors": ["pkg/clc/header.go:Header.Parse", "pkg/clc/clc_accept_smcr.go:AcceptSMCR.Parse", "pkg/clc/clc_accept_smcd.go:AcceptSMCD.Parse", "pkg/clc/clc_accept_smcd_v2.go:AcceptSMCDv2.Parse", "pkg/clc/clc_decline.go:Decline.Parse", "pkg/clc/clc_decline_v2.go:DeclineV2.Parse", "pkg/clc/clc_proposal.go:Proposal.Parse", "pkg/clc/clc_proposal_v2.go:ProposalV2.Parse", "pkg/llc/llc_confirmlink.go:ConfirmLink.Parse", "pkg/llc/llc_addlink.go:AddLink.Parse", "pkg/llc/llc_addlinkcont.go:AddLinkCont.Parse", "pkg/llc/llc_deletelink.go:DeleteLink.Parse", "pkg/llc/llc_confirmrkey.go:ConfirmRKey.Parse", "pkg/llc/llc_confirmrkeycont.go:ConfirmRKeyCont.Parse", "pkg/llc/llc_deleterkey.go:deleteRKey.Parse", "pkg/llc/llc_testlink.go:TestLink.Parse", "pkg/llc/cdc.go:CDC.Parse", "pkg/roce/bth.go:BTH.Parse", "pkg/roce/grh.go:GRH.Parse"]}
{"id": "C69", "title": "Texts, dumps and logs have limited sizes", "statement": "The hex dump of n bytes has 79 characters for each 16 bytes and 63 more than the number of the remaining bytes. String() and Reserved() of an object are at most as long as a limit for its type (in bytes 1278 and 1554 for a v2 Proposal, 473 and 520 for an SMC-R Accept, less than 510 for every LLC message), plus 58 for each IPv6 prefix that a Proposal holds. A Parse, however it ends, adds at most 255 prefixes to those held and at most one for 17 bytes of the buffer; it never removes any, so a Proposal that is used again and again grows without limit. One Parse logs at most two lines, or four for a Proposal, each at most 25 characters longer than the dump of the declared length; NewMessage logs at most two. Parsing LLC messages and RoCE packets logs nothing.", "quantifier": "all objects reachable by any sequence of parses and recovered panics, all buffers", "why_tests_cant": "tests compare a few texts; they do not bound what other input produces", "anchors": ["pkg/clc/clc_proposal.go:Proposal.String", "pkg/clc/clc_proposal.go:Proposal.Parse", "pkg/clc/clc_proposal_v2.go:ProposalV2.String", "pkg/clc/clc_proposal_v2.go:ProposalV2.Parse", "pkg/clc/clc_accept_smcr.go:AcceptSMCR.String", "pkg/clc/clc_accept_smcd_v2.go:AcceptSMCDv2.String", "pkg/clc/errdump.go:errDump", "pkg/clc/message.go:NewMessage", "pkg/llc/llc.go:ParseLLC", "pkg/roce/roce.go:ParseRoCEv1", "pkg/roce/bth.go:BTH.String", "pkg/roce/grh.go:GRH.String"]}
{"id": "C70", "title": "What any accepted buffer is decoded to", "statement": "Whenever Parse of a CLC message returns, also for incomplete messages and for slices with spare capacity, the log output and the object are these. If the declared length is below the minimum of the type (or the buffer of an SMC-D v2 Accept or Confirm is shorter than 78 bytes), the line about it and the dump of the declared length are logged and only the header is decoded. Messages of fixed format are decoded from the bytes of the slice. Proposals are decoded from the bytes up to the capacity of the slice: the fixed fields always; each optional area if it is announced and the declared length has room for it, at the position behind the entries in front of it that fit the declared length; with the line about an area without room or about entries that do not fit. The trailer is the last four bytes of the slice, whatever the declared length is, and is checked only if all areas had room. Everything else is as before. This determines the object and the log output: whenever Parse does not panic, they are the only ones that satisfy it.", "quantifier": "all buffers of any length and capacity, all types, all objects reachable by any sequence of parses and recovered panics", "why_tests_cant": "tests parse complete messages in buffers of their size", "anchors": ["pkg/clc/clc_proposal.go:Proposal.Parse", "pkg/clc/clc_proposal_v2.go:ProposalV2.Parse", "pkg/clc/clc_accept_smcr.go:AcceptSMCR.Parse", "pkg/clc/clc_accept_smcd.go:AcceptSMCD.Parse", "pkg/clc/clc_accept_smcd_v2.go:AcceptSMCDv2.Parse", "pkg/clc/clc_decline.go:Decline.Parse", "pkg/clc/clc_decline_v2.go:DeclineV2.Parse"]}
{"id": "C71", "title": "Objects that share IPv6 prefixes", "statement": "Parse of a Proposal appends to a slice whose array copies of the object share. Objects that are never copied are independent of each other: any program that makes objects and parses into them, recovering from panics, gets from each the results it would get if the others did not exist. With copies, Parse still logs, ends and changes its receiver as if it shared nothing; but in other objects it can overwrite IPv6 prefixes. Only those can change: all other fields and the number of prefixes stay the same, and so do as many prefixes as the receiver had before; prefixes behind them stay or become those that the receiver has at the same places; hence nothing changes in objects with no more prefixes than the receiver, and nothing at all if the receiver had none. That copies are independent is false: parsing into a copy can change the text of the original.", "quantifier": "all sequences of making, copying and parsing any number of objects of all types, all buffers, all ways in which append chooses capacities", "why_tests_cant": "tests neither copy objects nor parse into one twice", "anchors": ["pkg/clc/clc_proposal.go:Proposal.Parse", "pkg/clc/clc_proposal_v2.go:ProposalV2.Parse", "pkg/clc/clc_proposal.go:Proposal", "pkg/clc/clc_proposal_v2.go:ProposalV2", "pkg/clc/message.go:NewMessage"]}
{"id": "C72", "title": "Exported variables of package clc", "statement": "A program that never assigns to SMCREyecatcher, SMCDEyecatcher and SMCOption and never takes a part of them to write to it can take them for constants, whatever it does with its own memory. In any other state the functions follow the current contents: HasEyecatcher and NewMessage recognise a message exactly if its first four bytes are the contents of one of the two eyecatchers, an eyecatcher is called SMC-R or SMC-D exactly if it is their contents, a trailer is reported as invalid exactly if it is neither, an option is accepted exactly if it has type 254, length 6 and the contents of SMCOption; what follows the eyecatcher is classified as ever. SMCOption and SMCREyecatcher share their bytes: unless a program assigns to one of them, an option is accepted exactly if an eyecatcher with its data is called SMC-R, whatever is written to either; SMC-D stays as it is. That writing to SMCOption leaves CLC messages alone is false.", "quantifier": "all programs of assignments to the variables, re-slicing and writes to bytes; all memories, buffers, options and trailers", "why_tests_cant": "tests never change the variables", "anchors": ["pkg/clc/eyecatcher.go:SMCREyecatcher", "pkg/clc/eyecatcher.go:SMCDEyecatcher", "pkg/clc/eyecatcher.go:Eyecatcher.String", "pkg/clc/eyecatcher.go:HasEyecatcher", "pkg/clc/tcp_option.go:SMCOption", "pkg/clc/tcp_option.go:CheckSMCOption", "pkg/clc/trailer.go:Trailer.Parse", "pkg/clc/message.go:NewMessage"]}
{"id": "C73", "title": "Objects after a panic, with spare capacity", "statement": "When Parse of a CLC or LLC message or of a BTH panics, the object is left as follows, whatever the length and the capacity of the buffer are. Byte strings and numbers of two, four and eight bytes are read up to the capacity, all other fields up to the length; before a field is read the length has to reach its start, except in Proposals and inside the entries of Add Link Continuation, Confirm RKey and Confirm RKey Continuation messages. The fields before the first that cannot be read are decoded; the others keep their values, except that an address for which the buffer is too small becomes zero if the length reaches its start, and that a three-byte number gets those of its bytes that the length includes. The four bytes at the end of a v2 Decline are stored before the OS type is taken out of them. The areas of Proposals are as without spare capacity, but EIDs and GIDs are those up to the capacity; IPv6 prefixes still have to end inside the length, and the extension of a v2 Proposal is only passed if its first four bytes do. That the object depends on the bytes of the buffer alone is false.", "quantifier": "all buffers of any length and capacity, all types, all objects reachable by any sequence of parses and recovered panics", "why_tests_cant": "no test recovers from panics or uses slices with spare capacity", "anchors": ["pkg/clc/header.go:Header.Parse", "pkg/clc/clc_accept_smcr.go:AcceptSMCR.Parse", "pkg/clc/clc_accept_smcd.go:AcceptSMCD.Parse", "pkg/clc/clc_accept_smcd_v2.go:AcceptSMCDv2.Parse", "pkg/clc/clc_decline.go:Decline.Parse", "pkg/clc/clc_decline_v2.go:DeclineV2.Parse", "pkg/clc/clc_proposal.go:Proposal.Parse", "pkg/clc/clc_proposal_v2.go:ProposalV2.Parse", "pkg/llc/llc_addlinkcont.go:AddLinkCont.Parse", "pkg/llc/llc_confirmrkey.go:ConfirmRKey.Parse", "pkg/llc/cdc.go:CDC.Parse", "pkg/roce/bth.go:BTH.Parse"]}
{"id": "C74", "title": "Parse is completely described", "statement": "For every buffer and object there is exactly one way in which Parse of a CLC or LLC message or of a BTH can end, and it is this. A CLC message panics exactly under conditions on its type, the declared length, the length and the capacity of the buffer and, for Proposals, the announced offsets and numbers. If it returns, log output and object are those of accepted buffers (C70). If it panics, at most one line was logged, namely the error line whose dump would exceed the capacity; the header is decoded as far as its fields can be read, its second reading of the path bits only if all eight bytes are there; the remaining fields are those of C73; the slice kept for Dump is the buffer; trailer and, in a v1 Decline, OS type are as before. LLC messages and BTHs log nothing, always keep a copy of the buffer, and panic exactly if the buffer is shorter than the fields in front of the reserved ones; otherwise their fields are those of the buffer, completed with the old reserved bytes. Two more bytes than fit into the format of Add Link end up in its object. That a panicking Parse logs nothing is false.", "quantifier": "all buffers of any length and capacity, all types, all objects reachable by any sequence of parses and recovered panics", "why_tests_cant": "no test recovers from panics or looks at the log output", "anchors": ["pkg/clc/header.go:Header.Parse", "pkg/clc/clc_accept_smcr.go:AcceptSMCR.Parse", "pkg/clc/clc_accept_smcd.go:AcceptSMCD.Parse", "pkg/clc/clc_accept_smcd_v2.go:AcceptSMCDv2.Parse", "pkg/clc/clc_decline.go:Decline.Parse", "pkg/clc/clc_decline_v2.go:DeclineV2.Parse", "pkg/clc/clc_proposal.go:Proposal.Parse", "pkg/clc/clc_proposal_v2.go:ProposalV2.Parse", "pkg/clc/errdump.go:errDump", "pkg/llc/llc_confirmlink.go:ConfirmLink.Parse", "pkg/llc/llc_addlink.go:AddLink.Parse", "pkg/llc/llc_addlinkcont.go:AddLinkCont.Parse", "pkg/llc/llc_deletelink.go:DeleteLink.Parse", "pkg/llc/llc_confirmrkey.go:ConfirmRKey.Parse", "pkg/llc/llc_confirmrkeycont.go:ConfirmRKeyCont.Parse", "pkg/llc/llc_deleterkey.go:deleteRKey.Parse", "pkg/llc/llc_testlink.go:TestLink.Parse", "pkg/llc/cdc.go:CDC.Parse", "pkg/llc/other.go:Other.Parse", "pkg/roce/bth.go:BTH.Parse"]}
{"id": "C75", "title": "Which LLC, CDC and RoCE messages have the same text", "statement": "Two payloads that ParseLLC accepts have the same Reserved() text exactly if they are of the same kind and agree in all bytes, with three exceptions: the two bytes behind the MAC of Add Link, the first RKey pair of Add Link Continuation (bytes 8 to 23) and the contents of messages of other types are in no text. They have the same String() text exactly if they are of the same kind and agree in the fields that are not reserved, again without that RKey pair. Reserved() of a BTH shows all twelve bytes, String() all fields that are not reserved; both texts of a GRH show everything but which of several next headers with the same name it has. So all texts of two RoCE packets agree exactly if headers and payloads agree in this sense; the ICRC is in no text. That the texts of a packet together determine the packet is false.", "quantifier": "all pairs of buffers, all names of next headers without comma, bracket and newline", "why_tests_cant": "tests compare single texts with expected ones and never compare the texts of two messages", "anchors": ["pkg/llc/llc_addlink.go:AddLink.Reserved", "pkg/llc/llc_addlinkcont.go:AddLinkCont.Reserved", "pkg/llc/llc_addlinkcont.go:AddLinkCont.String", "pkg/llc/other.go:Other.String", "pkg/llc/cdc.go:CDC.Reserved", "pkg/llc/llc.go:ParseLLC", "pkg/roce/bth.go:BTH.Reserved", "pkg/roce/grh.go:GRH.String", "pkg/roce/roce.go:ParseRoCEv1", "pkg/roce/roce.go:ParseRoCEv2"]}
{"id": "C76", "title": "Which CLC messages have the same text", "statement": "A CLC message is sound if it fills the buffer, is long enough for its kind, contains all parts it announces, announces at most eight EIDs and GIDs and ends in a known eyecatcher; its fields are those of header, fixed part and announced parts, wherever these are, and the trailer. If no readable part of a text field contains separators, two sound messages have the same Reserved() text exactly if they are of the same kind and their fields read the same, where of text fields (EIDs, SEID, host name) only the part in front of the first NUL byte, without blanks at its end, counts, and the same String() text exactly if this holds for the fields that are not reserved. Bytes between the parts, such as those in front of the IP area of a Proposal, are in no text; with arbitrary text fields, messages whose fields read the same still have the same texts. That the text determines the bytes is refuted. The fields of a message without gaps are those of its wire format.", "quantifier": "all pairs of sound messages of all kinds, of any length, with any offset of the IP area and any number of prefixes, EIDs and GIDs", "why_tests_cant": "tests compare single texts with expected ones, of messages without gaps, and never compare the texts of two messages", "anchors": ["pkg/clc/header.go:Header.String", "pkg/clc/header.go:Header.Reserved", "pkg/clc/clc_proposal.go:Proposal.Reserved", "pkg/clc/clc_proposal.go:Proposal.String", "pkg/clc/clc_proposal_v2.go:ProposalV2.Reserved", "pkg/clc/clc_proposal_v2.go:ProposalV2.String", "pkg/clc/clc_accept_smcr.go:AcceptSMCR.Reserved", "pkg/clc/clc_accept_smcd.go:AcceptSMCD.Reserved", "pkg/clc/clc_accept_smcd_v2.go:AcceptSMCDv2.Reserved", "pkg/clc/clc_accept_smcd_v2.go:AcceptSMCDv2.String", "pkg/clc/clc_decline.go:Decline.Reserved", "pkg/clc/clc_decline_v2.go:DeclineV2.Reserved"]}
{"id": "C77", "title": "Where a buffer lies makes no difference", "statement": "Take two buffers of the same length, the same capacity and the same bytes up to the capacity, at any places of any memories, whatever surrounds them. NewMessage and HasEyecatcher return the same for both. Parse of a CLC message logs the same lines, ends in the same way and, also if it panics, leaves objects that differ only in the slice kept for Dump, which is the respective buffer; their String(), Reserved() and Dump() are the same. ParseLLC, Parse of all LLC messages, of BTH and GRH return equal objects, also after a panic, and ParseRoCEv1 and ParseRoCEv2 return packets that differ only in where the bytes of the ICRC are. That length and bytes up to the length alone decide is false: with another capacity Parse of a Proposal may panic.", "quantifier": "all pairs of memories and buffers with the same contents, all types, all objects parsed into", "why_tests_cant": "tests parse whole literals and never compare two buffers", "anchors": ["pkg/clc/message.go:NewMessage", "pkg/clc/clc_proposal.go:Proposal.Parse", "pkg/clc/clc_proposal_v2.go:ProposalV2.Parse", "pkg/clc/clc_accept_smcr.go:AcceptSMCR.Parse", "pkg/clc/clc_accept_smcd.go:AcceptSMCD.Parse", "pkg/clc/clc_accept_smcd_v2.go:AcceptSMCDv2.Parse", "pkg/clc/clc_decline.go:Decline.Parse", "pkg/clc/clc_decline_v2.go:DeclineV2.Parse", "pkg/clc/raw.go:Raw.Dump", "pkg/llc/llc.go:ParseLLC", "pkg/roce/bth.go:BTH.Parse", "pkg/roce/grh.go:GRH.Parse", "pkg/roce/roce.go:ParseRoCEv1", "pkg/roce/roce.go:ParseRoCEv2"]}
{"id": "C78", "title": "Messages may arrive in pieces", "statement": "A program that receives a stream of complete CLC messages in pieces, appends each piece to what it has, asks NewMessage for type and length, waits until that many bytes are there and then calls Parse(buf[:length:length]) sees (kind, String(), Reserved() and Dump()) exactly what it would see if every message were parsed alone, with the same log lines and the same panics, and reports each message with the piece that completes it. How the stream is cut, also inside headers and into empty pieces, and where the bytes are kept makes no difference. If the messages are sound, nothing is logged, nothing panics, the texts are those of the specification, and limiting the capacity is not needed. Otherwise it is: with Parse(buf[:length]) the way the stream is cut can decide between a report and a panic.", "quantifier": "all streams of complete messages up to 1024 bytes each that NewMessage accepts, sound or not, all ways to cut them, all places in memory", "why_tests_cant": "tests never parse more than one message of a buffer and never receive a message in pieces", "anchors": ["pkg/clc/message.go:NewMessage", "pkg/clc/header.go:Header.Parse", "pkg/clc/clc_proposal.go:Proposal.Parse", "pkg/clc/clc_proposal_v2.go:ProposalV2.Parse", "pkg/clc/clc_accept_smcr.go:AcceptSMCR.Parse", "pkg/clc/clc_accept_smcd.go:AcceptSMCD.Parse", "pkg/clc/clc_accept_smcd_v2.go:AcceptSMCDv2.Parse", "pkg/clc/clc_decline.go:Decline.Parse", "pkg/clc/clc_decline_v2.go:DeclineV2.Parse"]}
{"id": "C79", "title": "What a message object owns", "statement": "The addresses of CLC and LLC messages (IBGID, IBMAC, Prefix, the IPv6 prefixes, SenderMAC, SenderGID) and the Raw bytes of LLC messages and of the BTH are slices of arrays that Parse made. In every program that makes buffers and objects, parses any slices of any arrays, also of the address fields of its objects, into any of its objects, goes on after panics and stores bytes anywhere, no two of these slices with bytes share an array, neither within an object nor between objects, and none is in a buffer of the program. Parse changes no byte that existed before and no other object; the slices of its object are the old ones or whole new arrays without spare capacity. An object stays as it is while the program does anything but parse into it or write through its own fields; in particular buffers can be reused for other messages.", "quantifier": "all sequences of making arrays and objects, parsing and storing, of any length, with objects of all CLC and LLC types and BTHs", "why_tests_cant": "tests parse each literal once, never write to a buffer afterwards and never compare two objects", "anchors": ["pkg/clc/clc_accept_smcr.go:AcceptSMCR.Parse", "pkg/clc/clc_proposal.go:Proposal.Parse", "pkg/clc/clc_proposal_v2.go:ProposalV2.Parse", "pkg/llc/base.go:BaseMsg.setRaw", "pkg/llc/llc_addlink.go:AddLink.Parse", "pkg/llc/llc_confirmlink.go:ConfirmLink.Parse", "pkg/roce/bth.go:BTH.Parse"]}
{"id": "C80", "title": "Machine integers", "statement": "The other properties are about a model that computes positions in messages with natural numbers. The code does it with ints of 32 or 64 bits that wrap around, compares differences that may be negative, and counts with bytes. With ints of any size from 32 bits and any buffer that can exist with them, parsing a Proposal of version 1 or 2 returns the same object, logs the same lines and panics in the same cases as with natural numbers, no loop runs more than 255 times, and the last bytes of a buffer, the trailer, QP numbers and packet sequence numbers are the same. The text of an RMBE size is the same on 64-bit machines, and on 32-bit machines for all sizes but those from 17 to 49.", "quantifier": "all int sizes from 32 bits, all objects and memories, all buffers of all lengths that an int can hold, all 256 RMBE sizes", "why_tests_cant": "tests run on one int size, with few offsets, and with at most three prefixes, EIDs and GIDs", "anchors": ["pkg/clc/clc_proposal.go:Proposal.Parse", "pkg/clc/clc_proposal_v2.go:ProposalV2.Parse", "pkg/clc/trailer.go:Trailer.Parse", "pkg/clc/clc_accept_smcr.go:AcceptSMCR.Parse", "pkg/clc/rmbesize.go:RMBESize.String", "pkg/roce/roce.go:ParseRoCEv1", "pkg/roce/roce.go:ParseRoCEv2"]}
{"id": "C81", "title": "What a RoCE packet owns", "statement": "In every program of the kind of the property about message objects, ParseRoCEv1 and ParseRoCEv2 change no object and no byte that existed before, also if they panic; the packet has the values of the other properties, and its BTH, its LLC message and the bytes of its GRH are new. Header, BTH and LLC message of a packet stay as they are while the program does anything but parse into them or write through their fields, so the buffer can be reused for the next packet and only the bytes of the ICRC change. Contents, SrcIP and DstIP of a GRH are slices of one array: a store through one changes the others where they overlap, and nothing else of the packet.", "quantifier": "both versions, all buffers, all programs of any length before and after the call", "why_tests_cant": "tests parse each literal once and never write to a buffer or an address afterwards", "anchors": ["pkg/roce/roce.go:ParseRoCEv1", "pkg/roce/roce.go:ParseRoCEv2", "pkg/roce/grh.go:GRH.Parse", "pkg/roce/bth.go:BTH.Parse", "pkg/llc/llc.go:ParseLLC"]}
{"id": "C82", "title": "Texts are printable, but for names", "statement": "Whatever an object holds, String() and Reserved() of a CLC message consist of printable ASCII characters without a newline exactly if the names that are part of the text (EIDs in use, system EID, host name) are printable up to their first zero byte. Texts of headers always are; texts of LLC messages, CDC messages, BTHs and, if gopacket's protocol names are printable, GRHs are always exactly one printable line with its newline. Dumps have one printable line for every 16 bytes. Everything that NewMessage and Parse log is printable, whatever was received and however the call ends. That texts of all received messages are printable is false: a message that is parsed without complaints can have a text with a second line that starts like that of another message, and with commands to a terminal.", "quantifier": "all values of all fields of all message types, all bytes dumped, all buffers parsed", "why_tests_cant": "tests show a few well-behaved messages; that no field but the names can bring in a control character is a statement about all values of all fields", "anchors": ["pkg/clc/clc_proposal_v2.go:EID.String", "pkg/clc/clc_proposal_v2.go:ProposalV2.String", "pkg/clc/clc_proposal.go:Proposal.String", "pkg/clc/clc_accept_smcd_v2.go:AcceptSMCDv2.String", "pkg/clc/clc_accept_smcr.go:AcceptSMCR.String", "pkg/clc/clc_accept_smcd.go:AcceptSMCD.String", "pkg/clc/clc_decline.go:Decline.String", "pkg/clc/clc_decline_v2.go:DeclineV2.String", "pkg/clc/header.go:Header.String", "pkg/clc/errdump.go:errDump", "pkg/clc/raw.go:Raw.Dump", "pkg/llc/base.go:BaseMsg.Hex", "pkg/llc/llc_confirmlink.go:ConfirmLink.String", "pkg/roce/bth.go:BTH.String", "pkg/roce/grh.go:GRH.String"]}
{"id": "C83", "title": "Which requests reach the HTTP handler", "statement": "The handler is registered for the pattern \"/\" of the default ServeMux. A request reaches it exactly if its escaped path is clean: it starts with a slash, and its segments are neither empty nor \".\" or \"..\", but for the last, which may be empty. The handler then gets the query as it was sent. A request for \"*\" is refused; every other request is redirected to the clean form of its path with the same query, without a call of the handler; the path of its Location is that form with every character percent-encoded that may not stand in the path of a URL. One redirect is always enough: a client that follows it reaches the handler, with the same query if that has only ASCII characters and no '#', and for every query without '#' with the same parameters, so it flushes exactly if the client asked for it. That the query always stays the same is false: with a '#' a flush can get lost on the way.", "quantifier": "all escaped paths and raw queries of requests with methods other than CONNECT", "why_tests_cant": "tests send a few requests, all for the path \"/\"", "anchors": ["pkg/http/http.go:StartServer", "pkg/http/http.go:handleRequest"]}
