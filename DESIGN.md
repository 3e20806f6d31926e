# Formal model of hwipl/smc-go in Rocq (Coq 8.16.1)

The properties are in `properties.jsonl`, the theorem names per property in
`MANIFEST.json`. This file says what is modelled, how the specification is written,
what has to be trusted, and what was found out about the code.

## 1. What is modelled

All non-test Go code of `/repo/pkg` is modelled. Each definition of a model file cites
the file and the lines it stands for.

| Go package | model file | contents |
|---|---|---|
| (Go runtime) | `GoBase.v` | bytes, memory, slices with length *and* capacity, index/slice expressions that panic, `copy`, `encoding/binary.BigEndian`, the result type (value / panic / process exit) with the log output written so far |
| (Go std lib) | `GoFmt.v` | the verbs `%d %s %t %#x %#b` at the types used, `net.IP.String`, `net.HardwareAddr.String`, `encoding/hex.Dump` |
| `pkg/clc` | `ClcModel.v` | every function and method |
| `pkg/llc` | `LlcModel.v` | every function and method |
| `pkg/roce` | `RoceModel.v` | every function and method; gopacket's IPv6 decoding is modelled from its documented behaviour |
| `clc`, `llc`, `roce` | `Setters.v`, `WriteModel.v`, `LlcWriteModel.v` | the Parse methods once more, assignment by assignment, so that the object after a panic is known; proved to agree with the models above |
| `clc`, `llc`, `roce` | `NilModel.v` | the methods of all message types, called through pointers that may be nil |
| `clc` | `AliasModel.v` | the Parse methods of Proposals once more, with IPv6 prefixes in arrays that copies of objects share; programs with several objects |
| `clc`, `llc`, `roce` | `HeapModel.v` | the Parse methods once more, with the arrays that they make for addresses and Raw; code that has nothing to do with these is that of `WriteModel.v` and `LlcWriteModel.v` |
| `roce`, `llc.ParseLLC` | `PacketModel.v` | ParseRoCEv1, ParseRoCEv2, ParseLLC and NewBTH, NewGRH with the objects and arrays that they make; `GRH.Parse` copies the header into one array (gopacket's IPv6 header keeps slices of what it decodes) |
| `http` | `MuxModel.v` | http.go:46-47: what the default ServeMux does with a request |
| `clc`, `roce` | `IntModel.v` | the functions that compute with ints once more, with ints of `w` bits, possibly negative bounds and loop counters of type uint8 |
| `clc` | `GlobalModel.v` | the functions that use the exported variables `SMCREyecatcher`, `SMCDEyecatcher`, `SMCOption` once more, with the variables, their arrays and programs that change them |
| `pkg/http` | `HttpModel.v`, `QueryModel.v` | Buffer, request handler and StartServer as interleaved micro-steps; `url.ParseQuery` as used by `r.URL.Query()` |
| `pkg/socket` | `SocketModel.v` | address handling, Dial and Listen as trees of system calls over an arbitrary OS, run alone or interleaved over a descriptor table with finalizers |

Slices: `(array id, offset, length, capacity)` over a memory mapping array ids to
byte lists. `buf[i]` panics iff `i >= len`; `buf[lo:hi]` panics iff not
`lo <= hi <= cap` (Go's rule: *capacity*, not length). `buf[lo:]` means `buf[lo:len]`.

Every parse function is a function from memory, slice and previous receiver to
`log lines * (new receiver | panic | exit)`.

`Golden.v` replays the expected values of the unit tests of `/repo` against the models
(as text: the tests were read, not run).

### Not modelled

* Real scheduling, the Go memory model below mutexes, real GC timing, the kernel's SMC
  implementation, the network. The HTTP and descriptor theorems quantify over all
  interleavings instead; system calls may succeed or fail in every way. C66 proves that
  the buffer is free of data races, for which Go's memory model promises that executions
  are such interleavings.
* The resolver, the port table and the interface table are universally quantified
  environment functions.
* Time stamps in the log output; log lines are the text handed to `log`.
* HTTP framing. The routing of the default ServeMux (path cleaning and redirects) is in
  `MuxModel.v` only, which was written without the source of Go at hand and is trusted to
  be what net/http, path and net/url do; it leaves out the method CONNECT. The other HTTP
  models start where the request handler is called.
* Memory exhaustion. Integer overflow of `int` is in `IntModel.v` only; C80 says that it makes no difference
  for parsing. The models print RMBE sizes as 64-bit machines do.
* `log.Fatal` in one goroutine does not stop the other goroutines of the descriptor
  model. It therefore admits more executions than Go, all theorems about it being
  statements about every execution.
* The limit on the number of query parameters of later Go versions (go.mod asks for 1.23).
* HTTP transport details (headers, keep-alive): a request is its raw query string, a
  response the bytes handed to the ResponseWriter and whether writing them failed.

## 2. Specification

The property theorems are in the files `Props*.v`, which contain nothing else. They are
stated with the following small specifications, which do not use the models' parsers or
printers.

* `Wire.v`: a message is a big-endian bit string, and each message type is a table
  `(field, width in bits)` in wire order. `bits bs off w` is the unsigned number formed
  by the bits `off .. off+w-1` of `bs`. A decode theorem says that the decoded record,
  listed in table order, is the list of these numbers.
* `ClcView.v`, `LlcView.v`: the fields of the model records in table order.
* `Show.v`: the texts. Per type a table `(reserved?, label, style, bit position)`;
  `String()` must be the rendering of the non-reserved rows, `Reserved()` of all rows.
* `Names.v`, `Opcodes.v`: the code names and the BTH opcodes, as tables.
* `Canon.v`: numerals by their value (reading digits back), canonical IPv4/IPv6/MAC texts,
  the lines of a hex dump; independent of the functions in `GoFmt.v`.
* `Lossless.v`: messages that fill their buffer, all fields of a message.
* `Sound.v`: sound messages and their texts, positions following from announced numbers.
* `Stream.v`: the loop that reads a buffer message by message with `NewMessage` and `Parse`.
* `Readable.v`: the readable part of text fields (EID, SEID, host name), their separators
  and their filling.
* `Encode.v`: a bit string encoder for layouts and the full layout of a CLC message.
* `Partial.v`: an incomplete LLC message completed with what the object held, blank fields.
* `Recover.v`: what a panicking Parse has done to the object.
* `Areas.v`: what it has done to the areas of variable size of Proposals.
* `Spare.v`: both for buffers with spare capacity.
* `Crash.v`: when Parse panics, what it then has logged, and the complete description of Parse.
* `Visible.v`: the bytes and fields of payloads and RoCE headers that are in their texts.
* `Contents.v`: the fields of a sound CLC message, wherever its parts are.
* `Elsewhere.v`: buffers with the same contents at different places.
* `Pieces.v`: a program that receives a stream of messages in pieces.
* `Owned.v`: programs with buffers, objects and the arrays of their addresses.
* `PacketSpec.v`: what a packet shows, and which stores and calls leave it alone.
* `Plain.v`: printable characters, lines, and the names that texts contain.
* `MuxSpec.v`: segments of paths, clean paths and the clean form of a path.
* `Offsets.v`: v2 Proposals that differ in their offsets only.
* `Nil.v`: nil pointers of every type.
* `Ranges.v`: the width or the set of values of every field, the positions of reserved ones.
* `Sizes.v`: limits for the sizes of texts, dumps and logs.
* `Accepted.v`: what a Parse that returns makes of any buffer, also of incomplete messages.
* `Alias.v`: programs whose objects are independent values.
* `Global.v`: which of the exported variables of package clc a program uses.
* `HttpSpec.v`: sequential buffer, histories, what linearizability means.
* `RaceSpec.v`: what a step reads and writes, by its effects; data races.
* `SocketSpec.v`: which address form is used, what a descriptor trace may look like.

Every property theorem has an Example next to it that shows a concrete case satisfying
its hypotheses. Properties a user would expect but the code violates are stated as
theorems named `_refuted`, with a witness, next to the exact characterisation that does
hold.

## 3. How the properties are proved

| property | model | proof |
|---|---|---|
| C01, C02 | `NewMessage` | case analysis on the slice bounds and byte values (`ClcNew.v`) |
| C03-C06 | `Parse` of the fixed types | symbolic execution against `Wire.v` (`Steps.v`, `ClcParse.v`, `ClcFixed.v`, `ClcSmcdv2.v`) |
| C07, C08 | `Parse` of the Proposals | induction over the prefix/EID/GID loops (`ClcProposal.v`, `ClcProposalV2.v`, `ClcProposalV2Inv.v`) |
| C09 | all `Parse` | symbolic execution of the early exit |
| C10, C11 | fixed types | case split at every bounds check |
| C12, C13 | Proposals | exact condition + `_refuted` witness (`ClcRefute.v`) |
| C14 | `Trailer.Parse` | case analysis |
| C15 | all `Parse` | equality of results for two receivers; `_refuted` witnesses |
| C16 | all `Parse` | two-memory non-interference; `_refuted` witness for Proposals |
| C17, C18 | `Raw`, `hex.Dump` | memory quantification; decoder for dumps, induction (`Dumps.v`) |
| C19, C20, C30, C47, C48 | `String`/`Reserved` | against `Show.v` (`ClcText.v`, `LlcText.v`, `RoceText.v`, `TextFacts.v`, `TextWhole.v`, `TextRest.v`) |
| C21-C24 | small functions | induction / finite case analysis |
| C25-C29, C44, C45 | llc | as for clc (`LlcParse.v`, `LlcDecode.v`, `LlcMessage.v`) |
| C31-C35, C45, C46 | roce | as for clc (`RoceParse.v`) |
| C36-C38, C49-C51 | http | invariants over an interleaving transition system, linearization ghost (`HttpLin.v`, `HttpFacts.v`, `HttpMain.v`) |
| C39 | query | induction over the query string (`QueryFacts.v`) |
| C40-C42 | socket | case analysis of the system call tree, for every environment (`SocketFacts.v`) |
| C43 | socket | invariant over interleaved executions (`SocketDesc.v`) |
| C52, C53, C18 (layout) | `GoFmt.v` as used by all `String` methods | against `Canon.v`, which defines numerals, canonical addresses and dump lines as relations; existence and uniqueness (`CanonNum.v`, `CanonIp.v`, `CanonDump.v`) |
| C54 | `String`/`Reserved` | injectivity of rendered rows by induction over the tables of `Show.v` (`TextInj.v`, `TextLossless.v`); `Lossless.v` says which messages are meant |
| C13 (any buffer) | `ProposalV2.Parse` | stage by stage, over everything the slice can reach (`ClcProposalV2Any.v`) |
| C55 | all `Parse` | every path behind the header keeps it (`ClcHeader.v`) |
| C56 | `NewMessage`, `Parse`, texts | composed from C01, C07-C09, C12-C14, C17, C19 (`SoundFacts.v`) |
| C57 | `NewMessage`, `Parse` | induction over the messages, each with C56 (`StreamFacts.v`) |
| C58 | all `Parse` methods, `ParseLLC` | the encoder is inverse to `decode`; decoding lemmas of C03, C06-C10, C27, C33, C35 put together (`EncodeFacts.v`, `EncodeRest.v`) |
| C59 | `String`/`Reserved` of all CLC messages | as for C54, in up to three stages, because the first ones announce the layout of the next ones (`TextPadded.v`) |
| C60, C62 | LLC/BTH/GRH `Parse`, `GetType`, `Hex` | closed forms of the parsers (C27); the message completed with the old tail gives the same closed form (`PartialFacts.v`) |
| C61 | `NewMessage`, new objects | evaluation of the new objects, case analysis of `NewMessage` (`PartialFacts.v`) |
| C63 | all methods through nil pointers | evaluation (`NilFacts.v`) |
| C64 | all `Parse`, assignment by assignment | agreement of both models by rewriting (`WriteFacts.v`, `LlcWriteFacts.v`); symbolic execution with an invariant about the fields written so far (`RecoverSteps.v`, `RecoverClc.v`, `RecoverLlc.v`, `RecoverRaw.v`); invariants of objects hold after panics (`Keep.v`) |
| C65 | `Proposal_W`, `ProposalV2_W` | the loops over EIDs and GIDs run over their arrays (induction), symbolic execution of the rest (`RecoverProposal.v`) |
| C66 | http | the invariant of C36 bounds what a step can access; accessing is noninterference between states differing in one location (`RaceFacts.v`) |
| C67 | `Proposal_W`, `ProposalV2_W` | each loop leaves the entries that the buffer contains (induction), each area by symbolic execution; how the areas before it end is C13 (`AreasFacts.v`) |
| C68 | all `Parse`, assignment by assignment | an invariant per Go type (the width of each field), kept by every assignment and therefore by completed and by panicking runs (`RangesFacts.v`); C35 for the GRH |
| C69 | `String`, `Reserved`, `Parse`, `NewMessage`, `errDump` | the size of each piece of a text from the invariants of C68 (`SizesFacts.v`); a count of lines through each run, where an area that is cut off leaves no room for the next; growth of the prefixes by the steps of C64's model (`SizesGrow.v`) |
| C70 | `Parse` of all CLC types | C09-C11 for the types of fixed format; for Proposals the runs of ClcProposal.v and of the stages of ClcProposalV2Any.v, with the logs and results they give if they return (`ClcAccepted.v`); `C70_exactly`: the description is determined, as the field lists cover every field of the objects |
| C71 | programs that make, copy and parse CLC objects | `append` with arbitrary spare room over a heap of arrays; simulation of the Parse methods with shared arrays by those on values (`sim`), and a relation saying which array entries a run can write (`grows`), both in `AliasFacts.v` |
| C72 | `HasEyecatcher`, `Eyecatcher.String`, `Trailer.Parse`, `CheckSMCOption`, `NewMessage`; programs that change the exported variables | comparison with the current bytes; induction over programs: which arrays a program without a way to refer to them leaves alone (`GlobalFacts.v`). `C72_untouched` justifies that all other models take the variables for constants |
| C73 | all `Parse`, assignment by assignment | as for C64 and C67, with the bytes up to the capacity and with both limits in the invariants (`SpareSteps.v`, `SpareLlc.v`, `SpareClc.v`, `SpareAreas.v`) |
| C74 | all `Parse`, assignment by assignment | C70 and C73; header and log output of runs that panic (`CrashHeader.v`, `CrashLogs.v`); the descriptions fit only one object (`CrashFacts.v`) |
| C75 | texts of LLC, CDC, BTH and GRH, `ParseLLC`, `ParseRoCEv1/2` | the texts are lists of items without separators inside, so equal texts have equal items (C54); equal shown fields are equal bytes, as the layouts cover the payload (`VisibleFacts.v`) |
| C76 | `String`/`Reserved` of all sound CLC messages | a message is a list of parts, each of which follows from the fields in front of it; equal texts have equal parts one after another (C54, C59), and items are functions of the readable fields (`ContentsFacts.v`) |
| C77 | all `Parse` functions, `NewMessage`, `ParseLLC`, `ParseRoCEv1/2` | the readings of two buffers with the same contents agree step by step; sub-slices have the same contents again (`ElsewhereFacts.v`; after a panic: `ElsewhereWrite.v`) |
| C78 | `NewMessage` and all CLC `Parse` functions in a receive loop | a prefix of a stream is complete messages and the start of one; the loop stops exactly there; with limited capacity each parse sees the contents of a buffer of its own (C77) (`PiecesFacts.v`) |
| C79 | all CLC, LLC and BTH `Parse` functions with the arrays they make | both models run in step: reads see the memory before the call, each slice is the old one or a whole new array (`OwnedFacts.v`); invariant of programs: slices of objects are in arrays of their own (`OwnedWorld.v`) |
| C80 | `Proposal.Parse`, `ProposalV2.Parse`, `Trailer.Parse`, ints of QPN and PSN, `RMBESize.String` | the model with machine integers run in step with the other, positions stay below 10^6 (`IntFacts.v`); all 256 sizes computed |
| C81 | `ParseRoCEv1`, `ParseRoCEv2` with the objects and arrays they make | both models run in step (`PacketFacts.v`), on top of the invariant of C79 |
| C82 | all `String`, `Reserved`, `Hex`, `Dump` methods; the log of all CLC `Parse` functions | every piece of a text is printable for all arguments; texts are concatenations of pieces (`PlainFacts.v`) |
| C83 | `StartServer`: the pattern "/" of the default ServeMux | `path.Clean` as a fold over the segments (loop invariant: the output is the stack of segments); clean paths are its fixed points, and escaping keeps them clean (`MuxFacts.v`) |

Nothing is "not applicable".

## 4. Trusted base

* Coq 8.16.1's kernel (`vm_compute` is used for finite sweeps and examples).
* Axioms: none. `Print Assumptions` below every property theorem answers
  `Closed under the global context`, for each of them without exception.
* The reading of `/repo` into the model files of section 1; each definition cites file
  and lines.
* The models of Go's runtime and library functions in `GoBase.v`, `GoFmt.v`,
  `QueryModel.v` and `SocketModel.v` (written from the documented behaviour of Go 1.23;
  the Go sources are not available in the sandbox), and of gopacket's IPv6 decoder.
* The specification files of section 2, as the meaning of the theorems.

## 5. What was found out about the code

Each of these is a theorem.

* `ParseLLC` panics on every 44-byte payload with type byte 8 (Confirm RKey
  Continuation), and so do the RoCE parsers (C26, C32).
* `Proposal.Parse` reads bytes 40 to 80 before checking the length if the IP area offset
  is 40: panic or bytes of the next message (C12, C16).
* `ProposalV2.Parse` panics for more than 8 announced EIDs or GIDs (C13).
* `ProposalV2.Parse` ignores the offsets in the message (C48; `C48_offsets_unused` for all complete
  messages, proved in `ClcOffsets.v` against `Offsets.v`). It shows announced but
  missing EIDs as empty ones (C47).
* Parsing into a used object keeps IPv6 prefixes and FCE values of the earlier message
  (C15, C20). The FCE is read for length 114 only, but shown for longer messages too (C20).
* `RMBESize` is right for codes below 49 only (C24).
* Both texts of Add Link Continuation omit the first RKey pair; `Reserved()` of Add Link
  omits one reserved field and shows ten bytes for another of eight (C30).
* `Dump()` of CLC messages and `ICRC` of RoCE packets alias the caller's buffer (C17, C46).
* The flush of an HTTP request loses what was written between its copy and its reset
  (C38). A request whose response could not be written flushes all the same (C38).
* `String()` of a nil `*ConfirmSMCR`, `*ConfirmSMCD` or `*ConfirmSMCDv2` panics, although the
  methods of the embedded Accept messages check for nil; so does printing the GRH of a
  RoCEv2 packet, which is nil (C63). (Go specification: `x.f` with a nil pointer `x`
  panics, and `&x.f` panics if `x.f` does. A promoted method is called with `&x.f`.)
* `SMCOption` shares its array with `SMCREyecatcher`: writing to the exported option changes
  which CLC messages and trailers are recognised (C72).
* Parsing into a copy of a Proposal can overwrite IPv6 prefixes of the original (C71).
* A Parse that panics leaves an object of new and old fields behind (C64, C65, C67), and
  with spare capacity also bytes that the buffer does not contain (C73).
* The dump behind an error line panics if the declared length is behind the capacity (C74).
* The second `StartServer` panics after it replaced the listener (C51).
* `Reserved()` of an SMC-D v2 Accept or Confirm hides EID bytes behind a NUL (C54).
* A malformed address or unknown port ends the process (C41). A resolver answering with
  an empty list makes `Dial`/`Listen` panic (C41).
* The `os.File` of `Dial`/`Listen` closes the descriptor number a second time when it is
  finalized, whoever owns that number by then (C43).

## 6. Testing the theorems

`seeded/LOG.jsonl` lists the wrong programs the theorems were tried on: edits of single
model definitions in a scratch copy. `method` tells how:

* `proofs`: the development was built with the edit, and every proof that no longer went
  through was given up. `failed` lists the property theorems among these and those that
  depend on them.
* `instances`: the specifications and the edited model were extracted and run on messages,
  their truncations and random changes of them. `failed` lists the property theorems for
  which this found a counterexample, so they are false for the edited model.

Edits with an empty `failed` have a `note` saying why nothing visible changes.
Entries with `tightened` are edits that survived at first; the named theorems were added
or made stronger because of them.

Beside the theorems there are examples (`_case`, `_example`, `_ex`) showing that their
hypotheses can be met; most are proved by the tactic `computes` of `Witness.v`.
