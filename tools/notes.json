{
 "C12": {
  "note": "The expectation 'never panics' is refuted with a 52-byte witness; the exact panic condition is proved, also for truncated buffers."
 },
 "C13": {
  "note": "The expectation 'never panics' is refuted with a 412-byte witness; the exact panic condition is proved, also for truncated buffers, and safety for counts up to 8."
 },
 "C15": {
  "note": "Proved for fixed formats; the exceptions (FCE of SMC-D v2, Proposals) are refuted with witnesses and characterised exactly."
 },
 "C16": {
  "note": "Proved for fixed formats (returned object or panic; only the log dump of too short messages shows bytes behind the slice). Refuted for Proposals, with sufficient conditions."
 },
 "C20": {
  "note": "'Shows what the message contains' is refuted for declared lengths above 114; what is shown is proved for every length."
 },
 "C26": {
  "note": "The expectation 'never panics' is refuted with a witness; the exact panic condition is proved."
 },
 "C30": {
  "note": "The two exceptions are refuted with witnesses and the actual texts are proved."
 },
 "C44": {
  "note": "The exception (Add Link) is refuted with a witness and characterised exactly."
 },
 "C47": {
  "note": "The case of missing entries is refuted with a witness; the full text in that case is in C19_proposalv2."
 },
 "C48": {
  "note": "'Parts are found at their offsets' is refuted with witnesses; C48_offsets_unused shows that the offset fields never influence anything but themselves."
 },
 "C38": {
  "note": "'Delivers everything it removes' is refuted with two schedules; what is removed and what is delivered is proved exactly."
 },
 "C41": {
  "note": "'Every failure is reported as an error' is refuted with witnesses; all outcomes are characterised exactly."
 },
 "C43": {
  "note": "'Closed exactly once' is proved for all schedules without finalizers and refuted with three schedules with finalizers. Finalizers, descriptor reuse and dup are modelled after the documentation of os.NewFile and net.FileConn."
 },
 "C59": {
  "note": "Without the hypothesis on separators it is refuted with a witness (C59_separators_refuted)."
 },
 "C64": {
  "note": "The expectation 'unchanged' is refuted with a witness; what is left behind is proved for all types. For Proposals the field list covers the fixed part; see C65 and C67 for the areas of variable size."
 },
 "C69": {
  "note": "A limit for reused Proposals is refuted; the limits are proved in terms of the number of prefixes held."
 },
 "C71": {
  "note": "That copies are independent is refuted; what can and cannot change is proved."
 },
 "C72": {
  "note": "That SMCOption can be changed without an effect on CLC messages is refuted."
 },
 "C73": {
  "note": "That the object depends on the bytes of the buffer alone is refuted; what it holds is proved for all types."
 },
 "C74": {
  "note": "That a panicking Parse logs nothing is refuted; what it logs and does is proved for all types."
 },
 "C75": {
  "note": "That all texts together determine a packet is refuted; which packets have the same texts is proved exactly."
 },
 "C76": {
  "note": "That texts determine the bytes is refuted (bytes in gaps); which sound messages have the same texts is proved exactly."
 },
 "C77": {
  "note": "That length and bytes decide without the capacity is refuted."
 },
 "C78": {
  "note": "With Parse(buf[:length]) and messages that are not sound, independence of the pieces is refuted; with Parse(buf[:length:length]) it is proved for all complete messages."
 },
 "C82": {
  "note": "That texts of all received messages are printable is refuted with a witness; what is proved is that only the names can make a difference."
 },
 "C83": {
  "note": "The functions of net/http, path and net/url were modelled without their source at hand and are part of the trusted base. That the query always stays the same is refuted with a witness."
 }
}