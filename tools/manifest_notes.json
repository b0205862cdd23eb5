{
 "C48": {
  "status": "proved",
  "note": "the expectation is false; refuted with a concrete text, and shown to fail for a whole family of texts"
 },
 "C37": {
  "status": "proved",
  "note": "the documented behaviour is false on an SSSE3-only x86 CPU: refuted with a concrete slice and shown to panic for every slice of at least 32 bytes; the companion theorem covers all other dispatch targets"
 },
 "C15": {
  "status": "proved",
  "note": "the documented error is false: refuted with a concrete input, and shown to be a panic for every short destination on the parallel path"
 },
 "C14": {
  "status": "proved",
  "note": "jobs run one after the other in an arbitrary order, each on an arbitrary implementation; C14_jobs_do_not_interfere is the data-race argument for finer interleavings"
 },
 "C57": {
  "status": "proved",
  "note": "order is preserved for hex, unpadded base32hex and uuid; the claims for base64, base32 and padded base32hex are refuted with concrete data"
 },
 "C58": {
  "status": "proved",
  "note": "the urn:uuid: prefix and forgiving base64 are refuted with concrete texts"
 },
 "C67": {
  "status": "proved",
  "note": "the lookup is proved for all index bytes; the same claim for the plain swizzle is refuted for indices 16..127"
 },
 "C71": {
  "status": "proved",
  "note": "agreement of the instruction sets on NaNs, zeros and subnormal numbers and symmetry on x86 are refuted; the semantics of the float instructions is part of the trusted base"
 },
 "C72": {
  "status": "proved",
  "note": "the endianness swaps on x86 with SSSE3 but without AVX2 are excluded by a hypothesis and shown to panic (C72_swap_refuted)"
 },
 "C73": {
  "status": "proved",
  "note": "decoding needs the stated bound on the hash values; without it the claim is refuted (C73_decode_refuted)"
 },
 "C75": {
  "status": "proved",
  "note": "the positive part (little-endian, ALSW, UTF-32) and the exact big-endian behaviour of hex, base64 and base32 blocks are universal; that these are wrong is by counterexample. Byte lanes are taken to be in memory order on both targets"
 },
 "C76": {
  "status": "proved",
  "note": "forgiving decoding is excluded and shown to depend on the data (C76_forgiving_refuted); constant tables are not counted; the width of a write is not part of the trace"
 },
 "C77": {
  "status": "proved",
  "note": "upper bounds: a loop that advances by several bytes is counted as if it advanced by one; a block copy counts as two accesses"
 },
 "C78": {
  "status": "proved",
  "note": "Exactness of the memory model itself: which accesses are defined and what they do. Widths and lengths are natural numbers; alignment is C64, address-space limits are in the usize properties."
 },
 "C79": {
  "status": "proved",
  "note": "results on big-endian are given exactly for every input; that they are wrong is by counterexample (C79_*_refuted). Same assumptions on AArch64 as C75"
 },
 "C80": {
  "status": "proved",
  "note": "the table of calls is transcribed from the source (tools/gen_intrinsics.py), the extension of each intrinsic from Intel's guide; both are trusted. Assumes that a CPU with AVX2 has AVX and all SSE levels below (x86_chain)"
 },
 "C81": {
  "status": "proved",
  "note": "prefixes (C81_*_prefix), impossible lengths (C81_*_truncated), text after padding (C81_*_after_padding)"
 },
 "C82": {
  "status": "proved",
  "note": "closed forms (C82_*_char, C82_*_byte), one change (C82_*_local); strict base64 decoding"
 },
 "C83": {
  "status": "proved",
  "note": "std's handle_alloc_error aborts; then the state is the one a hook sees. Vec::reserve_exact is taken to leave the vector unchanged when it fails, as std documents"
 },
 "C84": {
  "status": "proved",
  "note": "model of Stacked Borrows in Borrows.v; the functions that allocate are in C86; par_encode: all parts are made before the first job, jobs run one after the other in any order; C84_*_refuted are wrong programs"
 },
 "C85": {
  "status": "proved",
  "note": "Rename.v and RenameCodecs.v relate each function on two allocations to the same function on two parts of one"
 },
 "C86": {
  "status": "proved",
  "note": "model of allocations in BorrowsHeap.v, uuid ext.rs in BorrowsExt.v; C86_*_refuted are wrong programs"
 },
 "C87": {
  "status": "proved",
  "note": "model of Tree Borrows in TreeBorrows.v; an access outside the range for which a reference was made is not allowed; C87_*_refuted are wrong programs"
 },
 "C88": {
  "status": "proved",
  "note": "rules for allocation in TreeHeap.v; C88_*_refuted are wrong programs"
 }
}
