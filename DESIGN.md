# Formal model of Nugine/simd and what is proved about it

Prover: Rocq/Coq 8.16.1. Sources: `rocq/theories/*.v` (logical name `Verif`).
Properties: `properties.jsonl` (C01…C88). Status per property: `MANIFEST.json`.
Mutation log: `seeded/LOG.jsonl`.

## 1. Trusted base

* The Coq 8.16.1 kernel, including its `vm_compute` reduction machine (used for sweeps
  of finite domains such as "all 256 bytes"); no native compiler.
* No axioms: every theorem in the `Prop*.v` files is followed by `Print Assumptions`,
  and is expected to print `Closed under the global context`
  (the final list is in section 6).
* The fidelity of the model: definitions in the model files are hand transcriptions of the Rust
  functions, each with a comment giving file and lines. What Rust, LLVM and the CPU do with
  the code is not modelled beyond the semantics described in section 2.
  As a check of the transcription, `ModelTests.v` runs the repository's own tests (`tests/it.rs` of all crates and the test modules
  inside `src`) on the model, for every instruction set, and gets the values that the tests assert.
* The lane-wise meaning given to each CPU intrinsic in `Simd.v` (pshufb, pmaddubsw, vqtbl1q, …)
  is trusted; it follows the vendors' documentation. The x86 part was compared with a CPU: `tools/hardware.py`
  runs every vector intrinsic that the crates use except plain loads and stores (271 combinations of
  operation, lane type, instruction set and constant) on chosen and random vectors, and `Hardware.v` checks that the model
  gives the recorded results (4 cases each; 40 cases each were run once, without a difference). The wasm part was compared with
  V8 in the same way (`tools/wasm.py`, `HardwareWasm.v`, 117 combinations; 40 cases each run once, without a difference).
  These are tests, not proofs; nothing depends on them. The NEON meanings have not been compared with hardware.
* For C80 only: the table of intrinsic calls and guards in `Intrinsics.v` (extracted by `tools/gen_intrinsics.py`) and the CPU extension
  of every intrinsic (compared with the headers of gcc: all 159 names stand in the header of that extension).

## 2. What is modelled and how

* **Bytes** are integers `Z` in `[0,256)`; `u16/u32/u64` values are `Z` reduced modulo 2^w where
  Rust wraps. Pointers' offsets and lengths are `nat`; statements about `usize` overflow use `Z`
  with an explicit pointer width.
* **Memory** (`Mem.v`): a map from block number to a list of cells, a cell being a byte or
  *uninitialised*. A pointer is (block, offset). Every load, store, pointer addition and pointer
  subtraction is bounds-checked; leaving the block, reading an uninitialised byte or reaching
  `unreachable_unchecked` is the explicit outcome `UB`; `panic!`, `unreachable!()`,
  `unimplemented!()`, failed slice indexing is the explicit outcome `Panic`; loops carry fuel and
  running out is the explicit outcome `OutOfFuel`. A theorem "returns Ok x" excludes all of these.
  The pointer `src.add(n)` may be one past the end, as in Rust.
* **Slices and `Out<[u8]>`**: a (block, offset, length) triple inside memory. `dst` may be
  uninitialised. Source and destination are disjoint ranges (of one block or of two), or for the in-place functions the same range.
* **Instruction sets** (`Isa.v`, `Simd.v`): `Fallback`, `SSE2`, `SSSE3`, `SSE41`, `AVX2`, `NEON` on
  arm, `NEON` on aarch64, `WASM128`, with `matches_isa!` as in `isa.rs`. Each `SIMD128/SIMD256`
  primitive used by a codec is a function `isa -> operands -> option result`, transcribing the
  per-ISA branches; `None` is the final `unreachable!()`/`unimplemented!()`. 256-bit operations on
  non-AVX2 sets are modelled as in `simd256.rs`, as two 128-bit operations.
* **Const tables** (ALSW look-up tables, charsets, decode tables, shift tables) are computed in Coq
  by transcribing the `const fn`s, not copied as literals.
* **Typed lane operations** (`Vsimd.v`): `unified.rs` as tables of rows (instruction set, lane types, instruction);
  each instruction is one lane-wise integer function applied to all lanes. `Simd.v` is the hand-specialised copy
  that the codec models use; C52, C54 and C55 prove the two agree.
* **Public API layer**: the length checks, `Result`, in-place functions, `Vec`/`Box` producing
  functions (abstract allocator giving a fresh uninitialised block of the requested size), the
  dispatcher (`dispatch!`), rayon's parallel loop (any order of the chunk jobs).

### Not modelled

* Aliasing of references (Stacked Borrows) inside rayon, apart from the parts of the two slices that it makes (C84);
  timing; code generation.
* `#[cfg(test)]` code (but see `ModelTests.v`), benches, the traits `AppendHexDecode`, `FromBase32Encode`, … themselves
  (their methods forward to modelled functions; what the methods do is in `Heap.v` and `Public.v`),
  `Display` and `Debug` of the error types.
* rayon itself: `par_chunks…for_each` is "all chunk jobs run, in some order"; data races are excluded by
  the chunks being disjoint, which is proved. In C14 jobs run one after the other;
  C69 interleaves their memory accesses one by one.
* usize wrap-around inside the pointer loops: offsets are unbounded `nat`, justified because every
  pointer is proved to stay inside an allocated block.
* CPU feature detection: a CPU is a set of features closed under the x86 implication
  (AVX2 ⇒ SSE4.1 ⇒ SSSE3 ⇒ SSE2).

## 3. Specifications (independent of the model)

* `Spec.v`: RFC 4648 by bit strings. Bytes → bits (most significant first), cut into groups of
  4/5/6 bits, last group padded with zero bits, groups → characters by alphabet position, `=` padding
  up to a multiple of 8 (base32) or 4 (base64). No group-of-3/5 arithmetic and no shifts are used.
  Strict decoding is specified relationally: `decode s = Ok b  iff  s = encode b` (hex: after
  lower-casing `s`).
* Forgiving base64: the WHATWG algorithm, transcribed step by step with a bit buffer.
* uuid: positions of hyphens given as string concatenation.
* Unicode: `< 0x80`; scalar value ranges; byte reversal.

## 4. Plan per property

| Id | Modelled | Proof |
|----|----------|-------|
| C01 | base64 `encode` top level, all ISAs, both endiannesses | each loop maintains "dst holds encoding of the consumed prefix"; SIMD block lemma: concrete symbolic 32-byte vector, lane identities by finite sweeps; group encoding = bit-string spec |
| C02 | base64 `decode` | path = reference group decoder `dec_ref`; `dec_ref s = Some b ↔ s = enc b` |
| C03 | both | corollary of C01, C02 |
| C04 | `decode` on any two ISAs, forgiving included | both equal `dec_ref` |
| C05 | `check` | equals `dec_ref ≠ None` |
| C06, C07 | memory monad outcome `Ret` and frame condition | part of the loop invariants |
| C08 | `decode_inplace` | loop invariants stated for `bs ≠ bd ∨ d ≤ s`; |
| C09, C23, C29 | length functions over `Z` with width, explicit overflow checks at every operation | lia |
| C10 | API checks | direct |
| C11 | forgiving functions | whitespace removal + forgiving `dec_ref` = WHATWG |
| C12 | whitespace search, all ISAs | loop invariants, 256-sweep for the lane test |
| C13, C46 | heap.rs with abstract `Vec`/allocator | from the codec theorems |
| C14, C15 | `par_encode` with a list of jobs in any permutation | chunk compositionality (C47); refutation by evaluation |
| C16 | — | alphabet members are < 128 |
| C17–C22 | hex-simd | as base64 |
| C24–C28 | base32-simd | as base64; merge/split sweeps over 16-bit and 20-bit lanes |
| C30–C33 | uuid-simd | symbolic 32/36 byte vectors |
| C34, C35, C36 | unicode-simd | loop invariants |
| C37 | swap on SSSE3 | refutation by evaluation, positive companion |
| C38 | `alsw.rs` for five alphabets | 256×8 sweep per alphabet and ISA family, lifted to vectors |
| C39 | `dispatch!` state machine, `native.rs` | invariant: IFUNC ∈ {init, resolved value}; the first available target is found |
| C40 | all targets of the multiversion modules | consequence of the functional theorems (outcome is never `Panic`) |
| C41 | emulations | lane sweeps / sign-bit lemma |
| C42 | case conversion | 256 sweep |
| C43 | tables | 256 sweep |
| C44 | endianness parameter | theorems quantify over it |
| C45 | — | result formula does not mention the old contents |
| C47, C49, C50 | — | from the bit-string specification |
| C48 | base32 `decoded_length` | refutation by evaluation |
| C51, C53 | `unified.rs`, multiplication | one lemma per instruction for all lane types, row selection computed for the 8 × 8 instruction sets and types |
| C52 | `Simd.v` against `Vsimd.v` | the same lane function on both sides |
| C54 | zip, unzip, permute, reduce | symbolic vectors of lanes |
| C55 | shifts | lane arithmetic; refutation by evaluation |
| C56 | bit masks, `simulation.rs` | bit-by-bit loop invariant |
| C57 | — | lexicographic order of bit strings, groups and characters; refutations by evaluation |
| C58, C59, C60 | — | from the strict specification `decode s = Ok b iff s = encode b`; refutations by evaluation |
| C61 | `encode_to_string`, `decode_to_vec`, `String` appends (`Public.v`) | from C46, C13 and the round trip of the specifications |
| C62 | `check_raw`, `encode_raw`, `decode_raw` | same loops as C17–C22 |
| C64 | `Align.v`: addresses of blocks, aligned reads and writes | the aligned program equals the one of `Unicode.v`, by a loop invariant on the pointers |
| C65 | `tools::unroll`, `vector.rs` | folds over chunks |
| C66 | madd, maddubs, packus, widening, average on lane values | `vec` decomposition, induction over pairs of lanes |
| C67 | table lookup and swizzle | per index byte; the swizzle claim for indices 16..127 is refuted |
| C68 | byte swaps, blends, halves | computation on the 16/32 bytes, then lane values |
| C69 | interleaving of the jobs of `par_encode`, access by access | program trees; invariant: each thread, on its own cells, still has to do the rest of what it would do alone |
| C70 | public functions called by several threads at once, sources shared | every model function turned into a program by structural reification (`Reify.v`); frame theorem of C69 |
| C71 | f32/f64 `max` and `min` | bit patterns; the order by sign and magnitude is proved to be the order of the IEEE values; agreement on NaNs, zeros, subnormals refuted |
| C72 | whole programs: dispatch and memory accesses of all threads in one execution | simulation: a step within `auto` leaves the erased program unchanged, any other step is a step of C70; a weight bounds the steps within `auto` |
| C73 | `impl_alsw!` for an arbitrary alphabet | the neighbour's bits add a multiple of 16 to the hash; the offset table holds the entry of the smallest character; refutation by evaluation |
| C74 | threads that make sequences of public calls | each call alone has a run that stays within its memory; runs of consecutive calls compose, on the memory masked to what the thread may access; then the interleaving theorems of C70 and C72 |
| C75 | vector code on a target of either byte order | lane operations are conjugated with the reversal of every lane; identity for little-endian; big-endian: symbolic vectors, identities on single bytes |
| C76 | the addresses that a function accesses, for two contents of the memory | the programs of `Reify.v` related to themselves: same addresses, related results, until one of them stops; refuted for forgiving decoding |
| C77 | number of accesses of a call | costs are added along the programs of `Reify.v`: maximum over branches, bound on the iterations times the cost of the body; lengths bounded by the length of the text |
| C78 | load, store, pointer steps, table reads | from the definitions in `Mem.v`; cells compared position by position |
| C79 | whole functions of hex, base64, base32, UUIDs on AArch64 of either byte order | little-endian: the same program, step by step; big-endian: the loops of the other files over the blocks of `LaneOrder.v`, each block by C75 (`LaneOrderExact.v`, `LaneOrderExactWhole.v`: base64 and base32, the loops with the block results put in; `LaneOrderForgiving.v`: white space removal around it); wrong results by computing one input |
| C80 | all calls of x86 intrinsics with their guards | the table is finite: every guard, instruction set and intrinsic; then C39 |
| C81 | decoding a text and a continuation of it | the bits of the RFC values are the bits of the data and fewer than 8 zeros; characters before padding determine the values; whole bytes of a longer bit string |
| C82 | position of bits in texts and bytes | bit `k*j+i` of the source is bit `i` of value `j`; numbers with the same bits are equal |
| C83 | failed allocations and panics of the allocating functions | either nothing has changed, or the run is the one of `Heap.v` |
| C84 | aliasing rules (Stacked Borrows) of the public slice functions | every run of the annotated functions is allowed; wrong programs are not |
| C85 | each access stays in one buffer, also in one allocation | `touches` of the program of each public call; threads as in C70, with only the destination written |
| C86 | aliasing rules of the functions that allocate | as C84, with allocation, moving and freeing; wrong programs are refuted |
| C87 | aliasing rules (Tree Borrows) of the public slice functions | the programs of C84 with the other rules; wrong programs are refuted |
| C88 | aliasing rules (Tree Borrows) of the functions that allocate | the programs of C86 with the other rules; wrong programs are refuted |
| C63 | `uuid-simd/src/ext.rs` with stack buffers as blocks freed on return | from C30–C32 |

## 5. Which code is modelled, and where it is simplified

| Rust | Model | Remarks |
|------|-------|---------|
| `vsimd/src/isa.rs` | `Isa.v` | subtyping of instruction sets; `detect` is in `Dispatch.v` |
| `vsimd/src/{simd64,simd128,simd256,scalable,mask,bswap}.rs` | `Simd.v` | the operations that a codec calls |
| `vsimd/src/{unified,simulation}.rs`, remaining integer operations of `simd128.rs`/`simd256.rs` | `Vsimd.v` | loads and stores are in the codec models |
| `vsimd/src/unified.rs:650-908`, `f32`/`f64` rows | `Float.v` | a lane is its bit pattern; the NaN that NEON and wasm return is a parameter; 32-bit NEON flushes subnormal operands to zero; default rounding and flush modes elsewhere |
| `vsimd/src/{alsw,ascii,hex,table}.rs` | `Alsw.v`, `AlswTests.v`, `Unicode.v`, `Hex.v` | the table generator is modelled as a function of the alphabet |
| `vsimd/src/{macros,native}.rs` (dispatch) | `Dispatch.v` | |
| `hex-simd`, `base64-simd`, `base32-simd`, `uuid-simd`, `unicode-simd` | `Hex*.v`, `Base64*.v`, `Base32*.v`, `Uuid*.v`, `Unicode.v`, `Forgiving*.v` | `multiversion.rs` = the instruction-set argument |
| `*/heap.rs`, `vsimd/src/tools.rs` | `Heap.v`, `Unwind.v` | |
| raw functions, `encode_to_string`, `decode_to_vec`, `uuid-simd/src/ext.rs` | `Public.v` | a local `MaybeUninit` is a new block, freed on return; the caller's formatter is a function of the string |
| `base64-simd/src/parallel.rs` | `Parallel.v`; as single memory accesses: `Conc.v`, `ConcBase64.v`; with borrows: `BorrowsPar.v` | |
| all public functions on given memory, as single memory accesses | `Reify.v`, `ConcApi.v` | programs derived from the models above, one access for one access |
| sequence of accesses of a call | `Access.v` | `follows` (`Conc.v`): the program reads as the model function, access by access. Constant tables, local variables and the width of writes are not part of the sequence |
| `dispatch!` and the public functions together, macros.rs:84-131, the 18 `multiversion.rs` entries | `Whole.v` | one function pointer per entry; relaxed loads return any value stored so far |
| a thread that calls public functions one after the other | `Clients.v` | which calls a thread makes is a list fixed in advance: results are determined by the arguments |
| the block functions of hex, base64, base32, ALSW and UTF-32, with the lane order of the target | `LaneOrder.v` | NEON64 only; only the blocks |
| the loops around these blocks: encode, decode, check of hex, base64, base32; forgiving decoding; UUID parse and format | `LaneOrderWhole.v` | NEON64 only; the scalar parts are those of `Hex.v`, `Base64.v`, `Base32.v` |
| every x86 intrinsic call in vsimd, uuid-simd, unicode-simd: line, function, guard, name; extension of each intrinsic (Intel's guide) | `Intrinsics.v` | names only; what the instructions compute is in `Simd.v`, `Vsimd.v`, `Float.v`. ARM and WebAssembly intrinsics are not listed |
| typed accesses, aligned loads and stores, `tools::unroll`, `vector.rs` | `Align.v` | |

* **Instruction sets as an argument.** A codec model takes the instruction set `s` its `multiversion` wrapper was compiled for.
  Theorems quantify over the sets the code is dispatched to (`b64_isa`, `b32_isa`, `hyph_isa`, …); the sets left out would reach
  `unreachable!`, and C40 states that dispatch never selects them (except the bug of C37).
* **Endianness.** `en` (or the record `target`) gives the endianness of the scalar code and the pointer width. The vector models
  use the little-endian lane order. This is right for x86, wasm and little-endian arm. Theorems that quantify over `en` and over the
  instruction set say nothing about big-endian AArch64: there the lanes would be big-endian too. That case is `LaneOrder.v` (C75), on
  the assumption that `transmute` keeps the bytes in memory and that byte lanes are numbered in memory order.
* **Slices.** A slice theorem holds for every memory, block, offset and surrounding contents. Two slices are separate if they are in
  different blocks, or in disjoint ranges of one block. Offsets are natural numbers, so that no wrap-around is modelled; each pointer is proved to
  stay within its block, and C09/C23/C29/C46 treat the arithmetic on lengths in machine integers.
* **Alignment** is modelled in `Align.v` only, for the functions with typed accesses (`utf32.rs:27`, `bswap.rs:81,83`) and for the aligned vector
  loads and stores, which no codec calls; all other explicit accesses are of bytes or byte arrays, or `*_unaligned`.
* **`debug_assert!`** on run-time values is always checked in the models (outcome `Panic`), so the theorems cover debug builds;
  assertions on const generics are not modelled.
* **Constant shift counts.** The shifts of `Simd.v` are right for counts `0 < n < lane width`, the only counts used; C55 states what happens outside.
* **`cfg(miri)`** branches are modelled in `Vsimd.v` (C56) and not otherwise.
* **Dispatch** (`Dispatch.v`): each access to the function-pointer cell is atomic and threads interleave arbitrarily; a relaxed load may return
  any value stored so far. The detected features do not change while the program runs.
* **Heap** (`Heap.v`): the allocator is an adversary choosing a fresh block; it never fails there. `Unwind.v` has the same functions with an
  allocator that may refuse any size, and with the state that is left behind by a panic or by `handle_alloc_error` (C83).
  `String::from_utf8_unchecked` carries the obligation "all bytes are ASCII", which is proved (C16).
* **Borrows** (`Borrows.v`): the rules of Stacked Borrows as Miri checks them (per byte a stack of `Unique`, `SharedRW`, `SharedRO` and
  `Disabled` items; protectors of parameters). `BorrowsApi.v`: the public functions with their references and raw pointers,
  written by hand from the source: `annotates` (proved for each: `C84_only_borrows_added`, and the lemmas `*_ann`) says that they are the modelled functions with borrows
  added, but that the borrows are those of the source, and those of `core`'s `len`, `as_ptr`, `as_mut_ptr`,
  `from_raw_parts_mut`, is by inspection. `outref::Out` is taken to hold a raw pointer. A piece of code
  uses one tag per allocation; in `BorrowsParts.v`, where source and destination may be parts of one allocation, one per slice it was given. (C84)
  `PropBorrowsRules.v` shows what the rules give for every program.
  `BorrowsHeap.v`: the functions that allocate. A `Box` passed to a function is protected like a `&mut` (Rust protects it less); the pointer
  in a `Vec` or `String` is a raw pointer, as in std. The references to the `Box`, `Vec` and `String` values themselves, and what a panic does on
  the way out, are not modelled. The bodies of `Box::into_raw`, `Vec::from`, … are written from std by hand. `BorrowsExt.v`: the functions of uuid-simd/src/ext.rs;
  a local variable is a new allocation that is freed on return, and `src.as_ref()` and `self.0` are left to the caller. (C86)
  `BorrowsPar.v`: `par_encode`. Where rayon splits the two slices is arbitrary (`plan`); the parts are made with `split_at`, `split_at_mut`, `chunks` and
  `chunks_mut` as in core and rayon, written by hand. All parts are made before the first job; a job runs as a whole, and the order of the jobs is arbitrary.
  Passing the parts on inside rayon is not modelled. (C84)
* **Trees** (`TreeBorrows.v`): the rules of Tree Borrows for the same annotated functions (`BorrowsApi.v`). Per byte each reference is `Reserved` (with a
  conflict or without), `Active`, `Frozen` or `Disabled`; parameters are protected, and accessed once more when their function returns. A new reference reads
  its bytes; a cast to a raw pointer keeps the tag. Stricter than Miri: a pointer may only access bytes for which it was made (Miri
  makes up a permission for others). No types with interior mutability, no writes on function entry. Not covered:
  `par_encode`. (C87) `TreeParts.v` is `BorrowsParts.v` for these rules: source and destination may be parts of one allocation. The proof uses that
  each function leaves only calls that it has begun (`nests`). `PropTreeRules.v` shows what the rules give for every program. `PropHeapRules.v` does so
  for programs that allocate, with both models.
  `TreeHeap.v` is `BorrowsHeap.v` for these rules. Memory is freed by a write through the pointer of the owner, and no parameter of a running function may
  have a permission for it (Miri asks for less). That memory is freed only once is not a matter of these rules: a freed block has no bytes, and freeing no
  bytes is allowed. (C88)
* **Parallel** (`Parallel.v`): jobs are run one after the other in an arbitrary order; a non-interference theorem shows that every job
  reads only the source and writes only its own chunk of the destination.
* **Threads** (`Conc.v`): a program is a tree of loads and stores; a step of the pool is one access of one thread. Accesses take effect in one
  global order (sequential consistency). Rust guarantees that for programs without data races, and C69 proves that there are none. `C69`
  is about every program that has the effect of the job when run alone, so access sizes and the order of accesses within a job do not matter. `C70` is about
  every program that has the effect of the call and stores only to the allocation of its destination. If source and destination lie in one
  allocation, the source counts as written too (it may then not be shared); `C85` removes this. C72 and C74 are like C70.
* **Whole programs** (`Whole.v`): the steps of `auto` and the memory accesses of all threads are steps of one machine. The hypotheses of C72 name the
  build and the CPU only through `compiled_for` (the CPU has the features of the build), `target_of` (big-endian only without SIMD) and `swaps_work`.
* **Loops** carry fuel; every theorem says `Ret`, which excludes running out of it.
* **Not modelled in the crates**: `Display` of the error types, `pod::align`, `tools::print_fn_table`, test-only functions.

## 6. Axioms

`Print Assumptions` output of every property theorem: `Closed under the global context`.

`coqchk -o` lists, besides this, the seven fields of the module type `Coq.ssr.ssrunder.Under_rel`, which is loaded together
with the standard library's `ssreflect` files (through `lia`/`zify`). They belong to the standard library; no theorem here depends on them.
