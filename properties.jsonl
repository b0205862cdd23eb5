{"id": "C01", "title": "base64 encode equals RFC 4648", "statement": "Base64::encode(src, dst) (STANDARD, STANDARD_NO_PAD, URL_SAFE, URL_SAFE_NO_PAD) with a large enough dst returns Ok and the returned slice is exactly the RFC 4648 encoding of src: the bit string of src cut into 6-bit groups (last group zero-padded), each group mapped through the alphabet, then \"=\" padding iff the variant pads. The answer does not depend on which implementation (fallback, SSSE3, AVX2, NEON, WASM) runs; for the scalar code also not on the byte order of the target (C44; vector code on big-endian targets: C75).", "quantifier": "for every byte string src of any length, every variant, every implementation the dispatcher can select, every initial content of dst", "why_tests_cant": "Unbounded set of inputs; SIMD blocks, scalar 48-bit blocks, 24-bit blocks and tails meet at length-dependent boundaries, and a wrong bit shows only for particular byte values at particular positions; a test machine has one instruction set.", "anchors": ["crates/base64-simd/src/lib.rs: Base64::encode", "crates/base64-simd/src/encode.rs: encode_fallback, encode_simd, encode_extra, split_bits_x1, split_bits_x2, encode_values, encoding_shift"]}
{"id": "C02", "title": "base64 strict decode accepts exactly the canonical encodings", "statement": "For the padded and unpadded variants, decode(s) = Ok(b) if and only if s is the RFC 4648 encoding of b for that variant. So every non-canonical string is rejected: wrong length, missing/extra padding, foreign characters, non-zero trailing bits; no two strings decode to the same bytes.", "quantifier": "for every byte string s and every byte string b, every strict variant, every implementation", "why_tests_cant": "The rejected set is infinite; tests sample a few malformed strings, and the SIMD path validates 32 characters at once with a hashing trick whose false accepts/rejects depend on the character, its position and its neighbour.", "anchors": ["crates/base64-simd/src/lib.rs: Base64::decode", "crates/base64-simd/src/decode.rs: decoded_length, decode_fallback, decode_simd, decode_extra, decode_ascii8, decode_ascii4", "crates/base64-simd/src/alsw.rs", "crates/vsimd/src/alsw.rs"]}
{"id": "C03", "title": "base64 round trip across implementations", "statement": "decode(encode(b)) = Ok(b), where encode and decode may run on different implementations (for instance encoded with AVX2 and decoded by the scalar fallback).", "quantifier": "for every byte string b, every variant, every pair of implementations", "why_tests_cant": "Needs all lengths and all pairs of instruction sets.", "anchors": ["crates/base64-simd/src/encode.rs", "crates/base64-simd/src/decode.rs"]}
{"id": "C04", "title": "base64 decode agrees across implementations on every input", "statement": "For every input, valid or not, and every config (including the forgiving one), all SIMD decode implementations return Ok/Err exactly as the scalar fallback does, with the same bytes on Ok.", "quantifier": "for every byte string, every config, every implementation", "why_tests_cant": "Divergence on invalid input (one bad byte inside a 32-byte block) is exactly what example tests miss.", "anchors": ["crates/base64-simd/src/decode.rs: decode_fallback, decode_simd, decode_ascii32", "crates/base64-simd/src/multiversion.rs"]}
{"id": "C05", "title": "base64 check is equivalent to decode succeeding", "statement": "Base64::check(s) returns Ok if and only if Base64::decode(s) into a large enough buffer returns Ok, although check runs different code (no stores, check-only ALSW table, null destination pointer).", "quantifier": "for every byte string s, every variant, every implementation pair", "why_tests_cant": "Two separate implementations must agree on an infinite set of invalid inputs.", "anchors": ["crates/base64-simd/src/lib.rs: Base64::check", "crates/base64-simd/src/check.rs: check_fallback, check_simd", "crates/base64-simd/src/decode.rs"]}
{"id": "C06", "title": "base64 encode memory safety", "statement": "Base64::encode never reads outside src, never reads an uninitialised byte, never writes outside dst[..m] (m = encoded length), never forms an out-of-bounds pointer, leaves src unchanged, leaves dst[m..] unchanged and initialises all of dst[..m]; this includes the loads that start 4 bytes before the current position and the 8-byte scalar loads.", "quantifier": "for every src, every dst at least as long as the encoded length (contents possibly uninitialised), every variant and implementation", "why_tests_cant": "An out-of-bounds vector load is usually invisible at run time; only the exact arithmetic of every length decides it.", "anchors": ["crates/base64-simd/src/encode.rs: encode_bits48, encode_simd", "crates/base64-simd/src/lib.rs: Base64::encode"]}
{"id": "C07", "title": "base64 decode and check memory safety, also on failure", "statement": "Base64::decode never reads outside src and never writes outside dst[..m] where m is the decoded length, although the scalar loop stores 8 bytes for 6 results and the SIMD loop stores two overlapping 16-byte vectors for 24 results; this holds also when decoding fails half way. Base64::check never reads outside src and writes nothing.", "quantifier": "for every src (valid or not), every dst at least m bytes long, every config and implementation", "why_tests_cant": "Over-wide stores past the logical end are only safe because of the loop bounds 11 and 38; tests cannot cover all lengths times failure positions.", "anchors": ["crates/base64-simd/src/decode.rs: decode_ascii8, decode_simd, decode_fallback"]}
{"id": "C08", "title": "base64 decode_inplace equals decode", "statement": "decode_inplace(data) returns Ok/Err exactly when decode of the same bytes into a separate buffer does, with the same result bytes; source characters are never overwritten before they have been consumed; on success the bytes after the result are left as they were.", "quantifier": "for every data, every config, every implementation", "why_tests_cant": "Aliasing of source and destination interacts with over-wide stores at every offset.", "anchors": ["crates/base64-simd/src/lib.rs: Base64::decode_inplace", "crates/base64-simd/src/decode.rs"]}
{"id": "C09", "title": "base64 length functions are exact and never overflow", "statement": "encoded_length(n) equals the length of every encoding of n bytes and panics iff n > usize::MAX/2, with no intermediate overflow; decoded_length(s) = Ok(m) implies that decode(s), if it succeeds, returns exactly m bytes, and decode(s)=Ok implies decoded_length(s)=Ok; estimated_decoded_length(n) does not overflow and is at least the decoded length of every string of length n.", "quantifier": "for every usize n (32- and 64-bit), every variant, every string", "why_tests_cant": "Arithmetic near usize::MAX cannot be exercised with real buffers.", "anchors": ["crates/base64-simd/src/lib.rs: encoded_length, estimated_decoded_length, decoded_length", "crates/base64-simd/src/encode.rs: encoded_length_unchecked", "crates/base64-simd/src/decode.rs: decoded_length"]}
{"id": "C10", "title": "too-short output buffers give Err and touch nothing", "statement": "If dst is shorter than required, encode and decode of hex, base64 and base32 return Err and no byte of any buffer is written; if it is at least that long, the only other reason for Err is invalid content.", "quantifier": "for every src, every dst length, every variant, all three codecs", "why_tests_cant": "Needs all pairs of lengths.", "anchors": ["crates/base64-simd/src/lib.rs: encode, decode", "crates/base32-simd/src/lib.rs: encode, decode", "crates/hex-simd/src/lib.rs: encode, decode"]}
{"id": "C11", "title": "forgiving decode follows the WHATWG algorithm", "statement": "forgiving_decode, forgiving_decode_inplace and forgiving_decode_to_vec return Ok(bytes) or Err exactly as the WHATWG Infra \"forgiving-base64 decode\" algorithm: strip ASCII whitespace; if length is a multiple of 4 remove one or two trailing \"=\"; if length mod 4 is 1 fail; fail on any other character; accumulate 6-bit values and drop the trailing 2 or 4 bits whatever their value.", "quantifier": "for every byte string (of code units 0..255), every implementation", "why_tests_cant": "All interleavings of whitespace, padding and characters; web-platform tests are a finite list.", "anchors": ["crates/base64-simd/src/forgiving.rs", "crates/base64-simd/src/ascii.rs", "crates/base64-simd/src/lib.rs: STANDARD_FORGIVING"]}
{"id": "C12", "title": "ASCII whitespace search", "statement": "find_non_ascii_whitespace (which, despite its name, looks for whitespace) returns the index of the first ASCII whitespace byte (TAB, LF, FF, CR, SPACE) or the length if there is none, in every implementation, reading only inside the slice.", "quantifier": "for every byte string, every implementation", "why_tests_cant": "The AVX2 path has a second 16-byte probe after breaking out of the 32-byte loop; all positions modulo 32 and all lengths matter.", "anchors": ["crates/base64-simd/src/ascii.rs: find_non_ascii_whitespace_simd, find_non_ascii_whitespace_fallback, has_ascii_whitespace"]}
{"id": "C13", "title": "append functions append, and leave the vector unchanged on error", "statement": "encode_append(src, buf) makes buf = old ++ encoding; decode_append(src, buf) = Ok makes buf = old ++ decoded, and Err leaves length and contents of buf unchanged; only initialised bytes become part of the vector length. For hex, base64 and base32.", "quantifier": "for every src, every prior vector content and every spare capacity", "why_tests_cant": "Partial writes into spare capacity on failure must never become visible; set_len soundness depends on every byte having been written.", "anchors": ["crates/hex-simd/src/heap.rs", "crates/base64-simd/src/heap.rs", "crates/base32-simd/src/heap.rs"]}
{"id": "C14", "title": "par_encode equals encode", "statement": "With the parallel feature, par_encode(src,dst) writes exactly the same bytes as encode for any number of threads and any order in which the chunk jobs run.", "quantifier": "for every src, every dst at least as long as needed, every thread count >= 1, every execution order of the chunks", "why_tests_cant": "Schedules and thread counts are unbounded; the chunk boundaries and last-chunk padding choice depend on both.", "anchors": ["crates/base64-simd/src/parallel.rs: par_encode"]}
{"id": "C15", "title": "par_encode reports a short buffer as Err (refuted)", "statement": "The documentation says par_encode returns Err if the length of dst is not enough. On the parallel path it instead panics on the slice index. The theorem exhibits inputs for which the documented behaviour fails.", "quantifier": "exists src, dst length, thread count", "why_tests_cant": "Only reachable with large inputs and a short buffer, which the test-suite never tries.", "anchors": ["crates/base64-simd/src/parallel.rs: par_encode"]}
{"id": "C16", "title": "encoders only produce ASCII, so the unchecked str conversion is sound", "statement": "All bytes produced by the hex, base64, base32 encoders and by the uuid formatters are below 0x80, hence valid UTF-8, so from_utf8_unchecked in encode_as_str / boxed_str is never applied to invalid UTF-8.", "quantifier": "for every input, variant and implementation", "why_tests_cant": "Soundness of unsafe code for all inputs.", "anchors": ["crates/hex-simd/src/lib.rs: encode_as_str", "crates/base64-simd/src/lib.rs: encode_as_str", "crates/base32-simd/src/lib.rs: encode_as_str", "crates/vsimd/src/tools.rs: boxed_str"]}
{"id": "C17", "title": "hex encode equals RFC 4648 base16", "statement": "hex encode(src,dst,case) returns the base16 encoding of src (4-bit groups through \"0123456789abcdef\" or its upper-case form) in every implementation.", "quantifier": "for every src, case, implementation", "why_tests_cant": "Three different SIMD algorithms (SSE2 arithmetic, 128-bit and 256-bit table lookup) with different tails, over unbounded inputs.", "anchors": ["crates/hex-simd/src/encode.rs", "crates/vsimd/src/hex.rs: encode_bytes16, encode_bytes32, sse2::encode16"]}
{"id": "C18", "title": "hex decode accepts exactly even-length hex strings, case-insensitively", "statement": "decode(s) = Ok(b) if and only if the ASCII-lower-cased s equals the lower-case base16 encoding of b; every other string is Err. Same for every implementation.", "quantifier": "for every byte string s, every b, every implementation", "why_tests_cant": "False accepts of the flag accumulation or of the SIMD hash can depend on any byte value at any lane.", "anchors": ["crates/hex-simd/src/decode.rs", "crates/vsimd/src/hex.rs: unhex, decode_ascii16, decode_ascii32, decode_ascii32x2, sse2::decode_nibbles, sse2::merge_bits"]}
{"id": "C19", "title": "hex check", "statement": "check(s) = Ok iff every byte of s is one of 0-9, a-f, A-F (any length); hence decode(s) is Ok iff check(s) is Ok and the length is even. Same for every implementation.", "quantifier": "for every byte string s, every implementation", "why_tests_cant": "Unbounded inputs, different SIMD algorithm from decode.", "anchors": ["crates/hex-simd/src/check.rs", "crates/vsimd/src/hex.rs: check_xn"]}
{"id": "C20", "title": "hex round trips", "statement": "decode(encode(b, case)) = Ok(b) for both cases and any pair of implementations; and if decode(s) = Ok(b) then encode(b, Lower) is s with ASCII letters lower-cased.", "quantifier": "for all b, s, case, implementations", "why_tests_cant": "Unbounded.", "anchors": ["crates/hex-simd/src/encode.rs", "crates/hex-simd/src/decode.rs"]}
{"id": "C21", "title": "hex memory safety", "statement": "hex check/encode/decode never read outside src, never write outside dst[..m], never read uninitialised memory, leave src and dst[m..] unchanged and initialise dst[..m] on success, also when decode fails half way.", "quantifier": "for every src, dst, implementation", "why_tests_cant": "Out-of-bounds vector accesses are silent at run time.", "anchors": ["crates/hex-simd/src/encode.rs", "crates/hex-simd/src/decode.rs", "crates/hex-simd/src/check.rs", "crates/hex-simd/src/lib.rs"]}
{"id": "C22", "title": "hex decode_inplace equals decode", "statement": "decode_inplace(data) has the same outcome and result as decode into a fresh buffer.", "quantifier": "for every data and implementation", "why_tests_cant": "Aliasing.", "anchors": ["crates/hex-simd/src/lib.rs: decode_inplace, decode_raw", "crates/hex-simd/src/decode.rs"]}
{"id": "C23", "title": "hex length functions", "statement": "encoded_length(n)=2n and panics iff n > usize::MAX/2 (no overflow otherwise); decoded_length(n)=Ok(n/2) iff n even; they agree with the lengths produced by encode/decode.", "quantifier": "for every usize n", "why_tests_cant": "Arithmetic near usize::MAX.", "anchors": ["crates/hex-simd/src/lib.rs: encoded_length, decoded_length"]}
{"id": "C24", "title": "base32 encode equals RFC 4648", "statement": "Base32::encode (BASE32, BASE32HEX, padded or not) returns the RFC 4648 base32 encoding: 5-bit groups through the alphabet and \"=\" padding to a multiple of 8 iff the variant pads; in every implementation, and for the scalar code for both byte orders of the target (vector code on big-endian targets: C75).", "quantifier": "for every src, variant, implementation; scalar code: target endianness", "why_tests_cant": "The SIMD path loads at src-6 after ten scalar bytes; every length and content matters.", "anchors": ["crates/base32-simd/src/encode.rs", "crates/base32-simd/src/lib.rs: Base32::encode"]}
{"id": "C25", "title": "base32 decode accepts exactly the canonical encodings", "statement": "decode(s) = Ok(b) iff s is the RFC 4648 base32 encoding of b for that variant; everything else (lower case, misplaced padding, non-zero trailing bits, impossible lengths) is Err.", "quantifier": "for every s, b, variant, implementation", "why_tests_cant": "Infinite set of malformed strings.", "anchors": ["crates/base32-simd/src/decode.rs", "crates/base32-simd/src/lib.rs: Base32::decode", "crates/base32-simd/src/alsw.rs"]}
{"id": "C26", "title": "base32 check is equivalent to decode succeeding", "statement": "Base32::check(s) = Ok iff Base32::decode(s) into a large enough buffer is Ok.", "quantifier": "for every s, variant, implementation pair", "why_tests_cant": "Two implementations, all invalid inputs.", "anchors": ["crates/base32-simd/src/check.rs", "crates/base32-simd/src/decode.rs"]}
{"id": "C27", "title": "base32 memory safety", "statement": "Base32 encode/decode/check never read outside src (including the loads at src-6), never write outside dst[..m] (including the two overlapping 16-byte stores), never read uninitialised bytes, leave src and dst[m..] unchanged; also on failure.", "quantifier": "for every src, dst, variant, implementation", "why_tests_cant": "Silent out-of-bounds accesses.", "anchors": ["crates/base32-simd/src/encode.rs: encode_simd", "crates/base32-simd/src/decode.rs: decode_simd"]}
{"id": "C28", "title": "base32 decode_inplace equals decode", "statement": "decode_inplace(data) has the same outcome and result as decode into a fresh buffer, on every implementation.", "quantifier": "for every data, variant, implementation", "why_tests_cant": "Aliasing with overlapping stores.", "anchors": ["crates/base32-simd/src/lib.rs: decode_inplace", "crates/base32-simd/src/decode.rs"]}
{"id": "C29", "title": "base32 length functions", "statement": "encoded_length(n) is exact and panics iff n > usize::MAX/2 with no intermediate overflow; decoded_length(s)=Ok(m) gives the exact decoded size whenever decode succeeds; estimated_decoded_length(n) never overflows and bounds every decoded length.", "quantifier": "for every usize n, every variant, every string", "why_tests_cant": "Arithmetic near usize::MAX.", "anchors": ["crates/base32-simd/src/lib.rs: encoded_length, estimated_decoded_length, decoded_length"]}
{"id": "C30", "title": "uuid formatting", "statement": "format_simple and format_hyphenated produce the 32 hex digits of the 16 bytes, respectively 8-4-4-4-12 digits separated by hyphens, in the requested case, in every implementation, writing exactly 32 / 36 bytes.", "quantifier": "for every 16-byte value, case, implementation", "why_tests_cant": "2^128 inputs.", "anchors": ["crates/uuid-simd/src/format.rs", "crates/uuid-simd/src/lib.rs: format_simple, format_hyphenated"]}
{"id": "C31", "title": "uuid parsing accepts exactly the four documented forms", "statement": "parse(s) = Ok(u) iff s is (case-insensitively in the hex digits) the simple form, the hyphenated form, the hyphenated form in braces, or \"urn:uuid:\" followed by the hyphenated form, of u; parse_simple / parse_hyphenated accept exactly their own form. All else is Err.", "quantifier": "for every byte string s, every u, every implementation", "why_tests_cant": "Infinite malformed inputs; hyphen positions are shuffled away in the SIMD path so a misplaced character could go unnoticed.", "anchors": ["crates/uuid-simd/src/lib.rs: parse, parse_simple, parse_hyphenated", "crates/uuid-simd/src/parse.rs", "crates/uuid-simd/src/spec.rs"]}
{"id": "C32", "title": "uuid round trips", "statement": "parse(format(u)) = Ok(u) for both forms and both cases and any pair of implementations.", "quantifier": "for all u, forms, cases, implementations", "why_tests_cant": "2^128 inputs.", "anchors": ["crates/uuid-simd/src/parse.rs", "crates/uuid-simd/src/format.rs"]}
{"id": "C33", "title": "uuid memory safety", "statement": "parsing reads only the 32/36 source bytes and writes exactly the 16 destination bytes; formatting reads 16 and writes exactly 32/36 bytes; src unchanged; all outputs initialised on success.", "quantifier": "for every input, implementation", "why_tests_cant": "Unaligned 32-byte plus 2-byte plus 4-byte accesses at fixed offsets.", "anchors": ["crates/uuid-simd/src/parse.rs", "crates/uuid-simd/src/format.rs"]}
{"id": "C34", "title": "is_ascii", "statement": "is_ascii(data) is true iff every byte is below 0x80, for every implementation including the SSE2 one with overlapping loads; it reads only inside data. from_ascii(data) returns Some(data) iff is_ascii.", "quantifier": "for every byte string, implementation", "why_tests_cant": "Overlapping head/tail loads must cover every byte for every length; each length class has its own code.", "anchors": ["crates/unicode-simd/src/ascii.rs", "crates/unicode-simd/src/lib.rs: is_ascii, from_ascii"]}
{"id": "C35", "title": "is_utf32le", "statement": "is_utf32le(data) is true iff every element is a Unicode scalar value (below 0xD800, or 0xE000..0x10FFFF), in every implementation.", "quantifier": "for every slice of u32, implementation", "why_tests_cant": "2^32 values per element at any position, accumulated by a maximum.", "anchors": ["crates/unicode-simd/src/utf32.rs"]}
{"id": "C36", "title": "endianness swapping", "statement": "On every implementation in which it does not panic (see C37), utf16/utf32_swap_endianness write to dst[..len] exactly the byte-swapped elements of src, leave dst[len..] and src unchanged; the in-place versions give the same; applying the swap twice is the identity.", "quantifier": "for every slice, implementation other than SSSE3-only", "why_tests_cant": "Unbounded lengths, block plus tail.", "anchors": ["crates/unicode-simd/src/lib.rs: utf16_swap_endianness, utf32_swap_endianness", "crates/vsimd/src/bswap.rs"]}
{"id": "C37", "title": "endianness swapping never panics when dst is long enough (refuted)", "statement": "The documentation allows a panic only if src.len() > dst.len(). On an x86 CPU with SSSE3 but without SSE4.1 and AVX2 the dispatcher selects the ssse3 implementation, whose u16x8_bswap / u32x4_bswap only handle SSE4.1 and end in unreachable!(): any slice with at least 32 bytes panics. The theorem exhibits it; a companion theorem shows no other dispatch target can reach unreachable!().", "quantifier": "exists feature set and slice; and for all other targets no panic", "why_tests_cant": "Needs a 2006-era CPU; the functions are marked \"TODO: test\".", "anchors": ["crates/unicode-simd/src/multiversion.rs: utf32_swap_endianness, utf16_swap_endianness", "crates/vsimd/src/simd128.rs: u16x8_bswap, u32x4_bswap", "crates/vsimd/src/simd256.rs: u16x16_bswap, u32x8_bswap"]}
{"id": "C38", "title": "ALSW validation and decoding are exact for every lane and every neighbour", "statement": "For each of the five alphabets (hex, base64 standard/url-safe, base32, base32hex), check_ascii_xn accepts a vector iff every byte is in the alphabet, and decode_ascii_xn yields flags with no high bit iff every byte is in the alphabet and, in that case, every lane decodes to its value; although the 32-bit shift leaks three bits of the neighbouring byte into each lane.", "quantifier": "for every vector of bytes, lane, alphabet, SIMD instruction set", "why_tests_cant": "The repository tests check each byte with the neighbour bits fixed to 111 only.", "anchors": ["crates/vsimd/src/alsw.rs: check_ascii_xn, decode_ascii_xn, impl_alsw", "crates/vsimd/src/table.rs: u8x16xn_lookup", "crates/vsimd/src/hex.rs: HexAlsw", "crates/base64-simd/src/alsw.rs", "crates/base32-simd/src/alsw.rs"]}
{"id": "C39", "title": "run-time dispatch is sound under any history and interleaving", "statement": "auto(..) always runs a function whose instruction set is enabled on the CPU (or the fallback), for every sequence and every interleaving of concurrent calls using relaxed atomic accesses to IFUNC, with any CPU feature set and compile-time feature set; the result therefore does not depend on history. Moreover it is the best one: the function of the first target of the invocation that belongs to the architecture and whose CPU feature is known to be present (compiled for it, or detected); the fallback runs only if there is none. The function pointer is written only by calls that find it unresolved, and always with the function they run. The same holds for vsimd::native.", "quantifier": "for every feature set, every number of threads, every interleaving, every relaxed-visible value", "why_tests_cant": "Races on first use and unusual feature sets cannot be enumerated by tests.", "anchors": ["crates/vsimd/src/macros.rs: dispatch!", "crates/vsimd/src/isa.rs"]}
{"id": "C40", "title": "no dispatched codec path reaches unreachable!/unimplemented!", "statement": "For every dispatch target listed in the multiversion modules of hex, base64, base32, uuid (and unicode except C37), running the function never reaches an unreachable!() or unimplemented!() arm of a vsimd primitive.", "quantifier": "for every target, input", "why_tests_cant": "Each primitive implements a different subset of instruction sets; coverage needs every target machine.", "anchors": ["crates/vsimd/src/simd128.rs", "crates/vsimd/src/simd256.rs", "crates/vsimd/src/unified.rs", "crates/vsimd/src/mask.rs", "crates/vsimd/src/table.rs"]}
{"id": "C41", "title": "emulated SIMD primitives agree with their lane-wise meaning on every instruction set", "statement": "Unsigned less-than (u8/u16/u32) emulated by max/eq/xor or by sign-bit flipping on x86, bytewise arithmetic and bit operations, broadcasts, byte swaps, v256 primitives composed of two v128 halves, mask all/any, highbit all/any, all_zero, any_zero, bsl, not, all equal their lane-wise definitions on every instruction set that supports them.", "quantifier": "for every vector, instruction set", "why_tests_cant": "Vectors have 2^128 / 2^256 values; each instruction set has its own sequence.", "anchors": ["crates/vsimd/src/unified.rs: lt", "crates/vsimd/src/mask.rs", "crates/vsimd/src/simd128.rs", "crates/vsimd/src/simd256.rs"]}
{"id": "C42", "title": "ASCII case conversion", "statement": "vsimd to_ascii_lowercase/to_ascii_uppercase convert exactly the ASCII letters of every lane and leave all other bytes unchanged.", "quantifier": "for every vector, instruction set, width", "why_tests_cant": "Vector space size.", "anchors": ["crates/vsimd/src/ascii.rs: convert_ascii_case"]}
{"id": "C43", "title": "scalar decode tables are exactly the inverses of the alphabets", "statement": "unhex, the base64 tables and the base32 tables map each alphabet character to its value and every other byte to 0xff (hex: both cases).", "quantifier": "for every byte", "why_tests_cant": "Finite; stated because every scalar tail relies on it.", "anchors": ["crates/vsimd/src/hex.rs: unhex", "crates/base64-simd/src/decode.rs: decode_table", "crates/base32-simd/src/decode.rs: decoding_table"]}
{"id": "C44", "title": "results of the scalar code do not depend on target endianness", "statement": "The scalar code that reads or writes multi-byte integers (base64 encode_bits48 / decode_ascii8, base32 read_be_bytes / write_be_bytes) gives the same bytes on little- and big-endian targets.", "quantifier": "for every input and both endiannesses", "why_tests_cant": "CI runs little-endian machines.", "anchors": ["crates/base64-simd/src/encode.rs: encode_bits48", "crates/base64-simd/src/decode.rs: decode_ascii8", "crates/base32-simd/src/encode.rs: read_be_bytes", "crates/base32-simd/src/decode.rs: write_be_bytes"]}
{"id": "C45", "title": "output does not depend on previous contents of the output buffer", "statement": "Encoding or decoding into two buffers with different previous (even uninitialised) contents gives the same result bytes and the same Ok/Err.", "quantifier": "for all inputs, all pairs of buffer contents, implementations", "why_tests_cant": "Reads of the destination (or of uninitialised memory) are input dependent.", "anchors": ["crates/base64-simd/src/lib.rs", "crates/base32-simd/src/lib.rs", "crates/hex-simd/src/lib.rs"]}
{"id": "C46", "title": "allocating functions never allocate a wrong size", "statement": "encode_type/encode_to_string and decode_type (heap) call alloc_uninit_bytes only with 0 < len <= isize::MAX, allocate exactly the number of bytes then written, and return exactly the encoding / decoding; they panic only if the encoded length exceeds isize::MAX (and never by arithmetic overflow for slices of at most isize::MAX bytes).", "quantifier": "for every src of at most isize::MAX bytes, every variant, 32- and 64-bit", "why_tests_cant": "Sizes near the address-space limit; unsafe allocator contract.", "anchors": ["crates/hex-simd/src/heap.rs", "crates/base64-simd/src/heap.rs", "crates/base32-simd/src/heap.rs", "crates/vsimd/src/tools.rs: alloc_uninit_bytes"]}
{"id": "C47", "title": "base64 encoding is compositional", "statement": "If the length of a is a multiple of 3 then encode(a ++ b) = encode(a) ++ encode(b) (for a multiple of 3 no padding is produced); similarly base32 with 5 and hex with 1. This is what chunked/parallel encoding relies on.", "quantifier": "for all a, b", "why_tests_cant": "Unbounded.", "anchors": ["crates/base64-simd/src/parallel.rs", "crates/base64-simd/src/encode.rs"]}
{"id": "C48", "title": "base32 public decoded_length accepts only strings with well-formed padding (refuted)", "statement": "One may expect decoded_length(s) = Ok only if the padding is a contiguous run at the end. It counts \"=\" anywhere among the last six characters, so malformed strings get Ok; decode still rejects them (C25). The theorem exhibits such a string.", "quantifier": "exists s", "why_tests_cant": "Nobody tests decoded_length on malformed strings.", "anchors": ["crates/base32-simd/src/decode.rs: decoded_length", "crates/base32-simd/src/lib.rs: decoded_length"]}
{"id": "C49", "title": "url-safe and standard alphabets differ only in two characters", "statement": "The URL-safe encoding of b is the standard one with \"+\" replaced by \"-\" and \"/\" by \"_\" and nothing else, on every implementation; decode is related the same way.", "quantifier": "for every b, implementation", "why_tests_cant": "Two sets of lookup tables and shift tables must be consistent for all values.", "anchors": ["crates/base64-simd/src/encode.rs: encoding_shift", "crates/base64-simd/src/alsw.rs", "crates/base64-simd/src/lib.rs: charsets"]}
{"id": "C50", "title": "encoders are injective", "statement": "Different byte strings have different encodings (hex in a fixed case, base64 and base32 in a fixed variant, uuid in a fixed form and case).", "quantifier": "for all pairs of inputs, implementations", "why_tests_cant": "Pairs of unbounded inputs.", "anchors": ["crates/hex-simd/src/encode.rs", "crates/base64-simd/src/encode.rs", "crates/base32-simd/src/encode.rs", "crates/uuid-simd/src/format.rs"]}
{"id": "C51", "title": "typed lane arithmetic and comparison of vsimd", "statement": "For every integer lane type T and both vector widths, splat/add/sub/eq/lt/add_sat/sub_sat/max/min of unified.rs compute, lane by lane, wrapping addition and subtraction, comparison masks, saturating addition and subtraction and max/min of T, on every instruction set that has a row for T; exactly the documented types are supported (all others are unreachable!), and the result does not depend on the instruction set. Unsigned comparison through max or through flipping sign bits is exact.", "quantifier": "for every lane type, vector width, instruction set and every pair of vectors", "why_tests_cant": "2^256 pairs per type; emulated comparisons per instruction set.", "anchors": ["crates/vsimd/src/unified.rs: splat, add, sub, eq, lt, add_sat, sub_sat, max, min"]}
{"id": "C52", "title": "the vector primitives of the codecs are the generic ones", "statement": "The byte, 16-bit and 32-bit operations that the codecs call (u8x16_add, u16x16_lt, u32x8_max, ...) are the generic operations of unified.rs at that lane type, for both widths and every instruction set, including where they are unsupported.", "quantifier": "for every instruction set and all vectors", "why_tests_cant": "Ties the codec models to the generic operations; all vectors.", "anchors": ["crates/vsimd/src/simd128.rs", "crates/vsimd/src/simd256.rs", "crates/vsimd/src/unified.rs"]}
{"id": "C53", "title": "lane multiplication", "statement": "i16 mul_lo and i32 mul_lo give the wrapped product of every lane; i16 and u16 mul_hi give the high half of the full product; each is unreachable! exactly on the instruction sets without the instruction.", "quantifier": "for all vectors, both widths, every instruction set", "why_tests_cant": "All pairs of lane values; signedness of the high half.", "anchors": ["crates/vsimd/src/simd128.rs: i16x8_mul_lo, i32x4_mul_lo, u16x8_mul_hi, i16x8_mul_hi", "crates/vsimd/src/simd256.rs: the x16/x8 versions"]}
{"id": "C54", "title": "lane moves: zip, unzip, permute, reduce", "statement": "zip_lo/zip_hi interleave the low/high halves for 8-, 16-, 32- and 64-bit lanes (per 128-bit half on V256), unzip_even/unzip_odd collect the even/odd lanes of the concatenation, unzip undoes zip, u64x4_permute::<IMM8> selects lane (IMM8 >> 2i) & 3, and reduce_max/reduce_min return the largest/smallest byte; the wasm shuffle constants are right.", "quantifier": "for all vectors, every instruction set, every immediate", "why_tests_cant": "Index tables written by hand for each instruction set.", "anchors": ["crates/vsimd/src/simd128.rs: *_zip_lo, *_zip_hi, u8x16_unzip_even, u8x16_unzip_odd", "crates/vsimd/src/simd256.rs: *_zip_*, *_unzip_*, u64x4_permute, u8x32_reduce_max/min"]}
{"id": "C55", "title": "constant shifts agree between instruction sets for counts in range, and only there", "statement": "For a count n with 0 < n < lane width the 16- and 32-bit shl/shr compile on every instruction set and give x * 2^n wrapped / x / 2^n in each lane. Other counts: x86 gives 0 from the lane width on, WASM takes the count modulo the lane width, NEON right shifts by the lane width give 0 and larger counts do not compile, a shift by 0 changes nothing. So for n = lane width the SSE2 and WASM left shifts both compile and give different results, and the NEON one does not compile.", "quantifier": "for all vectors, counts, widths and instruction sets", "why_tests_cant": "Count is a const generic; only the used counts are ever instantiated.", "anchors": ["crates/vsimd/src/simd128.rs: u16x8_shl, u16x8_shr, u32x4_shl, u32x4_shr", "crates/vsimd/src/simd256.rs: u16x16_shl .. u32x8_shr"]}
{"id": "C56", "title": "bit masks and the miri simulation of intrinsics", "statement": "Bit i of u8x16_bitmask/u8x32_bitmask is the top bit of byte i. The scalar replacements used under miri (u8x16_max, u8x16_min, u8x16_bitmask, u16x8_shl/shr, i16x8_packus) return what the instruction returns, for shift counts below 16; from 16 on they do not (refuted: panic in a checked build).", "quantifier": "for all vectors", "why_tests_cant": "Under miri another implementation runs than in production; they must agree on all vectors.", "anchors": ["crates/vsimd/src/simulation.rs", "crates/vsimd/src/simd128.rs: u8x16_bitmask", "crates/vsimd/src/simd256.rs: u8x32_bitmask"]}
{"id": "C57", "title": "which encodings preserve byte order", "statement": "Comparing hex texts of one case, base32hex texts without padding, or formatted UUIDs byte-wise (lexicographically) gives the same result as comparing the data; for padded base32hex this holds for data of equal length. It is false for base64, for base32 with the standard alphabet and for padded base32hex on data of different lengths (refuted).", "quantifier": "for all pairs of byte strings of any length, both cases, every implementation", "why_tests_cant": "Order preservation is a statement about all pairs of unbounded inputs.", "anchors": ["crates/hex-simd/src/encode.rs", "crates/base32-simd/src/encode.rs", "crates/base64-simd/src/encode.rs", "crates/uuid-simd/src/format.rs"]}
{"id": "C58", "title": "decoders accept one text per value, up to letter case for hex and uuid", "statement": "Two base64 (strict) or base32 texts that decode to the same bytes are equal. Hex and uuid decoding does not depend on letter case, and the two encoding cases differ only in case. The urn:uuid: prefix, however, is compared case-sensitively (refuted: RFC 4122 allows upper case), and forgiving base64 accepts several texts for one value (refuted).", "quantifier": "for all pairs of texts, configurations and implementations", "why_tests_cant": "Quantifies over all pairs of texts; malleability needs an absent counterexample.", "anchors": ["crates/base64-simd/src/decode.rs", "crates/base32-simd/src/decode.rs", "crates/hex-simd/src/decode.rs", "crates/uuid-simd/src/parse.rs", "crates/uuid-simd/src/lib.rs"]}
{"id": "C59", "title": "decoding distributes over concatenation at group boundaries", "statement": "If a decodes to x and b to y and the bytes of a fill whole groups (base64 without padding: 4 characters, base32: 8, hex: 2) then a++b decodes to x++y; conversely a text that decodes can be cut at any group boundary and the pieces decode to the pieces. This is what a streaming decoder relies on.", "quantifier": "for all texts, cut positions, configurations, implementations", "why_tests_cant": "All inputs and cut positions, independent of the SIMD block size.", "anchors": ["crates/base64-simd/src/decode.rs", "crates/base32-simd/src/decode.rs", "crates/hex-simd/src/decode.rs"]}
{"id": "C60", "title": "relations between the padding modes and the forgiving decoder", "statement": "A padded configuration accepts exactly the texts of the unpadded one with the padding added; an unpadded configuration rejects every text that contains \"=\"; forgiving decode accepts whatever strict decode (padded or not) accepts, with the same bytes; and inserting or deleting ASCII whitespace anywhere does not change the result of forgiving decode.", "quantifier": "for all texts, alphabets, implementations", "why_tests_cant": "Relates different code paths on all inputs.", "anchors": ["crates/base64-simd/src/decode.rs: decoded_length", "crates/base64-simd/src/forgiving.rs", "crates/base32-simd/src/decode.rs: decoded_length"]}
{"id": "C61", "title": "allocating functions round-trip and keep strings well-formed", "statement": "encode_to_string returns exactly the RFC text, in one allocation of exactly its size, and it is valid UTF-8; decode_to_vec returns the unique bytes with that encoding or an error; encode_to_string followed by decode_to_vec gives the data back, on every pair of implementations; the only panic is a text longer than isize::MAX. Appending to a String that holds UTF-8 leaves UTF-8.", "quantifier": "for every byte string up to isize::MAX, allocator, configuration, implementation", "why_tests_cant": "Sizes up to the address-space limit; unsafe from_utf8_unchecked and as_mut_vec obligations.", "anchors": ["crates/hex-simd/src/heap.rs", "crates/base64-simd/src/heap.rs", "crates/base32-simd/src/heap.rs", "crates/hex-simd/src/lib.rs: encode_to_string, decode_to_vec"]}
{"id": "C62", "title": "raw-pointer functions of hex-simd meet their contract", "statement": "check_raw equals check; encode_raw, given room for 2*len bytes, writes exactly the hex text and returns 2*len without overflow; decode_raw, given room for len/2 bytes or dst = src, writes at most len/2 bytes and returns Ok(len/2) exactly if the text is hex of even length.", "quantifier": "for every input, implementation, position of source and destination", "why_tests_cant": "Memory safety of raw pointers for all lengths.", "anchors": ["crates/hex-simd/src/lib.rs: check_raw, encode_raw, decode_raw"]}
{"id": "C63", "title": "UuidExt parsing and formatting", "statement": "UuidExt::parse/parse_simple/parse_hyphenated return the UUID exactly for the accepted text forms and an error otherwise; LowerHex, UpperHex and Display of the simple and hyphenated wrappers pass exactly the standard text to the formatter; the stack buffers are completely initialised before they are read; what is displayed parses back.", "quantifier": "for every text, every UUID, every formatter", "why_tests_cant": "MaybeUninit handling; all texts.", "anchors": ["crates/uuid-simd/src/ext.rs"]}
{"id": "C64", "title": "alignment of typed accesses and vector loads/stores", "statement": "Given slices aligned for their element type, every read() and write() through *const u16/u32/u64 in is_utf32le and the byte swaps is aligned (otherwise undefined behaviour), wherever the blocks lie in memory, and the results are those of the unaligned model. v128/v256_load/store_unaligned are one full-width access on every instruction set (in halves where needed); the aligned versions agree with them at aligned addresses with and without debug assertions.", "quantifier": "for all addresses, lengths, implementations, memories", "why_tests_cant": "Alignment faults depend on the addresses the allocator happens to choose; x86 tolerates misaligned scalar accesses.", "anchors": ["crates/vsimd/src/bswap.rs", "crates/unicode-simd/src/utf32.rs", "crates/vsimd/src/simd128.rs: v128_load .. v128_store_unaligned", "crates/vsimd/src/simd256.rs: v256_load .. v256_store_unaligned"]}
{"id": "C65", "title": "vsimd helpers: unroll and vector halves", "statement": "tools::unroll calls its closure on every element exactly once and in order for every positive chunk size and panics for chunk size 0; splitting a vector into halves and joining halves are inverse and keep every byte in its place; V64::to_u64 is the number that the bytes spell in the byte order of the target.", "quantifier": "for all slices, chunk sizes, closures with state", "why_tests_cant": "All lengths relative to the chunk size.", "anchors": ["crates/vsimd/src/tools.rs: unroll", "crates/vsimd/src/vector.rs"]}
{"id": "C66", "title": "vsimd widening and narrowing operations mean what their names say", "statement": "On lists of lane values: madd is the exact pair sum of 16-bit products (wrapping only for two pairs of -32768), maddubs the saturated pair sum of unsigned by signed bytes, packus saturates to unsigned bytes, u16x16_from_u8x16 keeps the values, avgr is the rounded-up average; each exists exactly on the instruction sets the code lists, at both widths.", "quantifier": "for all vectors, instruction sets, widths", "why_tests_cant": "2^256 operand pairs per instruction set; emulation paths on SSE2.", "anchors": ["crates/vsimd/src/simd128.rs: i16x8_madd, i16x8_maddubs, i16x8_packus, u8x16_avgr", "crates/vsimd/src/simd256.rs: i16x16_madd, i16x16_maddubs, u16x16_from_u8x16, u8x32_avgr"]}
{"id": "C67", "title": "vsimd table lookup is the same on all instruction sets", "statement": "table::u8x16xn_lookup gives table[i mod 16] for index bytes below 128 and 0 otherwise on SSSE3, SSE4.1, AVX2, NEON and WASM, with a table per half at 256 bits. The plain swizzle agrees for indices below 16 and from 128 on; for indices 16..127 the claim is refuted (x86 wraps, NEON and WASM give 0).", "quantifier": "for all tables, index vectors, instruction sets", "why_tests_cant": "Differences between instruction sets show only on other hardware.", "anchors": ["crates/vsimd/src/table.rs: u8x16xn_lookup", "crates/vsimd/src/simd128.rs: u8x16_swizzle", "crates/vsimd/src/simd256.rs: u8x16x2_swizzle, u8x32_swizzle"]}
{"id": "C68", "title": "vsimd byte swaps and selections", "statement": "The bswap operations reverse the bytes of every lane and exist exactly from SSE4.1 up, on NEON and WASM; blend by a constant takes lane i from the second operand iff bit i is set, blendv by the sign of the mask byte; v128x2_zip takes the low or high halves.", "quantifier": "for all vectors, instruction sets, widths, constants", "why_tests_cant": "All immediates and operand vectors; behaviour on other hardware.", "anchors": ["crates/vsimd/src/simd128.rs: u16x8_bswap .. u64x2_bswap, u16x8_blend, u8x16_blendv", "crates/vsimd/src/simd256.rs", "crates/vsimd/src/bswap.rs: SHUFFLE_*"]}
{"id": "C69", "title": "par_encode is free of data races under every interleaving", "statement": "When the memory accesses of all jobs of par_encode are interleaved one by one in any way, no two threads ever are about to access the same byte with one of them writing, no access is out of bounds or to uninitialised memory, no thread panics, every execution ends after the same number of steps, and the destination then holds the RFC 4648 encoding with nothing else changed. This holds for every program that has the effect of the job when run alone; the code of the job is one, and it stores only to the destination allocation. General form: threads that write only what no other thread accesses behave as if alone.", "quantifier": "for all inputs, configurations, thread counts, instruction sets per job, schedules, programs implementing the jobs", "why_tests_cant": "Race detectors see one schedule per run; the property is about all of them and all input lengths.", "anchors": ["crates/base64-simd/src/parallel.rs: Base64::par_encode", "crates/base64-simd/src/encode.rs: encode_fallback, encode_simd"]}
{"id": "C70", "title": "public functions may run at the same time on shared sources", "statement": "Any number of threads each call a public function that works on given memory (hex, base64, base32 encode, decode, decode_inplace, check; forgiving decoding; uuid parsing and formatting; is_ascii, is_utf32le, endianness swaps), where the destination of one thread may not be accessed by another but sources may be shared. Then under every interleaving of their single memory accesses there is no data race, no invalid access, no panic, every call returns what it is specified to return, every result is in its place at the end, and no cell outside the destinations has changed. Every one of these functions is a program whose stores all go to the allocation of its destination, whatever its loads return: a source is not written even for a moment, and the checking functions do not store at all.", "quantifier": "for all sets of calls, inputs, configurations, instruction sets, schedules, and programs implementing the calls that store only to the destination", "why_tests_cant": "A function that wrote to its source and restored it would pass every single-threaded test; race detectors see one schedule per run.", "anchors": ["crates/hex-simd/src/lib.rs", "crates/base64-simd/src/lib.rs", "crates/base32-simd/src/lib.rs", "crates/uuid-simd/src/lib.rs", "crates/unicode-simd/src/lib.rs"]}
{"id": "C71", "title": "vsimd floating-point max and min", "statement": "unified::max and unified::min on f32 (every instruction set but the fallback) and f64 (x86 only; elsewhere they panic) give in every lane the greater or smaller of the two IEEE 754 values if neither is a NaN (on 32-bit NEON also: neither is subnormal), and the same bits on every instruction set if moreover no two zeros meet. On x86 the second operand is the result when a lane is a NaN or both are zeros; NEON and WASM give a NaN exactly for a NaN and take -0 as smaller than +0. Agreement of the instruction sets on NaNs, on zeros and on subnormal numbers, and symmetry on x86, are refuted.", "quantifier": "for all vectors of bit patterns, instruction sets, widths, lane types, and choices of the resulting NaN", "why_tests_cant": "NaN, signed-zero and subnormal operands on several architectures; 2^64 operand pairs per f32 lane.", "anchors": ["crates/vsimd/src/unified.rs: max, min"]}
{"id": "C72", "title": "whole programs: first calls race on the dispatch while the chosen functions run", "statement": "Any number of threads call public functions at the same time, starting from the initial function pointers, with one shared pointer per dispatch! invocation and one shared memory. The steps of auto (load the pointer, detect, store, call) of all threads interleave with each other and with the single memory accesses of the functions already running, and a relaxed load may return any value stored so far. Then on every build and every CPU that has the features the build was compiled for (for the endianness swaps: unless the build and the CPU select SSSE3), in every execution: no data race, every thread that is not done can go on (no panic, no invalid access, no call of a function that the CPU cannot execute), every execution is finite with a common bound, every call has returned and delivered what it is specified to, and nothing outside the destinations has changed. The exception is real: on a CPU with SSE4.1 but without AVX2 a call of the UTF-16 swap ends in a panic.", "quantifier": "for all builds, CPUs, sets of calls, inputs, configurations, schedules, values of relaxed loads, and programs implementing the calls", "why_tests_cant": "The window between the first load and the store of the pointer is a few instructions wide; which function is chosen depends on the machine.", "anchors": ["crates/vsimd/src/macros.rs: dispatch!", "crates/vsimd/src/isa.rs", "crates/hex-simd/src/multiversion.rs", "crates/base64-simd/src/multiversion.rs", "crates/base32-simd/src/multiversion.rs", "crates/uuid-simd/src/multiversion.rs", "crates/unicode-simd/src/multiversion.rs"]}
{"id": "C73", "title": "the ALSW table generator is right for every alphabet that passes its self tests", "statement": "impl_alsw! builds checking and decoding tables from three functions (the alphabet and two hashes) and generates two self tests that call the scalar check and decode on the 256 bytes. For every alphabet and every pair of hashes that compile: if test_check passes, check_ascii_xn accepts exactly the vectors of alphabet characters; if test_decode passes too and the decoding hashes are at most 8, decode_ascii_xn flags exactly the vectors with other characters and decodes every lane of the others. Both hold although the vector code, unlike the scalar code, mixes three bits of the next lane into the hash. Without the bound on the hashes the claim about decoding is false: an alphabet passes both tests while the vector code decodes a character wrongly.", "quantifier": "for all alphabets and hash functions, vectors, both widths, instruction sets with table lookup", "why_tests_cant": "The self tests run the scalar functions, with fixed neighbour bits; the claim is about every alphabet a future user of the macro may write.", "anchors": ["crates/vsimd/src/alsw.rs: impl_alsw!, check_ascii_xn, decode_ascii_xn, check, decode"]}
{"id": "C74", "title": "clients: threads that make sequences of calls, each on the results of earlier ones", "statement": "Any number of threads each make a sequence of calls of public functions, from the first call of the program on, as in C72. The only condition on the memory is on each thread for itself: if its calls were made one after the other with nobody else running, each slice would be there when its call is made; and no call may write what a call of another thread accesses. Then in every execution: no data race, no thread gets stuck or panics, every execution is finite with a common bound, and at the end every thread finds in its memory what it would have found had it run alone; every result that no later call of the same thread overwrites is there; nothing outside the destinations has changed. In particular, threads that encode to Base64, check the text and decode it back all get their own bytes back.", "quantifier": "for all builds, CPUs, numbers of threads, lengths of the sequences, calls, inputs, schedules, values of relaxed loads", "why_tests_cant": "State left behind by one call (function pointers, partly written buffers) could disturb a later call of any thread; the number of interleavings of call sequences is astronomical.", "anchors": ["crates/vsimd/src/macros.rs: dispatch!", "crates/hex-simd/src/lib.rs", "crates/base64-simd/src/lib.rs", "crates/base32-simd/src/lib.rs", "crates/uuid-simd/src/lib.rs", "crates/unicode-simd/src/lib.rs"]}
{"id": "C75", "title": "the vector code and the byte order of the target", "statement": "The crates select NEON by target_arch and target_feature; nothing tests target_endian, so the vector code is also compiled for big-endian AArch64. With every shift, multiplication, comparison and numeric constant on lanes of the order of the target: for little-endian this is the code of the other properties. The ALSW check and decoding (every alphabet that passes the self tests) and the UTF-32 test are correct for both orders. Big-endian hex encoding exchanges the two digits of every byte, and big-endian hex decoding accepts the right texts but clears the low digit of every byte; big-endian base64 encoding reads three bytes as a little-endian number and writes its digits lowest first, and base64 decoding puts four digits together lowest first and loses the lowest byte. Big-endian base32 encoding takes the eight digits at the bits 6, 11, 12, 17, 18, 23, 24, 29 of the little-endian number of five bytes; base32 decoding puts the first, third, sixth and eighth digit at the bits 6, 12, 23, 29 and loses the others. Both decoders accept exactly the right texts. So hex, base64 and base32 encoding and decoding are wrong there.", "quantifier": "for all vectors, both byte orders (the refutations: one input each)", "why_tests_cant": "The test suite runs on little-endian machines; the behaviour of the same source on a big-endian target is out of its reach.", "anchors": ["crates/hex-simd/src/encode.rs: encode_bytes16", "crates/hex-simd/src/decode.rs: merge_bits", "crates/base64-simd/src/encode.rs: split_bits_x2, split_bits_x1", "crates/base64-simd/src/decode.rs: merge_bits_x2", "crates/base32-simd/src/encode.rs: split_bits", "crates/base32-simd/src/decode.rs: merge_bits", "crates/vsimd/src/alsw.rs: check_ascii_xn, decode_ascii_xn", "crates/unicode-simd/src/utf32.rs: is_utf32le_simd", "crates/vsimd/src/isa.rs: matches_isa!"]}
{"id": "C76", "title": "the addresses accessed do not depend on the data", "statement": "Call one of the functions twice, with the same pointers and lengths, in two memories whose allocations have the same sizes but hold whatever bytes. The sequences of memory accesses (the address and, for reads, the number of bytes) are then the same until one of the calls is over. If both calls succeed (the checks: answer yes) they are the same to the end; the encoders, the formatting of UUIDs, the UTF-32 test and the endianness swaps make the same accesses in any case. This holds for hex, base64 and base32 encoding, decoding, in-place decoding and checking, for parsing and formatting UUIDs, is_ascii, from_ascii, is_utf32le and the swaps, in every scalar and vector version. For padded base64 and base32 texts the two texts must have = at the same places among the last 2 or 6 bytes. It does not hold for forgiving decoding, which searches for white space: two texts that both decode make different accesses. (Reads of the constant tables of the crates are not counted.)", "quantifier": "for all instruction sets, configurations, pointers, lengths, and pairs of memories with allocations of the same sizes", "why_tests_cant": "Tests look at results, not at addresses; and it is a statement about pairs of inputs of every length.", "anchors": ["crates/hex-simd/src/encode.rs", "crates/hex-simd/src/decode.rs", "crates/hex-simd/src/check.rs", "crates/base64-simd/src/encode.rs", "crates/base64-simd/src/decode.rs", "crates/base64-simd/src/check.rs", "crates/base64-simd/src/forgiving.rs", "crates/base32-simd/src/encode.rs", "crates/base32-simd/src/decode.rs", "crates/base32-simd/src/check.rs", "crates/uuid-simd/src/parse.rs", "crates/uuid-simd/src/format.rs", "crates/unicode-simd/src/ascii.rs", "crates/unicode-simd/src/utf32.rs", "crates/vsimd/src/bswap.rs"]}
{"id": "C77", "title": "the number of memory accesses is linear in the length", "statement": "Every function makes at most a*n+b memory accesses, where n is the length of the text (code units for UTF-16/32) and a, b are small constants that do not depend on the bytes, the pointers, the instruction set or the configuration; also when it fails. The constants are in the theorems: for example 27n+29 for hex encoding, 19n+24 for base64 decoding, 23n+31 for forgiving decoding (so no arrangement of white space makes it quadratic). Parsing and formatting a UUID takes at most 110 accesses. An access is one load or store of up to 32 bytes; a copy_nonoverlapping counts as one load and one store; constant tables are not counted. The constants are upper bounds, not exact.", "quantifier": "for all instruction sets, configurations, pointers, lengths and memory contents", "why_tests_cant": "Tests with long adversarial inputs cannot cover every arrangement; the bound is for all lengths.", "anchors": ["crates/hex-simd/src/encode.rs", "crates/hex-simd/src/decode.rs", "crates/hex-simd/src/check.rs", "crates/base64-simd/src/encode.rs", "crates/base64-simd/src/decode.rs", "crates/base64-simd/src/check.rs", "crates/base64-simd/src/ascii.rs", "crates/base64-simd/src/forgiving.rs", "crates/base32-simd/src/encode.rs", "crates/base32-simd/src/decode.rs", "crates/base32-simd/src/check.rs", "crates/uuid-simd/src/parse.rs", "crates/uuid-simd/src/format.rs", "crates/unicode-simd/src/ascii.rs", "crates/unicode-simd/src/utf32.rs", "crates/vsimd/src/bswap.rs"]}
{"id": "C78", "title": "memory operations are defined exactly within an allocation", "statement": "A load of k bytes succeeds exactly when all k bytes lie within one allocation and are initialised; it then returns those bytes and changes nothing, and is undefined behaviour in every other case. A store succeeds exactly when its range lies within one allocation; it changes exactly the bytes it writes, and no sizes. p.add(k) is defined exactly up to one past the end, p.sub(k) exactly down to the start, and a.offset_from(b) (for a at or behind b) exactly within one allocation. read(p, i) and write(p, i, x) of tools.rs act on the single byte at offset i. An unchecked table read is defined exactly for indices below the table length. This is what absence of undefined behaviour in the other properties means.", "quantifier": "for all memories, pointers, offsets, lengths, bytes and tables", "why_tests_cant": "Code under test reads past the end or uninitialised memory without any visible sign; what the other properties exclude depends on these operations being exact for every memory.", "anchors": ["crates/vsimd/src/tools.rs"]}
{"id": "C79", "title": "whole functions on AArch64 of either byte order", "statement": "With NEON on little-endian AArch64 the functions are those of the other properties. On big-endian AArch64: base64 and base32 check stay right (Ok exactly for valid input, and without the forgiving variant exactly for RFC encodings); base64 and base32 encode and decode run the portable code, which is right, on inputs too short for a vector (encode below 16 and 36 bytes, decode below 38 and 42 characters), and there are longer inputs on which each of the four is wrong. What the four compute is known exactly for every input: base64 encode is right on the first 6 bytes (if there are 34 or more) and behind the last vector, and writes the digits of little-endian numbers for the bytes in vectors of 24 and 12 bytes; base32 encode likewise with 10 bytes, 36 and vectors of 20 bytes; decode, also in place, accepts the same texts as on little-endian, and of the decoded bytes the first 24*((t-6)/32) (base64) or 20*((t-10)/32) (base32), t the number of characters without padding, are replaced by what C75 says, the rest is right. Hex encode exchanges the two digits of every byte in the full blocks of 16 bytes and is right behind them. Hex decode, also in place, accepts exactly the valid texts; in the full blocks of 16 digits every byte loses its low digit, the rest is right. Forgiving base64 decoding, also in place, accepts the texts of the WHATWG standard and is wrong in the same bytes as strict decoding. UUID format_simple and format_hyphenated exchange the digits of every byte and put the hyphens where they belong; UUID parse accepts exactly the texts it should in all its forms, and every byte loses its low digit.", "quantifier": "for all inputs, cases, configurations, memories and both byte orders (the refutations: existence of an input)", "why_tests_cant": "Big-endian AArch64 is not among the tested targets, and whether the faults of single blocks reach the result depends on the loops around them, for every length.", "anchors": ["crates/hex-simd/src/encode.rs", "crates/hex-simd/src/decode.rs", "crates/base64-simd/src/encode.rs", "crates/base64-simd/src/decode.rs", "crates/base64-simd/src/check.rs", "crates/base32-simd/src/encode.rs", "crates/base32-simd/src/decode.rs", "crates/base32-simd/src/check.rs", "crates/uuid-simd/src/parse.rs", "crates/uuid-simd/src/format.rs", "crates/vsimd/src/hex.rs"]}
{"id": "C80", "title": "no illegal instruction on x86", "statement": "Every x86 intrinsic called in the repository stands under a matches_isa! guard that holds only for instruction sets with the CPU extension of the intrinsic (SSE, SSE2, SSSE3, SSE4.1, AVX, AVX2): for every instruction set for which the guard holds. So whatever dispatch runs, in any execution by any threads, every intrinsic that is reached is an instruction of the CPU. On other architectures none of these guards holds. The 256-bit instructions of the generic operations are taken with AVX2 only.", "quantifier": "for every block of the source with x86 intrinsics, every instruction set, build, CPU, dispatch and execution", "why_tests_cant": "Test machines have AVX2 and all older extensions, so an instruction outside its guard does not fault there.", "anchors": ["crates/vsimd/src/simd128.rs", "crates/vsimd/src/simd256.rs", "crates/vsimd/src/unified.rs", "crates/uuid-simd/src/spec.rs", "crates/unicode-simd/src/ascii.rs", "crates/vsimd/src/isa.rs: matches_isa"]}
{"id": "C81", "title": "truncated and continued texts", "statement": "If a text and a continuation of it are both accepted, the bytes decoded from the longer text begin with those decoded from the shorter one; this holds for hex, base64 and base32 with and without padding, and for forgiving base64 with white space and spare bits anywhere. A text cut to a length that no encoding has is refused: odd for hex; for base64 not divisible by 4 with padding, 1 modulo 4 without; for base32 not divisible by 8 with padding, 1, 3 or 6 modulo 8 without. With padding, nothing may follow a text that ends in \"=\".", "quantifier": "for all texts, continuations, configurations, instruction sets and memories", "why_tests_cant": "It relates pairs of texts of every length; which of them cross a vector boundary differs between the two calls.", "anchors": ["crates/hex-simd/src/decode.rs", "crates/base64-simd/src/decode.rs", "crates/base64-simd/src/forgiving.rs", "crates/base32-simd/src/decode.rs"]}
{"id": "C82", "title": "positions: which bits make which character and byte, and how far one change reaches", "statement": "Closed forms. Character j of a base64 text is the digit (256*src[6j/8]+src[6j/8+1])/2^(10-6j mod 8) mod 64, of a base32 text (256*src[5j/8]+src[5j/8+1])/2^(11-5j mod 8) mod 32, of a hex text src[j/2]/16^(1-j mod 2) mod 16, with zeros behind the source; there are ceil(8n/6), ceil(8n/5), 2n such characters, and only \"=\" behind them. Byte i of a decoded text is (64*v[8i/6]+v[8i/6+1])/2^(4-8i mod 6) mod 256 for base64, (1024*v[8i/5]+32*v[8i/5+1]+v[8i/5+2])/2^(7-8i mod 5) mod 256 for base32, 16*v[2i]+v[2i+1] for hex, v the values of the characters. So one changed source byte changes the text, keeps its length and leaves every character without bits of that byte as it is; one changed character (not padding), if both texts are accepted, changes the decoded bytes (for hex, unless it is the same letter in the other case), keeps their number and leaves every byte without bits of that character as it is.", "quantifier": "for all sources and texts, positions, configurations, instruction sets and memories", "why_tests_cant": "It is a statement about every position of texts of every length, and relates pairs of runs whose vector blocks may differ in one lane only.", "anchors": ["crates/hex-simd/src/encode.rs", "crates/hex-simd/src/decode.rs", "crates/base64-simd/src/encode.rs", "crates/base64-simd/src/decode.rs", "crates/base32-simd/src/encode.rs", "crates/base32-simd/src/decode.rs"]}
{"id": "C83", "title": "failed allocations and panics leave everything as it was", "statement": "Each function of the three heap.rs files and forgiving_decode_to_vec asks the allocator for one size only: the encoders and decoders to a box for exactly the encoded or decoded length (not at all if that is 0 or if the length of the text is refused), the appending functions only if the vector has no room, forgiving_decode_to_vec for the decoded length or, if the text has white space, for a vector as long as the text. If the allocator refuses, or if a result or the vector would be longer than isize::MAX (failed assertion, capacity overflow), then all of memory and the pointer, length and contents of the caller's vector are as they were before the call. Otherwise the call ends with the result of C13/C46/C11. There is no other way to stop: no arithmetic overflow panic, and no panic between the allocation and the return.", "quantifier": "for all sources, vectors, configurations, instruction sets, pointer widths, overflow-check settings, memories, and every set of sizes that the allocator refuses", "why_tests_cant": "Allocation failures and results near isize::MAX do not occur in tests, and a test sees a caught panic only at the sizes it tries.", "anchors": ["crates/vsimd/src/tools.rs", "crates/hex-simd/src/heap.rs", "crates/base64-simd/src/heap.rs", "crates/base64-simd/src/forgiving.rs", "crates/base32-simd/src/heap.rs"]}
{"id": "C84", "title": "the public functions keep to the aliasing rules of references (Stacked Borrows)", "statement": "Run on memory in which every byte has a stack of borrows, with the references and raw pointers that the source makes at the places where it makes them (parameters, len, as_ptr, as_mut_ptr, slice_parts, slice_mut, reborrows): no access and no new reference goes through a pointer that is no longer valid, no parameter of a running function is invalidated, and nothing is written through a shared reference or a pointer made from one. Only the stacks of the bytes of the source and the destination change. The returned reference is new and may be used at once; the caller may still read through the pointer to the source, and write through the pointer to the destination or the data afterwards. The result is the one of the function without borrows, and the annotated program is that function with borrows added and nothing else, also where it fails. This holds for hex, base64 and base32 check, encode, decode and decode_inplace, forgiving decode and decode_inplace, UUID parse (three) and format (two), is_ascii, from_ascii, is_utf32le, and the endianness swaps, whatever the stacks held before. It also holds for base64 par_encode, at whichever chunks rayon splits the work and in whichever order the jobs run, when it does not panic: no job invalidates the reference of another to its own chunk. Four wrong versions of hex decode_inplace, with the same results, are refuted: writing through as_ptr, using a raw pointer after a new mutable borrow, making the returned reference before the bytes are written, and going through the pointer of the caller instead of the parameter; also a from_ascii that makes its string from a mutable borrow of the shared reference, and a splitting of the destination in which both parts are borrowed from the whole. The rules are as strong as they should be: for every program that keeps to them, a byte behind a parameter of type & does not change while the function runs, a byte behind a parameter of type &mut cannot be accessed through older pointers until the function returns, a write through another pointer takes every permission from a reference, a read takes it from a mutable one, and a permission that is gone does not come back.", "quantifier": "for all texts, destination lengths, configurations, instruction sets, memories, and stacks of borrows in which the caller may use the pointers it passes; source and destination in different allocations or in two parts of one that do not overlap", "why_tests_cant": "A test run has no sign of such undefined behaviour; Miri checks single executions and does not run the vector code.", "anchors": ["crates/hex-simd/src/lib.rs", "crates/base64-simd/src/lib.rs", "crates/base64-simd/src/ascii.rs", "crates/base64-simd/src/forgiving.rs", "crates/base64-simd/src/parallel.rs", "crates/base32-simd/src/lib.rs", "crates/uuid-simd/src/lib.rs", "crates/unicode-simd/src/lib.rs", "crates/vsimd/src/tools.rs: slice_parts, slice_mut"]}
{"id": "C85", "title": "each access stays in one buffer, also when source and destination are parts of one allocation", "statement": "Every single memory access of a public function, taken one by one in the order of the code, lies wholly in the source or wholly in the destination, and every write lies in the destination (for in-place functions: in the data; checking functions never write). This holds wherever the two buffers are, in particular if both are parts of one allocation with nothing between them, in either order. The functions then also return what they return otherwise and leave the source as it is at every moment. So threads may read the source while it is being encoded into the rest of the same allocation: any number of calls of public functions at the same time, in any interleaving, are free of data races and deliver their results, if only no destination of one overlaps a buffer of another.", "quantifier": "for all public functions on given memory, texts, destination lengths, configurations, instruction sets, memories, and positions of the two buffers that do not overlap; all interleavings of all numbers of threads", "why_tests_cant": "A vector load that runs a few bytes over the end of the source, into a destination next to it, changes no result and does not leave the allocation, so neither a test nor a sanitizer sees it; it is a data race all the same.", "anchors": ["crates/hex-simd/src/lib.rs", "crates/base64-simd/src/lib.rs", "crates/base64-simd/src/forgiving.rs", "crates/base32-simd/src/lib.rs", "crates/uuid-simd/src/lib.rs", "crates/unicode-simd/src/lib.rs", "crates/vsimd/src/tools.rs"]}
{"id": "C86", "title": "the functions that allocate keep to the aliasing rules of references (Stacked Borrows)", "statement": "As C84, for the functions that return a Box, a Vec or a String or append to one. A new allocation may be accessed through its own pointer only; Box::from_raw, Box::into_raw, assume_init, boxed_str, the conversions between boxes, vectors and strings, spare capacity, set_len, reserve_exact (which may move the vector) and freeing are done with the pointers that the source uses, at the places where it uses them. If one of the functions returns, then it does so without breaking a rule: no access and no freeing goes through a pointer that is no longer valid, and no parameter of a running function is invalidated or freed. The result has the value that the function without borrows gives, its pointer may be used to write all of it and to free it. The caller may still read its source, and the stacks of other allocations do not change. This holds for encode to a boxed string or a String, decode to a box or a Vec, and appending to a Vec, of hex, base64 and base32, and for forgiving decode to a Vec. It also holds for the functions of uuid-simd/src/ext.rs (parse, parse_simple, parse_hyphenated, and LowerHex, UpperHex and Display of both formats), whose local variable is a new allocation that is freed on return; they return no pointer. Five wrong versions with the same results are refuted: decoding into a box through as_ptr, through a raw pointer made before the box was borrowed again, freeing the box while a function runs that has a reference to its bytes as parameter, appending through a pointer taken before reserve_exact, and parsing a UUID into a local variable through as_ptr. For every program that keeps to the rules, once a block is freed no pointer from before may read or write it, also after it is allocated again. While a function runs, a byte behind a parameter of type & is not freed and does not change, and one behind a parameter of type &mut is not freed and no older pointer may access it. A pointer that may not write a byte because no item allows it, or may not use it at all, never may again.", "quantifier": "for all texts, configurations, instruction sets, machines, memories, vectors appended to, choices of the allocator, and stacks of borrows in which the caller may use what it passes", "why_tests_cant": "The wrong versions give the right result in every test; whether a compiler takes advantage of the broken rule depends on its version. Miri checks single executions and does not run the vector code.", "anchors": ["crates/vsimd/src/tools.rs", "crates/hex-simd/src/heap.rs", "crates/base64-simd/src/heap.rs", "crates/base32-simd/src/heap.rs", "crates/base64-simd/src/forgiving.rs:74", "crates/uuid-simd/src/ext.rs:50-145"]}
{"id": "C87", "title": "the public functions keep to the aliasing rules of references (Tree Borrows)", "statement": "As C84, for the other model of the aliasing rules: references form a tree, and each has for each byte a permission that is taken away by accesses through references elsewhere in the tree. Run with the references and raw pointers that the source makes, no access goes through a pointer that has lost the permission for it or is made from one that has, nothing is written through a shared reference, no parameter of a running function loses a permission, also not by the accesses that the rules add when a function returns, and no parameter is written after another pointer has read its bytes. Only permissions for the bytes of the source and the destination change. The returned reference is new and may be written through; afterwards the caller may still read the source through every pointer through which it could before, and write the destination or the data. The result is the one of the function without borrows. This holds for hex, base64 and base32 check, encode, decode and decode_inplace, forgiving base64 decode and decode_inplace, UUID parse (three) and format (two), is_ascii, from_ascii, is_utf32le, and the endianness swaps, for every tree of references that the caller has made. Three of the wrong programs of C84 are refuted here too: writing through as_ptr, making the returned reference before the bytes are written, and going through the pointer of the caller instead of the parameter. The rules are as strong as they should be: for every program that keeps to them, a byte behind a parameter of type & does not change while the function runs, a byte written through a parameter of type &mut cannot be accessed through other pointers until the function returns, one that was not written but read through another pointer does not change until then, a read through another pointer takes the permission to write from a reference that was written through, a write every permission, and a reference that may no longer write, or no longer be used at all, never gets the permission back.", "quantifier": "for all texts, destination lengths, configurations, instruction sets, memories, and trees of references in which the caller may use the pointers it passes; source and destination anywhere (C87_parts_*: also two parts of one allocation) if they do not overlap", "why_tests_cant": "As for C84. Neither model of the rules implies the other: a compiler may rely on either, and a pointer that is still valid in one may not be in the other.", "anchors": ["crates/hex-simd/src/lib.rs", "crates/base64-simd/src/lib.rs", "crates/base32-simd/src/lib.rs", "crates/uuid-simd/src/lib.rs", "crates/unicode-simd/src/lib.rs", "crates/vsimd/src/tools.rs: slice_parts, slice_mut"]}
{"id": "C88", "title": "the functions that allocate keep to the aliasing rules of references (Tree Borrows)", "statement": "As C86, for the rules of C87. A new allocation is the root of a tree of its own. If one of the functions returns, then it does so without breaking a rule: no access and no freeing goes through a pointer that has lost the permission for it or that belongs to another allocation (such as the one a vector had before it was moved), no parameter of a running function loses a permission, and no memory is freed while a parameter of a running function has a permission for it. The result has the value that the function without borrows gives; its pointer is new (when appending: it may be the old one) and may be used to write all of it and to free it. The caller may still read its source through every pointer through which it could before, and permissions for other allocations do not change. This holds for encode to a boxed string or a String, decode to a box or a Vec, and appending to a Vec, of hex, base64 and base32, and for forgiving_decode_to_vec, which decodes in place in the vector that it returns. Three of the wrong programs of C86 are refuted here too: decoding into a box through as_ptr, freeing the box while a function runs that has a reference to its bytes as parameter, and appending through a pointer taken before reserve_exact. For every program that keeps to the rules, once a block is freed no pointer from before and none made from one may read or write it, also after it is allocated again. While a function runs, a byte behind a parameter of type & is not freed and does not change, and one written through a parameter of type &mut is not freed and no pointer may access it that is not made from the parameter. Through a reference that is frozen for a byte nothing writes the byte any more, and through one that is disabled for it or has no permission nothing accesses it.", "quantifier": "for all texts, configurations, instruction sets, machines, memories, vectors appended to, choices of the allocator, and trees of references in which the caller may use what it passes", "why_tests_cant": "As for C86. Neither model of the rules implies the other.", "anchors": ["crates/vsimd/src/tools.rs", "crates/hex-simd/src/heap.rs", "crates/base64-simd/src/heap.rs", "crates/base64-simd/src/forgiving.rs", "crates/base32-simd/src/heap.rs"]}
