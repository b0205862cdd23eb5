(** Every call of an x86 intrinsic in /repo, with the [matches_isa!] guard it stands under, and the CPU extension each intrinsic needs.
    An intrinsic may be called in Rust code that is not compiled for its extension; on a CPU without the extension it is then an illegal
    instruction. The intrinsics of ARM and WebAssembly are not listed: there is one guard for each of them, and a missing intrinsic is a
    compile-time error. *)
From Coq Require Import ZArith List Bool String.
From Verif Require Import Isa.
Import ListNotations.
Open Scope string_scope.

(** The extensions, with the chapters of Intel's manual under which the intrinsics stand. *)
Inductive ext := SSE | SSE2x | SSSE3x | SSE41x | AVX | AVX2x.

(** The extension of every intrinsic that occurs (Intel Intrinsics Guide; also the [#[target_feature]] of core::arch). *)
Definition in_SSE : list string := ["_mm_max_ps"; "_mm_min_ps"].
Definition in_SSE2 : list string :=
  ["_mm_add_epi16"; "_mm_add_epi32"; "_mm_add_epi64"; "_mm_add_epi8"; "_mm_adds_epi16"; "_mm_adds_epi8"; "_mm_adds_epu16";
   "_mm_adds_epu8"; "_mm_and_si128"; "_mm_andnot_si128"; "_mm_avg_epu8"; "_mm_cmpeq_epi16"; "_mm_cmpeq_epi32"; "_mm_cmpeq_epi8";
   "_mm_cmplt_epi16"; "_mm_cmplt_epi32"; "_mm_cmplt_epi8"; "_mm_extract_epi16"; "_mm_insert_epi16"; "_mm_load_si128"; "_mm_loadu_si128";
   "_mm_madd_epi16"; "_mm_max_epi16"; "_mm_max_epu8"; "_mm_max_pd"; "_mm_min_epi16"; "_mm_min_epu8"; "_mm_min_pd"; "_mm_movemask_epi8";
   "_mm_mulhi_epi16"; "_mm_mulhi_epu16"; "_mm_mullo_epi16"; "_mm_or_si128"; "_mm_packus_epi16"; "_mm_set1_epi16"; "_mm_set1_epi32";
   "_mm_set1_epi64x"; "_mm_set1_epi8"; "_mm_setzero_si128"; "_mm_slli_epi16"; "_mm_slli_epi32"; "_mm_srli_epi16"; "_mm_srli_epi32";
   "_mm_store_si128"; "_mm_storeu_si128"; "_mm_sub_epi16"; "_mm_sub_epi32"; "_mm_sub_epi64"; "_mm_sub_epi8"; "_mm_subs_epi16";
   "_mm_subs_epi8"; "_mm_subs_epu16"; "_mm_subs_epu8"; "_mm_unpackhi_epi16"; "_mm_unpackhi_epi32"; "_mm_unpackhi_epi64";
   "_mm_unpackhi_epi8"; "_mm_unpacklo_epi16"; "_mm_unpacklo_epi32"; "_mm_unpacklo_epi64"; "_mm_unpacklo_epi8"; "_mm_xor_si128"].
Definition in_SSSE3 : list string := ["_mm_maddubs_epi16"; "_mm_shuffle_epi8"].
Definition in_SSE41 : list string :=
  ["_mm_blend_epi16"; "_mm_blendv_epi8"; "_mm_extract_epi32"; "_mm_insert_epi32"; "_mm_max_epi32"; "_mm_max_epi8"; "_mm_max_epu16";
   "_mm_max_epu32"; "_mm_min_epi32"; "_mm_min_epi8"; "_mm_min_epu16"; "_mm_min_epu32"; "_mm_mullo_epi32"; "_mm_testz_si128"].
Definition in_AVX : list string :=
  ["_mm256_insert_epi16"; "_mm256_insert_epi32"; "_mm256_load_si256"; "_mm256_loadu_si256"; "_mm256_max_pd"; "_mm256_max_ps";
   "_mm256_min_pd"; "_mm256_min_ps"; "_mm256_set1_epi8"; "_mm256_setzero_si256"; "_mm256_store_si256"; "_mm256_storeu_si256";
   "_mm256_testz_si256"].
Definition in_AVX2 : list string :=
  ["_mm256_add_epi16"; "_mm256_add_epi32"; "_mm256_add_epi64"; "_mm256_add_epi8"; "_mm256_adds_epi16"; "_mm256_adds_epi8";
   "_mm256_adds_epu16"; "_mm256_adds_epu8"; "_mm256_and_si256"; "_mm256_andnot_si256"; "_mm256_avg_epu8"; "_mm256_blend_epi32";
   "_mm256_blendv_epi8"; "_mm256_cmpeq_epi16"; "_mm256_cmpeq_epi32"; "_mm256_cmpeq_epi64"; "_mm256_cmpeq_epi8"; "_mm256_cmpgt_epi16";
   "_mm256_cmpgt_epi32"; "_mm256_cmpgt_epi64"; "_mm256_cmpgt_epi8"; "_mm256_cvtepu8_epi16"; "_mm256_madd_epi16"; "_mm256_maddubs_epi16";
   "_mm256_max_epi16"; "_mm256_max_epi32"; "_mm256_max_epi8"; "_mm256_max_epu16"; "_mm256_max_epu32"; "_mm256_max_epu8";
   "_mm256_min_epi16"; "_mm256_min_epi32"; "_mm256_min_epi8"; "_mm256_min_epu16"; "_mm256_min_epu32"; "_mm256_min_epu8";
   "_mm256_movemask_epi8"; "_mm256_mulhi_epi16"; "_mm256_mulhi_epu16"; "_mm256_mullo_epi16"; "_mm256_mullo_epi32"; "_mm256_or_si256";
   "_mm256_permute2x128_si256"; "_mm256_permute4x64_epi64"; "_mm256_shuffle_epi8"; "_mm256_slli_epi16"; "_mm256_slli_epi32";
   "_mm256_srli_epi16"; "_mm256_srli_epi32"; "_mm256_sub_epi16"; "_mm256_sub_epi32"; "_mm256_sub_epi64"; "_mm256_sub_epi8";
   "_mm256_subs_epi16"; "_mm256_subs_epi8"; "_mm256_subs_epu16"; "_mm256_subs_epu8"; "_mm256_unpackhi_epi16"; "_mm256_unpackhi_epi32";
   "_mm256_unpackhi_epi64"; "_mm256_unpackhi_epi8"; "_mm256_unpacklo_epi16"; "_mm256_unpacklo_epi32"; "_mm256_unpacklo_epi64";
   "_mm256_unpacklo_epi8"; "_mm256_xor_si256"].
Definition among (i : string) (l : list string) : bool := existsb (String.eqb i) l.
Definition needs (i : string) : option ext :=
  if among i in_SSE then Some SSE else if among i in_SSE2 then Some SSE2x else if among i in_SSSE3 then Some SSSE3x
  else if among i in_SSE41 then Some SSE41x else if among i in_AVX then Some AVX else if among i in_AVX2 then Some AVX2x else None.

(** A block [if matches_isa!(S, A | B) { .. }]: its line, the function it stands in, the guard, and the intrinsics called in it. *)
Record arm_ := arm { line : Z; fn : string; guard : list isa_id; calls : list string }.

(** vsimd/src/simd128.rs, vsimd/src/simd256.rs, vsimd/src/unified.rs, uuid-simd/src/spec.rs; listed by tools/gen_intrinsics.py.
    In unified.rs the blocks of V256 come before those of V128. *)
Definition arms : list arm_ :=
  [
   (* vsimd/src/simd128.rs *)
   arm 40 "v128_load" [ISSE2] ["_mm_load_si128"];
   arm 61 "v128_load_unaligned" [ISSE2] ["_mm_loadu_si128"];
   arm 84 "v128_store" [ISSE2] ["_mm_store_si128"];
   arm 108 "v128_store_unaligned" [ISSE2] ["_mm_storeu_si128"];
   arm 129 "v128_create_zero" [ISSE2] ["_mm_setzero_si128"];
   arm 151 "v128_not" [ISSE2] ["_mm_xor_si128"; "_mm_cmpeq_epi8"];
   arm 201 "v128_all_zero" [ISSE41] ["_mm_testz_si128"];
   arm 353 "i16x8_mul_lo" [ISSE2] ["_mm_mullo_epi16"];
   arm 374 "i32x4_mul_lo" [ISSE41] ["_mm_mullo_epi32"];
   arm 398 "u16x8_shl" [ISSE2] ["_mm_slli_epi16"];
   arm 419 "u32x4_shl" [ISSE2] ["_mm_slli_epi32"];
   arm 443 "u16x8_shr" [ISSE2] ["_mm_srli_epi16"];
   arm 464 "u32x4_shr" [ISSE2] ["_mm_srli_epi32"];
   arm 619 "u8x16_swizzle" [ISSSE3] ["_mm_shuffle_epi8"];
   arm 740 "u8x16_bitmask" [ISSE2] ["_mm_movemask_epi8"];
   arm 819 "u8x16_zip_lo" [ISSE2] ["_mm_unpacklo_epi8"];
   arm 846 "u8x16_zip_hi" [ISSE2] ["_mm_unpackhi_epi8"];
   arm 873 "u16x8_zip_lo" [ISSE2] ["_mm_unpacklo_epi16"];
   arm 900 "u16x8_zip_hi" [ISSE2] ["_mm_unpackhi_epi16"];
   arm 927 "u32x4_zip_lo" [ISSE2] ["_mm_unpacklo_epi32"];
   arm 954 "u32x4_zip_hi" [ISSE2] ["_mm_unpackhi_epi32"];
   arm 981 "u64x2_zip_lo" [ISSE2] ["_mm_unpacklo_epi64"];
   arm 1007 "u64x2_zip_hi" [ISSE2] ["_mm_unpackhi_epi64"];
   arm 1087 "u16x8_mul_hi" [ISSE2] ["_mm_mulhi_epu16"];
   arm 1103 "i16x8_mul_hi" [ISSE2] ["_mm_mulhi_epi16"];
   arm 1119 "i16x8_maddubs" [ISSSE3] ["_mm_maddubs_epi16"];
   arm 1135 "u16x8_blend" [ISSE41] ["_mm_blend_epi16"];
   arm 1153 "u8x16_blendv" [ISSE41] ["_mm_blendv_epi8"];
   arm 1169 "i16x8_madd" [ISSE2] ["_mm_madd_epi16"];
   arm 1185 "u8x16_avgr" [ISSE2] ["_mm_avg_epu8"];
   arm 1221 "i16x8_packus" [ISSE2] ["_mm_packus_epi16"];
   (* vsimd/src/simd256.rs *)
   arm 63 "v256_load" [IAVX2] ["_mm256_load_si256"];
   arm 80 "v256_load_unaligned" [IAVX2] ["_mm256_loadu_si256"];
   arm 99 "v256_store" [IAVX2] ["_mm256_store_si256"];
   arm 116 "v256_store_unaligned" [IAVX2] ["_mm256_storeu_si256"];
   arm 133 "v256_create_zero" [IAVX2] ["_mm256_setzero_si256"];
   arm 169 "v256_andnot" [IAVX2] ["_mm256_andnot_si256"];
   arm 180 "v256_all_zero" [IAVX2] ["_mm256_testz_si256"];
   arm 295 "i16x16_mul_lo" [IAVX2] ["_mm256_mullo_epi16"];
   arm 306 "i32x8_mul_lo" [IAVX2] ["_mm256_mullo_epi32"];
   arm 317 "u16x16_shl" [IAVX2] ["_mm256_slli_epi16"];
   arm 328 "u32x8_shl" [IAVX2] ["_mm256_slli_epi32"];
   arm 339 "u16x16_shr" [IAVX2] ["_mm256_srli_epi16"];
   arm 350 "u32x8_shr" [IAVX2] ["_mm256_srli_epi32"];
   arm 466 "u8x16x2_swizzle" [IAVX2] ["_mm256_shuffle_epi8"];
   arm 544 "u8x32_bitmask" [IAVX2] ["_mm256_movemask_epi8"];
   arm 583 "u16x16_from_u8x16" [IAVX2] ["_mm256_cvtepu8_epi16"];
   arm 620 "u8x16x2_zip_lo" [IAVX2] ["_mm256_unpacklo_epi8"];
   arm 631 "u8x16x2_zip_hi" [IAVX2] ["_mm256_unpackhi_epi8"];
   arm 642 "u16x8x2_zip_lo" [IAVX2] ["_mm256_unpacklo_epi16"];
   arm 653 "u16x8x2_zip_hi" [IAVX2] ["_mm256_unpackhi_epi16"];
   arm 664 "u32x4x2_zip_lo" [IAVX2] ["_mm256_unpacklo_epi32"];
   arm 675 "u32x4x2_zip_hi" [IAVX2] ["_mm256_unpackhi_epi32"];
   arm 686 "u64x2x2_zip_lo" [IAVX2] ["_mm256_unpacklo_epi64"];
   arm 697 "u64x2x2_zip_hi" [IAVX2] ["_mm256_unpackhi_epi64"];
   arm 708 "v128x2_zip_lo" [IAVX2] ["_mm256_permute2x128_si256"];
   arm 723 "v128x2_zip_hi" [IAVX2] ["_mm256_permute2x128_si256"];
   arm 738 "u64x4_permute" [IAVX2] ["_mm256_permute4x64_epi64"];
   arm 810 "u16x16_mul_hi" [IAVX2] ["_mm256_mulhi_epu16"];
   arm 821 "i16x16_mul_hi" [IAVX2] ["_mm256_mulhi_epi16"];
   arm 832 "i16x16_maddubs" [IAVX2] ["_mm256_maddubs_epi16"];
   arm 843 "u32x8_blend" [IAVX2] ["_mm256_blend_epi32"];
   arm 859 "u8x32_blendv" [IAVX2] ["_mm256_blendv_epi8"];
   arm 873 "i16x16_madd" [IAVX2] ["_mm256_madd_epi16"];
   arm 884 "u8x32_avgr" [IAVX2] ["_mm256_avg_epu8"];
   (* vsimd/src/unified.rs *)
   arm 36 "splat" [IAVX2] ["_mm256_set1_epi8"];
   arm 48 "splat" [ISSE2] ["_mm_set1_epi8"; "_mm_set1_epi16"; "_mm_set1_epi32"; "_mm_set1_epi64x"];
   arm 103 "add" [IAVX2] ["_mm256_add_epi8"; "_mm256_add_epi16"; "_mm256_add_epi32"; "_mm256_add_epi64"];
   arm 127 "add" [ISSE2] ["_mm_add_epi8"; "_mm_add_epi16"; "_mm_add_epi32"; "_mm_add_epi64"];
   arm 182 "sub" [IAVX2] ["_mm256_sub_epi8"; "_mm256_sub_epi16"; "_mm256_sub_epi32"; "_mm256_sub_epi64"];
   arm 206 "sub" [ISSE2] ["_mm_sub_epi8"; "_mm_sub_epi16"; "_mm_sub_epi32"; "_mm_sub_epi64"];
   arm 261 "eq" [IAVX2] ["_mm256_cmpeq_epi8"; "_mm256_cmpeq_epi16"; "_mm256_cmpeq_epi32"; "_mm256_cmpeq_epi64"];
   arm 285 "eq" [ISSE2] ["_mm_cmpeq_epi8"; "_mm_cmpeq_epi16"; "_mm_cmpeq_epi32"];
   arm 338 "lt" [IAVX2] ["_mm256_cmpgt_epi8"; "_mm256_cmpgt_epi16"; "_mm256_cmpgt_epi32"; "_mm256_cmpgt_epi64"; "_mm256_cmpeq_epi8"; "_mm256_max_epu8"; "_mm256_xor_si256"; "_mm256_cmpeq_epi16"; "_mm256_max_epu16"; "_mm256_cmpeq_epi32"; "_mm256_max_epu32"];
   arm 383 "lt" [ISSE2] ["_mm_cmplt_epi8"; "_mm_cmplt_epi16"; "_mm_cmplt_epi32"; "_mm_cmpeq_epi8"; "_mm_max_epu8"; "_mm_xor_si128"; "_mm_set1_epi16"; "_mm_set1_epi32"];
   arm 484 "add_sat" [IAVX2] ["_mm256_adds_epi8"; "_mm256_adds_epi16"; "_mm256_adds_epu8"; "_mm256_adds_epu16"];
   arm 508 "add_sat" [ISSE2] ["_mm_adds_epi8"; "_mm_adds_epi16"; "_mm_adds_epu8"; "_mm_adds_epu16"];
   arm 569 "sub_sat" [IAVX2] ["_mm256_subs_epi8"; "_mm256_subs_epi16"; "_mm256_subs_epu8"; "_mm256_subs_epu16"];
   arm 593 "sub_sat" [ISSE2] ["_mm_subs_epi8"; "_mm_subs_epi16"; "_mm_subs_epu8"; "_mm_subs_epu16"];
   arm 653 "max" [IAVX2] ["_mm256_max_epi8"; "_mm256_max_epi16"; "_mm256_max_epi32"; "_mm256_max_epu8"; "_mm256_max_epu16"; "_mm256_max_epu32"; "_mm256_max_ps"; "_mm256_max_pd"];
   arm 695 "max" [ISSE41] ["_mm_max_epi8"; "_mm_max_epi32"; "_mm_max_epu16"; "_mm_max_epu32"];
   arm 710 "max" [ISSE2] ["_mm_max_epi16"; "_mm_max_epu8"; "_mm_max_ps"; "_mm_max_pd"];
   arm 783 "min" [IAVX2] ["_mm256_min_epi8"; "_mm256_min_epi16"; "_mm256_min_epi32"; "_mm256_min_epu8"; "_mm256_min_epu16"; "_mm256_min_epu32"; "_mm256_min_ps"; "_mm256_min_pd"];
   arm 825 "min" [ISSE41] ["_mm_min_epi8"; "_mm_min_epi32"; "_mm_min_epu16"; "_mm_min_epu32"];
   arm 841 "min" [ISSE2] ["_mm_min_epi16"; "_mm_min_epu8"; "_mm_min_ps"; "_mm_min_pd"];
   arm 918 "and" [IAVX2] ["_mm256_and_si256"];
   arm 931 "and" [ISSE2] ["_mm_and_si128"];
   arm 957 "or" [IAVX2] ["_mm256_or_si256"];
   arm 970 "or" [ISSE2] ["_mm_or_si128"];
   arm 996 "xor" [IAVX2] ["_mm256_xor_si256"];
   arm 1009 "xor" [ISSE2] ["_mm_xor_si128"];
   arm 1035 "andnot" [IAVX2] ["_mm256_andnot_si256"];
   arm 1049 "andnot" [ISSE2] ["_mm_andnot_si128"];
   (* uuid-simd/src/spec.rs *)
   arm 43 "i16x16_set_lane7" [IAVX2] ["_mm256_insert_epi16"];
   arm 47 "i16x16_set_lane7" [ISSE2] ["_mm_insert_epi16"];
   arm 75 "i32x8_set_lane7" [IAVX2] ["_mm256_insert_epi32"];
   arm 79 "i32x8_set_lane7" [ISSE41] ["_mm_insert_epi32"];
   arm 107 "i32x4_get_lane3" [ISSE41] ["_mm_extract_epi32"];
   arm 127 "i16x8_get_lane7" [ISSE2] ["_mm_extract_epi16"];
   (* unicode-simd/src/ascii.rs: is_ascii_sse2, only compiled when SSE2 is enabled at compile time *)
   arm 24 "is_ascii_sse2" [ISSE2] ["_mm_movemask_epi8"; "_mm_or_si128"]].
