(** The vector code on AArch64 with the byte order of the target as a parameter.
    /repo selects its NEON code by [target_arch] and [target_feature] only (vsimd/src/isa.rs:96-125, 236-272):
    no file tests [target_endian]. So the same source is compiled for little-endian and big-endian AArch64. The other model files fix the little-endian reading; here the branches taken for
    NEON on AArch64 are written a second time with the order [en] as a parameter.

    How the order enters. A vector is a value of [V128]/[V256], whose bytes in memory are the list of the model; the NEON
    types are reached by [transmute] (simd128.rs:16, simd256.rs:12), so the j-th 16-bit or 32-bit lane is the number that
    the j-th group of 2 or 4 bytes means in the byte order of the target. Byte lanes are numbered in memory order for both
    orders. This is the reading of the Rust source in which a [transmute] keeps the bytes in memory; whether a compiler
    implements the intrinsics so on this target is outside the model. *)
From Coq Require Import ZArith List Bool.
From Verif Require Import Bytes Mem Isa Simd Alsw Hex Base64 Base32 Ints Unicode.
Import ListNotations.
Open Scope Z_scope.
Open Scope m_scope.

(** the bytes of every [k]-byte lane from most to least significant instead of the other way round *)
Definition flip (en : endian) (k : nat) (a : list Z) : list Z :=
  match en with LE => a | BE => rev_elems (length a / k) k a end.
(** An operation on lanes of [k] bytes, given as its effect on lanes stored least significant byte first. *)
Definition on_lanes (en : endian) (k : nat) (f : list Z -> option (list Z)) (a : list Z) : option (list Z) :=
  let? y := f (flip en k a) in Some (flip en k y).
Definition on_lanes2 (en : endian) (k : nat) (f : list Z -> list Z -> option (list Z)) (a b : list Z) : option (list Z) :=
  let? y := f (flip en k a) (flip en k b) in Some (flip en k y).

(** vsimd/hex.rs:52 [encode_bytes16]; [u16x16_from_u8x16] yields sixteen numbers below 256 in the order of the target *)
Definition hex_encode_bytes16_ord (en : endian) (x lut : list Z) : option (list Z) :=
  let? w := u16x16_from_u8x16 NEON64 x in
  let x' := flip en 2 w in
  let? hi := on_lanes en 2 (u16x16_shl NEON64 8) x' in
  let? lo := on_lanes en 2 (u16x16_shr NEON64 4) x' in
  let? o := v256_or NEON64 hi lo in
  let? m := splat256 NEON64 [15] in
  let? values := v256_and NEON64 o m in
  u8x16x2_swizzle NEON64 lut values.

(** vsimd/hex.rs:119 [merge_bits] *)
Definition hex_merge_bits_ord (en : endian) (w : width) (x : list Z) : option (list Z) :=
  let? x1 := on_lanes en 2 (u16xn_shl w NEON64 4) x in
  let? x2 := on_lanes en 2 (u16xn_shr w NEON64 12) x1 in
  xn_or w NEON64 x1 x2.

(** vsimd/alsw.rs:68 [check_ascii_xn] *)
Definition check_ascii_xn_ord (en : endian) (w : width) (x : list Z) (check : alsw_lut) : option bool :=
  let? shr3 := on_lanes en 4 (u32xn_shr w NEON64 3) x in
  let? l1 := u8x16xn_lookup w NEON64 (fst check) x in
  let? h1 := u8xn_avgr w NEON64 shr3 l1 in
  let? o1 := u8x16xn_lookup w NEON64 (snd check) h1 in
  let? c1 := i8xn_add_sat w NEON64 x o1 in
  let? hb := u8xn_highbit_any w NEON64 c1 in
  Some (negb hb).
(** vsimd/alsw.rs:77 [decode_ascii_xn] *)
Definition decode_ascii_xn_ord (en : endian) (w : width) (x : list Z) (check decode : alsw_lut) : option (list Z * list Z) :=
  let? shr3 := on_lanes en 4 (u32xn_shr w NEON64 3) x in
  let? l1 := u8x16xn_lookup w NEON64 (fst check) x in
  let? h1 := alsw_u8xn_avgr w NEON64 shr3 l1 in
  let? l2 := u8x16xn_lookup w NEON64 (fst decode) x in
  let? h2 := alsw_u8xn_avgr w NEON64 shr3 l2 in
  let? o1 := u8x16xn_lookup w NEON64 (snd check) h1 in
  let? o2 := u8x16xn_lookup w NEON64 (snd decode) h2 in
  let? c1 := i8xn_add_sat w NEON64 x o1 in
  let? c2 := u8xn_add w NEON64 x o2 in
  Some (c1, c2).

(** vsimd/hex.rs:133, 146 [decode16], [decode_ascii16]; 139, 168 [decode32], [decode_ascii32] *)
Definition hex_decode_ascii16_ord (en : endian) (x : list Z) : option (result (list Z)) :=
  let? c := decode_ascii_xn_ord en W128 x (check_lut HexAlsw) (decode_lut HexAlsw) in
  let? y := hex_merge_bits_ord en W128 (snd c) in
  let? ans := u8x8_unzip_even NEON64 (lo64 y) (hi64 y) in
  let? inv := u8x16_highbit_any NEON64 (fst c) in
  Some (if inv : bool then Err else Ok ans).
Definition hex_decode_ascii32_ord (en : endian) (x : list Z) : option (result (list Z)) :=
  let? c := decode_ascii_xn_ord en W256 x (lut_x2 (check_lut HexAlsw)) (lut_x2 (decode_lut HexAlsw)) in
  let? y := hex_merge_bits_ord en W256 (snd c) in
  let? ans := u8x16_unzip_even NEON64 (lo128 y) (hi128 y) in
  let? inv := u8x32_highbit_any NEON64 (fst c) in
  Some (if inv : bool then Err else Ok ans).

(** base64-simd/encode.rs:176 [split_bits_x2]. [u32x8_splat(u32::from_le_bytes(v))] stores the number of which [v] are the
    little-endian bytes in the order of the target: [flip en 4 v]. *)
Definition split_bits_x2_ord (en : endian) (x : list Z) : option (list Z) :=
  let? x0 := u8x16x2_swizzle NEON64 x B64_SPLIT_SHUFFLE in
  let? m1 := splat256 NEON64 (flip en 4 [0; 252; 0; 0]) in
  let? a1 := v256_and NEON64 x0 m1 in
  let? x1 := on_lanes en 2 (u16x16_shr NEON64 10) a1 in
  let? m2 := splat256 NEON64 (flip en 4 [240; 3; 0; 0]) in
  let? a2 := v256_and NEON64 x0 m2 in
  let? x2 := on_lanes en 2 (u16x16_shl NEON64 4) a2 in
  let? m3 := splat256 NEON64 (flip en 4 [0; 0; 192; 15]) in
  let? a3 := v256_and NEON64 x0 m3 in
  let? x3 := on_lanes en 2 (u16x16_shr NEON64 6) a3 in
  let? m4 := splat256 NEON64 (flip en 4 [0; 0; 63; 0]) in
  let? a4 := v256_and NEON64 x0 m4 in
  let? x4 := on_lanes en 2 (u16x16_shl NEON64 8) a4 in
  let? o1 := v256_or NEON64 x1 x2 in
  let? o2 := v256_or NEON64 x3 x4 in
  v256_or NEON64 o1 o2.
(** base64-simd/encode.rs:228 [split_bits_x1] *)
Definition split_bits_x1_ord (en : endian) (x : list Z) : option (list Z) :=
  let? x0 := u8x16_swizzle NEON64 x (hi128 B64_SPLIT_SHUFFLE) in
  let? m1 := splat128 NEON64 (flip en 4 [0; 252; 0; 0]) in
  let? a1 := v128_and NEON64 x0 m1 in
  let? x1 := on_lanes en 2 (u16x8_shr NEON64 10) a1 in
  let? m2 := splat128 NEON64 (flip en 4 [240; 3; 0; 0]) in
  let? a2 := v128_and NEON64 x0 m2 in
  let? x2 := on_lanes en 2 (u16x8_shl NEON64 4) a2 in
  let? m3 := splat128 NEON64 (flip en 4 [0; 0; 192; 15]) in
  let? a3 := v128_and NEON64 x0 m3 in
  let? x3 := on_lanes en 2 (u16x8_shr NEON64 6) a3 in
  let? m4 := splat128 NEON64 (flip en 4 [0; 0; 63; 0]) in
  let? a4 := v128_and NEON64 x0 m4 in
  let? x4 := on_lanes en 2 (u16x8_shl NEON64 8) a4 in
  let? o1 := v128_or NEON64 x1 x2 in
  let? o2 := v128_or NEON64 x3 x4 in
  v128_or NEON64 o1 o2.
(** base64-simd/encode.rs:323 [encode_bytes24], 334 [encode_bytes12]; [encode_values] works on bytes *)
Definition encode_bytes24_ord (en : endian) (x shift_lut : list Z) : option (list Z) :=
  let? values := split_bits_x2_ord en x in b64_encode_values W256 NEON64 values shift_lut.
Definition encode_bytes12_ord (en : endian) (x shift_lut : list Z) : option (list Z) :=
  let? values := split_bits_x1_ord en x in b64_encode_values W128 NEON64 values shift_lut.
(** base64-simd/decode.rs:241 [merge_bits_x2] *)
Definition merge_bits_x2_ord (en : endian) (x : list Z) : option (list Z) :=
  let? m1 := splat256 NEON64 (flip en 4 [63; 0; 63; 0]) in
  let? x1 := v256_and NEON64 x m1 in
  let? m2 := splat256 NEON64 (flip en 4 [0; 63; 0; 63]) in
  let? x2 := v256_and NEON64 x m2 in
  let? a3 := on_lanes en 4 (u32x8_shl NEON64 18) x1 in
  let? b3 := on_lanes en 4 (u32x8_shr NEON64 10) x1 in
  let? x3 := v256_or NEON64 a3 b3 in
  let? a4 := on_lanes en 4 (u32x8_shl NEON64 4) x2 in
  let? b4 := on_lanes en 4 (u32x8_shr NEON64 24) x2 in
  let? x4 := v256_or NEON64 a4 b4 in
  let? mask := splat256 NEON64 (flip en 4 [255; 255; 255; 0]) in
  let? o := v256_or NEON64 x3 x4 in
  let? y := v256_and NEON64 o mask in
  u8x16x2_swizzle NEON64 y B64_MERGE_SHUFFLE.
(** base64-simd/decode.rs:283 [decode_ascii32] *)
Definition b64_decode_ascii32_ord (en : endian) (x : list Z) (check decode : alsw_lut) : option (result (list Z)) :=
  let? c := decode_ascii_xn_ord en W256 x check decode in
  let? y := merge_bits_x2_ord en (snd c) in
  let? h := u8x32_highbit_any NEON64 (fst c) in
  Some (if h : bool then Err else Ok y).

(** base32-simd/encode.rs:175 [split_bits]. [u16x4_to_u64] (lib.rs:80) transmutes four numbers, [u64x4_splat] stores them as they
    are: every number is in the order of the target ([flip en 2]). *)
Definition b32_split_bits_ord (en : endian) (x : list Z) : option (list Z) :=
  let? x1 := u8x16x2_swizzle NEON64 x B32_SPLIT_SHUFFLE in
  let? x2 := on_lanes en 2 (u16x16_shr NEON64 4) x1 in
  let? m1 := splat256 NEON64 (flip en 2 [2; 0; 8; 0; 32; 0; 128; 0]) in
  let? x3 := on_lanes2 en 2 (i16x16_mul_lo NEON64) x2 m1 in
  let? m2 := splat256 NEON64 (flip en 2 [4; 0; 16; 0; 64; 0; 0; 1]) in
  let? x4 := on_lanes2 en 2 (i16x16_mul_lo NEON64) x1 m2 in
  let? m3 := splat256 NEON64 (flip en 2 [0; 31]) in
  let? x5 := v256_and NEON64 x3 m3 in
  let? x6 := v256_and NEON64 x4 m3 in
  let? x7 := on_lanes en 2 (u16x16_shr NEON64 8) x5 in
  v256_or NEON64 x6 x7.
(** base32-simd/encode.rs:257 [encode_bytes20] *)
Definition encode_bytes20_ord (en : endian) (x : list Z) (lut : encoding_lut) : option (list Z) :=
  let? values := b32_split_bits_ord en x in b32_encode_values NEON64 values lut.
(** base32-simd/decode.rs:206 [merge_bits] *)
Definition b32_merge_bits_ord (en : endian) (x : list Z) : option (list Z) :=
  let? m1 := splat256 NEON64 (flip en 2 [31; 0]) in
  let? x1 := v256_and NEON64 x m1 in
  let? m2 := splat256 NEON64 (flip en 2 [8; 0; 2; 0; 128; 0; 32; 0]) in
  let? x2 := on_lanes2 en 2 (i16x16_mul_lo NEON64) x1 m2 in
  let? x3 := on_lanes en 2 (u16x16_shr NEON64 8) x in
  let? m3 := splat256 NEON64 (flip en 2 [64; 0; 16; 0; 4; 0; 1; 0]) in
  let? x4 := on_lanes2 en 2 (i16x16_mul_lo NEON64) x3 m3 in
  let? x5 := u8x16x2_swizzle NEON64 x2 B32_MERGE_N1 in
  let? x6 := u8x16x2_swizzle NEON64 x4 B32_MERGE_N2 in
  let? x7 := v256_or NEON64 x5 x6 in
  let? x8 := u8x16x2_swizzle NEON64 x7 B32_MERGE_N3 in
  let? x9 := u8x16x2_swizzle NEON64 x7 B32_MERGE_N4 in
  v256_or NEON64 x8 x9.
(** base32-simd/decode.rs:268 [decode_ascii32] *)
Definition b32_decode_ascii32_ord (en : endian) (x : list Z) (check decode : alsw_lut) : option (result (list Z)) :=
  let? c := decode_ascii_xn_ord en W256 x check decode in
  let? y := b32_merge_bits_ord en (snd c) in
  let? h := u8x32_highbit_any NEON64 (fst c) in
  Some (if h : bool then Err else Ok y).

(** unicode-simd/utf32.rs:36 [is_utf32le_simd]; a [u32x8_splat] of a number stores it in the order of the target *)
Definition u32x8_splat_ord (en : endian) (x : Z) : option (list Z) := splat256 NEON64 (native_bytes en 4 x).
Definition utf32_step_ord (en : endian) (y x : list Z) : option (list Z) :=
  let? k1 := u32x8_splat_ord en 55296 in
  let? a1 := v256_xor NEON64 x k1 in
  let? k2 := u32x8_splat_ord en 2048 in
  let? a2 := on_lanes2 en 4 (u32x8_sub NEON64) a1 k2 in
  on_lanes2 en 4 (u32x8_max NEON64) y a2.
Definition is_utf32le_simd_ord (en : endian) (src : ptr) (len : nat) : M bool :=
  y <- lift (u32x8_splat_ord en 0) ;;
  end_ <- padd src (4 * (len / 8 * 8)) ;;
  ' (p, y) <- while_ (S len) (fun st => plt (fst st) end_) (fun st =>
      x <- load (fst st) 32 ;;
      y <- lift (utf32_step_ord en (snd st) x) ;;
      p <- padd (fst st) 32 ;;
      ret (p, y)) (src, y) ;;
  m <- lift (u32x8_splat_ord en 1112063) ;;
  c <- lift (on_lanes2 en 4 (u32x8_lt NEON64) m y) ;;
  ans <- lift (v256_all_zero NEON64 c) ;;
  f <- is_utf32le_fallback en p (len mod 8) ;;
  ret (ans && f).
