(** Model of hexadecimal coding: /repo/crates/vsimd/src/hex.rs and /repo/crates/hex-simd/src.
    File names without a directory refer to hex-simd/src unless they say vsimd. *)
From Coq Require Import ZArith List Bool String.
From Verif Require Import Bytes Mem Isa Simd Alsw.
Import ListNotations.
Open Scope list_scope.
Open Scope Z_scope.
Open Scope m_scope.

(** ** vsimd/hex.rs *)

(** vsimd/ascii.rs:5-12 [AsciiCase] *)
Inductive ascii_case := Lower | Upper.

(** vsimd/hex.rs:8-9 *)
Definition UPPER_CHARSET : list Z := str "0123456789ABCDEF"%string.
Definition LOWER_CHARSET : list Z := str "0123456789abcdef"%string.

(** vsimd/hex.rs:22-32 [unhex]: indexes the table built from [parse_hex]; the index is a u8, so in bounds *)
Definition UNHEX_TABLE : list Z := map parse_hex (range 256).
Definition unhex (x : Z) : Z := nth (Z.to_nat x) UNHEX_TABLE 0.

(** vsimd/hex.rs:36 [check_xn]; -118 and -122 as bytes are 138 and 134 *)
Definition hex_check_xn (w : width) (s : isa) (x : list Z) : option bool :=
  let? k1 := u8xn_splat w s (48 + 128) in
  let? x1 := u8xn_sub w s x k1 in
  let? k2 := u8xn_splat w s 223 in
  let? xa := xn_and w s x k2 in
  let? k3 := u8xn_splat w s (65 + 128) in
  let? x2 := u8xn_sub w s xa k3 in
  let? k4 := u8xn_splat w s 138 in
  let? m1 := i8xn_lt w s x1 k4 in
  let? k5 := u8xn_splat w s 134 in
  let? m2 := i8xn_lt w s x2 k5 in
  let? o := xn_or w s m1 m2 in
  mask8xn_all w s o.

(** vsimd/hex.rs:48-49 *)
Definition ENCODE_UPPER_LUT : list Z := x2 UPPER_CHARSET.
Definition ENCODE_LOWER_LUT : list Z := x2 LOWER_CHARSET.

(** vsimd/hex.rs:52 [encode_bytes16] *)
Definition hex_encode_bytes16 (s : isa) (x lut : list Z) : option (list Z) :=
  let? x' := u16x16_from_u8x16 s x in
  let? hi := u16x16_shl s 8 x' in
  let? lo := u16x16_shr s 4 x' in
  let? o := v256_or s hi lo in
  let? m := splat256 s [15] in
  let? values := v256_and s o m in
  u8x16x2_swizzle s lut values.

(** vsimd/hex.rs:61 [encode_bytes32] *)
Definition hex_encode_bytes32 (s : isa) (x lut : list Z) : option (list Z * list Z) :=
  let? m := splat256 s [15] in
  let? sh := u16x16_shr s 4 x in
  let? hi := v256_and s sh m in
  let? lo := v256_and s x m in
  let? ac := u8x16x2_zip_lo s hi lo in
  let? bd := u8x16x2_zip_hi s hi lo in
  let? ab := v128x2_zip_lo s ac bd in
  let? cd := v128x2_zip_hi s ac bd in
  let? y1 := u8x16x2_swizzle s lut ab in
  let? y2 := u8x16x2_swizzle s lut cd in
  Some (y1, y2).

(** vsimd/hex.rs:108, 113 *)
Definition UZP1 : list Z := [0; 2; 4; 6; 8; 10; 12; 14; 128; 128; 128; 128; 128; 128; 128; 128].
Definition UZP2 : list Z := [128; 128; 128; 128; 128; 128; 128; 128; 0; 2; 4; 6; 8; 10; 12; 14].
Definition DECODE_UZP1 : list Z := x2 UZP1.
Definition DECODE_UZP2 : list Z := x2 UZP2.

(** vsimd/hex.rs:119 [merge_bits] *)
Definition hex_merge_bits (w : width) (s : isa) (x : list Z) : option (list Z) :=
  let? x1 := u16xn_shl w s 4 x in
  let? x2 := u16xn_shr w s 12 x1 in
  xn_or w s x1 x2.

(** vsimd/hex.rs:133 [decode16], 139 [decode32]; tables 101-106 *)
Definition hex_decode16 (s : isa) (x : list Z) : option (list Z * list Z) :=
  let? c := decode_ascii_xn W128 s x (check_lut HexAlsw) (decode_lut HexAlsw) in
  let? y := hex_merge_bits W128 s (snd c) in Some (y, fst c).
Definition hex_decode32 (s : isa) (x : list Z) : option (list Z * list Z) :=
  let? c := decode_ascii_xn W256 s x (lut_x2 (check_lut HexAlsw)) (lut_x2 (decode_lut HexAlsw)) in
  let? y := hex_merge_bits W256 s (snd c) in Some (y, fst c).

(** vsimd/hex.rs:146 [decode_ascii16] *)
Definition hex_decode_ascii16 (s : isa) (x : list Z) : option (result (list Z)) :=
  let? d := hex_decode16 s x in
  let y := fst d in let is_invalid := snd d in
  let? ans :=
    if matches_isa s [ISSSE3; IWASM128] then let? z := u8x16_swizzle s y UZP1 in Some (lo64 z)
    else if matches_isa s [INEON] then u8x8_unzip_even s (lo64 y) (hi64 y)
    else None in
  let? inv := u8x16_highbit_any s is_invalid in
  Some (if inv : bool then Err else Ok ans).

(** vsimd/hex.rs:168 [decode_ascii32] *)
Definition hex_decode_ascii32 (s : isa) (x : list Z) : option (result (list Z)) :=
  let? d := hex_decode32 s x in
  let y := fst d in let is_invalid := snd d in
  let? ans :=
    if matches_isa s [ISSSE3; IWASM128] then
      let? z := u8x16x2_swizzle s y DECODE_UZP1 in u64x2_zip_lo s (lo128 z) (hi128 z)
    else if matches_isa s [INEON] then u8x16_unzip_even s (lo128 y) (hi128 y)
    else None in
  let? inv := u8x32_highbit_any s is_invalid in
  Some (if inv : bool then Err else Ok ans).

(** vsimd/hex.rs:190 [decode_ascii32x2] *)
Definition hex_decode_ascii32x2 (s : isa) (x0 x1 : list Z) : option (result (list Z)) :=
  let? d1 := hex_decode32 s x0 in
  let? d2 := hex_decode32 s x1 in
  let y1 := fst d1 in let y2 := fst d2 in
  let? is_invalid := v256_or s (snd d1) (snd d2) in
  let? ans :=
    if matches_isa s [IAVX2] then
      let? ab := u8x16x2_swizzle s y1 DECODE_UZP1 in
      let? cd := u8x16x2_swizzle s y2 DECODE_UZP2 in
      let? acbd := v256_or s ab cd in
      u64x4_permute_0213 s acbd
    else if matches_isa s [ISSSE3; IWASM128] then
      let? ab := u8x16x2_swizzle s y1 DECODE_UZP1 in
      let? cd := u8x16x2_swizzle s y2 DECODE_UZP1 in
      u64x4_unzip_even s ab cd
    else if matches_isa s [INEON] then u8x32_unzip_even s y1 y2
    else None in
  let? inv := u8x32_highbit_any s is_invalid in
  Some (if inv : bool then Err else Ok ans).

(** vsimd/hex.rs:224 [sse2::decode_nibbles]; [s] is exactly SSE2 in the callers *)
Definition sse2_decode_nibbles (s : isa) (x : list Z) : option (list Z * list Z) :=
  let? k1 := splat128 s [255 - 57] in
  let? t1 := u8x16_add s x k1 in
  let? k2 := splat128 s [6] in
  let? t2 := u8x16_sub_sat s t1 k2 in
  let? k3 := splat128 s [240] in
  let? t3 := u8x16_sub s t2 k3 in
  let? k4 := splat128 s [223] in
  let? t4 := v128_and s x k4 in
  let? k5 := splat128 s [65] in
  let? t5 := u8x16_sub s t4 k5 in
  let? k6 := splat128 s [10] in
  let? t6 := u8x16_add_sat s t5 k6 in
  let? t7 := u8x16_min s t3 t6 in
  let? k7 := splat128 s [127 - 15] in
  let? t8 := u8x16_add_sat s t7 k7 in
  Some (t7, t8).

(** vsimd/hex.rs:241 [sse2::merge_bits] *)
Definition sse2_merge_bits (s : isa) (x : list Z) : option (list Z) :=
  let? lo := u16x8_shr s 8 x in
  let? hi := u16x8_shl s 4 x in
  let? t1 := v128_or s lo hi in
  let? k := splat128 s [255; 0] in
  let? t2 := v128_and s t1 k in
  let? z := v128_create_zero s in
  let? t3 := i16x8_packus s t2 z in
  Some (lo64 t3).

(** vsimd/hex.rs:250-251 *)
Definition LOWER_OFFSET : list Z := repeat 39 16.
Definition UPPER_OFFSET : list Z := repeat 7 16.

(** vsimd/hex.rs:255 [sse2::encode16] *)
Definition sse2_encode16 (s : isa) (x offset : list Z) : option (list Z * list Z) :=
  let? m := splat128 s [15] in
  let? sh := u16x8_shr s 4 x in
  let? hi := v128_and s sh m in
  let? lo := v128_and s x m in
  let? c1 := splat128 s [48] in
  let? h1 := u8x16_add s hi c1 in
  let? l1 := u8x16_add s lo c1 in
  let? c2 := splat128 s [57] in
  let? hm := i8x16_lt s c2 h1 in
  let? h2 := v128_and s hm offset in
  let? lm := i8x16_lt s c2 l1 in
  let? l2 := v128_and s lm offset in
  let? h3 := u8x16_add s h1 h2 in
  let? l3 := u8x16_add s l1 l2 in
  let? y1 := u8x16_zip_lo s h3 l3 in
  let? y2 := u8x16_zip_hi s h3 l3 in
  Some (y1, y2).

(** ** encode.rs *)

(** encode.rs:9 [charset] *)
Definition charset (case : ascii_case) : list Z :=
  match case with Lower => LOWER_CHARSET | Upper => UPPER_CHARSET end.

(** encode.rs:17 [encode_bits] *)
Definition encode_bits (src dst : ptr) (cs : list Z) : M unit :=
  x <- read src 0 ;;
  hi <- table_get cs (x / 16) ;;
  lo <- table_get cs (Z.land x 15) ;;
  write dst 0 hi ;;;
  write dst 1 lo.

(** one iteration shared by the scalar loops: encode_bits; src += 1; dst += 2 *)
Definition encode_step (cs : list Z) (st : ptr * ptr) : M (ptr * ptr) :=
  encode_bits (fst st) (snd st) cs ;;;
  src <- padd (fst st) 1 ;;
  dst <- padd (snd st) 2 ;;
  ret (src, dst).

(** encode.rs:26 [encode_short] *)
Definition encode_short (src : ptr) (len : nat) (dst : ptr) (cs : list Z) : M unit :=
  e <- padd src len ;;
  while_ (S len) (fun st => plt (fst st) e) (encode_step cs) (src, dst) ;;;
  ret tt.

(** encode.rs:36 [encode_long] *)
Definition encode_long (src : ptr) (len : nat) (dst : ptr) (case : ascii_case) : M unit :=
  let cs := charset case in
  e <- padd src (len / 8 * 8) ;;
  st <- while_ (S len) (fun st => plt (fst st) e)
          (fun st => for_ 8 0 (fun _ st => encode_step cs st) st) (src, dst) ;;
  encode_short (fst st) (len mod 8) (snd st) cs.

(** encode.rs:53 *)
Definition hex_encode_fallback := encode_long.

(** encode.rs:71 [encode_simd_v256] *)
Definition encode_simd_v256 (s : isa) (src : ptr) (len : nat) (dst : ptr) (case : ascii_case) : M unit :=
  let lut := match case with Lower => ENCODE_LOWER_LUT | Upper => ENCODE_UPPER_LUT end in
  if (len =? 16)%nat then
    x <- load src 16 ;;
    y <- lift (hex_encode_bytes16 s x lut) ;;
    store dst y
  else
  e <- padd src (len / 32 * 32) ;;
  st <- while_ (S len) (fun st => plt (fst st) e)
    (fun st =>
       x <- load (fst st) 32 ;;
       y <- lift (hex_encode_bytes32 s x lut) ;;
       store (snd st) (fst y) ;;;
       dst <- padd (snd st) 32 ;;
       store dst (snd y) ;;;
       dst <- padd dst 32 ;;
       src <- padd (fst st) 32 ;;
       ret (src, dst)) (src, dst) ;;
  let len := (len mod 32)%nat in
  if (len =? 0)%nat then ret tt else
  ' (src, dst, len) <-
    (if (16 <=? len)%nat then
       x <- load (fst st) 16 ;;
       y <- lift (hex_encode_bytes16 s x lut) ;;
       store (snd st) y ;;;
       dst <- padd (snd st) 32 ;;
       src <- padd (fst st) 16 ;;
       ret (src, dst, len - 16)%nat
     else ret (fst st, snd st, len)) ;;
  if (0 <? len)%nat then encode_short src len dst (charset case) else ret tt.

(** encode.rs:125 [encode_simd_v128] *)
Definition encode_simd_v128 (s : isa) (src : ptr) (len : nat) (dst : ptr) (case : ascii_case) : M unit :=
  let lut := match case with Lower => ENCODE_LOWER_LUT | Upper => ENCODE_UPPER_LUT end in
  e <- padd src (len / 16 * 16) ;;
  st <- while_ (S len) (fun st => plt (fst st) e)
    (fun st =>
       x <- load (fst st) 16 ;;
       y <- lift (hex_encode_bytes16 s x lut) ;;
       store (snd st) y ;;;
       dst <- padd (snd st) 32 ;;
       src <- padd (fst st) 16 ;;
       ret (src, dst)) (src, dst) ;;
  let len := (len mod 16)%nat in
  if (len =? 0)%nat then ret tt else
  encode_short (fst st) len (snd st) (charset case).

(** encode.rs:156 [encode_simd_sse2] *)
Definition encode_simd_sse2 (s : isa) (src : ptr) (len : nat) (dst : ptr) (case : ascii_case) : M unit :=
  let offset := match case with Lower => LOWER_OFFSET | Upper => UPPER_OFFSET end in
  e <- padd src (len / 16 * 16) ;;
  st <- while_ (S len) (fun st => plt (fst st) e)
    (fun st =>
       x <- load (fst st) 16 ;;
       src <- padd (fst st) 16 ;;
       y <- lift (sse2_encode16 s x offset) ;;
       store (snd st) (fst y) ;;;
       dst <- padd (snd st) 16 ;;
       store dst (snd y) ;;;
       dst <- padd dst 16 ;;
       ret (src, dst)) (src, dst) ;;
  let len := (len mod 16)%nat in
  if (len =? 0)%nat then ret tt else
  encode_short (fst st) len (snd st) (charset case).

(** encode.rs:58 [encode_simd] *)
Definition hex_encode_simd (s : isa) (src : ptr) (len : nat) (dst : ptr) (case : ascii_case) : M unit :=
  if arch_x86 s && is_isa_type s ISSE2 then encode_simd_sse2 SSE2 src len dst case
  else if arch_x86 s && matches_isa s [IAVX2] then encode_simd_v256 s src len dst case
  else encode_simd_v128 s src len dst case.

(** ** decode.rs *)

(** decode.rs:12 [shl4] *)
Definition shl4 (x : Z) : Z := (x * 16) mod 256.

(** decode.rs:17 [decode_bits] *)
Definition decode_bits (src dst : ptr) : M Z :=
  c1 <- read src 0 ;;
  let y1 := unhex c1 in
  c2 <- read src 1 ;;
  let y2 := unhex c2 in
  let z := Z.lor (shl4 y1) y2 in
  write dst 0 z ;;;
  ret (Z.lor y1 y2).

(** one accumulating iteration: flag |= decode_bits; src += 2; dst += 1 *)
Definition decode_step (st : ptr * ptr * Z) : M (ptr * ptr * Z) :=
  let '(src, dst, flag) := st in
  f <- decode_bits src dst ;;
  src' <- padd src 2 ;;
  dst' <- padd dst 1 ;;
  ret (src', dst', Z.lor flag f).

(** decode.rs:26 [decode_short::<S>] *)
Definition decode_short (s : isa) (src : ptr) (len : nat) (dst : ptr) : M (result unit) :=
  if matches_isa s [IAVX2; IWASM128] then
    e <- padd src len ;;
    r <- while_res (S len) (fun st : ptr * ptr => plt (fst st) e)
      (fun st =>
         flag <- decode_bits (fst st) (snd st) ;;
         if flag =? 255 then ret Err else
         src <- padd (fst st) 2 ;;
         dst <- padd (snd st) 1 ;;
         ret (Ok (src, dst))) (src, dst) ;;
    ret (match r with Ok _ => Ok tt | Err => Err end)
  else
    e <- padd src len ;;
    ' (_, _, flag) <- while_ (S len) (fun st => plt (fst (fst st)) e) decode_step (src, dst, 0) ;;
    ret (if flag =? 255 then Err else Ok tt).

(** decode.rs:54 [decode_long] *)
Definition decode_long (src : ptr) (len : nat) (dst : ptr) : M (result unit) :=
  e <- padd src (len / 16 * 16) ;;
  r <- while_res (S len) (fun st : ptr * ptr => plt (fst st) e)
    (fun st =>
       ' (src, dst, flag) <- for_ 8 0 (fun _ st => decode_step st) (fst st, snd st, 0) ;;
       if flag =? 255 then ret Err else ret (Ok (src, dst))) (src, dst) ;;
  match r with
  | Err => ret Err
  | Ok st => decode_short Fallback (fst st) (len mod 16) (snd st)
  end.

(** decode.rs:71 *)
Definition hex_decode_fallback := decode_long.

(** decode.rs:76 [decode16], 84 [decode32] *)
Definition dec16 (s : isa) (src dst : ptr) : M (result unit) :=
  x <- load src 16 ;;
  r <- lift (hex_decode_ascii16 s x) ;;
  match r with Err => ret Err | Ok y => store dst y ;;; ret (Ok tt) end.
Definition dec32 (s : isa) (src dst : ptr) : M (result unit) :=
  x <- load src 32 ;;
  r <- lift (hex_decode_ascii32 s x) ;;
  match r with Err => ret Err | Ok y => store dst y ;;; ret (Ok tt) end.

(** decode.rs:105 [decode_simd_v256] *)
Definition decode_simd_v256 (s : isa) (src : ptr) (len : nat) (dst : ptr) : M (result unit) :=
  if (len =? 16)%nat then dec16 s src dst else
  if (len =? 32)%nat then dec32 s src dst else
  e <- padd src (len / 64 * 64) ;;
  try_ (while_res (S len) (fun st : ptr * ptr => plt (fst st) e)
    (fun st =>
       x0 <- load (fst st) 32 ;;
       src <- padd (fst st) 32 ;;
       x1 <- load src 32 ;;
       src <- padd src 32 ;;
       r <- lift (hex_decode_ascii32x2 s x0 x1) ;;
       match r with
       | Err => ret Err
       | Ok y => store (snd st) y ;;; dst <- padd (snd st) 32 ;; ret (Ok (src, dst))
       end) (src, dst)) (fun st =>
  let len := (len mod 64)%nat in
  if (len =? 0)%nat then ret (Ok tt) else
  try_ (if (32 <=? len)%nat then
          try_ (dec32 s (fst st) (snd st)) (fun _ =>
          src <- padd (fst st) 32 ;;
          dst <- padd (snd st) 16 ;;
          ret (Ok (src, dst, len - 32)%nat))
        else ret (Ok (fst st, snd st, len))) (fun st =>
  let '(src, dst, len) := st in
  try_ (if (16 <=? len)%nat then
          try_ (dec16 s src dst) (fun _ =>
          src <- padd src 16 ;;
          dst <- padd dst 8 ;;
          ret (Ok (src, dst, len - 16)%nat))
        else ret (Ok (src, dst, len))) (fun st =>
  let '(src, dst, len) := st in
  decode_short s src len dst))).

(** decode.rs:156 [decode_simd_v128] *)
Definition decode_simd_v128 (s : isa) (src : ptr) (len : nat) (dst : ptr) : M (result unit) :=
  e <- padd src (len / 32 * 32) ;;
  try_ (while_res (S len) (fun st : ptr * ptr => plt (fst st) e)
    (fun st =>
       try_ (dec32 s (fst st) (snd st)) (fun _ =>
       src <- padd (fst st) 32 ;;
       dst <- padd (snd st) 16 ;;
       ret (Ok (src, dst)))) (src, dst)) (fun st =>
  let len := (len mod 32)%nat in
  if (len =? 0)%nat then ret (Ok tt) else
  try_ (if (16 <=? len)%nat then
          try_ (dec16 s (fst st) (snd st)) (fun _ =>
          src <- padd (fst st) 16 ;;
          dst <- padd (snd st) 8 ;;
          ret (Ok (src, dst, len - 16)%nat))
        else ret (Ok (fst st, snd st, len))) (fun st =>
  let '(src, dst, len) := st in
  decode_short s src len dst)).

(** decode.rs:183 [decode_simd_sse2] *)
Definition decode_simd_sse2 (s : isa) (src : ptr) (len : nat) (dst : ptr) : M (result unit) :=
  e <- padd src (len / 16 * 16) ;;
  try_ (while_res (S len) (fun st : ptr * ptr => plt (fst st) e)
    (fun st =>
       x <- load (fst st) 16 ;;
       nf <- lift (sse2_decode_nibbles s x) ;;
       m <- lift (u8x16_bitmask s (snd nf)) ;;
       if negb (m =? 0) then ret Err else
       ans <- lift (sse2_merge_bits s (fst nf)) ;;
       store (snd st) ans ;;;
       src <- padd (fst st) 16 ;;
       dst <- padd (snd st) 8 ;;
       ret (Ok (src, dst))) (src, dst)) (fun st =>
  let len := (len mod 16)%nat in
  if (len =? 0)%nat then ret (Ok tt) else
  decode_short SSE2 (fst st) len (snd st)).

(** decode.rs:92 [decode_simd] *)
Definition hex_decode_simd (s : isa) (src : ptr) (len : nat) (dst : ptr) : M (result unit) :=
  if arch_x86 s && is_isa_type s ISSE2 then decode_simd_sse2 SSE2 src len dst
  else if arch_x86 s && matches_isa s [IAVX2] then decode_simd_v256 s src len dst
  else decode_simd_v128 s src len dst.

(** ** check.rs *)

(** check.rs:8 [check_short] *)
Definition check_short (src : ptr) (len : nat) : M (result unit) :=
  e <- padd src len ;;
  st <- while_ (S len) (fun st => plt (fst st) e)
    (fun st => x <- read (fst st) 0 ;; src <- padd (fst st) 1 ;; ret (src, Z.lor (snd st) (unhex x))) (src, 0) ;;
  ret (if snd st =? 255 then Err else Ok tt).

(** check.rs:22 [check_short_sc] *)
Definition check_short_sc (src : ptr) (len : nat) : M (result unit) :=
  e <- padd src len ;;
  r <- while_res (S len) (fun src => plt src e)
    (fun src => x <- read src 0 ;; if unhex x =? 255 then ret Err else src <- padd src 1 ;; ret (Ok src)) src ;;
  ret (match r with Ok _ => Ok tt | Err => Err end).

(** check.rs:33 *)
Definition hex_check_fallback := check_short.

(** [load; ensure!(check_xn)] of one vector *)
Definition check_vec (w : width) (s : isa) (src : ptr) : M bool :=
  x <- load src (vlen w) ;; lift (hex_check_xn w s x).

(** check.rs:38 [check_simd] *)
Definition hex_check_simd (s : isa) (src : ptr) (len : nat) : M (result unit) :=
  let finish src len :=
    if matches_isa s [IAVX2; IWASM128] then check_short_sc src len else check_short src len in
  if matches_isa s [IAVX2] then
    if (len =? 16)%nat then
      ok <- check_vec W128 s src ;; ret (if ok : bool then Ok tt else Err)
    else
    e <- padd src (len / 32 * 32) ;;
    try_ (while_res (S len) (fun src => plt src e)
      (fun src => ok <- check_vec W256 s src ;; if ok : bool then src <- padd src 32 ;; ret (Ok src) else ret Err) src) (fun src =>
    let len := (len mod 32)%nat in
    if (len =? 0)%nat then ret (Ok tt) else
    if (16 <=? len)%nat then
      ok <- check_vec W128 s src ;;
      if ok : bool then src <- padd src 16 ;; finish src (len - 16)%nat else ret Err
    else finish src len)
  else
    e <- padd src (len / 16 * 16) ;;
    try_ (while_res (S len) (fun src => plt src e)
      (fun src => ok <- check_vec W128 s src ;; if ok : bool then src <- padd src 16 ;; ret (Ok src) else ret Err) src) (fun src =>
    let len := (len mod 16)%nat in
    if (len =? 0)%nat then ret (Ok tt) else
    finish src len).

(** ** multiversion.rs: the implementation that dispatch selected, by instruction set.
    [Fallback] selects the fallback function, any other the simd function. *)
Definition hex_check_impl (s : isa) : ptr -> nat -> M (result unit) :=
  match s with Fallback => hex_check_fallback | _ => hex_check_simd s end.
Definition hex_encode_impl (s : isa) : ptr -> nat -> ptr -> ascii_case -> M unit :=
  match s with Fallback => hex_encode_fallback | _ => hex_encode_simd s end.
Definition hex_decode_impl (s : isa) : ptr -> nat -> ptr -> M (result unit) :=
  match s with Fallback => hex_decode_fallback | _ => hex_decode_simd s end.

(** ** lib.rs: slices are pointer and length; a returned sub-slice of dst is its pointer and length *)

(** lib.rs:145 [check] *)
Definition hex_check (s : isa) (src : ptr) (len : nat) : M (result unit) := hex_check_impl s src len.

(** lib.rs:157 [encode] *)
Definition hex_encode (s : isa) (src : ptr) (slen : nat) (dst : ptr) (dlen : nat) (case : ascii_case) : M (result (ptr * nat)) :=
  if negb (slen <=? dlen / 2)%nat then ret Err else
  hex_encode_impl s src slen dst case ;;;
  ret (Ok (dst, slen * 2)%nat).

(** lib.rs:174 [decode] *)
Definition hex_decode (s : isa) (src : ptr) (slen : nat) (dst : ptr) (dlen : nat) : M (result (ptr * nat)) :=
  if negb ((slen mod 2 =? 0)%nat && (slen / 2 <=? dlen)%nat) then ret Err else
  try_ (hex_decode_impl s src slen dst) (fun _ => ret (Ok (dst, slen / 2)%nat)).

(** lib.rs:191 [decode_inplace] *)
Definition hex_decode_inplace (s : isa) (data : ptr) (len : nat) : M (result (ptr * nat)) :=
  if negb (len mod 2 =? 0)%nat then ret Err else
  try_ (hex_decode_impl s data len data) (fun _ => ret (Ok (data, len / 2)%nat)).

(** lib.rs:209 [encode_as_str]: the bytes are reinterpreted as a str without a check *)
Definition hex_encode_as_str := hex_encode.

(** lib.rs:77 [encoded_length], 87 [decoded_length] on usize of [bits] bits *)
Definition hex_encoded_length (bits n : Z) : option Z :=
  if n <=? usize_max bits / 2 then Some ((n * 2) mod 2 ^ bits) else None (* assert! panics *).
Definition hex_decoded_length (n : Z) : result Z := if n mod 2 =? 0 then Ok (n / 2) else Err.
