(** The whole functions that dispatch selects for NEON on AArch64, with the byte order [en] of the target as a parameter (LaneOrder.v
    explains how the order enters). Each is the function of Hex.v, Base64.v, Base32.v or Uuid.v with the kernels of LaneOrder.v;
    the bytewise kernels (hexadecimal check, swizzles) do not change. *)
From Coq Require Import ZArith List Bool.
From Verif Require Import Bytes Mem Isa Simd Alsw Ints Hex Base64 Forgiving Base32 Uuid LaneOrder.
Import ListNotations.
Open Scope Z_scope.
Open Scope m_scope.

(** ** hex-simd *)

(** encode.rs:125 [encode_simd_v128]; lib.rs:157 [encode] *)
Definition hex_encode_simd_ord (en : endian) (src : ptr) (len : nat) (dst : ptr) (case : ascii_case) : M unit :=
  let lut := match case with Lower => ENCODE_LOWER_LUT | Upper => ENCODE_UPPER_LUT end in
  e <- padd src (len / 16 * 16) ;;
  st <- while_ (S len) (fun st => plt (fst st) e)
    (fun st =>
       x <- load (fst st) 16 ;;
       y <- lift (hex_encode_bytes16_ord en x lut) ;;
       store (snd st) y ;;;
       dst <- padd (snd st) 32 ;;
       src <- padd (fst st) 16 ;;
       ret (src, dst)) (src, dst) ;;
  let len := (len mod 16)%nat in
  if (len =? 0)%nat then ret tt else
  encode_short (fst st) len (snd st) (charset case).
Definition hex_encode_ord (en : endian) (src : ptr) (slen : nat) (dst : ptr) (dlen : nat) (case : ascii_case) : M (result (ptr * nat)) :=
  if negb (slen <=? dlen / 2)%nat then ret Err else
  hex_encode_simd_ord en src slen dst case ;;;
  ret (Ok (dst, slen * 2)%nat).

(** decode.rs:76 [decode16], 84 [decode32], 156 [decode_simd_v128]; lib.rs:174 [decode], 191 [decode_inplace] *)
Definition dec16_ord (en : endian) (src dst : ptr) : M (result unit) :=
  x <- load src 16 ;;
  r <- lift (hex_decode_ascii16_ord en x) ;;
  match r with Err => ret Err | Ok y => store dst y ;;; ret (Ok tt) end.
Definition dec32_ord (en : endian) (src dst : ptr) : M (result unit) :=
  x <- load src 32 ;;
  r <- lift (hex_decode_ascii32_ord en x) ;;
  match r with Err => ret Err | Ok y => store dst y ;;; ret (Ok tt) end.
Definition hex_decode_simd_ord (en : endian) (src : ptr) (len : nat) (dst : ptr) : M (result unit) :=
  e <- padd src (len / 32 * 32) ;;
  try_ (while_res (S len) (fun st : ptr * ptr => plt (fst st) e)
    (fun st =>
       try_ (dec32_ord en (fst st) (snd st)) (fun _ =>
       src <- padd (fst st) 32 ;;
       dst <- padd (snd st) 16 ;;
       ret (Ok (src, dst)))) (src, dst)) (fun st =>
  let len := (len mod 32)%nat in
  if (len =? 0)%nat then ret (Ok tt) else
  try_ (if (16 <=? len)%nat then
          try_ (dec16_ord en (fst st) (snd st)) (fun _ =>
          src <- padd (fst st) 16 ;;
          dst <- padd (snd st) 8 ;;
          ret (Ok (src, dst, len - 16)%nat))
        else ret (Ok (fst st, snd st, len))) (fun st =>
  let '(src, dst, len) := st in
  decode_short NEON64 src len dst)).
Definition hex_decode_ord (en : endian) (src : ptr) (slen : nat) (dst : ptr) (dlen : nat) : M (result (ptr * nat)) :=
  if negb ((slen mod 2 =? 0)%nat && (slen / 2 <=? dlen)%nat) then ret Err else
  try_ (hex_decode_simd_ord en src slen dst) (fun _ => ret (Ok (dst, slen / 2)%nat)).
Definition hex_decode_inplace_ord (en : endian) (data : ptr) (len : nat) : M (result (ptr * nat)) :=
  if negb (len mod 2 =? 0)%nat then ret Err else
  try_ (hex_decode_simd_ord en data len data) (fun _ => ret (Ok (data, len / 2)%nat)).

(** ** uuid-simd: parse.rs:52 [parse_simple_simd], format.rs:69 [format_simple_simd]; lib.rs:120 [parse_simple], 151 [format_simple] *)
Definition uuid_parse_simple_ord (en : endian) (src : ptr) (n : nat) (dst : ptr) : M (result (ptr * nat)) :=
  if negb (n =? 32)%nat then ret Err else
  try_ (dec32_ord en src dst) (fun _ => ret (Ok (dst, 16%nat))).
Definition uuid_format_simple_ord (en : endian) (src dst : ptr) (case : ascii_case) : M (ptr * nat) :=
  (x <- load src 16 ;;
   y <- lift (hex_encode_bytes16_ord en x (char_lut_simd case)) ;;
   store dst y) ;;; ret (dst, 32%nat).

(** spec.rs:41 [i16x16_set_lane7], 73 [i32x8_set_lane7], 105 [i32x4_get_lane3], 125 [i16x8_get_lane7]: a lane is the number that its
    bytes mean in the order of the target *)
Definition i16x16_set_lane7_ord (en : endian) (a : list Z) (x : Z) : list Z := set_bytes (lo128 a) 14 (native_bytes en 2 x) ++ hi128 a.
Definition i32x8_set_lane7_ord (en : endian) (a : list Z) (x : Z) : list Z := lo128 a ++ set_bytes (hi128 a) 12 (native_bytes en 4 x).
Definition i32x4_get_lane3_ord (en : endian) (a : list Z) : Z := of_native en (firstn 4 (skipn 12 a)).
Definition i16x8_get_lane7_ord (en : endian) (a : list Z) : Z := of_native en (firstn 2 (skipn 14 a)).
(** parse.rs:65 [parse_hyphenated_simd]; [read_unaligned] reads a number in the order of the target *)
Definition parse_hyphenated_simd_ord (en : endian) (src dst : ptr) : M (result unit) :=
  ok <- check_hyphens src ;;
  if negb ok then ret Err else
  a0 <- load src 32 ;;
  a1 <- lift (u8x16x2_swizzle NEON64 a0 PARSE_SWIZZLE) ;;
  p16 <- padd src 16 ;;
  w <- load p16 2 ;;
  let a2 := i16x16_set_lane7_ord en a1 (of_native en w) in
  p32 <- padd src 32 ;;
  v <- load p32 4 ;;
  let a3 := i32x8_set_lane7_ord en a2 (of_native en v) in
  r <- lift (hex_decode_ascii32_ord en a3) ;;
  match r with Err => ret Err | Ok y => store dst y ;;; ret (Ok tt) end.
(** format.rs:82 [format_hyphenated_simd]; [write_unaligned] writes a number in the order of the target *)
Definition format_hyphenated_simd_ord (en : endian) (src dst : ptr) (case : ascii_case) : M unit :=
  x <- load src 16 ;;
  a <- lift (hex_encode_bytes16_ord en x (char_lut_simd case)) ;;
  a1 <- lift (u8x16x2_swizzle NEON64 a FORMAT_SWIZZLE) ;;
  a2 <- lift (v256_or NEON64 a1 DASH) ;;
  store dst a2 ;;;
  let w := i16x8_get_lane7_ord en (lo128 a) in
  let v := i32x4_get_lane3_ord en (hi128 a) in
  d16 <- padd dst 16 ;;
  store d16 (native_bytes en 2 w) ;;;
  d32 <- padd dst 32 ;;
  store d32 (native_bytes en 4 v).
(** lib.rs:138 [parse_hyphenated], 163 [format_hyphenated], 81 [parse] *)
Definition uuid_parse_hyphenated_ord (en : endian) (src : ptr) (n : nat) (dst : ptr) : M (result (ptr * nat)) :=
  if negb (n =? 36)%nat then ret Err else
  try_ (parse_hyphenated_simd_ord en src dst) (fun _ => ret (Ok (dst, 16%nat))).
Definition uuid_format_hyphenated_ord (en : endian) (src dst : ptr) (case : ascii_case) : M (ptr * nat) :=
  format_hyphenated_simd_ord en src dst case ;;; ret (dst, 36%nat).
Definition uuid_parse_ord (en : endian) (src : ptr) (n : nat) (dst : ptr) : M (result (ptr * nat)) :=
  if (n =? 32)%nat then try_ (dec32_ord en src dst) (fun _ => ret (Ok (dst, 16%nat))) else
  try_ (if (n =? 36)%nat then ret (Ok src)
        else if (n =? 38)%nat then
          a <- read src 0 ;;
          if negb (a =? 123) then ret Err else
          b <- read src 37 ;;
          if negb (b =? 125) then ret Err else
          p <- padd src 1 ;;
          ret (Ok p)
        else if (n =? 45)%nat then
          h <- load src 9 ;;
          if list_eqb h URN_PREFIX then p <- padd src 9 ;; ret (Ok p) else ret Err
        else ret Err) (fun src =>
  try_ (parse_hyphenated_simd_ord en src dst) (fun _ => ret (Ok (dst, 16%nat)))).

(** ** base64-simd *)

(** encode.rs:119 [encode_simd]; lib.rs:232 [encode] *)
Definition b64_encode_simd_ord (en : endian) (src : ptr) (len : nat) (dst : ptr) (config : b64_config) : M unit :=
  let charset := b64_charset (b64_kind_of config) in
  ' (src, dst, len) <-
    (if (6 + 24 + 4 <=? len)%nat then
       let shift_lut := x2 (encoding_shift charset) in
       ' (src, dst, len) <- for_ 2 0 (fun _ (st : ptr * ptr * nat) =>
          p <- enc24_step charset (fst st) ;; ret (p, snd st - 3)%nat) (src, dst, len) ;;
       while_ (S len) (fun st : ptr * ptr * nat => (24 + 4 <=? snd st)%nat)
         (fun st =>
            let '(src, dst, len) := st in
            q <- psub src 4 ;;
            x <- load q 32 ;;
            y <- lift (encode_bytes24_ord en x shift_lut) ;;
            store dst y ;;;
            src <- padd src 24 ;;
            dst <- padd dst 32 ;;
            ret (src, dst, len - 24)%nat) (src, dst, len)
     else ret (src, dst, len)) ;;
  ' (src, dst, len) <-
    (if (12 + 4 <=? len)%nat then
       let shift_lut := encoding_shift charset in
       x <- load src 16 ;;
       y <- lift (encode_bytes12_ord en x shift_lut) ;;
       store dst y ;;;
       src <- padd src 12 ;;
       dst <- padd dst 16 ;;
       ret (src, dst, len - 12)%nat
     else ret (src, dst, len)) ;;
  b64_encode_fallback src len dst config.
Definition b64_encode_ord (en : endian) (config : b64_config) (src : ptr) (slen : nat) (dst : ptr) (dlen : nat) : M (result (ptr * nat)) :=
  let m := b64_encoded_length_unchecked slen config in
  if negb (m <=? dlen)%nat then ret Err else
  b64_encode_simd_ord en src slen dst config ;;;
  ret (Ok (dst, m)).

(** decode.rs:209 [decode_simd]; lib.rs:262 [decode] *)
Definition b64_decode_simd_ord (en : endian) (src dst : ptr) (n : nat) (config : b64_config) : M (result unit) :=
  let check := lut_x2 (check_lut (b64_alsw (b64_kind_of config))) in
  let decode := lut_x2 (decode_lut (b64_alsw (b64_kind_of config))) in
  try_ (while_res (S n) (fun st : ptr * ptr * nat => (38 <=? snd st)%nat)
    (fun st =>
       let '(src, dst, n) := st in
       x <- load src 32 ;;
       r <- lift (b64_decode_ascii32_ord en x check decode) ;;
       match r with
       | Err => ret Err
       | Ok y =>
           store dst (lo128 y) ;;;
           d2 <- padd dst 12 ;;
           store d2 (hi128 y) ;;;
           src <- padd src 32 ;;
           dst <- padd dst 24 ;;
           ret (Ok (src, dst, n - 32)%nat)
       end) (src, dst, n)) (fun st =>
  let '(src, dst, n) := st in
  b64_decode_fallback en src dst n config).
Definition b64_decode_ord (en : endian) (config : b64_config) (src : ptr) (slen : nat) (dst : ptr) (dlen : nat) : M (result (ptr * nat)) :=
  try_ (b64_decoded_length src slen config) (fun nm =>
  if negb (snd nm <=? dlen)%nat then ret Err else
  try_ (b64_decode_simd_ord en src dst (fst nm) config) (fun _ => ret (Ok (dst, snd nm)))).
(** lib.rs:280 [decode_inplace] *)
Definition b64_decode_inplace_ord (en : endian) (config : b64_config) (data : ptr) (len : nat) : M (result (ptr * nat)) :=
  try_ (b64_decoded_length data len config) (fun nm =>
  try_ (b64_decode_simd_ord en data data (fst nm) config) (fun _ => ret (Ok (data, snd nm)))).

(** forgiving.rs:21 [forgiving_decode_inplace] and forgiving.rs:38 [forgiving_decode]; the search for white space is bytewise *)
Definition forgiving_decode_inplace_ord (en : endian) (data : ptr) (len : nat) : M (result (ptr * nat)) :=
  n <- remove_ascii_whitespace_inplace NEON64 data len ;;
  b64_decode_inplace_ord en STANDARD_FORGIVING data n.
Definition forgiving_decode_ord (en : endian) (src : ptr) (len : nat) (dst : ptr) (dlen : nat) : M (result (ptr * nat)) :=
  if negb (len <=? dlen)%nat then ret Err else
  pos <- find_non_ascii_whitespace NEON64 src len ;;
  debug_assert (pos <=? len)%nat ;;;
  if (pos =? len)%nat then b64_decode_ord en STANDARD_FORGIVING src len dst dlen else
  copy_nonoverlapping src dst pos ;;;
  p <- padd src pos ;;
  l <- psub_len len pos ;;
  d <- padd dst pos ;;
  rem <- remove_ascii_whitespace_fallback p l d ;;
  debug_assert (rem <=? l)%nat ;;;
  b64_decode_inplace_ord en STANDARD_FORGIVING dst (pos + rem).

(** check.rs:41 [check_simd]; lib.rs:222 [check] *)
Definition b64_check_simd_ord (en : endian) (src : ptr) (n : nat) (config : b64_config) : M (result unit) :=
  let check := lut_x2 (check_lut (b64_alsw (b64_kind_of config))) in
  try_ (while_res (S n) (fun st : ptr * nat => (38 <=? snd st)%nat)
    (fun st =>
       x <- load (fst st) 32 ;;
       ok <- lift (check_ascii_xn_ord en W256 x check) ;;
       if ok : bool then src <- padd (fst st) 32 ;; ret (Ok (src, snd st - 32)%nat) else ret Err) (src, n)) (fun st =>
  b64_check_fallback en (fst st) (snd st) config).
Definition b64_check_ord (en : endian) (config : b64_config) (data : ptr) (len : nat) : M (result unit) :=
  try_ (b64_decoded_length data len config) (fun nm => b64_check_simd_ord en data (fst nm) config).

(** ** base32-simd: the target is AArch64 of the order [en] *)
Definition aarch64 (en : endian) : target := {| t_endian := en; t_wasm32 := false |}.

(** encode.rs:133 [encode_simd]; lib.rs:184 [encode] *)
Definition b32_encode_simd_ord (en : endian) (src : ptr) (len : nat) (dst : ptr) (kind : b32_kind) (padding : bool) : M unit :=
  let charset := b32_charset kind in
  let lut := b32_encoding_lut charset in
  ' (src, dst, len) <-
    (if (10 + 20 + 6 <=? len)%nat then
       p <- enc40_step (aarch64 en) charset (src, dst) ;;
       ' (src, dst) <- enc40_step (aarch64 en) charset p ;;
       while_ (S len) (fun st : ptr * ptr * nat => (20 + 6 <=? snd st)%nat)
         (fun st =>
            let '(src, dst, len) := st in
            q <- psub src 6 ;;
            x <- load q 32 ;;
            y <- lift (encode_bytes20_ord en x lut) ;;
            store dst y ;;;
            src <- padd src 20 ;;
            dst <- padd dst 32 ;;
            ret (src, dst, len - 20)%nat) (src, dst, len - 10)%nat
     else ret (src, dst, len)) ;;
  b32_encode_fallback (aarch64 en) src len dst kind padding.
Definition b32_encode_ord (en : endian) (config : b32_config) (src : ptr) (slen : nat) (dst : ptr) (dlen : nat) : M (result (ptr * nat)) :=
  let m := b32_encoded_length_unchecked slen (b32_padding config) in
  if negb (m <=? dlen)%nat then ret Err else
  b32_encode_simd_ord en src slen dst (b32_kind_of config) (b32_padding config) ;;;
  ret (Ok (dst, m)).

(** decode.rs:165 [decode_simd]; lib.rs:214 [decode] *)
Definition b32_decode_simd_ord (en : endian) (src : ptr) (n : nat) (dst : ptr) (kind : b32_kind) : M (result unit) :=
  let check := lut_x2 (check_lut (b32_alsw kind)) in
  let decode := lut_x2 (decode_lut (b32_alsw kind)) in
  try_ (while_res (S n) (fun st : ptr * ptr * nat => (42 <=? snd st)%nat)
    (fun st =>
       let '(src, dst, n) := st in
       x <- load src 32 ;;
       r <- lift (b32_decode_ascii32_ord en x check decode) ;;
       match r with
       | Err => ret Err
       | Ok y =>
           store dst (lo128 y) ;;;
           d2 <- padd dst 10 ;;
           store d2 (hi128 y) ;;;
           src <- padd src 32 ;;
           dst <- padd dst 20 ;;
           ret (Ok (src, dst, n - 32)%nat)
       end) (src, dst, n)) (fun st =>
  let '(src, dst, n) := st in
  b32_decode_fallback (aarch64 en) src n dst kind).
Definition b32_decode_ord (en : endian) (config : b32_config) (src : ptr) (slen : nat) (dst : ptr) (dlen : nat) : M (result (ptr * nat)) :=
  try_ (b32_decoded_length src slen (b32_padding config)) (fun nm =>
  if negb (snd nm <=? dlen)%nat then ret Err else
  try_ (b32_decode_simd_ord en src (fst nm) dst (b32_kind_of config)) (fun _ => ret (Ok (dst, snd nm)))).
(** lib.rs:232 [decode_inplace] *)
Definition b32_decode_inplace_ord (en : endian) (config : b32_config) (data : ptr) (len : nat) : M (result (ptr * nat)) :=
  try_ (b32_decoded_length data len (b32_padding config)) (fun nm =>
  try_ (b32_decode_simd_ord en data (fst nm) data (b32_kind_of config)) (fun _ => ret (Ok (data, snd nm)))).

(** check.rs:32 [check_simd]; lib.rs:173 [check] *)
Definition b32_check_simd_ord (en : endian) (src : ptr) (len : nat) (kind : b32_kind) : M (result unit) :=
  let check := lut_x2 (check_lut (b32_alsw kind)) in
  e <- padd src (len / 32 * 32) ;;
  try_ (while_res (S len) (fun src : ptr => plt src e)
    (fun src =>
       x <- load src 32 ;;
       ok <- lift (check_ascii_xn_ord en W256 x check) ;;
       if ok : bool then src <- padd src 32 ;; ret (Ok src) else ret Err) src) (fun src =>
  b32_check_fallback (aarch64 en) src (len mod 32) kind).
Definition b32_check_ord (en : endian) (config : b32_config) (data : ptr) (len : nat) : M (result unit) :=
  try_ (b32_decoded_length data len (b32_padding config)) (fun nm =>
  b32_check_simd_ord en data (fst nm) (b32_kind_of config)).
