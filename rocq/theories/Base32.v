(** Model of /repo/crates/base32-simd/src: encode.rs, decode.rs, check.rs, lib.rs, multiversion.rs.
    (alsw.rs is in Alsw.v; heap.rs is in Heap.v.)
    Definitions only; facts are in Base32SimdFacts.v and Base32Facts.v. *)
From Coq Require Import ZArith List Bool String.
From Verif Require Import Bytes Mem Isa Simd Alsw Ints.
Import ListNotations.
Open Scope string_scope. Open Scope list_scope. Open Scope Z_scope. Open Scope m_scope.
Notation length := List.length.

(** The two target properties the scalar code depends on: [target_endian], and whether
    [target_arch = "wasm32"] (encode.rs:41, decode.rs:71). *)
Record target := { t_endian : endian; t_wasm32 : bool }.

(** lib.rs:76-77 *)
Definition BASE32_CHARSET : list Z := str "ABCDEFGHIJKLMNOPQRSTUVWXYZ234567"%string.
Definition BASE32HEX_CHARSET : list Z := str "0123456789ABCDEFGHIJKLMNOPQRSTUV"%string.

(** lib.rs:92-95 [Kind], 86-89 [Base32] *)
Inductive b32_kind := KBase32 | KBase32Hex.
Record b32_config := { b32_kind_of : b32_kind; b32_padding : bool }.

(** lib.rs:98-119 *)
Definition BASE32 := {| b32_kind_of := KBase32; b32_padding := true |}.
Definition BASE32HEX := {| b32_kind_of := KBase32Hex; b32_padding := true |}.
Definition BASE32_NO_PAD := {| b32_kind_of := KBase32; b32_padding := false |}.
Definition BASE32HEX_NO_PAD := {| b32_kind_of := KBase32Hex; b32_padding := false |}.

(** lib.rs:125 [charset], and the same [match] in encode.rs:115, 141 *)
Definition b32_charset (k : b32_kind) : list Z := match k with KBase32 => BASE32_CHARSET | KBase32Hex => BASE32HEX_CHARSET end.

(** ** encode.rs *)

(** encode.rs:9 [encoded_length_unchecked], without overflow (see [b32_encoded_length] for usize) *)
Definition b32_encoded_length_unchecked (len : nat) (padding : bool) : nat :=
  let l := (len / 5 * 8)%nat in
  if (len mod 5 =? 0)%nat then l
  else if padding then (l + 8)%nat
  else (l + nth (len mod 5) [0; 2; 4; 5; 7] 0)%nat.

(** encode.rs:22 [encode_bits::<N>]: the first index is not masked *)
Definition encode_bits (N : nat) (dst : ptr) (charset : list Z) (x : Z) : M unit :=
  y <- table_get charset (Z.shiftr x (Z.of_nat (N - 1) * 5)) ;;
  write dst 0 y ;;;
  for_ (N - 1) 1 (fun i _ =>
    y <- table_get charset (Z.land (Z.shiftr x (Z.of_nat (N - 1 - i) * 5)) 31) ;; write dst i y) tt.

(** encode.rs:38 [read_be_bytes::<N>] *)
Definition read_be_bytes (t : target) (N : nat) (src : ptr) : M Z :=
  if negb (t_wasm32 t) && (N =? 3)%nat then
    x1 <- read src 0 ;;
    p <- padd src 1 ;;
    l <- load p 2 ;;
    let x2 := to_be (t_endian t) 2 (of_native (t_endian t) l) in
    ret (Z.lor (Z.shiftl x1 16) x2)
  else if negb (t_wasm32 t) && (N =? 5)%nat then
    x1 <- read src 0 ;;
    p <- padd src 1 ;;
    l <- load p 4 ;;
    let x2 := to_be (t_endian t) 4 (of_native (t_endian t) l) in
    ret (Z.lor (Z.shiftl x1 32) x2)
  else
    for_ N 0 (fun i ans =>
      x <- read src i ;; ret (Z.lor ans (Z.shiftl x (Z.of_nat (N - 1 - i) * 8)))) 0.

(** the padding loops of encode.rs:72-77, 83-88, 94-99, 105-107; 61 is '=' *)
Definition b32_pad (padding : bool) (dst : ptr) (N : nat) : M unit :=
  if padding then for_ (8 - N) N (fun i _ => write dst i 61) tt else ret tt.

(** encode.rs:66 [encode_extra]; the values fit in a u64, so [<<] loses no bits *)
Definition b32_encode_extra (t : target) (src : ptr) (extra : nat) (dst : ptr) (charset : list Z) (padding : bool) : M unit :=
  match extra with
  | 0%nat => ret tt
  | 1%nat => x <- read_be_bytes t 1 src ;; encode_bits 2 dst charset (Z.shiftl x 2) ;;; b32_pad padding dst 2
  | 2%nat => x <- read_be_bytes t 2 src ;; encode_bits 4 dst charset (Z.shiftl x 4) ;;; b32_pad padding dst 4
  | 3%nat => x <- read_be_bytes t 3 src ;; encode_bits 5 dst charset (Z.shiftl x 1) ;;; b32_pad padding dst 5
  | 4%nat => x <- read_be_bytes t 4 src ;; encode_bits 7 dst charset (Z.shiftl x 3) ;;; b32_pad padding dst 7
  | _ => ub
  end.

(** encode.rs:122-125, 148-151, 153-156: one group of five bytes *)
Definition enc40_step (t : target) (charset : list Z) (st : ptr * ptr) : M (ptr * ptr) :=
  u40 <- read_be_bytes t 5 (fst st) ;;
  encode_bits 8 (snd st) charset u40 ;;;
  src <- padd (fst st) 5 ;;
  dst <- padd (snd st) 8 ;;
  ret (src, dst).

(** encode.rs:114 [encode_fallback] *)
Definition b32_encode_fallback (t : target) (src : ptr) (len : nat) (dst : ptr) (kind : b32_kind) (padding : bool) : M unit :=
  let charset := b32_charset kind in
  e <- padd src (len / 5 * 5) ;;
  ' (src, dst) <- while_ (S len) (fun st : ptr * ptr => plt (fst st) e) (enc40_step t charset) (src, dst) ;;
  b32_encode_extra t src (len mod 5) dst charset padding.

(** encode.rs:176 *)
Definition B32_SPLIT_SHUFFLE : list Z :=
  [7; 6; 8; 7; 9; 8; 10; 9; 12; 11; 13; 12; 14; 13; 15; 14;
   1; 0; 2; 1; 3; 2; 4; 3; 6; 5; 7; 6; 8; 7; 9; 8].

(** encode.rs:175 [split_bits]; a [u64x4_splat] of [u16x4_to_u64] (lib.rs:80) is written as its eight
    little-endian bytes *)
Definition split_bits (s : isa) (x : list Z) : option (list Z) :=
  if matches_isa s [ISSSE3] then
    let? x1 := u8x16x2_swizzle s x B32_SPLIT_SHUFFLE in
    let? m1 := splat256 s [32; 0; 128; 0; 0; 2; 0; 8] in
    let? x2 := u16x16_mul_hi s x1 m1 in
    let? m2 := splat256 s [4; 0; 16; 0; 64; 0; 0; 1] in
    let? x3 := i16x16_mul_lo s x1 m2 in
    let? c4 := splat256 s [31; 0] in
    let? x4 := v256_and s x2 c4 in
    let? c5 := splat256 s [0; 31] in
    let? x5 := v256_and s x3 c5 in
    v256_or s x4 x5
  else if matches_isa s [INEON; IWASM128] then
    let? x1 := u8x16x2_swizzle s x B32_SPLIT_SHUFFLE in
    let? x2 := u16x16_shr s 4 x1 in
    let? m1 := splat256 s [2; 0; 8; 0; 32; 0; 128; 0] in
    let? x3 := i16x16_mul_lo s x2 m1 in
    let? m2 := splat256 s [4; 0; 16; 0; 64; 0; 0; 1] in
    let? x4 := i16x16_mul_lo s x1 m2 in
    let? m3 := splat256 s [0; 31] in
    let? x5 := v256_and s x3 m3 in
    let? x6 := v256_and s x4 m3 in
    let? x7 := u16x16_shr s 8 x5 in
    v256_or s x6 x7
  else None.

(** encode.rs:215 [EncodingLutX2] *)
Record encoding_lut := { lut_low : list Z; lut_high : list Z; lut_full : list Z }.
Definition b32_encoding_lut (charset : list Z) : encoding_lut :=
  {| lut_low := x2 (lo128 charset); lut_high := x2 (hi128 charset); lut_full := charset |}.

(** encode.rs:235 [encode_values] *)
Definition b32_encode_values (s : isa) (x : list Z) (lut : encoding_lut) : option (list Z) :=
  if matches_isa s [ISSE41] then
    let? x1 := u8x16x2_swizzle s (lut_low lut) x in
    let? x2 := u8x16x2_swizzle s (lut_high lut) x in
    let? c := splat256 s [15] in
    let? x3 := u8x32_lt s c x in
    u8x32_blendv s x1 x2 x3
  else if matches_isa s [INEON] && arch_aarch64 s then
    u8x32_swizzle s (lut_full lut) x
  else if matches_isa s [INEON; IWASM128] then
    let? m := splat256 s [15] in
    let? x1 := v256_and s x m in
    let? x2 := u8x16x2_swizzle s (lut_low lut) x1 in
    let? x3 := u8x16x2_swizzle s (lut_high lut) x1 in
    let? x4 := u8x32_lt s m x in
    v256_bsl s x4 x3 x2
  else None.

(** encode.rs:257 [encode_bytes20] *)
Definition encode_bytes20 (s : isa) (x : list Z) (lut : encoding_lut) : option (list Z) :=
  let? values := split_bits s x in b32_encode_values s values lut.

(** encode.rs:133 [encode_simd] *)
Definition b32_encode_simd (t : target) (s : isa) (src : ptr) (len : nat) (dst : ptr) (kind : b32_kind) (padding : bool) : M unit :=
  let charset := b32_charset kind in
  let lut := b32_encoding_lut charset in
  ' (src, dst, len) <-
    (if (10 + 20 + 6 <=? len)%nat then
       p <- enc40_step t charset (src, dst) ;;
       ' (src, dst) <- enc40_step t charset p ;;
       while_ (S len) (fun st : ptr * ptr * nat => (20 + 6 <=? snd st)%nat)
         (fun st =>
            let '(src, dst, len) := st in
            q <- psub src 6 ;;
            x <- load q 32 ;;
            y <- lift (encode_bytes20 s x lut) ;;
            store dst y ;;;
            src <- padd src 20 ;;
            dst <- padd dst 32 ;;
            ret (src, dst, len - 20)%nat) (src, dst, len - 10)%nat
     else ret (src, dst, len)) ;;
  b32_encode_fallback t src len dst kind padding.

(** ** decode.rs *)

(** decode.rs:16 [decoding_table], 26-27 *)
Definition b32_decoding_table (charset : list Z) : list Z :=
  fold_left (fun t i => set_nth t (Z.to_nat (nth i charset 0)) (Z.of_nat i)) (seq 0 32) (repeat 255 256).
Definition BASE32_TABLE : list Z := b32_decoding_table BASE32_CHARSET.
Definition BASE32HEX_TABLE : list Z := b32_decoding_table BASE32HEX_CHARSET.
Definition b32_table (k : b32_kind) : list Z := match k with KBase32 => BASE32_TABLE | KBase32Hex => BASE32HEX_TABLE end.

(** decode.rs:30 [decoded_length] *)
Definition b32_decoded_length (data : ptr) (len : nat) (padding : bool) : M (result (nat * nat)) :=
  if (len =? 0)%nat then ret (Ok (0, 0)%nat) else
  try_ (if padding then
          if (len mod 8 =? 0)%nat then
            q <- psub_len len 6 ;;
            p <- padd data q ;;
            last <- load p 6 ;;
            ret (Ok (len - length (filter (fun x => (x =? 61)%Z) last))%nat)
          else ret Err
        else ret (Ok len)) (fun n =>
  let extra := nth (n mod 8) [0; 255; 1; 255; 2; 3; 255; 4]%nat 0%nat in
  if (extra =? 255)%nat then ret Err
  else ret (Ok (n, n / 8 * 5 + extra)%nat)).

(** decode.rs:53 [decode_bits::<N>]; the u64 shift drops overflowing bits *)
Definition decode_bits (N : nat) (src : ptr) (table : list Z) : M (Z * Z) :=
  for_ N 0 (fun i st =>
    x <- read src i ;;
    bits <- table_get table x ;;
    let flag := Z.lor (snd st) bits in
    let ans := Z.lor (Z.shiftl (fst st) 5 mod 2 ^ 64) bits in
    ret (ans, flag)) (0, 0).

(** decode.rs:68 [write_be_bytes::<N>] *)
Definition write_be_bytes (t : target) (N : nat) (dst : ptr) (x : Z) : M unit :=
  if negb (t_wasm32 t) && (N =? 3)%nat then
    let x1 := Z.shiftr x 16 mod 256 in
    let x2 := to_be (t_endian t) 2 (x mod 2 ^ 16) in
    write dst 0 x1 ;;;
    p <- padd dst 1 ;;
    store p (native_bytes (t_endian t) 2 x2)
  else if negb (t_wasm32 t) && (N =? 5)%nat then
    let x1 := Z.shiftr x 32 mod 256 in
    let x2 := to_be (t_endian t) 4 (x mod 2 ^ 32) in
    write dst 0 x1 ;;;
    p <- padd dst 1 ;;
    store p (native_bytes (t_endian t) 4 x2)
  else
    for_ N 0 (fun i _ => write dst i (Z.shiftr x (Z.of_nat (N - 1 - i) * 8) mod 256)) tt.

(** the common shape of the arms of decode.rs:104-135: [chars] characters carry [nbytes] bytes and
    [spare] low bits which must be zero *)
Definition decode_arm (t : target) (WRITE : bool) (chars spare nbytes : nat) (src dst : ptr) (table : list Z) : M (result unit) :=
  ' (u, flag) <- decode_bits chars src table ;;
  if negb (flag =? 255) && (Z.land u (2 ^ Z.of_nat spare - 1) =? 0) then
    (if WRITE then write_be_bytes t nbytes dst (Z.shiftr u (Z.of_nat spare)) else ret tt) ;;; ret (Ok tt)
  else ret Err.

(** decode.rs:98 [decode_extra::<WRITE>] *)
Definition b32_decode_extra (t : target) (WRITE : bool) (src : ptr) (extra : nat) (dst : ptr) (table : list Z) : M (result unit) :=
  match extra with
  | 0%nat => ret (Ok tt)
  | 2%nat => decode_arm t WRITE 2 2 1 src dst table
  | 4%nat => decode_arm t WRITE 4 4 2 src dst table
  | 5%nat => decode_arm t WRITE 5 1 3 src dst table
  | 7%nat => decode_arm t WRITE 7 3 4 src dst table
  | _ => ub
  end.

(** decode.rs:140 [decode_fallback] *)
Definition b32_decode_fallback (t : target) (src : ptr) (n : nat) (dst : ptr) (kind : b32_kind) : M (result unit) :=
  let table := b32_table kind in
  e <- padd src (n / 8 * 8) ;;
  try_ (while_res (S n) (fun st : ptr * ptr => plt (fst st) e)
    (fun st =>
       ' (u40, flag) <- decode_bits 8 (fst st) table ;;
       if flag =? 255 then ret Err else
       write_be_bytes t 5 (snd st) u40 ;;;
       src <- padd (fst st) 8 ;;
       dst <- padd (snd st) 5 ;;
       ret (Ok (src, dst))) (src, dst)) (fun st =>
  b32_decode_extra t true (fst st) (n mod 8) (snd st) table).

(** alsw.rs:67-71 *)
Definition b32_alsw (k : b32_kind) : alsw_spec := match k with KBase32 => Base32Alsw | KBase32Hex => Base32HexAlsw end.

(** decode.rs:195 [u32x8_blend_0x55] *)
Definition u32x8_blend_0x55 (s : isa) (a b : list Z) : option (list Z) :=
  if matches_isa s [IAVX2] then u32x8_blend s 85 a b
  else if matches_isa s [ISSE41] then vop2 (u16x8_blend s 51) a b
  else None.

(** decode.rs:209-218 *)
Definition B32_MERGE_S1 : list Z := x2 [1; 0; 2; 4; 6; 9; 8; 10; 12; 14; 128; 128; 128; 128; 128; 128].
Definition B32_MERGE_S2 : list Z := x2 [128; 3; 5; 7; 128; 128; 11; 13; 15; 128; 128; 128; 128; 128; 128; 128].
(** decode.rs:233-250 *)
Definition B32_MERGE_N1 : list Z := x2 [0; 2; 5; 7; 6; 128; 128; 4; 8; 10; 13; 15; 14; 128; 128; 12].
Definition B32_MERGE_N2 : list Z := x2 [1; 0; 2; 4; 6; 3; 128; 128; 9; 8; 10; 12; 14; 11; 128; 128].
Definition B32_MERGE_N3 : list Z := x2 [0; 1; 2; 3; 4; 8; 9; 10; 11; 12; 128; 128; 128; 128; 128; 128].
Definition B32_MERGE_N4 : list Z := x2 [128; 5; 128; 7; 128; 128; 13; 128; 15; 128; 128; 128; 128; 128; 128; 128].

(** decode.rs:206 [merge_bits] *)
Definition merge_bits (s : isa) (x : list Z) : option (list Z) :=
  if matches_isa s [ISSE41] then
    let? m1 := splat256 s [128; 4; 32; 1] in
    let? x1 := i16x16_maddubs s m1 x in
    let? x2 := u32x8_shl s 4 x1 in
    let? x3 := u32x8_blend_0x55 s x1 x2 in
    let? x4 := u8x16x2_swizzle s x3 B32_MERGE_S1 in
    let? x5 := u8x16x2_swizzle s x3 B32_MERGE_S2 in
    v256_or s x4 x5
  else if matches_isa s [INEON; IWASM128] then
    let? m1 := splat256 s [31; 0] in
    let? x1 := v256_and s x m1 in
    let? m2 := splat256 s [8; 0; 2; 0; 128; 0; 32; 0] in
    let? x2 := i16x16_mul_lo s x1 m2 in
    let? x3 := u16x16_shr s 8 x in
    let? m3 := splat256 s [64; 0; 16; 0; 4; 0; 1; 0] in
    let? x4 := i16x16_mul_lo s x3 m3 in
    let? x5 := u8x16x2_swizzle s x2 B32_MERGE_N1 in
    let? x6 := u8x16x2_swizzle s x4 B32_MERGE_N2 in
    let? x7 := v256_or s x5 x6 in
    let? x8 := u8x16x2_swizzle s x7 B32_MERGE_N3 in
    let? x9 := u8x16x2_swizzle s x7 B32_MERGE_N4 in
    v256_or s x8 x9
  else None.

(** decode.rs:268 [decode_ascii32] *)
Definition b32_decode_ascii32 (s : isa) (x : list Z) (check decode : alsw_lut) : option (result (list Z)) :=
  let? c := decode_ascii_xn W256 s x check decode in
  let? y := merge_bits s (snd c) in
  let? h := u8x32_highbit_any s (fst c) in
  Some (if h : bool then Err else Ok y).

(** decode.rs:165 [decode_simd] *)
Definition b32_decode_simd (t : target) (s : isa) (src : ptr) (n : nat) (dst : ptr) (kind : b32_kind) : M (result unit) :=
  let check := lut_x2 (check_lut (b32_alsw kind)) in
  let decode := lut_x2 (decode_lut (b32_alsw kind)) in
  try_ (while_res (S n) (fun st : ptr * ptr * nat => (42 <=? snd st)%nat)
    (fun st =>
       let '(src, dst, n) := st in
       x <- load src 32 ;;
       r <- lift (b32_decode_ascii32 s x check decode) ;;
       match r with
       | Err => ret Err
       | Ok y =>
           store dst (lo128 y) ;;;
           d2 <- padd dst 10 ;;
           store d2 (hi128 y) ;;;
           src <- padd src 32 ;;
           dst <- padd dst 20 ;;
           ret (Ok (src, dst, n - 32)%nat)
       end) (src, dst, n)) (fun st =>
  let '(src, dst, n) := st in
  b32_decode_fallback t src n dst kind).

(** ** check.rs *)

(** check.rs:14 [check_fallback] *)
Definition b32_check_fallback (t : target) (src : ptr) (len : nat) (kind : b32_kind) : M (result unit) :=
  let table := b32_table kind in
  e <- padd src (len / 8 * 8) ;;
  try_ (while_res (S len) (fun src : ptr => plt src e)
    (fun src =>
       ' (_, flag) <- decode_bits 8 src table ;;
       if flag =? 255 then ret Err else
       src <- padd src 8 ;;
       ret (Ok src)) src) (fun src =>
  b32_decode_extra t false src (len mod 8) null table).

(** check.rs:32 [check_simd], 53 [check_ascii32] *)
Definition b32_check_simd (t : target) (s : isa) (src : ptr) (len : nat) (kind : b32_kind) : M (result unit) :=
  let check := lut_x2 (check_lut (b32_alsw kind)) in
  e <- padd src (len / 32 * 32) ;;
  try_ (while_res (S len) (fun src : ptr => plt src e)
    (fun src =>
       x <- load src 32 ;;
       ok <- lift (check_ascii_xn W256 s x check) ;;
       if ok : bool then src <- padd src 32 ;; ret (Ok src) else ret Err) src) (fun src =>
  b32_check_fallback t src (len mod 32) kind).

(** ** multiversion.rs *)
Definition b32_encode_impl (t : target) (s : isa) : ptr -> nat -> ptr -> b32_kind -> bool -> M unit :=
  match s with Fallback => b32_encode_fallback t | _ => b32_encode_simd t s end.
Definition b32_decode_impl (t : target) (s : isa) : ptr -> nat -> ptr -> b32_kind -> M (result unit) :=
  match s with Fallback => b32_decode_fallback t | _ => b32_decode_simd t s end.
Definition b32_check_impl (t : target) (s : isa) : ptr -> nat -> b32_kind -> M (result unit) :=
  match s with Fallback => b32_check_fallback t | _ => b32_check_simd t s end.

(** ** lib.rs *)

(** lib.rs:173 [check] *)
Definition b32_check (t : target) (s : isa) (config : b32_config) (data : ptr) (len : nat) : M (result unit) :=
  try_ (b32_decoded_length data len (b32_padding config)) (fun nm =>
  b32_check_impl t s data (fst nm) (b32_kind_of config)).

(** lib.rs:184 [encode] *)
Definition b32_encode (t : target) (s : isa) (config : b32_config) (src : ptr) (slen : nat) (dst : ptr) (dlen : nat) : M (result (ptr * nat)) :=
  let m := b32_encoded_length_unchecked slen (b32_padding config) in
  if negb (m <=? dlen)%nat then ret Err else
  b32_encode_impl t s src slen dst (b32_kind_of config) (b32_padding config) ;;;
  ret (Ok (dst, m)).
(** lib.rs:202 [encode_as_str]: the bytes are reinterpreted as a str without a check *)
Definition b32_encode_as_str := b32_encode.

(** lib.rs:214 [decode] *)
Definition b32_decode (t : target) (s : isa) (config : b32_config) (src : ptr) (slen : nat) (dst : ptr) (dlen : nat) : M (result (ptr * nat)) :=
  try_ (b32_decoded_length src slen (b32_padding config)) (fun nm =>
  if negb (snd nm <=? dlen)%nat then ret Err else
  try_ (b32_decode_impl t s src (fst nm) dst (b32_kind_of config)) (fun _ => ret (Ok (dst, snd nm)))).

(** lib.rs:232 [decode_inplace] *)
Definition b32_decode_inplace (t : target) (s : isa) (config : b32_config) (data : ptr) (len : nat) : M (result (ptr * nat)) :=
  try_ (b32_decoded_length data len (b32_padding config)) (fun nm =>
  try_ (b32_decode_impl t s data (fst nm) data (b32_kind_of config)) (fun _ => ret (Ok (data, snd nm)))).

(** lib.rs:138 [encoded_length] on usize of [bits] bits: [None] is a failed assertion;
    every addition and multiplication wraps *)
Definition b32_encoded_length (bits n : Z) (config : b32_config) : option Z :=
  if n <=? usize_max bits / 2 then
    let l := (n / 5 * 8) mod 2 ^ bits in
    Some (if n mod 5 =? 0 then l
          else if b32_padding config then (l + 8) mod 2 ^ bits
          else (l + nth (Z.to_nat (n mod 5)) [0; 2; 4; 5; 7] 0) mod 2 ^ bits)
  else None.
(** lib.rs:148 [estimated_decoded_length] *)
Definition b32_estimated_decoded_length (bits n : Z) : Z :=
  if n mod 8 =? 0 then (n / 8 * 5) mod 2 ^ bits
  else ((n / 8 + 1) mod 2 ^ bits * 5) mod 2 ^ bits.
(** lib.rs:163 [decoded_length] *)
Definition b32_decoded_length_api (config : b32_config) (data : ptr) (len : nat) : M (result nat) :=
  try_ (b32_decoded_length data len (b32_padding config)) (fun nm => ret (Ok (snd nm))).
