(** Model of /repo/crates/base64-simd/src: encode.rs, decode.rs, check.rs, lib.rs, multiversion.rs.
    (alsw.rs is in Alsw.v; ascii.rs and forgiving.rs are in Forgiving.v.)
    Definitions only; facts are in Base64SimdFacts.v and Base64Facts.v. *)
From Coq Require Import ZArith List Bool String.
From Verif Require Import Bytes Mem Isa Simd Alsw Ints.
Import ListNotations.
Open Scope string_scope. Open Scope list_scope. Open Scope Z_scope. Open Scope m_scope.
Notation length := List.length.

(** lib.rs:84-85 *)
Definition STANDARD_CHARSET : list Z := str "ABCDEFGHIJKLMNOPQRSTUVWXYZabcdefghijklmnopqrstuvwxyz0123456789+/"%string.
Definition URL_SAFE_CHARSET : list Z := str "ABCDEFGHIJKLMNOPQRSTUVWXYZabcdefghijklmnopqrstuvwxyz0123456789-_"%string.

(** lib.rs:93-132 *)
Inductive b64_kind := Standard | UrlSafe.
Inductive b64_extra := Pad | NoPad | Forgiving.
Record b64_config := { b64_kind_of : b64_kind; b64_extra_of : b64_extra }.
Definition b64_padding (e : b64_extra) : bool := match e with Pad => true | NoPad => false | Forgiving => true end.
Definition b64_forgiving (e : b64_extra) : bool := match e with Pad => false | NoPad => false | Forgiving => true end.

(** lib.rs:135-172 *)
Definition STANDARD := {| b64_kind_of := Standard; b64_extra_of := Pad |}.
Definition URL_SAFE := {| b64_kind_of := UrlSafe; b64_extra_of := Pad |}.
Definition STANDARD_NO_PAD := {| b64_kind_of := Standard; b64_extra_of := NoPad |}.
Definition URL_SAFE_NO_PAD := {| b64_kind_of := UrlSafe; b64_extra_of := NoPad |}.
Definition STANDARD_FORGIVING := {| b64_kind_of := Standard; b64_extra_of := Forgiving |}.

(** lib.rs:178 [charset], and the same [match] in encode.rs:83, 124 *)
Definition b64_charset (k : b64_kind) : list Z := match k with Standard => STANDARD_CHARSET | UrlSafe => URL_SAFE_CHARSET end.

(** ** encode.rs *)

(** encode.rs:11 [encoded_length_unchecked], without overflow (see [b64_encoded_length] for usize) *)
Definition b64_encoded_length_unchecked (len : nat) (config : b64_config) : nat :=
  let extra := (len mod 3)%nat in
  if (extra =? 0)%nat then (len / 3 * 4)%nat
  else if b64_padding (b64_extra_of config) then (len / 3 * 4 + 4)%nat
  else (len / 3 * 4 + extra + 1)%nat.

(** encode.rs:23 [encode_bits24] *)
Definition encode_bits24 (src dst : ptr) (charset : list Z) : M unit :=
  x0 <- read src 0 ;; x1 <- read src 1 ;; x2 <- read src 2 ;;
  let x := of_be [0; x0; x1; x2] in
  for_ 4 0 (fun i _ =>
    y <- table_get charset (Z.land (Z.shiftr x (18 - Z.of_nat i * 6)) 63) ;; write dst i y) tt.

(** encode.rs:35 [encode_bits48] *)
Definition encode_bits48 (src dst : ptr) (charset : list Z) : M unit :=
  l <- load src 8 ;;
  let x := of_be l in
  for_ 8 0 (fun i _ =>
    y <- table_get charset (Z.land (Z.shiftr x (58 - Z.of_nat i * 6)) 63) ;; write dst i y) tt.

(** [x << n] and [x >> n] on u8 *)
Definition shl8 (x n : Z) : Z := (x * 2 ^ n) mod 256.
Definition shr8 (x n : Z) : Z := x / 2 ^ n.

(** encode.rs:47 [encode_extra]; 61 is '=' *)
Definition b64_encode_extra (extra : nat) (src dst : ptr) (charset : list Z) (padding : bool) : M unit :=
  match extra with
  | 0%nat => ret tt
  | 1%nat =>
      x <- read src 0 ;;
      y1 <- table_get charset (shr8 x 2) ;;
      y2 <- table_get charset (shr8 (shl8 x 6) 2) ;;
      write dst 0 y1 ;;; write dst 1 y2 ;;;
      if padding then write dst 2 61 ;;; write dst 3 61 else ret tt
  | 2%nat =>
      x1 <- read src 0 ;;
      x2 <- read src 1 ;;
      y1 <- table_get charset (shr8 x1 2) ;;
      y2 <- table_get charset (Z.lor (shr8 (shl8 x1 6) 2) (shr8 x2 4)) ;;
      y3 <- table_get charset (shr8 (shl8 x2 4) 2) ;;
      write dst 0 y1 ;;; write dst 1 y2 ;;; write dst 2 y3 ;;;
      if padding then write dst 3 61 else ret tt
  | _ => ub
  end.

(** one step of the 6-byte loops *)
Definition enc48_step (charset : list Z) (st : ptr * ptr) : M (ptr * ptr) :=
  encode_bits48 (fst st) (snd st) charset ;;;
  src <- padd (fst st) 6 ;;
  dst <- padd (snd st) 8 ;;
  ret (src, dst).
Definition enc24_step (charset : list Z) (st : ptr * ptr) : M (ptr * ptr) :=
  encode_bits24 (fst st) (snd st) charset ;;;
  src <- padd (fst st) 3 ;;
  dst <- padd (snd st) 4 ;;
  ret (src, dst).

(** encode.rs:79 [encode_fallback] *)
Definition b64_encode_fallback (src : ptr) (len : nat) (dst : ptr) (config : b64_config) : M unit :=
  let padding := b64_padding (b64_extra_of config) in
  let charset := b64_charset (b64_kind_of config) in
  ' (src, dst, len) <- while_ (S len) (fun st : ptr * ptr * nat => (4 * 6 + 2 <=? snd st)%nat)
    (fun st =>
       p <- for_ 4 0 (fun _ p => enc48_step charset p) (fst st) ;;
       ret (p, snd st - 4 * 6)%nat) (src, dst, len) ;;
  ' (src, dst, len) <- while_ (S len) (fun st : ptr * ptr * nat => (6 + 2 <=? snd st)%nat)
    (fun st =>
       p <- enc48_step charset (fst st) ;;
       ret (p, snd st - 6)%nat) (src, dst, len) ;;
  e <- padd src (len / 3 * 3) ;;
  ' (src, dst) <- while_ (S len) (fun st : ptr * ptr => plt (fst st) e) (enc24_step charset) (src, dst) ;;
  b64_encode_extra (len mod 3) src dst charset padding.

(** encode.rs:168 *)
Definition B64_SPLIT_SHUFFLE : list Z :=
  [5; 4; 6; 5; 8; 7; 9; 8; 11; 10; 12; 11; 14; 13; 15; 14;
   1; 0; 2; 1; 4; 3; 5; 4; 7; 6; 8; 7; 10; 9; 11; 10].

(** encode.rs:176 [split_bits_x2] *)
Definition split_bits_x2 (s : isa) (x : list Z) : option (list Z) :=
  let? x0 := u8x16x2_swizzle s x B64_SPLIT_SHUFFLE in
  if matches_isa s [ISSE2] then
    let? m1 := splat256 s [0; 252; 192; 15] in
    let? x1 := v256_and s x0 m1 in
    let? m2 := splat256 s [240; 3; 63; 0] in
    let? x2 := v256_and s x0 m2 in
    let? m3 := splat256 s [64; 0; 0; 4] in
    let? x3 := u16x16_mul_hi s x1 m3 in
    let? m4 := splat256 s [16; 0; 0; 1] in
    let? x4 := i16x16_mul_lo s x2 m4 in
    v256_or s x3 x4
  else if matches_isa s [INEON; IWASM128] then
    let? m1 := splat256 s [0; 252; 0; 0] in
    let? a1 := v256_and s x0 m1 in
    let? x1 := u16x16_shr s 10 a1 in
    let? m2 := splat256 s [240; 3; 0; 0] in
    let? a2 := v256_and s x0 m2 in
    let? x2 := u16x16_shl s 4 a2 in
    let? m3 := splat256 s [0; 0; 192; 15] in
    let? a3 := v256_and s x0 m3 in
    let? x3 := u16x16_shr s 6 a3 in
    let? m4 := splat256 s [0; 0; 63; 0] in
    let? a4 := v256_and s x0 m4 in
    let? x4 := u16x16_shl s 8 a4 in
    let? o1 := v256_or s x1 x2 in
    let? o2 := v256_or s x3 x4 in
    v256_or s o1 o2
  else None.

(** encode.rs:228 [split_bits_x1] *)
Definition split_bits_x1 (s : isa) (x : list Z) : option (list Z) :=
  let? x0 := u8x16_swizzle s x (hi128 B64_SPLIT_SHUFFLE) in
  if matches_isa s [ISSE2] then
    let? m1 := splat128 s [0; 252; 192; 15] in
    let? x1 := v128_and s x0 m1 in
    let? m2 := splat128 s [240; 3; 63; 0] in
    let? x2 := v128_and s x0 m2 in
    let? m3 := splat128 s [64; 0; 0; 4] in
    let? x3 := u16x8_mul_hi s x1 m3 in
    let? m4 := splat128 s [16; 0; 0; 1] in
    let? x4 := i16x8_mul_lo s x2 m4 in
    v128_or s x3 x4
  else if matches_isa s [INEON; IWASM128] then
    let? m1 := splat128 s [0; 252; 0; 0] in
    let? a1 := v128_and s x0 m1 in
    let? x1 := u16x8_shr s 10 a1 in
    let? m2 := splat128 s [240; 3; 0; 0] in
    let? a2 := v128_and s x0 m2 in
    let? x2 := u16x8_shl s 4 a2 in
    let? m3 := splat128 s [0; 0; 192; 15] in
    let? a3 := v128_and s x0 m3 in
    let? x3 := u16x8_shr s 6 a3 in
    let? m4 := splat128 s [0; 0; 63; 0] in
    let? a4 := v128_and s x0 m4 in
    let? x4 := u16x8_shl s 8 a4 in
    let? o1 := v128_or s x1 x2 in
    let? o2 := v128_or s x3 x4 in
    v128_or s o1 o2
  else None.

(** encode.rs:271 [encoding_shift] *)
Definition encoding_shift (charset : list Z) : list Z :=
  let lut := repeat 128 16 in
  let lut := set_nth lut 13 65 in
  let lut := set_nth lut 0 (97 - 26) in
  let lut := fold_left (fun l i => set_nth l i ((48 - 52) mod 256)) (seq 1 10) lut in
  let lut := set_nth lut 11 ((nth 62 charset 0 - 62) mod 256) in
  set_nth lut 12 ((nth 63 charset 0 - 63) mod 256).

(** encode.rs:298 [encode_values] *)
Definition b64_encode_values (w : width) (s : isa) (x shift_lut : list Z) : option (list Z) :=
  let? c51 := u8xn_splat w s 51 in
  let? x1 := u8xn_sub_sat w s x c51 in
  let? c26 := u8xn_splat w s 26 in
  let? x2 := i8xn_lt w s x c26 in
  let? c13 := u8xn_splat w s 13 in
  let? x3 := xn_and w s x2 c13 in
  let? x4 := xn_or w s x1 x3 in
  let? shift := u8x16xn_swizzle w s shift_lut x4 in
  u8xn_add w s x shift.

(** encode.rs:323 [encode_bytes24], 334 [encode_bytes12] *)
Definition encode_bytes24 (s : isa) (x shift_lut : list Z) : option (list Z) :=
  let? values := split_bits_x2 s x in b64_encode_values W256 s values shift_lut.
Definition encode_bytes12 (s : isa) (x shift_lut : list Z) : option (list Z) :=
  let? values := split_bits_x1 s x in b64_encode_values W128 s values shift_lut.

(** encode.rs:119 [encode_simd] *)
Definition b64_encode_simd (s : isa) (src : ptr) (len : nat) (dst : ptr) (config : b64_config) : M unit :=
  let charset := b64_charset (b64_kind_of config) in
  ' (src, dst, len) <-
    (if (6 + 24 + 4 <=? len)%nat then
       let shift_lut := x2 (encoding_shift charset) in
       ' (src, dst, len) <- for_ 2 0 (fun _ (st : ptr * ptr * nat) =>
          p <- enc24_step charset (fst st) ;; ret (p, snd st - 3)%nat) (src, dst, len) ;;
       while_ (S len) (fun st : ptr * ptr * nat => (24 + 4 <=? snd st)%nat)
         (fun st =>
            let '(src, dst, len) := st in
            q <- psub src 4 ;;
            x <- load q 32 ;;
            y <- lift (encode_bytes24 s x shift_lut) ;;
            store dst y ;;;
            src <- padd src 24 ;;
            dst <- padd dst 32 ;;
            ret (src, dst, len - 24)%nat) (src, dst, len)
     else ret (src, dst, len)) ;;
  ' (src, dst, len) <-
    (if (12 + 4 <=? len)%nat then
       let shift_lut := encoding_shift charset in
       x <- load src 16 ;;
       y <- lift (encode_bytes12 s x shift_lut) ;;
       store dst y ;;;
       src <- padd src 12 ;;
       dst <- padd dst 16 ;;
       ret (src, dst, len - 12)%nat
     else ret (src, dst, len)) ;;
  b64_encode_fallback src len dst config.

(** ** decode.rs *)

(** decode.rs:16 [decode_table] *)
Definition b64_decode_table (charset : list Z) : list Z :=
  fold_left (fun t i => set_nth t (Z.to_nat (nth i charset 0)) (Z.of_nat i)) (seq 0 (length charset)) (repeat 255 256).
Definition STANDARD_DECODE_TABLE : list Z := b64_decode_table STANDARD_CHARSET.
Definition URL_SAFE_DECODE_TABLE : list Z := b64_decode_table URL_SAFE_CHARSET.
Definition b64_table (k : b64_kind) : list Z :=
  match k with Standard => STANDARD_DECODE_TABLE | UrlSafe => URL_SAFE_DECODE_TABLE end.

(** decode.rs:30 [decoded_length]: reads up to two bytes of the slice [get_unchecked] *)
Definition b64_count_pad (src : ptr) (len : nat) : M nat :=
  q1 <- psub_len len 1 ;; last1 <- read src q1 ;;
  q2 <- psub_len len 2 ;; last2 <- read src q2 ;;
  ret (if last1 =? 61 then if last2 =? 61 then 2%nat else 1%nat else 0%nat).
Definition b64_decoded_length (src : ptr) (len : nat) (config : b64_config) : M (result (nat * nat)) :=
  if (len =? 0)%nat then ret (Ok (0, 0)%nat) else
  try_ (match b64_extra_of config with
        | Pad => if (len mod 4 =? 0)%nat then c <- b64_count_pad src len ;; ret (Ok (len - c)%nat) else ret Err
        | NoPad => ret (Ok len)
        | Forgiving => if (len mod 4 =? 0)%nat then c <- b64_count_pad src len ;; ret (Ok (len - c)%nat) else ret (Ok len)
        end) (fun n =>
  match (n mod 4)%nat with
  | 0%nat => ret (Ok (n, n / 4 * 3))%nat
  | 1%nat => ret Err
  | 2%nat => ret (Ok (n, n / 4 * 3 + 1))%nat
  | 3%nat => ret (Ok (n, n / 4 * 3 + 2))%nat
  | _ => ub
  end).

(** decode.rs:80 [decode_ascii8]. [WRITE] is a const parameter; the u64 shift drops overflowing bits. *)
Definition b64_decode_ascii8 (en : endian) (WRITE : bool) (src dst : ptr) (table : list Z) : M (result unit) :=
  ' (y, flag) <- for_ 8 0 (fun i st =>
      x <- read src i ;;
      bits <- table_get table x ;;
      let flag := Z.lor (snd st) bits in
      let y := if WRITE then Z.lor (fst st) (Z.shiftl bits (58 - Z.of_nat i * 6) mod 2 ^ 64) else fst st in
      ret (y, flag)) (0, 0) ;;
  (if WRITE then store dst (native_bytes en 8 (to_be en 8 y)) else ret tt) ;;;
  ret (if flag =? 255 then Err else Ok tt).

(** decode.rs:106 [decode_ascii4] *)
Definition b64_decode_ascii4 (WRITE : bool) (src dst : ptr) (table : list Z) : M (result unit) :=
  ' (y, flag) <- for_ 4 0 (fun i st =>
      x <- read src i ;;
      bits <- table_get table x ;;
      let flag := Z.lor (snd st) bits in
      let y := if WRITE then Z.lor (fst st) (Z.shiftl bits (18 - Z.of_nat i * 6) mod 2 ^ 32) else fst st in
      ret (y, flag)) (0, 0) ;;
  (if WRITE then
     let y := be_bytes 4 y in
     write dst 0 (nth 1 y 0) ;;; write dst 1 (nth 2 y 0) ;;; write dst 2 (nth 3 y 0)
   else ret tt) ;;;
  ret (if flag =? 255 then Err else Ok tt).

(** decode.rs:135 [decode_extra] *)
Definition b64_decode_extra (WRITE : bool) (extra : nat) (src dst : ptr) (table : list Z) (forgiving : bool) : M (result unit) :=
  match extra with
  | 0%nat => ret (Ok tt)
  | 2%nat =>
      l <- load src 2 ;;
      match l with
      | [x1; x2] =>
          y1 <- table_get table x1 ;;
          y2 <- table_get table x2 ;;
          if negb (Z.lor y1 y2 =? 255) && (forgiving || (Z.land y2 15 =? 0)) then
            (if WRITE then write dst 0 (Z.lor (shl8 y1 2) (shr8 y2 4)) else ret tt) ;;; ret (Ok tt)
          else ret Err
      | _ => ub
      end
  | 3%nat =>
      l <- load src 3 ;;
      match l with
      | [x1; x2; x3] =>
          y1 <- table_get table x1 ;;
          y2 <- table_get table x2 ;;
          y3 <- table_get table x3 ;;
          if negb (Z.lor (Z.lor y1 y2) y3 =? 255) && (forgiving || (Z.land y3 3 =? 0)) then
            (if WRITE then
               write dst 0 (Z.lor (shl8 y1 2) (shr8 y2 4)) ;;;
               write dst 1 (Z.lor (shl8 y2 4) (shr8 y3 2))
             else ret tt) ;;; ret (Ok tt)
          else ret Err
      | _ => ub
      end
  | _ => ub
  end.

(** decode.rs:175 [decode_fallback] *)
Definition b64_decode_fallback (en : endian) (src dst : ptr) (n : nat) (config : b64_config) : M (result unit) :=
  let forgiving := b64_forgiving (b64_extra_of config) in
  let table := b64_table (b64_kind_of config) in
  try_ (while_res (S n) (fun st : ptr * ptr * nat => (11 <=? snd st)%nat)
    (fun st =>
       let '(src, dst, n) := st in
       try_ (b64_decode_ascii8 en true src dst table) (fun _ =>
       src <- padd src 8 ;;
       dst <- padd dst 6 ;;
       ret (Ok (src, dst, n - 8)%nat))) (src, dst, n)) (fun st =>
  let '(src, dst, n) := st in
  e <- padd src (n / 4 * 4) ;;
  try_ (while_res (S n) (fun st : ptr * ptr => plt (fst st) e)
    (fun st =>
       try_ (b64_decode_ascii4 true (fst st) (snd st) table) (fun _ =>
       src <- padd (fst st) 4 ;;
       dst <- padd (snd st) 3 ;;
       ret (Ok (src, dst)))) (src, dst)) (fun st =>
  b64_decode_extra true (n mod 4) (fst st) (snd st) table forgiving)).

(** alsw.rs:84-88 *)
Definition b64_alsw (k : b64_kind) : alsw_spec := match k with Standard => StandardAlsw | UrlSafe => UrlSafeAlsw end.

(** decode.rs:241 [merge_bits_x2] *)
Definition B64_MERGE_SHUFFLE : list Z := x2 [2; 1; 0; 6; 5; 4; 10; 9; 8; 14; 13; 12; 128; 128; 128; 128].
Definition merge_bits_x2 (s : isa) (x : list Z) : option (list Z) :=
  let? y :=
    (if matches_isa s [ISSSE3] then
       let? m1 := splat256 s [64; 1] in
       let? x1 := i16x16_maddubs s x m1 in
       let? m2 := splat256 s [0; 16; 1; 0] in
       i16x16_madd s x1 m2
     else if matches_isa s [INEON; IWASM128] then
       let? m1 := splat256 s [63; 0; 63; 0] in
       let? x1 := v256_and s x m1 in
       let? m2 := splat256 s [0; 63; 0; 63] in
       let? x2 := v256_and s x m2 in
       let? a3 := u32x8_shl s 18 x1 in
       let? b3 := u32x8_shr s 10 x1 in
       let? x3 := v256_or s a3 b3 in
       let? a4 := u32x8_shl s 4 x2 in
       let? b4 := u32x8_shr s 24 x2 in
       let? x4 := v256_or s a4 b4 in
       let? mask := splat256 s [255; 255; 255; 0] in
       let? o := v256_or s x3 x4 in
       v256_and s o mask
     else None) in
  u8x16x2_swizzle s y B64_MERGE_SHUFFLE.

(** decode.rs:283 [decode_ascii32] *)
Definition b64_decode_ascii32 (s : isa) (x : list Z) (check decode : alsw_lut) : option (result (list Z)) :=
  let? c := decode_ascii_xn W256 s x check decode in
  let? y := merge_bits_x2 s (snd c) in
  let? h := u8x32_highbit_any s (fst c) in
  Some (if h : bool then Err else Ok y).

(** decode.rs:209 [decode_simd] *)
Definition b64_decode_simd (en : endian) (s : isa) (src dst : ptr) (n : nat) (config : b64_config) : M (result unit) :=
  let check := lut_x2 (check_lut (b64_alsw (b64_kind_of config))) in
  let decode := lut_x2 (decode_lut (b64_alsw (b64_kind_of config))) in
  try_ (while_res (S n) (fun st : ptr * ptr * nat => (38 <=? snd st)%nat)
    (fun st =>
       let '(src, dst, n) := st in
       x <- load src 32 ;;
       r <- lift (b64_decode_ascii32 s x check decode) ;;
       match r with
       | Err => ret Err
       | Ok y =>
           store dst (lo128 y) ;;;
           d2 <- padd dst 12 ;;
           store d2 (hi128 y) ;;;
           src <- padd src 32 ;;
           dst <- padd dst 24 ;;
           ret (Ok (src, dst, n - 32)%nat)
       end) (src, dst, n)) (fun st =>
  let '(src, dst, n) := st in
  b64_decode_fallback en src dst n config).

(** ** check.rs *)

(** check.rs:13 [check_fallback] *)
Definition b64_check_fallback (en : endian) (src : ptr) (n : nat) (config : b64_config) : M (result unit) :=
  let forgiving := b64_forgiving (b64_extra_of config) in
  let table := b64_table (b64_kind_of config) in
  try_ (while_res (S n) (fun st : ptr * nat => (11 <=? snd st)%nat)
    (fun st =>
       try_ (b64_decode_ascii8 en false (fst st) null table) (fun _ =>
       src <- padd (fst st) 8 ;; ret (Ok (src, snd st - 8)%nat))) (src, n)) (fun st =>
  try_ (while_res (S n) (fun st : ptr * nat => (4 <=? snd st)%nat)
    (fun st =>
       try_ (b64_decode_ascii4 false (fst st) null table) (fun _ =>
       src <- padd (fst st) 4 ;; ret (Ok (src, snd st - 4)%nat))) st) (fun st =>
  b64_decode_extra false (snd st) (fst st) null table forgiving)).

(** check.rs:41 [check_simd], 70 [check_ascii32] *)
Definition b64_check_simd (en : endian) (s : isa) (src : ptr) (n : nat) (config : b64_config) : M (result unit) :=
  let check := lut_x2 (check_lut (b64_alsw (b64_kind_of config))) in
  try_ (while_res (S n) (fun st : ptr * nat => (38 <=? snd st)%nat)
    (fun st =>
       x <- load (fst st) 32 ;;
       ok <- lift (check_ascii_xn W256 s x check) ;;
       if ok : bool then src <- padd (fst st) 32 ;; ret (Ok (src, snd st - 32)%nat) else ret Err) (src, n)) (fun st =>
  b64_check_fallback en (fst st) (snd st) config).

(** ** multiversion.rs *)
Definition b64_encode_impl (s : isa) : ptr -> nat -> ptr -> b64_config -> M unit :=
  match s with Fallback => b64_encode_fallback | _ => b64_encode_simd s end.
Definition b64_decode_impl (en : endian) (s : isa) : ptr -> ptr -> nat -> b64_config -> M (result unit) :=
  match s with Fallback => b64_decode_fallback en | _ => b64_decode_simd en s end.
Definition b64_check_impl (en : endian) (s : isa) : ptr -> nat -> b64_config -> M (result unit) :=
  match s with Fallback => b64_check_fallback en | _ => b64_check_simd en s end.

(** ** lib.rs *)

(** lib.rs:222 [check] *)
Definition b64_check (en : endian) (s : isa) (config : b64_config) (data : ptr) (len : nat) : M (result unit) :=
  try_ (b64_decoded_length data len config) (fun nm => b64_check_impl en s data (fst nm) config).

(** lib.rs:232 [encode] *)
Definition b64_encode (s : isa) (config : b64_config) (src : ptr) (slen : nat) (dst : ptr) (dlen : nat) : M (result (ptr * nat)) :=
  let m := b64_encoded_length_unchecked slen config in
  if negb (m <=? dlen)%nat then ret Err else
  b64_encode_impl s src slen dst config ;;;
  ret (Ok (dst, m)).
(** lib.rs:250 [encode_as_str]: the bytes are reinterpreted as a str without a check *)
Definition b64_encode_as_str := b64_encode.

(** lib.rs:262 [decode] *)
Definition b64_decode (en : endian) (s : isa) (config : b64_config) (src : ptr) (slen : nat) (dst : ptr) (dlen : nat) : M (result (ptr * nat)) :=
  try_ (b64_decoded_length src slen config) (fun nm =>
  if negb (snd nm <=? dlen)%nat then ret Err else
  try_ (b64_decode_impl en s src dst (fst nm) config) (fun _ => ret (Ok (dst, snd nm)))).

(** lib.rs:280 [decode_inplace] *)
Definition b64_decode_inplace (en : endian) (s : isa) (config : b64_config) (data : ptr) (len : nat) : M (result (ptr * nat)) :=
  try_ (b64_decoded_length data len config) (fun nm =>
  try_ (b64_decode_impl en s data data (fst nm) config) (fun _ => ret (Ok (data, snd nm)))).

(** lib.rs:191 [encoded_length] on usize of [bits] bits: [None] is a failed assertion;
    every addition and multiplication wraps *)
Definition b64_encoded_length (bits n : Z) (config : b64_config) : option Z :=
  if n <=? usize_max bits / 2 then
    let extra := n mod 3 in
    Some (if extra =? 0 then (n / 3 * 4) mod 2 ^ bits
          else if b64_padding (b64_extra_of config) then ((n / 3 * 4) mod 2 ^ bits + 4) mod 2 ^ bits
          else (((n / 3 * 4) mod 2 ^ bits + extra) mod 2 ^ bits + 1) mod 2 ^ bits)
  else None.
(** lib.rs:201 [estimated_decoded_length] *)
Definition b64_estimated_decoded_length (bits n : Z) : Z :=
  ((n / 4 + (if n mod 4 =? 0 then 0 else 1)) mod 2 ^ bits * 3) mod 2 ^ bits.
