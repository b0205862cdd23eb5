(** Model of /repo/crates/uuid-simd/src (parse.rs, format.rs, spec.rs, lib.rs).
    ext.rs, which calls these functions with a fresh [uuid::Uuid] or character array, is in Public.v. *)
From Coq Require Import ZArith List Bool String.
From Verif Require Import Bytes Mem Isa Simd Alsw Ints Hex.
Import ListNotations.
Open Scope list_scope.
Open Scope Z_scope.
Open Scope m_scope.
Notation length := List.length.

(** ** spec.rs: lane access. Lane numbers count from the low address: the targets with these instruction sets
    are little-endian, so the integer [x] becomes the bytes [le_bytes]. *)
Definition set_bytes (a : list Z) (i : nat) (xs : list Z) : list Z := firstn i a ++ xs ++ skipn (i + length xs) a.

(** spec.rs:41 [i16x16_set_lane7] *)
Definition i16x16_set_lane7 (s : isa) (a : list Z) (x : Z) : option (list Z) :=
  if matches_isa s [IAVX2] then Some (set_bytes a 14 (le_bytes 2 x))
  else if matches_isa s [ISSE2] then Some (set_bytes (lo128 a) 14 (le_bytes 2 x) ++ hi128 a)
  else if matches_isa s [INEON] then Some (set_bytes (lo128 a) 14 (le_bytes 2 x) ++ hi128 a)
  else if matches_isa s [IWASM128] then Some (set_bytes (lo128 a) 14 (le_bytes 2 x) ++ hi128 a)
  else None.
(** spec.rs:73 [i32x8_set_lane7] *)
Definition i32x8_set_lane7 (s : isa) (a : list Z) (x : Z) : option (list Z) :=
  if matches_isa s [IAVX2] then Some (set_bytes a 28 (le_bytes 4 x))
  else if matches_isa s [ISSE41] then Some (lo128 a ++ set_bytes (hi128 a) 12 (le_bytes 4 x))
  else if matches_isa s [INEON] then Some (lo128 a ++ set_bytes (hi128 a) 12 (le_bytes 4 x))
  else if matches_isa s [IWASM128] then Some (lo128 a ++ set_bytes (hi128 a) 12 (le_bytes 4 x))
  else None.
(** spec.rs:105 [i32x4_get_lane3] *)
Definition i32x4_get_lane3 (s : isa) (a : list Z) : option Z :=
  if matches_isa s [ISSE41] then Some (of_le (firstn 4 (skipn 12 a)))
  else if matches_isa s [INEON] then Some (of_le (firstn 4 (skipn 12 a)))
  else if matches_isa s [IWASM128] then Some (of_le (firstn 4 (skipn 12 a)))
  else None.
(** spec.rs:125 [i16x8_get_lane7] *)
Definition i16x8_get_lane7 (s : isa) (a : list Z) : option Z :=
  if matches_isa s [ISSE2] then Some (of_le (firstn 2 (skipn 14 a)))
  else if matches_isa s [INEON] then Some (of_le (firstn 2 (skipn 14 a)))
  else if matches_isa s [IWASM128] then Some (of_le (firstn 2 (skipn 14 a)))
  else None.

(** ** parse.rs *)

(** parse.rs:17 [parse_simple_fallback]; [shl4] is Hex.shl4 (parse.rs:12) *)
Definition parse_simple_fallback (src dst : ptr) : M (result unit) :=
  flag <- for_ 16 0 (fun i flag =>
    c1 <- read src (i * 2) ;;
    c2 <- read src (i * 2 + 1) ;;
    let h1 := unhex c1 in let h2 := unhex c2 in
    write dst i (Z.lor (shl4 h1) h2) ;;;
    ret (Z.lor flag (Z.lor h1 h2))) 0 ;;
  if flag =? 255 then ret Err else ret (Ok tt).

(** parse.rs:31-34, 66-69: all four are '-' *)
Definition check_hyphens (src : ptr) : M bool :=
  a <- read src 8 ;;
  b <- read src 13 ;;
  c <- read src 18 ;;
  d <- read src 23 ;;
  ret ((a =? 45) && (b =? 45) && (c =? 45) && (d =? 45)).

(** parse.rs:37 *)
Definition positions : list nat := [0; 4; 9; 14; 19; 24; 28; 32]%nat.

(** parse.rs:30 [parse_hyphenated_fallback] *)
Definition parse_hyphenated_fallback (src dst : ptr) : M (result unit) :=
  ok <- check_hyphens src ;;
  if negb ok then ret Err else
  flag <- for_ 8 0 (fun j flag =>
    let i := nth j positions 0%nat in
    c1 <- read src i ;;
    c2 <- read src (i + 1) ;;
    c3 <- read src (i + 2) ;;
    c4 <- read src (i + 3) ;;
    let h1 := unhex c1 in let h2 := unhex c2 in let h3 := unhex c3 in let h4 := unhex c4 in
    write dst (j * 2) (Z.lor (shl4 h1) h2) ;;;
    write dst (j * 2 + 1) (Z.lor (shl4 h3) h4) ;;;
    ret (Z.lor flag (Z.lor (Z.lor (Z.lor h1 h2) h3) h4))) 0 ;;
  if flag =? 255 then ret Err else ret (Ok tt).

(** parse.rs:91 [parse_simple_simd_sse2] *)
Definition parse_simple_simd_sse2 (s : isa) (src dst : ptr) : M (result unit) :=
  x1 <- load src 16 ;;
  p <- padd src 16 ;;
  x2 <- load p 16 ;;
  ' (n1, f1) <- lift (sse2_decode_nibbles s x1) ;;
  ' (n2, f2) <- lift (sse2_decode_nibbles s x2) ;;
  flag <- lift (v128_or s f1 f2) ;;
  mask <- lift (u8x16_bitmask s flag) ;;
  if negb (mask =? 0) then ret Err else
  y1 <- lift (sse2_merge_bits s n1) ;;
  y2 <- lift (sse2_merge_bits s n2) ;;
  store dst (y1 ++ y2) ;;;
  ret (Ok tt).

(** parse.rs:52 [parse_simple_simd] *)
Definition parse_simple_simd (s : isa) (src dst : ptr) : M (result unit) :=
  if is_isa_type s ISSE2 then parse_simple_simd_sse2 SSE2 src dst else
  x <- load src 32 ;;
  r <- lift (hex_decode_ascii32 s x) ;;
  match r with
  | Err => ret Err
  | Ok y => store dst y ;;; ret (Ok tt)
  end.

(** parse.rs:71-76 *)
Definition PARSE_SWIZZLE : list Z :=
  [0; 1; 2; 3; 4; 5; 6; 7; 9; 10; 11; 12; 14; 15; 128; 128;
   3; 4; 5; 6; 8; 9; 10; 11; 12; 13; 14; 15; 128; 128; 128; 128].
(** parse.rs:65 [parse_hyphenated_simd] *)
Definition parse_hyphenated_simd (s : isa) (src dst : ptr) : M (result unit) :=
  ok <- check_hyphens src ;;
  if negb ok then ret Err else
  a0 <- load src 32 ;;
  a1 <- lift (u8x16x2_swizzle s a0 PARSE_SWIZZLE) ;;
  p16 <- padd src 16 ;;
  w <- load p16 2 ;;
  a2 <- lift (i16x16_set_lane7 s a1 (of_le w)) ;;
  p32 <- padd src 32 ;;
  v <- load p32 4 ;;
  a3 <- lift (i32x8_set_lane7 s a2 (of_le v)) ;;
  r <- lift (hex_decode_ascii32 s a3) ;;
  match r with
  | Err => ret Err
  | Ok y => store dst y ;;; ret (Ok tt)
  end.

(** ** format.rs *)

(** format.rs:19 [format_simple_fallback]; [char_lut_fallback] (format.rs:11) is Hex.charset *)
Definition format_simple_fallback (src dst : ptr) (case : ascii_case) : M unit :=
  let lut := charset case in
  for_ 16 0 (fun i _ =>
    x <- read src i ;;
    hi <- table_get lut (x / 16) ;;
    lo <- table_get lut (Z.land x 15) ;;
    write dst (i * 2) hi ;;;
    write dst (i * 2 + 1) lo) tt.

(** format.rs:33 *)
Definition groups : list (nat * nat) := [(0, 8); (9, 13); (14, 18); (19, 23); (24, 36)]%nat.
(** format.rs:31 [format_hyphenated_fallback]; the inner loop runs at most six times *)
Definition format_hyphenated_fallback (src dst : ptr) (case : ascii_case) : M unit :=
  let lut := charset case in
  for_ 5 0 (fun g i =>
    let (start, end_) := nth g groups (0, 0)%nat in
    ' (i, _) <- while_ 7 (fun st : nat * nat => (snd st <? end_)%nat) (fun st =>
        let (i, j) := st in
        x <- read src i ;;
        hi <- table_get lut (x / 16) ;;
        lo <- table_get lut (Z.land x 15) ;;
        write dst j hi ;;;
        write dst (j + 1) lo ;;;
        ret (i + 1, j + 2)%nat) (i, start) ;;
    (if (g <? 4)%nat then write dst end_ 45 else ret tt) ;;;
    ret i) 0%nat ;;;
  ret tt.

(** format.rs:61 [char_lut_simd] *)
Definition char_lut_simd (case : ascii_case) : list Z := match case with Lower => ENCODE_LOWER_LUT | Upper => ENCODE_UPPER_LUT end.

(** format.rs:112 [format_simple_simd_sse2] *)
Definition format_simple_simd_sse2 (s : isa) (src dst : ptr) (case : ascii_case) : M unit :=
  let offset := match case with Lower => LOWER_OFFSET | Upper => UPPER_OFFSET end in
  x <- load src 16 ;;
  ' (y1, y2) <- lift (sse2_encode16 s x offset) ;;
  store dst y1 ;;;
  d <- padd dst 16 ;;
  store d y2.

(** format.rs:69 [format_simple_simd] *)
Definition format_simple_simd (s : isa) (src dst : ptr) (case : ascii_case) : M unit :=
  if is_isa_type s ISSE2 then format_simple_simd_sse2 SSE2 src dst case else
  x <- load src 16 ;;
  y <- lift (hex_encode_bytes16 s x (char_lut_simd case)) ;;
  store dst y.

(** format.rs:83-95 *)
Definition FORMAT_SWIZZLE : list Z :=
  [0; 1; 2; 3; 4; 5; 6; 7; 128; 8; 9; 10; 11; 128; 12; 13;
   128; 128; 128; 0; 1; 2; 3; 128; 4; 5; 6; 7; 8; 9; 10; 11].
Definition DASH : list Z :=
  [0; 0; 0; 0; 0; 0; 0; 0; 45; 0; 0; 0; 0; 45; 0; 0;
   0; 0; 45; 0; 0; 0; 0; 45; 0; 0; 0; 0; 0; 0; 0; 0].
(** format.rs:82 [format_hyphenated_simd] *)
Definition format_hyphenated_simd (s : isa) (src dst : ptr) (case : ascii_case) : M unit :=
  x <- load src 16 ;;
  a <- lift (hex_encode_bytes16 s x (char_lut_simd case)) ;;
  a1 <- lift (u8x16x2_swizzle s a FORMAT_SWIZZLE) ;;
  a2 <- lift (v256_or s a1 DASH) ;;
  store dst a2 ;;;
  w <- lift (i16x8_get_lane7 s (lo128 a)) ;;
  v <- lift (i32x4_get_lane3 s (hi128 a)) ;;
  d16 <- padd dst 16 ;;
  store d16 (le_bytes 2 w) ;;;
  d32 <- padd dst 32 ;;
  store d32 (le_bytes 4 v).

(** ** multiversion.rs *)
Definition parse_simple_impl (s : isa) : ptr -> ptr -> M (result unit) :=
  match s with Fallback => parse_simple_fallback | _ => parse_simple_simd s end.
Definition parse_hyphenated_impl (s : isa) : ptr -> ptr -> M (result unit) :=
  match s with Fallback => parse_hyphenated_fallback | _ => parse_hyphenated_simd s end.
Definition format_simple_impl (s : isa) : ptr -> ptr -> ascii_case -> M unit :=
  match s with Fallback => format_simple_fallback | _ => format_simple_simd s end.
Definition format_hyphenated_impl (s : isa) : ptr -> ptr -> ascii_case -> M unit :=
  match s with Fallback => format_hyphenated_fallback | _ => format_hyphenated_simd s end.

(** ** lib.rs. A returned [&mut [u8; N]] is its pointer and [N]. *)

(** lib.rs:120 [parse_simple] *)
Definition uuid_parse_simple (s : isa) (src : ptr) (n : nat) (dst : ptr) : M (result (ptr * nat)) :=
  if negb (n =? 32)%nat then ret Err else
  try_ (parse_simple_impl s src dst) (fun _ => ret (Ok (dst, 16%nat))).
(** lib.rs:138 [parse_hyphenated] *)
Definition uuid_parse_hyphenated (s : isa) (src : ptr) (n : nat) (dst : ptr) : M (result (ptr * nat)) :=
  if negb (n =? 36)%nat then ret Err else
  try_ (parse_hyphenated_impl s src dst) (fun _ => ret (Ok (dst, 16%nat))).

(** lib.rs:105 "urn:uuid:" *)
Definition URN_PREFIX : list Z := str "urn:uuid:".
(** lib.rs:81 [parse]. The two dispatched functions may use different instruction sets. [strip_prefix] compares the
    first nine bytes and returns the rest of the slice. *)
Definition uuid_parse (s1 s2 : isa) (src : ptr) (n : nat) (dst : ptr) : M (result (ptr * nat)) :=
  if (n =? 32)%nat then try_ (parse_simple_impl s1 src dst) (fun _ => ret (Ok (dst, 16%nat))) else
  try_ (if (n =? 36)%nat then ret (Ok src)
        else if (n =? 38)%nat then
          a <- read src 0 ;;
          if negb (a =? 123) then ret Err else
          b <- read src 37 ;;
          if negb (b =? 125) then ret Err else
          p <- padd src 1 ;;
          ret (Ok p)
        else if (n =? 45)%nat then
          h <- load src 9 ;;
          if list_eqb h URN_PREFIX then p <- padd src 9 ;; ret (Ok p) else ret Err
        else ret Err) (fun src =>
  try_ (parse_hyphenated_impl s2 src dst) (fun _ => ret (Ok (dst, 16%nat)))).

(** lib.rs:151 [format_simple], 163 [format_hyphenated] *)
Definition uuid_format_simple (s : isa) (src dst : ptr) (case : ascii_case) : M (ptr * nat) :=
  format_simple_impl s src dst case ;;; ret (dst, 32%nat).
Definition uuid_format_hyphenated (s : isa) (src dst : ptr) (case : ascii_case) : M (ptr * nat) :=
  format_hyphenated_impl s src dst case ;;; ret (dst, 36%nat).
