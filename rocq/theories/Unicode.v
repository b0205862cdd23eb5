(** Model of /repo/crates/unicode-simd/src (ascii.rs, utf16.rs, utf32.rs, lib.rs) and of
    /repo/crates/vsimd/src/bswap.rs, ascii.rs.
    Simplifications: the alignment of [*const u16]/[*const u32] is not tracked; pointers to elements are byte pointers and
    [add(k)] on them adds [k * size_of::<T>()] bytes. An element is stored in the byte order [en] of the target. *)
From Coq Require Import ZArith List Bool.
From Verif Require Import Bytes Mem Isa Simd Ints.
Import ListNotations.
Open Scope Z_scope.
Open Scope m_scope.

(** ** unicode-simd/ascii.rs *)
(** ascii.rs:7 [is_ascii_fallback] *)
Definition is_ascii_fallback (src : ptr) (len : nat) : M bool :=
  end_ <- padd src len ;;
  ' (_, ans) <- while_ (S len) (fun st => plt (fst st) end_) (fun st =>
      x <- read (fst st) 0 ;;
      p <- padd (fst st) 1 ;;
      ret (p, Z.lor (snd st) x)) (src, 0) ;;
  ret (ans <? 128).

(** ascii.rs:33 [is_ascii_simd_v256] *)
Definition is_ascii_simd_v256 (s : isa) (src : ptr) (len : nat) : M bool :=
  end_ <- padd src (len / 32 * 32) ;;
  y <- lift (v256_create_zero s) ;;
  ' (p, y) <- while_ (S len) (fun st => plt (fst st) end_) (fun st =>
      x <- load (fst st) 32 ;;
      y <- lift (v256_or s (snd st) x) ;;
      p <- padd (fst st) 32 ;;
      ret (p, y)) (src, y) ;;
  h <- lift (u8x32_highbit_any s y) ;;
  f <- is_ascii_fallback p (len mod 32) ;;
  ret (negb h && f).

(** ascii.rs:71, 76: 0x8080_8080 and 0x8080_8080_8080_8080 *)
Definition check4 (x : Z) : bool := Z.land x 2155905152 =? 0.
Definition check8 (x : Z) : bool := Z.land x 9259542123273814144 =? 0.
(** ascii.rs:81 [check16]: [_mm_movemask_epi8(x) == 0] *)
Definition check16 (x : list Z) : bool := movemask x =? 0.
(** ascii.rs:66 [loadu] of a u32/u64 on x86-64 (little-endian) *)
Definition loadu (p : ptr) (k : nat) : M Z := l <- load p k ;; ret (of_le l).
(** ascii.rs:97 [check_tiny] *)
Definition check_tiny (src : ptr) (len : nat) : M bool :=
  if (len =? 8)%nat then x <- loadu src 8 ;; ret (check8 x) else
  ' (c, src, len) <- (if (4 <=? len)%nat then
      x <- loadu src 4 ;;
      if check4 x then p <- padd src 4 ;; ret (true, p, (len - 4)%nat) else ret (false, src, len)
    else ret (true, src, len)) ;;
  if negb c then ret false else
  end_ <- padd src len ;;
  ' (_, acc) <- for_ 3 0 (fun _ st =>
      if plt (fst st) end_ then
        x <- read (fst st) 0 ;;
        p <- padd (fst st) 1 ;;
        ret (p, Z.lor (snd st) x)
      else ret st) (src, 0) ;;
  ret (acc <? 128).
(** ascii.rs:121 [check_short] *)
Definition check_short (src : ptr) (len : nat) : M bool :=
  x1 <- loadu src 8 ;;
  l <- psub_len len 8 ;;
  p <- padd src l ;;
  x2 <- loadu p 8 ;;
  ret (check8 (Z.lor x1 x2)).
(** ascii.rs:129 [check_medium] *)
Definition or_load (x : list Z) (src : ptr) (k : nat) : M (list Z) :=
  p <- padd src k ;; y <- load p 16 ;; ret (map2 u8_or x y).
Definition check_medium (src : ptr) (len : nat) : M bool :=
  x <- load src 16 ;;
  x <- (if (32 <=? len)%nat then or_load x src 16 else ret x) ;;
  x <- (if (48 <=? len)%nat then or_load x src 32 else ret x) ;;
  l <- psub_len len 16 ;;
  x <- or_load x src l ;;
  ret (check16 x).
(** ascii.rs:143 [check_long] *)
Definition check_long (src : ptr) (len : nat) : M bool :=
  end_ <- padd src (len / 64 * 64) ;;
  r <- while_res (S len) (fun p => plt p end_) (fun p =>
      x <- load p 64 ;;
      let q i := firstn 16 (skipn (16 * i) x) in
      if check16 (map2 u8_or (map2 u8_or (q 0%nat) (q 1%nat)) (map2 u8_or (q 2%nat) (q 3%nat))) then
        p <- padd p 64 ;; ret (Ok p)
      else ret Err) src ;;
  match r with
  | Err => ret false
  | Ok p =>
      let len := (len mod 64)%nat in
      if (len =? 0)%nat then ret true
      else if (len <=? 8)%nat then check_tiny p len
      else if (len <=? 16)%nat then check_short p len
      else check_medium p len
  end.
(** ascii.rs:52 [is_ascii_sse2] *)
Definition is_ascii_sse2 (src : ptr) (len : nat) : M bool :=
  if (len <=? 8)%nat then check_tiny src len
  else if (len <=? 16)%nat then check_short src len
  else if (len <? 64)%nat then check_medium src len
  else check_long src len.

(** ascii.rs:18 [is_ascii_simd]; [x64]: the target is x86_64 (the function is also compiled for 32-bit x86) *)
Definition is_ascii_simd (x64 : bool) (s : isa) (src : ptr) (len : nat) : M bool :=
  if x64 && matches_isa s [ISSE2] then is_ascii_sse2 src len else is_ascii_simd_v256 s src len.

(** lib.rs:44 [is_ascii] (dispatched) *)
Definition is_ascii (x64 : bool) (s : isa) (src : ptr) (len : nat) : M bool :=
  match s with Fallback => is_ascii_fallback src len | _ => is_ascii_simd x64 s src len end.
(** lib.rs:52 [from_ascii]: the returned [&str] is the slice itself *)
Definition from_ascii (x64 : bool) (s : isa) (src : ptr) (len : nat) : M (option (ptr * nat)) :=
  b <- is_ascii x64 s src len ;;
  ret (if b : bool then Some (src, len) else None).

(** ** unicode-simd/utf32.rs *)
(** utf32.rs:17 [is_unicode_scalar_value]: (x ^ 0xD800).wrapping_sub(0x800) < 0x11_0000 - 0x800 *)
Definition is_unicode_scalar_value (x : Z) : bool := u32_sub (Z.lxor x 55296) 2048 <? 1112064.
(** utf32.rs:22 [is_utf32le_fallback] *)
Definition is_utf32le_fallback (en : endian) (src : ptr) (len : nat) : M bool :=
  end_ <- padd src (4 * len) ;;
  ' (_, flag) <- while_ (S len) (fun st => plt (fst st) end_) (fun st =>
      l <- load (fst st) 4 ;;
      p <- padd (fst st) 4 ;;
      ret (p, snd st && is_unicode_scalar_value (of_native en l))) (src, true) ;;
  ret flag.
(** utf32.rs:36 [is_utf32le_simd]; 0xD800, 0x800 and 0x10F7FF as little-endian bytes. *)
Definition u32x8_splat (s : isa) (x : Z) : option (list Z) := splat256 s (le_bytes 4 x).
Definition utf32_step (s : isa) (y x : list Z) : option (list Z) :=
  let? k1 := u32x8_splat s 55296 in
  let? a1 := v256_xor s x k1 in
  let? k2 := u32x8_splat s 2048 in
  let? a2 := u32x8_sub s a1 k2 in
  u32x8_max s y a2.
Definition is_utf32le_simd (en : endian) (s : isa) (src : ptr) (len : nat) : M bool :=
  y <- lift (u32x8_splat s 0) ;;
  end_ <- padd src (4 * (len / 8 * 8)) ;;
  ' (p, y) <- while_ (S len) (fun st => plt (fst st) end_) (fun st =>
      x <- load (fst st) 32 ;;
      y <- lift (utf32_step s (snd st) x) ;;
      p <- padd (fst st) 32 ;;
      ret (p, y)) (src, y) ;;
  m <- lift (u32x8_splat s 1112063) ;;
  c <- lift (u32x8_lt s m y) ;;
  ans <- lift (v256_all_zero s c) ;;
  f <- is_utf32le_fallback en p (len mod 8) ;;
  ret (ans && f).
(** lib.rs:59 [is_utf32le] (dispatched) *)
Definition is_utf32le (en : endian) (s : isa) (src : ptr) (len : nat) : M bool :=
  match s with Fallback => is_utf32le_fallback en src len | _ => is_utf32le_simd en s src len end.

(** ** vsimd/bswap.rs *)
(** bswap.rs:26-72 [BSwap] for u16, u32, u64: element size, [LANES], [swap_simd] *)
Inductive elem := U16 | U32 | U64.
Definition esize (t : elem) : nat := match t with U16 => 2 | U32 => 4 | U64 => 8 end.
Definition LANES (t : elem) : nat := match t with U16 => 16 | U32 => 8 | U64 => 4 end.
Definition swap_simd (t : elem) (s : isa) (a : list Z) : option (list Z) :=
  match t with U16 => u16x16_bswap s a | U32 => u32x8_bswap s a | U64 => u64x4_bswap s a end.
(** bswap.rs:75 [bswap_fallback] *)
Definition bswap_fallback (en : endian) (t : elem) (src : ptr) (len : nat) (dst : ptr) : M unit :=
  end_ <- padd src (esize t * len) ;;
  while_ (S len) (fun st => plt (fst st) end_) (fun st =>
      x <- load (fst st) (esize t) ;;
      store (snd st) (native_bytes en (esize t) (swap_bytes (esize t) (of_native en x))) ;;;
      p <- padd (fst st) (esize t) ;;
      d <- padd (snd st) (esize t) ;;
      ret (p, d)) (src, dst) ;;;
  ret tt.
(** bswap.rs:90 [bswap_simd] *)
Definition bswap_simd (en : endian) (t : elem) (s : isa) (src : ptr) (len : nat) (dst : ptr) : M unit :=
  end_ <- padd src (esize t * (len / LANES t * LANES t)) ;;
  ' (p, d) <- while_ (S len) (fun st => plt (fst st) end_) (fun st =>
      x <- load (fst st) 32 ;;
      y <- lift (swap_simd t s x) ;;
      store (snd st) y ;;;
      p <- padd (fst st) (esize t * LANES t) ;;
      d <- padd (snd st) (esize t * LANES t) ;;
      ret (p, d)) (src, dst) ;;
  bswap_fallback en t p (len mod LANES t) d.
(** utf16.rs:4, 9 and utf32.rs:4, 9: [swap_endianness_fallback], [swap_endianness_simd] (dispatched) *)
Definition swap_endianness (en : endian) (t : elem) (s : isa) (src : ptr) (len : nat) (dst : ptr) : M unit :=
  match s with Fallback => bswap_fallback en t src len dst | _ => bswap_simd en t s src len dst end.
(** lib.rs:66, 90 [utf32_swap_endianness_inplace], [utf16_swap_endianness_inplace] *)
Definition swap_endianness_inplace (en : endian) (t : elem) (s : isa) (data : ptr) (len : nat) : M unit :=
  swap_endianness en t s data len data.
(** lib.rs:79, 103 [utf32_swap_endianness], [utf16_swap_endianness]: assert!(src.len() <= dst.len()) *)
Definition swap_endianness_to (en : endian) (t : elem) (s : isa) (src : ptr) (len : nat) (dst : ptr) (dlen : nat) : M (ptr * nat) :=
  if negb (len <=? dlen)%nat then panic else
  swap_endianness en t s src len dst ;;;
  ret (dst, len).

(** ** vsimd/ascii.rs *)
(** ascii.rs:14 [convert_ascii_case]; the bytes are C + 0x80 and -0x80 + 26 = 154 *)
Definition convert_ascii_case (w : width) (s : isa) (c : Z) (x : list Z) : option (list Z) :=
  let? k1 := u8xn_splat w s (c + 128) in
  let? x1 := u8xn_sub w s x k1 in
  let? k2 := u8xn_splat w s 154 in
  let? x2 := i8xn_lt w s x1 k2 in
  let? k3 := u8xn_splat w s 32 in
  let? x3 := xn_and w s x2 k3 in
  xn_xor w s x x3.
(** ascii.rs:23, 28 *)
Definition to_ascii_lowercase (w : width) (s : isa) (x : list Z) : option (list Z) := convert_ascii_case w s 65 x.
Definition to_ascii_uppercase (w : width) (s : isa) (x : list Z) : option (list Z) := convert_ascii_case w s 97 x.
