(** Model of the parts of the code whose behaviour depends on addresses, and of the remaining helpers of vsimd.
    Paths are under /repo/crates. [A] gives the address of the first byte of each block. *)
From Coq Require Import ZArith List Bool.
From Verif Require Import Bytes Mem Isa Simd Ints Unicode.
Import ListNotations.
Open Scope Z_scope.
Open Scope m_scope.

Definition addresses := nat -> Z.
Definition address (A : addresses) (p : ptr) : Z := A (fst p) + Z.of_nat (snd p).
Definition aligned (A : addresses) (p : ptr) (n : nat) : bool := address A p mod Z.of_nat n =? 0.
(** core: [p.read()] and [p.write(x)] of a type of alignment [n] and size [k]; undefined on a misaligned pointer.
    ([read_unaligned] is [load].) *)
Definition read_al (A : addresses) (n : nat) (p : ptr) (k : nat) : M (list Z) := if aligned A p n then load p k else ub.
Definition write_al (A : addresses) (n : nat) (p : ptr) (x : list Z) : M unit := if aligned A p n then store p x else ub.

(** ** vsimd/src/simd128.rs and simd256.rs *)
(** vsimd/src/macros.rs:8 [debug_assert_ptr_align]; [dbg] is [cfg!(debug_assertions)] *)
Definition debug_assert_ptr_align (A : addresses) (dbg : bool) (p : ptr) (n : nat) : M unit :=
  if dbg && negb (aligned A p n) then panic else ret tt.
(** simd128.rs:58 [v128_load_unaligned] *)
Definition v128_load_unaligned (s : isa) (p : ptr) : M (list Z) :=
  if matches_isa s [ISSE2] then load p 16 (* _mm_loadu_si128 *)
  else if matches_isa s [INEON] then load p 16 (* vld1q_u8 *)
  else if matches_isa s [IWASM128] then load p 16 (* v128_load, no alignment needed *)
  else panic.
(** simd128.rs:36 [v128_load] *)
Definition v128_load (A : addresses) (dbg : bool) (s : isa) (p : ptr) : M (list Z) :=
  debug_assert_ptr_align A dbg p 16 ;;;
  if matches_isa s [ISSE2] then read_al A 16 p 16 (* _mm_load_si128 *)
  else if matches_isa s [INEON] then v128_load_unaligned s p
  else if matches_isa s [IWASM128] then v128_load_unaligned s p
  else panic.
(** simd128.rs:102 [v128_store_unaligned] (not under miri) *)
Definition v128_store_unaligned (s : isa) (p : ptr) (a : list Z) : M unit :=
  if matches_isa s [ISSE2] then store p a
  else if matches_isa s [INEON] then store p a
  else if matches_isa s [IWASM128] then store p a
  else panic.
(** simd128.rs:80 [v128_store] *)
Definition v128_store (A : addresses) (dbg : bool) (s : isa) (p : ptr) (a : list Z) : M unit :=
  debug_assert_ptr_align A dbg p 16 ;;;
  if matches_isa s [ISSE2] then write_al A 16 p a
  else if matches_isa s [INEON] then v128_store_unaligned s p a
  else if matches_isa s [IWASM128] then v128_store_unaligned s p a
  else panic.
(** vsimd/src/vector.rs *)
Definition from_v128x2 (x : list Z * list Z) : list Z := fst x ++ snd x.                      (* 187 *)
Definition to_v128x2 (a : list Z) : list Z * list Z := (firstn 16 a, skipn 16 a).              (* 193 *)
Definition to_v64x2 (a : list Z) : list Z * list Z := (firstn 8 a, skipn 8 a).                 (* 159 *)
Definition from_v256x2 (x : list Z * list Z) : list Z := fst x ++ snd x.                      (* 226 *)
Definition to_v256x2 (a : list Z) : list Z * list Z := (firstn 32 a, skipn 32 a).              (* 232 *)
Definition vector_x2 (a : list Z) : list Z := a ++ a.                                          (* 166, 206: [x2]; 200, 238: [double_bytes] *)
Definition v64_to_u64 (en : endian) (a : list Z) : Z := of_native en a.                        (* 139 *)
(** simd256.rs:76 [v256_load_unaligned] *)
Definition v256_load_unaligned (s : isa) (p : ptr) : M (list Z) :=
  if matches_isa s [IAVX2] then load p 32
  else if matches_isa s [INEON] then load p 32 (* vld1q_u8_x2 *)
  else
  x0 <- v128_load_unaligned s p ;;
  q <- padd p 16 ;;
  x1 <- v128_load_unaligned s q ;;
  ret (from_v128x2 (x0, x1)).
(** simd256.rs:59 [v256_load] *)
Definition v256_load (A : addresses) (dbg : bool) (s : isa) (p : ptr) : M (list Z) :=
  debug_assert_ptr_align A dbg p 32 ;;;
  if matches_isa s [IAVX2] then read_al A 32 p 32
  else if matches_isa s [INEON] then load p 32
  else
  x0 <- v128_load A dbg s p ;;
  q <- padd p 16 ;;
  x1 <- v128_load A dbg s q ;;
  ret (from_v128x2 (x0, x1)).
(** simd256.rs:113 [v256_store_unaligned] *)
Definition v256_store_unaligned (s : isa) (p : ptr) (a : list Z) : M unit :=
  if matches_isa s [IAVX2] then store p a
  else if matches_isa s [INEON] then store p a
  else
  v128_store_unaligned s p (fst (to_v128x2 a)) ;;;
  q <- padd p 16 ;;
  v128_store_unaligned s q (snd (to_v128x2 a)).
(** simd256.rs:95 [v256_store] *)
Definition v256_store (A : addresses) (dbg : bool) (s : isa) (p : ptr) (a : list Z) : M unit :=
  debug_assert_ptr_align A dbg p 32 ;;;
  if matches_isa s [IAVX2] then write_al A 32 p a
  else if matches_isa s [INEON] then store p a
  else
  v128_store A dbg s p (fst (to_v128x2 a)) ;;;
  q <- padd p 16 ;;
  v128_store A dbg s q (snd (to_v128x2 a)).

(** ** The functions of Unicode.v that read and write through [*const u16], [*const u32], [*const u64], with alignment *)
(** unicode-simd/src/utf32.rs:22 [is_utf32le_fallback]: [src.read()] of u32 *)
Definition is_utf32le_fallback_al (A : addresses) (en : endian) (src : ptr) (len : nat) : M bool :=
  end_ <- padd src (4 * len) ;;
  ' (_, flag) <- while_ (S len) (fun st => plt (fst st) end_) (fun st =>
      l <- read_al A 4 (fst st) 4 ;;
      p <- padd (fst st) 4 ;;
      ret (p, snd st && is_unicode_scalar_value (of_native en l))) (src, true) ;;
  ret flag.
(** utf32.rs:36 [is_utf32le_simd]: the vector loads are unaligned ones *)
Definition is_utf32le_simd_al (A : addresses) (en : endian) (s : isa) (src : ptr) (len : nat) : M bool :=
  y <- lift (u32x8_splat s 0) ;;
  end_ <- padd src (4 * (len / 8 * 8)) ;;
  ' (p, y) <- while_ (S len) (fun st => plt (fst st) end_) (fun st =>
      x <- v256_load_unaligned s (fst st) ;;
      y <- lift (utf32_step s (snd st) x) ;;
      p <- padd (fst st) 32 ;;
      ret (p, y)) (src, y) ;;
  m <- lift (u32x8_splat s 1112063) ;;
  c <- lift (u32x8_lt s m y) ;;
  ans <- lift (v256_all_zero s c) ;;
  f <- is_utf32le_fallback_al A en p (len mod 8) ;;
  ret (ans && f).
Definition is_utf32le_al (A : addresses) (en : endian) (s : isa) (src : ptr) (len : nat) : M bool :=
  match s with Fallback => is_utf32le_fallback_al A en src len | _ => is_utf32le_simd_al A en s src len end.

(** vsimd/src/bswap.rs:75 [bswap_fallback]: [src.read()], [dst.write(y)] of T, whose alignment is its size (x86-64, aarch64; on 32-bit
    x86 u64 needs less) *)
Definition bswap_fallback_al (A : addresses) (en : endian) (t : elem) (src : ptr) (len : nat) (dst : ptr) : M unit :=
  end_ <- padd src (esize t * len) ;;
  while_ (S len) (fun st => plt (fst st) end_) (fun st =>
      x <- read_al A (esize t) (fst st) (esize t) ;;
      write_al A (esize t) (snd st) (native_bytes en (esize t) (swap_bytes (esize t) (of_native en x))) ;;;
      p <- padd (fst st) (esize t) ;;
      d <- padd (snd st) (esize t) ;;
      ret (p, d)) (src, dst) ;;;
  ret tt.
(** bswap.rs:90 [bswap_simd]; the vector store in one step (C64 shows that storing the halves is the same) *)
Definition bswap_simd_al (A : addresses) (en : endian) (t : elem) (s : isa) (src : ptr) (len : nat) (dst : ptr) : M unit :=
  end_ <- padd src (esize t * (len / LANES t * LANES t)) ;;
  ' (p, d) <- while_ (S len) (fun st => plt (fst st) end_) (fun st =>
      x <- v256_load_unaligned s (fst st) ;;
      y <- lift (swap_simd t s x) ;;
      store (snd st) y ;;;
      p <- padd (fst st) (esize t * LANES t) ;;
      d <- padd (snd st) (esize t * LANES t) ;;
      ret (p, d)) (src, dst) ;;
  bswap_fallback_al A en t p (len mod LANES t) d.
Definition swap_endianness_al (A : addresses) (en : endian) (t : elem) (s : isa) (src : ptr) (len : nat) (dst : ptr) : M unit :=
  match s with Fallback => bswap_fallback_al A en t src len dst | _ => bswap_simd_al A en t s src len dst end.

(** ** vsimd/src/tools.rs *)
(** core: [slice.chunks_exact(n)]: the chunks and the remainder; [fuel] is at least the number of chunks *)
Fixpoint chunks_exact {T} (fuel n : nat) (l : list T) : list (list T) * list T :=
  match fuel with
  | O => ([], l)
  | S f => if (n <=? length l)%nat
           then let '(c, r) := chunks_exact f n (skipn n l) in (firstn n l :: c, r)
           else ([], l)
  end.
(** tools.rs:64 [unroll] with [f] acting on a state; [None] is the panic of [chunks_exact(0)] *)
Definition unroll {T St} (slice : list T) (chunk_size : nat) (f : St -> T -> St) (st : St) : option St :=
  if (chunk_size =? 0)%nat then None else
  let '(chunks, remainder) := chunks_exact (length slice) chunk_size slice in
  Some (fold_left f remainder (fold_left (fun st chunk => fold_left f chunk st) chunks st)).
