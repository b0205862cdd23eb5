(** Model of /repo/crates/base64-simd/src/ascii.rs and forgiving.rs ([forgiving_decode_to_vec] is in Heap.v). *)
From Coq Require Import ZArith List Bool.
From Verif Require Import Bytes Mem Isa Simd Ints Base64.
Import ListNotations.
Open Scope Z_scope.
Open Scope m_scope.

(** core: [u8::is_ascii_whitespace]: b'\t' | b'\n' | b'\x0C' | b'\r' | b' ' *)
Definition is_ascii_whitespace (c : Z) : bool := (c =? 9) || (c =? 10) || (c =? 12) || (c =? 13) || (c =? 32).
(** ascii.rs:9-23 [lookup_ascii_whitespace]: unchecked read of a 256-entry table *)
Definition WHITESPACE_TABLE : list Z := map (fun i => if is_ascii_whitespace i then 255 else 0) (range 256).
Definition lookup_ascii_whitespace (c : Z) : M Z := table_get WHITESPACE_TABLE c.

(** ascii.rs:27 [has_ascii_whitespace]; 0x89 = 137, and -128 + 5 as a byte is 133 *)
Definition has_ascii_whitespace (w : width) (s : isa) (x : list Z) : option bool :=
  let? k1 := u8xn_splat w s 137 in
  let? k2 := u8xn_splat w s 133 in
  let? x1 := u8xn_sub w s x k1 in
  let? m1 := i8xn_lt w s x1 k2 in
  let? k3 := u8xn_splat w s 11 in
  let? m2 := u8xn_eq w s x k3 in
  let? k4 := u8xn_splat w s 32 in
  let? m3 := u8xn_eq w s x k4 in
  let? m4 := xn_andnot w s m1 m2 in
  let? m5 := xn_or w s m4 m3 in
  mask8xn_any w s m5.

(** ascii.rs:49 [find_non_ascii_whitespace_short] *)
Definition find_non_ascii_whitespace_short (src : ptr) (len : nat) : M nat :=
  end_ <- padd src len ;;
  p <- while_break (S len) (fun p => plt p end_) (fun p =>
      x <- read p 0 ;;
      v <- lookup_ascii_whitespace x ;;
      if negb (v =? 0) then ret (p, true) else
      p <- padd p 1 ;;
      ret (p, false)) src ;;
  offset_from p src.

(** ascii.rs:63 *)
Definition find_non_ascii_whitespace_fallback := find_non_ascii_whitespace_short.

(** ascii.rs:68 [find_non_ascii_whitespace_simd] *)
Definition find_loop (w : width) (s : isa) (fuel : nat) (end_ src : ptr) : M ptr :=
  while_break fuel (fun p => plt p end_) (fun p =>
    x <- load p (vlen w) ;;
    b <- lift (has_ascii_whitespace w s x) ;;
    if b : bool then ret (p, true) else
    p <- padd p (vlen w) ;;
    ret (p, false)) src.
Definition find_non_ascii_whitespace_simd (s : isa) (src : ptr) (len : nat) : M nat :=
  p <- (if matches_isa s [IAVX2] then
          end_ <- padd src (len / 32 * 32) ;;
          p <- find_loop W256 s (S len) end_ src ;;
          if (16 <=? len mod 32)%nat then
            x <- load p 16 ;;
            b <- lift (has_ascii_whitespace W128 s x) ;;
            if negb b then padd p 16 else ret p
          else ret p
        else
          end_ <- padd src (len / 16 * 16) ;;
          find_loop W128 s (S len) end_ src) ;;
  checked_len <- offset_from p src ;;
  rest <- psub_len len checked_len ;;
  pos <- find_non_ascii_whitespace_short p rest ;;
  ret (checked_len + pos)%nat.

(** ascii.rs:102 [find_non_ascii_whitespace] (dispatched) *)
Definition find_non_ascii_whitespace (s : isa) : ptr -> nat -> M nat :=
  match s with Fallback => find_non_ascii_whitespace_fallback | _ => find_non_ascii_whitespace_simd s end.

(** ascii.rs:109 [remove_ascii_whitespace_fallback] *)
Definition remove_ascii_whitespace_fallback (src : ptr) (len : nat) (dst : ptr) : M nat :=
  end_ <- padd src len ;;
  ' (_, d) <- while_ (S len) (fun st => plt (fst st) end_) (fun st =>
      x <- read (fst st) 0 ;;
      v <- lookup_ascii_whitespace x ;;
      d <- (if v =? 0 then write (snd st) 0 x ;;; padd (snd st) 1 else ret (snd st)) ;;
      p <- padd (fst st) 1 ;;
      ret (p, d)) (src, dst) ;;
  offset_from d dst.

(** [debug_assert!]: the model always checks, so that a [Ret] outcome covers debug builds and shows the assertion true in release builds *)
Definition debug_assert (b : bool) : M unit := if b then ret tt else panic.
(** ascii.rs:129 [remove_ascii_whitespace_inplace]: returns the length of the subslice; [get_unchecked_mut] needs it in bounds *)
Definition remove_ascii_whitespace_inplace (s : isa) (data : ptr) (len : nat) : M nat :=
  pos <- find_non_ascii_whitespace s data len ;;
  debug_assert (pos <=? len)%nat ;;;
  if (pos =? len)%nat then ret len else
  l <- psub_len len pos ;;
  dst <- padd data pos ;;
  rem <- remove_ascii_whitespace_fallback dst l dst ;;
  debug_assert (rem <=? l)%nat ;;;
  if (pos + rem <=? len)%nat then ret (pos + rem)%nat else ub.

(** forgiving.rs:21 [forgiving_decode_inplace]; [s1] is the instruction set of the white space search, [s2] of the decoder *)
Definition forgiving_decode_inplace (en : endian) (s1 s2 : isa) (data : ptr) (len : nat) : M (result (ptr * nat)) :=
  n <- remove_ascii_whitespace_inplace s1 data len ;;
  b64_decode_inplace en s2 STANDARD_FORGIVING data n.

(** core::ptr::copy_nonoverlapping: undefined behaviour if the ranges overlap *)
Definition copy_nonoverlapping (src dst : ptr) (n : nat) : M unit :=
  if ((fst src =? fst dst) && (snd src <? snd dst + n) && (snd dst <? snd src + n))%nat then ub else
  l <- load src n ;; store dst l.

(** forgiving.rs:38 [forgiving_decode] *)
Definition forgiving_decode (en : endian) (s1 s2 : isa) (src : ptr) (len : nat) (dst : ptr) (dlen : nat) : M (result (ptr * nat)) :=
  if negb (len <=? dlen)%nat then ret Err else
  pos <- find_non_ascii_whitespace s1 src len ;;
  debug_assert (pos <=? len)%nat ;;;
  if (pos =? len)%nat then b64_decode en s2 STANDARD_FORGIVING src len dst dlen else
  copy_nonoverlapping src dst pos ;;;
  p <- padd src pos ;;
  l <- psub_len len pos ;;
  d <- padd dst pos ;;
  rem <- remove_ascii_whitespace_fallback p l d ;;
  debug_assert (rem <=? l)%nat ;;;
  b64_decode_inplace en s2 STANDARD_FORGIVING dst (pos + rem).
