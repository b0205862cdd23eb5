(** Model of the vsimd primitives used by the codecs.

    A vector is the list of its bytes in memory order (16 for V128, 32 for V256; lanes are
    little endian, as on every SIMD target). Each primitive takes the instruction set and returns
    [None] where the Rust code reaches [unreachable!()]/[unimplemented!()].
    The lane functions below give the meaning of the CPU instructions. *)
From Coq Require Import ZArith List Bool.
From Verif Require Import Bytes Isa.
Import ListNotations.
Open Scope Z_scope.

(** ** Lane arithmetic *)

Definition pow2 (n : Z) : Z := 2 ^ n.

(** two's complement reading *)
Definition s8 (x : Z) : Z := if x <? 128 then x else x - 256.
Definition s16 (x : Z) : Z := if x <? 32768 then x else x - 65536.
Definition s32 (x : Z) : Z := if x <? 2147483648 then x else x - 4294967296.
Definition clamp (lo hi x : Z) : Z := Z.max lo (Z.min hi x).

Definition u8_add (a b : Z) := (a + b) mod 256.
Definition u8_sub (a b : Z) := (a - b) mod 256.
Definition u8_add_sat (a b : Z) := Z.min 255 (a + b).
Definition u8_sub_sat (a b : Z) := Z.max 0 (a - b).
Definition i8_add_sat (a b : Z) := (clamp (-128) 127 (s8 a + s8 b)) mod 256.
Definition mask8 (c : bool) : Z := if c then 255 else 0.
Definition u8_eq (a b : Z) := mask8 (a =? b).
Definition u8_lt (a b : Z) := mask8 (a <? b).
Definition i8_lt (a b : Z) := mask8 (s8 a <? s8 b).
Definition u8_max (a b : Z) := Z.max a b.
Definition u8_min (a b : Z) := Z.min a b.
Definition u8_avgr (a b : Z) := (a + b + 1) / 2.
Definition u8_and (a b : Z) := Z.land a b.
Definition u8_or (a b : Z) := Z.lor a b.
Definition u8_xor (a b : Z) := Z.lxor a b.
(** x86 [andnot(b, a)], NEON [vbic a b], wasm [andnot a b] = a AND NOT b *)
Definition u8_andnot (a b : Z) := Z.land a (Z.lxor b 255).
Definition u8_not (a : Z) := 255 - a.
(** bitwise select: if a then b else c *)
Definition u8_bsl (a b c : Z) := Z.lor (Z.land a b) (Z.land (Z.lxor a 255) c).
Definition u8_blendv (a b c : Z) := if 128 <=? c then b else a.

(** assembling and splitting little-endian lanes *)
Definition mk16 (a b : Z) : Z := a + 256 * b.
Definition mk32 (a b c d : Z) : Z := a + 256 * b + 65536 * c + 16777216 * d.
Definition byte0 (x : Z) : Z := x mod 256.
Definition byte1 (x : Z) : Z := (x / 256) mod 256.
Definition byte2 (x : Z) : Z := (x / 65536) mod 256.
Definition byte3 (x : Z) : Z := (x / 16777216) mod 256.

Definition u16_shl (n x : Z) := (x * pow2 n) mod 65536.
Definition u16_shr (n x : Z) := x / pow2 n.
Definition u16_mul_lo (x y : Z) := (x * y) mod 65536.
Definition u16_mul_hi (x y : Z) := (x * y) / 65536.
Definition u16_eq (x y : Z) := if x =? y then 65535 else 0.
Definition u16_lt (x y : Z) := if x <? y then 65535 else 0.
Definition i16_lt (x y : Z) := if s16 x <? s16 y then 65535 else 0.
Definition u16_max (x y : Z) := Z.max x y.
Definition u32_shl (n x : Z) := (x * pow2 n) mod 4294967296.
Definition u32_shr (n x : Z) := x / pow2 n.
Definition u32_eq (x y : Z) := if x =? y then 4294967295 else 0.
Definition u32_lt (x y : Z) := if x <? y then 4294967295 else 0.
Definition i32_lt (x y : Z) := if s32 x <? s32 y then 4294967295 else 0.
Definition u32_max (x y : Z) := Z.max x y.
Definition u32_add (x y : Z) := (x + y) mod 4294967296.
Definition u32_sub (x y : Z) := (x - y) mod 4294967296.
(** pmaddubsw: unsigned bytes of the first operand times signed bytes of the second, pairwise sum, saturated *)
Definition maddubs (a0 a1 b0 b1 : Z) := (clamp (-32768) 32767 (a0 * s8 b0 + a1 * s8 b1)) mod 65536.
(** pmaddwd *)
Definition madd (x0 x1 y0 y1 : Z) := (s16 x0 * s16 y0 + s16 x1 * s16 y1) mod 4294967296.
(** packuswb of one lane *)
Definition packus (x : Z) := clamp 0 255 (s16 x).

(** lift lane functions to vectors *)
Fixpoint lanes16 (f : Z -> Z) (l : list Z) : list Z :=
  match l with
  | a :: b :: r => let y := f (mk16 a b) in byte0 y :: byte1 y :: lanes16 f r
  | _ => []
  end.
Fixpoint lanes16_2 (f : Z -> Z -> Z) (l k : list Z) : list Z :=
  match l, k with
  | a :: b :: r, c :: d :: q => let y := f (mk16 a b) (mk16 c d) in byte0 y :: byte1 y :: lanes16_2 f r q
  | _, _ => []
  end.
Fixpoint lanes32 (f : Z -> Z) (l : list Z) : list Z :=
  match l with
  | a :: b :: c :: d :: r =>
      let y := f (mk32 a b c d) in byte0 y :: byte1 y :: byte2 y :: byte3 y :: lanes32 f r
  | _ => []
  end.
Fixpoint lanes32_2 (f : Z -> Z -> Z) (l k : list Z) : list Z :=
  match l, k with
  | a :: b :: c :: d :: r, a' :: b' :: c' :: d' :: q =>
      let y := f (mk32 a b c d) (mk32 a' b' c' d') in
      byte0 y :: byte1 y :: byte2 y :: byte3 y :: lanes32_2 f r q
  | _, _ => []
  end.
Fixpoint lanes_maddubs (l k : list Z) : list Z :=
  match l, k with
  | a0 :: a1 :: r, b0 :: b1 :: q => let y := maddubs a0 a1 b0 b1 in byte0 y :: byte1 y :: lanes_maddubs r q
  | _, _ => []
  end.
Fixpoint lanes_madd (l k : list Z) : list Z :=
  match l, k with
  | a :: b :: c :: d :: r, a' :: b' :: c' :: d' :: q =>
      let y := madd (mk16 a b) (mk16 c d) (mk16 a' b') (mk16 c' d') in
      byte0 y :: byte1 y :: byte2 y :: byte3 y :: lanes_madd r q
  | _, _ => []
  end.
Fixpoint lanes_packus (l : list Z) : list Z :=
  match l with a :: b :: r => packus (mk16 a b) :: lanes_packus r | _ => [] end.

(** table lookup of one index byte in a 16-byte table *)
Definition tbl_get (t : list Z) (i : Z) : Z := nth (Z.to_nat i) t 0.
(** pshufb: bit 7 of the index selects zero, otherwise the low four bits are used *)
Definition pshufb_lane (t : list Z) (i : Z) : Z := if 128 <=? i then 0 else tbl_get t (i mod 16).
(** vtbl2 / vqtbl1q / wasm swizzle: out-of-range indices give zero *)
Definition tbl16_lane (t : list Z) (i : Z) : Z := if 16 <=? i then 0 else tbl_get t i.
(** vqtbl2q *)
Definition tbl32_lane (t : list Z) (i : Z) : Z := if 32 <=? i then 0 else tbl_get t i.

(** byte interleaving etc. *)
Fixpoint interleave (a b : list Z) : list Z :=
  match a, b with x :: a', y :: b' => x :: y :: interleave a' b' | _, _ => [] end.
Fixpoint evens (l : list Z) : list Z :=
  match l with x :: _ :: r => x :: evens r | [x] => [x] | [] => [] end.
Fixpoint odds (l : list Z) : list Z :=
  match l with _ :: y :: r => y :: odds r | _ => [] end.
Definition lo64 (l : list Z) := firstn 8 l.
Definition hi64 (l : list Z) := skipn 8 l.
Fixpoint zero_extend (l : list Z) : list Z := match l with a :: r => a :: 0 :: zero_extend r | [] => [] end.

(** movemask: bit i of the result is the top bit of byte i *)
Fixpoint movemask (l : list Z) : Z :=
  match l with a :: r => (if 128 <=? a then 1 else 0) + 2 * movemask r | [] => 0 end.

Definition list_max (l : list Z) : Z := fold_right Z.max 0 l.
Definition list_min (l : list Z) : Z := fold_right Z.min 255 l.

(** ** Vectors *)

(** vector.rs:190 [to_v128x2], vector.rs:184 [from_v128x2], vector.rs:164 [x2] *)
Definition lo128 (a : list Z) := firstn 16 a.
Definition hi128 (a : list Z) := skipn 16 a.
Definition x2 (a : list Z) : list Z := a ++ a.

Definition obind {A B} (o : option A) (f : A -> option B) : option B :=
  match o with Some a => f a | None => None end.
Notation "'let?' x ':=' e 'in' k" := (obind e (fun x => k)) (at level 200, x name, e at level 100, k at level 200).

(** simd256.rs:29-55 [simd256_vop!] *)
Definition vop1 (f : list Z -> option (list Z)) (a : list Z) : option (list Z) :=
  let? r0 := f (lo128 a) in let? r1 := f (hi128 a) in Some (r0 ++ r1).
Definition vop2 (f : list Z -> list Z -> option (list Z)) (a b : list Z) : option (list Z) :=
  let? r0 := f (lo128 a) (lo128 b) in let? r1 := f (hi128 a) (hi128 b) in Some (r0 ++ r1).
Definition vop3 (f : list Z -> list Z -> list Z -> option (list Z)) (a b c : list Z) : option (list Z) :=
  let? r0 := f (lo128 a) (lo128 b) (lo128 c) in
  let? r1 := f (hi128 a) (hi128 b) (hi128 c) in Some (r0 ++ r1).

(** Operations that every SIMD set has natively on V128. *)
Definition all3 : list isa_id := [ISSE2; INEON; IWASM128].
Definition native1 (s : isa) (f : list Z -> list Z) (a : list Z) : option (list Z) := arm s all3 (f a) None.
Definition native2 (s : isa) (f : list Z -> list Z -> list Z) (a b : list Z) : option (list Z) :=
  arm s all3 (f a b) None.

(** V256 versions: native on AVX2, otherwise two V128 halves. *)
Definition wide1 (s : isa) (f : list Z -> list Z) (g : isa -> list Z -> option (list Z)) (a : list Z) :=
  arm s [IAVX2] (f a) (vop1 (g s) a).
Definition wide2 (s : isa) (f : list Z -> list Z -> list Z) (g : isa -> list Z -> list Z -> option (list Z)) (a b : list Z) :=
  arm s [IAVX2] (f a b) (vop2 (g s) a b).

(** unified.rs:33-97 [splat] for bytes, u16, u32, u64. The lane value is given by its little-endian
    bytes [v] (1, 2, 4 or 8 of them). On AVX2 the byte case is native; the other widths use the V128 splat twice. *)
Fixpoint repeat_list (n : nat) (v : list Z) : list Z :=
  match n with O => [] | S n' => v ++ repeat_list n' v end.
Definition splat128 (s : isa) (v : list Z) : option (list Z) :=
  arm s all3 (repeat_list (16 / length v) v) None.
Definition splat256 (s : isa) (v : list Z) : option (list Z) :=
  if matches_isa s [IAVX2] && (length v =? 1)%nat then Some (repeat_list 32 v)
  else let? c := splat128 s v in Some (x2 c).

(** simd128.rs:127, simd256.rs:131 *)
Definition v128_create_zero (s : isa) : option (list Z) := arm s all3 (repeat 0 16) None.
Definition v256_create_zero (s : isa) : option (list Z) :=
  arm s [IAVX2] (repeat 0 32) (let? z := v128_create_zero s in Some (x2 z)).

(** unified.rs:911, 950, 989, 1028 *)
Definition v128_and s := native2 s (map2 u8_and).
Definition v128_or s := native2 s (map2 u8_or).
Definition v128_xor s := native2 s (map2 u8_xor).
Definition v128_andnot s := native2 s (map2 u8_andnot).
Definition v256_and s := wide2 s (map2 u8_and) v128_and.
Definition v256_or s := wide2 s (map2 u8_or) v128_or.
Definition v256_xor s := wide2 s (map2 u8_xor) v128_xor.
Definition v256_andnot s := wide2 s (map2 u8_andnot) v128_andnot.

(** unified.rs:100 add, 179 sub, 258 eq (u8 lanes) *)
Definition u8x16_add s := native2 s (map2 u8_add).
Definition u8x32_add s := wide2 s (map2 u8_add) u8x16_add.
Definition u8x16_sub s := native2 s (map2 u8_sub).
Definition u8x32_sub s := wide2 s (map2 u8_sub) u8x16_sub.
Definition u8x16_eq s := native2 s (map2 u8_eq).
Definition u8x32_eq s := wide2 s (map2 u8_eq) u8x16_eq.
(** u32 lanes: unified.rs:100, 179, 258 *)
Definition u32x4_add s := native2 s (lanes32_2 u32_add).
Definition u32x8_add s := wide2 s (lanes32_2 u32_add) u32x4_add.
Definition u32x4_sub s := native2 s (lanes32_2 u32_sub).
Definition u32x8_sub s := wide2 s (lanes32_2 u32_sub) u32x4_sub.

(** unified.rs:481 add_sat, 566 sub_sat *)
Definition i8x16_add_sat s := native2 s (map2 i8_add_sat).
Definition i8x32_add_sat s := wide2 s (map2 i8_add_sat) i8x16_add_sat.
Definition u8x16_add_sat s := native2 s (map2 u8_add_sat).
Definition u8x32_add_sat s := wide2 s (map2 u8_add_sat) u8x16_add_sat.
Definition u8x16_sub_sat s := native2 s (map2 u8_sub_sat).
Definition u8x32_sub_sat s := wide2 s (map2 u8_sub_sat) u8x16_sub_sat.

(** unified.rs:650 max, 780 min. V128: u8 on all; u16/u32 need SSE4.1 on x86. *)
Definition u8x16_max s := native2 s (map2 u8_max).
Definition u8x32_max s := wide2 s (map2 u8_max) u8x16_max.
Definition u8x16_min s := native2 s (map2 u8_min).
Definition u8x32_min s := wide2 s (map2 u8_min) u8x16_min.
Definition u16x8_max (s : isa) (a b : list Z) : option (list Z) :=
  arm s [ISSE41; INEON; IWASM128] (lanes16_2 u16_max a b) None.
Definition u16x16_max s := wide2 s (lanes16_2 u16_max) u16x8_max.
Definition u32x4_max (s : isa) (a b : list Z) : option (list Z) :=
  arm s [ISSE41; INEON; IWASM128] (lanes32_2 u32_max a b) None.
Definition u32x8_max s := wide2 s (lanes32_2 u32_max) u32x4_max.

(** unified.rs:335-478 [lt]. Signed: native. Unsigned on AVX2: NOT (a == max(a,b)); unsigned u8 on SSE2 likewise;
    unsigned u16/u32 on SSE2: flip the sign bits, signed compare. *)
Definition i8x16_lt s := native2 s (map2 i8_lt).
Definition i8x32_lt s := wide2 s (map2 i8_lt) i8x16_lt.
Definition lt_u8_max (a b : list Z) : list Z :=
  map2 u8_xor (map2 u8_eq a (map2 u8_max a b)) (map2 u8_eq a a).
Definition u8x16_lt (s : isa) (a b : list Z) : option (list Z) :=
  arm s [ISSE2] (lt_u8_max a b) (arm s [INEON; IWASM128] (map2 u8_lt a b) None).
Definition u8x32_lt s := wide2 s lt_u8_max u8x16_lt.
Definition lt_u16_max (a b : list Z) : list Z :=
  map2 u8_xor (lanes16_2 u16_eq a (lanes16_2 u16_max a b)) (lanes16_2 u16_eq a a).
Definition flip16 (a : list Z) : list Z := map2 u8_xor a (repeat_list (length a / 2) [0; 128]).
Definition u16x8_lt (s : isa) (a b : list Z) : option (list Z) :=
  arm s [ISSE2] (lanes16_2 i16_lt (flip16 a) (flip16 b)) (arm s [INEON; IWASM128] (lanes16_2 u16_lt a b) None).
Definition u16x16_lt s := wide2 s lt_u16_max u16x8_lt.
Definition lt_u32_max (a b : list Z) : list Z :=
  map2 u8_xor (lanes32_2 u32_eq a (lanes32_2 u32_max a b)) (lanes32_2 u32_eq a a).
Definition flip32 (a : list Z) : list Z := map2 u8_xor a (repeat_list (length a / 4) [0; 0; 0; 128]).
Definition u32x4_lt (s : isa) (a b : list Z) : option (list Z) :=
  arm s [ISSE2] (lanes32_2 i32_lt (flip32 a) (flip32 b)) (arm s [INEON; IWASM128] (lanes32_2 u32_lt a b) None).
Definition u32x8_lt s := wide2 s lt_u32_max u32x4_lt.

(** simd128.rs:149, simd256.rs:142 [not] *)
Definition v128_not (s : isa) (a : list Z) : option (list Z) :=
  arm s [ISSE2] (map2 u8_xor a (map2 u8_eq a a)) (arm s [INEON; IWASM128] (map u8_not a) None).
Definition v256_not (s : isa) (a : list Z) : option (list Z) :=
  if matches_isa s [IAVX2] then (let? e := u8x32_eq s a a in v256_xor s a e) else vop1 (v128_not s) a.

(** simd128.rs:199-227, simd256.rs:178-190 [all_zero] *)
Definition is_zero_list (a : list Z) : bool := forallb (fun x => x =? 0) a.
Definition arm_all_zero (a : list Z) : bool :=
  match map2 u8_or (lo64 a) (hi64 a) with
  | [a0; a1; a2; a3; b0; b1; b2; b3] => Z.max (mk32 a0 a1 a2 a3) (mk32 b0 b1 b2 b3) =? 0
  | _ => false
  end.
Definition v128_all_zero (s : isa) (a : list Z) : option bool :=
  if matches_isa s [ISSE41] then Some (is_zero_list a)
  else if matches_isa s [INEON] && arch_arm s then Some (arm_all_zero a)
  else if matches_isa s [INEON] && arch_aarch64 s then Some (list_max a =? 0)
  else if matches_isa s [IWASM128] then Some (negb (existsb (fun x => negb (x =? 0)) a))
  else None.
Definition v256_all_zero (s : isa) (a : list Z) : option bool :=
  if matches_isa s [IAVX2] then Some (is_zero_list a)
  else let? o := v128_or s (lo128 a) (hi128 a) in v128_all_zero s o.

(** simd128.rs:351, simd256.rs:293 *)
Definition i16x8_mul_lo s := native2 s (lanes16_2 u16_mul_lo).
Definition i16x16_mul_lo s := wide2 s (lanes16_2 u16_mul_lo) i16x8_mul_lo.

(** simd128.rs:393-479, simd256.rs:315-356 shifts by a constant *)
Definition u16x8_shl (s : isa) (n : Z) := native1 s (lanes16 (u16_shl n)).
Definition u16x16_shl (s : isa) (n : Z) := wide1 s (lanes16 (u16_shl n)) (fun s => u16x8_shl s n).
Definition u16x8_shr (s : isa) (n : Z) := native1 s (lanes16 (u16_shr n)).
Definition u16x16_shr (s : isa) (n : Z) := wide1 s (lanes16 (u16_shr n)) (fun s => u16x8_shr s n).
Definition u32x4_shl (s : isa) (n : Z) := native1 s (lanes32 (u32_shl n)).
Definition u32x8_shl (s : isa) (n : Z) := wide1 s (lanes32 (u32_shl n)) (fun s => u32x4_shl s n).
Definition u32x4_shr (s : isa) (n : Z) := native1 s (lanes32 (u32_shr n)).
Definition u32x8_shr (s : isa) (n : Z) := wide1 s (lanes32 (u32_shr n)) (fun s => u32x4_shr s n).

(** simd128.rs:617-644 [u8x16_swizzle]; simd256.rs:464 [u8x16x2_swizzle] (per 128-bit half) *)
Definition pshufb (t i : list Z) : list Z := map (pshufb_lane t) i.
Definition tbl16 (t i : list Z) : list Z := map (tbl16_lane t) i.
Definition u8x16_swizzle (s : isa) (a b : list Z) : option (list Z) :=
  arm s [ISSSE3] (pshufb a b)
    (if matches_isa s [INEON] && arch_arm s
     then Some (tbl16 (lo64 a ++ hi64 a) (lo64 b) ++ tbl16 (lo64 a ++ hi64 a) (hi64 b))
     else if matches_isa s [INEON] && arch_aarch64 s then Some (tbl16 a b)
     else arm s [IWASM128] (tbl16 a b) None).
Definition vpshufb256 (a b : list Z) : list Z := pshufb (lo128 a) (lo128 b) ++ pshufb (hi128 a) (hi128 b).
Definition u8x16x2_swizzle s := wide2 s vpshufb256 u8x16_swizzle.

(** simd256.rs:505 [u8x32_swizzle]: aarch64 only *)
Definition u8x32_swizzle (s : isa) (a b : list Z) : option (list Z) :=
  if matches_isa s [ISSE2; IWASM128] then None
  else if matches_isa s [INEON] && arch_arm s then None
  else if matches_isa s [INEON] && arch_aarch64 s
  then Some (map (tbl32_lane a) (lo128 b) ++ map (tbl32_lane a) (hi128 b))
  else None.

(** simd128.rs:735, simd256.rs:542 *)
Definition u8x16_bitmask (s : isa) (a : list Z) : option Z :=
  if matches_isa s [ISSE2] then Some (movemask a)
  else if matches_isa s [INEON] then None
  else if matches_isa s [IWASM128] then Some (movemask a)
  else None.
Definition u8x32_bitmask (s : isa) (a : list Z) : option Z :=
  if matches_isa s [IAVX2] then Some (movemask a)
  else let? m0 := u8x16_bitmask s (lo128 a) in
       let? m1 := u8x16_bitmask s (hi128 a) in
       Some (Z.lor (m1 * 65536) m0).

(** simd128.rs:759, 779 *)
Definition u8x16_reduce_max (s : isa) (a : list Z) : option Z :=
  if matches_isa s [INEON] && arch_aarch64 s then Some (list_max a) else None.
Definition u8x16_reduce_min (s : isa) (a : list Z) : option Z :=
  if matches_isa s [INEON] && arch_aarch64 s then Some (list_min a) else None.

(** simd128.rs:704-731 [u8x16_any_zero] *)
Fixpoint pairwise_min (l : list Z) : list Z :=
  match l with a :: b :: r => Z.min a b :: pairwise_min r | _ => [] end.
Definition arm_any_zero (a : list Z) : bool :=
  negb (forallb (fun x => x =? 255) (map (fun x => mask8 (negb (Z.land x x =? 0))) (pairwise_min a))).
Definition u8x16_any_zero (s : isa) (a : list Z) : option bool :=
  if matches_isa s [ISSE2] then
    let? z := v128_create_zero s in
    let? e := u8x16_eq s a z in
    let? m := u8x16_bitmask s e in Some (negb (m =? 0))
  else if matches_isa s [INEON] && arch_arm s then Some (arm_any_zero a)
  else if matches_isa s [INEON] && arch_aarch64 s then Some (list_min a =? 0)
  else if matches_isa s [IWASM128] then Some (negb (forallb (fun x => negb (x =? 0)) a))
  else None.
(** simd256.rs:530 *)
Definition u8x32_any_zero (s : isa) (a : list Z) : option bool :=
  if matches_isa s [IAVX2] then
    let? z := v256_create_zero s in
    let? e := u8x32_eq s a z in
    let? m := u8x32_bitmask s e in Some (negb (m =? 0))
  else let? m := u8x16_min s (lo128 a) (hi128 a) in u8x16_any_zero s m.

(** simd128.rs:801, simd256.rs:571 [bsl] *)
Definition v128_bsl (s : isa) (a b c : list Z) : option (list Z) :=
  if matches_isa s [ISSE2; IWASM128] then
    let? x := v128_xor s b c in let? y := v128_and s x a in v128_xor s y c
  else arm s [INEON] (map3 u8_bsl a b c) None.
Definition v256_bsl (s : isa) (a b c : list Z) : option (list Z) :=
  if matches_isa s [INEON] then vop3 (v128_bsl s) a b c
  else let? x := v256_xor s b c in let? y := v256_and s x a in v256_xor s y c.

(** simd128.rs:817, 843 *)
Definition u8x16_zip_lo s := native2 s (fun a b => interleave (lo64 a) (lo64 b)).
Definition u8x16_zip_hi s := native2 s (fun a b => interleave (hi64 a) (hi64 b)).
(** simd128.rs:979, 1005 *)
Definition u64x2_zip_lo s := native2 s (fun a b => lo64 a ++ lo64 b).
Definition u64x2_zip_hi s := native2 s (fun a b => hi64 a ++ hi64 b).
(** simd256.rs:618, 629 [u8x16x2_zip_lo/hi]: per 128-bit half *)
Definition u8x16x2_zip_lo s :=
  wide2 s (fun a b => interleave (lo64 (lo128 a)) (lo64 (lo128 b)) ++ interleave (lo64 (hi128 a)) (lo64 (hi128 b)))
    u8x16_zip_lo.
Definition u8x16x2_zip_hi s :=
  wide2 s (fun a b => interleave (hi64 (lo128 a)) (hi64 (lo128 b)) ++ interleave (hi64 (hi128 a)) (hi64 (hi128 b)))
    u8x16_zip_hi.
(** simd256.rs:683-703 [u64x2x2_zip_lo/hi] *)
Definition u64x2x2_zip_lo s :=
  wide2 s (fun a b => (lo64 (lo128 a) ++ lo64 (lo128 b)) ++ (lo64 (hi128 a) ++ lo64 (hi128 b))) u64x2_zip_lo.

(** simd128.rs:1031, simd64.rs:21, simd256.rs:752 *)
Definition u8x16_unzip_even (s : isa) (a b : list Z) : option (list Z) :=
  if matches_isa s [ISSE2] then None else arm s [INEON; IWASM128] (evens a ++ evens b) None.
Definition u8x8_unzip_even (s : isa) (a b : list Z) : option (list Z) :=
  arm s [INEON] (evens a ++ evens b) None.
Definition u8x32_unzip_even (s : isa) (a b : list Z) : option (list Z) :=
  if matches_isa s [ISSE2] then None
  else let? ab := u8x16_unzip_even s (lo128 a) (hi128 a) in
       let? cd := u8x16_unzip_even s (lo128 b) (hi128 b) in Some (ab ++ cd).

(** simd256.rs:581 [u16x16_from_u8x16]: zero extension *)
Definition u16x16_from_u8x16 (s : isa) (a : list Z) : option (list Z) :=
  if matches_isa s [IAVX2] then Some (zero_extend a)
  else if matches_isa s [ISSE2] then
    let? z := v128_create_zero s in
    let? lo := u8x16_zip_lo s a z in
    let? hi := u8x16_zip_hi s a z in Some (lo ++ hi)
  else arm s [INEON; IWASM128] (zero_extend (lo64 a) ++ zero_extend (hi64 a)) None.

(** simd256.rs:706, 721 *)
Definition v128x2_zip_lo (s : isa) (a b : list Z) : option (list Z) :=
  arm s [IAVX2] (lo128 a ++ lo128 b) (arm s all3 (lo128 a ++ lo128 b) None).
Definition v128x2_zip_hi (s : isa) (a b : list Z) : option (list Z) :=
  arm s [IAVX2] (hi128 a ++ hi128 b) (arm s all3 (hi128 a ++ hi128 b) None).

(** simd256.rs:736 [u64x4_permute] with the immediate 0b11_01_10_00, i.e. quarters 0,2,1,3 *)
Definition quarter (k : nat) (a : list Z) : list Z := firstn 8 (skipn (8 * k) a).
Definition u64x4_permute_0213 (s : isa) (a : list Z) : option (list Z) :=
  arm s [IAVX2] (quarter 0 a ++ quarter 2 a ++ quarter 1 a ++ quarter 3 a) None.

(** simd256.rs:778 *)
Definition u64x4_unzip_even (s : isa) (a b : list Z) : option (list Z) :=
  if matches_isa s [IAVX2] then
    let? acbd := u64x2x2_zip_lo s a b in u64x4_permute_0213 s acbd
  else let? ab := u64x2_zip_lo s (lo128 a) (hi128 a) in
       let? cd := u64x2_zip_lo s (lo128 b) (hi128 b) in Some (ab ++ cd).

(** simd128.rs:1085, simd256.rs:808 *)
Definition u16x8_mul_hi (s : isa) (a b : list Z) : option (list Z) := arm s [ISSE2] (lanes16_2 u16_mul_hi a b) None.
Definition u16x16_mul_hi s := wide2 s (lanes16_2 u16_mul_hi) u16x8_mul_hi.
(** simd128.rs:1117, simd256.rs:830 *)
Definition i16x8_maddubs (s : isa) (a b : list Z) : option (list Z) := arm s [ISSSE3] (lanes_maddubs a b) None.
Definition i16x16_maddubs s := wide2 s lanes_maddubs i16x8_maddubs.
(** simd128.rs:1167, simd256.rs:871 *)
Definition i16x8_madd (s : isa) (a b : list Z) : option (list Z) := arm s [ISSE2] (lanes_madd a b) None.
Definition i16x16_madd s := wide2 s lanes_madd i16x8_madd.

(** simd128.rs:1133 [u16x8_blend::<0x33>]: 16-bit lanes 0,1,4,5 come from b;
    simd256.rs:841 [u32x8_blend::<0x55>]: 32-bit lanes 0,2,4,6 come from b.
    Both take the immediate; bit i selects lane i from b. *)
Fixpoint blend16 (imm : Z) (a b : list Z) : list Z :=
  match a, b with
  | a0 :: a1 :: a', b0 :: b1 :: b' =>
      (if Z.odd imm then [b0; b1] else [a0; a1]) ++ blend16 (imm / 2) a' b'
  | _, _ => []
  end.
Fixpoint blend32 (imm : Z) (a b : list Z) : list Z :=
  match a, b with
  | a0 :: a1 :: a2 :: a3 :: a', b0 :: b1 :: b2 :: b3 :: b' =>
      (if Z.odd imm then [b0; b1; b2; b3] else [a0; a1; a2; a3]) ++ blend32 (imm / 2) a' b'
  | _, _ => []
  end.
Definition u16x8_blend (s : isa) (imm : Z) (a b : list Z) : option (list Z) := arm s [ISSE41] (blend16 imm a b) None.
Definition u32x8_blend (s : isa) (imm : Z) (a b : list Z) : option (list Z) := arm s [IAVX2] (blend32 imm a b) None.

(** simd128.rs:1151, simd256.rs:857 *)
Definition u8x16_blendv (s : isa) (a b c : list Z) : option (list Z) := arm s [ISSE41] (map3 u8_blendv a b c) None.
Definition u8x32_blendv (s : isa) (a b c : list Z) : option (list Z) :=
  if matches_isa s [IAVX2] then Some (map3 u8_blendv a b c)
  else if matches_isa s [INEON; IWASM128] then None
  else vop3 (u8x16_blendv s) a b c.

(** simd128.rs:1183, simd256.rs:882 *)
Definition u8x16_avgr s := native2 s (map2 u8_avgr).
Definition u8x32_avgr s := wide2 s (map2 u8_avgr) u8x16_avgr.

(** simd128.rs:1216 *)
Definition i16x8_packus (s : isa) (a b : list Z) : option (list Z) :=
  arm s [ISSE2] (lanes_packus a ++ lanes_packus b) None.

(** simd128.rs:648-698, simd256.rs:475-502 byte swaps; shuffles from bswap.rs:5-24 *)
Definition SHUFFLE_U16X8 : list Z := [1; 0; 3; 2; 5; 4; 7; 6; 9; 8; 11; 10; 13; 12; 15; 14].
Definition SHUFFLE_U32X4 : list Z := [3; 2; 1; 0; 7; 6; 5; 4; 11; 10; 9; 8; 15; 14; 13; 12].
Definition SHUFFLE_U64X2 : list Z := [7; 6; 5; 4; 3; 2; 1; 0; 15; 14; 13; 12; 11; 10; 9; 8].
(** vrev16q_u8 / vrev32q_u8 / vrev64q_u8: reverse the bytes of every k-byte element *)
Fixpoint rev_elems (fuel k : nat) (a : list Z) : list Z :=
  match fuel with
  | O => []
  | S f => rev (firstn k a) ++ rev_elems f k (skipn k a)
  end.
Definition bswap128 (k : nat) (shuffle : list Z) (s : isa) (a : list Z) : option (list Z) :=
  if matches_isa s [ISSE41; IWASM128] then u8x16_swizzle s a shuffle
  else arm s [INEON] (rev_elems (16 / k) k a) None.
Definition bswap256 (k : nat) (shuffle : list Z) (s : isa) (a : list Z) : option (list Z) :=
  if matches_isa s [IAVX2] then u8x16x2_swizzle s a (x2 shuffle)
  else vop1 (bswap128 k shuffle s) a.
Definition u16x8_bswap := bswap128 2 SHUFFLE_U16X8.
Definition u32x4_bswap := bswap128 4 SHUFFLE_U32X4.
Definition u64x2_bswap := bswap128 8 SHUFFLE_U64X2.
Definition u16x16_bswap := bswap256 2 SHUFFLE_U16X8.
Definition u32x8_bswap := bswap256 4 SHUFFLE_U32X4.
Definition u64x4_bswap := bswap256 8 SHUFFLE_U64X2.

(** ** mask.rs *)

(** mask.rs:8, 24 *)
Definition mask8x16_all (s : isa) (x : list Z) : option bool :=
  if matches_isa s [ISSE2; IWASM128] then let? m := u8x16_bitmask s x in Some (m =? 65535)
  else if matches_isa s [INEON] then
    if arch_arm s then let? z := u8x16_any_zero s x in Some (negb z)
    else if arch_aarch64 s then let? r := u8x16_reduce_min s x in Some (negb (r =? 0))
    else None
  else None.
Definition mask8x32_all (s : isa) (x : list Z) : option bool :=
  if matches_isa s [IAVX2] then let? m := u8x32_bitmask s x in Some (m =? 4294967295)
  else if matches_isa s [ISSE2; IWASM128; INEON] then
    let? y := v128_and s (lo128 x) (hi128 x) in mask8x16_all s y
  else None.
(** mask.rs:37, 48 *)
Definition mask8x16_any (s : isa) (x : list Z) : option bool :=
  if matches_isa s [ISSE2; IWASM128] then let? m := u8x16_bitmask s x in Some (negb (m =? 0))
  else if matches_isa s [INEON] then let? z := v128_all_zero s x in Some (negb z)
  else None.
Definition mask8x32_any (s : isa) (x : list Z) : option bool :=
  if matches_isa s [IAVX2] then let? m := u8x32_bitmask s x in Some (negb (m =? 0))
  else if matches_isa s [ISSE2; IWASM128; INEON] then
    let? y := v128_or s (lo128 x) (hi128 x) in mask8x16_any s y
  else None.
(** mask.rs:61, 77 *)
Definition u8x16_highbit_all (s : isa) (x : list Z) : option bool :=
  if matches_isa s [ISSE2; IWASM128] then let? m := u8x16_bitmask s x in Some (m =? 65535)
  else if matches_isa s [INEON] then
    if arch_arm s then
      let? z := v128_create_zero s in let? l := i8x16_lt s x z in mask8x16_all s l
    else if arch_aarch64 s then let? r := u8x16_reduce_min s x in Some (128 <=? r)
    else None
  else None.
Definition u8x32_highbit_all (s : isa) (x : list Z) : option bool :=
  if matches_isa s [IAVX2] then let? m := u8x32_bitmask s x in Some (m =? 4294967295)
  else if matches_isa s [ISSE2; IWASM128; INEON] then
    let? y := v128_and s (lo128 x) (hi128 x) in u8x16_highbit_all s y
  else None.
(** mask.rs:90, 106 *)
Definition u8x16_highbit_any (s : isa) (x : list Z) : option bool :=
  if matches_isa s [ISSE2; IWASM128] then let? m := u8x16_bitmask s x in Some (negb (m =? 0))
  else if matches_isa s [INEON] then
    if arch_arm s then
      let? z := v128_create_zero s in let? l := i8x16_lt s x z in mask8x16_any s l
    else if arch_aarch64 s then let? r := u8x16_reduce_max s x in Some (128 <=? r)
    else None
  else None.
Definition u8x32_highbit_any (s : isa) (x : list Z) : option bool :=
  if matches_isa s [IAVX2] then let? m := u8x32_bitmask s x in Some (negb (m =? 0))
  else if matches_isa s [ISSE2; IWASM128; INEON] then
    let? y := v128_or s (lo128 x) (hi128 x) in u8x16_highbit_any s y
  else None.

(** ** scalable.rs: operations generic in the vector width *)
Inductive width := W128 | W256.
Definition vlen (w : width) : nat := match w with W128 => 16 | W256 => 32 end.
Definition pick {A} (w : width) (a b : A) : A := match w with W128 => a | W256 => b end.

Definition u8xn_splat (w : width) (s : isa) (x : Z) := pick w (splat128 s [x]) (splat256 s [x]).
Definition xn_and w s := pick w (v128_and s) (v256_and s).
Definition xn_or w s := pick w (v128_or s) (v256_or s).
Definition xn_xor w s := pick w (v128_xor s) (v256_xor s).
Definition xn_andnot w s := pick w (v128_andnot s) (v256_andnot s).
Definition u8xn_add w s := pick w (u8x16_add s) (u8x32_add s).
Definition u8xn_sub w s := pick w (u8x16_sub s) (u8x32_sub s).
Definition u8xn_sub_sat w s := pick w (u8x16_sub_sat s) (u8x32_sub_sat s).
Definition i8xn_add_sat w s := pick w (i8x16_add_sat s) (i8x32_add_sat s).
Definition u8xn_eq w s := pick w (u8x16_eq s) (u8x32_eq s).
Definition i8xn_lt w s := pick w (i8x16_lt s) (i8x32_lt s).
Definition u16xn_shl w s n := pick w (u16x8_shl s n) (u16x16_shl s n).
Definition u16xn_shr w s n := pick w (u16x8_shr s n) (u16x16_shr s n).
Definition u32xn_shr w s n := pick w (u32x4_shr s n) (u32x8_shr s n).
Definition u8x16xn_swizzle w s := pick w (u8x16_swizzle s) (u8x16x2_swizzle s).
Definition u8xn_avgr w s := pick w (u8x16_avgr s) (u8x32_avgr s).
Definition mask8xn_all w s := pick w (mask8x16_all s) (mask8x32_all s).
Definition mask8xn_any w s := pick w (mask8x16_any s) (mask8x32_any s).
Definition u8xn_highbit_any w s := pick w (u8x16_highbit_any s) (u8x32_highbit_any s).

(** table.rs:6-21 [u8x16xn_lookup] *)
Definition u8x16xn_lookup (w : width) (s : isa) (lut x : list Z) : option (list Z) :=
  if matches_isa s [ISSSE3] then u8x16xn_swizzle w s lut x
  else if matches_isa s [INEON; IWASM128] then
    let? c := u8xn_splat w s 143 in
    let? idx := xn_and w s x c in u8x16xn_swizzle w s lut idx
  else None.
