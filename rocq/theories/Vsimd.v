(** Model of the rest of vsimd: the type-generic operations of unified.rs for every integer lane type
    and both vector widths, the remaining operations of simd128.rs and simd256.rs, and simulation.rs.

    A vector is the list of its bytes in memory order; [None] is [unreachable!()]/[unimplemented!()].
    Each row of a table below is one [if is_pod_type!(..) { return <instruction> }] of the source, in source order.
    The f32/f64 rows of max and min are in Float.v. *)
From Coq Require Import ZArith List Bool.
From Verif Require Import Bytes Isa Ints Simd VsimdSpec.
Import ListNotations.
Open Scope Z_scope.

(** ** Instructions. [k] is the lane size in bytes, [L] the vector size in bytes. *)

Definition lane_card (k : nat) : Z := 256 ^ Z.of_nat k.
(** two's complement reading of a lane *)
Definition sgn (k : nat) (x : Z) : Z := if x <? lane_card k / 2 then x else x - lane_card k.

Fixpoint each_lane (n k : nat) (f : Z -> Z) (a : list Z) : list Z :=
  match n with
  | O => []
  | S n' => le_bytes k (f (of_le (firstn k a))) ++ each_lane n' k f (skipn k a)
  end.
Fixpoint each_lane2 (n k : nat) (f : Z -> Z -> Z) (a b : list Z) : list Z :=
  match n with
  | O => []
  | S n' => le_bytes k (f (of_le (firstn k a)) (of_le (firstn k b))) ++ each_lane2 n' k f (skipn k a) (skipn k b)
  end.
Definition on_lanes (L k : nat) (f : Z -> Z) := each_lane (L / k) k f.
Definition on_lanes2 (L k : nat) (f : Z -> Z -> Z) := each_lane2 (L / k) k f.

(** _mm_add_epi8..64, _mm256_add_epi8..64, vaddq_u8..64, u8x16_add..u64x2_add; likewise below *)
Definition vadd L k := on_lanes2 L k (fun x y => (x + y) mod lane_card k).
Definition vsub L k := on_lanes2 L k (fun x y => (x - y) mod lane_card k).
Definition ones (k : nat) (b : bool) : Z := if b then lane_card k - 1 else 0.
Definition vceq L k := on_lanes2 L k (fun x y => ones k (x =? y)).
(** signed greater: _mm_cmpgt_epi*, _mm256_cmpgt_epi* *)
Definition vcgt_s L k := on_lanes2 L k (fun x y => ones k (sgn k y <? sgn k x)).
(** signed and unsigned less: _mm_cmplt_epi*, vcltq_s*, vcltq_u*, i*_lt, u*_lt *)
Definition vclt_s L k := on_lanes2 L k (fun x y => ones k (sgn k x <? sgn k y)).
Definition vclt_u L k := on_lanes2 L k (fun x y => ones k (x <? y)).
(** saturating: _mm_adds_epi*, vqaddq_s*, .. / _mm_adds_epu*, vqaddq_u*, .. *)
Definition clamp_s (k : nat) (z : Z) : Z := Z.max (- (lane_card k / 2)) (Z.min (lane_card k / 2 - 1) z) mod lane_card k.
Definition vqadd_s L k := on_lanes2 L k (fun x y => clamp_s k (sgn k x + sgn k y)).
Definition vqadd_u L k := on_lanes2 L k (fun x y => Z.min (lane_card k - 1) (x + y)).
Definition vqsub_s L k := on_lanes2 L k (fun x y => clamp_s k (sgn k x - sgn k y)).
Definition vqsub_u L k := on_lanes2 L k (fun x y => Z.max 0 (x - y)).
Definition vmax_s L k := on_lanes2 L k (fun x y => if sgn k x <? sgn k y then y else x).
Definition vmax_u L k := on_lanes2 L k (fun x y => if x <? y then y else x).
Definition vmin_s L k := on_lanes2 L k (fun x y => if sgn k x <? sgn k y then x else y).
Definition vmin_u L k := on_lanes2 L k (fun x y => if x <? y then x else y).
Definition vmul_lo L k := on_lanes2 L k (fun x y => (x * y) mod lane_card k).
(** high half of the product: _mm_mulhi_epu16 / _mm_mulhi_epi16 *)
Definition vmul_hi_u L k := on_lanes2 L k (fun x y => (x * y) / lane_card k).
Definition vmul_hi_s L k := on_lanes2 L k (fun x y => ((sgn k x * sgn k y) / lane_card k) mod lane_card k).
(** bitwise: the lane size does not matter *)
Definition vxor := map2 u8_xor.
(** broadcast of a lane given by its bits: _mm_set1_epi*, vld1q_dup_u*, u*_splat *)
Definition vset1 (L k : nat) (x : Z) : list Z := repeat_list (L / k) (le_bytes k x).

(** ** unified.rs *)

(** [is_pod_type!(T, A | B | ..)], pod.rs:55-67 *)
Definition elem_eqb (a b : elem) : bool :=
  match a, b with
  | U8, U8 | U16, U16 | U32, U32 | U64, U64 | I8, I8 | I16, I16 | I32, I32 | I64, I64 => true
  | _, _ => false
  end.
Definition is_pod_type (t : elem) (ts : list elem) : bool := existsb (elem_eqb t) ts.

(** A row: when it is compiled and taken, for which lane types, and the instruction it returns. *)
Definition row (I : Type) := ((isa -> bool) * list elem * I)%type.
Definition on (us : list isa_id) : isa -> bool := fun s => matches_isa s us.
(** inside [if matches_isa!(S, NEON)], under [#[cfg(target_arch = "aarch64")]] *)
Definition on_a64 : isa -> bool := fun s => matches_isa s [INEON] && arch_aarch64 s.
Fixpoint select {I} (s : isa) (t : elem) (rows : list (row I)) : option I :=
  match rows with
  | [] => None
  | (g, ts, ins) :: r => if g s && is_pod_type t ts then Some ins else select s t r
  end.

Definition binop := list Z -> list Z -> list Z.
Definition run128 (rows : list (row binop)) (s : isa) (t : elem) (a b : list Z) : option (list Z) :=
  match select s t rows with Some ins => Some (ins a b) | None => None end.
(** V = V256: the AVX2 rows, else split in two V128 and join. V = V128: the V128 rows, else unreachable. *)
Definition unified (avx2 rows : list (row binop)) (w : width) (s : isa) (t : elem) (a b : list Z) : option (list Z) :=
  match w with
  | W256 => match select s t avx2 with
            | Some ins => Some (ins a b)
            | None => vop2 (run128 rows s t) a b
            end
  | W128 => run128 rows s t a b
  end.

Definition b8 := [U8; I8].  Definition b16 := [U16; I16].  Definition b32 := [U32; I32].  Definition b64 := [U64; I64].

(** unified.rs:33-97 [splat]; the argument is the bit pattern of the value *)
Definition splat_avx2 : list (row (Z -> list Z)) := [(on [IAVX2], b8, vset1 32 1)].
Definition splat_rows : list (row (Z -> list Z)) :=
  [(on [ISSE2], b8, vset1 16 1); (on [ISSE2], b16, vset1 16 2); (on [ISSE2], b32, vset1 16 4); (on [ISSE2], b64, vset1 16 8);
   (on [INEON], b8, vset1 16 1); (on [INEON], b16, vset1 16 2); (on [INEON], b32, vset1 16 4); (on [INEON], b64, vset1 16 8);
   (on [IWASM128], b8, vset1 16 1); (on [IWASM128], b16, vset1 16 2); (on [IWASM128], b32, vset1 16 4); (on [IWASM128], b64, vset1 16 8)].
Definition u_splat (w : width) (s : isa) (t : elem) (x : Z) : option (list Z) :=
  match w with
  | W256 => match select s t splat_avx2 with
            | Some ins => Some (ins x)
            | None => match select s t splat_rows with Some ins => Some (x2 (ins x)) | None => None end
            end
  | W128 => match select s t splat_rows with Some ins => Some (ins x) | None => None end
  end.

(** unified.rs:100-176 [add] *)
Definition add_avx2 : list (row binop) :=
  [(on [IAVX2], b8, vadd 32 1); (on [IAVX2], b16, vadd 32 2); (on [IAVX2], b32, vadd 32 4); (on [IAVX2], b64, vadd 32 8)].
Definition add_rows : list (row binop) :=
  [(on [ISSE2], b8, vadd 16 1); (on [ISSE2], b16, vadd 16 2); (on [ISSE2], b32, vadd 16 4); (on [ISSE2], b64, vadd 16 8);
   (on [INEON], b8, vadd 16 1); (on [INEON], b16, vadd 16 2); (on [INEON], b32, vadd 16 4); (on [INEON], b64, vadd 16 8);
   (on [IWASM128], b8, vadd 16 1); (on [IWASM128], b16, vadd 16 2); (on [IWASM128], b32, vadd 16 4); (on [IWASM128], b64, vadd 16 8)].
Definition u_add := unified add_avx2 add_rows.

(** unified.rs:179-255 [sub] *)
Definition sub_avx2 : list (row binop) :=
  [(on [IAVX2], b8, vsub 32 1); (on [IAVX2], b16, vsub 32 2); (on [IAVX2], b32, vsub 32 4); (on [IAVX2], b64, vsub 32 8)].
Definition sub_rows : list (row binop) :=
  [(on [ISSE2], b8, vsub 16 1); (on [ISSE2], b16, vsub 16 2); (on [ISSE2], b32, vsub 16 4); (on [ISSE2], b64, vsub 16 8);
   (on [INEON], b8, vsub 16 1); (on [INEON], b16, vsub 16 2); (on [INEON], b32, vsub 16 4); (on [INEON], b64, vsub 16 8);
   (on [IWASM128], b8, vsub 16 1); (on [IWASM128], b16, vsub 16 2); (on [IWASM128], b32, vsub 16 4); (on [IWASM128], b64, vsub 16 8)].
Definition u_sub := unified sub_avx2 sub_rows.

(** unified.rs:258-332 [eq]; no 64-bit row on SSE2, and on NEON only for aarch64 *)
Definition eq_avx2 : list (row binop) :=
  [(on [IAVX2], b8, vceq 32 1); (on [IAVX2], b16, vceq 32 2); (on [IAVX2], b32, vceq 32 4); (on [IAVX2], b64, vceq 32 8)].
Definition eq_rows : list (row binop) :=
  [(on [ISSE2], b8, vceq 16 1); (on [ISSE2], b16, vceq 16 2); (on [ISSE2], b32, vceq 16 4);
   (on [INEON], b8, vceq 16 1); (on [INEON], b16, vceq 16 2); (on [INEON], b32, vceq 16 4); (on_a64, b64, vceq 16 8);
   (on [IWASM128], b8, vceq 16 1); (on [IWASM128], b16, vceq 16 2); (on [IWASM128], b32, vceq 16 4); (on [IWASM128], b64, vceq 16 8)].
Definition u_eq := unified eq_avx2 eq_rows.

(** unified.rs:335-478 [lt] *)
(** not (a == max(a, b)) *)
Definition lt_by_max L k (a b : list Z) : list Z := vxor (vceq L k a (vmax_u L k a b)) (vceq L k a a).
(** flip the top bit of every lane, then compare signed; i16::MIN = 0x8000, i32::MIN = 0x8000_0000 *)
Definition lt_by_flip k (a b : list Z) : list Z :=
  let m := vset1 16 k (lane_card k / 2) in
  vclt_s 16 k (vxor a m) (vxor b m).
Definition lt_avx2 : list (row binop) :=
  [(on [IAVX2], [I8], fun a b => vcgt_s 32 1 b a); (on [IAVX2], [I16], fun a b => vcgt_s 32 2 b a);
   (on [IAVX2], [I32], fun a b => vcgt_s 32 4 b a); (on [IAVX2], [I64], fun a b => vcgt_s 32 8 b a);
   (on [IAVX2], [U8], lt_by_max 32 1); (on [IAVX2], [U16], lt_by_max 32 2); (on [IAVX2], [U32], lt_by_max 32 4)].
Definition lt_rows : list (row binop) :=
  [(on [ISSE2], [I8], vclt_s 16 1); (on [ISSE2], [I16], vclt_s 16 2); (on [ISSE2], [I32], vclt_s 16 4);
   (on [ISSE2], [U8], lt_by_max 16 1); (on [ISSE2], [U16], lt_by_flip 2); (on [ISSE2], [U32], lt_by_flip 4);
   (on [INEON], [I8], vclt_s 16 1); (on [INEON], [I16], vclt_s 16 2); (on [INEON], [I32], vclt_s 16 4); (on_a64, [I64], vclt_s 16 8);
   (on [INEON], [U8], vclt_u 16 1); (on [INEON], [U16], vclt_u 16 2); (on [INEON], [U32], vclt_u 16 4); (on_a64, [U64], vclt_u 16 8);
   (on [IWASM128], [I8], vclt_s 16 1); (on [IWASM128], [I16], vclt_s 16 2); (on [IWASM128], [I32], vclt_s 16 4);
   (on [IWASM128], [I64], vclt_s 16 8);
   (on [IWASM128], [U8], vclt_u 16 1); (on [IWASM128], [U16], vclt_u 16 2); (on [IWASM128], [U32], vclt_u 16 4)].
Definition u_lt := unified lt_avx2 lt_rows.

(** unified.rs:481-563 [add_sat] *)
Definition add_sat_avx2 : list (row binop) :=
  [(on [IAVX2], [I8], vqadd_s 32 1); (on [IAVX2], [I16], vqadd_s 32 2); (on [IAVX2], [U8], vqadd_u 32 1); (on [IAVX2], [U16], vqadd_u 32 2)].
Definition add_sat_rows : list (row binop) :=
  [(on [ISSE2], [I8], vqadd_s 16 1); (on [ISSE2], [I16], vqadd_s 16 2); (on [ISSE2], [U8], vqadd_u 16 1); (on [ISSE2], [U16], vqadd_u 16 2);
   (on [INEON], [I8], vqadd_s 16 1); (on [INEON], [I16], vqadd_s 16 2); (on [INEON], [I32], vqadd_s 16 4);
   (on [INEON], [U8], vqadd_u 16 1); (on [INEON], [U16], vqadd_u 16 2); (on [INEON], [U32], vqadd_u 16 4);
   (on [IWASM128], [I8], vqadd_s 16 1); (on [IWASM128], [I16], vqadd_s 16 2); (on [IWASM128], [U8], vqadd_u 16 1); (on [IWASM128], [U16], vqadd_u 16 2)].
Definition u_add_sat := unified add_sat_avx2 add_sat_rows.

(** unified.rs:566-648 [sub_sat] *)
Definition sub_sat_avx2 : list (row binop) :=
  [(on [IAVX2], [I8], vqsub_s 32 1); (on [IAVX2], [I16], vqsub_s 32 2); (on [IAVX2], [U8], vqsub_u 32 1); (on [IAVX2], [U16], vqsub_u 32 2)].
Definition sub_sat_rows : list (row binop) :=
  [(on [ISSE2], [I8], vqsub_s 16 1); (on [ISSE2], [I16], vqsub_s 16 2); (on [ISSE2], [U8], vqsub_u 16 1); (on [ISSE2], [U16], vqsub_u 16 2);
   (on [INEON], [I8], vqsub_s 16 1); (on [INEON], [I16], vqsub_s 16 2); (on [INEON], [I32], vqsub_s 16 4);
   (on [INEON], [U8], vqsub_u 16 1); (on [INEON], [U16], vqsub_u 16 2); (on [INEON], [U32], vqsub_u 16 4);
   (on [IWASM128], [I8], vqsub_s 16 1); (on [IWASM128], [I16], vqsub_s 16 2); (on [IWASM128], [U8], vqsub_u 16 1); (on [IWASM128], [U16], vqsub_u 16 2)].
Definition u_sub_sat := unified sub_sat_avx2 sub_sat_rows.

(** unified.rs:650-777 [max], 780-908 [min]: on x86 i8, i32, u16, u32 need SSE4.1, i16 and u8 need SSE2 *)
Definition max_avx2 : list (row binop) :=
  [(on [IAVX2], [I8], vmax_s 32 1); (on [IAVX2], [I16], vmax_s 32 2); (on [IAVX2], [I32], vmax_s 32 4);
   (on [IAVX2], [U8], vmax_u 32 1); (on [IAVX2], [U16], vmax_u 32 2); (on [IAVX2], [U32], vmax_u 32 4)].
Definition max_rows : list (row binop) :=
  [(on [ISSE41], [I8], vmax_s 16 1); (on [ISSE41], [I32], vmax_s 16 4); (on [ISSE41], [U16], vmax_u 16 2); (on [ISSE41], [U32], vmax_u 16 4);
   (on [ISSE2], [I16], vmax_s 16 2); (on [ISSE2], [U8], vmax_u 16 1);
   (on [INEON], [I8], vmax_s 16 1); (on [INEON], [I16], vmax_s 16 2); (on [INEON], [I32], vmax_s 16 4);
   (on [INEON], [U8], vmax_u 16 1); (on [INEON], [U16], vmax_u 16 2); (on [INEON], [U32], vmax_u 16 4);
   (on [IWASM128], [I8], vmax_s 16 1); (on [IWASM128], [I16], vmax_s 16 2); (on [IWASM128], [I32], vmax_s 16 4);
   (on [IWASM128], [U8], vmax_u 16 1); (on [IWASM128], [U16], vmax_u 16 2); (on [IWASM128], [U32], vmax_u 16 4)].
Definition u_max := unified max_avx2 max_rows.
Definition min_avx2 : list (row binop) :=
  [(on [IAVX2], [I8], vmin_s 32 1); (on [IAVX2], [I16], vmin_s 32 2); (on [IAVX2], [I32], vmin_s 32 4);
   (on [IAVX2], [U8], vmin_u 32 1); (on [IAVX2], [U16], vmin_u 32 2); (on [IAVX2], [U32], vmin_u 32 4)].
Definition min_rows : list (row binop) :=
  [(on [ISSE41], [I8], vmin_s 16 1); (on [ISSE41], [I32], vmin_s 16 4); (on [ISSE41], [U16], vmin_u 16 2); (on [ISSE41], [U32], vmin_u 16 4);
   (on [ISSE2], [I16], vmin_s 16 2); (on [ISSE2], [U8], vmin_u 16 1);
   (on [INEON], [I8], vmin_s 16 1); (on [INEON], [I16], vmin_s 16 2); (on [INEON], [I32], vmin_s 16 4);
   (on [INEON], [U8], vmin_u 16 1); (on [INEON], [U16], vmin_u 16 2); (on [INEON], [U32], vmin_u 16 4);
   (on [IWASM128], [I8], vmin_s 16 1); (on [IWASM128], [I16], vmin_s 16 2); (on [IWASM128], [I32], vmin_s 16 4);
   (on [IWASM128], [U8], vmin_u 16 1); (on [IWASM128], [U16], vmin_u 16 2); (on [IWASM128], [U32], vmin_u 16 4)].
Definition u_min := unified min_avx2 min_rows.

(** ** simd128.rs, simd256.rs: multiplication *)

(** Functions of the form: one V128 table; V256 = one AVX2 instruction, else [simd256_vop!]. *)
Definition widened (f256 : binop) (g : isa -> list Z -> list Z -> option (list Z)) (s : isa) (a b : list Z) : option (list Z) :=
  arm s [IAVX2] (f256 a b) (vop2 (g s) a b).
(** simd128.rs:371-388, simd256.rs:304-312 *)
Definition i32x4_mul_lo (s : isa) (a b : list Z) : option (list Z) := arm s [ISSE41; INEON; IWASM128] (vmul_lo 16 4 a b) None.
Definition i32x8_mul_lo := widened (vmul_lo 32 4) i32x4_mul_lo.
(** simd128.rs:1101-1113, simd256.rs:819-827 *)
Definition i16x8_mul_hi (s : isa) (a b : list Z) : option (list Z) := arm s [ISSE2] (vmul_hi_s 16 2 a b) None.
Definition i16x16_mul_hi := widened (vmul_hi_s 32 2) i16x8_mul_hi.

(** ** Shifts by a constant: simd128.rs:392-480, simd256.rs:315-356.
    [IMM8] is a compile-time constant; the x86 intrinsics accept 0..255 and give 0 from the lane width on,
    the NEON intrinsics accept only 0..bits-1 (left) or 1..bits (right) at compile time,
    the wasm intrinsics reduce the count modulo the lane width. *)
Definition lane_bits (k : nat) : Z := 8 * Z.of_nat k.
Inductive dir := Left | Right.
Definition shift_bits (d : dir) (k : nat) (n x : Z) : Z :=
  match d with Left => (x * 2 ^ n) mod lane_card k | Right => x / 2 ^ n end.
(** does [op::<IMM8>] pass the static assertion of the intrinsic? *)
Definition shift_compiles (s : isa) (d : dir) (k : nat) (n : Z) : bool :=
  if matches_isa s [ISSE2] then (0 <=? n) && (n <=? 255)
  else if matches_isa s [INEON] then
    match d with Left => (0 <=? n) && (n <=? lane_bits k - 1) | Right => (1 <=? n) && (n <=? lane_bits k) end
  else true.
Definition x86_shift d L k n := on_lanes L k (fun x => if lane_bits k <=? n then 0 else shift_bits d k n x).
Definition neon_shift d L k n := on_lanes L k (fun x => shift_bits d k n x).
(** [IMM8 as u32] of a negative i32 is its value modulo 2^32 *)
Definition wasm_shift d L k n := on_lanes L k (fun x => shift_bits d k ((n mod 4294967296) mod lane_bits k) x).
Definition shift128 (d : dir) (k : nat) (n : Z) (s : isa) (a : list Z) : option (list Z) :=
  if matches_isa s [ISSE2] then Some (x86_shift d 16 k n a)
  else if matches_isa s [INEON] then Some (neon_shift d 16 k n a)
  else if matches_isa s [IWASM128] then Some (wasm_shift d 16 k n a)
  else None.
Definition shift256 (d : dir) (k : nat) (n : Z) (s : isa) (a : list Z) : option (list Z) :=
  arm s [IAVX2] (x86_shift d 32 k n a) (vop1 (shift128 d k n s) a).
Definition shift (w : width) (d : dir) (k : nat) (n : Z) (s : isa) (a : list Z) : option (list Z) :=
  match w with W128 => shift128 d k n s a | W256 => shift256 d k n s a end.

(** ** Moving lanes *)

(** the bytes of lane [i] *)
Definition lane_at (k i : nat) (a : list Z) : list Z := firstn k (skipn (k * i) a).
(** _mm_unpacklo/hi_epi*, vzip1q/vzip2q_u*, vzipq_u*.0/.1 *)
Definition unpack (k from : nat) (a b : list Z) : list Z :=
  flat_map (fun i => lane_at k i a ++ lane_at k i b) (seq from (8 / k)).
Definition unpack_lo (k : nat) := unpack k 0.
Definition unpack_hi (k : nat) := unpack k (8 / k).
(** u8x16_shuffle::<..>, u16x8_shuffle::<..>, .. of wasm32: lane [i] of the concatenation *)
Definition wasm_shuffle (k : nat) (idx : list nat) (a b : list Z) : list Z :=
  flat_map (fun i => lane_at k i (a ++ b)) idx.
(** _mm256_unpacklo/hi_epi*: in each 128-bit half *)
Definition unpack256 (f : binop) (a b : list Z) : list Z := f (lo128 a) (lo128 b) ++ f (hi128 a) (hi128 b).

(** simd128.rs:817-866 *)
Definition zip_lo_idx (k : nat) : list nat :=
  match k with
  | 1 => [0; 16; 1; 17; 2; 18; 3; 19; 4; 20; 5; 21; 6; 22; 7; 23]
  | 2 => [0; 8; 1; 9; 2; 10; 3; 11]
  | 4 => [0; 4; 1; 5]
  | _ => [0; 2]
  end%nat.
Definition zip_hi_idx (k : nat) : list nat :=
  match k with
  | 1 => [8; 24; 9; 25; 10; 26; 11; 27; 12; 28; 13; 29; 14; 30; 15; 31]
  | 2 => [4; 12; 5; 13; 6; 14; 7; 15]
  | 4 => [2; 6; 3; 7]
  | _ => [1; 3]
  end%nat.
(** simd128.rs:817-1027 [u8x16_zip_lo] .. [u64x2_zip_hi]. The 64-bit NEON arms (986-991, 1012-1017) pick array elements. *)
Definition zip_lo (k : nat) (s : isa) (a b : list Z) : option (list Z) :=
  if matches_isa s [ISSE2] then Some (unpack_lo k a b)
  else if matches_isa s [INEON] then
    Some (if (k =? 8)%nat then lane_at 8 0 a ++ lane_at 8 0 b else unpack_lo k a b)
  else if matches_isa s [IWASM128] then Some (wasm_shuffle k (zip_lo_idx k) a b)
  else None.
Definition zip_hi (k : nat) (s : isa) (a b : list Z) : option (list Z) :=
  if matches_isa s [ISSE2] then Some (unpack_hi k a b)
  else if matches_isa s [INEON] then
    Some (if (k =? 8)%nat then lane_at 8 1 a ++ lane_at 8 1 b else unpack_hi k a b)
  else if matches_isa s [IWASM128] then Some (wasm_shuffle k (zip_hi_idx k) a b)
  else None.
(** simd256.rs:617-703 [u8x16x2_zip_lo] .. [u64x2x2_zip_hi] *)
Definition zip_lo_x2 (k : nat) := widened (unpack256 (unpack_lo k)) (zip_lo k).
Definition zip_hi_x2 (k : nat) := widened (unpack256 (unpack_hi k)) (zip_hi k).

(** simd128.rs:1031-1081 [u8x16_unzip_even], [u8x16_unzip_odd] *)
Definition even_idx : list nat := [0; 2; 4; 6; 8; 10; 12; 14; 16; 18; 20; 22; 24; 26; 28; 30]%nat.
Definition odd_idx : list nat := [1; 3; 5; 7; 9; 11; 13; 15; 17; 19; 21; 23; 25; 27; 29; 31]%nat.
(** vuzp1q_u8 / vuzp2q_u8, vuzpq_u8.0 / .1 *)
Definition neon_uzp1 (a b : list Z) : list Z := evens a ++ evens b.
Definition neon_uzp2 (a b : list Z) : list Z := odds a ++ odds b.
Definition unzip_even8 (s : isa) (a b : list Z) : option (list Z) :=
  if matches_isa s [ISSE2] then None
  else if matches_isa s [INEON] then Some (neon_uzp1 a b)
  else if matches_isa s [IWASM128] then Some (wasm_shuffle 1 even_idx a b)
  else None.
Definition unzip_odd8 (s : isa) (a b : list Z) : option (list Z) :=
  if matches_isa s [ISSE2] then None
  else if matches_isa s [INEON] then Some (neon_uzp2 a b)
  else if matches_isa s [IWASM128] then Some (wasm_shuffle 1 odd_idx a b)
  else None.
(** simd256.rs:752-775 *)
Definition unzip_even8_x32 (s : isa) (a b : list Z) : option (list Z) :=
  if matches_isa s [ISSE2] then None
  else let? ab := unzip_even8 s (lo128 a) (hi128 a) in
       let? cd := unzip_even8 s (lo128 b) (hi128 b) in Some (ab ++ cd).
Definition unzip_odd8_x32 (s : isa) (a b : list Z) : option (list Z) :=
  if matches_isa s [ISSE2] then None
  else let? ab := unzip_odd8 s (lo128 a) (hi128 a) in
       let? cd := unzip_odd8 s (lo128 b) (hi128 b) in Some (ab ++ cd).

(** simd256.rs:736-749 [u64x4_permute::<IMM8>]: AVX2 only; result lane [i] is lane [(IMM8 >> 2i) & 3] *)
Definition imm2 (imm : Z) (i : nat) : nat := Z.to_nat ((imm / 4 ^ Z.of_nat i) mod 4).
Definition u64x4_permute (imm : Z) (s : isa) (a : list Z) : option (list Z) :=
  arm s [IAVX2] (flat_map (fun i => lane_at 8 (imm2 imm i) a) (seq 0 4)) None.
(** simd256.rs:778-805; 0b_1101_1000 = 216 *)
Definition unzip_even64 (s : isa) (a b : list Z) : option (list Z) :=
  if matches_isa s [IAVX2] then
    let? acbd := zip_lo_x2 8 s a b in u64x4_permute 216 s acbd
  else let? ab := zip_lo 8 s (lo128 a) (hi128 a) in
       let? cd := zip_lo 8 s (lo128 b) (hi128 b) in Some (ab ++ cd).
Definition unzip_odd64 (s : isa) (a b : list Z) : option (list Z) :=
  if matches_isa s [IAVX2] then
    let? acbd := zip_hi_x2 8 s a b in u64x4_permute 216 s acbd
  else let? ab := zip_hi 8 s (lo128 a) (hi128 a) in
       let? cd := zip_hi 8 s (lo128 b) (hi128 b) in Some (ab ++ cd).

(** simd256.rs:556-566 [u8x32_reduce_max], [u8x32_reduce_min] *)
Definition u8x32_reduce_max (s : isa) (a : list Z) : option Z :=
  let? m := u_max W128 s U8 (lo128 a) (hi128 a) in u8x16_reduce_max s m.
Definition u8x32_reduce_min (s : isa) (a : list Z) : option Z :=
  let? m := u_min W128 s U8 (lo128 a) (hi128 a) in u8x16_reduce_min s m.

(** ** simulation.rs: the replacements used under miri. An array index beyond the array is a panic ([None]). *)

(** [for i in 0..n { c[i] = f(i) }] on a fresh array *)
Fixpoint collect (f : nat -> option Z) (is : list nat) : option (list Z) :=
  match is with
  | [] => Some []
  | i :: r => let? x := f i in let? xs := collect f r in Some (x :: xs)
  end.
(** simulation.rs:12-20, 24-32 *)
Definition sim_max (a b : list Z) : option (list Z) :=
  collect (fun i => let? x := nth_error a i in let? y := nth_error b i in Some (if x <? y then y else x)) (seq 0 16).
Definition sim_min (a b : list Z) : option (list Z) :=
  collect (fun i => let? x := nth_error a i in let? y := nth_error b i in Some (if y <? x then y else x)) (seq 0 16).
(** simulation.rs:37-48 [u8x16_bitmask]: m |= ((a[i] >> 7) as u16) << i *)
Fixpoint sim_bitmask_loop (a : list Z) (is : list nat) (m : Z) : option Z :=
  match is with
  | [] => Some m
  | i :: r => let? x := nth_error a i in
              sim_bitmask_loop a r (Z.lor m (((x / 128) * 2 ^ Z.of_nat i) mod 65536))
  end.
Definition sim_bitmask (a : list Z) : option Z := sim_bitmask_loop a (seq 0 16) 0.
(** simulation.rs:53-59, 64-70 [u16x8_shr], [u16x8_shl] with imm8: u8. [a[i] >>= imm8] panics on overflow when
    imm8 >= 16 (with overflow checks; without them the count is taken modulo 16). *)
Definition sim_shift (checks : bool) (d : dir) (n : Z) (a : list Z) : option (list Z) :=
  if 16 <=? n then if checks then None else Some (on_lanes 16 2 (shift_bits d 2 (n mod 16)) a)
  else Some (on_lanes 16 2 (shift_bits d 2 n) a).
(** simulation.rs:74-93 [i16x8_packus]: c[i] = sat(a[i]), c[i + 8] = sat(b[i]) *)
Definition sat_u8 (x : Z) : Z := if x <? 0 then 0 else if 255 <? x then 255 else x mod 256.
Definition i16_lane (a : list Z) (i : nat) : option Z :=
  let? lo := nth_error a (2 * i) in let? hi := nth_error a (2 * i + 1) in Some (sgn 2 (lo + 256 * hi)).
Definition sim_packus (a b : list Z) : option (list Z) :=
  let? c0 := collect (fun i => let? x := i16_lane a i in Some (sat_u8 x)) (seq 0 8) in
  let? c1 := collect (fun i => let? x := i16_lane b i in Some (sat_u8 x)) (seq 0 8) in
  Some (c0 ++ c1).
