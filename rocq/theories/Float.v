(** Model of the f32 and f64 rows of [max] and [min], vsimd/src/unified.rs:650-908.

    A vector is the list of its bytes in memory order, a lane its bit pattern; [None] is [unreachable!()].
    The instructions compare lanes by sign and magnitude. The result of the NEON and wasm instructions for a NaN is a NaN
    that depends on the machine (payload propagation, default NaN, wasm nondeterminism): it is the parameter [pick]. *)
From Coq Require Import ZArith List Bool.
From Verif Require Import Bytes Isa Ints Simd Vsimd VsimdSpec FloatSpec.
Import ListNotations.
Open Scope Z_scope.

(** the bits below the sign; the patterns above that of infinity are the NaNs *)
Definition magnitude (t : felem) (x : Z) : Z := x mod (lane_card (fsize t) / 2).
Definition infinity (t : felem) : Z := match t with F32 => 2139095040 (* 0x7f80_0000 *) | F64 => 9218868437227405312 (* 0x7ff0.. *) end.
Definition is_nan (t : felem) (x : Z) : bool := infinity t <? magnitude t x.
Definition key (t : felem) (x : Z) : Z := if x <? lane_card (fsize t) / 2 then magnitude t x else - magnitude t x.
Definition flt (t : felem) (x y : Z) : bool := negb (is_nan t x) && negb (is_nan t y) && (key t x <? key t y).

(** _mm_max_ps, _mm_max_pd, _mm256_max_ps, _mm256_max_pd: [if a > b then a else b];
    the second operand if one is a NaN or both are zeros *)
Definition x86_max L t := on_lanes2 L (fsize t) (fun a b => if flt t b a then a else b).
Definition x86_min L t := on_lanes2 L (fsize t) (fun a b => if flt t a b then a else b).

(** IEEE 754-2019 maximum and minimum: a NaN if one is a NaN, and -0 < +0.
    wasm32 f32x4_max, f32x4_min; AArch64 vmaxq_f32, vminq_f32 (FMAX, FMIN) *)
Definition ieee_max t (pick : Z -> Z -> Z) (a b : Z) : Z :=
  if is_nan t a || is_nan t b then pick a b
  else if key t a <? key t b then b else if key t b <? key t a then a else Z.min a b.
Definition ieee_min t (pick : Z -> Z -> Z) (a b : Z) : Z :=
  if is_nan t a || is_nan t b then pick a b
  else if key t a <? key t b then a else if key t b <? key t a then b else Z.max a b.
Definition vmaxf L t pick := on_lanes2 L (fsize t) (ieee_max t pick).
Definition vminf L t pick := on_lanes2 L (fsize t) (ieee_min t pick).
(** Advanced SIMD of AArch32 takes subnormal operands as zeros of the same sign. *)
Definition flush (t : felem) (x : Z) : Z :=
  if magnitude t x <? 2 ^ mant t then x - magnitude t x else x.
Definition vmaxf_a32 L t pick := on_lanes2 L (fsize t) (fun a b => ieee_max t pick (flush t a) (flush t b)).
Definition vminf_a32 L t pick := on_lanes2 L (fsize t) (fun a b => ieee_min t pick (flush t a) (flush t b)).

Definition felem_eqb (a b : felem) : bool := match a, b with F32, F32 | F64, F64 => true | _, _ => false end.
(** one row per [if is_pod_type!(T, ..) { return .. }] *)
Definition frow := ((isa -> bool) * felem * binop)%type.
Fixpoint fselect (s : isa) (t : felem) (rows : list frow) : option binop :=
  match rows with
  | [] => None
  | (g, u, ins) :: r => if g s && felem_eqb t u then Some ins else fselect s t r
  end.
Definition frun128 (rows : list frow) (s : isa) (t : felem) (a b : list Z) : option (list Z) :=
  match fselect s t rows with Some ins => Some (ins a b) | None => None end.
Definition funified (avx2 rows : list frow) (w : width) (s : isa) (t : felem) (a b : list Z) : option (list Z) :=
  match w with
  | W256 => match fselect s t avx2 with
            | Some ins => Some (ins a b)
            | None => vop2 (frun128 rows s t) a b
            end
  | W128 => frun128 rows s t a b
  end.
Definition on_a32 : isa -> bool := fun s => matches_isa s [INEON] && negb (arch_aarch64 s).

(** unified.rs:650-777 [max]: 672-677 (AVX2), 717-722 (SSE2), 744-746 (NEON), 768-770 (wasm32); no f64 row on NEON and wasm32 *)
Definition fmax_avx2 : list frow := [(on [IAVX2], F32, x86_max 32 F32); (on [IAVX2], F64, x86_max 32 F64)].
Definition fmax_rows (pick : Z -> Z -> Z) : list frow :=
  [(on [ISSE2], F32, x86_max 16 F32); (on [ISSE2], F64, x86_max 16 F64);
   (on_a64, F32, vmaxf 16 F32 pick); (on_a32, F32, vmaxf_a32 16 F32 pick);
   (on [IWASM128], F32, vmaxf 16 F32 pick)].
Definition f_max pick := funified fmax_avx2 (fmax_rows pick).
(** unified.rs:780-908 [min]: 802-807 (AVX2), 848-853 (SSE2), 875-877 (NEON), 899-901 (wasm32) *)
Definition fmin_avx2 : list frow := [(on [IAVX2], F32, x86_min 32 F32); (on [IAVX2], F64, x86_min 32 F64)].
Definition fmin_rows (pick : Z -> Z -> Z) : list frow :=
  [(on [ISSE2], F32, x86_min 16 F32); (on [ISSE2], F64, x86_min 16 F64);
   (on_a64, F32, vminf 16 F32 pick); (on_a32, F32, vminf_a32 16 F32 pick);
   (on [IWASM128], F32, vminf 16 F32 pick)].
Definition f_min pick := funified fmin_avx2 (fmin_rows pick).
