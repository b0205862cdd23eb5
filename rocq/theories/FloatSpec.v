(** The floating-point lanes f32 and f64 (IEEE 754 binary32 and binary64), stated on bit patterns.
    This file is independent of the model of vsimd. *)
From Coq Require Import ZArith List Bool.
Import ListNotations.
Open Scope Z_scope.

Inductive felem := F32 | F64.
Definition fsize (t : felem) : nat := match t with F32 => 4 | F64 => 8 end.
(** width of the mantissa field; number of values of the exponent field *)
Definition mant (t : felem) : Z := match t with F32 => 23 | F64 => 52 end.
Definition exps (t : felem) : Z := match t with F32 => 256 | F64 => 2048 end.
(** a bit pattern: sign, exponent, mantissa from the top *)
Definition pattern (t : felem) (x : Z) : Prop := 0 <= x < 2 * exps t * 2 ^ mant t.
Definition mantissa (t : felem) (x : Z) : Z := x mod 2 ^ mant t.
Definition exponent (t : felem) (x : Z) : Z := (x / 2 ^ mant t) mod exps t.
Definition negative (t : felem) (x : Z) : bool := exps t * 2 ^ mant t <=? x.

Definition nan (t : felem) (x : Z) : Prop := exponent t x = exps t - 1 /\ mantissa t x <> 0.
Definition zero (t : felem) (x : Z) : Prop := exponent t x = 0 /\ mantissa t x = 0.
Definition subnormal (t : felem) (x : Z) : Prop := exponent t x = 0 /\ mantissa t x <> 0.
(** The value of a pattern that is not a NaN, as a multiple of the least positive value of the format (2^-149, 2^-1074);
    infinity is taken as the power of two after the largest finite value, so that it is ordered as infinity is. *)
Definition value (t : felem) (x : Z) : Z :=
  let m := if exponent t x =? 0 then mantissa t x else (2 ^ mant t + mantissa t x) * 2 ^ (exponent t x - 1) in
  if negative t x then - m else m.

(** one is 0x3f80_0000; 1.5 is 0x3fc0_0000; 2^-149 is 1; -2 is 0xc000_0000 *)
Example value_one : value F32 1065353216 = 2 ^ 149. Proof. reflexivity. Qed.
Example value_three_halves : 2 * value F32 1069547520 = 3 * 2 ^ 149. Proof. reflexivity. Qed.
Example value_least : value F32 1 = 1. Proof. reflexivity. Qed.
Example value_minus_two : value F32 3221225472 = - (2 * 2 ^ 149). Proof. reflexivity. Qed.
Example value_one_64 : value F64 4607182418800017408 = 2 ^ 1074. Proof. vm_compute. reflexivity. Qed.

(** [c] is the greater (or smaller) of [a] and [b]: one of the two, and not less than either. *)
Definition greater (t : felem) (a b c : Z) : Prop := (c = a \/ c = b) /\ value t a <= value t c /\ value t b <= value t c.
Definition smaller (t : felem) (a b c : Z) : Prop := (c = a \/ c = b) /\ value t c <= value t a /\ value t c <= value t b.
