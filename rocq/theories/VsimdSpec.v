(** What the typed lane operations of vsimd mean, stated on lists of lane values.
    This file is independent of the model of vsimd. *)
From Coq Require Import ZArith List Bool.
From Verif Require Import Ints UnicodeSpec.
Import ListNotations.
Open Scope Z_scope.

(** The integer lane types. *)
Inductive elem := U8 | U16 | U32 | U64 | I8 | I16 | I32 | I64.
Definition esize (t : elem) : nat := match t with U8 | I8 => 1 | U16 | I16 => 2 | U32 | I32 => 4 | U64 | I64 => 8 end.
Definition signed (t : elem) : bool := match t with I8 | I16 | I32 | I64 => true | _ => false end.
(** number of values of the type: 2^8, 2^16, 2^32, 2^64 *)
Definition card (t : elem) : Z := 256 ^ Z.of_nat (esize t).
Definition min_of (t : elem) : Z := if signed t then - (card t / 2) else 0.
Definition max_of (t : elem) : Z := if signed t then card t / 2 - 1 else card t - 1.
Definition has_type (t : elem) (x : Z) : Prop := min_of t <= x <= max_of t.

(** A vector of lane values as it lies in memory: little-endian two's complement, lane 0 first. *)
Definition vec (t : elem) (xs : list Z) : list Z := arr LE (esize t) (map (fun x => x mod card t) xs).
(** [n] lanes of type [t] *)
Definition lanes (t : elem) (n : nat) (xs : list Z) : Prop := length xs = n /\ Forall (has_type t) xs.

(** wrapping: the value of the type congruent to [z] *)
Definition wrap (t : elem) (z : Z) : Z := (z - min_of t) mod card t + min_of t.
(** saturating: the value of the type closest to [z] *)
Definition sat (t : elem) (z : Z) : Z := Z.max (min_of t) (Z.min (max_of t) z).
(** a comparison gives all bits set or all bits clear *)
Definition truth (t : elem) (b : bool) : Z := if b then wrap t (-1) else 0.

Fixpoint zipped {A} (xs ys : list A) : list A :=
  match xs, ys with x :: xs', y :: ys' => x :: y :: zipped xs' ys' | _, _ => [] end.
Fixpoint every_other {A} (xs : list A) : list A :=
  match xs with x :: _ :: r => x :: every_other r | [x] => [x] | [] => [] end.

Example vec_ex : vec I16 [-2; 258] = [254; 255; 2; 1]. Proof. reflexivity. Qed.
Example wrap_ex : wrap I8 128 = -128. Proof. reflexivity. Qed.
Example wrap_ex_u : wrap U8 (-1) = 255. Proof. reflexivity. Qed.
Example sat_ex : sat I8 200 = 127. Proof. reflexivity. Qed.
