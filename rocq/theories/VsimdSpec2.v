(** What the remaining operations of vsimd mean: widening, narrowing, table lookup, byte order, selection.
    This file is independent of the model of vsimd. *)
From Coq Require Import ZArith List Bool.
From Verif Require Import Ints UnicodeSpec VsimdSpec.
Import ListNotations.
Open Scope Z_scope.

(** one result for each pair of neighbouring lanes *)
Fixpoint neighbours (f : Z -> Z -> Z -> Z -> Z) (xs ys : list Z) : list Z :=
  match xs, ys with
  | x0 :: x1 :: xs', y0 :: y1 :: ys' => f x0 x1 y0 y1 :: neighbours f xs' ys'
  | _, _ => []
  end.
Definition dot (x0 x1 y0 y1 : Z) : Z := x0 * y0 + x1 * y1.

(** lane [i] of the result is lane [i] of [ys] when bit [i] of [imm] is set *)
Definition chosen (imm : Z) (xs ys : list Z) : list Z :=
  map (fun i => if Z.testbit imm (Z.of_nat i) then nth i ys 0 else nth i xs 0) (seq 0 (length xs)).

(** the table lookup of vsimd: an index with the top bit set gives 0, else the low four bits count *)
Definition looked_up (table : list Z) (i : Z) : Z := if 128 <=? i then 0 else nth (Z.to_nat (i mod 16)) table 0.

(** the value whose bytes are those of [x] in reverse order *)
Definition reversed (t : elem) (x : Z) : Z :=
  match esize t with 1%nat => x | 2%nat => swap16 x | 4%nat => swap32 x | _ => swap64 x end.

Example neighbours_ex : neighbours dot [1; 2; 3; 4] [5; 6; 7; 8] = [17; 53]. Proof. reflexivity. Qed.
Example chosen_ex : chosen 5 [1; 2; 3; 4] [5; 6; 7; 8] = [5; 2; 7; 4]. Proof. reflexivity. Qed.
Example looked_up_ex : map (looked_up [10; 11; 12; 13; 14; 15; 16; 17; 18; 19; 20; 21; 22; 23; 24; 25]) [0; 15; 16; 113; 128; 255] = [10; 25; 10; 11; 0; 0].
Proof. reflexivity. Qed.
