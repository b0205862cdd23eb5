(** Specification vocabulary for slices of u16/u32/u64. *)
From Coq Require Import ZArith List Bool.
From Verif Require Import Bytes Ints.
Import ListNotations.
Open Scope Z_scope.

(** the unsigned integers of [k] bytes *)
Definition uint (k : nat) (x : Z) : Prop := 0 <= x < 256 ^ Z.of_nat k.
(** the bytes of a slice of [k]-byte integers on a target of byte order [en] *)
Definition arr (en : endian) (k : nat) (xs : list Z) : list Z := flat_map (native_bytes en k) xs.
(** an integer with its bytes in the opposite order *)
Definition swap16 (x : Z) : Z := 256 * (x mod 256) + x / 256.
Definition swap32 (x : Z) : Z := 65536 * swap16 (x mod 65536) + swap16 (x / 65536).
Definition swap64 (x : Z) : Z := 4294967296 * swap32 (x mod 4294967296) + swap32 (x / 4294967296).

Example swap16_ex : swap16 4660 (* 0x1234 *) = 13330 (* 0x3412 *). Proof. reflexivity. Qed.
Example swap32_ex : swap32 305419896 (* 0x12345678 *) = 2018915346 (* 0x78563412 *). Proof. reflexivity. Qed.
Example arr_ex : arr LE 2 [258; 772] = [2; 1; 4; 3]. Proof. reflexivity. Qed.
Example arr_ex_be : arr BE 2 [258; 772] = [1; 2; 3; 4]. Proof. reflexivity. Qed.
