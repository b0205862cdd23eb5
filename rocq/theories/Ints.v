(** Multi-byte integers: byte order of [u32]/[u64] loads and stores. *)
From Coq Require Import ZArith List Bool.
From Verif Require Import Bytes Mem.
Import ListNotations.
Open Scope Z_scope.

(** [cfg!(target_endian)] *)
Inductive endian := LE | BE.

(** value of big-endian bytes: [uN::from_be_bytes] *)
Definition of_be (l : list Z) : Z := fold_left (fun acc b => acc * 256 + b) l 0.
Definition of_le (l : list Z) : Z := of_be (rev l).
(** the [n] big-endian bytes: [to_be_bytes] *)
Fixpoint le_bytes (n : nat) (x : Z) : list Z :=
  match n with O => [] | S k => x mod 256 :: le_bytes k (x / 256) end.
Definition be_bytes (n : nat) (x : Z) : list Z := rev (le_bytes n x).
(** [uN::swap_bytes] on n-byte integers *)
Definition swap_bytes (n : nat) (x : Z) : Z := of_be (le_bytes n x).
(** [uN::to_be], [uN::from_be]: identity on big-endian targets, byte swap on little-endian ones *)
Definition to_be (en : endian) (n : nat) (x : Z) : Z := match en with BE => x | LE => swap_bytes n x end.
(** the bytes a native store writes / the value a native load reads *)
Definition native_bytes (en : endian) (n : nat) (x : Z) : list Z := match en with LE => le_bytes n x | BE => be_bytes n x end.
Definition of_native (en : endian) (l : list Z) : Z := match en with LE => of_le l | BE => of_be l end.

(** index arithmetic [len - k] used with [get_unchecked]: must not underflow *)
Definition psub_len (len k : nat) : M nat := if (k <=? len)%nat then ret (len - k)%nat else ub.
