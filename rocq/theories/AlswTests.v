(** The scalar side of vsimd/src/alsw.rs: [check], [decode] and the two self tests that [impl_alsw!] generates
    for a table specification. The vector side is in Alsw.v. *)
From Coq Require Import ZArith List Bool.
From Verif Require Import Bytes Simd Alsw.
Import ListNotations.
Open Scope Z_scope.

(** alsw.rs:36 [check]; alsw.rs:44 [decode] *)
Definition scalar_check (hash_lut offset : list Z) (c : Z) : Z := i8_add_sat c (lookup offset (hash hash_lut c)).
Definition scalar_decode (hash_lut offset : list Z) (c : Z) : Z := u8_add c (lookup offset (hash hash_lut c)).

(** alsw.rs:207-216 [test_check]; alsw.rs:219-231 [test_decode]: [true] if no assertion fails *)
Definition test_check (a : alsw_spec) : bool :=
  let hash := CHECK_HASH a in let offset := CHECK_OFFSET a in
  forallb (fun c => eqb (scalar_check hash offset c <? 128) (negb (al_decode a c =? 255))) (range 256).
Definition test_decode (a : alsw_spec) : bool :=
  let hash := DECODE_HASH a in let offset := DECODE_OFFSET a in
  forallb (fun c => let idx := al_decode a c in (idx =? 255) || (scalar_decode hash offset c =? idx)) (range 256).

(** The three functions return [u8], and the constants compile: [(x << 1) - 1] does not underflow in alsw.rs:137, 164. *)
Definition hash_compiles (h : Z -> Z) : Prop := forall i, 0 <= i < 16 -> byte (h i) /\ (h i * 2) mod 256 <> 0.
Definition spec_compiles (a : alsw_spec) : Prop :=
  (forall c, byte c -> byte (al_decode a c)) /\ hash_compiles (al_check_hash a) /\ hash_compiles (al_decode_hash a).
