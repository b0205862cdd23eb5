(** Emulated vector primitives agree with their lane-wise meaning. *)
From Coq Require Import ZArith List Bool Lia ZifyBool ZifyNat.
From Verif Require Import Bytes Isa Simd SimdFacts.
Import ListNotations.
Open Scope Z_scope.
Ltac Zify.zify_post_hook ::= Z.div_mod_to_equations.

Lemma map2_ext_bytes (f g : Z -> Z -> Z) a b : (forall x y, byte x -> byte y -> f x y = g x y) ->
  bytes a -> bytes b -> map2 f a b = map2 g a b.
Proof.
  intros H Ha. revert b. induction Ha as [|x a Hx Ha IH]; intros [|y b] Hb; try reflexivity.
  inv_bytes. cbn [map2]. rewrite H, IH; auto.
Qed.
Lemma map3_ext_bytes (f g : Z -> Z -> Z -> Z) a b c : (forall x y z, byte x -> byte y -> byte z -> f x y z = g x y z) ->
  bytes a -> bytes b -> bytes c -> map3 f a b c = map3 g a b c.
Proof.
  intros H Ha. revert b c. induction Ha as [|x a Hx Ha IH]; intros [|y b] [|z c] Hb Hc; try reflexivity.
  inv_bytes. cbn [map3]. rewrite H, IH; auto.
Qed.

(** ** Unsigned comparison of bytes *)
Lemma lt_u8_max_map a b : lt_u8_max a b = map2 (fun x y => u8_xor (u8_eq x (u8_max x y)) (u8_eq x x)) a b.
Proof.
  unfold lt_u8_max. revert b. induction a as [|x a IH]; intros [|y b]; try reflexivity.
  cbn [map2]. now rewrite IH.
Qed.
Lemma lt_u8_lane x y : byte x -> byte y -> u8_xor (u8_eq x (u8_max x y)) (u8_eq x x) = u8_lt x y.
Proof. 
  intros _ _. unfold u8_xor, u8_eq, u8_max, u8_lt. rewrite Z.eqb_refl. destruct (Z.eqb_spec x (Z.max x y)), (Z.ltb_spec x y); try reflexivity; lia.
Qed.
Lemma lt_u8_max_ok a b : bytes a -> bytes b -> lt_u8_max a b = map2 u8_lt a b.
Proof. intros Ha Hb. rewrite lt_u8_max_map. apply map2_ext_bytes; auto using lt_u8_lane. Qed.

Lemma u8x16_lt_ok s a b : simd s -> bytes a -> bytes b -> u8x16_lt s a b = Some (map2 u8_lt a b).
Proof.
  intros Hs Ha Hb. unfold u8x16_lt, arm.
  destruct (matches_isa s [ISSE2]) eqn:E; [now rewrite lt_u8_max_ok|].
  destruct s; try discriminate; reflexivity.
Qed.
Lemma u8x32_lt_ok s a b : simd s -> length a = 32%nat -> length b = 32%nat -> bytes a -> bytes b ->
  u8x32_lt s a b = Some (map2 u8_lt a b).
Proof.
  intros Hs La Lb Ha Hb. unfold u8x32_lt, wide2, arm.
  destruct (matches_isa s [IAVX2]); [now rewrite lt_u8_max_ok|].
  unfold vop2. rewrite !u8x16_lt_ok by (auto using bytes_lo, bytes_hi). cbn [obind].
  now rewrite (map2_halves u8_lt a b).
Qed.

(** ** Bit select *)
Lemma byte_testbit x i : byte x -> 8 <= i -> Z.testbit x i = false.
Proof.
  intros Hx Hi. unfold byte in Hx. rewrite Z.testbit_eqb by lia. apply Z.eqb_neq.
  replace (x / 2 ^ i) with 0; [discriminate|]. symmetry. apply Z.div_small.
  split; [lia|]. apply Z.lt_le_trans with (2 ^ 8); [lia|]. apply Z.pow_le_mono_r; lia.
Qed.
Lemma ones8_testbit i : 0 <= i < 8 -> Z.testbit 255 i = true.
Proof. intro H. change 255 with (Z.ones 8). apply Z.ones_spec_low. lia. Qed.
Lemma bsl_lane a b c : byte a -> byte b -> byte c -> u8_xor (u8_and (u8_xor b c) a) c = u8_bsl a b c.
Proof.
  intros Ha Hb Hc. unfold u8_xor, u8_and, u8_bsl. apply Z.bits_inj'. intros i Hi.
  rewrite Z.lor_spec, !Z.lxor_spec, !Z.land_spec, !Z.lxor_spec.
  destruct (Z.lt_ge_cases i 8).
  - rewrite ones8_testbit by lia. destruct (Z.testbit a i), (Z.testbit b i), (Z.testbit c i); reflexivity.
  - rewrite !byte_testbit by (auto; unfold byte; lia). reflexivity.
Qed.
Lemma map3_as_map2 (a b c : list Z) :
  map2 u8_xor (map2 u8_and (map2 u8_xor b c) a) c = map3 (fun x y z => u8_xor (u8_and (u8_xor y z) x) z) a b c.
Proof.
  revert b c. induction a as [|x a IH]; intros [|y b] [|z c]; try reflexivity. cbn [map2 map3]. now rewrite IH.
Qed.
Lemma map3_halves {A B C D} (f : A -> B -> C -> D) a b c :
  length a = 32%nat -> length b = 32%nat -> length c = 32%nat ->
  map3 f a b c = map3 f (firstn 16 a) (firstn 16 b) (firstn 16 c) ++ map3 f (skipn 16 a) (skipn 16 b) (skipn 16 c).
Proof. intros La Lb Lc. explode a. explode b. explode c. reflexivity. Qed.

Lemma v128_bsl_ok s a b c : simd s -> bytes a -> bytes b -> bytes c ->
  v128_bsl s a b c = Some (map3 u8_bsl a b c).
Proof.
  intros Hs Ha Hb Hc. unfold v128_bsl.
  destruct (matches_isa s [ISSE2; IWASM128]) eqn:E.
  - unfold v128_xor, v128_and. rewrite native2_ok by auto. cbn [obind]. rewrite native2_ok by auto. cbn [obind].
    rewrite native2_ok by auto. rewrite map3_as_map2. f_equal. apply map3_ext_bytes; auto using bsl_lane.
  - destruct s; try discriminate; reflexivity.
Qed.
Lemma v256_bsl_ok s a b c : simd s -> length a = 32%nat -> length b = 32%nat -> length c = 32%nat ->
  bytes a -> bytes b -> bytes c -> v256_bsl s a b c = Some (map3 u8_bsl a b c).
Proof.
  intros Hs La Lb Lc Ha Hb Hc. unfold v256_bsl. destruct (matches_isa s [INEON]) eqn:E.
  - unfold vop3. rewrite !v128_bsl_ok by (auto using bytes_lo, bytes_hi). cbn [obind].
    now rewrite (map3_halves u8_bsl a b c).
  - unfold v256_xor, v256_and, v128_xor, v128_and. rewrite wide_map2 by auto. cbn [obind].
    rewrite wide_map2 by (auto using len_map2). cbn [obind].
    rewrite wide_map2 by (auto using len_map2). cbn [obind].
    rewrite map3_as_map2. f_equal. apply map3_ext_bytes; auto using bsl_lane.
Qed.

(** ** Byte blend by sign bit (x86 only) *)
Lemma u8x32_blendv_ok s a b c : matches_isa s [ISSE41] = true -> length a = 32%nat -> length b = 32%nat -> length c = 32%nat ->
  u8x32_blendv s a b c = Some (map3 u8_blendv a b c).
Proof.
  intros Hs La Lb Lc. unfold u8x32_blendv. destruct (matches_isa s [IAVX2]) eqn:E; [reflexivity|].
  destruct (matches_isa s [INEON; IWASM128]) eqn:E2; [destruct s; discriminate|].
  unfold vop3, u8x16_blendv, arm. rewrite Hs. cbn [obind]. now rewrite (map3_halves u8_blendv a b c).
Qed.
