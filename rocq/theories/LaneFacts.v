(** Vectors seen as lists of 16-bit and 32-bit lanes. *)
From Coq Require Import ZArith List Bool Lia ZifyBool ZifyNat.
From Verif Require Import Bytes Mem MemFacts Isa Simd SimdFacts PrimFacts Ints Loops UnicodeSpec UnicodeFacts SwapFacts.
Import ListNotations.
Open Scope Z_scope.
Ltac Zify.zify_post_hook ::= Z.div_mod_to_equations.

Notation lane16 := (arr LE 2).
Notation lane32 := (arr LE 4).

(** every byte vector is a list of lanes *)
Lemma lanes_of k n l : bytes l -> length l = (k * n)%nat -> exists xs, length xs = n /\ Forall (uint k) xs /\ l = arr LE k xs.
Proof.
  revert l. induction n as [|n IH]; intros l B L.
  - exists []. rewrite Nat.mul_0_r in L. destruct l; [repeat split; constructor|discriminate L].
  - destruct (split_at l k) as (a & r & -> & La); [nia|]. rewrite app_length in L. apply bytes_app in B as [Ba Br].
    destruct (IH r Br) as (xs & Lx & Fx & ->); [nia|]. exists (of_le a :: xs). split; [cbn [length]; lia|]. split.
    + constructor; [|exact Fx]. unfold uint. rewrite <- La. clear -Ba.
      induction Ba as [|x l Hx B IH]; [cbn; lia|]. rewrite of_le_cons. cbn [length]. rewrite Nat2Z.inj_succ, Z.pow_succ_r by lia. unfold byte in Hx. lia.
    + change (a ++ arr LE k xs = le_bytes k (of_le a) ++ arr LE k xs). rewrite <- La. now rewrite le_bytes_of_le.
Qed.

Lemma le2 y : le_bytes 2 y = [byte0 y; byte1 y].
Proof. reflexivity. Qed.
Lemma le4 y : le_bytes 4 y = [byte0 y; byte1 y; byte2 y; byte3 y].
Proof.
  cbn [le_bytes]. unfold byte0, byte1, byte2, byte3. rewrite !Z.div_div by lia. reflexivity.
Qed.
Lemma mk16_le x : uint 2 x -> mk16 (byte0 x) (byte1 x) = x.
Proof. intro U. apply of_le_le_bytes in U. rewrite le2, !of_le_cons in U. change (of_le []) with 0 in U. unfold mk16. lia. Qed.
Lemma mk32_le x : uint 4 x -> mk32 (byte0 x) (byte1 x) (byte2 x) (byte3 x) = x.
Proof. intro U. apply of_le_le_bytes in U. rewrite le4, !of_le_cons in U. change (of_le []) with 0 in U. unfold mk32. lia. Qed.
Lemma lane16_cons x xs : lane16 (x :: xs) = byte0 x :: byte1 x :: lane16 xs.
Proof. reflexivity. Qed.
Lemma lane32_cons x xs : lane32 (x :: xs) = byte0 x :: byte1 x :: byte2 x :: byte3 x :: lane32 xs.
Proof. unfold arr at 1. cbn [flat_map native_bytes]. now rewrite le4. Qed.

Lemma lanes16_2_arr f xs ys : Forall (uint 2) xs -> Forall (uint 2) ys -> lanes16_2 f (lane16 xs) (lane16 ys) = lane16 (map2 f xs ys).
Proof.
  intro Fx. revert ys. induction Fx as [|x xs Hx Fx IH]; intros ys Fy; [reflexivity|].
  destruct Fy as [|y ys Hy Fy]; [reflexivity|]. rewrite !lane16_cons. cbn [lanes16_2 map2]. cbn zeta.
  rewrite lane16_cons, !mk16_le, IH by auto. reflexivity.
Qed.
Lemma lanes32_2_arr f xs ys : Forall (uint 4) xs -> Forall (uint 4) ys -> lanes32_2 f (lane32 xs) (lane32 ys) = lane32 (map2 f xs ys).
Proof.
  intro Fx. revert ys. induction Fx as [|x xs Hx Fx IH]; intros ys Fy; [reflexivity|].
  destruct Fy as [|y ys Hy Fy]; [rewrite lane32_cons; reflexivity|]. rewrite !lane32_cons. cbn [lanes32_2 map2]. cbn zeta.
  rewrite lane32_cons, !mk32_le, IH by auto. reflexivity.
Qed.

Lemma lxor_mod x y n : 0 <= n -> Z.lxor x y mod 2 ^ n = Z.lxor (x mod 2 ^ n) (y mod 2 ^ n).
Proof.
  intro Hn. apply Z.bits_inj'. intros i Hi. rewrite Z.lxor_spec. destruct (Z.lt_ge_cases i n).
  - rewrite !Z.mod_pow2_bits_low by lia. apply Z.lxor_spec.
  - rewrite !Z.mod_pow2_bits_high by lia. reflexivity.
Qed.
Lemma lxor_div x y n : 0 <= n -> Z.lxor x y / 2 ^ n = Z.lxor (x / 2 ^ n) (y / 2 ^ n).
Proof. intro Hn. rewrite <- !Z.shiftr_div_pow2 by lia. apply Z.shiftr_lxor. Qed.
Lemma lxor_split x y n : 0 <= n -> Z.lxor x y = 2 ^ n * Z.lxor (x / 2 ^ n) (y / 2 ^ n) + Z.lxor (x mod 2 ^ n) (y mod 2 ^ n).
Proof. intro Hn. rewrite <- lxor_mod, <- lxor_div by auto. apply Z.div_mod. apply Z.pow_nonzero; lia. Qed.
Lemma le_xor k x y : map2 u8_xor (le_bytes k x) (le_bytes k y) = le_bytes k (Z.lxor x y).
Proof.
  revert x y. induction k as [|k IH]; intros x y; [reflexivity|]. cbn [le_bytes map2]. rewrite IH. unfold u8_xor.
  change 256 with (2 ^ 8). now rewrite (lxor_mod x y 8), (lxor_div x y 8) by lia.
Qed.
Lemma map2_app2 {A B C} (f : A -> B -> C) a b c d : length a = length c -> map2 f (a ++ b) (c ++ d) = map2 f a c ++ map2 f b d.
Proof. revert c. induction a as [|x a IH]; intros [|y c] L; try discriminate L; [reflexivity|]. cbn [app map2]. now rewrite IH by (injection L; auto). Qed.
Lemma xor_arr k xs ys : map2 u8_xor (arr LE k xs) (arr LE k ys) = arr LE k (map2 Z.lxor xs ys).
Proof.
  revert ys. induction xs as [|x xs IH]; intros [|y ys]; [reflexivity|reflexivity|cbn [map2]; destruct (arr LE k (x :: xs)); reflexivity|].
  change (map2 u8_xor (le_bytes k x ++ arr LE k xs) (le_bytes k y ++ arr LE k ys) = le_bytes k (Z.lxor x y) ++ arr LE k (map2 Z.lxor xs ys)).
  rewrite map2_app2 by now rewrite !le_bytes_len. now rewrite le_xor, IH.
Qed.

Lemma map2_ext_F (P : Z -> Prop) (f g : Z -> Z -> Z) a b : (forall x y, P x -> P y -> f x y = g x y) -> Forall P a -> Forall P b -> map2 f a b = map2 g a b.
Proof. intros H Fa. revert b. induction Fa as [|x a Hx Fa IH]; intros b Fb; [reflexivity|]. destruct Fb; [reflexivity|]. cbn [map2]. now rewrite H, IH. Qed.
Lemma map2_F (P : Z -> Prop) (f : Z -> Z -> Z) a b : (forall x y, P x -> P y -> P (f x y)) -> Forall P a -> Forall P b -> Forall P (map2 f a b).
Proof. intros H Fa. revert b. induction Fa as [|x a Hx Fa IH]; intros b Fb; [constructor|]. destruct Fb; constructor; auto. Qed.
Lemma map2_diag (f : Z -> Z -> Z) a b (g : Z -> Z -> Z) : (forall x y, f x y = g x y) -> map2 f a b = map2 g a b.
Proof. intro H. revert b. induction a as [|x a IH]; intros [|y b]; try reflexivity. cbn [map2]. now rewrite H, IH. Qed.
Lemma map2_3 (f g h : Z -> Z -> Z) a b : map2 f (map2 g a (map2 h a b)) (map2 g a a) = map2 (fun x y => f (g x (h x y)) (g x x)) a b.
Proof. revert b. induction a as [|x a IH]; intros [|y b]; try reflexivity. cbn [map2]. now rewrite IH. Qed.

Lemma uint_max k x y : uint k x -> uint k y -> uint k (Z.max x y).
Proof. unfold uint. lia. Qed.
Lemma uint2 x : uint 2 x <-> 0 <= x < 65536. Proof. reflexivity. Qed.
Lemma uint4 x : uint 4 x <-> 0 <= x < 4294967296. Proof. reflexivity. Qed.

(** ** unsigned less-than *)
Lemma lt_u16_max_ok xs ys : Forall (uint 2) xs -> Forall (uint 2) ys -> lt_u16_max (lane16 xs) (lane16 ys) = lane16 (map2 u16_lt xs ys).
Proof.
  intros Fx Fy. unfold lt_u16_max. rewrite (lanes16_2_arr u16_max), !lanes16_2_arr, xor_arr by (auto; apply map2_F; auto; apply uint_max).
  f_equal. rewrite map2_3. apply map2_diag. intros x y. unfold u16_eq, u16_max, u16_lt. rewrite Z.eqb_refl.
  destruct (Z.eqb_spec x (Z.max x y)), (Z.ltb_spec x y); try reflexivity; lia.
Qed.
Lemma lt_u32_max_ok xs ys : Forall (uint 4) xs -> Forall (uint 4) ys -> lt_u32_max (lane32 xs) (lane32 ys) = lane32 (map2 u32_lt xs ys).
Proof.
  intros Fx Fy. unfold lt_u32_max. rewrite (lanes32_2_arr u32_max), !lanes32_2_arr, xor_arr by (auto; apply map2_F; auto; apply uint_max).
  f_equal. rewrite map2_3. apply map2_diag. intros x y. unfold u32_eq, u32_max, u32_lt. rewrite Z.eqb_refl.
  destruct (Z.eqb_spec x (Z.max x y)), (Z.ltb_spec x y); try reflexivity; lia.
Qed.
Lemma repeat_arr k n x : repeat_list n (le_bytes k x) = arr LE k (repeat x n).
Proof. induction n; [reflexivity|]. cbn [repeat_list repeat]. now rewrite IHn. Qed.
Lemma map2_repeat {A B C} (f : A -> B -> C) xs y : map2 f xs (repeat y (length xs)) = map (fun x => f x y) xs.
Proof. induction xs as [|x xs IH]; [reflexivity|]. cbn [length repeat map2 map]. now rewrite IH. Qed.
Lemma flip16_ok xs : flip16 (lane16 xs) = lane16 (map (fun x => Z.lxor x 32768) xs).
Proof.
  unfold flip16. rewrite arr_len. replace (2 * length xs / 2)%nat with (length xs) by lia.
  change [0; 128] with (le_bytes 2 32768). now rewrite repeat_arr, xor_arr, map2_repeat.
Qed.
Lemma flip32_ok xs : flip32 (lane32 xs) = lane32 (map (fun x => Z.lxor x 2147483648) xs).
Proof.
  unfold flip32. rewrite arr_len. replace (4 * length xs / 4)%nat with (length xs) by lia.
  change [0; 0; 0; 128] with (le_bytes 4 2147483648). now rewrite repeat_arr, xor_arr, map2_repeat.
Qed.
Lemma flip_top n x : 0 <= n -> 0 <= x < 2 * 2 ^ n -> Z.lxor x (2 ^ n) = if x <? 2 ^ n then x + 2 ^ n else x - 2 ^ n.
Proof.
  intros Hn Hx. assert (P : 0 < 2 ^ n) by (apply Z.pow_pos_nonneg; lia).
  rewrite (lxor_split x (2 ^ n) n) by lia. rewrite Z.div_same, Z.mod_same, Z.lxor_0_r by lia.
  destruct (Z.ltb_spec x (2 ^ n)).
  - rewrite Z.div_small, Z.mod_small by lia. change (Z.lxor 0 1) with 1. lia.
  - destruct (div_mod_uniq x 1 (x - 2 ^ n) (2 ^ n)) as [-> ->]; [lia|lia|]. change (Z.lxor 1 1) with 0. lia.
Qed.
Lemma flip16_uint x : uint 2 x -> uint 2 (Z.lxor x 32768).
Proof. rewrite !uint2. intro H. change 32768 with (2 ^ 15). rewrite (flip_top 15) by lia. change (2 ^ 15) with 32768. destruct (x <? 32768) eqn:E; lia. Qed.
Lemma flip32_uint x : uint 4 x -> uint 4 (Z.lxor x 2147483648).
Proof. rewrite !uint4. intro H. change 2147483648 with (2 ^ 31). rewrite (flip_top 31) by lia. change (2 ^ 31) with 2147483648. destruct (x <? 2147483648) eqn:E; lia. Qed.
Lemma flip16_s x : uint 2 x -> s16 (Z.lxor x 32768) = x - 32768.
Proof.
  rewrite uint2. intro. change 32768 with (2 ^ 15). rewrite (flip_top 15) by lia. change (2 ^ 15) with 32768. unfold s16.
  destruct (Z.ltb_spec x 32768); match goal with |- context [?a <? ?b] => destruct (Z.ltb_spec a b) end; lia.
Qed.
Lemma flip32_s x : uint 4 x -> s32 (Z.lxor x 2147483648) = x - 2147483648.
Proof.
  rewrite uint4. intro. change 2147483648 with (2 ^ 31). rewrite (flip_top 31) by lia. change (2 ^ 31) with 2147483648. unfold s32.
  destruct (Z.ltb_spec x 2147483648); match goal with |- context [?a <? ?b] => destruct (Z.ltb_spec a b) end; lia.
Qed.
Lemma flip16_lt x y : uint 2 x -> uint 2 y -> i16_lt (Z.lxor x 32768) (Z.lxor y 32768) = u16_lt x y.
Proof.
  intros Hx Hy. unfold i16_lt, u16_lt. rewrite !flip16_s by auto. destruct (Z.ltb_spec (x - 32768) (y - 32768)), (Z.ltb_spec x y); try reflexivity; lia.
Qed.
Lemma flip32_lt x y : uint 4 x -> uint 4 y -> i32_lt (Z.lxor x 2147483648) (Z.lxor y 2147483648) = u32_lt x y.
Proof.
  intros Hx Hy. unfold i32_lt, u32_lt. rewrite !flip32_s by auto. destruct (Z.ltb_spec (x - 2147483648) (y - 2147483648)), (Z.ltb_spec x y); try reflexivity; lia.
Qed.
Lemma map2_map_map {A B C D E} (f : C -> D -> E) (g : A -> C) (h : B -> D) a b : map2 f (map g a) (map h b) = map2 (fun x y => f (g x) (h y)) a b.
Proof. revert b. induction a as [|x a IH]; intros [|y b]; try reflexivity. cbn [map map2]. now rewrite IH. Qed.
Lemma map_F (P Q : Z -> Prop) f l : (forall x, P x -> Q (f x)) -> Forall P l -> Forall Q (map f l).
Proof. intros H F. induction F; constructor; auto. Qed.

Lemma u16x8_lt_ok s xs ys : simd s -> Forall (uint 2) xs -> Forall (uint 2) ys -> u16x8_lt s (lane16 xs) (lane16 ys) = Some (lane16 (map2 u16_lt xs ys)).
Proof.
  intros Hs Fx Fy. unfold u16x8_lt, arm. destruct (matches_isa s [ISSE2]) eqn:E.
  - rewrite !flip16_ok, lanes16_2_arr by (apply (map_F (uint 2)); auto using flip16_uint). rewrite map2_map_map.
    do 2 f_equal. now apply (map2_ext_F (uint 2)); auto using flip16_lt.
  - destruct s; try discriminate; cbn; now rewrite lanes16_2_arr.
Qed.
Lemma u32x4_lt_ok s xs ys : simd s -> Forall (uint 4) xs -> Forall (uint 4) ys -> u32x4_lt s (lane32 xs) (lane32 ys) = Some (lane32 (map2 u32_lt xs ys)).
Proof.
  intros Hs Fx Fy. unfold u32x4_lt, arm. destruct (matches_isa s [ISSE2]) eqn:E.
  - rewrite !flip32_ok, lanes32_2_arr by (apply (map_F (uint 4)); auto using flip32_uint). rewrite map2_map_map.
    do 2 f_equal. now apply (map2_ext_F (uint 4)); auto using flip32_lt.
  - destruct s; try discriminate; cbn; now rewrite lanes32_2_arr.
Qed.
Lemma halves_arr k n xs : (k * n = 16)%nat -> length xs = (n + n)%nat -> exists a b, xs = a ++ b /\ length a = n /\ length b = n /\
  lo128 (arr LE k xs) = arr LE k a /\ hi128 (arr LE k xs) = arr LE k b.
Proof.
  intros Hk L. destruct (split_at xs n) as (a & b & -> & La); [lia|]. rewrite app_length in L. exists a, b. rewrite arr_app.
  repeat split; auto; [lia| |]; unfold lo128, hi128; [apply firstn_app_exact|apply skipn_app_exact]; rewrite arr_len; nia.
Qed.
Lemma wide_arr s k n f g op xs ys : (k * n = 16)%nat -> length xs = (n + n)%nat -> length ys = (n + n)%nat ->
  Forall (uint k) xs -> Forall (uint k) ys ->
  g (arr LE k xs) (arr LE k ys) = arr LE k (map2 f xs ys) ->
  (forall xs ys, Forall (uint k) xs -> Forall (uint k) ys -> op s (arr LE k xs) (arr LE k ys) = Some (arr LE k (map2 f xs ys))) ->
  wide2 s g op (arr LE k xs) (arr LE k ys) = Some (arr LE k (map2 f xs ys)).
Proof.
  intros Hk Lx Ly Fx Fy Hg Ho. unfold wide2, arm. destruct (matches_isa s [IAVX2]); [now rewrite Hg|]. unfold vop2.
  destruct (halves_arr k n xs Hk Lx) as (a & b & -> & La & Lb & -> & ->).
  destruct (halves_arr k n ys Hk Ly) as (c & d & -> & Lc & Ld & -> & ->).
  apply Forall_app in Fx as [Fa Fb], Fy as [Fc Fd]. rewrite !Ho by auto. cbn [obind]. rewrite map2_app2 by congruence. now rewrite arr_app.
Qed.
Lemma u16x16_lt_ok s xs ys : simd s -> length xs = 16%nat -> length ys = 16%nat -> Forall (uint 2) xs -> Forall (uint 2) ys ->
  u16x16_lt s (lane16 xs) (lane16 ys) = Some (lane16 (map2 u16_lt xs ys)).
Proof. intros. apply (wide_arr s 2 8 u16_lt); auto using lt_u16_max_ok, u16x8_lt_ok. Qed.
Lemma u32x8_lt_ok s xs ys : simd s -> length xs = 8%nat -> length ys = 8%nat -> Forall (uint 4) xs -> Forall (uint 4) ys ->
  u32x8_lt s (lane32 xs) (lane32 ys) = Some (lane32 (map2 u32_lt xs ys)).
Proof. intros. apply (wide_arr s 4 4 u32_lt); auto using lt_u32_max_ok, u32x4_lt_ok. Qed.
Lemma u32x8_sub_ok s xs ys : simd s -> length xs = 8%nat -> length ys = 8%nat -> Forall (uint 4) xs -> Forall (uint 4) ys ->
  u32x8_sub s (lane32 xs) (lane32 ys) = Some (lane32 (map2 u32_sub xs ys)).
Proof.
  intros. apply (wide_arr s 4 4 u32_sub); auto using lanes32_2_arr.
  intros a b Fa Fb. unfold u32x4_sub. rewrite native2_ok by auto. now rewrite lanes32_2_arr.
Qed.
Lemma u32x8_max_ok s xs ys : sse41p s -> length xs = 8%nat -> length ys = 8%nat -> Forall (uint 4) xs -> Forall (uint 4) ys ->
  u32x8_max s (lane32 xs) (lane32 ys) = Some (lane32 (map2 Z.max xs ys)).
Proof.
  intros Hs Lx Ly Fx Fy. apply (wide_arr s 4 4 Z.max); auto.
  - now apply (lanes32_2_arr u32_max).
  - intros a b Fa Fb. unfold u32x4_max, arm. rewrite Hs. now rewrite (lanes32_2_arr u32_max).
Qed.
Lemma v256_xor_ok s xs ys : simd s -> length xs = 8%nat -> length ys = 8%nat ->
  v256_xor s (lane32 xs) (lane32 ys) = Some (lane32 (map2 Z.lxor xs ys)).
Proof. intros Hs Lx Ly. rewrite <- xor_arr. apply wide_map2; auto; rewrite arr_len, ?Lx, ?Ly; reflexivity. Qed.

(** ** all_zero *)
Lemma is_zero_or a b : length a = length b -> bytes a -> bytes b -> is_zero_list (map2 u8_or a b) = is_zero_list a && is_zero_list b.
Proof.
  revert b. induction a as [|x a IH]; intros [|y b] L Ba Bb; try discriminate L; [reflexivity|]. inv_bytes. unfold is_zero_list in *. cbn [map2 forallb].
  rewrite IH by (auto; congruence). unfold u8_or. destruct (Z.eqb_spec (Z.lor x y) 0) as [E|N].
  - apply Z.lor_eq_0_iff in E as [-> ->]. reflexivity.
  - destruct (Z.eqb_spec x 0), (Z.eqb_spec y 0); subst; try now destruct N. all: cbn [andb]; now rewrite ?andb_false_r.
Qed.
Lemma is_zero_app a b : is_zero_list (a ++ b) = is_zero_list a && is_zero_list b.
Proof. apply forallb_app. Qed.
Lemma arm_all_zero_ok a : length a = 16%nat -> bytes a -> arm_all_zero a = is_zero_list a.
Proof.
  intros L B. rewrite <- (firstn_skipn 8 a) at 2. rewrite is_zero_app. unfold arm_all_zero, lo64, hi64.
  assert (L1 : length (firstn 8 a) = 8%nat) by (rewrite firstn_length; lia). assert (L2 : length (skipn 8 a) = 8%nat) by (rewrite skipn_length; lia).
  rewrite <- (firstn_skipn 8 a) in B. apply bytes_app in B as [B1 B2].
  rewrite <- is_zero_or by (auto; congruence). assert (B3 := bytes_or _ _ B1 B2). remember (map2 u8_or (firstn 8 a) (skipn 8 a)) as z eqn:Ez.
  assert (Lz : length z = 8%nat) by (subst z; now apply len_map2). clear Ez. explode z. inv_bytes. unfold is_zero_list, mk32, byte in *. cbn [forallb]. lia.
Qed.
Lemma max_zero a : bytes a -> (list_max a =? 0) = is_zero_list a.
Proof.
  induction 1 as [|x a Hx B IH]; [reflexivity|]. unfold is_zero_list in *. cbn [forallb]. rewrite <- IH. unfold list_max in *. cbn [fold_right].
  assert (0 <= fold_right Z.max 0 a) by (clear; induction a; cbn [fold_right]; lia). unfold byte in Hx. lia.
Qed.
Lemma v128_all_zero_ok s a : sse41p s -> length a = 16%nat -> bytes a -> v128_all_zero s a = Some (is_zero_list a).
Proof.
  intros Hs L B. unfold v128_all_zero. destruct s; try discriminate Hs; cbn; f_equal; auto using arm_all_zero_ok, max_zero.
  unfold is_zero_list. clear. induction a as [|x a IH]; [reflexivity|]. cbn [existsb forallb]. rewrite negb_orb, negb_involutive. now rewrite IH.
Qed.
Lemma v256_all_zero_ok s a : sse41p s -> length a = 32%nat -> bytes a -> v256_all_zero s a = Some (is_zero_list a).
Proof.
  intros Hs L B. assert (S : simd s) by (destruct s; try discriminate Hs; reflexivity).
  unfold v256_all_zero. destruct (matches_isa s [IAVX2]); [reflexivity|]. unfold v128_or. rewrite native2_ok by auto. cbn [obind].
  assert (Ll := lo_len a L). assert (Lh := hi_len a L).
  rewrite v128_all_zero_ok; auto using bytes_or, bytes_lo, bytes_hi; [|now apply len_map2].
  rewrite is_zero_or, <- is_zero_app, lo_hi by (auto using bytes_lo, bytes_hi; congruence). reflexivity.
Qed.
