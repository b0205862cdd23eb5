(** The base32 vector kernels compute the group-wise encoding and decoding. *)
From Coq Require Import ZArith List Bool Lia ZifyBool ZifyNat.
From Verif Require Import Bytes Mem Isa Simd SimdFacts PrimFacts Alsw AlswFacts Spec HexSimdFacts Ints Base64SimdFacts Base32.
Import ListNotations.
Open Scope Z_scope.
Ltac Zify.zify_post_hook ::= Z.div_mod_to_equations.

(** ** Five-bit values of groups of five bytes *)
Definition oct (a b c d e : Z) : list Z :=
  [a / 8; (a mod 8) * 4 + b / 64; (b / 2) mod 32; (b mod 2) * 16 + c / 16;
   (c mod 16) * 2 + d / 128; (d / 4) mod 32; (d mod 4) * 8 + e / 32; e mod 32].
Fixpoint octs (l : list Z) : list Z :=
  match l with a :: b :: c :: d :: e :: r => oct a b c d e ++ octs r | _ => [] end.
Fixpoint pairs5 (l : list Z) : list Z :=
  match l with a :: b :: c :: d :: e :: r => [b; a; c; b; d; c; e; d] ++ pairs5 r | _ => [] end.

Lemma list_ind5 (P : list Z -> Prop) :
  (forall l, (length l < 5)%nat -> P l) -> (forall a b c d e r, P r -> P (a :: b :: c :: d :: e :: r)) -> forall l, P l.
Proof.
  intros H0 H5 l. assert (G : forall n l, (length l <= n)%nat -> P l).
  { induction n; intros [|a [|b [|c [|d [|e r]]]]] L; try (apply H0; cbn [length] in *; lia); cbn [length] in L; try lia.
    apply H5, IHn. lia. }
  now apply (G (length l)).
Qed.
Lemma list_ind8 (P : list Z -> Prop) :
  (forall l, (length l < 8)%nat -> P l) ->
  (forall a b c d e f g h r, P r -> P (a :: b :: c :: d :: e :: f :: g :: h :: r)) -> forall l, P l.
Proof.
  intros H0 H8 l. assert (G : forall n l, (length l <= n)%nat -> P l).
  { induction n; intros [|a [|b [|c [|d [|e [|f [|g [|h r]]]]]]]] L; try (apply H0; cbn [length] in *; lia); cbn [length] in L; try lia.
    apply H8, IHn. lia. }
  now apply (G (length l)).
Qed.

Lemma pairs5_len l : length (pairs5 l) = (length l / 5 * 8)%nat.
Proof.
  induction l as [l H|a b c d e r IH] using list_ind5.
  - rewrite Nat.div_small by auto. destruct l as [|a [|b [|c [|d [|e r]]]]]; try reflexivity. cbn [length] in H. lia.
  - cbn [pairs5 app length]. rewrite IH. lia.
Qed.
Lemma octs_len l : length (octs l) = (length l / 5 * 8)%nat.
Proof.
  induction l as [l H|a b c d e r IH] using list_ind5.
  - rewrite Nat.div_small by auto. destruct l as [|a [|b [|c [|d [|e r]]]]]; try reflexivity. cbn [length] in H. lia.
  - cbn [octs oct app length]. rewrite IH. lia.
Qed.

(** *** x86: high and low halves of 16-bit products *)
Definition x86_lane (m1l m1h m2l m2h a b : Z) : list Z :=
  let y := u16_mul_hi (mk16 b a) (mk16 m1l m1h) in
  let z := u16_mul_lo (mk16 b a) (mk16 m2l m2h) in
  [u8_or (u8_and (byte0 y) 31) (u8_and (byte0 z) 0); u8_or (u8_and (byte1 y) 0) (u8_and (byte1 z) 31)].
Lemma mm x : (x mod 256) mod 32 = x mod 32. Proof. lia. Qed.
Lemma hi16 x : ((x mod 65536) / 256) mod 256 = (x / 256) mod 256. Proof. lia. Qed.
Lemma x86_lane_eq m1l m1h m2l m2h a b : x86_lane m1l m1h m2l m2h a b =
  [((b + 256 * a) * (m1l + 256 * m1h) / 65536) mod 32; ((b + 256 * a) * (m2l + 256 * m2h) / 256) mod 32].
Proof. cbv [x86_lane u16_mul_hi u16_mul_lo mk16 byte0 byte1]. now rewrite !and_31, !and_0, or_0l, or_0r, hi16, !mm. Qed.
Ltac x86_an := intros Ha Hb; rewrite x86_lane_eq; unfold byte in Ha, Hb; apply mk_eq2; lia.
Lemma x86_lane0 a b : byte a -> byte b -> x86_lane 32 0 4 0 a b = [a / 8; (a mod 8) * 4 + b / 64].
Proof. x86_an. Qed.
Lemma x86_lane1 a b : byte a -> byte b -> x86_lane 128 0 16 0 a b = [(a / 2) mod 32; (a mod 2) * 16 + b / 16].
Proof. x86_an. Qed.
Lemma x86_lane2 a b : byte a -> byte b -> x86_lane 0 2 64 0 a b = [(a mod 16) * 2 + b / 128; (b / 4) mod 32].
Proof. x86_an. Qed.
Lemma x86_lane3 a b : byte a -> byte b -> x86_lane 0 8 0 1 a b = [(a mod 4) * 8 + b / 32; b mod 32].
Proof. x86_an. Qed.

Definition split_x86_core (x : list Z) (n : nat) : list Z :=
  map2 u8_or
    (map2 u8_and (lanes16_2 u16_mul_hi x (repeat_list n [32; 0; 128; 0; 0; 2; 0; 8])) (repeat_list n [31; 0; 31; 0; 31; 0; 31; 0]))
    (map2 u8_and (lanes16_2 u16_mul_lo x (repeat_list n [4; 0; 16; 0; 64; 0; 0; 1])) (repeat_list n [0; 31; 0; 31; 0; 31; 0; 31])).
Lemma split_x86_core_ok l n : (length l = 5 * n)%nat -> bytes l -> split_x86_core (pairs5 l) n = octs l.
Proof.
  revert n. induction l as [l H|a b c d e r IH] using list_ind5; intros n L B; cbn [length] in L.
  - assert (n = 0)%nat as -> by lia. destruct l; [reflexivity|cbn [length] in *; lia].
  - destruct n as [|n]; [lia|]. inv_bytes.
    assert (L0 := x86_lane0 a b ltac:(assumption) ltac:(assumption)).
    assert (L1 := x86_lane1 b c ltac:(assumption) ltac:(assumption)).
    assert (L2 := x86_lane2 c d ltac:(assumption) ltac:(assumption)).
    assert (L3 := x86_lane3 d e ltac:(assumption) ltac:(assumption)).
    unfold x86_lane in *. cbn zeta in *.
    unfold split_x86_core in *. cbn [pairs5 repeat_list app lanes16_2 map2 octs oct]. cbn zeta. cbn [map2].
    apply eq2 in L0 as [-> ->]. apply eq2 in L1 as [-> ->]. apply eq2 in L2 as [-> ->]. apply eq2 in L3 as [-> ->].
    rewrite IH; auto. lia.
Qed.

(** *** NEON and WASM: shift, then low halves of 16-bit products *)
Definition arm_lane (m1 m2l m2h a b : Z) : list Z :=
  let w := u16_shr 4 (mk16 b a) in
  let y := u16_mul_lo (mk16 (byte0 w) (byte1 w)) (mk16 m1 0) in
  let z := u16_mul_lo (mk16 b a) (mk16 m2l m2h) in
  let v := u16_shr 8 (mk16 (u8_and (byte0 y) 0) (u8_and (byte1 y) 31)) in
  [u8_or (u8_and (byte0 z) 0) (byte0 v); u8_or (u8_and (byte1 z) 31) (byte1 v)].
Lemma arm_lane_eq m1 m2l m2h a b : byte a -> byte b -> arm_lane m1 m2l m2h a b =
  [(((b + 256 * a) / 16) * m1 / 256) mod 32; ((b + 256 * a) * (m2l + 256 * m2h) / 256) mod 32].
Proof.
  unfold byte. intros. cbv [arm_lane u16_shr u16_mul_lo mk16 byte0 byte1]. rewrite !and_31, !and_0, or_0l, !hi16, !mm. rewrite Z.mul_0_r, Z.add_0_r, Z.add_0_l.
  change (pow2 4) with 16. change (pow2 8) with 256. rewrite (Z.mul_comm 256 (_ mod 32)), Z.div_mul by lia.
  replace (((b + 256 * a) / 16) mod 256 + 256 * ((b + 256 * a) / 16 / 256 mod 256)) with ((b + 256 * a) / 16) by lia.
  set (q := ((b + 256 * a) / 16 * m1 / 256) mod 32). assert (0 <= q < 32) by (unfold q; apply Z.mod_pos_bound; lia).
  rewrite (Z.mod_small q 256), (Z.div_small q 256), Z.mod_0_l, or_0r by lia. reflexivity.
Qed.
Lemma div16 a b : 0 <= a < 256 -> 0 <= b < 256 -> (b + 256 * a) / 16 = 16 * a + b / 16 /\ 0 <= b / 16 < 16. Proof. lia. Qed.
Lemma arm0 a q : 0 <= a < 256 -> 0 <= q < 16 -> ((16 * a + q) * 2 / 256) mod 32 = a / 8. Proof. lia. Qed.
Lemma arm1 a q : 0 <= a < 256 -> 0 <= q < 16 -> ((16 * a + q) * 8 / 256) mod 32 = (a / 2) mod 32. Proof. lia. Qed.
Lemma arm2 a q : 0 <= a < 256 -> 0 <= q < 16 -> ((16 * a + q) * 32 / 256) mod 32 = (a mod 16) * 2 + q / 8. Proof. lia. Qed.
Lemma arm3 a q : 0 <= a < 256 -> 0 <= q < 16 -> ((16 * a + q) * 128 / 256) mod 32 = (a mod 4) * 8 + q / 2. Proof. lia. Qed.
Ltac arm_an h := intros Ha Hb; rewrite arm_lane_eq by assumption; unfold byte in Ha, Hb;
  let E := fresh in let R := fresh in destruct (div16 _ _ Ha Hb) as [E R]; rewrite E, h by assumption; rewrite ?Z.div_div by lia; f_equal; f_equal; clear E R; lia.
Lemma arm_lane0 a b : byte a -> byte b -> arm_lane 2 4 0 a b = [a / 8; (a mod 8) * 4 + b / 64].
Proof. arm_an arm0. Qed.
Lemma arm_lane1 a b : byte a -> byte b -> arm_lane 8 16 0 a b = [(a / 2) mod 32; (a mod 2) * 16 + b / 16].
Proof. arm_an arm1. Qed.
Lemma arm_lane2 a b : byte a -> byte b -> arm_lane 32 64 0 a b = [(a mod 16) * 2 + b / 128; (b / 4) mod 32].
Proof. arm_an arm2. Qed.
Lemma arm_lane3 a b : byte a -> byte b -> arm_lane 128 0 1 a b = [(a mod 4) * 8 + b / 32; b mod 32].
Proof. arm_an arm3. Qed.

Definition split_arm_core (x : list Z) (n : nat) : list Z :=
  map2 u8_or
    (map2 u8_and (lanes16_2 u16_mul_lo x (repeat_list n [4; 0; 16; 0; 64; 0; 0; 1])) (repeat_list n [0; 31; 0; 31; 0; 31; 0; 31]))
    (lanes16 (u16_shr 8)
       (map2 u8_and (lanes16_2 u16_mul_lo (lanes16 (u16_shr 4) x) (repeat_list n [2; 0; 8; 0; 32; 0; 128; 0]))
                    (repeat_list n [0; 31; 0; 31; 0; 31; 0; 31]))).
Lemma split_arm_core_ok l n : (length l = 5 * n)%nat -> bytes l -> split_arm_core (pairs5 l) n = octs l.
Proof.
  revert n. induction l as [l H|a b c d e r IH] using list_ind5; intros n L B; cbn [length] in L.
  - assert (n = 0)%nat as -> by lia. destruct l; [reflexivity|cbn [length] in *; lia].
  - destruct n as [|n]; [lia|]. inv_bytes.
    assert (L0 := arm_lane0 a b ltac:(assumption) ltac:(assumption)).
    assert (L1 := arm_lane1 b c ltac:(assumption) ltac:(assumption)).
    assert (L2 := arm_lane2 c d ltac:(assumption) ltac:(assumption)).
    assert (L3 := arm_lane3 d e ltac:(assumption) ltac:(assumption)).
    unfold arm_lane in *. cbn zeta in *.
    unfold split_arm_core in *. cbn [pairs5 repeat_list app lanes16_2 lanes16 map2 octs oct]. cbn zeta. cbn [map2 lanes16]. cbn zeta. cbn [map2].
    apply eq2 in L0 as [-> ->]. apply eq2 in L1 as [-> ->]. apply eq2 in L2 as [-> ->]. apply eq2 in L3 as [-> ->].
    rewrite IH; auto. lia.
Qed.

Lemma b32_split_shuffle s x : swz s -> length x = 32%nat ->
  u8x16x2_swizzle s x B32_SPLIT_SHUFFLE = Some (pairs5 (firstn 20 (skipn 6 x))).
Proof. intros Hs L. explode x. destruct s; try discriminate Hs; reflexivity. Qed.

Lemma split_bits_ok s x : swz s -> length x = 32%nat -> bytes x ->
  split_bits s x = Some (octs (firstn 20 (skipn 6 x))).
Proof.
  intros Hs L B. unfold split_bits. rewrite b32_split_shuffle by auto. cbn [obind].
  assert (Hs' := swz_simd _ Hs).
  set (l := firstn 20 (skipn 6 x)).
  assert (Ll : length l = 20%nat) by (unfold l; rewrite firstn_length, skipn_length; lia).
  assert (Bl : bytes l) by (apply bytes_firstn, bytes_skipn, B).
  assert (Lq : length (pairs5 l) = 32%nat) by (rewrite pairs5_len; rewrite Ll; reflexivity).
  destruct (swz_cases3 s Hs) as [E|[E E']]; rewrite E, ?E'.
  - rewrite !splat256_8, !splat256_2 by auto. cbn [obind].
    rewrite wide_mul_hi by (auto using ssse3_sse2; vlens). cbn [obind].
    rewrite wide_mul_lo by (auto; vlens). cbn [obind].
    rewrite !wide_and by (auto; vlens). cbn [obind].
    rewrite wide_or by (auto; vlens).
    f_equal. exact (split_x86_core_ok l 4 Ll Bl).
  - rewrite !splat256_8, !splat256_2 by auto. cbn [obind].
    rewrite !wide_shr16 by (auto; vlens). cbn [obind].
    rewrite !wide_mul_lo by (auto; vlens). cbn [obind].
    rewrite !wide_and by (auto; vlens). cbn [obind].
    rewrite !wide_shr16 by (auto; vlens). cbn [obind].
    rewrite wide_or by (auto; vlens).
    f_equal. exact (split_arm_core_ok l 4 Ll Bl).
Qed.

(** ** Values to characters *)
Definition five (v : Z) : Prop := 0 <= v < 32.
Definition b32_chars (k : b32_kind) (l : list Z) : list Z := map (fun v => nth (Z.to_nat v) (b32_charset k) 0) l.

Lemma map3_map {A} (f : Z -> Z -> Z -> Z) (g h k : A -> Z) x :
  map3 f (map g x) (map h x) (map k x) = map (fun v => f (g v) (h v) (k v)) x.
Proof. induction x; cbn [map map3]; [|rewrite IHx]; reflexivity. Qed.
Lemma map2_repeat_l {A B C} (f : A -> B -> C) a x n : length x = n -> map2 f (repeat a n) x = map (f a) x.
Proof. intros <-. induction x; cbn [length repeat map2 map]; [|rewrite IHx]; reflexivity. Qed.
Lemma splat256_1 s a : simd s -> splat256 s [a] = Some (repeat a 32).
Proof. intro H. exact (u8xn_splat_ok W256 s a H). Qed.

Definition val_lane (s : isa) (k : b32_kind) (v : Z) : Z :=
  if matches_isa s [ISSE41] then u8_blendv (swz_lane s (lo128 (b32_charset k)) v) (swz_lane s (hi128 (b32_charset k)) v) (u8_lt 15 v)
  else if matches_isa s [INEON] && arch_aarch64 s then tbl32_lane (b32_charset k) v
  else u8_bsl (u8_lt 15 v) (swz_lane s (hi128 (b32_charset k)) (u8_and v 15)) (swz_lane s (lo128 (b32_charset k)) (u8_and v 15)).
Lemma val_lane_ok s k v : sse41p s -> five v -> val_lane s k v = nth (Z.to_nat v) (b32_charset k) 0.
Proof.
  intros Hs Hv. apply Z.eqb_eq. revert v Hv. apply (sweep1 32).
  destruct s, k; try discriminate Hs; vm_compute; reflexivity.
Qed.
Lemma swz_lane_byte s t i : bytes t -> byte (swz_lane s t i).
Proof.
  intro B. assert (G : forall j, byte (tbl_get t j)).
  { intro j. unfold tbl_get. destruct (nth_in_or_default (Z.to_nat j) t 0) as [H|E]; [|rewrite E; unfold byte; lia].
    unfold bytes in B. rewrite Forall_forall in B. auto. }
  unfold swz_lane, pshufb_lane, tbl16_lane.
  destruct (matches_isa s [ISSSE3]); [destruct (128 <=? i)|destruct (16 <=? i)]; auto; unfold byte; lia.
Qed.
Lemma charset_bytes k : bytes (b32_charset k).
Proof. destruct k; apply Forall_forall; intros x H; apply byteb_byte; revert x H; apply forallb_forall; vm_compute; reflexivity. Qed.

Lemma b32_encode_values_ok s k x : sse41p s -> length x = 32%nat -> Forall five x ->
  b32_encode_values s x (b32_encoding_lut (b32_charset k)) = Some (b32_chars k x).
Proof.
  intros Hs L F. assert (Hz := sse41p_swz _ Hs). assert (Hs' := swz_simd _ Hz).
  assert (B : bytes x) by (revert F; apply Forall_impl; unfold five, byte; lia).
  assert (R : map (val_lane s k) x = b32_chars k x).
  { unfold b32_chars. apply map_ext_in. intros v Hv. rewrite Forall_forall in F. apply val_lane_ok; auto. }
  rewrite <- R. clear R. unfold b32_encode_values, b32_encoding_lut. cbn [lut_low lut_high lut_full]. unfold val_lane.
  assert (Lt : length (lo128 (b32_charset k)) = 16%nat) by (destruct k; reflexivity).
  assert (Lu : length (hi128 (b32_charset k)) = 16%nat) by (destruct k; reflexivity).
  assert (SW : forall t i, length t = 16%nat -> length i = 32%nat -> u8x16x2_swizzle s (x2 t) i = Some (map (swz_lane s t) i))
    by (intros; now apply (u8x16xn_swizzle_ok W256)).
  assert (B15 : bytes (repeat 15 32)) by (apply Forall_forall; intros y Hy; apply repeat_spec in Hy as ->; unfold byte; lia).
  destruct (matches_isa s [ISSE41]) eqn:E.
  - rewrite !SW by auto. cbn [obind]. rewrite splat256_1 by auto. cbn [obind].
    rewrite u8x32_lt_ok by (auto; apply repeat_length). cbn [obind].
    rewrite map2_repeat_l by auto.
    rewrite u8x32_blendv_ok by (auto; now rewrite map_length). now rewrite map3_map.
  - destruct (matches_isa s [INEON] && arch_aarch64 s) eqn:E2.
    + destruct s; try discriminate. unfold u8x32_swizzle.
      change (Some (map (tbl32_lane (b32_charset k)) (lo128 x) ++ map (tbl32_lane (b32_charset k)) (hi128 x)) = Some (map (tbl32_lane (b32_charset k)) x)).
      rewrite <- map_app, lo_hi. reflexivity.
    + assert (matches_isa s [INEON; IWASM128] = true) as -> by (destruct s; try discriminate; reflexivity).
      rewrite splat256_1 by auto. cbn [obind].
      rewrite wide_and by (auto; apply repeat_length). cbn [obind].
      rewrite map2_repeat_r by auto.
      rewrite !SW by (auto; now rewrite map_length). cbn [obind].
      rewrite u8x32_lt_ok by (auto; apply repeat_length). cbn [obind].
      rewrite map2_repeat_l by auto.
      rewrite v256_bsl_ok; auto; rewrite ?map_length; auto.
      * rewrite !map_map. now rewrite map3_map.
      * exact (mask8_bytes (fun y => 15 <? y) x).
      * apply Forall_forall. intros y Hy. apply in_map_iff in Hy as (z & <- & _). apply swz_lane_byte, bytes_hi, charset_bytes.
      * apply Forall_forall. intros y Hy. apply in_map_iff in Hy as (z & <- & _). apply swz_lane_byte, bytes_lo, charset_bytes.
Qed.

Lemma oct_range a b c d e : byte a -> byte b -> byte c -> byte d -> byte e -> Forall five (oct a b c d e).
Proof. unfold byte, oct, five. intros. repeat constructor; lia. Qed.
Lemma octs_range l : bytes l -> Forall five (octs l).
Proof.
  induction l as [l H|a b c d e r IH] using list_ind5; intro B.
  - destruct l as [|a [|b [|c [|d [|e r]]]]]; try (now constructor). cbn [length] in H. lia.
  - inv_bytes. cbn [octs]. apply Forall_app. split; auto using oct_range.
Qed.

Lemma encode_bytes20_ok s k x : sse41p s -> length x = 32%nat -> bytes x ->
  encode_bytes20 s x (b32_encoding_lut (b32_charset k)) = Some (b32_chars k (octs (firstn 20 (skipn 6 x)))).
Proof.
  intros Hs L B. unfold encode_bytes20. rewrite split_bits_ok by (auto using sse41p_swz). cbn [obind].
  apply b32_encode_values_ok; auto.
  - rewrite octs_len, firstn_length, skipn_length, L. reflexivity.
  - apply octs_range, bytes_firstn, bytes_skipn, B.
Qed.
