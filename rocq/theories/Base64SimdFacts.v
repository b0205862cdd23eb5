(** The base64 vector kernels compute the group-wise encoding and decoding. *)
From Coq Require Import ZArith List Bool Lia ZifyBool ZifyNat.
From Verif Require Import Bytes Mem Isa Simd SimdFacts Alsw AlswFacts Spec HexSimdFacts Ints Base64.
Import ListNotations.
Open Scope Z_scope.
Ltac Zify.zify_post_hook ::= Z.div_mod_to_equations.

(** ** Six-bit values of groups of three bytes *)
Definition sext (a b c : Z) : list Z := [a / 4; (a mod 4) * 16 + b / 16; (b mod 16) * 4 + c / 64; c mod 64].
Fixpoint sextets (l : list Z) : list Z :=
  match l with a :: b :: c :: r => sext a b c ++ sextets r | _ => [] end.
Fixpoint quads (l : list Z) : list Z :=
  match l with a :: b :: c :: r => b :: a :: c :: b :: quads r | _ => [] end.

Lemma list_ind3 (P : list Z -> Prop) :
  P [] -> (forall a, P [a]) -> (forall a b, P [a; b]) -> (forall a b c r, P r -> P (a :: b :: c :: r)) -> forall l, P l.
Proof.
  intros H0 H1 H2 H3 l. assert (G : forall n l, (length l <= n)%nat -> P l).
  { induction n; intros [|a [|b [|c r]]] L; auto; cbn in L; try lia. apply H3, IHn. lia. }
  now apply (G (length l)).
Qed.

(** destructing list equations without simplifying the elements *)
Lemma eq2 {A} (a b c d : A) : [a; b] = [c; d] -> a = c /\ b = d.
Proof. intro H. split; congruence. Qed.
Lemma eq3 {A} (a b c d e f : A) : [a; b; c] = [d; e; f] -> a = d /\ b = e /\ c = f.
Proof. intro H. repeat split; congruence. Qed.
Lemma eq4 {A} (a b c d e f g h : A) : [a; b; c; d] = [e; f; g; h] -> a = e /\ b = f /\ c = g /\ d = h.
Proof. intro H. repeat split; congruence. Qed.

Lemma splat128_ok s v : simd s -> splat128 s v = Some (repeat_list (16 / length v) v).
Proof. unfold splat128, arm, simd, all3. now intros ->. Qed.
Lemma splat256_4 s a b c d : simd s -> splat256 s [a; b; c; d] = Some (repeat_list 8 [a; b; c; d]).
Proof. intro H. unfold splat256. rewrite splat128_ok by exact H. cbn [length Nat.eqb]. rewrite andb_false_r. reflexivity. Qed.
Lemma splat256_2 s a b : simd s -> splat256 s [a; b] = Some (repeat_list 16 [a; b]).
Proof. intro H. unfold splat256. rewrite splat128_ok by exact H. cbn [length Nat.eqb]. rewrite andb_false_r. reflexivity. Qed.
Lemma splat256_8 s a b c d e f g h : simd s -> splat256 s [a; b; c; d; e; f; g; h] = Some (repeat_list 4 [a; b; c; d; e; f; g; h]).
Proof. intro H. unfold splat256. rewrite splat128_ok by exact H. cbn [length Nat.eqb]. rewrite andb_false_r. reflexivity. Qed.

Lemma wide_mul_lo s a b : simd s -> length a = 32%nat -> length b = 32%nat ->
  i16x16_mul_lo s a b = Some (lanes16_2 u16_mul_lo a b).
Proof.
  intros Hs La Lb. apply wide2_ok; auto; [intros; now apply native2_ok|now apply lanes16_2_halves].
Qed.
Lemma wide_mul_hi s a b : matches_isa s [ISSE2] = true -> length a = 32%nat -> length b = 32%nat ->
  u16x16_mul_hi s a b = Some (lanes16_2 u16_mul_hi a b).
Proof.
  intros Hs La Lb. apply wide2_ok; auto; [intros; unfold u16x8_mul_hi, arm; now rewrite Hs|now apply lanes16_2_halves].
Qed.
Lemma wide_maddubs s a b : matches_isa s [ISSSE3] = true -> length a = 32%nat -> length b = 32%nat ->
  i16x16_maddubs s a b = Some (lanes_maddubs a b).
Proof.
  intros Hs La Lb. apply wide2_ok; auto; [intros; unfold i16x8_maddubs, arm; now rewrite Hs|now apply lanes_maddubs_halves].
Qed.
Lemma wide_madd s a b : matches_isa s [ISSE2] = true -> length a = 32%nat -> length b = 32%nat ->
  i16x16_madd s a b = Some (lanes_madd a b).
Proof.
  intros Hs La Lb. apply wide2_ok; auto; [intros; unfold i16x8_madd, arm; now rewrite Hs|now apply lanes_madd_halves].
Qed.
Lemma wide_shl32 s n a : simd s -> length a = 32%nat -> u32x8_shl s n a = Some (lanes32 (u32_shl n) a).
Proof. intros Hs La. apply wide1_ok; auto; [intros; now apply native1_ok|now apply lanes32_halves]. Qed.
Lemma wide_shr32 s n a : simd s -> length a = 32%nat -> u32x8_shr s n a = Some (lanes32 (u32_shr n) a).
Proof. intros Hs La. apply wide1_ok; auto; [intros; now apply native1_ok|now apply lanes32_halves]. Qed.

(** ** Splitting bits *)
Lemma quads_len l : (length l mod 3 = 0)%nat -> length (quads l) = (length l / 3 * 4)%nat.
Proof.
  induction l as [|a|a b|a b c r IH] using list_ind3; intro H; try reflexivity; try discriminate.
  cbn [quads length] in *. assert (length r mod 3 = 0)%nat by lia. rewrite IH by auto. lia.
Qed.


Lemma lane_a_mul a b : byte a -> byte b ->
  (let y := u16_mul_hi (mk16 (u8_and b 0) (u8_and a 252)) (mk16 64 0) in
   let z := u16_mul_lo (mk16 (u8_and b 240) (u8_and a 3)) (mk16 16 0) in
   [u8_or (byte0 y) (byte0 z); u8_or (byte1 y) (byte1 z)]) = [a / 4; (a mod 4) * 16 + b / 16].
Proof.
  intros Ha Hb. cbv zeta. rewrite !and_0, and_252, and_240, and_3 by auto. unfold byte in *.
  assert (Y : u16_mul_hi (mk16 0 (4 * (a / 4))) (mk16 64 0) = a / 4) by (unfold u16_mul_hi, mk16; lia).
  assert (Z0 : u16_mul_lo (mk16 (16 * (b / 16)) (a mod 4)) (mk16 16 0) = 256 * ((a mod 4) * 16 + b / 16)) by (unfold u16_mul_lo, mk16; lia).
  rewrite Y, Z0. unfold byte0, byte1. replace (a / 4 / 256) with 0 by lia. change (0 / 256) with 0. rewrite !Z.mod_0_l by lia. replace (256 * (a mod 4 * 16 + b / 16) mod 256) with 0 by lia.
  rewrite ?or_0r, ?or_0l. apply mk_eq2; lia.
Qed.
Lemma lane_b_mul b c : byte b -> byte c ->
  (let y := u16_mul_hi (mk16 (u8_and c 192) (u8_and b 15)) (mk16 0 4) in
   let z := u16_mul_lo (mk16 (u8_and c 63) (u8_and b 0)) (mk16 0 1) in
   [u8_or (byte0 y) (byte0 z); u8_or (byte1 y) (byte1 z)]) = [(b mod 16) * 4 + c / 64; c mod 64].
Proof.
  intros Ha Hb. cbv zeta. rewrite !and_0, and_192, and_15, and_63 by auto. unfold byte in *.
  assert (Y : u16_mul_hi (mk16 (64 * (c / 64)) (b mod 16)) (mk16 0 4) = (b mod 16) * 4 + c / 64) by (unfold u16_mul_hi, mk16; lia).
  assert (Z0 : u16_mul_lo (mk16 (c mod 64) 0) (mk16 0 1) = 256 * (c mod 64)) by (unfold u16_mul_lo, mk16; lia).
  rewrite Y, Z0. unfold byte0, byte1. replace ((b mod 16 * 4 + c / 64) / 256) with 0 by lia. change (0 / 256) with 0. rewrite !Z.mod_0_l by lia. replace (256 * (c mod 64) mod 256) with 0 by lia.
  rewrite ?or_0r, ?or_0l. apply mk_eq2; lia.
Qed.
Lemma lane_a_shift a b : byte a -> byte b ->
  (let p := u16_shr 10 (mk16 (u8_and b 0) (u8_and a 252)) in
   let q := u16_shl 4 (mk16 (u8_and b 240) (u8_and a 3)) in
   let r := u16_shr 6 (mk16 (u8_and b 0) (u8_and a 0)) in
   let t := u16_shl 8 (mk16 (u8_and b 0) (u8_and a 0)) in
   [u8_or (u8_or (byte0 p) (byte0 q)) (u8_or (byte0 r) (byte0 t));
    u8_or (u8_or (byte1 p) (byte1 q)) (u8_or (byte1 r) (byte1 t))]) = [a / 4; (a mod 4) * 16 + b / 16].
Proof.
  intros Ha Hb. cbv zeta. rewrite !and_0, and_252, and_240, and_3 by auto. unfold byte in *.
  assert (Y : u16_shr 10 (mk16 0 (4 * (a / 4))) = a / 4) by (unfold u16_shr, mk16; change (pow2 10) with 1024; lia).
  assert (Z0 : u16_shl 4 (mk16 (16 * (b / 16)) (a mod 4)) = 256 * ((a mod 4) * 16 + b / 16)) by (unfold u16_shl, mk16; change (pow2 4) with 16; lia).
  rewrite Y, Z0. change (u16_shr 6 (mk16 0 0)) with 0. change (u16_shl 8 (mk16 0 0)) with 0. unfold byte0, byte1. replace (a / 4 / 256) with 0 by lia. change (0 / 256) with 0. rewrite !Z.mod_0_l by lia. replace (256 * (a mod 4 * 16 + b / 16) mod 256) with 0 by lia.
  rewrite ?or_0r, ?or_0l. apply mk_eq2; lia.
Qed.
Lemma lane_b_shift b c : byte b -> byte c ->
  (let p := u16_shr 10 (mk16 (u8_and c 0) (u8_and b 0)) in
   let q := u16_shl 4 (mk16 (u8_and c 0) (u8_and b 0)) in
   let r := u16_shr 6 (mk16 (u8_and c 192) (u8_and b 15)) in
   let t := u16_shl 8 (mk16 (u8_and c 63) (u8_and b 0)) in
   [u8_or (u8_or (byte0 p) (byte0 q)) (u8_or (byte0 r) (byte0 t));
    u8_or (u8_or (byte1 p) (byte1 q)) (u8_or (byte1 r) (byte1 t))]) = [(b mod 16) * 4 + c / 64; c mod 64].
Proof.
  intros Ha Hb. cbv zeta. rewrite !and_0, and_192, and_15, and_63 by auto. unfold byte in *.
  assert (Y : u16_shr 6 (mk16 (64 * (c / 64)) (b mod 16)) = (b mod 16) * 4 + c / 64) by (unfold u16_shr, mk16; change (pow2 6) with 64; lia).
  assert (Z0 : u16_shl 8 (mk16 (c mod 64) 0) = 256 * (c mod 64)) by (unfold u16_shl, mk16; change (pow2 8) with 256; lia).
  rewrite Y, Z0. change (u16_shr 10 (mk16 0 0)) with 0. change (u16_shl 4 (mk16 0 0)) with 0. unfold byte0, byte1. replace ((b mod 16 * 4 + c / 64) / 256) with 0 by lia. change (0 / 256) with 0. rewrite !Z.mod_0_l by lia. replace (256 * (c mod 64) mod 256) with 0 by lia.
  rewrite ?or_0r, ?or_0l. apply mk_eq2; lia.
Qed.

Definition mul_core (x : list Z) (n : nat) : list Z :=
  map2 u8_or
    (lanes16_2 u16_mul_hi (map2 u8_and x (repeat_list n [0; 252; 192; 15])) (repeat_list n [64; 0; 0; 4]))
    (lanes16_2 u16_mul_lo (map2 u8_and x (repeat_list n [240; 3; 63; 0])) (repeat_list n [16; 0; 0; 1])).
Definition shift_core (x : list Z) (n : nat) : list Z :=
  map2 u8_or
    (map2 u8_or (lanes16 (u16_shr 10) (map2 u8_and x (repeat_list n [0; 252; 0; 0])))
                (lanes16 (u16_shl 4) (map2 u8_and x (repeat_list n [240; 3; 0; 0]))))
    (map2 u8_or (lanes16 (u16_shr 6) (map2 u8_and x (repeat_list n [0; 0; 192; 15])))
                (lanes16 (u16_shl 8) (map2 u8_and x (repeat_list n [0; 0; 63; 0])))).

Lemma mul_core_ok l n : (length l = 3 * n)%nat -> bytes l -> mul_core (quads l) n = sextets l.
Proof.
  revert n. induction l as [|a|a b|a b c r IH] using list_ind3; intros n L B; cbn [length] in L; try lia.
  - assert (n = 0)%nat as -> by lia. reflexivity.
  - destruct n as [|n]; [lia|]. inv_bytes. 
    assert (LA := lane_a_mul a b ltac:(assumption) ltac:(assumption)).
    assert (LB := lane_b_mul b c ltac:(assumption) ltac:(assumption)). cbn zeta in LA, LB.
    unfold mul_core in *. cbn [quads repeat_list app map2 lanes16_2 sextets sext]. cbn zeta.
    apply eq2 in LA as [-> ->]. apply eq2 in LB as [-> ->]. rewrite IH; auto. lia.
Qed.
Lemma shift_core_ok l n : (length l = 3 * n)%nat -> bytes l -> shift_core (quads l) n = sextets l.
Proof.
  revert n. induction l as [|a|a b|a b c r IH] using list_ind3; intros n L B; cbn [length] in L; try lia.
  - assert (n = 0)%nat as -> by lia. reflexivity.
  - destruct n as [|n]; [lia|]. inv_bytes.
    assert (LA := lane_a_shift a b ltac:(assumption) ltac:(assumption)).
    assert (LB := lane_b_shift b c ltac:(assumption) ltac:(assumption)). cbn zeta in LA, LB.
    unfold shift_core in *. cbn [quads repeat_list app map2 lanes16 sextets sext]. cbn zeta.
    apply eq2 in LA as [-> ->]. apply eq2 in LB as [-> ->]. rewrite IH; auto. lia.
Qed.

Lemma split_shuffle s x : swz s -> length x = 32%nat ->
  u8x16x2_swizzle s x B64_SPLIT_SHUFFLE = Some (quads (firstn 24 (skipn 4 x))).
Proof. intros Hs L. explode x. destruct s; try discriminate Hs; reflexivity. Qed.
Lemma split_shuffle_x1 s x : swz s -> length x = 16%nat ->
  u8x16_swizzle s x (hi128 B64_SPLIT_SHUFFLE) = Some (quads (firstn 12 x)).
Proof. intros Hs L. explode x. destruct s; try discriminate Hs; reflexivity. Qed.

Lemma swz_cases s : swz s -> matches_isa s [ISSE2] = true \/ (matches_isa s [ISSE2] = false /\ matches_isa s [INEON; IWASM128] = true).
Proof. destruct s; try discriminate; auto. Qed.
Lemma swz_cases3 s : swz s -> matches_isa s [ISSSE3] = true \/ (matches_isa s [ISSSE3] = false /\ matches_isa s [INEON; IWASM128] = true).
Proof. destruct s; try discriminate; auto. Qed.
Lemma ssse3_sse2 s : matches_isa s [ISSSE3] = true -> matches_isa s [ISSE2] = true.
Proof. destruct s; try discriminate; auto. Qed.

Lemma lanes16_2_len f a b n : length a = (2 * n)%nat -> length b = (2 * n)%nat -> length (lanes16_2 f a b) = (2 * n)%nat.
Proof.
  revert a b. induction n; intros [|a1 [|a2 a]] [|b1 [|b2 b]] La Lb; try reflexivity; cbn [length] in La, Lb; try lia.
  cbn [lanes16_2 length]. rewrite IHn by lia. lia.
Qed.
Lemma lanes16_len f a n : length a = (2 * n)%nat -> length (lanes16 f a) = (2 * n)%nat.
Proof. intro H. apply len_lanes16; auto. rewrite H. apply Nat.even_spec. now exists n. Qed.
Lemma lanes32_len f a n : length a = (4 * n)%nat -> length (lanes32 f a) = (4 * n)%nat.
Proof.
  revert a. induction n; intros [|a1 [|a2 [|a3 [|a4 a]]]] La; try reflexivity; cbn [length] in La; try lia.
  cbn [lanes32 length]. rewrite IHn by lia. lia.
Qed.
Lemma repeat_list_len n v : length (repeat_list n v) = (n * length v)%nat.
Proof. induction n; cbn [repeat_list]; [reflexivity|]. rewrite app_length, IHn. lia. Qed.

Ltac vlens := repeat first
  [ assumption | apply len_map2 | apply len_map | apply (lanes16_2_len _ _ _ 16) | apply (lanes16_len _ _ 16) | apply (lanes32_len _ _ 8) | apply repeat_list_len
  | rewrite !repeat_list_len; reflexivity ].

Lemma split_bits_x2_ok s x : swz s -> length x = 32%nat -> bytes x ->
  split_bits_x2 s x = Some (sextets (firstn 24 (skipn 4 x))).
Proof.
  intros Hs L B. unfold split_bits_x2. rewrite split_shuffle by auto. cbn [obind].
  assert (Hs' := swz_simd _ Hs).
  set (l := firstn 24 (skipn 4 x)).
  assert (Ll : length l = 24%nat) by (unfold l; rewrite firstn_length, skipn_length; lia).
  assert (Bl : bytes l) by (apply bytes_firstn, bytes_skipn, B).
  assert (Lq : length (quads l) = 32%nat) by (rewrite quads_len; rewrite Ll; reflexivity).
  destruct (swz_cases s Hs) as [E|[E E']]; rewrite E, ?E'.
  - rewrite !splat256_4 by auto. cbn [obind].
    rewrite !wide_and by (auto; vlens). cbn [obind].
    rewrite wide_mul_hi by (auto; vlens). cbn [obind].
    rewrite wide_mul_lo by (auto; vlens). cbn [obind].
    rewrite wide_or by (auto; vlens).
    f_equal. exact (mul_core_ok l 8 Ll Bl).
  - rewrite !splat256_4 by auto. cbn [obind].
    rewrite !wide_and by (auto; vlens). cbn [obind].
    rewrite !wide_shr16 by (auto; vlens). cbn [obind].
    rewrite !wide_shl16 by (auto; vlens). cbn [obind].
    rewrite !wide_or by (auto; vlens). cbn [obind].
    rewrite !wide_or by (auto; vlens).
    f_equal. exact (shift_core_ok l 8 Ll Bl).
Qed.

Lemma split_bits_x1_ok s x : swz s -> length x = 16%nat -> bytes x ->
  split_bits_x1 s x = Some (sextets (firstn 12 x)).
Proof.
  intros Hs L B. unfold split_bits_x1. rewrite split_shuffle_x1 by auto. cbn [obind].
  assert (Hs' := swz_simd _ Hs).
  set (l := firstn 12 x).
  assert (Ll : length l = 12%nat) by (unfold l; rewrite firstn_length; lia).
  assert (Bl : bytes l) by (apply bytes_firstn, B).
  destruct (swz_cases s Hs) as [E|[E E']]; rewrite E, ?E'.
  - rewrite !splat128_ok by auto. cbn [obind]. unfold v128_and, v128_or, i16x8_mul_lo, u16x8_mul_hi, arm.
    rewrite !native2_ok by auto. cbn [obind]. rewrite E. cbn [obind]. rewrite !native2_ok by auto. cbn [obind].
    rewrite !native2_ok by auto.
    f_equal. exact (mul_core_ok l 4 Ll Bl).
  - rewrite !splat128_ok by auto. cbn [obind]. unfold v128_and, v128_or, u16x8_shr, u16x8_shl.
    rewrite !native2_ok by auto. cbn [obind].
    rewrite !native1_ok by auto. cbn [obind].
    rewrite !native2_ok by auto. cbn [obind].
    rewrite !native2_ok by auto.
    f_equal. exact (shift_core_ok l 4 Ll Bl).
Qed.

(** ** Values to characters *)
Definition enc_lane (s : isa) (lut : list Z) (x : Z) : Z :=
  u8_add x (swz_lane s lut (u8_or (u8_sub_sat x 51) (u8_and (i8_lt x 26) 13))).

Lemma encoding_shift_len k : length (encoding_shift (b64_charset k)) = 16%nat.
Proof. destruct k; reflexivity. Qed.

Lemma enc_lane_ok s k v : swz s -> 0 <= v < 64 ->
  enc_lane s (encoding_shift (b64_charset k)) v = nth (Z.to_nat v) (b64_charset k) 0.
Proof.
  intros Hs Hv. apply Z.eqb_eq. revert v Hv. apply (sweep1 64).
  destruct s, k; try discriminate Hs; vm_compute; reflexivity.
Qed.

Lemma map2_map_both {A B C D} (f : B -> C -> D) (g : A -> B) (h : A -> C) (x : list A) :
  map2 f (map g x) (map h x) = map (fun v => f (g v) (h v)) x.
Proof. induction x; cbn; [|rewrite IHx]; reflexivity. Qed.
Lemma map2_map_right {A C D} (f : A -> C -> D) (h : A -> C) (x : list A) :
  map2 f x (map h x) = map (fun v => f v (h v)) x.
Proof. induction x; cbn; [|rewrite IHx]; reflexivity. Qed.

Lemma b64_encode_values_ok w s k x : swz s -> length x = vlen w -> Forall (fun v => 0 <= v < 64) x ->
  b64_encode_values w s x (xn_lut w (encoding_shift (b64_charset k))) =
  Some (map (fun v => nth (Z.to_nat v) (b64_charset k) 0) x).
Proof.
  intros Hs L F. assert (Hs' := swz_simd _ Hs). unfold b64_encode_values.
  rewrite !u8xn_splat_ok by auto. cbn [obind].
  rewrite u8xn_sub_sat_ok by (auto; apply repeat_length). cbn [obind].
  rewrite i8xn_lt_ok by (auto; apply repeat_length). cbn [obind].
  rewrite !map2_repeat_r by (auto; now rewrite map_length).
  rewrite xn_and_ok by (auto; try apply repeat_length; now rewrite map_length). cbn [obind].
  rewrite !map2_repeat_r by (auto; now rewrite map_length). rewrite map_map.
  rewrite xn_or_ok by (auto; now rewrite map_length). cbn [obind].
  rewrite map2_map_both.
  rewrite u8x16xn_swizzle_ok by (auto using encoding_shift_len; now rewrite map_length). cbn [obind].
  rewrite map_map. rewrite u8xn_add_ok by (auto; now rewrite map_length).
  rewrite map2_map_right. f_equal. apply map_ext_in. intros v Hv.
  rewrite Forall_forall in F. apply (enc_lane_ok s k v Hs). auto.
Qed.

Lemma sext_range a b c : byte a -> byte b -> byte c -> Forall (fun v => 0 <= v < 64) (sext a b c).
Proof. unfold byte, sext. intros. repeat constructor; lia. Qed.
Lemma sextets_range l : bytes l -> Forall (fun v => 0 <= v < 64) (sextets l).
Proof.
  induction l as [|a|a b|a b c r IH] using list_ind3; intro B; try (now constructor).
  inv_bytes. cbn [sextets]. apply Forall_app. split; auto using sext_range.
Qed.
Lemma sextets_len l : length (sextets l) = (length l / 3 * 4)%nat.
Proof.
  induction l as [|a|a b|a b c r IH] using list_ind3; try reflexivity.
  cbn [sextets sext app length]. rewrite IH. lia.
Qed.

Definition b64_chars (k : b64_kind) (l : list Z) : list Z := map (fun v => nth (Z.to_nat v) (b64_charset k) 0) l.

Lemma encode_bytes24_ok s k x : swz s -> length x = 32%nat -> bytes x ->
  encode_bytes24 s x (x2 (encoding_shift (b64_charset k))) = Some (b64_chars k (sextets (firstn 24 (skipn 4 x)))).
Proof.
  intros Hs L B. unfold encode_bytes24. rewrite split_bits_x2_ok by auto. cbn [obind].
  apply (b64_encode_values_ok W256); auto.
  - rewrite sextets_len, firstn_length, skipn_length, L. reflexivity.
  - apply sextets_range, bytes_firstn, bytes_skipn, B.
Qed.
Lemma encode_bytes12_ok s k x : swz s -> length x = 16%nat -> bytes x ->
  encode_bytes12 s x (encoding_shift (b64_charset k)) = Some (b64_chars k (sextets (firstn 12 x))).
Proof.
  intros Hs L B. unfold encode_bytes12. rewrite split_bits_x1_ok by auto. cbn [obind].
  apply (b64_encode_values_ok W128); auto.
  - rewrite sextets_len, firstn_length, L. reflexivity.
  - apply sextets_range, bytes_firstn, B.
Qed.

(** ** Merging bits *)
Definition trip (a b c d : Z) : list Z := [4 * a + b / 16; (b mod 16) * 16 + c / 4; (c mod 4) * 64 + d].
Fixpoint triples (l : list Z) : list Z :=
  match l with a :: b :: c :: d :: r => trip a b c d ++ triples r | _ => [] end.
Definition rtrip (a b c d : Z) : list Z := [(c mod 4) * 64 + d; (b mod 16) * 16 + c / 4; 4 * a + b / 16; 0].
Fixpoint rtriples (l : list Z) : list Z :=
  match l with a :: b :: c :: d :: r => rtrip a b c d ++ rtriples r | _ => [] end.

Lemma list_ind4 (P : list Z -> Prop) :
  P [] -> (forall a, P [a]) -> (forall a b, P [a; b]) -> (forall a b c, P [a; b; c]) ->
  (forall a b c d r, P r -> P (a :: b :: c :: d :: r)) -> forall l, P l.
Proof.
  intros H0 H1 H2 H3 H4 l. assert (G : forall n l, (length l <= n)%nat -> P l).
  { induction n; intros [|a [|b [|c [|d r]]]] L; auto; cbn in L; try lia. apply H4, IHn. lia. }
  now apply (G (length l)).
Qed.

Definition six (v : Z) : Prop := 0 <= v < 64.

Lemma maddubs_six a b : six a -> six b -> maddubs a b 64 1 = 64 * a + b.
Proof. unfold six, maddubs, clamp. intros Ha Hb. change (s8 64) with 64. change (s8 1) with 1. lia. Qed.

Definition madd_core (x : list Z) (n : nat) : list Z :=
  lanes_madd (lanes_maddubs x (repeat_list (2 * n) [64; 1])) (repeat_list n [0; 16; 1; 0]).

Lemma mk16_bytes y : 0 <= y < 65536 -> mk16 (byte0 y) (byte1 y) = y.
Proof. unfold mk16, byte0, byte1. lia. Qed.

Lemma madd_lane a b c d : six a -> six b -> six c -> six d ->
  (let y := madd (64 * a + b) (64 * c + d) (mk16 0 16) (mk16 1 0) in [byte0 y; byte1 y; byte2 y; byte3 y]) = rtrip a b c d.
Proof.
  unfold six. intros. change (mk16 0 16) with 4096. change (mk16 1 0) with 1.
  unfold madd. change (s16 4096) with 4096. change (s16 1) with 1.
  assert (s16 (64 * a + b) = 64 * a + b) as -> by (unfold s16; destruct (Z.ltb_spec (64 * a + b) 32768); lia).
  assert (s16 (64 * c + d) = 64 * c + d) as -> by (unfold s16; destruct (Z.ltb_spec (64 * c + d) 32768); lia).
  rewrite Z.mod_small by lia. unfold rtrip, byte0, byte1, byte2, byte3.
  repeat (f_equal; try lia).
Qed.

Lemma madd_core_ok l n : (length l = 4 * n)%nat -> Forall six l -> madd_core l n = rtriples l.
Proof.
  revert n. induction l as [|a|a b|a b c|a b c d r IH] using list_ind4; intros n L F; cbn [length] in L; try lia.
  - assert (n = 0)%nat as -> by lia. reflexivity.
  - destruct n as [|n]; [lia|].
    repeat match goal with H : Forall six (_ :: _) |- _ => inversion H; clear H; subst end.
    assert (LA := madd_lane a b c d ltac:(assumption) ltac:(assumption) ltac:(assumption) ltac:(assumption)). cbn zeta in LA.
    unfold madd_core in *. replace (2 * S n)%nat with (S (S (2 * n))) by lia.
    cbn [repeat_list app lanes_maddubs rtriples]. cbn zeta. rewrite !maddubs_six by auto.
    cbn [lanes_madd]. cbn zeta. unfold six in *. rewrite !mk16_bytes by lia.
    unfold rtrip in LA |- *. cbn [app]. apply eq4 in LA as (-> & -> & -> & ->). rewrite IH; auto. lia.
Qed.

(** the shift version *)
Definition shift32_core (x : list Z) (n : nat) : list Z :=
  let y1 := map2 u8_and x (repeat_list n [63; 0; 63; 0]) in
  let y2 := map2 u8_and x (repeat_list n [0; 63; 0; 63]) in
  map2 u8_and
    (map2 u8_or (map2 u8_or (lanes32 (u32_shl 18) y1) (lanes32 (u32_shr 10) y1))
                (map2 u8_or (lanes32 (u32_shl 4) y2) (lanes32 (u32_shr 24) y2)))
    (repeat_list n [255; 255; 255; 0]).

Lemma and63 v : six v -> u8_and v 63 = v.
Proof. intro H. apply Z.eqb_eq. revert v H. apply (sweep1 64). vm_compute. reflexivity. Qed.
Lemma and0 v : u8_and v 0 = 0.
Proof. apply Z.land_0_r. Qed.

Lemma or3 x y : six x -> six y -> u8_and (u8_or (u8_or 0 ((64 * x) mod 256)) (u8_or 0 y)) 255 = (x mod 4) * 64 + y.
Proof.
  unfold six. intros Ha Hb. rewrite !or_0l, and_255. replace (64 * x mod 256) with (2 ^ 6 * (x mod 4)) by lia.
  unfold u8_or. rewrite (lor_disj 6) by lia. change (2 ^ 6) with 64. lia.
Qed.
Lemma or4 b c : six b -> six c -> u8_and (u8_or (u8_or 0 (c / 4)) (u8_or ((16 * b) mod 256) 0)) 255 = (b mod 16) * 16 + c / 4.
Proof.
  unfold six. intros Ha Hb. rewrite !or_0l, or_0r, and_255. replace (16 * b mod 256) with (2 ^ 4 * (b mod 16)) by lia.
  unfold u8_or. rewrite Z.lor_comm, (lor_disj 4) by lia. change (2 ^ 4) with 16. lia.
Qed.
Lemma or5 a b : six a -> six b -> u8_and (u8_or (u8_or (4 * a) 0) (u8_or (b / 16) 0)) 255 = 4 * a + b / 16.
Proof.
  unfold six. intros Ha Hb. rewrite !or_0r, and_255. unfold u8_or. change (4 * a) with (2 ^ 2 * a). rewrite (lor_disj 2) by lia. change (2 ^ 2) with 4. lia.
Qed.

Lemma shl18_lane a c : six a -> six c -> let y := u32_shl 18 (mk32 a 0 c 0) in
  [byte0 y; byte1 y; byte2 y] = [0; 0; 4 * a].
Proof. unfold six. intros. cbn zeta. unfold u32_shl, mk32, byte0, byte1, byte2. change (pow2 18) with 262144. repeat (f_equal; try lia). Qed.
Lemma shr10_lane a c : six a -> six c -> let y := u32_shr 10 (mk32 a 0 c 0) in
  [byte0 y; byte1 y; byte2 y] = [(64 * c) mod 256; c / 4; 0].
Proof. unfold six. intros. cbn zeta. unfold u32_shr, mk32, byte0, byte1, byte2. change (pow2 10) with 1024. repeat (f_equal; try lia). Qed.
Lemma shl4_lane b d : six b -> six d -> let y := u32_shl 4 (mk32 0 b 0 d) in
  [byte0 y; byte1 y; byte2 y] = [0; (16 * b) mod 256; b / 16].
Proof. unfold six. intros. cbn zeta. unfold u32_shl, mk32, byte0, byte1, byte2. change (pow2 4) with 16. repeat (f_equal; try lia). Qed.
Lemma shr24_lane b d : six b -> six d -> let y := u32_shr 24 (mk32 0 b 0 d) in
  [byte0 y; byte1 y; byte2 y] = [d; 0; 0].
Proof. unfold six. intros. cbn zeta. unfold u32_shr, mk32, byte0, byte1, byte2. change (pow2 24) with 16777216. repeat (f_equal; try lia). Qed.

Lemma shift32_core_ok l n : (length l = 4 * n)%nat -> Forall six l -> shift32_core l n = rtriples l.
Proof.
  revert n. induction l as [|a|a b|a b c|a b c d r IH] using list_ind4; intros n L F; cbn [length] in L; try lia.
  - assert (n = 0)%nat as -> by lia. reflexivity.
  - destruct n as [|n]; [lia|].
    repeat match goal with H : Forall six (_ :: _) |- _ => inversion H; clear H; subst end.
    unfold shift32_core in *. cbn [repeat_list app map2]. rewrite !and63, !and0 by auto.
    cbn [lanes32 map2 rtriples]. cbn zeta.
    assert (A1 := shl18_lane a c ltac:(assumption) ltac:(assumption)). cbn zeta in A1. apply eq3 in A1 as (-> & -> & ->).
    assert (A2 := shr10_lane a c ltac:(assumption) ltac:(assumption)). cbn zeta in A2. apply eq3 in A2 as (-> & -> & ->).
    assert (A3 := shl4_lane b d ltac:(assumption) ltac:(assumption)). cbn zeta in A3. apply eq3 in A3 as (-> & -> & ->).
    assert (A4 := shr24_lane b d ltac:(assumption) ltac:(assumption)). cbn zeta in A4. apply eq3 in A4 as (-> & -> & ->).
    rewrite or3, or4, or5, and0 by auto. unfold rtrip. cbn [app]. rewrite IH; auto. lia.
Qed.

Lemma rtriples_len l : length (rtriples l) = (length l / 4 * 4)%nat.
Proof.
  induction l as [|a|a b|a b c|a b c d r IH] using list_ind4; try reflexivity.
  cbn [rtriples rtrip app length]. rewrite IH. lia.
Qed.
Lemma triples_len l : length (triples l) = (length l / 4 * 3)%nat.
Proof.
  induction l as [|a|a b|a b c|a b c d r IH] using list_ind4; try reflexivity.
  cbn [triples trip app length]. rewrite IH. lia.
Qed.

(** the two 16-byte halves each carry twelve decoded bytes *)
Definition merged (l : list Z) : list Z :=
  triples (firstn 16 l) ++ [0; 0; 0; 0] ++ triples (skipn 16 l) ++ [0; 0; 0; 0].

Lemma merge_shuffle s l : swz s -> length l = 32%nat ->
  u8x16x2_swizzle s (rtriples l) B64_MERGE_SHUFFLE = Some (merged l).
Proof. intros Hs L. explode l. destruct s; try discriminate Hs; reflexivity. Qed.

Lemma merge_bits_x2_ok s x : swz s -> length x = 32%nat -> Forall six x -> merge_bits_x2 s x = Some (merged x).
Proof.
  intros Hs L F. unfold merge_bits_x2. assert (Hs' := swz_simd _ Hs).
  rewrite <- (merge_shuffle s x Hs L).
  match goal with |- obind ?e _ = _ => enough (e = Some (rtriples x)) as -> by reflexivity end.
  destruct (swz_cases3 s Hs) as [E|[E E']]; rewrite E, ?E'.
  - rewrite !splat256_2, !splat256_4 by auto. cbn [obind].
    rewrite wide_maddubs by (auto; vlens). cbn [obind].
    rewrite wide_madd; [|now apply ssse3_sse2| |vlens].
    + f_equal. exact (madd_core_ok x 8 L F).
    + clear -L. explode x. reflexivity.
  - rewrite !splat256_4 by auto. cbn [obind].
    rewrite !wide_and by (auto; vlens). cbn [obind].
    rewrite !wide_shl32 by (auto; vlens). cbn [obind].
    rewrite !wide_shr32 by (auto; vlens). cbn [obind].
    repeat (rewrite !wide_or by (auto; vlens); cbn [obind]).
    rewrite wide_and by (auto; vlens).
    f_equal. exact (shift32_core_ok x 8 L F).
Qed.

(** on anything, the merge at least has the right length *)
Lemma merge_bits_x2_def s x : swz s -> length x = 32%nat -> exists y, merge_bits_x2 s x = Some y /\ length y = 32%nat.
Proof.
  intros Hs L. unfold merge_bits_x2. assert (Hs' := swz_simd _ Hs).
  match goal with |- exists y, obind ?e _ = _ /\ _ => enough (exists z, e = Some z /\ length z = 32%nat) as (z & -> & Lz) end.
  { cbn [obind]. rewrite u8x16x2_swizzle_ok by auto. eexists. split; [reflexivity|].
    rewrite app_length, !map_length. reflexivity. }
  destruct (swz_cases3 s Hs) as [E|[E E']]; rewrite E, ?E'.
  - rewrite !splat256_2, !splat256_4 by auto. cbn [obind].
    rewrite wide_maddubs by (auto; vlens). cbn [obind].
    rewrite wide_madd; [|now apply ssse3_sse2| |vlens].
    + eexists. split; [reflexivity|]. explode x. reflexivity.
    + clear -L. explode x. reflexivity.
  - rewrite !splat256_4 by auto. cbn [obind].
    rewrite !wide_and by (auto; vlens). cbn [obind].
    rewrite !wide_shl32 by (auto; vlens). cbn [obind].
    rewrite !wide_shr32 by (auto; vlens). cbn [obind].
    repeat (rewrite !wide_or by (auto; vlens); cbn [obind]).
    rewrite wide_and by (auto; vlens).
    eexists. split; [reflexivity|]. vlens.
Qed.

(** ** Decoding one block *)
Lemma lut_x2_xn l : lut_x2 l = xn_luts W256 l.
Proof. reflexivity. Qed.
Local Opaque check_lut decode_lut.
Definition b64_bad (k : b64_kind) (c : Z) : bool := al_decode (b64_alsw k) c =? 255.
Lemma b64_alsw_exact k : alsw_exact (b64_alsw k).
Proof. destruct k; [exact std_alsw_exact|exact url_alsw_exact]. Qed.

Lemma b64_val_six k c : byte c -> b64_bad k c = false -> six (al_decode (b64_alsw k) c).
Proof.
  intros Hc. unfold b64_bad, six.
  enough (G : (al_decode (b64_alsw k) c =? 255) || ((0 <=? al_decode (b64_alsw k) c) && (al_decode (b64_alsw k) c <? 64)) = true).
  { intro H. rewrite H in G. cbn [orb] in G. lia. }
  destruct k; revert c Hc; apply byte_sweep; vm_compute; reflexivity.
Qed.

Lemma b64_vals_six k x : bytes x -> existsb (b64_bad k) x = false -> Forall six (map (al_decode (b64_alsw k)) x).
Proof.
  induction x as [|c x IH]; intros B H; cbn [map]; constructor; inv_bytes; cbn [existsb] in H; apply orb_false_iff in H as [H1 H2].
  - now apply b64_val_six.
  - now apply IH.
Qed.

Lemma b64_decode_ascii32_ok s k x : swz s -> length x = 32%nat -> bytes x ->
  b64_decode_ascii32 s x (lut_x2 (check_lut (b64_alsw k))) (lut_x2 (decode_lut (b64_alsw k))) =
  Some (if existsb (b64_bad k) x then Err else Ok (merged (map (al_decode (b64_alsw k)) x))).
Proof.
  intros Hs L B. unfold b64_decode_ascii32.
  destruct (decode_ascii_xn_ok (b64_alsw k) (b64_alsw_exact k) W256 s x Hs L B) as (c1 & c2 & E & L1 & L2 & B1 & B2 & H1 & H2).
  rewrite (lut_x2_xn (check_lut _)), (lut_x2_xn (decode_lut _)).
  rewrite E. cbn [obind fst snd].
  destruct (merge_bits_x2_def s c2 Hs L2) as (y & Ey & Ly). rewrite Ey. cbn [obind].
  rewrite u8x32_highbit_any_ok by (auto using swz_simd). cbn [obind]. rewrite H1.
  change (fun c => al_decode (b64_alsw k) c =? 255) with (b64_bad k) in *.
  destruct (existsb (b64_bad k) x) eqn:X; [reflexivity|].
  rewrite H2 in Ey by reflexivity.
  rewrite merge_bits_x2_ok in Ey; auto.
  - now injection Ey as <-.
  - now rewrite map_length.
  - now apply b64_vals_six.
Qed.

Lemma b64_check_ascii32_ok s k x : swz s -> length x = 32%nat -> bytes x ->
  check_ascii_xn W256 s x (lut_x2 (check_lut (b64_alsw k))) = Some (negb (existsb (b64_bad k) x)).
Proof.
  intros Hs L B. rewrite lut_x2_xn.
  rewrite check_ascii_xn_ok by (auto using b64_alsw_exact). f_equal.
  clear. induction x as [|c x IH]; cbn [forallb existsb]; [reflexivity|]. rewrite negb_orb, IH. reflexivity.
Qed.
