(** The vsimd primitives equal their lane-wise meaning on every instruction set that has them. *)
From Coq Require Import ZArith List Bool Lia.
From Verif Require Import Bytes Isa Simd.
Import ListNotations.
Open Scope Z_scope.

(** Any SIMD instruction set. *)
Definition simd (s : isa) : Prop := matches_isa s [ISSE2; INEON; IWASM128] = true.
Lemma simd_dec (s : isa) : s = Fallback \/ simd s.
Proof. destruct s; auto; right; reflexivity. Qed.
(** SIMD instruction sets with a byte shuffle. *)
Definition swz (s : isa) : Prop := matches_isa s [ISSSE3; INEON; IWASM128] = true.

Lemma swz_simd s : swz s -> simd s.
Proof. destruct s; easy. Qed.

(** ** Lengths *)
Lemma len_map2 {A B C} (f : A -> B -> C) a b n :
  length a = n -> length b = n -> length (map2 f a b) = n.
Proof. intros <- H. now apply map2_length. Qed.
Lemma len_map {A B} (f : A -> B) a n : length a = n -> length (map f a) = n.
Proof. now rewrite map_length. Qed.
Lemma len_lanes16 f l n : Nat.even (length l) = true -> length l = n -> length (lanes16 f l) = n.
Proof.
  intros He <-. revert He.
  assert (G : forall k l, (length l <= k)%nat -> Nat.even (length l) = true -> length (lanes16 f l) = length l).
  { induction k; intros [|a [|b r]] Hk He; cbn in *; try easy; try lia. rewrite IHk; [easy|lia|easy]. }
  intro He. now apply (G (length l)).
Qed.

Lemma lo_len a : length a = 32%nat -> length (lo128 a) = 16%nat.
Proof. intro H. unfold lo128. rewrite firstn_length. lia. Qed.
Lemma hi_len a : length a = 32%nat -> length (hi128 a) = 16%nat.
Proof. intro H. unfold hi128. rewrite skipn_length. lia. Qed.
Lemma lo_hi a : lo128 a ++ hi128 a = a.
Proof. apply firstn_skipn. Qed.
Lemma lo_app a b : length a = 16%nat -> lo128 (a ++ b) = a.
Proof. intro H. now apply firstn_app_exact. Qed.
Lemma hi_app a b : length a = 16%nat -> hi128 (a ++ b) = b.
Proof. intro H. now apply skipn_app_exact. Qed.

Lemma bytes_lo a : bytes a -> bytes (lo128 a).
Proof. apply bytes_firstn. Qed.
Lemma bytes_hi a : bytes a -> bytes (hi128 a).
Proof. apply bytes_skipn. Qed.

Ltac lens := repeat first
  [ assumption | apply len_map2 | apply len_map | apply lo_len | apply hi_len | apply repeat_length ].

(** ** Generic lifting to 256 bits *)

Lemma native2_ok s f a b : simd s -> native2 s f a b = Some (f a b).
Proof. unfold native2, arm, simd, all3. now intros ->. Qed.
Lemma native1_ok s f a : simd s -> native1 s f a = Some (f a).
Proof. unfold native1, arm, simd, all3. now intros ->. Qed.

Lemma wide2_ok s f g a b :
  length a = 32%nat -> length b = 32%nat ->
  (forall x y, length x = 16%nat -> length y = 16%nat -> g s x y = Some (f x y)) ->
  f a b = f (lo128 a) (lo128 b) ++ f (hi128 a) (hi128 b) ->
  wide2 s f g a b = Some (f a b).
Proof.
  intros La Lb Hg Hf. unfold wide2, arm. destruct (matches_isa s [IAVX2]); [reflexivity|].
  unfold vop2. rewrite !Hg by lens. cbn [obind]. now rewrite <- Hf.
Qed.
Lemma wide1_ok s f g a :
  length a = 32%nat ->
  (forall x, length x = 16%nat -> g s x = Some (f x)) ->
  f a = f (lo128 a) ++ f (hi128 a) ->
  wide1 s f g a = Some (f a).
Proof.
  intros La Hg Hf. unfold wide1, arm. destruct (matches_isa s [IAVX2]); [reflexivity|].
  unfold vop1. rewrite !Hg by lens. cbn [obind]. now rewrite <- Hf.
Qed.

Lemma map2_halves {A B C} (f : A -> B -> C) a b :
  length a = 32%nat -> length b = 32%nat ->
  map2 f a b = map2 f (firstn 16 a) (firstn 16 b) ++ map2 f (skipn 16 a) (skipn 16 b).
Proof.
  intros La Lb. rewrite <- map2_app.
  - now rewrite !firstn_skipn.
  - rewrite !firstn_length. lia.
Qed.

(** Element-wise lemmas for functions on chunks: appending chunk-aligned lists. *)
Lemma lanes16_app f a b : Nat.even (length a) = true -> lanes16 f (a ++ b) = lanes16 f a ++ lanes16 f b.
Proof.
  assert (G : forall k a, (length a <= k)%nat -> Nat.even (length a) = true ->
              lanes16 f (a ++ b) = lanes16 f a ++ lanes16 f b).
  { induction k; intros [|x [|y r]] Hk He; cbn [length app] in *; try easy; try lia.
    cbn [lanes16]. cbn zeta. rewrite IHk; [reflexivity|lia|exact He]. }
  now apply (G (length a)).
Qed.
Lemma lanes32_app f a b : (length a mod 4 = 0)%nat -> lanes32 f (a ++ b) = lanes32 f a ++ lanes32 f b.
Proof.
  assert (G : forall k a, (length a <= 4 * k)%nat -> (length a mod 4 = 0)%nat ->
              lanes32 f (a ++ b) = lanes32 f a ++ lanes32 f b).
  { induction k; intros a' Hk He.
    - destruct a'; [reflexivity|cbn in Hk; lia].
    - destruct a' as [|x1 [|x2 [|x3 [|x4 r]]]]; try (cbn in He; discriminate).
      + reflexivity.
      + cbn [app lanes32]. cbn zeta. rewrite IHk; [reflexivity|cbn in Hk; lia|].
        cbn [length] in He. replace (S (S (S (S (length r))))) with (length r + 1 * 4)%nat in He by lia.
        now rewrite Nat.mod_add in He by lia. }
  intro H. apply (G (length a)); [lia|exact H].
Qed.

(** Explosion-based halving for fixed-size operands: works for any lane-wise function because both
    sides compute to the same 32-element list. *)
Ltac explode_eq a :=
  explode a; reflexivity.

Lemma lanes16_halves f a : length a = 32%nat -> lanes16 f a = lanes16 f (lo128 a) ++ lanes16 f (hi128 a).
Proof. intro H. rewrite <- lanes16_app, lo_hi; [reflexivity|]. rewrite lo_len by auto. reflexivity. Qed.
Lemma lanes32_halves f a : length a = 32%nat -> lanes32 f a = lanes32 f (lo128 a) ++ lanes32 f (hi128 a).
Proof. intro H. rewrite <- lanes32_app, lo_hi; [reflexivity|]. rewrite lo_len by auto. reflexivity. Qed.
Lemma lanes16_2_halves f a b : length a = 32%nat -> length b = 32%nat ->
  lanes16_2 f a b = lanes16_2 f (lo128 a) (lo128 b) ++ lanes16_2 f (hi128 a) (hi128 b).
Proof. intros Ha Hb. explode a. explode b. reflexivity. Qed.
Lemma lanes32_2_halves f a b : length a = 32%nat -> length b = 32%nat ->
  lanes32_2 f a b = lanes32_2 f (lo128 a) (lo128 b) ++ lanes32_2 f (hi128 a) (hi128 b).
Proof. intros Ha Hb. explode a. explode b. reflexivity. Qed.
Lemma lanes_maddubs_halves a b : length a = 32%nat -> length b = 32%nat ->
  lanes_maddubs a b = lanes_maddubs (lo128 a) (lo128 b) ++ lanes_maddubs (hi128 a) (hi128 b).
Proof. intros Ha Hb. explode a. explode b. reflexivity. Qed.
Lemma lanes_madd_halves a b : length a = 32%nat -> length b = 32%nat ->
  lanes_madd a b = lanes_madd (lo128 a) (lo128 b) ++ lanes_madd (hi128 a) (hi128 b).
Proof. intros Ha Hb. explode a. explode b. reflexivity. Qed.

Lemma wide_map2 s f a b : simd s -> length a = 32%nat -> length b = 32%nat ->
  wide2 s (map2 f) (fun s => native2 s (map2 f)) a b = Some (map2 f a b).
Proof.
  intros Hs La Lb. apply wide2_ok; auto.
  - intros. now apply native2_ok.
  - now apply map2_halves.
Qed.

(** ** Width-generic operations *)

Lemma repeat_list_1 n x : repeat_list n [x] = repeat x n.
Proof. induction n; cbn; [|rewrite IHn]; reflexivity. Qed.

Lemma splat128_1 s x : simd s -> splat128 s [x] = Some (repeat x 16).
Proof. unfold splat128, arm, simd, all3. now intros ->. Qed.

Lemma u8xn_splat_ok w s x : simd s -> u8xn_splat w s x = Some (repeat x (vlen w)).
Proof.
  intro H. destruct w; cbn [u8xn_splat pick vlen].
  - now apply splat128_1.
  - unfold splat256. rewrite (splat128_1 s x H).
    destruct (matches_isa s [IAVX2] && (length [x] =? 1)%nat); [|reflexivity].
    now rewrite repeat_list_1.
Qed.

Lemma xn_pointwise w s f a b : simd s -> length a = vlen w -> length b = vlen w ->
  pick w (native2 s (map2 f)) (wide2 s (map2 f) (fun s => native2 s (map2 f))) a b = Some (map2 f a b).
Proof. intros Hs. destruct w; cbn [pick vlen]; intros La Lb; [now apply native2_ok|now apply wide_map2]. Qed.

Section XN.
  Context (w : width) (s : isa) (a b : list Z) (Hs : simd s) (La : length a = vlen w) (Lb : length b = vlen w).
  Lemma xn_and_ok : xn_and w s a b = Some (map2 u8_and a b). Proof. exact (xn_pointwise w s _ a b Hs La Lb). Qed.
  Lemma xn_or_ok : xn_or w s a b = Some (map2 u8_or a b). Proof. exact (xn_pointwise w s _ a b Hs La Lb). Qed.
  Lemma xn_xor_ok : xn_xor w s a b = Some (map2 u8_xor a b). Proof. exact (xn_pointwise w s _ a b Hs La Lb). Qed.
  Lemma xn_andnot_ok : xn_andnot w s a b = Some (map2 u8_andnot a b). Proof. exact (xn_pointwise w s _ a b Hs La Lb). Qed.
  Lemma u8xn_add_ok : u8xn_add w s a b = Some (map2 u8_add a b). Proof. exact (xn_pointwise w s _ a b Hs La Lb). Qed.
  Lemma u8xn_sub_ok : u8xn_sub w s a b = Some (map2 u8_sub a b). Proof. exact (xn_pointwise w s _ a b Hs La Lb). Qed.
  Lemma u8xn_sub_sat_ok : u8xn_sub_sat w s a b = Some (map2 u8_sub_sat a b). Proof. exact (xn_pointwise w s _ a b Hs La Lb). Qed.
  Lemma i8xn_add_sat_ok : i8xn_add_sat w s a b = Some (map2 i8_add_sat a b). Proof. exact (xn_pointwise w s _ a b Hs La Lb). Qed.
  Lemma u8xn_eq_ok : u8xn_eq w s a b = Some (map2 u8_eq a b). Proof. exact (xn_pointwise w s _ a b Hs La Lb). Qed.
  Lemma i8xn_lt_ok : i8xn_lt w s a b = Some (map2 i8_lt a b). Proof. exact (xn_pointwise w s _ a b Hs La Lb). Qed.
  Lemma u8xn_avgr_ok : u8xn_avgr w s a b = Some (map2 u8_avgr a b). Proof. exact (xn_pointwise w s _ a b Hs La Lb). Qed.
End XN.

Lemma u32xn_shr_ok w s n a : simd s -> length a = vlen w -> u32xn_shr w s n a = Some (lanes32 (u32_shr n) a).
Proof.
  intros Hs. destruct w; cbn [u32xn_shr pick vlen]; intro La; [now apply native1_ok|].
  apply wide1_ok; auto.
  - intros. now apply native1_ok.
  - now apply lanes32_halves.
Qed.

(** ** Shuffles *)
(** one lane of the byte shuffle *)
Definition swz_lane (s : isa) (t : list Z) (i : Z) : Z :=
  if matches_isa s [ISSSE3] then pshufb_lane t i else tbl16_lane t i.

Lemma firstn_skipn_8 (a : list Z) : lo64 a ++ hi64 a = a.
Proof. apply firstn_skipn. Qed.

Lemma u8x16_swizzle_ok s t i : swz s -> u8x16_swizzle s t i = Some (map (swz_lane s t) i).
Proof.
  intro H. destruct s; try easy; unfold u8x16_swizzle, swz_lane; cbn [matches_isa existsb inherits id_of id_eqb orb andb arm arch_arm arch_aarch64];
    try reflexivity.
  f_equal. unfold tbl16. rewrite firstn_skipn_8, <- map_app, firstn_skipn_8. reflexivity.
Qed.

Lemma u8x16x2_swizzle_ok s t i : swz s -> length t = 32%nat -> length i = 32%nat ->
  u8x16x2_swizzle s t i = Some (map (swz_lane s (lo128 t)) (lo128 i) ++ map (swz_lane s (hi128 t)) (hi128 i)).
Proof.
  intros H Lt Li. unfold u8x16x2_swizzle, wide2, arm.
  destruct (matches_isa s [IAVX2]) eqn:E.
  - destruct s; try easy.
  - unfold vop2. now rewrite !u8x16_swizzle_ok by exact H.
Qed.

(** a 16-byte table at either width *)
Definition xn_lut (w : width) (t : list Z) : list Z := pick w t (x2 t).

Lemma u8x16xn_swizzle_ok w s t i : swz s -> length t = 16%nat -> length i = vlen w ->
  u8x16xn_swizzle w s (xn_lut w t) i = Some (map (swz_lane s t) i).
Proof.
  intros H Lt. destruct w; cbn [u8x16xn_swizzle xn_lut pick vlen]; intro Li.
  - now apply u8x16_swizzle_ok.
  - rewrite u8x16x2_swizzle_ok; auto.
    + unfold x2. rewrite lo_app, hi_app by auto. now rewrite <- map_app, lo_hi.
    + unfold x2. rewrite app_length. lia.
Qed.

Lemma land_143 x : byte x -> Z.land x 143 = if 128 <=? x then 128 + x mod 16 else x mod 16.
Proof.
  intro H. apply Z.eqb_eq. revert x H. apply byte_sweep. vm_compute. reflexivity.
Qed.

Lemma tbl_lane_masked t x : byte x -> tbl16_lane t (u8_and x 143) = pshufb_lane t x.
Proof.
  intro H. unfold u8_and. rewrite land_143 by exact H. unfold tbl16_lane, pshufb_lane.
  assert (0 <= x mod 16 < 16) by (apply Z.mod_pos_bound; lia).
  destruct (128 <=? x).
  - destruct (Z.leb_spec 16 (128 + x mod 16)); [reflexivity|lia].
  - destruct (Z.leb_spec 16 (x mod 16)); [lia|reflexivity].
Qed.

Lemma u8x16xn_lookup_ok w s t x : swz s -> length t = 16%nat -> length x = vlen w -> bytes x ->
  u8x16xn_lookup w s (xn_lut w t) x = Some (map (pshufb_lane t) x).
Proof.
  intros H Lt Lx Bx. unfold u8x16xn_lookup.
  destruct (matches_isa s [ISSSE3]) eqn:E.
  - rewrite u8x16xn_swizzle_ok by auto. f_equal. unfold swz_lane. now rewrite E.
  - replace (matches_isa s [INEON; IWASM128]) with true by (destruct s; easy).
    rewrite u8xn_splat_ok by (now apply swz_simd). cbn [obind].
    rewrite xn_and_ok by (auto using swz_simd, repeat_length). cbn [obind].
    rewrite map2_repeat_r by auto.
    rewrite u8x16xn_swizzle_ok by (auto; now rewrite map_length).
    f_equal. rewrite map_map. apply map_ext_in. intros z Hz. unfold swz_lane. rewrite E.
    apply tbl_lane_masked. unfold bytes in Bx. rewrite Forall_forall in Bx. auto.
Qed.

(** ** Masks *)
Definition highbits (l : list Z) : bool := existsb (fun x => 128 <=? x) l.
Definition highbits_all (l : list Z) : bool := forallb (fun x => 128 <=? x) l.

Lemma movemask_bound l : 0 <= movemask l < 2 ^ Z.of_nat (length l).
Proof.
  induction l as [|a l IH]; cbn [movemask length].
  - cbn. lia.
  - rewrite Nat2Z.inj_succ, Z.pow_succ_r by lia. destruct (128 <=? a); lia.
Qed.

Lemma movemask_zero l : (movemask l =? 0) = negb (highbits l).
Proof.
  induction l as [|a l IH]; cbn [movemask highbits existsb]; [reflexivity|].
  pose proof (movemask_bound l). fold (highbits l).
  destruct (128 <=? a); cbn [orb negb].
  - apply Z.eqb_neq. lia.
  - rewrite <- IH. destruct (Z.eqb_spec (movemask l) 0); [apply Z.eqb_eq|apply Z.eqb_neq]; lia.
Qed.

Lemma movemask_full l : (movemask l =? 2 ^ Z.of_nat (length l) - 1) = highbits_all l.
Proof.
  induction l as [|a l IH]; cbn [movemask highbits_all forallb length]; [reflexivity|].
  pose proof (movemask_bound l). fold (highbits_all l).
  rewrite Nat2Z.inj_succ, Z.pow_succ_r by lia.
  destruct (128 <=? a); cbn [andb].
  - rewrite <- IH. destruct (Z.eqb_spec (movemask l) (2 ^ Z.of_nat (length l) - 1)); [apply Z.eqb_eq|apply Z.eqb_neq]; lia.
  - apply Z.eqb_neq. lia.
Qed.

Lemma highbits_app a b : highbits (a ++ b) = highbits a || highbits b.
Proof. apply existsb_app. Qed.
Lemma highbits_all_app a b : highbits_all (a ++ b) = highbits_all a && highbits_all b.
Proof. apply forallb_app. Qed.

Lemma byte_land a : byte a <-> Z.land a 255 = a.
Proof. change 255 with (Z.ones 8). rewrite Z.land_ones by lia. change (2 ^ 8) with 256. unfold byte. split; intro H; [apply Z.mod_small; lia|rewrite <- H; apply Z.mod_pos_bound; lia]. Qed.
Lemma or_byte a b : byte a -> byte b -> byte (u8_or a b).
Proof. rewrite !byte_land. unfold u8_or. intros Ha Hb. now rewrite Z.land_lor_distr_l, Ha, Hb. Qed.
Lemma and_byte a b : byte a -> byte b -> byte (u8_and a b).
Proof. rewrite !byte_land. unfold u8_and. intros Ha Hb. now rewrite <- Z.land_assoc, Hb. Qed.
Lemma high_bit a : byte a -> (128 <=? a) = Z.testbit a 7.
Proof. intro H. apply eqb_prop. revert a H. apply byte_sweep. vm_compute. reflexivity. Qed.
Lemma or_high a b : byte a -> byte b -> (128 <=? u8_or a b) = (128 <=? a) || (128 <=? b).
Proof. intros Ha Hb. rewrite !high_bit by auto using or_byte. apply Z.lor_spec. Qed.
Lemma and_high a b : byte a -> byte b -> (128 <=? u8_and a b) = (128 <=? a) && (128 <=? b).
Proof. intros Ha Hb. rewrite !high_bit by auto using and_byte. apply Z.land_spec. Qed.
Lemma lt0_high a : byte a -> i8_lt a 0 = mask8 (128 <=? a).
Proof.
  intros Ha. apply Z.eqb_eq. revert a Ha. apply byte_sweep. vm_compute. reflexivity.
Qed.

Lemma highbits_or a b : bytes a -> bytes b -> length a = length b ->
  highbits (map2 u8_or a b) = highbits a || highbits b.
Proof.
  intros Ha. revert b. induction Ha as [|x a Hx Ha IH]; intros [|y b] Hb Hl; cbn in Hl |- *; try easy.
  inversion Hb; subst. unfold highbits in IH |- *. rewrite or_high by auto. rewrite IH by auto.
  destruct (128 <=? x), (128 <=? y), (existsb (fun x0 => 128 <=? x0) a); reflexivity.
Qed.
Lemma highbits_all_and a b : bytes a -> bytes b -> length a = length b ->
  highbits_all (map2 u8_and a b) = highbits_all a && highbits_all b.
Proof.
  intros Ha. revert b. induction Ha as [|x a Hx Ha IH]; intros [|y b] Hb Hl; cbn in Hl |- *; try easy.
  inversion Hb; subst. unfold highbits_all in IH |- *. rewrite and_high by auto. rewrite IH by auto.
  destruct (128 <=? x), (128 <=? y), (forallb (fun x0 => 128 <=? x0) a); reflexivity.
Qed.

Lemma list_max_high l : bytes l -> (128 <=? list_max l) = highbits l.
Proof.
  induction 1 as [|x l Hx Hl IH]; [reflexivity|]. cbn [list_max fold_right highbits existsb].
  fold (list_max l) (highbits l). rewrite <- IH.
  destruct (Z.leb_spec 128 x), (Z.leb_spec 128 (list_max l)), (Z.leb_spec 128 (Z.max x (list_max l))); try reflexivity; lia.
Qed.
Lemma list_min_high l : bytes l -> (128 <=? list_min l) = highbits_all l.
Proof.
  induction 1 as [|x l Hx Hl IH]; [reflexivity|]. cbn [list_min fold_right highbits_all forallb].
  fold (list_min l) (highbits_all l). rewrite <- IH.
  destruct (Z.leb_spec 128 x), (Z.leb_spec 128 (list_min l)), (Z.leb_spec 128 (Z.min x (list_min l))); try reflexivity; lia.
Qed.
Lemma list_max_zero l : bytes l -> (list_max l =? 0) = is_zero_list l.
Proof.
  assert (G : forall l, bytes l -> 0 <= list_max l).
  { induction 1; cbn; [lia|]. unfold list_max in IHForall. lia. }
  induction 1 as [|x l Hx Hl IH]; [reflexivity|]. cbn [list_max fold_right is_zero_list forallb].
  fold (list_max l) (is_zero_list l). rewrite <- IH. specialize (G l Hl). unfold byte in Hx.
  destruct (Z.eqb_spec x 0), (Z.eqb_spec (list_max l) 0), (Z.eqb_spec (Z.max x (list_max l)) 0); try reflexivity; lia.
Qed.
Lemma list_min_nonneg l : bytes l -> 0 <= list_min l.
Proof. induction 1; cbn; [lia|]. unfold list_min in IHForall. unfold byte in *. lia. Qed.
Lemma list_min_zero l : bytes l -> (list_min l =? 0) = existsb (fun x => x =? 0) l.
Proof.
  induction 1 as [|x l Hx Hl IH]; [reflexivity|]. cbn [list_min fold_right existsb].
  fold (list_min l). rewrite <- IH. pose proof (list_min_nonneg l Hl). unfold byte in Hx.
  destruct (Z.eqb_spec x 0), (Z.eqb_spec (list_min l) 0), (Z.eqb_spec (Z.min x (list_min l)) 0); try reflexivity; lia.
Qed.

Lemma or_zero a b : byte a -> byte b -> (u8_or a b =? 0) = (a =? 0) && (b =? 0).
Proof.
  intros _ _. unfold u8_or. apply eq_true_iff_eq. rewrite andb_true_iff, !Z.eqb_eq. apply Z.lor_eq_0_iff.
Qed.

Ltac inv_bytes :=
  repeat match goal with
  | H : bytes (_ :: _) |- _ => let H1 := fresh "B" in let H2 := fresh "B" in inversion_clear H as [|? ? H1 H2]
  | H : Forall byte (_ :: _) |- _ => let H1 := fresh "B" in let H2 := fresh "B" in inversion_clear H as [|? ? H1 H2]
  | H : bytes [] |- _ => clear H
  | H : Forall byte [] |- _ => clear H
  end.

Lemma mk32_zero a b c d : byte a -> byte b -> byte c -> byte d ->
  (mk32 a b c d =? 0) = (a =? 0) && (b =? 0) && (c =? 0) && (d =? 0).
Proof.
  unfold byte, mk32. intros.
  destruct (Z.eqb_spec a 0), (Z.eqb_spec b 0), (Z.eqb_spec c 0), (Z.eqb_spec d 0); cbn [andb];
    try (apply Z.eqb_neq; lia); apply Z.eqb_eq; lia.
Qed.
Lemma mk32_nonneg a b c d : byte a -> byte b -> byte c -> byte d -> 0 <= mk32 a b c d < 4294967296.
Proof. unfold byte, mk32. lia. Qed.
Lemma max_zero x y : 0 <= x -> 0 <= y -> (Z.max x y =? 0) = (x =? 0) && (y =? 0).
Proof.
  intros. destruct (Z.eqb_spec x 0), (Z.eqb_spec y 0); cbn [andb]; [apply Z.eqb_eq|apply Z.eqb_neq..]; lia.
Qed.

Lemma arm_all_zero_ok a : length a = 16%nat -> bytes a -> arm_all_zero a = is_zero_list a.
Proof.
  intros La Ba. explode a. inv_bytes. unfold arm_all_zero.
  cbn [lo64 hi64 firstn skipn map2 is_zero_list forallb].
  rewrite max_zero by (apply mk32_nonneg; now apply or_byte).
  rewrite !mk32_zero by (now apply or_byte).
  rewrite !or_zero by assumption.
  repeat match goal with |- context [?v =? 0] => destruct (v =? 0); cbn [andb]; try reflexivity end.
Qed.

Lemma existsb_negb {A} (f : A -> bool) l : negb (existsb (fun x => negb (f x)) l) = forallb f l.
Proof. induction l as [|a l IH]; cbn; [reflexivity|]. rewrite <- IH. destruct (f a); reflexivity. Qed.
Lemma forallb_negb {A} (f : A -> bool) l : negb (forallb (fun x => negb (f x)) l) = existsb f l.
Proof. induction l as [|a l IH]; cbn; [reflexivity|]. rewrite <- IH. destruct (f a); reflexivity. Qed.

Lemma zero_app a b : is_zero_list (a ++ b) = is_zero_list a && is_zero_list b.
Proof. apply forallb_app. Qed.
Lemma zero_or a b : bytes a -> bytes b -> length a = length b ->
  is_zero_list (map2 u8_or a b) = is_zero_list a && is_zero_list b.
Proof.
  intros Ha. revert b. induction Ha as [|x a Hx Ha IH]; intros [|y b] Hb Hl; cbn in Hl |- *; try easy.
  inversion Hb; subst. unfold is_zero_list in IH |- *. rewrite or_zero by auto. rewrite IH by auto.
  destruct (x =? 0), (y =? 0), (forallb (fun x => x =? 0) a); reflexivity.
Qed.

(** [all_zero] has an SSE4.1 arm but no SSE2 arm. *)
Definition sse41p (s : isa) : Prop := matches_isa s [ISSE41; INEON; IWASM128] = true.
Lemma sse41p_swz s : sse41p s -> swz s.
Proof. destruct s; easy. Qed.

Lemma v128_all_zero_ok s a : sse41p s -> length a = 16%nat -> bytes a -> v128_all_zero s a = Some (is_zero_list a).
Proof.
  intros Hs La Ba. destruct s; try easy; unfold v128_all_zero;
    cbn [matches_isa existsb inherits id_of id_eqb orb andb arch_arm arch_aarch64]; f_equal.
  - now apply arm_all_zero_ok.
  - now apply list_max_zero.
  - apply existsb_negb.
Qed.
Lemma bytes_or a b : bytes a -> bytes b -> bytes (map2 u8_or a b).
Proof. apply Forall_map2. apply or_byte. Qed.
Lemma bytes_and a b : bytes a -> bytes b -> bytes (map2 u8_and a b).
Proof. apply Forall_map2. apply and_byte. Qed.

Lemma v256_all_zero_ok s a : sse41p s -> length a = 32%nat -> bytes a -> v256_all_zero s a = Some (is_zero_list a).
Proof.
  intros Hs La Ba. unfold v256_all_zero. destruct (matches_isa s [IAVX2]); [reflexivity|].
  unfold v128_or. rewrite native2_ok by (now apply swz_simd, sse41p_swz). cbn [obind].
  rewrite v128_all_zero_ok; auto using bytes_or, bytes_lo, bytes_hi; [|lens].
  rewrite zero_or by (auto using bytes_lo, bytes_hi; rewrite lo_len, hi_len; auto).
  now rewrite <- zero_app, lo_hi.
Qed.

(** *** highbit_any *)
Lemma mask_any_arm s a : simd s -> matches_isa s [INEON] = true -> length a = 16%nat -> bytes a ->
  mask8x16_any s a = Some (negb (is_zero_list a)).
Proof.
  intros Hs HN La Ba. unfold mask8x16_any.
  replace (matches_isa s [ISSE2; IWASM128]) with false by (destruct s; easy). rewrite HN.
  rewrite v128_all_zero_ok; auto. destruct s; easy.
Qed.

Lemma mask8_bytes (f : Z -> bool) l : bytes (map (fun x => mask8 (f x)) l).
Proof. apply Forall_forall. intros x H. apply in_map_iff in H as [y [<- _]]. unfold mask8, byte. destruct (f y); lia. Qed.

Lemma is_zero_mask {A} f (l : list A) : is_zero_list (map (fun x => mask8 (f x)) l) = negb (existsb f l).
Proof. induction l as [|a l IH]; cbn; [reflexivity|]. unfold is_zero_list in IH. rewrite IH. unfold mask8. destruct (f a); reflexivity. Qed.

Lemma u8x16_highbit_any_ok s a : simd s -> length a = 16%nat -> bytes a -> u8x16_highbit_any s a = Some (highbits a).
Proof.
  intros Hs La Ba.
  assert (G : Some (negb (movemask a =? 0)) = Some (highbits a)) by (rewrite movemask_zero, negb_involutive; reflexivity).
  destruct s; try easy.
  - (* NEON32 *)
    unfold u8x16_highbit_any. cbn [matches_isa existsb inherits id_of id_eqb orb andb arch_arm arch_aarch64].
    unfold v128_create_zero, arm, i8x16_lt. cbn [all3 matches_isa existsb inherits id_of id_eqb orb obind].
    rewrite native2_ok by reflexivity. cbn [obind].
    rewrite map2_repeat_r by auto.
    rewrite (map_ext_in _ (fun x => mask8 (128 <=? x))).
    + rewrite mask_any_arm; auto using mask8_bytes; [|lens]. rewrite is_zero_mask, negb_involutive. reflexivity.
    + intros z Hz. apply lt0_high. unfold bytes in Ba. rewrite Forall_forall in Ba. auto.
  - (* NEON64 *)
    unfold u8x16_highbit_any. cbn [matches_isa existsb inherits id_of id_eqb orb andb arch_arm arch_aarch64 u8x16_reduce_max obind].
    f_equal. now apply list_max_high.
Qed.

Lemma u8x32_highbit_any_ok s a : simd s -> length a = 32%nat -> bytes a -> u8x32_highbit_any s a = Some (highbits a).
Proof.
  intros Hs La Ba. unfold u8x32_highbit_any. destruct (matches_isa s [IAVX2]) eqn:E.
  - unfold u8x32_bitmask. rewrite E. cbn [obind]. now rewrite movemask_zero, negb_involutive.
  - replace (matches_isa s [ISSE2; IWASM128; INEON]) with true by (destruct s; easy).
    unfold v128_or. rewrite native2_ok by auto. cbn [obind].
    rewrite u8x16_highbit_any_ok; auto using bytes_or, bytes_lo, bytes_hi; [|lens].
    rewrite highbits_or by (auto using bytes_lo, bytes_hi; rewrite lo_len, hi_len; auto).
    now rewrite <- highbits_app, lo_hi.
Qed.

Lemma u8xn_highbit_any_ok w s a : simd s -> length a = vlen w -> bytes a -> u8xn_highbit_any w s a = Some (highbits a).
Proof. destruct w; cbn [u8xn_highbit_any pick vlen]; [apply u8x16_highbit_any_ok|apply u8x32_highbit_any_ok]. Qed.

(** *** mask8 any/all: the operand is a lane mask (0 or 255 in every lane) *)
Definition ismask (l : list Z) : Prop := Forall (fun x => x = 0 \/ x = 255) l.
Lemma ismask_bytes l : ismask l -> bytes l.
Proof. apply Forall_impl. unfold byte. intros a [->| ->]; lia. Qed.
Lemma ismask_zero l : ismask l -> negb (is_zero_list l) = highbits l.
Proof.
  induction 1 as [|x l Hx Hl IH]; [reflexivity|]. cbn. unfold is_zero_list, highbits in *. rewrite <- IH.
  destruct Hx as [->| ->]; cbn; destruct (forallb _ l); reflexivity.
Qed.
Lemma ismask_nonzero l : ismask l -> negb (existsb (fun x => x =? 0) l) = highbits_all l.
Proof.
  induction 1 as [|x l Hx Hl IH]; [reflexivity|]. cbn. unfold highbits_all in *. rewrite <- IH.
  destruct Hx as [->| ->]; cbn; destruct (existsb _ l); reflexivity.
Qed.
Lemma ismask_map {A} f (l : list A) : ismask (map (fun x => mask8 (f x)) l).
Proof. apply Forall_forall. intros x H. apply in_map_iff in H as [y [<- _]]. unfold mask8. destruct (f y); auto. Qed.
Lemma ismask_app a b : ismask (a ++ b) <-> ismask a /\ ismask b.
Proof. apply Forall_app. Qed.
Lemma ismask_lo a : ismask a -> ismask (lo128 a).
Proof. intro H. rewrite <- (lo_hi a) in H. now apply ismask_app in H. Qed.
Lemma ismask_hi a : ismask a -> ismask (hi128 a).
Proof. intro H. rewrite <- (lo_hi a) in H. now apply ismask_app in H. Qed.
Lemma ismask_or a b : ismask a -> ismask b -> ismask (map2 u8_or a b).
Proof. apply Forall_map2. intros x y [->| ->] [->| ->]; cbn; auto. Qed.
Lemma ismask_and a b : ismask a -> ismask b -> ismask (map2 u8_and a b).
Proof. apply Forall_map2. intros x y [->| ->] [->| ->]; cbn; auto. Qed.

Lemma mask8x16_any_ok s a : simd s -> length a = 16%nat -> ismask a -> mask8x16_any s a = Some (highbits a).
Proof.
  intros Hs La Ma. destruct (matches_isa s [INEON]) eqn:E.
  - rewrite mask_any_arm by auto using ismask_bytes. now rewrite ismask_zero.
  - assert (G : Some (negb (movemask a =? 0)) = Some (highbits a)) by (rewrite movemask_zero, negb_involutive; reflexivity).
    destruct s; easy.
Qed.
Lemma mask8x32_any_ok s a : simd s -> length a = 32%nat -> ismask a -> mask8x32_any s a = Some (highbits a).
Proof.
  intros Hs La Ma. unfold mask8x32_any. destruct (matches_isa s [IAVX2]) eqn:E.
  - unfold u8x32_bitmask. rewrite E. cbn [obind]. now rewrite movemask_zero, negb_involutive.
  - replace (matches_isa s [ISSE2; IWASM128; INEON]) with true by (destruct s; easy).
    unfold v128_or. rewrite native2_ok by auto. cbn [obind].
    rewrite mask8x16_any_ok; auto using ismask_or, ismask_lo, ismask_hi; [|lens].
    rewrite highbits_or by (auto using bytes_lo, bytes_hi, ismask_bytes; rewrite lo_len, hi_len; auto).
    now rewrite <- highbits_app, lo_hi.
Qed.
Lemma mask8xn_any_ok w s a : simd s -> length a = vlen w -> ismask a -> mask8xn_any w s a = Some (highbits a).
Proof. destruct w; cbn [mask8xn_any pick vlen]; [apply mask8x16_any_ok|apply mask8x32_any_ok]. Qed.

Lemma min_zero_land x y : byte x -> byte y ->
  (mask8 (negb (Z.land (Z.min x y) (Z.min x y) =? 0)) =? 255) = negb (x =? 0) && negb (y =? 0).
Proof.
  unfold byte. intros Ha Hb. rewrite Z.land_diag. destruct (Z.eqb_spec (Z.min x y) 0), (Z.eqb_spec x 0), (Z.eqb_spec y 0); try reflexivity; lia.
Qed.

Lemma arm_any_zero_ok a : length a = 16%nat -> bytes a -> arm_any_zero a = existsb (fun x => x =? 0) a.
Proof.
  intros La Ba. explode a. inv_bytes. unfold arm_any_zero. cbn [pairwise_min map forallb existsb].
  rewrite !min_zero_land by assumption.
  repeat match goal with |- context [?v =? 0] => destruct (v =? 0); cbn [andb negb orb]; try reflexivity end.
Qed.

Lemma eq_zero_bitmask l n : length l = n -> highbits (map2 u8_eq l (repeat 0 n)) = existsb (fun x => x =? 0) l.
Proof.
  intro H. rewrite map2_repeat_r by auto. clear H. induction l as [|a l IH]; [reflexivity|].
  cbn. unfold highbits in IH. rewrite IH. unfold u8_eq, mask8. destruct (a =? 0); reflexivity.
Qed.

Lemma u8x16_any_zero_ok s a : simd s -> length a = 16%nat -> bytes a ->
  u8x16_any_zero s a = Some (existsb (fun x => x =? 0) a).
Proof.
  intros Hs La Ba.
  assert (G : matches_isa s [ISSE2] = true -> u8x16_any_zero s a = Some (existsb (fun x => x =? 0) a)).
  { intro E. unfold u8x16_any_zero. rewrite E. unfold v128_create_zero, arm. unfold simd in Hs. unfold all3. rewrite Hs.
    cbn [obind]. unfold u8x16_eq. rewrite native2_ok by exact Hs. cbn [obind].
    unfold u8x16_bitmask. rewrite E. cbn [obind]. rewrite movemask_zero, negb_involutive. f_equal.
    now apply eq_zero_bitmask. }
  destruct s; try easy; try (now apply G);
    unfold u8x16_any_zero; cbn [matches_isa existsb inherits id_of id_eqb orb andb arch_arm arch_aarch64]; f_equal.
  - now apply arm_any_zero_ok.
  - now apply list_min_zero.
  - apply forallb_negb.
Qed.

Lemma mask8x16_all_ok s a : simd s -> length a = 16%nat -> ismask a -> mask8x16_all s a = Some (highbits_all a).
Proof.
  intros Hs La Ma.
  assert (G : Some (movemask a =? 65535) = Some (highbits_all a)) by (rewrite <- movemask_full, La; reflexivity).
  assert (Ba := ismask_bytes _ Ma).
  destruct s; try easy; unfold mask8x16_all; cbn [matches_isa existsb inherits id_of id_eqb orb andb arch_arm arch_aarch64].
  - rewrite u8x16_any_zero_ok by auto. cbn [obind]. now rewrite ismask_nonzero.
  - unfold u8x16_reduce_min. cbn [matches_isa existsb inherits id_of id_eqb orb andb arch_arm arch_aarch64 obind].
    rewrite list_min_zero by auto. now rewrite ismask_nonzero.
Qed.
Lemma mask8x32_all_ok s a : simd s -> length a = 32%nat -> ismask a -> mask8x32_all s a = Some (highbits_all a).
Proof.
  intros Hs La Ma. unfold mask8x32_all. destruct (matches_isa s [IAVX2]) eqn:E.
  - unfold u8x32_bitmask. rewrite E. cbn [obind]. rewrite <- movemask_full, La. reflexivity.
  - replace (matches_isa s [ISSE2; IWASM128; INEON]) with true by (destruct s; easy).
    unfold v128_and. rewrite native2_ok by auto. cbn [obind].
    rewrite mask8x16_all_ok; auto using ismask_and, ismask_lo, ismask_hi; [|lens].
    rewrite highbits_all_and by (auto using bytes_lo, bytes_hi, ismask_bytes; rewrite lo_len, hi_len; auto).
    now rewrite <- highbits_all_app, lo_hi.
Qed.
Lemma mask8xn_all_ok w s a : simd s -> length a = vlen w -> ismask a -> mask8xn_all w s a = Some (highbits_all a).
Proof. destruct w; cbn [mask8xn_all pick vlen]; [apply mask8x16_all_ok|apply mask8x32_all_ok]. Qed.

Lemma u8x16_highbit_all_ok s a : simd s -> length a = 16%nat -> bytes a -> u8x16_highbit_all s a = Some (highbits_all a).
Proof.
  intros Hs La Ba.
  assert (G : Some (movemask a =? 65535) = Some (highbits_all a)) by (rewrite <- movemask_full, La; reflexivity).
  destruct s; try easy.
  - unfold u8x16_highbit_all. cbn [matches_isa existsb inherits id_of id_eqb orb andb arch_arm arch_aarch64].
    unfold v128_create_zero, arm, i8x16_lt. cbn [all3 matches_isa existsb inherits id_of id_eqb orb obind].
    rewrite native2_ok by reflexivity. cbn [obind]. rewrite map2_repeat_r by auto.
    rewrite (map_ext_in _ (fun x => mask8 (128 <=? x))).
    + rewrite mask8x16_all_ok; auto using ismask_map; [|lens].
      f_equal. clear. induction a as [|x a IH]; [reflexivity|]. cbn. unfold highbits_all in IH. rewrite IH.
      unfold mask8. destruct (128 <=? x); reflexivity.
    + intros z Hz. apply lt0_high. unfold bytes in Ba. rewrite Forall_forall in Ba. auto.
  - unfold u8x16_highbit_all. cbn [matches_isa existsb inherits id_of id_eqb orb andb arch_arm arch_aarch64 u8x16_reduce_min obind].
    f_equal. now apply list_min_high.
Qed.
Lemma u8x32_highbit_all_ok s a : simd s -> length a = 32%nat -> bytes a -> u8x32_highbit_all s a = Some (highbits_all a).
Proof.
  intros Hs La Ba. unfold u8x32_highbit_all. destruct (matches_isa s [IAVX2]) eqn:E.
  - unfold u8x32_bitmask. rewrite E. cbn [obind]. rewrite <- movemask_full, La. reflexivity.
  - replace (matches_isa s [ISSE2; IWASM128; INEON]) with true by (destruct s; easy).
    unfold v128_and. rewrite native2_ok by auto. cbn [obind].
    rewrite u8x16_highbit_all_ok; auto using bytes_and, bytes_lo, bytes_hi; [|lens].
    rewrite highbits_all_and by (auto using bytes_lo, bytes_hi; rewrite lo_len, hi_len; auto).
    now rewrite <- highbits_all_app, lo_hi.
Qed.

(** ** Masks as arithmetic *)
Lemma and_31 x : u8_and x 31 = x mod 32. Proof. exact (Z.land_ones x 5 ltac:(lia)). Qed.
Lemma and_15 x : u8_and x 15 = x mod 16. Proof. exact (Z.land_ones x 4 ltac:(lia)). Qed.
Lemma and_63 x : u8_and x 63 = x mod 64. Proof. exact (Z.land_ones x 6 ltac:(lia)). Qed.
Lemma and_3 x : u8_and x 3 = x mod 4. Proof. exact (Z.land_ones x 2 ltac:(lia)). Qed.
Lemma and_255 x : u8_and x 255 = x mod 256. Proof. exact (Z.land_ones x 8 ltac:(lia)). Qed.
Lemma and_0 x : u8_and x 0 = 0. Proof. apply Z.land_0_r. Qed.
Lemma or_0l x : u8_or 0 x = x. Proof. reflexivity. Qed.
Lemma or_0r x : u8_or x 0 = x. Proof. apply Z.lor_0_r. Qed.
Lemma and_252 x : byte x -> u8_and x 252 = 4 * (x / 4).
Proof. intro H. apply Z.eqb_eq. revert x H. apply byte_sweep. vm_compute. reflexivity. Qed.
Lemma and_240 x : byte x -> u8_and x 240 = 16 * (x / 16).
Proof. intro H. apply Z.eqb_eq. revert x H. apply byte_sweep. vm_compute. reflexivity. Qed.
Lemma and_192 x : byte x -> u8_and x 192 = 64 * (x / 64).
Proof. intro H. apply Z.eqb_eq. revert x H. apply byte_sweep. vm_compute. reflexivity. Qed.
Lemma mk_eq2 (a b c d : Z) : a = c -> b = d -> [a; b] = [c; d]. Proof. now intros -> ->. Qed.
Lemma mk_eq4 (a b c d a' b' c' d' : Z) : a = a' -> b = b' -> c = c' -> d = d' -> [a; b; c; d] = [a'; b'; c'; d'].
Proof. now intros -> -> -> ->. Qed.
