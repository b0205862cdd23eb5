(** The bit splitting and merging of base64 and base32 on big-endian AArch64 (LaneOrder.v), exactly. *)
From Coq Require Import ZArith List Bool Lia ZifyNat.
From Verif Require Import Bytes Mem MemFacts Isa Simd SimdFacts Alsw AlswFacts Spec Ints Loops Hex HexSimdFacts
  Base64 Base64SimdFacts Base32 Base32SimdFacts Base32SimdDec LaneOrder LaneOrderFacts.
Import ListNotations.
Open Scope Z_scope.
Ltac Zify.zify_post_hook ::= Z.div_mod_to_equations.

Lemma fl4_len32 l : length l = 32%nat -> length (fl4 l) = 32%nat.
Proof. intro L. rewrite fl4_len; rewrite L; reflexivity. Qed.
Ltac vl := repeat first
  [ assumption | apply len_map2 | apply len_map | apply fl2_len32 | apply fl4_len32 | apply (lanes16_2_len _ _ _ 16) | apply (lanes16_len _ _ 16)
  | apply (lanes32_len _ _ 8) | apply repeat_list_len | rewrite !repeat_list_len; reflexivity ].
Lemma be_shr32 n a : length a = 32%nat -> on_lanes BE 4 (u32x8_shr NEON64 n) a = Some (fl4 (lanes32 (u32_shr n) (fl4 a))).
Proof. intro L. unfold on_lanes. rewrite flip_fl4, wide_shr32 by (auto using neon_simd, fl4_len32). rewrite obind_some. now rewrite flip_fl4. Qed.
Lemma be_shl32 n a : length a = 32%nat -> on_lanes BE 4 (u32x8_shl NEON64 n) a = Some (fl4 (lanes32 (u32_shl n) (fl4 a))).
Proof. intro L. unfold on_lanes. rewrite flip_fl4, wide_shl32 by (auto using neon_simd, fl4_len32). rewrite obind_some. now rewrite flip_fl4. Qed.
Lemma be_mul a b : length a = 32%nat -> length b = 32%nat ->
  on_lanes2 BE 2 (i16x16_mul_lo NEON64) a b = Some (fl2 (lanes16_2 u16_mul_lo (fl2 a) (fl2 b))).
Proof. intros L M. unfold on_lanes2. rewrite !flip_fl2, wide_mul_lo by (auto using neon_simd, fl2_len32). rewrite obind_some. now rewrite flip_fl2. Qed.

(** ** base64: merging *)

(** the number [a + 64 b + 4096 c + 262144 d] without its lowest byte *)
Definition btrip (a b c d : Z) : list Z := [(c mod 16) * 16 + b / 4; 4 * d + c / 16; 0].
Fixpoint btriples (l : list Z) : list Z := match l with a :: b :: c :: d :: r => btrip a b c d ++ btriples r | _ => [] end.
Fixpoint rbtriples (l : list Z) : list Z :=
  match l with a :: b :: c :: d :: r => 0 :: 4 * d + c / 16 :: (c mod 16) * 16 + b / 4 :: (b mod 4) * 64 + a :: rbtriples r | _ => [] end.
Definition bmerged (l : list Z) : list Z := btriples (firstn 16 l) ++ [0; 0; 0; 0] ++ btriples (skipn 16 l) ++ [0; 0; 0; 0].
Lemma fl4_map2 f a b : length a = length b -> (length a mod 4 = 0)%nat -> fl4 (map2 f a b) = map2 f (fl4 a) (fl4 b).
Proof.
  assert (G : forall n a b, (length a <= n)%nat -> length a = length b -> (length a mod 4 = 0)%nat -> fl4 (map2 f a b) = map2 f (fl4 a) (fl4 b)).
  { induction n as [|n IH]; intros [|p [|q [|r [|t a']]]] [|p' [|q' [|r' [|t' b']]]] L E V; try discriminate; try reflexivity; cbn [length] in *; [lia|].
    cbn [map2 fl4]. rewrite IH; auto; lia. }
  intros. now apply (G (length a)).
Qed.
Lemma fl4_fl4 l : (length l mod 4 = 0)%nat -> fl4 (fl4 l) = l.
Proof.
  assert (G : forall n l, (length l <= n)%nat -> (length l mod 4 = 0)%nat -> fl4 (fl4 l) = l).
  { induction n as [|n IH]; intros [|p [|q [|r [|t a']]]] L V; try discriminate; try reflexivity; cbn [length] in *; [lia|].
    cbn [fl4]. rewrite IH; auto; lia. }
  now apply (G (length l)).
Qed.
Lemma merge_shift_be x : length x = 32%nat ->
  merge_bits_x2_ord BE x = u8x16x2_swizzle NEON64 (fl4 (shift32_core (fl4 x) 8)) B64_MERGE_SHUFFLE.
Proof.
  intro L. assert (Hs := neon_simd). unfold merge_bits_x2_ord. rewrite !be_mask, !splat256_4 by auto. rewrite ?obind_some.
  repeat (first [rewrite wide_and by (auto; vl) | rewrite be_shr32 by (auto; vl) | rewrite be_shl32 by (auto; vl) | rewrite wide_or by (auto; vl)];
          rewrite ?obind_some).
  f_equal. unfold shift32_core. cbv zeta. rewrite <- (fl4_fl4 x) at 1 2 3 4 by (now rewrite L).
  explode x. reflexivity.
Qed.
Lemma rbt l : (length l mod 4 = 0)%nat -> Forall six l -> fl4 (rtriples (fl4 l)) = rbtriples l.
Proof.
  induction l as [|a|a b|a b c|a b c d r IH] using list_ind4; intros L F; try reflexivity; try discriminate L.
  cbn [fl4 rtriples rtrip app rbtriples]. cbn [fl4]. rewrite IH; [reflexivity|cbn [length] in L; lia|].
  do 4 (inversion F as [|? ? ? F']; subst; clear F; rename F' into F). exact F.
Qed.
Lemma fl4_six l : Forall six l -> Forall six (fl4 l).
Proof.
  induction l as [|a|a b|a b c|a b c d r IH] using list_ind4; intro F; try (constructor; fail); try exact F.
  do 4 (inversion F as [|? ? ? F']; subst; clear F; rename F' into F). cbn [fl4]. repeat (constructor; [assumption|]). auto.
Qed.
Lemma merge_bits_x2_be x : length x = 32%nat -> Forall six x -> merge_bits_x2_ord BE x = Some (bmerged x).
Proof.
  intros L F. rewrite merge_shift_be by exact L.
  rewrite shift32_core_ok by (auto using fl4_len32, fl4_six). rewrite rbt by (auto; now rewrite L).
  clear F. explode x. reflexivity.
Qed.
Lemma merge_bits_x2_be_def x : length x = 32%nat -> exists y, merge_bits_x2_ord BE x = Some y /\ length y = 32%nat.
Proof.
  intro L. rewrite merge_shift_be by exact L. unfold shift32_core. rewrite u8x16x2_swizzle_ok by (auto using neon_swz; vl).
  eexists. split; [reflexivity|]. rewrite app_length, !map_length. reflexivity.
Qed.
Lemma b64_decode_ascii32_be k x : length x = 32%nat -> bytes x ->
  b64_decode_ascii32_ord BE x (lut_x2 (check_lut (b64_alsw k))) (lut_x2 (decode_lut (b64_alsw k))) =
  Some (if existsb (b64_bad k) x then Err else Ok (bmerged (map (al_decode (b64_alsw k)) x))).
Proof.
  intros L B. unfold b64_decode_ascii32_ord.
  destruct (decode_ascii_xn_ord_ok BE (b64_alsw k) W256 x (b64_alsw_exact k) L B) as (c1 & c2 & E & L1 & L2 & B1 & B2 & H1 & H2).
  rewrite (lut_x2_xn (check_lut _)), (lut_x2_xn (decode_lut _)).
  rewrite E. rewrite obind_some. cbn [fst snd].
  destruct (merge_bits_x2_be_def c2 L2) as (y & Ey & Ly). rewrite Ey, obind_some.
  rewrite u8x32_highbit_any_ok by (auto using neon_simd). rewrite obind_some, H1.
  change (fun c => al_decode (b64_alsw k) c =? 255) with (b64_bad k) in *.
  destruct (existsb (b64_bad k) x) eqn:X; [reflexivity|].
  rewrite H2 in Ey by reflexivity.
  rewrite merge_bits_x2_be in Ey.
  - now injection Ey as <-.
  - now rewrite map_length.
  - now apply b64_vals_six.
Qed.

(** ** base32: splitting *)

(** fields of five bits at the bits 6, 11, 12, 17, 18, 23, 24 and 29 of the number [a + 2^8 b + 2^16 c + 2^24 d + 2^32 e] *)
Definition boct (a b c d e : Z) : list Z :=
  [(b mod 8) * 4 + a / 64; b / 8; (c mod 2) * 16 + b / 16; (c / 2) mod 32; (c / 4) mod 32; (d mod 16) * 2 + c / 128; d mod 32; (e mod 4) * 8 + d / 32].
Fixpoint bocts (l : list Z) : list Z := match l with a :: b :: c :: d :: e :: r => boct a b c d e ++ bocts r | _ => [] end.
Lemma bocts_len l : length (bocts l) = (length l / 5 * 8)%nat.
Proof.
  induction l as [l H|a b c d e r IH] using list_ind5.
  - rewrite Nat.div_small by auto. destruct l as [|a [|b [|c [|d [|e r]]]]]; try reflexivity. cbn [length] in H. lia.
  - cbn [bocts boct app length]. rewrite IH. lia.
Qed.
Lemma bocts_range l : bytes l -> Forall five (bocts l).
Proof.
  induction l as [l H|a b c d e r IH] using list_ind5; intro B.
  - destruct l as [|a [|b [|c [|d [|e r]]]]]; try (constructor; fail). cbn [length] in H. lia.
  - inv_bytes. unfold byte in *. cbn [bocts boct app]. unfold five in *. repeat (constructor; [lia|]). auto.
Qed.
Lemma bsplit_core l n : (length l = 5 * n)%nat -> bytes l -> fl2 (split_arm_core (fl2 (pairs5 l)) n) = bocts l.
Proof.
  revert n. induction l as [l H|a b c d e r IH] using list_ind5; intros n L B; cbn [length] in L.
  - assert (n = 0)%nat as -> by lia. destruct l; [reflexivity|cbn [length] in *; lia].
  - destruct n as [|n]; [lia|]. inv_bytes.
    assert (L0 := arm_lane0 b a ltac:(assumption) ltac:(assumption)).
    assert (L1 := arm_lane1 c b ltac:(assumption) ltac:(assumption)).
    assert (L2 := arm_lane2 d c ltac:(assumption) ltac:(assumption)).
    assert (L3 := arm_lane3 e d ltac:(assumption) ltac:(assumption)).
    unfold arm_lane in *. cbn zeta in *.
    unfold split_arm_core in *. cbn [pairs5 fl2 repeat_list app lanes16_2 lanes16 map2 bocts boct]. cbn zeta. cbn [map2 lanes16]. cbn zeta. cbn [map2].
    apply eq2 in L0 as [-> ->]. apply eq2 in L1 as [-> ->]. apply eq2 in L2 as [-> ->]. apply eq2 in L3 as [-> ->].
    cbn [fl2]. rewrite IH; auto. lia.
Qed.
Lemma be_mask2 a b : flip BE 2 [a; b] = [b; a].
Proof. reflexivity. Qed.
Lemma be_mask8 a b c d e f g h : flip BE 2 [a; b; c; d; e; f; g; h] = [b; a; d; c; f; e; h; g].
Proof. reflexivity. Qed.
Lemma split_bits_be x : length x = 32%nat -> bytes x -> b32_split_bits_ord BE x = Some (bocts (firstn 20 (skipn 6 x))).
Proof.
  intros L B. unfold b32_split_bits_ord. rewrite b32_split_shuffle by auto using neon_swz. rewrite obind_some.
  assert (Hs := neon_simd).
  set (l := firstn 20 (skipn 6 x)).
  assert (Ll : length l = 20%nat) by (unfold l; rewrite firstn_length, skipn_length; lia).
  assert (Bl : bytes l) by (apply bytes_firstn, bytes_skipn, B).
  assert (Lq : length (pairs5 l) = 32%nat) by (rewrite pairs5_len; rewrite Ll; reflexivity).
  rewrite <- (bsplit_core l 4 Ll Bl). clear Bl Ll. generalize (pairs5 l) Lq. clear. intros q L. assert (Hs := neon_simd).
  rewrite !be_mask8, !be_mask2, !splat256_8, !splat256_2 by auto. rewrite ?obind_some.
  repeat (first [rewrite be_shr16 by (auto; vl) | rewrite be_mul by (auto; vl) | rewrite wide_and by (auto; vl) | rewrite wide_or by (auto; vl)];
          rewrite ?obind_some).
  f_equal. explode q. reflexivity.
Qed.
Lemma encode_bytes20_be k x : length x = 32%nat -> bytes x ->
  encode_bytes20_ord BE x (b32_encoding_lut (b32_charset k)) = Some (b32_chars k (bocts (firstn 20 (skipn 6 x)))).
Proof.
  intros L B. unfold encode_bytes20_ord. rewrite split_bits_be by auto. rewrite obind_some.
  apply b32_encode_values_ok; [reflexivity| |].
  - rewrite bocts_len, firstn_length, skipn_length, L. reflexivity.
  - apply bocts_range, bytes_firstn, bytes_skipn, B.
Qed.

(** ** base32: merging *)

(** the little-endian number with fields of five bits at the bits 6, 12, 23 and 29: every other value is lost *)
Definition bquint (a b c d e f g h : Z) : list Z :=
  [(a mod 4) * 64; a / 4 + (c mod 16) * 16; c / 16 + (f mod 2) * 128; f / 2 + (h mod 8) * 32; h / 8].
Definition bquints : list Z -> list Z := groups8 bquint.
Definition bx5 (a b c d e f g h : Z) : list Z := [0; 0; (128 * f) mod 256; (32 * h) mod 256; h / 8; 0; 0; f / 2].
Definition bx6 (a b c d e f g h : Z) : list Z := [(64 * a) mod 256; a / 4; c / 16; 0; 0; (16 * c) mod 256; 0; 0].
Definition bx8 (a b c d e f g h : Z) : list Z :=
  [(64 * a) mod 256; a / 4; u8_or ((128 * f) mod 256) (c / 16); (32 * h) mod 256; h / 8].
Definition bx9 (a b c d e f g h : Z) : list Z := [0; (16 * c) mod 256; 0; f / 2; 0].
Definition bx7 (a b c d e f g h : Z) : list Z := 
  [(64 * a) mod 256; a / 4; u8_or ((128 * f) mod 256) (c / 16); (32 * h) mod 256; h / 8; (16 * c) mod 256; 0; f / 2].

Lemma groups8_len8' f l : (forall a b c d e f' g h, length (f a b c d e f' g h) = 8%nat) -> length l = 32%nat -> length (groups8 f l) = 32%nat.
Proof. intros Hf L. explode l. cbn [groups8]. rewrite !app_length, !Hf. reflexivity. Qed.
Lemma fl2_five l : Forall five l -> Forall five (fl2 l).
Proof.
  assert (G : forall n l, (length l <= n)%nat -> Forall five l -> Forall five (fl2 l)).
  { induction n as [|n IH]; intros [|a [|b r]] L F; cbn [fl2]; try (constructor; fail); cbn [length] in L; [lia|].
    inversion F as [|? ? Ha F']; subst. inversion F' as [|? ? Hb F'']; subst. constructor; [exact Hb|]. constructor; [exact Ha|].
    apply IH; [lia|exact F'']. }
  intro F. now apply (G (length l)).
Qed.
Lemma fl2_fl2 x : length x = 32%nat -> fl2 (fl2 x) = x.
Proof. intro L. explode x. reflexivity. Qed.
Lemma bmerge_x2 x : length x = 32%nat -> Forall five x ->
  fl2 (lanes16_2 u16_mul_lo (map2 u8_and (fl2 x) (repeat_list 4 [31; 0; 31; 0; 31; 0; 31; 0])) (repeat_list 4 [8; 0; 2; 0; 128; 0; 32; 0])) = fl2 (groups8 nm1 (fl2 x)) /\
  fl2 (lanes16_2 u16_mul_lo (lanes16 (u16_shr 8) (fl2 x)) (repeat_list 4 [64; 0; 16; 0; 4; 0; 1; 0])) = fl2 (groups8 nm2 (fl2 x)).
Proof.
  intros L F. destruct (neon_core (fl2 x) 4) as [-> ->]; [explode x; reflexivity|now apply fl2_five|split; reflexivity].
Qed.
Lemma bx5_ok x : length x = 32%nat -> u8x16x2_swizzle NEON64 (fl2 (groups8 nm1 (fl2 x))) B32_MERGE_N1 = Some (groups8 bx5 x).
Proof. intro L. explode x. reflexivity. Qed.
Lemma bx6_ok x : length x = 32%nat -> u8x16x2_swizzle NEON64 (fl2 (groups8 nm2 (fl2 x))) B32_MERGE_N2 = Some (groups8 bx6 x).
Proof. intro L. explode x. reflexivity. Qed.
Lemma bx8_ok x : length x = 32%nat -> u8x16x2_swizzle NEON64 (groups8 bx7 x) B32_MERGE_N3 = Some (halves bx8 x).
Proof. intro L. explode x. reflexivity. Qed.
Lemma bx9_ok x : length x = 32%nat -> u8x16x2_swizzle NEON64 (groups8 bx7 x) B32_MERGE_N4 = Some (halves bx9 x).
Proof. intro L. explode x. reflexivity. Qed.
Lemma bx7_ok l : Forall five l -> map2 u8_or (groups8 bx5 l) (groups8 bx6 l) = groups8 bx7 l.
Proof.
  induction l as [l H|a b c d e f g h r IH] using list_ind8; intro F.
  - destruct l as [|a [|b [|c [|d [|e [|f [|g [|h r]]]]]]]]; try reflexivity. cbn [length] in H. lia.
  - inv_five. cbn [groups8 bx5 bx6 app map2 bx7]. rewrite IH, !or0, !or0l by auto. reflexivity.
Qed.
Lemma bor1 a c : five a -> five c -> u8_or (a / 4) ((16 * c) mod 256) = a / 4 + (c mod 16) * 16.
Proof.
  unfold five, u8_or. intros. replace ((16 * c) mod 256) with (2 ^ 4 * (c mod 16)) by lia. rewrite Z.lor_comm, (lor_disj 4) by lia. lia.
Qed.
Lemma bor2 c f : five c -> five f -> u8_or (u8_or ((128 * f) mod 256) (c / 16)) 0 = c / 16 + (f mod 2) * 128.
Proof.
  unfold five. intros. rewrite or0. unfold u8_or. replace ((128 * f) mod 256) with (2 ^ 7 * (f mod 2)) by lia. rewrite (lor_disj 7) by lia. lia.
Qed.
Lemma bor3 f h : five f -> five h -> u8_or ((32 * h) mod 256) (f / 2) = f / 2 + (h mod 8) * 32.
Proof.
  unfold five, u8_or. intros. replace ((32 * h) mod 256) with (2 ^ 5 * (h mod 8)) by lia. rewrite (lor_disj 5) by lia. lia.
Qed.
Lemma bor_groups l : Forall five l -> map2 u8_or (groups8 bx8 l) (groups8 bx9 l) = bquints l.
Proof.
  induction l as [l H|a b c d e f g h r IH] using list_ind8; intro F.
  - destruct l as [|a [|b [|c [|d [|e [|f [|g [|h r]]]]]]]]; try reflexivity. cbn [length] in H. lia.
  - inv_five. unfold bquints in *. cbn [groups8 bx8 bx9 bquint app map2]. rewrite bor1, bor2, bor3, IH, !or0 by auto.
    replace ((64 * a) mod 256) with ((a mod 4) * 64) by (unfold five in *; lia). reflexivity.
Qed.
Definition bmerged32 (l : list Z) : list Z := bquints (firstn 16 l) ++ zeros6 ++ bquints (skipn 16 l) ++ zeros6.
Lemma b32_merge_bits_be x : length x = 32%nat -> Forall five x -> b32_merge_bits_ord BE x = Some (bmerged32 x).
Proof.
  intros L F. assert (Hs := neon_simd). assert (Hz := neon_swz). unfold b32_merge_bits_ord.
  destruct (bmerge_x2 x L F) as [N1 N2].
  rewrite !be_mask8, !be_mask2, !splat256_8, !splat256_2 by auto. rewrite ?obind_some.
  repeat (first [rewrite be_shr16 by (auto; vl) | rewrite be_mul by (auto; vl) | rewrite wide_and by (auto; vl)]; rewrite ?obind_some).
  match goal with |- context [u8x16x2_swizzle NEON64 ?t B32_MERGE_N1] =>
    assert (E1 : t = fl2 (groups8 nm1 (fl2 x))) by (rewrite <- N1; clear - L; explode x; reflexivity) end.
  match goal with |- context [u8x16x2_swizzle NEON64 ?t B32_MERGE_N2] =>
    assert (E2 : t = fl2 (groups8 nm2 (fl2 x))) by (rewrite <- N2; clear - L; explode x; reflexivity) end.
  rewrite E1, E2. clear E1 E2 N1 N2.
  rewrite bx5_ok, bx6_ok by auto. rewrite ?obind_some.
  rewrite wide_or by (auto; now apply groups8_len8'). rewrite ?obind_some. rewrite bx7_ok by auto.
  rewrite bx8_ok, bx9_ok by auto. rewrite ?obind_some.
  rewrite wide_or by (auto; apply halves_len; auto). f_equal.
  unfold halves, bmerged32.
  assert (F1 : Forall five (firstn 16 x)) by (rewrite <- (firstn_skipn 16 x) in F; now apply Forall_app in F).
  assert (F2 : Forall five (skipn 16 x)) by (rewrite <- (firstn_skipn 16 x) in F; now apply Forall_app in F).
  rewrite !map2_app by (rewrite ?groups8_len by auto; reflexivity). rewrite !bor_groups by auto. reflexivity.
Qed.
Lemma b32_merge_bits_be_def x : length x = 32%nat -> exists y, b32_merge_bits_ord BE x = Some y /\ length y = 32%nat.
Proof.
  intro L. assert (Hs := neon_simd). assert (Hz := neon_swz). unfold b32_merge_bits_ord.
  rewrite !be_mask8, !be_mask2, !splat256_8, !splat256_2 by auto. rewrite ?obind_some.
  repeat (first [rewrite be_shr16 by (auto; vl) | rewrite be_mul by (auto; vl) | rewrite wide_and by (auto; vl)]; rewrite ?obind_some).
  match goal with |- context [u8x16x2_swizzle _ ?t B32_MERGE_N1] => destruct (swizzle_def NEON64 t B32_MERGE_N1) as (z1 & -> & L3); [auto|vl|reflexivity|] end. rewrite ?obind_some.
  match goal with |- context [u8x16x2_swizzle _ ?t B32_MERGE_N2] => destruct (swizzle_def NEON64 t B32_MERGE_N2) as (z2 & -> & L4); [auto|vl|reflexivity|] end. rewrite ?obind_some.
  rewrite wide_or by auto. rewrite ?obind_some.
  match goal with |- context [u8x16x2_swizzle _ ?t B32_MERGE_N3] => destruct (swizzle_def NEON64 t B32_MERGE_N3) as (z3 & -> & L5); [auto|vl|reflexivity|] end. rewrite ?obind_some.
  match goal with |- context [u8x16x2_swizzle _ ?t B32_MERGE_N4] => destruct (swizzle_def NEON64 t B32_MERGE_N4) as (z4 & -> & L6); [auto|vl|reflexivity|] end. rewrite ?obind_some.
  rewrite wide_or by auto. eexists. split; [reflexivity|]. vl.
Qed.
Lemma b32_decode_ascii32_be k x : length x = 32%nat -> bytes x ->
  b32_decode_ascii32_ord BE x (lut_x2 (check_lut (b32_alsw k))) (lut_x2 (decode_lut (b32_alsw k))) =
  Some (if existsb (b32_bad k) x then Err else Ok (bmerged32 (map (al_decode (b32_alsw k)) x))).
Proof.
  intros L B. unfold b32_decode_ascii32_ord.
  destruct (decode_ascii_xn_ord_ok BE (b32_alsw k) W256 x (b32_alsw_exact k) L B) as (c1 & c2 & E & L1 & L2 & B1 & B2 & H1 & H2).
  rewrite (lut_x2_xn (check_lut _)), (lut_x2_xn (decode_lut _)).
  rewrite E. rewrite obind_some. cbn [fst snd].
  destruct (b32_merge_bits_be_def c2 L2) as (y & Ey & Ly). rewrite Ey, obind_some.
  rewrite u8x32_highbit_any_ok by (auto using neon_simd). rewrite obind_some, H1.
  change (fun c => al_decode (b32_alsw k) c =? 255) with (b32_bad k) in *.
  destruct (existsb (b32_bad k) x) eqn:X; [reflexivity|].
  rewrite H2 in Ey by reflexivity.
  rewrite b32_merge_bits_be in Ey.
  - now injection Ey as <-.
  - now rewrite map_length.
  - now apply b32_vals_five.
Qed.
