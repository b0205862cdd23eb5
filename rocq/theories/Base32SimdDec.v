(** The base32 vector decoder and checker kernels. *)
From Coq Require Import ZArith List Bool Lia ZifyBool ZifyNat.
From Verif Require Import Bytes Mem Isa Simd SimdFacts PrimFacts Alsw AlswFacts Spec HexSimdFacts Ints Base64SimdFacts Base32 Base32SimdFacts.
Import ListNotations.
Open Scope Z_scope.
Ltac Zify.zify_post_hook ::= Z.div_mod_to_equations.

(** ** Bytes of groups of eight five-bit values *)
Definition quint (a b c d e f g h : Z) : list Z :=
  [8 * a + b / 4; (b mod 4) * 64 + c * 2 + d / 16; (d mod 16) * 16 + e / 2;
   (e mod 2) * 128 + f * 4 + g / 8; (g mod 8) * 32 + h].
Fixpoint quints (l : list Z) : list Z :=
  match l with a :: b :: c :: d :: e :: f :: g :: h :: r => quint a b c d e f g h ++ quints r | _ => [] end.
Lemma quints_len l : length (quints l) = (length l / 8 * 5)%nat.
Proof.
  induction l as [l H|a b c d e f g h r IH] using list_ind8.
  - rewrite Nat.div_small by auto. destruct l as [|a [|b [|c [|d [|e [|f [|g [|h r]]]]]]]]; try reflexivity. cbn [length] in H. lia.
  - cbn [quints quint app length]. rewrite IH. lia.
Qed.

Definition zeros6 : list Z := [0; 0; 0; 0; 0; 0].
(** each 16-byte half carries ten decoded bytes *)
Definition merged32 (l : list Z) : list Z :=
  quints (firstn 16 l) ++ zeros6 ++ quints (skipn 16 l) ++ zeros6.

Fixpoint groups4 (g : Z -> Z -> Z -> Z -> list Z) (l : list Z) : list Z :=
  match l with a :: b :: c :: d :: r => g a b c d ++ groups4 g r | _ => [] end.
Fixpoint groups8 (f : Z -> Z -> Z -> Z -> Z -> Z -> Z -> Z -> list Z) (l : list Z) : list Z :=
  match l with a :: b :: c :: d :: e :: f' :: g :: h :: r => f a b c d e f' g h ++ groups8 f r | _ => [] end.
Definition halves (f : Z -> Z -> Z -> Z -> Z -> Z -> Z -> Z -> list Z) (l : list Z) : list Z :=
  groups8 f (firstn 16 l) ++ zeros6 ++ groups8 f (skipn 16 l) ++ zeros6.

Ltac inv_five := repeat match goal with H : Forall five (_ :: _) |- _ => inversion H; clear H; subst end.

(** *** x86 *)
Definition mg_hi (a b c d : Z) : list Z := [(128 * a + 4 * b) mod 256; a / 2; (32 * c + d) mod 256; c / 8].
Definition mg_lo (a b c d : Z) : list Z := [(64 * b) mod 256; 8 * a + b / 4; (16 * d) mod 256; 2 * c + d / 16].

Lemma maddubs_a a b : five a -> five b -> maddubs 128 4 a b = 128 * a + 4 * b.
Proof. unfold five, maddubs, clamp, s8. intros Ha Hb. destruct (Z.ltb_spec a 128), (Z.ltb_spec b 128); lia. Qed.
Lemma maddubs_b a b : five a -> five b -> maddubs 32 1 a b = 32 * a + b.
Proof. unfold five, maddubs, clamp, s8. intros Ha Hb. destruct (Z.ltb_spec a 128), (Z.ltb_spec b 128); lia. Qed.

Lemma maddubs_core l n : (length l = 4 * n)%nat -> Forall five l ->
  lanes_maddubs (repeat_list n [128; 4; 32; 1]) l = groups4 mg_hi l.
Proof.
  revert n. induction l as [|a|a b|a b c|a b c d r IH] using list_ind4; intros n L F; cbn [length] in L; try lia.
  - assert (n = 0)%nat as -> by lia. reflexivity.
  - destruct n as [|n]; [lia|]. inv_five. cbn [repeat_list app lanes_maddubs groups4 mg_hi]. cbn zeta.
    rewrite maddubs_a, maddubs_b by auto. rewrite IH by (auto; lia). unfold byte0, byte1, five in *.
    repeat (apply f_equal2; [lia|]). reflexivity.
Qed.
Lemma shl4_core l n : (length l = 4 * n)%nat -> Forall five l ->
  lanes32 (u32_shl 4) (groups4 mg_hi l) = groups4 mg_lo l.
Proof.
  revert n. induction l as [|a|a b|a b c|a b c d r IH] using list_ind4; intros n L F; cbn [length] in L; try lia.
  - reflexivity.
  - destruct n as [|n]; [lia|]. inv_five. cbn [app lanes32 groups4 mg_hi mg_lo]. cbn zeta. rewrite (IH n) by (auto; lia).
    unfold five in *.
    assert (u32_shl 4 (mk32 ((128 * a + 4 * b) mod 256) (a / 2) ((32 * c + d) mod 256) (c / 8))
            = 2048 * a + 64 * b + 65536 * (512 * c + 16 * d)) as ->
      by (unfold u32_shl, mk32; change (pow2 4) with 16; lia).
    unfold byte0, byte1, byte2, byte3. repeat (apply f_equal2; [lia|]). reflexivity.
Qed.

Definition mg8 (a b c d e f g h : Z) : list Z := mg_lo a b c d ++ mg_hi e f g h.
Lemma blend_core s x : matches_isa s [ISSE41] = true -> length x = 32%nat ->
  u32x8_blend_0x55 s (groups4 mg_hi x) (groups4 mg_lo x) = Some (groups8 mg8 x).
Proof. intros Hs L. explode x. destruct s; try discriminate Hs; reflexivity. Qed.

Definition sel1 (a b c d e f g h : Z) : list Z :=
  [8 * a + b / 4; (64 * b) mod 256; (16 * d) mod 256; (128 * e + 4 * f) mod 256; (32 * g + h) mod 256].
Definition sel2 (a b c d e f g h : Z) : list Z := [0; 2 * c + d / 16; e / 2; g / 8; 0].
Lemma sel1_ok s x : swz s -> length x = 32%nat ->
  u8x16x2_swizzle s (groups8 mg8 x) B32_MERGE_S1 = Some (halves sel1 x).
Proof. intros Hs L. explode x. destruct s; try discriminate Hs; reflexivity. Qed.
Lemma sel2_ok s x : swz s -> length x = 32%nat ->
  u8x16x2_swizzle s (groups8 mg8 x) B32_MERGE_S2 = Some (halves sel2 x).
Proof. intros Hs L. explode x. destruct s; try discriminate Hs; reflexivity. Qed.

(** disjoint bits: or is addition *)
Lemma or0 x : u8_or x 0 = x.
Proof. apply Z.lor_0_r. Qed.
Lemma or_b b c d : five b -> five c -> five d -> u8_or ((64 * b) mod 256) (2 * c + d / 16) = (b mod 4) * 64 + c * 2 + d / 16.
Proof.
  unfold five. intros. assert (0 <= 2 * c + d / 16 < 64) as Hw by lia. remember (2 * c + d / 16) as w.
  transitivity ((b mod 4) * 64 + w); [|lia]. clear - H Hw.
  replace (64 * b mod 256) with (2 ^ 6 * (b mod 4)) by lia. unfold u8_or. rewrite (lor_disj 6) by lia. change (2 ^ 6) with 64. lia.
Qed.
Lemma or_c d e : five d -> five e -> u8_or ((16 * d) mod 256) (e / 2) = (d mod 16) * 16 + e / 2.
Proof. unfold five, u8_or. intros. replace (16 * d mod 256) with (2 ^ 4 * (d mod 16)) by lia. rewrite (lor_disj 4) by lia. change (2 ^ 4) with 16. lia. Qed.
Lemma or_d e f g : five e -> five f -> five g -> u8_or ((128 * e + 4 * f) mod 256) (g / 8) = (e mod 2) * 128 + f * 4 + g / 8.
Proof.
  unfold five. intros. assert (0 <= g / 8 < 4) as Hw by lia. remember (g / 8) as w.
  assert (0 <= (e mod 2) * 32 + f < 64) as Hv by lia. remember ((e mod 2) * 32 + f) as v.
  assert ((128 * e + 4 * f) mod 256 = 4 * v) as -> by lia.
  transitivity (4 * v + w); [|lia]. clear - Hv Hw. apply (lor_disj 2); lia.
Qed.
Lemma or_e g h : five g -> five h -> (32 * g + h) mod 256 = (g mod 8) * 32 + h.
Proof. unfold five. lia. Qed.

Lemma or_groups l : Forall five l -> map2 u8_or (groups8 sel1 l) (groups8 sel2 l) = quints l.
Proof.
  induction l as [l H|a b c d e f g h r IH] using list_ind8; intro F.
  - destruct l as [|a [|b [|c [|d [|e [|f [|g [|h r]]]]]]]]; try reflexivity. cbn [length] in H. lia.
  - inv_five. cbn [groups8 sel1 sel2 app map2 quints quint].
    rewrite !or0, or_b, or_c, or_d, or_e, IH by auto. reflexivity.
Qed.
Lemma groups8_len f l : (forall a b c d e f' g h, length (f a b c d e f' g h) = 5%nat) -> length (groups8 f l) = (length l / 8 * 5)%nat.
Proof.
  intro Hf. induction l as [l H|a b c d e f' g h r IH] using list_ind8.
  - rewrite Nat.div_small by auto. destruct l as [|a [|b [|c [|d [|e [|f' [|g [|h r]]]]]]]]; try reflexivity. cbn [length] in H. lia.
  - cbn [groups8 length]. rewrite app_length, Hf, IH. lia.
Qed.
Lemma map2_app {A B C} (f : A -> B -> C) a a' b b' : length a = length b ->
  map2 f (a ++ a') (b ++ b') = map2 f a b ++ map2 f a' b'.
Proof. revert b. induction a; intros [|y b] H; cbn [length] in H; try lia; [reflexivity|]. cbn [app map2]. rewrite IHa by lia. reflexivity. Qed.
Lemma halves_or f g l : (forall l, Forall five l -> map2 u8_or (groups8 f l) (groups8 g l) = quints l) ->
  (forall a b c d e f' g h, length (f a b c d e f' g h) = 5%nat) -> (forall a b c d e f' g' h, length (g a b c d e f' g' h) = 5%nat) ->
  Forall five l -> map2 u8_or (halves f l) (halves g l) = merged32 l.
Proof.
  intros E Hf Hg F. unfold halves, merged32.
  assert (F1 : Forall five (firstn 16 l)) by (rewrite <- (firstn_skipn 16 l) in F; now apply Forall_app in F).
  assert (F2 : Forall five (skipn 16 l)) by (rewrite <- (firstn_skipn 16 l) in F; now apply Forall_app in F).
  rewrite !map2_app by (rewrite ?groups8_len by auto; reflexivity). rewrite !E by auto. reflexivity.
Qed.

(** *** NEON and WASM *)
Definition nm1 (a b c d e f g h : Z) : list Z :=
  [8 * a; 0; 2 * c; 0; (128 * e) mod 256; e / 2; (32 * g) mod 256; g / 8].
Definition nm2 (a b c d e f g h : Z) : list Z :=
  [(64 * b) mod 256; b / 4; (16 * d) mod 256; d / 16; 4 * f; 0; h; 0].
Definition nlane (m1 m2 a b : Z) : list Z :=
  let y := u16_mul_lo (mk16 (u8_and a 31) (u8_and b 0)) (mk16 m1 0) in
  let w := u16_shr 8 (mk16 a b) in
  let z := u16_mul_lo (mk16 (byte0 w) (byte1 w)) (mk16 m2 0) in [byte0 y; byte1 y; byte0 z; byte1 z].
Lemma nlane_eq m1 m2 a b : five a -> five b -> 0 <= m1 <= 128 -> 0 <= m2 <= 128 ->
  nlane m1 m2 a b = [(a * m1) mod 256; a * m1 / 256; (b * m2) mod 256; b * m2 / 256].
Proof.
  unfold five. intros. unfold nlane. cbv zeta. rewrite and_31, and_0. rewrite (Z.mod_small a) by lia.
  assert (W : u16_shr 8 (mk16 a b) = b) by (unfold u16_shr, mk16; change (pow2 8) with 256; lia). rewrite W.
  assert (B0 : byte0 b = b) by (unfold byte0; lia). assert (B1 : byte1 b = 0) by (unfold byte1; lia). rewrite B0, B1.
  assert (A1 : u16_mul_lo (mk16 a 0) (mk16 m1 0) = a * m1) by (unfold u16_mul_lo, mk16; rewrite !Z.mul_0_r, !Z.add_0_r; apply Z.mod_small; nia).
  assert (A2 : u16_mul_lo (mk16 b 0) (mk16 m2 0) = b * m2) by (unfold u16_mul_lo, mk16; rewrite !Z.mul_0_r, !Z.add_0_r; apply Z.mod_small; nia).
  rewrite A1, A2. unfold byte0, byte1. assert (R1 : 0 <= a * m1 < 65536) by nia. assert (R2 : 0 <= b * m2 < 65536) by nia.
  assert (Q1 : a * m1 / 256 mod 256 = a * m1 / 256) by (apply Z.mod_small; split; [apply Z.div_pos; lia|apply Z.div_lt_upper_bound; lia]).
  assert (Q2 : b * m2 / 256 mod 256 = b * m2 / 256) by (apply Z.mod_small; split; [apply Z.div_pos; lia|apply Z.div_lt_upper_bound; lia]).
  now rewrite Q1, Q2.
Qed.
Ltac nl := intros Ha Hb; rewrite nlane_eq by (assumption || lia); unfold five in *; apply mk_eq4; lia.
Lemma nlane0 a b : five a -> five b -> nlane 8 64 a b = [8 * a; 0; (64 * b) mod 256; b / 4].
Proof. nl. Qed.
Lemma nlane1 a b : five a -> five b -> nlane 2 16 a b = [2 * a; 0; (16 * b) mod 256; b / 16].
Proof. nl. Qed.
Lemma nlane2 a b : five a -> five b -> nlane 128 4 a b = [(128 * a) mod 256; a / 2; 4 * b; 0].
Proof. nl. Qed.
Lemma nlane3 a b : five a -> five b -> nlane 32 1 a b = [(32 * a) mod 256; a / 8; b; 0].
Proof. nl. Qed.

Lemma neon_core l n : (length l = 8 * n)%nat -> Forall five l ->
  lanes16_2 u16_mul_lo (map2 u8_and l (repeat_list n [31; 0; 31; 0; 31; 0; 31; 0])) (repeat_list n [8; 0; 2; 0; 128; 0; 32; 0]) = groups8 nm1 l /\
  lanes16_2 u16_mul_lo (lanes16 (u16_shr 8) l) (repeat_list n [64; 0; 16; 0; 4; 0; 1; 0]) = groups8 nm2 l.
Proof.
  revert n. induction l as [l H|a b c d e f g h r IH] using list_ind8; intros n L F; cbn [length] in L.
  - assert (n = 0)%nat as -> by lia. destruct l; [split; reflexivity|cbn [length] in *; lia].
  - destruct n as [|n]; [lia|]. inv_five.
    destruct (IH n ltac:(lia) ltac:(assumption)) as [IH1 IH2].
    assert (L0 := nlane0 a b ltac:(assumption) ltac:(assumption)).
    assert (L1 := nlane1 c d ltac:(assumption) ltac:(assumption)).
    assert (L2 := nlane2 e f ltac:(assumption) ltac:(assumption)).
    assert (L3 := nlane3 g h ltac:(assumption) ltac:(assumption)).
    unfold nlane in *. cbn zeta in *.
    apply eq4 in L0 as (A0 & A1 & A2 & A3). apply eq4 in L1 as (B0 & B1 & B2 & B3).
    apply eq4 in L2 as (C0 & C1 & C2 & C3). apply eq4 in L3 as (D0 & D1 & D2 & D3).
    split; cbn [repeat_list app lanes16 map2 groups8 nm1 nm2]; cbn zeta; cbn [lanes16_2]; cbn zeta.
    + rewrite A0, A1, B0, B1, C0, C1, D0, D1, IH1. reflexivity.
    + rewrite A2, A3, B2, B3, C2, C3, D2, D3, IH2. reflexivity.
Qed.

Definition ns1 (a b c d e f g h : Z) : list Z := [8 * a; 2 * c; e / 2; g / 8; (32 * g) mod 256; 0; 0; (128 * e) mod 256].
Definition ns2 (a b c d e f g h : Z) : list Z := [b / 4; (64 * b) mod 256; (16 * d) mod 256; 4 * f; h; d / 16; 0; 0].
Lemma ns1_ok s x : swz s -> length x = 32%nat -> u8x16x2_swizzle s (groups8 nm1 x) B32_MERGE_N1 = Some (groups8 ns1 x).
Proof. intros Hs L. explode x. destruct s; try discriminate Hs; reflexivity. Qed.
Lemma ns2_ok s x : swz s -> length x = 32%nat -> u8x16x2_swizzle s (groups8 nm2 x) B32_MERGE_N2 = Some (groups8 ns2 x).
Proof. intros Hs L. explode x. destruct s; try discriminate Hs; reflexivity. Qed.
Definition nx7 (a b c d e f g h : Z) : list Z :=
  [8 * a + b / 4; 2 * c + (64 * b) mod 256; e / 2 + (16 * d) mod 256; g / 8 + 4 * f; (32 * g) mod 256 + h; d / 16; 0; (128 * e) mod 256].
Definition nlane7 (a b : Z) : list Z :=
  [u8_or (8 * a) (b / 4); u8_or (2 * a) ((64 * b) mod 256); u8_or (a / 2) ((16 * b) mod 256); u8_or (a / 8) (4 * b); u8_or ((32 * a) mod 256) b].
Lemma nlane7_ok a b : five a -> five b ->
  nlane7 a b = [8 * a + b / 4; 2 * a + (64 * b) mod 256; a / 2 + (16 * b) mod 256; a / 8 + 4 * b; (32 * a) mod 256 + b].
Proof.
  unfold five, nlane7, u8_or. intros Ha Hb.
  assert (E1 : Z.lor (8 * a) (b / 4) = 8 * a + b / 4) by (apply (lor_disj 3); lia).
  assert (E2 : Z.lor (2 * a) ((64 * b) mod 256) = 2 * a + (64 * b) mod 256)
    by (replace ((64 * b) mod 256) with (2 ^ 6 * (b mod 4)) by lia; rewrite Z.lor_comm, (lor_disj 6) by lia; lia).
  assert (E3 : Z.lor (a / 2) ((16 * b) mod 256) = a / 2 + (16 * b) mod 256)
    by (replace ((16 * b) mod 256) with (2 ^ 4 * (b mod 16)) by lia; rewrite Z.lor_comm, (lor_disj 4) by lia; lia).
  assert (E4 : Z.lor (a / 8) (4 * b) = a / 8 + 4 * b) by (rewrite Z.lor_comm, Z.add_comm; apply (lor_disj 2); lia).
  assert (E5 : Z.lor ((32 * a) mod 256) b = (32 * a) mod 256 + b)
    by (replace ((32 * a) mod 256) with (2 ^ 5 * (a mod 8)) by lia; apply (lor_disj 5); lia).
  now rewrite E1, E2, E3, E4, E5.
Qed.
Lemma or0l x : u8_or 0 x = x.
Proof. reflexivity. Qed.
Lemma nx7_ok l : Forall five l -> map2 u8_or (groups8 ns1 l) (groups8 ns2 l) = groups8 nx7 l.
Proof.
  induction l as [l H|a b c d e f g h r IH] using list_ind8; intro F.
  - destruct l as [|a [|b [|c [|d [|e [|f [|g [|h r]]]]]]]]; try reflexivity. cbn [length] in H. lia.
  - inv_five. cbn [groups8 ns1 ns2 app map2 nx7].
    assert (A := nlane7_ok a b ltac:(assumption) ltac:(assumption)). assert (A1 : u8_or (8 * a) (b / 4) = 8 * a + b / 4) by (unfold nlane7 in A; congruence). clear A.
    assert (A := nlane7_ok c b ltac:(assumption) ltac:(assumption)). assert (A2 : u8_or (2 * c) ((64 * b) mod 256) = 2 * c + (64 * b) mod 256) by (unfold nlane7 in A; congruence). clear A.
    assert (A := nlane7_ok e d ltac:(assumption) ltac:(assumption)). assert (A3 : u8_or (e / 2) ((16 * d) mod 256) = e / 2 + (16 * d) mod 256) by (unfold nlane7 in A; congruence). clear A.
    assert (A := nlane7_ok g f ltac:(assumption) ltac:(assumption)). assert (A4 : u8_or (g / 8) (4 * f) = g / 8 + 4 * f) by (unfold nlane7 in A; congruence). clear A.
    assert (A := nlane7_ok g h ltac:(assumption) ltac:(assumption)). assert (A5 : u8_or ((32 * g) mod 256) h = (32 * g) mod 256 + h) by (unfold nlane7 in A; congruence). clear A.
    rewrite A1, A2, A3, A4, A5, IH, !or0, or0l by auto. reflexivity.
Qed.
Definition ns3 (a b c d e f g h : Z) : list Z :=
  [8 * a + b / 4; 2 * c + (64 * b) mod 256; e / 2 + (16 * d) mod 256; g / 8 + 4 * f; (32 * g) mod 256 + h].
Definition ns4 (a b c d e f g h : Z) : list Z := [0; d / 16; 0; (128 * e) mod 256; 0].
Lemma ns3_ok s x : swz s -> length x = 32%nat -> u8x16x2_swizzle s (groups8 nx7 x) B32_MERGE_N3 = Some (halves ns3 x).
Proof. intros Hs L. explode x. destruct s; try discriminate Hs; reflexivity. Qed.
Lemma ns4_ok s x : swz s -> length x = 32%nat -> u8x16x2_swizzle s (groups8 nx7 x) B32_MERGE_N4 = Some (halves ns4 x).
Proof. intros Hs L. explode x. destruct s; try discriminate Hs; reflexivity. Qed.

Lemma or_b' b c d : five b -> five c -> five d -> u8_or (2 * c + (64 * b) mod 256) (d / 16) = (b mod 4) * 64 + c * 2 + d / 16.
Proof.
  unfold five. intros. assert (0 <= d / 16 < 2) as Hw by lia. remember (d / 16) as w.
  assert (0 <= (b mod 4) * 32 + c < 128) as Hv by lia. remember ((b mod 4) * 32 + c) as v.
  assert (2 * c + (64 * b) mod 256 = 2 * v) as -> by lia.
  transitivity (2 * v + w); [|lia]. clear - Hv Hw. apply (lor_disj 1); lia.
Qed.
Lemma or_d' e f g : five e -> five f -> five g -> u8_or (g / 8 + 4 * f) ((128 * e) mod 256) = (e mod 2) * 128 + f * 4 + g / 8.
Proof.
  unfold five. intros. assert (0 <= g / 8 + 4 * f < 128) as Hw by lia. remember (g / 8 + 4 * f) as w.
  transitivity (e mod 2 * 128 + w); [|lia]. clear - H Hw.
  replace (128 * e mod 256) with (2 ^ 7 * (e mod 2)) by lia. unfold u8_or. rewrite Z.lor_comm, (lor_disj 7) by lia. change (2 ^ 7) with 128. lia.
Qed.
Lemma or_groups' l : Forall five l -> map2 u8_or (groups8 ns3 l) (groups8 ns4 l) = quints l.
Proof.
  induction l as [l H|a b c d e f g h r IH] using list_ind8; intro F.
  - destruct l as [|a [|b [|c [|d [|e [|f [|g [|h r]]]]]]]]; try reflexivity. cbn [length] in H. lia.
  - inv_five. cbn [groups8 ns3 ns4 app map2 quints quint].
    rewrite !or0, or_b', or_d', IH by auto. unfold five in *. repeat (apply f_equal2; [lia|]). reflexivity.
Qed.

Lemma groups4_len f l : (forall a b c d, length (f a b c d) = 4%nat) -> length (groups4 f l) = (length l / 4 * 4)%nat.
Proof.
  intro Hf. induction l as [|a|a b|a b c|a b c d r IH] using list_ind4; try reflexivity.
  cbn [groups4 length]. rewrite app_length, Hf, IH. lia.
Qed.
Lemma groups8_len8 f l : (forall a b c d e f' g h, length (f a b c d e f' g h) = 8%nat) -> length (groups8 f l) = (length l / 8 * 8)%nat.
Proof.
  intro Hf. induction l as [l H|a b c d e f' g h r IH] using list_ind8.
  - rewrite Nat.div_small by auto. destruct l as [|a [|b [|c [|d [|e [|f' [|g [|h r]]]]]]]]; try reflexivity. cbn [length] in H. lia.
  - cbn [groups8 length]. rewrite app_length, Hf, IH. lia.
Qed.
Lemma halves_len f l : length l = 32%nat -> (forall a b c d e f' g h, length (f a b c d e f' g h) = 5%nat) -> length (halves f l) = 32%nat.
Proof. intros L Hf. unfold halves. rewrite !app_length, !groups8_len by auto. rewrite firstn_length, skipn_length, L. reflexivity. Qed.

Lemma sse41_ssse3 s : matches_isa s [ISSE41] = true -> matches_isa s [ISSSE3] = true.
Proof. destruct s; try discriminate; auto. Qed.
Lemma sse41p_cases s : sse41p s -> matches_isa s [ISSE41] = true \/ (matches_isa s [ISSE41] = false /\ matches_isa s [INEON; IWASM128] = true).
Proof. destruct s; try discriminate; auto. Qed.

Lemma merge_bits_ok s x : sse41p s -> length x = 32%nat -> Forall five x -> merge_bits s x = Some (merged32 x).
Proof.
  intros Hs L F. unfold merge_bits. assert (Hz := sse41p_swz _ Hs). assert (Hs' := swz_simd _ Hz).
  destruct (sse41p_cases s Hs) as [E|[E E']]; rewrite E, ?E'.
  - rewrite splat256_4 by auto. cbn [obind].
    rewrite wide_maddubs by (auto using sse41_ssse3; vlens). cbn [obind].
    rewrite (maddubs_core x 8 L F).
    rewrite wide_shl32 by (auto; rewrite groups4_len, L; reflexivity). cbn [obind].
    rewrite (shl4_core x 8 L F). rewrite blend_core by auto. cbn [obind].
    rewrite sel1_ok, sel2_ok by auto. cbn [obind].
    rewrite wide_or by (auto; apply halves_len; auto). f_equal.
    apply halves_or; auto using or_groups.
  - rewrite !splat256_8, !splat256_2 by auto. cbn [obind].
    destruct (neon_core x 4 L F) as [N1 N2].
    rewrite wide_and by (auto; vlens). cbn [obind].
    rewrite wide_mul_lo by (auto; vlens). cbn [obind].
    rewrite wide_shr16 by (auto; vlens). cbn [obind].
    rewrite wide_mul_lo by (auto; vlens). cbn [obind].
    change (repeat_list 16 [31; 0]) with (repeat_list 4 [31; 0; 31; 0; 31; 0; 31; 0]).
    rewrite N1, N2. rewrite ns1_ok, ns2_ok by auto. cbn [obind].
    rewrite wide_or by (auto; rewrite groups8_len8, L; reflexivity). cbn [obind].
    rewrite nx7_ok by auto.
    rewrite ns3_ok, ns4_ok by auto. cbn [obind].
    rewrite wide_or by (auto; apply halves_len; auto). f_equal.
    apply halves_or; auto using or_groups'.
Qed.

(** on anything, the merge at least is defined and has the right length *)
Lemma blend_def s a b : matches_isa s [ISSE41] = true -> length a = 32%nat -> length b = 32%nat ->
  exists y, u32x8_blend_0x55 s a b = Some y /\ length y = 32%nat.
Proof. intros Hs La Lb. explode a. explode b. destruct s; try discriminate Hs; eexists; split; reflexivity. Qed.
Lemma swizzle_def s t i : swz s -> length t = 32%nat -> length i = 32%nat -> exists y, u8x16x2_swizzle s t i = Some y /\ length y = 32%nat.
Proof.
  intros Hs Lt Li. rewrite u8x16x2_swizzle_ok by auto. eexists. split; [reflexivity|].
  rewrite app_length, !map_length. rewrite lo_len, hi_len by auto. reflexivity.
Qed.
Lemma lanes_maddubs_len a b n : length a = (2 * n)%nat -> length b = (2 * n)%nat -> length (lanes_maddubs a b) = (2 * n)%nat.
Proof.
  revert a b. induction n; intros [|a1 [|a2 a]] [|b1 [|b2 b]] La Lb; try reflexivity; cbn [length] in La, Lb; try lia.
  cbn [lanes_maddubs length]. rewrite IHn by lia. lia.
Qed.
Lemma merge_bits_def s x : sse41p s -> length x = 32%nat -> exists y, merge_bits s x = Some y /\ length y = 32%nat.
Proof.
  intros Hs L. unfold merge_bits. assert (Hz := sse41p_swz _ Hs). assert (Hs' := swz_simd _ Hz).
  destruct (sse41p_cases s Hs) as [E|[E E']]; rewrite E, ?E'.
  - rewrite splat256_4 by auto. cbn [obind].
    rewrite wide_maddubs by (auto using sse41_ssse3; vlens). cbn [obind].
    assert (L1 : length (lanes_maddubs (repeat_list 8 [128; 4; 32; 1]) x) = 32%nat) by (apply (lanes_maddubs_len _ _ 16); auto).
    rewrite wide_shl32 by auto. cbn [obind].
    edestruct (blend_def s (lanes_maddubs (repeat_list 8 [128; 4; 32; 1]) x)) as (y & -> & Ly); [auto|auto|apply (lanes32_len _ _ 8); auto|]. cbn [obind].
    destruct (swizzle_def s y B32_MERGE_S1) as (z1 & -> & L3); auto. cbn [obind].
    destruct (swizzle_def s y B32_MERGE_S2) as (z2 & -> & L4); auto. cbn [obind].
    rewrite wide_or by auto. eexists. split; [reflexivity|]. vlens.
  - rewrite !splat256_8, !splat256_2 by auto. cbn [obind].
    rewrite wide_and by (auto; vlens). cbn [obind].
    rewrite wide_mul_lo by (auto; vlens). cbn [obind].
    rewrite wide_shr16 by (auto; vlens). cbn [obind].
    rewrite wide_mul_lo by (auto; vlens). cbn [obind].
    match goal with |- context [u8x16x2_swizzle s ?t B32_MERGE_N1] => destruct (swizzle_def s t B32_MERGE_N1) as (z1 & -> & L3); [auto|vlens|reflexivity|] end. cbn [obind].
    match goal with |- context [u8x16x2_swizzle s ?t B32_MERGE_N2] => destruct (swizzle_def s t B32_MERGE_N2) as (z2 & -> & L4); [auto|vlens|reflexivity|] end. cbn [obind].
    rewrite wide_or by auto. cbn [obind].
    match goal with |- context [u8x16x2_swizzle s ?t B32_MERGE_N3] => destruct (swizzle_def s t B32_MERGE_N3) as (z3 & -> & L5); [auto|vlens|reflexivity|] end. cbn [obind].
    match goal with |- context [u8x16x2_swizzle s ?t B32_MERGE_N4] => destruct (swizzle_def s t B32_MERGE_N4) as (z4 & -> & L6); [auto|vlens|reflexivity|] end. cbn [obind].
    rewrite wide_or by auto. eexists. split; [reflexivity|]. vlens.
Qed.

(** ** Decoding and checking one block *)
Local Opaque check_lut decode_lut.
Definition b32_bad (k : b32_kind) (c : Z) : bool := al_decode (b32_alsw k) c =? 255.
Lemma b32_alsw_exact k : alsw_exact (b32_alsw k).
Proof. destruct k; [exact base32_alsw_exact|exact base32hex_alsw_exact]. Qed.

Lemma b32_val_five k c : byte c -> b32_bad k c = false -> five (al_decode (b32_alsw k) c).
Proof.
  intros Hc. unfold b32_bad, five.
  enough (G : (al_decode (b32_alsw k) c =? 255) || ((0 <=? al_decode (b32_alsw k) c) && (al_decode (b32_alsw k) c <? 32)) = true).
  { intro H. rewrite H in G. cbn [orb] in G. lia. }
  destruct k; revert c Hc; apply byte_sweep; vm_compute; reflexivity.
Qed.
Lemma b32_vals_five k x : bytes x -> existsb (b32_bad k) x = false -> Forall five (map (al_decode (b32_alsw k)) x).
Proof.
  induction x as [|c x IH]; intros B H; cbn [map]; constructor; inv_bytes; cbn [existsb] in H; apply orb_false_iff in H as [H1 H2].
  - now apply b32_val_five.
  - now apply IH.
Qed.

Lemma b32_decode_ascii32_ok s k x : sse41p s -> length x = 32%nat -> bytes x ->
  b32_decode_ascii32 s x (lut_x2 (check_lut (b32_alsw k))) (lut_x2 (decode_lut (b32_alsw k))) =
  Some (if existsb (b32_bad k) x then Err else Ok (merged32 (map (al_decode (b32_alsw k)) x))).
Proof.
  intros Hs L B. assert (Hz := sse41p_swz _ Hs). unfold b32_decode_ascii32.
  destruct (decode_ascii_xn_ok (b32_alsw k) (b32_alsw_exact k) W256 s x Hz L B) as (c1 & c2 & E & L1 & L2 & B1 & B2 & H1 & H2).
  rewrite (lut_x2_xn (check_lut _)), (lut_x2_xn (decode_lut _)).
  rewrite E. cbn [obind fst snd].
  destruct (merge_bits_def s c2 Hs L2) as (y & Ey & Ly). rewrite Ey. cbn [obind].
  rewrite u8x32_highbit_any_ok by (auto using swz_simd). cbn [obind]. rewrite H1.
  change (fun c => al_decode (b32_alsw k) c =? 255) with (b32_bad k) in *.
  destruct (existsb (b32_bad k) x) eqn:X; [reflexivity|].
  rewrite H2 in Ey by reflexivity.
  rewrite merge_bits_ok in Ey; auto.
  - now injection Ey as <-.
  - now rewrite map_length.
  - now apply b32_vals_five.
Qed.

Lemma b32_check_ascii32_ok s k x : swz s -> length x = 32%nat -> bytes x ->
  check_ascii_xn W256 s x (lut_x2 (check_lut (b32_alsw k))) = Some (negb (existsb (b32_bad k) x)).
Proof.
  intros Hs L B. rewrite lut_x2_xn.
  rewrite check_ascii_xn_ok by (auto using b32_alsw_exact). f_equal.
  clear. induction x as [|c x IH]; cbn [forallb existsb]; [reflexivity|]. rewrite negb_orb, IH. reflexivity.
Qed.
