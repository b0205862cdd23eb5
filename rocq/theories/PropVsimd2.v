(** Property theorems for the remaining operations of vsimd: C66 (widening and narrowing), C67 (table lookup),
    C68 (byte order and selection). [vec t xs] are the bytes of a vector of lanes [xs] of type [t]. *)
From Coq Require Import ZArith List Bool Lia ZifyBool ZifyNat.
From Verif Require Import Bytes Mem MemFacts Isa Ints Simd SimdFacts PrimFacts Loops UnicodeSpec UnicodeFacts SwapFacts LaneFacts VsimdSpec Vsimd VsimdFacts
  VsimdSpec2 VsimdFacts2 PropVsimd.
Import ListNotations.
Open Scope Z_scope.

Definition x86 (s : isa) : bool := match s with SSE2 | SSSE3 | SSE41 | AVX2 => true | _ => false end.
Definition ssse3_up (s : isa) : bool := match s with SSSE3 | SSE41 | AVX2 => true | _ => false end.

(** ** C66: widening and narrowing *)
(** products of 16-bit lanes, summed in pairs to 32 bits; the sum wraps only for (-32768)^2 + (-32768)^2 *)
Theorem C66_madd : forall w s xs ys, lanes I16 (lane_count w I16) xs -> lanes I16 (lane_count w I16) ys ->
  pick w (i16x8_madd s) (i16x16_madd s) (vec I16 xs) (vec I16 ys) =
  if x86 s then Some (vec I32 (neighbours (fun a b c d => wrap I32 (dot a b c d)) xs ys)) else None.
Proof.
  intros w s xs ys [Lx Fx] [Ly Fy].
  assert (E : pick w (i16x8_madd s) (i16x16_madd s) (vec I16 xs) (vec I16 ys) = if x86 s then Some (lanes_madd (vec I16 xs) (vec I16 ys)) else None).
  { destruct w; cbn [pick]; [destruct s; reflexivity|]. destruct (x86 s) eqn:X; [|destruct s; try discriminate X; reflexivity].
    apply wide2_ok; [rewrite vec_len, Lx; reflexivity|rewrite vec_len, Ly; reflexivity| |].
    - intros; destruct s; try discriminate X; reflexivity.
    - apply lanes_madd_halves; rewrite vec_len; [rewrite Lx|rewrite Ly]; reflexivity. }
  rewrite E. destruct (x86 s); [|reflexivity]. f_equal.
  apply (madd_vec (match w with W128 => 4 | W256 => 8 end)); auto; [rewrite Lx|rewrite Ly]; destruct w; reflexivity.
Qed.
Print Assumptions C66_madd.
Example C66_madd_ex : i16x8_madd SSE2 (vec I16 [-32768; -32768; 2; 3; -4; 5; 300; 0]) (vec I16 [-32768; -32768; 7; 8; 9; 10; 300; 1]) =
  Some (vec I32 [-2147483648; 38; 14; 90000]).
Proof. reflexivity. Qed.
(** in range the sum is exact *)
Theorem C66_madd_exact : forall w s xs ys, lanes I16 (lane_count w I16) xs -> lanes I16 (lane_count w I16) ys ->
  Forall (fun y => y <> -32768) ys -> x86 s = true ->
  pick w (i16x8_madd s) (i16x16_madd s) (vec I16 xs) (vec I16 ys) = Some (vec I32 (neighbours dot xs ys)).
Proof.
  intros w s xs ys Hx Hy N X. rewrite C66_madd, X by auto. do 2 f_equal. destruct Hx as [Lx Fx], Hy as [Ly Fy].
  assert (G : forall n xs ys, length xs = (2 * n)%nat -> length ys = (2 * n)%nat -> Forall (has_type I16) xs -> Forall (has_type I16) ys ->
    Forall (fun y => y <> -32768) ys -> neighbours (fun a b c d => wrap I32 (dot a b c d)) xs ys = neighbours dot xs ys).
  { clear. intros n xs ys Lx Ly. revert n xs ys Lx Ly. apply (pair_ind (fun xs ys => Forall (has_type I16) xs -> Forall (has_type I16) ys ->
      Forall (fun y => y <> -32768) ys -> neighbours (fun a b c d => wrap I32 (dot a b c d)) xs ys = neighbours dot xs ys)); [reflexivity|].
    intros x0 x1 y0 y1 xs ys IH Fx Fy N. apply Forall_cons_iff in Fx as [H0 Fx]. apply Forall_cons_iff in Fx as [H1 Fx].
    apply Forall_cons_iff in Fy as [K0 Fy]. apply Forall_cons_iff in Fy as [K1 Fy].
    apply Forall_cons_iff in N as [N0 N]. apply Forall_cons_iff in N as [N1 N]. cbn [neighbours]. rewrite IH by auto. f_equal.
    unfold wrap, has_type, dot in *. change (min_of I32) with (-2147483648). change (card I32) with 4294967296.
    change (min_of I16) with (-32768) in *. change (max_of I16) with 32767 in *.
    assert (B : forall x y, -32768 <= x <= 32767 -> -32768 < y <= 32767 -> -1073741824 <= x * y <= 1073709056) by (clear; intros; nia).
    pose proof (B x0 y0 H0). pose proof (B x1 y1 H1). rewrite Z.mod_small by lia. lia. }
  apply (G (match w with W128 => 4 | W256 => 8 end)%nat); auto; [rewrite Lx|rewrite Ly]; destruct w; reflexivity.
Qed.
Print Assumptions C66_madd_exact.
(** products of unsigned by signed bytes, summed in pairs and saturated to 16 bits *)
Theorem C66_maddubs : forall w s xs ys, lanes U8 (lane_count w U8) xs -> lanes I8 (lane_count w I8) ys ->
  pick w (i16x8_maddubs s) (i16x16_maddubs s) (vec U8 xs) (vec I8 ys) =
  if ssse3_up s then Some (vec I16 (neighbours (fun a b c d => sat I16 (dot a b c d)) xs ys)) else None.
Proof.
  intros w s xs ys [Lx Fx] [Ly Fy].
  assert (E : pick w (i16x8_maddubs s) (i16x16_maddubs s) (vec U8 xs) (vec I8 ys) = if ssse3_up s then Some (lanes_maddubs (vec U8 xs) (vec I8 ys)) else None).
  { destruct w; cbn [pick]; [destruct s; reflexivity|]. destruct (ssse3_up s) eqn:X; [|destruct s; try discriminate X; reflexivity].
    apply wide2_ok; [rewrite vec_len, Lx; reflexivity|rewrite vec_len, Ly; reflexivity| |].
    - intros; destruct s; try discriminate X; reflexivity.
    - apply lanes_maddubs_halves; rewrite vec_len; [rewrite Lx|rewrite Ly]; reflexivity. }
  rewrite E. destruct (ssse3_up s); [|reflexivity]. f_equal.
  apply (maddubs_vec (match w with W128 => 8 | W256 => 16 end)); auto; [rewrite Lx|rewrite Ly]; destruct w; reflexivity.
Qed.
Print Assumptions C66_maddubs.
Example C66_maddubs_ex : i16x8_maddubs SSSE3 (vec U8 [255; 255; 1; 2; 255; 255; 0; 0; 3; 4; 5; 6; 7; 8; 9; 10])
  (vec I8 [127; 127; -1; 5; -128; -128; 1; 1; 64; 1; 64; 1; 64; 1; 64; 1]) = Some (vec I16 [32767; 9; -32768; 0; 196; 326; 456; 586]).
Proof. reflexivity. Qed.
(** saturated to unsigned bytes, the lanes of the first vector first *)
Theorem C66_packus : forall s xs ys, lanes I16 8 xs -> lanes I16 8 ys ->
  i16x8_packus s (vec I16 xs) (vec I16 ys) = if x86 s then Some (vec U8 (map (sat U8) (xs ++ ys))) else None.
Proof.
  intros s xs ys [Lx Fx] [Ly Fy].
  transitivity (if x86 s then Some (lanes_packus (vec I16 xs) ++ lanes_packus (vec I16 ys)) else None); [destruct s; reflexivity|].
  now rewrite !packus_vec, map_app, vec_app by auto.
Qed.
Print Assumptions C66_packus.
Example C66_packus_ex : i16x8_packus AVX2 (vec I16 [-5; 300; 255; 256; 0; 1; 2; 3]) (vec I16 [32767; -32768; 128; 127; 9; 8; 7; 6]) =
  Some [0; 255; 255; 255; 0; 1; 2; 3; 255; 0; 128; 127; 9; 8; 7; 6].
Proof. reflexivity. Qed.
(** bytes to 16-bit lanes *)
Theorem C66_from_u8 : forall s xs, lanes U8 16 xs ->
  u16x16_from_u8x16 s (vec U8 xs) = if any_simd s then Some (vec U16 xs) else None.
Proof.
  intros s xs [Lx Fx]. transitivity (if any_simd s then Some (zero_extend (vec U8 xs)) else None).
  - assert (L : length (vec U8 xs) = 16%nat) by (rewrite vec_len, Lx; reflexivity). set (a := vec U8 xs) in *. clearbody a. elems a L. destruct s; reflexivity.
  - now rewrite zero_extend_vec.
Qed.
Print Assumptions C66_from_u8.
Example C66_from_u8_ex : u16x16_from_u8x16 SSE2 (map Z.of_nat (seq 250 6) ++ repeat 7 10) = Some (vec U16 (map Z.of_nat (seq 250 6) ++ repeat 7 10)).
Proof. reflexivity. Qed.
(** narrowing what was widened gives the bytes back *)
Theorem C66_pack_widen : forall s xs v, lanes U8 16 xs -> x86 s = true -> u16x16_from_u8x16 s (vec U8 xs) = Some v ->
  i16x8_packus s (lo128 v) (hi128 v) = Some (vec U8 xs).
Proof.
  intros s xs v Hx X E. rewrite C66_from_u8 in E by auto. replace (any_simd s) with true in E by (destruct s; auto; discriminate X). injection E as <-.
  destruct Hx as [Lx Fx].
  assert (C : forall l, Forall (has_type U8) l -> vec U16 l = vec I16 l).
  { intros l F. unfold vec. reflexivity. }
  assert (T : forall l, Forall (has_type U8) l -> Forall (has_type I16) l).
  { intro l. apply Forall_impl. unfold has_type. change (min_of U8) with 0. change (max_of U8) with 255.
    change (min_of I16) with (-32768). change (max_of I16) with 32767. intros; lia. }
  destruct (split_at xs 8) as (a & b & -> & La); [rewrite Lx; lia|]. apply Forall_app in Fx as [Fa Fb]. rewrite app_length in Lx.
  rewrite vec_app. unfold lo128, hi128. rewrite firstn_app_exact, skipn_app_exact by (rewrite vec_len, La; reflexivity).
  rewrite !C, C66_packus, X by (auto; split; auto; lia). do 2 f_equal.
  rewrite <- (map_id (a ++ b)) at 2. apply map_ext_in. intros x I. assert (F : Forall (has_type U8) (a ++ b)) by (apply Forall_app; auto).
  rewrite Forall_forall in F. specialize (F x I). unfold has_type, sat in *. change (min_of U8) with 0 in *. change (max_of U8) with 255 in *. lia.
Qed.
Print Assumptions C66_pack_widen.
(** rounded-up average of bytes *)
Theorem C66_avgr : forall w s xs ys, lanes U8 (lane_count w U8) xs -> lanes U8 (lane_count w U8) ys ->
  pick w (u8x16_avgr s) (u8x32_avgr s) (vec U8 xs) (vec U8 ys) =
  if any_simd s then Some (vec U8 (map2 (fun x y => (x + y + 1) / 2) xs ys)) else None.
Proof.
  intros w s xs ys [Lx Fx] [Ly Fy].
  assert (F : Forall (has_type U8) (map2 (fun x y => (x + y + 1) / 2) xs ys)).
  { apply map2_F; auto. unfold has_type. change (min_of U8) with 0. change (max_of U8) with 255. clear. intros x y ? ?.
    assert ((x + y + 1) / 2 < 256) by (apply Z.div_lt_upper_bound; lia). assert (0 <= (x + y + 1) / 2) by (apply Z.div_pos; lia). lia. }
  rewrite (u8_vec xs), (u8_vec ys), (u8_vec _ F) by auto.
  destruct w; cbn [pick].
  - destruct s; reflexivity.
  - destruct (any_simd s) eqn:X; [|destruct s; try discriminate X; reflexivity].
    apply wide2_ok; auto; [intros; destruct s; try discriminate X; reflexivity|]. apply map2_halves; auto.
Qed.
Print Assumptions C66_avgr.
Example C66_avgr_ex : u8x16_avgr NEON32 (repeat 255 16) (repeat 254 16) = Some (repeat 255 16). Proof. reflexivity. Qed.

(** ** C67: table lookup *)
Definition table_isa (s : isa) : bool := match s with Fallback | SSE2 => false | _ => true end.
(** [table::u8x16xn_lookup] means the same on every instruction set that has it, for every index byte;
    in a 256-bit vector each half uses its own table. *)
Theorem C67_lookup : forall s table idx, length table = 16%nat -> bytes idx -> length idx = 16%nat ->
  u8x16xn_lookup W128 s table idx = if table_isa s then Some (map (looked_up table) idx) else None.
Proof.
  intros s table idx Lt B Li. destruct (table_isa s) eqn:S; [|destruct s; try discriminate S; reflexivity].
  apply (u8x16xn_lookup_ok W128 s table idx); auto. destruct s; try discriminate S; reflexivity.
Qed.
Print Assumptions C67_lookup.
Theorem C67_lookup_x2 : forall s t1 t2 i1 i2, length t1 = 16%nat -> length t2 = 16%nat -> bytes i1 -> bytes i2 -> length i1 = 16%nat -> length i2 = 16%nat ->
  u8x16xn_lookup W256 s (t1 ++ t2) (i1 ++ i2) = if table_isa s then Some (map (looked_up t1) i1 ++ map (looked_up t2) i2) else None.
Proof.
  intros s t1 t2 i1 i2 L1 L2 B1 B2 K1 K2. destruct (table_isa s) eqn:S; [|destruct s; try discriminate S; reflexivity].
  assert (Sz : swz s) by (destruct s; try discriminate S; reflexivity).
  assert (Lx : length (i1 ++ i2) = 32%nat) by (rewrite app_length; lia). assert (Bx : bytes (i1 ++ i2)) by (apply Forall_app; auto).
  unfold u8x16xn_lookup. destruct (matches_isa s [ISSSE3]) eqn:E.
  - cbn [u8x16xn_swizzle pick]. rewrite u8x16x2_swizzle_ok by (auto; rewrite app_length; lia). rewrite !lo_app, !hi_app by auto.
    unfold swz_lane. rewrite E. reflexivity.
  - replace (matches_isa s [INEON; IWASM128]) with true by (destruct s; easy).
    rewrite u8xn_splat_ok by (now apply swz_simd). cbn [obind]. rewrite xn_and_ok by (auto using swz_simd, repeat_length). cbn [obind].
    rewrite map2_repeat_r by auto. cbn [u8x16xn_swizzle pick]. rewrite u8x16x2_swizzle_ok by (auto; rewrite ?map_length, app_length; lia).
    rewrite map_app, !lo_app, !hi_app by (auto; now rewrite map_length). rewrite !map_map. f_equal.
    assert (G : forall t i, bytes i -> map (fun x => swz_lane s t (u8_and x 143)) i = map (looked_up t) i).
    { intros t i B. apply map_ext_in. intros z Hz. unfold swz_lane. rewrite E, <- pshufb_looked. apply tbl_lane_masked. unfold bytes in B. rewrite Forall_forall in B. auto. }
    now rewrite !G.
Qed.
Print Assumptions C67_lookup_x2.
Example C67_lookup_ex : forall s, table_isa s = true ->
  u8x16xn_lookup W128 s (map Z.of_nat (seq 100 16)) [0; 15; 16; 17; 31; 32; 127; 112; 128; 255; 129; 1; 2; 3; 4; 5] =
  Some [100; 115; 100; 101; 115; 100; 115; 100; 0; 0; 0; 101; 102; 103; 104; 105].
Proof. intros s H. destruct s; try discriminate H; reflexivity. Qed.
(** the plain swizzle agrees with it for indices below 16 and from 128 on ... *)
Theorem C67_swizzle : forall s table idx, length table = 16%nat -> Forall (fun i => 0 <= i < 16 \/ 128 <= i < 256) idx -> length idx = 16%nat ->
  u8x16_swizzle s table idx = if table_isa s then Some (map (looked_up table) idx) else None.
Proof.
  intros s table idx Lt F Li. destruct (table_isa s) eqn:S; [|destruct s; try discriminate S; reflexivity].
  rewrite u8x16_swizzle_ok by (auto; destruct s; try discriminate S; reflexivity). f_equal. apply map_ext_in. intros i I.
  rewrite Forall_forall in F. specialize (F i I). unfold swz_lane. destruct (matches_isa s [ISSSE3]); [reflexivity|]. apply tbl16_in; [auto|lia].
Qed.
Print Assumptions C67_swizzle.
(** ... but not for indices 16..127, where the instruction sets differ *)
Theorem C67_swizzle_index_refuted : exists table idx, length table = 16%nat /\ bytes idx /\ length idx = 16%nat /\
  u8x16_swizzle SSSE3 table idx = Some (map (looked_up table) idx) /\
  u8x16_swizzle NEON64 table idx <> Some (map (looked_up table) idx) /\
  u8x16_swizzle WASM128 table idx <> u8x16_swizzle AVX2 table idx.
Proof.
  exists (repeat 1 16), (repeat 16 16). split; [reflexivity|]. split; [unfold bytes; apply Forall_forall; intros x H; apply repeat_spec in H; subst; unfold byte; lia|].
  split; [reflexivity|]. split; [reflexivity|]. split; discriminate.
Qed.
Print Assumptions C67_swizzle_index_refuted.
(** the table of 32 entries exists on aarch64 only *)
Theorem C67_swizzle32 : forall s table idx, length table = 32%nat -> bytes idx -> length idx = 32%nat ->
  u8x32_swizzle s table idx = match s with NEON64 => Some (map (fun i => nth (Z.to_nat i) table 0) idx) | _ => None end.
Proof.
  intros s table idx Lt B Li. destruct s; try reflexivity. change (u8x32_swizzle NEON64 table idx) with (Some (map (tbl32_lane table) (lo128 idx) ++ map (tbl32_lane table) (hi128 idx))).
  rewrite <- map_app, lo_hi. f_equal. apply map_ext_in. intros i I. unfold bytes in B. rewrite Forall_forall in B. specialize (B i I). unfold byte in B.
  unfold tbl32_lane, tbl_get. destruct (32 <=? i) eqn:E; [|reflexivity]. rewrite nth_overflow by lia. reflexivity.
Qed.
Print Assumptions C67_swizzle32.
Example C67_swizzle32_ex : u8x32_swizzle NEON64 (map Z.of_nat (seq 100 32)) (31 :: 32 :: 255 :: repeat 3 29) = Some (131 :: 0 :: 0 :: repeat 103 29).
Proof. reflexivity. Qed.

(** ** C68: byte order and selection *)
(** the byte swaps: no instruction set below SSE4.1 has them *)
Definition unsigned_lane (t : elem) : Prop := t = U16 \/ t = U32 \/ t = U64.
Definition bswap_op (t : elem) (w : width) : isa -> list Z -> option (list Z) :=
  match esize t with
  | 2%nat => pick w u16x8_bswap u16x16_bswap
  | 4%nat => pick w u32x4_bswap u32x8_bswap
  | _ => pick w u64x2_bswap u64x4_bswap
  end.
Theorem C68_bswap : forall t, unsigned_lane t -> forall w s xs, lanes t (lane_count w t) xs ->
  bswap_op t w s (vec t xs) = if sse41_up s || neon s || wasm s then Some (vec t (map (reversed t) xs)) else None.
Proof.
  intros t Ht w s xs [Lx Fx].
  assert (V : vec t xs = arr LE (esize t) xs) by (apply vec_u; auto; destruct Ht as [->|[->| ->]]; reflexivity).
  assert (U : Forall (uint (esize t)) xs).
  { revert Fx. apply Forall_impl. intros x H. unfold has_type, uint, min_of, max_of, card in *. destruct Ht as [->|[->| ->]]; cbn [signed esize] in *; lia. }
  assert (R : map (swap_bytes (esize t)) xs = map (reversed t) xs).
  { apply (map_ext_F (uint (esize t))); [|exact U]. intros x Hx. destruct Ht as [->|[->| ->]]; [apply swap_bytes_16|apply swap_bytes_32|apply swap_bytes_64]; exact Hx. }
  assert (V' : vec t (map (reversed t) xs) = arr LE (esize t) (map (swap_bytes (esize t)) xs)).
  { rewrite R. apply vec_u; [destruct Ht as [->|[->| ->]]; reflexivity|]. rewrite <- R. apply Forall_forall. intros y I. apply in_map_iff in I as (x & <- & I).
    pose proof (swap_bytes_uint (esize t) x) as K. unfold has_type, uint, min_of, max_of, card in *. destruct Ht as [->|[->| ->]]; cbn [signed esize] in *; lia. }
  assert (E : bswap_op t w s (arr LE (esize t) xs) = if swaps s then Some (rev_elems (length xs) (esize t) (arr LE (esize t) xs)) else None).
  { assert (L : length (arr LE (esize t) xs) = vlen w) by (rewrite <- V, vec_len, Lx; destruct w, Ht as [->|[->| ->]]; reflexivity).
    unfold bswap_op. rewrite Lx. destruct w; cbn [vlen lane_count] in *; destruct Ht as [->|[->| ->]]; cbn [esize pick] in *;
    [apply (bswap128_rev 2 SHUFFLE_U16X8)|apply (bswap128_rev 4 SHUFFLE_U32X4)|apply (bswap128_rev 8 SHUFFLE_U64X2)
    |apply (bswap256_rev 2 SHUFFLE_U16X8)|apply (bswap256_rev 4 SHUFFLE_U32X4)|apply (bswap256_rev 8 SHUFFLE_U64X2)]; auto. }
  rewrite V, E, rev_elems_arr, V'. destruct s; reflexivity.
Qed.
Print Assumptions C68_bswap.
Example C68_bswap_ex : u32x4_bswap WASM128 (vec U32 [305419896; 1; 2; 4294967295]) = Some (vec U32 [2018915346; 16777216; 33554432; 4294967295]) /\
  u32x4_bswap SSSE3 (vec U32 [305419896; 1; 2; 4294967295]) = None.
Proof. split; reflexivity. Qed.
(** selection by a constant: bit [i] of the constant takes lane [i] from the second vector *)
Theorem C68_blend16 : forall imm s xs ys, lanes U16 8 xs -> lanes U16 8 ys ->
  u16x8_blend s imm (vec U16 xs) (vec U16 ys) = if sse41_up s then Some (vec U16 (chosen imm xs ys)) else None.
Proof.
  intros imm s xs ys [Lx Fx] [Ly Fy]. transitivity (if sse41_up s then Some (blend16 imm (vec U16 xs) (vec U16 ys)) else None); [destruct s; reflexivity|].
  unfold vec. change (esize U16) with 2%nat. rewrite blend16_arr, chosen_bits by (rewrite !map_length; congruence). reflexivity.
Qed.
Print Assumptions C68_blend16.
Theorem C68_blend32 : forall imm s xs ys, lanes U32 8 xs -> lanes U32 8 ys ->
  u32x8_blend s imm (vec U32 xs) (vec U32 ys) = match s with AVX2 => Some (vec U32 (chosen imm xs ys)) | _ => None end.
Proof.
  intros imm s xs ys [Lx Fx] [Ly Fy]. transitivity (match s with AVX2 => Some (blend32 imm (vec U32 xs) (vec U32 ys)) | _ => None end); [destruct s; reflexivity|].
  unfold vec. change (esize U32) with 4%nat. rewrite blend32_arr, chosen_bits by (rewrite !map_length; congruence). reflexivity.
Qed.
Print Assumptions C68_blend32.
Example C68_blend_ex : u16x8_blend SSE41 51 (vec U16 [1; 2; 3; 4; 5; 6; 7; 8]) (vec U16 [10; 20; 30; 40; 50; 60; 70; 80]) = Some (vec U16 [10; 20; 3; 4; 50; 60; 7; 8]) /\
  u32x8_blend AVX2 85 (vec U32 [1; 2; 3; 4; 5; 6; 7; 8]) (vec U32 [10; 20; 30; 40; 50; 60; 70; 80]) = Some (vec U32 [10; 2; 30; 4; 50; 6; 70; 8]).
Proof. split; reflexivity. Qed.
(** selection by the sign of the bytes of the third vector *)
Theorem C68_blendv : forall w s xs ys cs, lanes U8 (lane_count w U8) xs -> lanes U8 (lane_count w U8) ys -> lanes I8 (lane_count w I8) cs ->
  pick w (u8x16_blendv s) (u8x32_blendv s) (vec U8 xs) (vec U8 ys) (vec I8 cs) =
  if sse41_up s then Some (vec U8 (map3 (fun x y c => if c <? 0 then y else x) xs ys cs)) else None.
Proof.
  intros w s xs ys cs [Lx Fx] [Ly Fy] [Lc Fc].
  transitivity (if sse41_up s then Some (map3 u8_blendv (vec U8 xs) (vec U8 ys) (vec I8 cs)) else None).
  { assert (L1 : length (vec U8 xs) = vlen w) by (rewrite vec_len, Lx; destruct w; reflexivity).
    assert (L2 : length (vec U8 ys) = vlen w) by (rewrite vec_len, Ly; destruct w; reflexivity).
    assert (L3 : length (vec I8 cs) = vlen w) by (rewrite vec_len, Lc; destruct w; reflexivity).
    set (a := vec U8 xs) in *. set (b := vec U8 ys) in *. set (c := vec I8 cs) in *. clearbody a b c. clear -L1 L2 L3.
    destruct w; cbn [pick vlen] in *; [destruct s; reflexivity|]. elems a L1. elems b L2. elems c L3. destruct s; reflexivity. }
  destruct (sse41_up s); [|reflexivity]. f_equal. rewrite !vec_u8.
  change (vec I8 cs) with (vec U8 cs). rewrite vec_u8.
  assert (G : forall xs ys cs, Forall (has_type I8) cs ->
    map3 u8_blendv (map (fun x => x mod 256) xs) (map (fun x => x mod 256) ys) (map (fun x => x mod 256) cs) =
    map (fun x => x mod 256) (map3 (fun x y c => if c <? 0 then y else x) xs ys cs)).
  { clear. induction xs as [|x xs IH]; intros ys cs F; [reflexivity|]. destruct ys as [|y ys]; [reflexivity|]. destruct F as [|c cs Hc F]; [reflexivity|].
    cbn [map map3]. rewrite IH by auto. f_equal. unfold u8_blendv, has_type in *. change (min_of I8) with (-128) in Hc. change (max_of I8) with 127 in Hc.
    replace (128 <=? c mod 256) with (c <? 0); [destruct (c <? 0); reflexivity|]. pose proof (Z.mod_pos_bound c 256).
    destruct (c <? 0) eqn:E; symmetry; [apply Z.leb_le|apply Z.leb_gt].
    - replace (c mod 256) with (c + 256); [lia|]. symmetry. rewrite <- (Z.mod_small (c + 256) 256) by lia. rewrite <- (Z.mod_add c 1 256) by lia. reflexivity.
    - rewrite Z.mod_small by lia. lia. }
  now apply G.
Qed.
Print Assumptions C68_blendv.
Example C68_blendv_ex : u8x32_blendv SSE41 (repeat 1 32) (repeat 2 32) (vec I8 (-1 :: 127 :: -128 :: repeat 0 29)) = Some (2 :: 1 :: 2 :: repeat 1 29).
Proof. reflexivity. Qed.
(** the low halves, the high halves of two 256-bit vectors *)
Theorem C68_halves : forall s a b c d, length a = 16%nat -> length b = 16%nat -> length c = 16%nat -> length d = 16%nat ->
  v128x2_zip_lo s (a ++ b) (c ++ d) = (if any_simd s then Some (a ++ c) else None) /\
  v128x2_zip_hi s (a ++ b) (c ++ d) = (if any_simd s then Some (b ++ d) else None).
Proof.
  intros s a b c d La Lb Lc Ld. unfold v128x2_zip_lo, v128x2_zip_hi. rewrite !lo_app, !hi_app by auto. destruct s; split; reflexivity.
Qed.
Print Assumptions C68_halves.
Example C68_halves_ex : v128x2_zip_hi NEON64 (repeat 1 16 ++ repeat 2 16) (repeat 3 16 ++ repeat 4 16) = Some (repeat 2 16 ++ repeat 4 16).
Proof. reflexivity. Qed.
