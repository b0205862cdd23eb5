(** Property theorems for the typed lane operations of vsimd: C51 (arithmetic and comparison), C52 (the primitives used by
    the codecs), C53 (moving lanes), C54 (shifts), C55 (simulation).
    [vec t xs] are the 16 or 32 bytes of a vector of lanes [xs] of type [t]. *)
From Coq Require Import ZArith List Bool Lia ZifyBool ZifyNat.
From Verif Require Import Bytes Isa Ints Simd SimdFacts PrimFacts UnicodeSpec UnicodeFacts LaneFacts Loops VsimdSpec Vsimd VsimdFacts.
Import ListNotations.
Open Scope Z_scope.

(** The documented support of the operations. *)
Definition any_simd (s : isa) : bool := match s with Fallback => false | _ => true end.
Definition neon (s : isa) : bool := match s with NEON32 | NEON64 => true | _ => false end.
Definition sse41_up (s : isa) : bool := match s with SSE41 | AVX2 => true | _ => false end.
Definition avx2_256 (w : width) (s : isa) : bool := match w, s with W256, AVX2 => true | _, _ => false end.
Definition a64 (s : isa) : bool := match s with NEON64 => true | _ => false end.
Definition wasm (s : isa) : bool := match s with WASM128 => true | _ => false end.
Definition eq_support (w : width) (s : isa) (t : elem) : bool :=
  match esize t with 8%nat => a64 s || wasm s || avx2_256 w s | _ => any_simd s end.
Definition lt_support (w : width) (s : isa) (t : elem) : bool :=
  match t with U64 => a64 s | I64 => a64 s || wasm s || avx2_256 w s | _ => any_simd s end.
Definition sat_support (s : isa) (t : elem) : bool :=
  match esize t with 1%nat | 2%nat => any_simd s | 4%nat => neon s | _ => false end.
Definition max_support (s : isa) (t : elem) : bool :=
  match t with U8 | I16 => any_simd s | U64 | I64 => false | _ => sse41_up s || neon s || wasm s end.
Definition lane_count (w : width) (t : elem) : nat := (vlen w / esize t)%nat.

(** ** C51 *)
(** every vector is a vector of lanes of every type, in exactly one way *)
Theorem C51_every_vector : forall w t v, bytes v -> length v = vlen w ->
  exists xs, lanes t (lane_count w t) xs /\ v = vec t xs /\ (forall ys, lanes t (lane_count w t) ys -> v = vec t ys -> ys = xs).
Proof.
  intros w t v B L. destruct (vec_of t (lane_count w t) v B) as (xs & Hx & ->); [rewrite L; destruct w, t; reflexivity|].
  exists xs. split; [exact Hx|]. split; [reflexivity|]. intros ys [_ Fy] E. symmetry. apply (vec_inj t); [apply Hx|exact Fy|exact E].
Qed.
Print Assumptions C51_every_vector.
Example C51_every_vector_ex : vec I16 [-2; -1; 0; 1; 2; 3; 32767; -32768] = [254;255; 255;255; 0;0; 1;0; 2;0; 3;0; 255;127; 0;128].
Proof. reflexivity. Qed.

Theorem C51_splat : forall w s t x, has_type t x ->
  u_splat w s t (x mod card t) = if any_simd s then Some (vec t (repeat x (lane_count w t))) else None.
Proof.
  intros w s t x _. assert (R : forall n, vec t (repeat x n) = arr LE (esize t) (repeat (x mod card t) n)).
  { intro n. unfold vec. f_equal. induction n; [reflexivity|]. cbn [repeat map]. now rewrite IHn. }
  rewrite R. unfold lane_count, u_splat.
  destruct w, s, t; cbn [any_simd]; lazy [select splat_avx2 splat_rows on matches_isa is_pod_type existsb elem_eqb b8 b16 b32 b64 andb orb
    inherits id_of id_eqb]; try reflexivity; cbn [vlen esize]; unfold x2; rewrite ?vset1_arr, <- ?arr_app, <- ?repeat_app; try reflexivity.
Qed.
Print Assumptions C51_splat.
Example C51_splat_ex : u_splat W256 SSE2 U32 4660 = Some (concat (repeat [52; 18; 0; 0] 8)).
Proof. reflexivity. Qed.

Theorem C51_add : forall w s t xs ys, lanes t (lane_count w t) xs -> lanes t (lane_count w t) ys ->
  u_add w s t (vec t xs) (vec t ys) = if any_simd s then Some (vec t (map2 (fun x y => wrap t (x + y)) xs ys)) else None.
Proof.
  intros w s t xs ys Hx Hy. unfold u_add. rewrite (unified_ok add_avx2 add_rows w s t (fun x y => wrap t (x + y))); [destruct w, s, t; reflexivity| | |exact Hx|exact Hy];
  [rows add_avx2 ltac:(typed good_add)|rows add_rows ltac:(typed good_add)].
Qed.
Print Assumptions C51_add.
Example C51_add_ex : u_add W128 SSE2 I16 (vec I16 [32767; -1; 5; 0; 1; 2; 3; 4]) (vec I16 [1; -1; 6; 0; 0; 0; 0; 0]) =
  Some (vec I16 [-32768; -2; 11; 0; 1; 2; 3; 4]).
Proof. reflexivity. Qed.

Theorem C51_sub : forall w s t xs ys, lanes t (lane_count w t) xs -> lanes t (lane_count w t) ys ->
  u_sub w s t (vec t xs) (vec t ys) = if any_simd s then Some (vec t (map2 (fun x y => wrap t (x - y)) xs ys)) else None.
Proof.
  intros w s t xs ys Hx Hy. unfold u_sub. rewrite (unified_ok sub_avx2 sub_rows w s t (fun x y => wrap t (x - y))); [destruct w, s, t; reflexivity| | |exact Hx|exact Hy];
  [rows sub_avx2 ltac:(typed good_sub)|rows sub_rows ltac:(typed good_sub)].
Qed.
Print Assumptions C51_sub.
Example C51_sub_ex : u_sub W256 AVX2 U64 (vec U64 [0; 5; 7; 9]) (vec U64 [1; 5; 6; 10]) =
  Some (vec U64 [18446744073709551615; 0; 1; 18446744073709551615]).
Proof. reflexivity. Qed.

Theorem C51_eq : forall w s t xs ys, lanes t (lane_count w t) xs -> lanes t (lane_count w t) ys ->
  u_eq w s t (vec t xs) (vec t ys) = if eq_support w s t then Some (vec t (map2 (fun x y => truth t (x =? y)) xs ys)) else None.
Proof.
  intros w s t xs ys Hx Hy. unfold u_eq. rewrite (unified_ok eq_avx2 eq_rows w s t (fun x y => truth t (x =? y))); [destruct w, s, t; reflexivity| | |exact Hx|exact Hy];
  [rows eq_avx2 ltac:(typed good_eq)|rows eq_rows ltac:(typed good_eq)].
Qed.
Print Assumptions C51_eq.
Example C51_eq_ex : u_eq W128 NEON64 I64 (vec I64 [-5; 6]) (vec I64 [-5; 7]) = Some (vec I64 [-1; 0]) /\
  u_eq W128 SSE41 I64 (vec I64 [-5; 6]) (vec I64 [-5; 7]) = None /\ u_eq W128 AVX2 I64 (vec I64 [-5; 6]) (vec I64 [-5; 7]) = None.
Proof. repeat split; reflexivity. Qed.

Theorem C51_lt : forall w s t xs ys, lanes t (lane_count w t) xs -> lanes t (lane_count w t) ys ->
  u_lt w s t (vec t xs) (vec t ys) = if lt_support w s t then Some (vec t (map2 (fun x y => truth t (x <? y)) xs ys)) else None.
Proof.
  intros w s t xs ys Hx Hy. unfold u_lt. rewrite (unified_ok lt_avx2 lt_rows w s t (fun x y => truth t (x <? y))); [destruct w, s, t; reflexivity| | |exact Hx|exact Hy];
  [rows lt_avx2 ltac:(first [signed_or good_cgt_s | signed_or good_lt_max | signed_or good_clt_s | signed_or good_clt_u | flipped good_lt_flip])|rows lt_rows ltac:(first [signed_or good_cgt_s | signed_or good_lt_max | signed_or good_clt_s | signed_or good_clt_u | flipped good_lt_flip])].
Qed.
Print Assumptions C51_lt.
Example C51_lt_ex : u_lt W128 SSE2 U32 (vec U32 [5; 4294967295; 0; 2147483648]) (vec U32 [4294967295; 5; 0; 2147483647]) = Some (vec U32 [4294967295; 0; 0; 0]) /\
  u_lt W256 AVX2 U64 (vec U64 [1; 2; 3; 4]) (vec U64 [1; 2; 3; 4]) = None.
Proof. split; reflexivity. Qed.

Theorem C51_add_sat : forall w s t xs ys, lanes t (lane_count w t) xs -> lanes t (lane_count w t) ys ->
  u_add_sat w s t (vec t xs) (vec t ys) = if sat_support s t then Some (vec t (map2 (fun x y => sat t (x + y)) xs ys)) else None.
Proof.
  intros w s t xs ys Hx Hy. unfold u_add_sat. rewrite (unified_ok add_sat_avx2 add_sat_rows w s t (fun x y => sat t (x + y))); [destruct w, s, t; reflexivity| | |exact Hx|exact Hy];
  [rows add_sat_avx2 ltac:(first [signed_or good_qadd_s | signed_or good_qadd_u])|rows add_sat_rows ltac:(first [signed_or good_qadd_s | signed_or good_qadd_u])].
Qed.
Print Assumptions C51_add_sat.
Example C51_add_sat_ex : u_add_sat W128 NEON32 I32 (vec I32 [2147483647; -2147483648; 3; 4]) (vec I32 [1; -1; 5; 6]) =
  Some (vec I32 [2147483647; -2147483648; 8; 10]).
Proof. reflexivity. Qed.

Theorem C51_sub_sat : forall w s t xs ys, lanes t (lane_count w t) xs -> lanes t (lane_count w t) ys ->
  u_sub_sat w s t (vec t xs) (vec t ys) = if sat_support s t then Some (vec t (map2 (fun x y => sat t (x - y)) xs ys)) else None.
Proof.
  intros w s t xs ys Hx Hy. unfold u_sub_sat. rewrite (unified_ok sub_sat_avx2 sub_sat_rows w s t (fun x y => sat t (x - y))); [destruct w, s, t; reflexivity| | |exact Hx|exact Hy];
  [rows sub_sat_avx2 ltac:(first [signed_or good_qsub_s | signed_or good_qsub_u])|rows sub_sat_rows ltac:(first [signed_or good_qsub_s | signed_or good_qsub_u])].
Qed.
Print Assumptions C51_sub_sat.
Example C51_sub_sat_ex : u_sub_sat W128 WASM128 U16 (vec U16 [1; 65535; 3; 4; 0; 0; 0; 0]) (vec U16 [2; 65534; 3; 4; 9; 0; 0; 0]) =
  Some (vec U16 [0; 1; 0; 0; 0; 0; 0; 0]).
Proof. reflexivity. Qed.

Theorem C51_max : forall w s t xs ys, lanes t (lane_count w t) xs -> lanes t (lane_count w t) ys ->
  u_max w s t (vec t xs) (vec t ys) = if max_support s t then Some (vec t (map2 Z.max xs ys)) else None.
Proof.
  intros w s t xs ys Hx Hy. unfold u_max. rewrite (unified_ok max_avx2 max_rows w s t Z.max); [destruct w, s, t; reflexivity| | |exact Hx|exact Hy];
  [rows max_avx2 ltac:(first [signed_or good_max_s | signed_or good_max_u])|rows max_rows ltac:(first [signed_or good_max_s | signed_or good_max_u])].
Qed.
Print Assumptions C51_max.
Example C51_max_ex : u_max W128 SSE41 I32 (vec I32 [1; -1; 3; -7]) (vec I32 [-2; 0; 4; -8]) = Some (vec I32 [1; 0; 4; -7]) /\
  u_max W128 SSSE3 I32 (vec I32 [1; -1; 3; -7]) (vec I32 [-2; 0; 4; -8]) = None.
Proof. split; reflexivity. Qed.

Theorem C51_min : forall w s t xs ys, lanes t (lane_count w t) xs -> lanes t (lane_count w t) ys ->
  u_min w s t (vec t xs) (vec t ys) = if max_support s t then Some (vec t (map2 Z.min xs ys)) else None.
Proof.
  intros w s t xs ys Hx Hy. unfold u_min. rewrite (unified_ok min_avx2 min_rows w s t Z.min); [destruct w, s, t; reflexivity| | |exact Hx|exact Hy];
  [rows min_avx2 ltac:(first [signed_or good_min_s | signed_or good_min_u])|rows min_rows ltac:(first [signed_or good_min_s | signed_or good_min_u])].
Qed.
Print Assumptions C51_min.
Example C51_min_ex : u_min W256 NEON32 U32 (vec U32 [1; 2; 3; 4; 5; 6; 7; 4294967295]) (vec U32 [8; 7; 6; 5; 4; 3; 2; 1]) =
  Some (vec U32 [1; 2; 3; 4; 4; 3; 2; 1]).
Proof. reflexivity. Qed.
(** the result does not depend on the instruction set *)
Theorem C51_isa_independent : forall op, In op [u_add; u_sub; u_eq; u_lt; u_add_sat; u_sub_sat; u_max; u_min] ->
  forall w s1 s2 t a b r1 r2, bytes a -> length a = vlen w -> bytes b -> length b = vlen w ->
  op w s1 t a b = Some r1 -> op w s2 t a b = Some r2 -> r1 = r2.
Proof.
  intros op H w s1 s2 t a b r1 r2 Ba La Bb Lb E1 E2.
  destruct (C51_every_vector w t a Ba La) as (xs & Hx & -> & _), (C51_every_vector w t b Bb Lb) as (ys & Hy & -> & _).
  cbn [In] in H. destruct H as [<-|[<-|[<-|[<-|[<-|[<-|[<-|[<-|[]]]]]]]]];
  [rewrite C51_add in E1, E2|rewrite C51_sub in E1, E2|rewrite C51_eq in E1, E2|rewrite C51_lt in E1, E2|rewrite C51_add_sat in E1, E2
  |rewrite C51_sub_sat in E1, E2|rewrite C51_max in E1, E2|rewrite C51_min in E1, E2]; auto;
  repeat match type of E1 with (if ?c then _ else _) = _ => destruct c; [|discriminate E1] end;
  repeat match type of E2 with (if ?c then _ else _) = _ => destruct c; [|discriminate E2] end; congruence.
Qed.
Print Assumptions C51_isa_independent.

(** ** C52: the primitives that the codecs use are the generic ones at their lane type *)
Ltac kern :=
  match goal with
  | |- map2 u8_add _ _ = _ => apply k_add8
  | |- map2 u8_sub _ _ = _ => apply k_sub8
  | |- map2 u8_eq _ _ = _ => apply k_eq8
  | |- lanes32_2 u32_add _ _ = _ => apply k_add32
  | |- lanes32_2 u32_sub _ _ = _ => apply k_sub32
  | |- map2 i8_add_sat _ _ = _ => apply k_qadd8s
  | |- map2 u8_add_sat _ _ = _ => apply k_qadd8u
  | |- map2 u8_sub_sat _ _ = _ => apply k_qsub8u
  | |- map2 u8_max _ _ = _ => apply k_max8
  | |- map2 u8_min _ _ = _ => apply k_min8
  | |- lanes16_2 u16_max _ _ = _ => apply k_max16
  | |- lanes32_2 u32_max _ _ = _ => apply k_max32
  | |- lanes16_2 u16_mul_lo _ _ = _ => apply k_mul16
  | |- lanes16_2 u16_mul_hi _ _ = _ => apply k_mulhi16
  | |- map2 i8_lt _ _ = vclt_s _ _ _ _ => apply k_lt8s
  | |- map2 i8_lt _ _ = vcgt_s _ _ _ _ => apply k_lt8s'
  end; auto using bytes_lo, bytes_hi, len_lo, len_hi.
Ltac prims tbl rws := let s := fresh "s" in intro s; repeat split; intros a b Ba La Bb Lb; destruct s; compute_rows tbl rws; [reflexivity|..]; try (match goal with |- None = None => reflexivity end); apply f_equal; match goal with |- _ ++ _ = _ ++ _ => f_equal; kern | _ => kern end.

Theorem C52_add : forall s,
  same2 16 (u8x16_add s) (u_add W128 s U8) /\ same2 32 (u8x32_add s) (u_add W256 s U8) /\
  same2 16 (u32x4_add s) (u_add W128 s U32) /\ same2 32 (u32x8_add s) (u_add W256 s U32).
Proof. unfold u8x32_add, u8x16_add, u32x8_add, u32x4_add, u_add. prims add_avx2 add_rows. Qed.
Print Assumptions C52_add.
Theorem C52_sub : forall s,
  same2 16 (u8x16_sub s) (u_sub W128 s U8) /\ same2 32 (u8x32_sub s) (u_sub W256 s U8) /\
  same2 16 (u32x4_sub s) (u_sub W128 s U32) /\ same2 32 (u32x8_sub s) (u_sub W256 s U32).
Proof. unfold u8x32_sub, u8x16_sub, u32x8_sub, u32x4_sub, u_sub. prims sub_avx2 sub_rows. Qed.
Print Assumptions C52_sub.
Theorem C52_eq : forall s, same2 16 (u8x16_eq s) (u_eq W128 s U8) /\ same2 32 (u8x32_eq s) (u_eq W256 s U8).
Proof. unfold u8x32_eq, u8x16_eq, u_eq. prims eq_avx2 eq_rows. Qed.
Print Assumptions C52_eq.
Theorem C52_saturating : forall s,
  same2 16 (i8x16_add_sat s) (u_add_sat W128 s I8) /\ same2 32 (i8x32_add_sat s) (u_add_sat W256 s I8) /\
  same2 16 (u8x16_add_sat s) (u_add_sat W128 s U8) /\ same2 32 (u8x32_add_sat s) (u_add_sat W256 s U8) /\
  same2 16 (u8x16_sub_sat s) (u_sub_sat W128 s U8) /\ same2 32 (u8x32_sub_sat s) (u_sub_sat W256 s U8).
Proof.
  unfold i8x32_add_sat, i8x16_add_sat, u8x32_add_sat, u8x16_add_sat, u8x32_sub_sat, u8x16_sub_sat, u_add_sat, u_sub_sat.
  assert (H : forall s, same2 16 (native2 s (map2 u8_sub_sat)) (unified sub_sat_avx2 sub_sat_rows W128 s U8) /\
    same2 32 (wide2 s (map2 u8_sub_sat) (fun s0 => native2 s0 (map2 u8_sub_sat))) (unified sub_sat_avx2 sub_sat_rows W256 s U8)) by (prims sub_sat_avx2 sub_sat_rows).
  intro s. rewrite <- 3 and_assoc. split; [|exact (H s)]. rewrite !and_assoc. revert s. prims add_sat_avx2 add_sat_rows.
Qed.
Print Assumptions C52_saturating.
Theorem C52_max_min : forall s,
  same2 16 (u8x16_max s) (u_max W128 s U8) /\ same2 32 (u8x32_max s) (u_max W256 s U8) /\
  same2 16 (u16x8_max s) (u_max W128 s U16) /\ same2 32 (u16x16_max s) (u_max W256 s U16) /\
  same2 16 (u32x4_max s) (u_max W128 s U32) /\ same2 32 (u32x8_max s) (u_max W256 s U32) /\
  same2 16 (u8x16_min s) (u_min W128 s U8) /\ same2 32 (u8x32_min s) (u_min W256 s U8).
Proof.
  assert (H : forall s, same2 16 (u8x16_min s) (u_min W128 s U8) /\ same2 32 (u8x32_min s) (u_min W256 s U8)) by
    (unfold u8x32_min, u8x16_min, u_min; prims min_avx2 min_rows).
  assert (G : forall s, same2 16 (u8x16_max s) (u_max W128 s U8) /\ same2 32 (u8x32_max s) (u_max W256 s U8) /\
    same2 16 (u16x8_max s) (u_max W128 s U16) /\ same2 32 (u16x16_max s) (u_max W256 s U16) /\
    same2 16 (u32x4_max s) (u_max W128 s U32) /\ same2 32 (u32x8_max s) (u_max W256 s U32)) by
    (unfold u8x32_max, u8x16_max, u16x16_max, u16x8_max, u32x8_max, u32x4_max, u_max; prims max_avx2 max_rows).
  intro s. destruct (G s) as (G1 & G2 & G3 & G4 & G5 & G6). exact (conj G1 (conj G2 (conj G3 (conj G4 (conj G5 (conj G6 (H s))))))).
Qed.
Print Assumptions C52_max_min.
(** the comparisons: here the instruction sequences differ in shape (max and equality, or sign flip) *)
Theorem C52_lt : forall s,
  same2 16 (i8x16_lt s) (u_lt W128 s I8) /\ same2 32 (i8x32_lt s) (u_lt W256 s I8) /\
  same2 16 (u8x16_lt s) (u_lt W128 s U8) /\ same2 32 (u8x32_lt s) (u_lt W256 s U8) /\
  same2 16 (u16x8_lt s) (u_lt W128 s U16) /\ same2 32 (u16x16_lt s) (u_lt W256 s U16) /\
  same2 16 (u32x4_lt s) (u_lt W128 s U32) /\ same2 32 (u32x8_lt s) (u_lt W256 s U32).
Proof.
  assert (H : forall s, same2 16 (i8x16_lt s) (u_lt W128 s I8) /\ same2 32 (i8x32_lt s) (u_lt W256 s I8)) by
    (unfold i8x32_lt, i8x16_lt, u_lt; prims lt_avx2 lt_rows).
  intro s. destruct (H s) as [H1 H2]. split; [exact H1|]. split; [exact H2|]. clear H H1 H2.
  destruct s; [repeat split; intros a b _ _ _ _; reflexivity|..];
  (repeat split; intros a b Ba La Bb Lb;
   match goal with |- _ = u_lt ?w _ ?t _ _ =>
     destruct (C51_every_vector w t a Ba La) as (xs & Hx & -> & _), (C51_every_vector w t b Bb Lb) as (ys & Hy & -> & _);
     rewrite C51_lt by auto; cbn [lt_support any_simd];
     destruct (k_packed t w xs eq_refl Hx) as [Ex Ux], (k_packed t w ys eq_refl Hy) as [Ey Uy];
     destruct Hx as [Lx Fx], Hy as [Ly Fy]; cbn in Lx, Ly
   end;
   first [rewrite u8x16_lt_ok by (auto; reflexivity) | rewrite u8x32_lt_ok by (auto; reflexivity)
         | rewrite Ex, Ey; cbn [esize] in *; first [rewrite u16x8_lt_ok by (auto; reflexivity) | rewrite u16x16_lt_ok by (auto; reflexivity)
         | rewrite u32x4_lt_ok by (auto; reflexivity) | rewrite u32x8_lt_ok by (auto; reflexivity)]]; apply f_equal).
  all: try (rewrite Ex, Ey; cbn [esize] in *; rewrite !arr1 by assumption; rewrite <- (arr1 (map2 u8_lt xs ys));
    [apply (vec_lt U8 u8_lt); [reflexivity|intros x y; unfold u8_lt; destruct (x <? y); reflexivity]|
     apply (map2_F (uint 1)); auto; intros x y _ _; unfold u8_lt, mask8, uint; change (256 ^ Z.of_nat 1) with 256; destruct (x <? y); lia]).
  all: try solve [apply (vec_lt U16 u16_lt); [reflexivity|intros x y; unfold u16_lt; destruct (x <? y); reflexivity]
                | apply (vec_lt U32 u32_lt); [reflexivity|intros x y; unfold u32_lt; destruct (x <? y); reflexivity]].
Qed.
Print Assumptions C52_lt.
Example C52_ex : u16x16_lt AVX2 (vec U16 (repeat 5 16)) (vec U16 (repeat 40000 16)) = Some (repeat 255 32) /\
  u_lt W256 AVX2 U16 (vec U16 (repeat 5 16)) (vec U16 (repeat 40000 16)) = Some (repeat 255 32).
Proof. split; reflexivity. Qed.

(** ** C53: multiplication *)
Theorem C53_mul_lo16 : forall s xs ys,
  (lanes I16 8 xs -> lanes I16 8 ys ->
   i16x8_mul_lo s (vec I16 xs) (vec I16 ys) = if any_simd s then Some (vec I16 (map2 (fun x y => wrap I16 (x * y)) xs ys)) else None) /\
  (lanes I16 16 xs -> lanes I16 16 ys ->
   i16x16_mul_lo s (vec I16 xs) (vec I16 ys) = if any_simd s then Some (vec I16 (map2 (fun x y => wrap I16 (x * y)) xs ys)) else None).
Proof.
  assert (H : forall s, i16x8_mul_lo s = native2 s (lanes16_2 u16_mul_lo)) by reflexivity.
  assert (U : forall w s a b, bytes a -> length a = vlen w -> bytes b -> length b = vlen w ->
    pick w (i16x8_mul_lo s) (i16x16_mul_lo s) a b = unified [(on [IAVX2], [I16], vmul_lo 32 2)] [(any_simd, [I16], vmul_lo 16 2)] w s I16 a b).
  { intros w s a b Ba La Bb Lb. unfold i16x16_mul_lo, i16x8_mul_lo. destruct w; cbn [pick vlen] in *; (destruct s;
    lazy [unified run128 select on matches_isa inherits id_of id_eqb is_pod_type existsb elem_eqb andb orb any_simd
          native1 native2 wide1 wide2 arm all3 vop1 vop2 obind]; [reflexivity|..]; apply f_equal;
    match goal with |- _ ++ _ = _ ++ _ => f_equal; kern | _ => kern end). }
  assert (G : forall w s xs ys, lanes I16 (vlen w / 2) xs -> lanes I16 (vlen w / 2) ys ->
    pick w (i16x8_mul_lo s) (i16x16_mul_lo s) (vec I16 xs) (vec I16 ys) = if any_simd s then Some (vec I16 (map2 (fun x y => wrap I16 (x * y)) xs ys)) else None).
  { intros w s xs ys Hx Hy. rewrite U by (try apply vec_bytes; rewrite vec_len; destruct Hx as [Lx _], Hy as [Ly _]; rewrite ?Lx, ?Ly; destruct w; reflexivity).
    rewrite (unified_ok _ _ w s I16 (fun x y => wrap I16 (x * y))); [destruct w, s; reflexivity| | |exact Hx|exact Hy]; intros ins E; destruct s;
    lazy [select on matches_isa inherits id_of id_eqb is_pod_type existsb elem_eqb andb orb any_simd] in E; try discriminate E; injection E as <-; apply (good_mul I16). }
  intros s xs ys. split; [exact (G W128 s xs ys)|exact (G W256 s xs ys)].
Qed.
Print Assumptions C53_mul_lo16.
Example C53_mul_lo16_ex : i16x8_mul_lo NEON32 (vec I16 [300; -1; 2; 3; 4; 5; 6; 7]) (vec I16 [300; 7; 2; 3; 4; 5; 6; -7]) =
  Some (vec I16 [24464; -7; 4; 9; 16; 25; 36; -49]).
Proof. reflexivity. Qed.

Lemma widened_ok t F f256 f128 (g : isa -> list Z -> list Z -> option (list Z)) (sup : isa -> bool) s w xs ys :
  good2 t F 32 f256 -> good2 t F 16 f128 -> sup AVX2 = true ->
  (forall s a b, g s a b = if sup s then Some (f128 a b) else None) ->
  lanes t (lane_count w t) xs -> lanes t (lane_count w t) ys ->
  pick w (g s) (widened f256 g s) (vec t xs) (vec t ys) = if sup s then Some (vec t (map2 F xs ys)) else None.
Proof.
  intros G32 G16 SA Hg Hx Hy. destruct w; cbn [pick vlen] in *.
  - rewrite Hg. destruct (sup s); [f_equal; now apply G16|reflexivity].
  - unfold widened, arm. destruct (matches_isa s [IAVX2]) eqn:E.
    + destruct s; try discriminate E. rewrite SA. f_equal. now apply G32.
    + destruct (split_lanes t xs Hx) as (a & b & -> & La & Lb & Ea & Eb), (split_lanes t ys Hy) as (c & d & -> & Lc & Ld & Ec & Ed).
      unfold vop2. rewrite Ea, Eb, Ec, Ed, !Hg. destruct (sup s); [|reflexivity]. cbn [obind].
      rewrite !G16 by auto. now rewrite map2_app2, vec_app by (destruct La, Lc; congruence).
Qed.
Theorem C53_mul_lo32 : forall w s xs ys, lanes I32 (lane_count w I32) xs -> lanes I32 (lane_count w I32) ys ->
  pick w (i32x4_mul_lo s) (i32x8_mul_lo s) (vec I32 xs) (vec I32 ys) =
  if sse41_up s || neon s || wasm s then Some (vec I32 (map2 (fun x y => wrap I32 (x * y)) xs ys)) else None.
Proof.
  intros w s xs ys Hx Hy. apply (widened_ok I32 _ _ (vmul_lo 16 4) i32x4_mul_lo (fun s => sse41_up s || neon s || wasm s)); auto;
  [apply (good_mul I32)|apply (good_mul I32)|intros s0 a b; destruct s0; reflexivity].
Qed.
Print Assumptions C53_mul_lo32.
Example C53_mul_lo32_ex : i32x4_mul_lo WASM128 (vec I32 [65536; -3; 2; 3]) (vec I32 [65537; 7; 2; 3]) = Some (vec I32 [65536; -21; 4; 9]) /\
  i32x4_mul_lo SSE2 (vec I32 [1; 2; 3; 4]) (vec I32 [1; 2; 3; 4]) = None.
Proof. split; reflexivity. Qed.
Theorem C53_mul_hi16 : forall w s xs ys, lanes I16 (lane_count w I16) xs -> lanes I16 (lane_count w I16) ys ->
  pick w (i16x8_mul_hi s) (i16x16_mul_hi s) (vec I16 xs) (vec I16 ys) =
  if any_simd s && negb (neon s || wasm s) then Some (vec I16 (map2 (fun x y => (x * y) / 65536) xs ys)) else None.
Proof.
  intros w s xs ys Hx Hy. apply (widened_ok I16 _ _ (vmul_hi_s 16 2) i16x8_mul_hi (fun s => any_simd s && negb (neon s || wasm s))); auto;
  [| |intros s0 a b; destruct s0; reflexivity];
  (apply (good_lanes I16); intros x y Tx Ty; rewrite !(sgn_bits I16) by auto; reflexivity).
Qed.
Print Assumptions C53_mul_hi16.
Example C53_mul_hi16_ex : i16x8_mul_hi SSE2 (vec I16 [32767; -1; 2; -32768; 4; 5; 6; 7]) (vec I16 [32767; 7; 2; -32768; 4; 5; 6; -7]) =
  Some (vec I16 [16383; -1; 0; 16384; 0; 0; 0; -1]).
Proof. reflexivity. Qed.
Theorem C53_mul_hi_u16 : forall w s xs ys, lanes U16 (lane_count w U16) xs -> lanes U16 (lane_count w U16) ys ->
  pick w (u16x8_mul_hi s) (u16x16_mul_hi s) (vec U16 xs) (vec U16 ys) =
  if any_simd s && negb (neon s || wasm s) then Some (vec U16 (map2 (fun x y => (x * y) / 65536) xs ys)) else None.
Proof.
  intros w s xs ys Hx Hy.
  assert (G : forall L, L = 16%nat \/ L = 32%nat -> good2 U16 (fun x y => (x * y) / 65536) L (lanes16_2 u16_mul_hi)).
  { intros L HL us vs [Lu Fu] [Lv Fv]. rewrite (k_mulhi16 L HL); try apply vec_bytes; try (rewrite vec_len, ?Lu, ?Lv; destruct HL; subst; reflexivity).
    apply (good_lanes U16); [|split; auto..]. intros x y Tx Ty. rewrite !(usg_bits U16) by auto.
    unfold has_type, min_of, max_of, card in *. cbn [signed esize] in *. change (256 ^ Z.of_nat 2) with 65536 in *. change (lane_card 2) with 65536.
    symmetry. apply Z.mod_small. split; [apply Z.div_pos; nia|]. apply Z.div_lt_upper_bound; nia. }
  unfold u16x16_mul_hi. change (wide2 s (lanes16_2 u16_mul_hi) u16x8_mul_hi) with (widened (lanes16_2 u16_mul_hi) u16x8_mul_hi s).
  apply (widened_ok U16 _ _ (lanes16_2 u16_mul_hi) u16x8_mul_hi (fun s => any_simd s && negb (neon s || wasm s))); auto.
  intros s0 a b; destruct s0; reflexivity.
Qed.
Print Assumptions C53_mul_hi_u16.
Example C53_mul_hi_u16_ex : u16x8_mul_hi SSE2 (vec U16 [65535; 1; 2; 3; 4; 5; 6; 256]) (vec U16 [65535; 7; 2; 3; 4; 5; 6; 256]) =
  Some (vec U16 [65534; 0; 0; 0; 0; 0; 0; 1]).
Proof. reflexivity. Qed.

(** ** C54: moving lanes *)
Theorem C54_zip : forall s t xs ys, lanes t (lane_count W128 t) xs -> lanes t (lane_count W128 t) ys ->
  let h := (lane_count W128 t / 2)%nat in
  zip_lo (esize t) s (vec t xs) (vec t ys) = (if any_simd s then Some (vec t (zipped (firstn h xs) (firstn h ys))) else None) /\
  zip_hi (esize t) s (vec t xs) (vec t ys) = (if any_simd s then Some (vec t (zipped (skipn h xs) (skipn h ys))) else None).
Proof.
  intros s t xs ys [Lx _] [Ly _] h. unfold vec. rewrite zip_lo_arr, zip_hi_arr by (rewrite map_length; assumption).
  rewrite !map_zipped, !firstn_map, !skipn_map. replace (8 / esize t)%nat with h by (destruct t; reflexivity). destruct s; split; reflexivity.
Qed.
Print Assumptions C54_zip.
Example C54_zip_ex : zip_hi 4 WASM128 (vec U32 [1; 2; 3; 4]) (vec U32 [5; 6; 7; 8]) = Some (vec U32 [3; 7; 4; 8]).
Proof. reflexivity. Qed.
(** on 256-bit vectors: in each half *)
Theorem C54_zip_x2 : forall s t x1 x2 y1 y2, lanes t (lane_count W128 t) x1 -> lanes t (lane_count W128 t) x2 ->
  lanes t (lane_count W128 t) y1 -> lanes t (lane_count W128 t) y2 ->
  let h := (lane_count W128 t / 2)%nat in
  zip_lo_x2 (esize t) s (vec t (x1 ++ x2)) (vec t (y1 ++ y2)) =
    (if any_simd s then Some (vec t (zipped (firstn h x1) (firstn h y1) ++ zipped (firstn h x2) (firstn h y2))) else None) /\
  zip_hi_x2 (esize t) s (vec t (x1 ++ x2)) (vec t (y1 ++ y2)) =
    (if any_simd s then Some (vec t (zipped (skipn h x1) (skipn h y1) ++ zipped (skipn h x2) (skipn h y2))) else None).
Proof.
  intros s t x1 x2 y1 y2 H1 H2 H3 H4 h.
  assert (Lo : forall a b, lanes t (lane_count W128 t) a -> lo128 (vec t (a ++ b)) = vec t a /\ hi128 (vec t (a ++ b)) = vec t b).
  { intros a b [La _]. rewrite vec_app. unfold lo128, hi128. rewrite firstn_app_exact, skipn_app_exact by (rewrite vec_len, La; destruct t; reflexivity). now split. }
  destruct (Lo x1 x2 H1) as [A1 A2], (Lo y1 y2 H3) as [B1 B2].
  destruct (C54_zip s t x1 y1 H1 H3) as [P1 P2], (C54_zip s t x2 y2 H2 H4) as [Q1 Q2].
  destruct (C54_zip SSE2 t x1 y1 H1 H3) as [R1 R2], (C54_zip SSE2 t x2 y2 H2 H4) as [S1 S2].
  unfold zip_lo, zip_hi in R1, R2, S1, S2. cbn [any_simd] in R1, R2, S1, S2.
  lazy [matches_isa existsb inherits id_of id_eqb orb] in R1, R2, S1, S2. injection R1 as R1. injection R2 as R2. injection S1 as S1. injection S2 as S2.
  unfold zip_lo_x2, zip_hi_x2, widened, arm, unpack256, vop2. rewrite A1, A2, B1, B2, P1, P2, Q1, Q2, !vec_app.
  destruct s; lazy [matches_isa existsb inherits id_of id_eqb orb]; cbn [any_simd obind]; split; try reflexivity;
  [rewrite R1, S1|rewrite R2, S2]; reflexivity.
Qed.
Print Assumptions C54_zip_x2.
Example C54_zip_x2_ex : zip_lo_x2 8 AVX2 (vec U64 [1; 2; 3; 4]) (vec U64 [5; 6; 7; 8]) = Some (vec U64 [1; 5; 3; 7]).
Proof. reflexivity. Qed.

Theorem C54_unzip8 : forall s xs ys, lanes U8 16 xs -> lanes U8 16 ys ->
  unzip_even8 s (vec U8 xs) (vec U8 ys) = (if neon s || wasm s then Some (vec U8 (every_other (xs ++ ys))) else None) /\
  unzip_odd8 s (vec U8 xs) (vec U8 ys) = (if neon s || wasm s then Some (vec U8 (every_other (tl (xs ++ ys)))) else None).
Proof. intros s xs ys [Lx _] [Ly _]. elems xs Lx. elems ys Ly. destruct s; split; reflexivity. Qed.
Print Assumptions C54_unzip8.
Theorem C54_unzip8_x32 : forall s xs ys, lanes U8 32 xs -> lanes U8 32 ys ->
  unzip_even8_x32 s (vec U8 xs) (vec U8 ys) = (if neon s || wasm s then Some (vec U8 (every_other (xs ++ ys))) else None) /\
  unzip_odd8_x32 s (vec U8 xs) (vec U8 ys) = (if neon s || wasm s then Some (vec U8 (every_other (tl (xs ++ ys)))) else None).
Proof. intros s xs ys [Lx _] [Ly _]. elems xs Lx. elems ys Ly. destruct s; split; reflexivity. Qed.
Print Assumptions C54_unzip8_x32.
Theorem C54_unzip64 : forall s xs ys, lanes U64 4 xs -> lanes U64 4 ys ->
  unzip_even64 s (vec U64 xs) (vec U64 ys) = (if any_simd s then Some (vec U64 (every_other (xs ++ ys))) else None) /\
  unzip_odd64 s (vec U64 xs) (vec U64 ys) = (if any_simd s then Some (vec U64 (every_other (tl (xs ++ ys)))) else None).
Proof. intros s xs ys [Lx _] [Ly _]. elems xs Lx. elems ys Ly. destruct s; split; reflexivity. Qed.
Print Assumptions C54_unzip64.
Example C54_unzip_ex : unzip_odd64 AVX2 (vec U64 [1; 2; 3; 4]) (vec U64 [5; 6; 7; 8]) = Some (vec U64 [2; 4; 6; 8]) /\
  unzip_even8 NEON64 (map Z.of_nat (seq 0 16)) (map Z.of_nat (seq 16 16)) = Some (map (fun i => 2 * Z.of_nat i) (seq 0 16)).
Proof. split; reflexivity. Qed.
(** unzipping the zipped vectors gives the vectors back *)
Theorem C54_unzip_zip : forall s xs ys lo hi, lanes U8 16 xs -> lanes U8 16 ys -> neon s || wasm s = true ->
  zip_lo 1 s (vec U8 xs) (vec U8 ys) = Some lo -> zip_hi 1 s (vec U8 xs) (vec U8 ys) = Some hi ->
  unzip_even8 s lo hi = Some (vec U8 xs) /\ unzip_odd8 s lo hi = Some (vec U8 ys).
Proof.
  intros s xs ys lo hi [Lx _] [Ly _] Hs El Eh. elems xs Lx. elems ys Ly.
  destruct s; try discriminate Hs; injection El as <-; injection Eh as <-; split; reflexivity.
Qed.
Print Assumptions C54_unzip_zip.
Theorem C54_permute : forall imm s xs, lanes U64 4 xs ->
  u64x4_permute imm s (vec U64 xs) =
  match s with AVX2 => Some (vec U64 (map (fun i => nth (Z.to_nat ((imm / 4 ^ i) mod 4)) xs 0) [0; 1; 2; 3])) | _ => None end.
Proof.
  intros imm s xs [Lx _]. unfold u64x4_permute, arm. destruct s; lazy [matches_isa existsb inherits id_of id_eqb orb]; try reflexivity.
  unfold vec. f_equal. cbn [seq flat_map map]. unfold imm2.
  assert (H : forall i, (Z.to_nat ((imm / 4 ^ i) mod 4)%Z < length (map (fun x => x mod card U64)%Z xs))%nat).
  { intro i. rewrite map_length, Lx. pose proof (Z.mod_pos_bound (imm / 4 ^ i) 4). lia. }
  change (esize U64) with 8%nat. rewrite !lane_at_arr by apply H. rewrite app_nil_r.
  assert (N : forall i, nth i (map (fun x => x mod card U64) xs) 0 = nth i xs 0 mod card U64).
  { intro i. exact (map_nth (fun x => x mod card U64) xs 0 i). }
  rewrite !N. change (Z.of_nat 0) with 0. change (Z.of_nat 1) with 1. change (Z.of_nat 2) with 2. change (Z.of_nat 3) with 3.
  rewrite !arr_cons. unfold arr. cbn [flat_map]. now rewrite app_nil_r.
Qed.
Print Assumptions C54_permute.
Example C54_permute_ex : u64x4_permute 216 AVX2 (vec U64 [10; 11; 12; 13]) = Some (vec U64 [10; 12; 11; 13]).
Proof. reflexivity. Qed.
(** the largest and the smallest byte *)
Theorem C54_reduce : forall s xs, lanes U8 32 xs ->
  (s = NEON64 -> exists m n, u8x32_reduce_max s (vec U8 xs) = Some m /\ In m xs /\ Forall (fun x => x <= m) xs /\
                             u8x32_reduce_min s (vec U8 xs) = Some n /\ In n xs /\ Forall (fun x => n <= x) xs) /\
  (s <> NEON64 -> u8x32_reduce_max s (vec U8 xs) = None /\ u8x32_reduce_min s (vec U8 xs) = None).
Proof.
  intros s xs Hx. destruct (split_lanes U8 xs Hx) as (a & b & -> & La & Lb & Ea & Eb).
  assert (U : forall l, Forall (has_type U8) l -> vec U8 l = l).
  { intros l F. rewrite vec_u by auto. apply arr1. revert F. apply Forall_impl. intros x H. unfold uint, has_type, min_of, max_of, card in *.
    cbn [signed esize] in H. change (256 ^ Z.of_nat 1) with 256 in *. lia. }
  unfold u8x32_reduce_max, u8x32_reduce_min. rewrite Ea, Eb, C51_max, C51_min by auto.
  split; [intros ->|intro N; destruct s; try (now elim N); split; reflexivity]. cbn [max_support any_simd obind].
  rewrite !U by (apply map2_F; [intros x y; unfold has_type; lia|apply La|apply Lb]).
  change (u8x16_reduce_max NEON64) with (fun l => Some (list_max l)). change (u8x16_reduce_min NEON64) with (fun l => Some (list_min l)).
  exists (list_max (map2 Z.max a b)), (list_min (map2 Z.min a b)).
  destruct La as [La Fa], Lb as [Lb Fb]. change (16 / esize U8)%nat with 16%nat in *.
  assert (B : forall f, (forall x y, f x y = x \/ f x y = y) -> map2 f a b <> [] /\ Forall (has_type U8) (map2 f a b)).
  { intros f Hf. split; [destruct a, b; discriminate|]. apply map2_F; auto. intros x y Tx Ty. destruct (Hf x y) as [->| ->]; auto. }
  assert (M : forall x y, Z.max x y = x \/ Z.max x y = y) by (intros; lia). assert (M' : forall x y, Z.min x y = x \/ Z.min x y = y) by (intros; lia).
  destruct (B _ M) as [N1 F1], (B _ M') as [N2 F2].
  split; [reflexivity|]. split; [apply (in_map2 Z.max); auto; apply list_max_in; auto; revert F1; apply Forall_impl; intros x H; apply H|].
  split; [apply (map2_bound _ Z.max); [congruence|intros; lia|apply list_max_ge]|].
  split; [reflexivity|]. split; [apply (in_map2 Z.min); auto; apply list_min_in; auto; revert F2; apply Forall_impl; intros x H; apply H|].
  apply (map2_bound _ Z.min); [congruence|intros; lia|apply list_min_le].
Qed.
Print Assumptions C54_reduce.
Example C54_reduce_ex : u8x32_reduce_max NEON64 (map Z.of_nat (seq 7 32)) = Some 38 /\ u8x32_reduce_min NEON64 (map Z.of_nat (seq 7 32)) = Some 7.
Proof. split; reflexivity. Qed.
(** these lane moves are the ones that the codecs use *)
Theorem C54_primitives : forall s,
  same2 16 (u8x16_zip_lo s) (zip_lo 1 s) /\ same2 16 (u8x16_zip_hi s) (zip_hi 1 s) /\
  same2 16 (u64x2_zip_lo s) (zip_lo 8 s) /\ same2 16 (u64x2_zip_hi s) (zip_hi 8 s) /\
  same2 32 (u8x16x2_zip_lo s) (zip_lo_x2 1 s) /\ same2 32 (u8x16x2_zip_hi s) (zip_hi_x2 1 s) /\ same2 32 (u64x2x2_zip_lo s) (zip_lo_x2 8 s) /\
  same2 16 (u8x16_unzip_even s) (unzip_even8 s) /\ same2 32 (u8x32_unzip_even s) (unzip_even8_x32 s) /\
  same2 32 (u64x4_unzip_even s) (unzip_even64 s) /\ same1 32 (u64x4_permute_0213 s) (u64x4_permute 216 s).
Proof.
  intro s. repeat split; first [intros a b _ La _ Lb; elems a La; elems b Lb|intros a _ La; elems a La]; destruct s; reflexivity.
Qed.
Print Assumptions C54_primitives.

(** ** C55: shifts by a constant *)
Definition shifted (d : dir) (t : elem) (n x : Z) : Z := match d with Left => wrap t (x * 2 ^ n) | Right => x / 2 ^ n end.
(** whenever the count is less than the lane width and not zero, the intrinsics compile and agree *)
Theorem C55_shift : forall t, t = U16 \/ t = U32 -> forall w s d n xs, 0 < n < 8 * Z.of_nat (esize t) -> lanes t (lane_count w t) xs ->
  shift_compiles s d (esize t) n = true /\
  shift w d (esize t) n s (vec t xs) = if any_simd s then Some (vec t (map (shifted d t n) xs)) else None.
Proof.
  intros t Ht w s d n xs Hn Hx. assert (Sg : signed t = false) by (destruct Ht; subst; reflexivity).
  assert (K : forall s, shift_compiles s d (esize t) n = true).
  { intro s0. unfold shift_compiles. change (lane_bits (esize t)) with (8 * Z.of_nat (esize t)). destruct Ht; subst; destruct s0, d; cbn [esize] in *;
    lazy [matches_isa existsb inherits id_of id_eqb orb]; try reflexivity; lia. }
  split; [apply K|].
  assert (G : forall L f us, L = 16%nat \/ L = 32%nat -> lanes t (L / esize t) us -> (forall x, uint (esize t) x -> f x = shift_bits d (esize t) n x) ->
    on_lanes L (esize t) f (vec t us) = vec t (map (shifted d t n) us)).
  { intros L f us HL [Lu Fu] E. rewrite (vec_u t us) by auto.
    assert (Uu : Forall (uint (esize t)) us).
    { revert Fu. apply Forall_impl. intros x T. unfold has_type, min_of, max_of in T. rewrite Sg in T. unfold uint. fold (card t). lia. }
    rewrite (on_lanes_arr L (esize t) f (shift_bits d (esize t) n)) by auto. unfold vec. f_equal.
    rewrite map_map. apply (map_ext_F (uint (esize t))); [|exact Uu]. intros x Ux. unfold shifted, shift_bits. destruct d; [now rewrite wrap_bits|].
    symmetry. apply Z.mod_small. apply (shift_uint Right (esize t) n x) in Ux; [exact Ux|lia]. }
  assert (G16 : forall us, lanes t (16 / esize t) us -> shift128 d (esize t) n s (vec t us) = if any_simd s then Some (vec t (map (shifted d t n) us)) else None).
  { intros us Hu. unfold shift128, x86_shift, neon_shift, wasm_shift. destruct s; lazy [matches_isa existsb inherits id_of id_eqb orb]; cbn [any_simd];
    try reflexivity; f_equal; apply (G 16%nat); auto; intros x Ux; change (lane_bits (esize t)) with (8 * Z.of_nat (esize t)).
    1-4: replace (8 * Z.of_nat (esize t) <=? n) with false by lia; reflexivity.
    assert (H64 : 8 * Z.of_nat (esize t) <= 32) by (destruct Ht; subst; cbn [esize]; lia).
    rewrite (Z.mod_small n 4294967296), Z.mod_small by lia. reflexivity. }
  destruct w; [now apply G16|]. cbn [shift]. unfold shift256, arm. destruct (matches_isa s [IAVX2]) eqn:E.
  - destruct s; try discriminate E. cbn [any_simd]. f_equal. apply (G 32%nat); auto. intros x Ux. change (lane_bits (esize t)) with (8 * Z.of_nat (esize t)).
    replace (8 * Z.of_nat (esize t) <=? n) with false by lia. reflexivity.
  - destruct (split_lanes t xs Hx) as (a & b & -> & La & Lb & Ea & Eb). unfold vop1. rewrite Ea, Eb, !G16 by auto.
    destruct (any_simd s); [|reflexivity]. cbn [obind]. now rewrite map_app, vec_app.
Qed.
Print Assumptions C55_shift.
Example C55_shift_ex : shift W128 Left 2 4 WASM128 (vec U16 [65535; 1; 2; 3; 4; 5; 6; 4096]) = Some (vec U16 [65520; 16; 32; 48; 64; 80; 96; 0]) /\
  shift W256 Right 4 3 AVX2 (vec U32 [8; 7; 4294967295; 1; 2; 3; 4; 16]) = Some (vec U32 [1; 0; 536870911; 0; 0; 0; 0; 2]).
Proof. split; reflexivity. Qed.
(** but not for every count that compiles: x86 gives zero, wasm takes the count modulo the lane width *)
Theorem C55_count_out_of_range_refuted : exists n a, bytes a /\ length a = 16%nat /\
  shift_compiles SSE2 Left 2 n = true /\ shift_compiles WASM128 Left 2 n = true /\ shift_compiles NEON64 Left 2 n = false /\
  shift W128 Left 2 n SSE2 a <> shift W128 Left 2 n WASM128 a.
Proof.
  exists 16, (repeat 1 16). split; [apply Forall_forall; intros x H; apply repeat_spec in H; subst; unfold byte; lia|].
  split; [reflexivity|]. repeat split. intro E. vm_compute in E. discriminate E.
Qed.
Print Assumptions C55_count_out_of_range_refuted.
(** what each instruction set gives for the other counts that compile: zero on x86, the count modulo the lane width on wasm, zero
    for the one larger count of NEON; a shift by zero changes nothing *)
Theorem C55_other_counts : forall t, t = U16 \/ t = U32 -> forall w d n xs, lanes t (lane_count w t) xs ->
  (forall s, In s [SSE2; SSSE3; SSE41; AVX2] -> 8 * Z.of_nat (esize t) <= n <= 255 ->
     shift_compiles s d (esize t) n = true /\ shift w d (esize t) n s (vec t xs) = Some (vec t (map (fun _ => 0) xs))) /\
  (0 <= n < 4294967296 -> shift_compiles WASM128 d (esize t) n = true /\
     shift w d (esize t) n WASM128 (vec t xs) = Some (vec t (map (shifted d t (n mod (8 * Z.of_nat (esize t)))) xs))) /\
  (forall s, In s [NEON32; NEON64] ->
     (d = Right -> n = 8 * Z.of_nat (esize t) ->
        shift_compiles s d (esize t) n = true /\ shift w d (esize t) n s (vec t xs) = Some (vec t (map (fun _ => 0) xs))) /\
     (8 * Z.of_nat (esize t) < n \/ d = Left /\ n = 8 * Z.of_nat (esize t) \/ d = Right /\ n = 0 -> shift_compiles s d (esize t) n = false)) /\
  (forall s, any_simd s = true -> n = 0 -> shift w d (esize t) n s (vec t xs) = Some (vec t xs)).
Proof.
  intros t Ht w d n xs Hx. assert (Sg : signed t = false) by (destruct Ht; subst; reflexivity).
  assert (Hb : lane_bits (esize t) = 8 * Z.of_nat (esize t)) by reflexivity.
  assert (H8 : 16 <= lane_bits (esize t) <= 32) by (destruct Ht; subst; cbv; split; congruence).
  assert (Uu : forall us, Forall (has_type t) us -> Forall (uint (esize t)) us).
  { intros us. apply Forall_impl. intros x T. unfold has_type, min_of, max_of in T. rewrite Sg in T. unfold uint. fold (card t). lia. }
  assert (G : forall L f g us, L = 16%nat \/ L = 32%nat -> lanes t (L / esize t) us -> (forall x, uint (esize t) x -> f x = g x mod card t) ->
    on_lanes L (esize t) f (vec t us) = vec t (map g us)).
  { intros L f g us HL [Lu Fu] E. rewrite (vec_u t us) by auto.
    rewrite (on_lanes_arr L (esize t) f (fun x => g x mod card t)) by auto. unfold vec. now rewrite map_map. }
  (* one lemma for all cases: the lane function of the instruction set is [g] *)
  assert (K : forall s g, any_simd s = true ->
    (forall x, uint (esize t) x -> (if matches_isa s [ISSE2] then if lane_bits (esize t) <=? n then 0 else shift_bits d (esize t) n x
       else if matches_isa s [INEON] then shift_bits d (esize t) n x
       else shift_bits d (esize t) ((n mod 4294967296) mod lane_bits (esize t)) x) = g x mod card t) ->
    shift w d (esize t) n s (vec t xs) = Some (vec t (map g xs))).
  { intros s g Hs E.
    assert (G16 : forall us, lanes t (16 / esize t) us -> shift128 d (esize t) n s (vec t us) = Some (vec t (map g us))).
    { intros us Hu. unfold shift128, x86_shift, neon_shift, wasm_shift. destruct s; try discriminate Hs; lazy [matches_isa existsb inherits id_of id_eqb orb] in E |- *;
      f_equal; apply (G 16%nat); auto. }
    destruct w; [now apply G16|]. cbn [shift]. unfold shift256, arm. destruct (matches_isa s [IAVX2]) eqn:E2.
    - destruct s; try discriminate E2. f_equal. apply (G 32%nat); auto.
    - destruct (split_lanes t xs Hx) as (a & b & -> & La & Lb & Ea & Eb). unfold vop1. rewrite Ea, Eb, !G16 by auto.
      cbn [obind]. now rewrite map_app, vec_app. }
  assert (Z0 : 0 = 0 mod card t) by (symmetry; apply Z.mod_0_l; destruct Ht; subst; cbv; congruence).
  assert (R : forall k x, 0 <= k -> uint (esize t) x -> shift_bits d (esize t) k x = shifted d t k x mod card t).
  { intros k x Hk Ux. unfold shifted, shift_bits. destruct d; [now rewrite wrap_bits|].
    symmetry. apply Z.mod_small. apply (shift_uint Right (esize t) k x) in Ux; [exact Ux|lia]. }
  refine (conj _ (conj _ (conj _ _))).
  - intros s Hs Hn. rewrite <- Hb in Hn. split.
    + unfold shift_compiles. destruct Hs as [<-|[<-|[<-|[<-|[]]]]]; lazy [matches_isa existsb inherits id_of id_eqb orb]; lia.
    + apply K; [destruct Hs as [<-|[<-|[<-|[<-|[]]]]]; reflexivity|]. intros x Ux.
      replace (matches_isa s [ISSE2]) with true by (destruct Hs as [<-|[<-|[<-|[<-|[]]]]]; reflexivity).
      replace (lane_bits (esize t) <=? n) with true by lia. exact Z0.
  - intro Hn. split; [reflexivity|]. apply K; [reflexivity|]. intros x Ux. lazy [matches_isa existsb inherits id_of id_eqb orb].
    rewrite (Z.mod_small n 4294967296) by lia. rewrite <- Hb. apply R; [|exact Ux]. apply Z.mod_pos_bound. lia.
  - intros s H. split; [intros Ed En; split|].
    { subst d n. unfold shift_compiles. rewrite <- Hb. destruct H as [<-|[<-|[]]]; lazy [matches_isa existsb inherits id_of id_eqb orb]; lia. }
    { subst d n. apply K; [destruct H as [<-|[<-|[]]]; reflexivity|]. intros x Ux.
    assert (E : shift_bits Right (esize t) (8 * Z.of_nat (esize t)) x = 0 mod card t).
    { rewrite <- Z0. cbn [shift_bits]. apply Z.div_small. unfold uint in Ux. destruct Ht; subst t; exact Ux. }
    destruct H as [<-|[<-|[]]]; lazy [matches_isa existsb inherits id_of id_eqb orb]; exact E. }
    intro Hn. unfold shift_compiles. rewrite <- Hb in Hn.
    destruct H as [<-|[<-|[]]]; lazy [matches_isa existsb inherits id_of id_eqb orb]; destruct d; intuition (try discriminate; lia).
  - intros s Hs ->. rewrite (K s (fun x => x) Hs); [now rewrite map_id|]. intros x Ux.
    assert (E : shift_bits d (esize t) 0 x = x mod card t).
    { unfold shift_bits. destruct d; [now rewrite Z.mul_1_r|]. rewrite Z.div_1_r. symmetry. apply Z.mod_small. exact Ux. }
    replace (lane_bits (esize t) <=? 0) with false by lia. change (0 mod 4294967296) with 0. rewrite (Z.mod_0_l (lane_bits (esize t))) by lia.
    destruct (matches_isa s [ISSE2]); [exact E|]. destruct (matches_isa s [INEON]); exact E.
Qed.
Print Assumptions C55_other_counts.
Example C55_other_counts_ex : shift W128 Left 2 17 SSE2 (vec U16 [1; 2; 3; 4; 5; 6; 7; 65535]) = Some (repeat 0 16) /\
  shift W128 Left 2 17 WASM128 (vec U16 [1; 2; 3; 4; 5; 6; 7; 65535]) = Some (vec U16 [2; 4; 6; 8; 10; 12; 14; 65534]) /\
  shift W128 Right 2 16 NEON64 (vec U16 [1; 2; 3; 4; 5; 6; 7; 65535]) = Some (repeat 0 16).
Proof. split; [reflexivity|split; reflexivity]. Qed.
(** the shifts of the codecs are these *)
Theorem C55_primitives : forall s n, 0 < n ->
  (n < 16 -> same1 16 (u16x8_shl s n) (shift W128 Left 2 n s) /\ same1 16 (u16x8_shr s n) (shift W128 Right 2 n s) /\
             same1 32 (u16x16_shl s n) (shift W256 Left 2 n s) /\ same1 32 (u16x16_shr s n) (shift W256 Right 2 n s)) /\
  (n < 32 -> same1 16 (u32x4_shl s n) (shift W128 Left 4 n s) /\ same1 16 (u32x4_shr s n) (shift W128 Right 4 n s) /\
             same1 32 (u32x8_shl s n) (shift W256 Left 4 n s) /\ same1 32 (u32x8_shr s n) (shift W256 Right 4 n s)).
Proof.
  intros s n Hp.
  assert (P2 : n < 16 -> forall d a, bytes a -> length a = 16%nat -> native1 s (lanes16 (match d with Left => u16_shl n | Right => u16_shr n end)) a = shift128 d 2 n s a).
  { intros Hn d a Ba La. unfold shift128, native1, arm, x86_shift, neon_shift, wasm_shift. destruct s; lazy [matches_isa existsb inherits id_of id_eqb orb all3]; try reflexivity;
    apply f_equal; apply eqf1_2; auto; intros x Ux; change (lane_bits 2) with 16; rewrite ?(Z.mod_small n 4294967296), ?(Z.mod_small n 16) by lia;
    try replace (16 <=? n) with false by lia; destruct d; reflexivity. }
  assert (P4 : n < 32 -> forall d a, bytes a -> length a = 16%nat -> native1 s (lanes32 (match d with Left => u32_shl n | Right => u32_shr n end)) a = shift128 d 4 n s a).
  { intros Hn d a Ba La. unfold shift128, native1, arm, x86_shift, neon_shift, wasm_shift. destruct s; lazy [matches_isa existsb inherits id_of id_eqb orb all3]; try reflexivity;
    apply f_equal; apply eqf1_4; auto; intros x Ux; change (lane_bits 4) with 32; rewrite ?(Z.mod_small n 4294967296), ?(Z.mod_small n 32) by lia;
    try replace (32 <=? n) with false by lia; destruct d; reflexivity. }
  assert (Q2 : n < 16 -> forall d a, bytes a -> length a = 32%nat -> wide1 s (lanes16 (match d with Left => u16_shl n | Right => u16_shr n end))
    (fun s => native1 s (lanes16 (match d with Left => u16_shl n | Right => u16_shr n end))) a = shift256 d 2 n s a).
  { intros Hn d a Ba La. unfold shift256, wide1, arm, vop1. rewrite !P2 by auto using bytes_lo, bytes_hi, len_lo, len_hi. destruct (matches_isa s [IAVX2]); [|reflexivity].
    apply f_equal. apply eqf1_2; auto. intros x Ux. change (lane_bits 2) with 16. replace (16 <=? n) with false by lia. destruct d; reflexivity. }
  assert (Q4 : n < 32 -> forall d a, bytes a -> length a = 32%nat -> wide1 s (lanes32 (match d with Left => u32_shl n | Right => u32_shr n end))
    (fun s => native1 s (lanes32 (match d with Left => u32_shl n | Right => u32_shr n end))) a = shift256 d 4 n s a).
  { intros Hn d a Ba La. unfold shift256, wide1, arm, vop1. rewrite !P4 by auto using bytes_lo, bytes_hi, len_lo, len_hi. destruct (matches_isa s [IAVX2]); [|reflexivity].
    apply f_equal. apply eqf1_4; auto. intros x Ux. change (lane_bits 4) with 32. replace (32 <=? n) with false by lia. destruct d; reflexivity. }
  split; intro Hn; (split; [intros a Ba La|split; [intros a Ba La|split; intros a Ba La]]).
  - exact (P2 Hn Left a Ba La).
  - exact (P2 Hn Right a Ba La).
  - exact (Q2 Hn Left a Ba La).
  - exact (Q2 Hn Right a Ba La).
  - exact (P4 Hn Left a Ba La).
  - exact (P4 Hn Right a Ba La).
  - exact (Q4 Hn Left a Ba La).
  - exact (Q4 Hn Right a Ba La).
Qed.
Print Assumptions C55_primitives.
Example C55_primitives_ex : u32x8_shr NEON32 6 (vec U32 [64; 128; 63; 1; 2; 3; 4; 4294967295]) = shift W256 Right 4 6 NEON32 (vec U32 [64; 128; 63; 1; 2; 3; 4; 4294967295]).
Proof. reflexivity. Qed.

(** ** C56: bit masks, and the scalar replacements of simulation.rs *)
(** bit [i] of the mask is the top bit of byte [i] *)
Theorem C56_bitmask : forall w s a, bytes a -> length a = vlen w ->
  if any_simd s && negb (neon s)
  then exists m, pick w (u8x16_bitmask s) (u8x32_bitmask s) a = Some m /\ 0 <= m < 2 ^ Z.of_nat (vlen w) /\
       forall i, (i < vlen w)%nat -> Z.testbit m (Z.of_nat i) = (128 <=? nth i a 0)
  else pick w (u8x16_bitmask s) (u8x32_bitmask s) a = None.
Proof.
  intros w s a Ba La.
  assert (N : forall i, (i < vlen w)%nat -> top_bit a (Z.of_nat i) = (128 <=? nth i a 0)).
  { intros i Hi. unfold top_bit. rewrite Nat2Z.id. destruct (nth_error a i) as [x|] eqn:E; [now rewrite (nth_error_nth _ _ _ E)|]. apply nth_error_None in E. lia. }
  assert (J : length a = 32%nat -> Z.lor (movemask (hi128 a) * 65536) (movemask (lo128 a)) = movemask a).
  { intro L. apply nonneg_eq. intros i Hi. rewrite Z.lor_spec. change 65536 with (2 ^ 16). rewrite Z.mul_pow2_bits, (movemask_bits (lo128 a)), (movemask_bits a) by lia.
    destruct (Z.ltb_spec i 16).
    - rewrite Z.testbit_neg_r by lia. cbn [orb]. unfold top_bit, lo128. rewrite nth_error_firstn. now replace (Z.to_nat i <? 16)%nat with true by lia.
    - rewrite movemask_bits by lia. unfold top_bit at 2. unfold lo128 at 1. rewrite nth_error_firstn. replace (Z.to_nat i <? 16)%nat with false by lia.
      rewrite orb_false_r. unfold top_bit, hi128. rewrite nth_error_skipn. now replace (16 + Z.to_nat (i - 16))%nat with (Z.to_nat i) by lia. }
  assert (M : exists m, Some (movemask a) = Some m /\ 0 <= m < 2 ^ Z.of_nat (vlen w) /\ forall i, (i < vlen w)%nat -> Z.testbit m (Z.of_nat i) = (128 <=? nth i a 0)).
  { exists (movemask a). split; [reflexivity|]. split; [rewrite <- La; apply movemask_bound|]. intros i Hi. now rewrite movemask_bits, N by lia. }
  destruct w; cbn [pick vlen] in *; unfold u8x32_bitmask, u8x16_bitmask; destruct s; lazy [matches_isa existsb inherits id_of id_eqb orb];
  cbn [any_simd neon negb andb obind]; rewrite ?J by exact La; try reflexivity; exact M.
Qed.
Print Assumptions C56_bitmask.
Example C56_bitmask_ex : u8x32_bitmask SSE2 (128 :: repeat 127 30 ++ [255]) = Some 2147483649.
Proof. reflexivity. Qed.

Theorem C56_simulation : forall a b, bytes a -> length a = 16%nat -> bytes b -> length b = 16%nat ->
  sim_max a b = u_max W128 SSE2 U8 a b /\ sim_min a b = u_min W128 SSE2 U8 a b /\
  sim_bitmask a = u8x16_bitmask SSE2 a /\ sim_packus a b = i16x8_packus SSE2 a b /\
  (forall checks d n, 0 <= n < 16 -> sim_shift checks d n a = shift W128 d 2 n SSE2 a).
Proof.
  intros a b Ba La Bb Lb. split; [|split; [|split; [|split]]].
  - transitivity (Some (vmax_u 16 1 a b)); [|reflexivity]. rewrite <- k_max8 by auto. elems a La. elems b Lb. unfold sim_max.
    cbn [collect nth_error obind seq map2]. unfold u8_max. rewrite !max_if. reflexivity.
  - transitivity (Some (vmin_u 16 1 a b)); [|reflexivity]. rewrite <- k_min8 by auto. elems a La. elems b Lb. unfold sim_min.
    cbn [collect nth_error obind seq map2]. unfold u8_min. rewrite !(fun x y => eq_trans (Z.min_comm x y) (min_if y x)). reflexivity.
  - transitivity (Some (movemask a)); [|reflexivity]. unfold sim_bitmask. destruct (sim_bitmask_bits a 16 Ba 0%nat 0) as (r & -> & H); [lia|exact La|].
    f_equal. apply nonneg_eq. intros i Hi. rewrite H, movemask_bits, Z.testbit_0_l by exact Hi. cbn [orb].
    destruct (Z.ltb_spec i 16).
    + replace ((Z.of_nat 0 <=? i) && (i <? Z.of_nat (0 + 16))) with true by lia. reflexivity.
    + replace (i <? Z.of_nat (0 + 16)) with false by lia. rewrite andb_false_r. unfold top_bit.
      destruct (nth_error a (Z.to_nat i)) eqn:E; [|reflexivity]. assert (Z.to_nat i < length a)%nat by (apply nth_error_Some; congruence). lia.
  - assert (C : forall x, sat_u8 x = clamp 0 255 x).
    { intro x. unfold sat_u8, clamp. destruct (Z.ltb_spec x 0); [lia|]. destruct (Z.ltb_spec 255 x); [lia|]. rewrite Z.mod_small; lia. }
    change (i16x8_packus SSE2 a b) with (Some (lanes_packus a ++ lanes_packus b)). elems a La. elems b Lb.
    unfold sim_packus, i16_lane. cbn [collect nth_error obind seq Nat.mul Nat.add]. rewrite !C. reflexivity.
  - intros checks d n Hn. unfold sim_shift. replace (16 <=? n) with false by lia. cbn [shift]. unfold shift128, x86_shift.
    lazy [matches_isa existsb inherits id_of id_eqb orb]. apply f_equal. unfold on_lanes. change (lane_bits 2) with 16. replace (16 <=? n) with false by lia. reflexivity.
Qed.
Print Assumptions C56_simulation.
Example C56_simulation_ex :
  sim_packus (vec I16 [-5; 300; 255; 256; 0; 1; 2; 3]) (vec I16 [32767; -32768; 128; 127; 9; 8; 7; 6]) = Some [0; 255; 255; 255; 0; 1; 2; 3; 255; 0; 128; 127; 9; 8; 7; 6].
Proof. reflexivity. Qed.
(** [IMM8 as u8] keeps only the low byte of the count and a count of 16 or more panics in a checked build, where the instruction gives zero *)
Theorem C56_shift_count_refuted : exists n a, bytes a /\ length a = 16%nat /\ shift_compiles SSE2 Right 2 n = true /\
  sim_shift true Right n a <> shift W128 Right 2 n SSE2 a.
Proof.
  exists 16, (repeat 1 16). split; [apply Forall_forall; intros x H; apply repeat_spec in H; subst; unfold byte; lia|].
  repeat split. intro E. vm_compute in E. discriminate E.
Qed.
Print Assumptions C56_shift_count_refuted.
