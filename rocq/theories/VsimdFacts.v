(** Facts about the model of vsimd in Vsimd.v. *)
From Coq Require Import ZArith List Bool Lia ZifyBool ZifyNat.
From Verif Require Import Bytes Mem MemFacts Isa Ints Simd SimdFacts PrimFacts Loops UnicodeSpec UnicodeFacts SwapFacts LaneFacts VsimdSpec Vsimd.
Import ListNotations.
Open Scope Z_scope.
Ltac Zify.zify_post_hook ::= Z.div_mod_to_equations.

Lemma arr_cons k x xs : arr LE k (x :: xs) = le_bytes k x ++ arr LE k xs.
Proof. reflexivity. Qed.

Lemma each_lane_arr k f xs : Forall (uint k) xs -> each_lane (length xs) k f (arr LE k xs) = arr LE k (map f xs).
Proof.
  induction 1 as [|x xs Hx F IH]; [reflexivity|]. cbn [length each_lane map]. rewrite !arr_cons.
  rewrite firstn_app_exact, skipn_app_exact by apply le_bytes_len. rewrite of_le_le_bytes by exact Hx. now rewrite IH.
Qed.
Lemma each_lane2_arr k f xs ys : length ys = length xs -> Forall (uint k) xs -> Forall (uint k) ys ->
  each_lane2 (length xs) k f (arr LE k xs) (arr LE k ys) = arr LE k (map2 f xs ys).
Proof.
  intros L Fx. revert ys L. induction Fx as [|x xs Hx Fx IH]; intros ys L Fy; [reflexivity|].
  destruct Fy as [|y ys Hy Fy]; [discriminate L|]. cbn [length each_lane2 map2]. rewrite !arr_cons.
  rewrite !firstn_app_exact, !skipn_app_exact by apply le_bytes_len. rewrite !of_le_le_bytes by assumption.
  rewrite IH; auto.
Qed.

(** ** Lane types *)
Ltac consts :=
  unfold truth, wrap, sat, has_type, min_of, max_of, card, sgn, lane_card, lane_bits, ones, clamp_s in *;
  cbn [signed esize] in *;
  change (256 ^ Z.of_nat 1) with 256 in *; change (256 ^ Z.of_nat 2) with 65536 in *;
  change (256 ^ Z.of_nat 4) with 4294967296 in *; change (256 ^ Z.of_nat 8) with 18446744073709551616 in *;
  change (256 / 2) with 128 in *; change (65536 / 2) with 32768 in *;
  change (4294967296 / 2) with 2147483648 in *; change (18446744073709551616 / 2) with 9223372036854775808 in *.

Lemma card_pos t : 0 < card t. Proof. destruct t; reflexivity. Qed.
Lemma bits_uint t x : uint (esize t) (x mod card t).
Proof. unfold uint. apply Z.mod_pos_bound, card_pos. Qed.
Lemma bits_uints t xs : Forall (uint (esize t)) (map (fun x => x mod card t) xs).
Proof. induction xs; cbn [map]; constructor; auto using bits_uint. Qed.

Lemma wrap_bits t z : wrap t z mod card t = z mod card t.
Proof.
  pose proof (card_pos t). unfold wrap. rewrite Z.add_mod_idemp_l by lia. f_equal. lia.
Qed.
Lemma wrap_type t z : has_type t (wrap t z).
Proof.
  assert (H : 0 <= (z - min_of t) mod card t < card t) by (apply Z.mod_pos_bound, card_pos).
  unfold has_type, wrap. assert (max_of t = min_of t + card t - 1) by (destruct t; reflexivity). lia.
Qed.
(** two's complement reading of the bits of a value of a signed type *)
Lemma sgn_bits t x : signed t = true -> has_type t x -> sgn (esize t) (x mod card t) = x.
Proof. intros S H. destruct t; try discriminate S; consts; destruct (_ <? _) eqn:?; lia. Qed.
Lemma usg_bits t x : signed t = false -> has_type t x -> x mod card t = x.
Proof. intros S H. destruct t; try discriminate S; consts; lia. Qed.
Lemma bits_inj t x y : has_type t x -> has_type t y -> x mod card t = y mod card t -> x = y.
Proof.
  intros Hx Hy E. destruct (signed t) eqn:S.
  - rewrite <- (sgn_bits t x), <- (sgn_bits t y) by auto. congruence.
  - rewrite <- (usg_bits t x), <- (usg_bits t y) by auto. congruence.
Qed.

(** every byte vector of the right length holds lanes of any type *)
Lemma vec_of t n l : bytes l -> length l = (esize t * n)%nat -> exists xs, lanes t n xs /\ l = vec t xs.
Proof.
  intros B L. destruct (lanes_of (esize t) n l B L) as (xs & Lx & Fx & ->).
  exists (map (wrap t) xs). split.
  - split; [now rewrite map_length|]. clear. induction xs; cbn [map]; constructor; auto using wrap_type.
  - unfold vec. rewrite map_map. f_equal. clear -Fx. induction Fx as [|x xs Hx F IH]; [reflexivity|]. cbn [map].
    rewrite wrap_bits, <- IH. f_equal. symmetry. apply Z.mod_small. exact Hx.
Qed.
Lemma vec_len t xs : length (vec t xs) = (esize t * length xs)%nat.
Proof. unfold vec. rewrite arr_len, map_length. lia. Qed.
Lemma vec_bytes t xs : bytes (vec t xs).
Proof.
  unfold vec. apply arr_bytes.
Qed.
Lemma vec_app t xs ys : vec t (xs ++ ys) = vec t xs ++ vec t ys.
Proof. unfold vec. now rewrite map_app, arr_app. Qed.
Lemma vec_inj t xs ys : Forall (has_type t) xs -> Forall (has_type t) ys -> vec t xs = vec t ys -> xs = ys.
Proof.
  intros Fx. revert ys. induction Fx as [|x xs Hx Fx IH]; intros ys Fy E.
  - destruct ys as [|y ys]; [reflexivity|]. apply (f_equal (@length Z)) in E. rewrite !vec_len in E. destruct t; discriminate E.
  - destruct Fy as [|y ys Hy Fy].
    + apply (f_equal (@length Z)) in E. rewrite !vec_len in E. destruct t; discriminate E.
    + unfold vec in E. cbn [map] in E. rewrite !arr_cons in E.
      assert (E1 := f_equal (firstn (esize t)) E). assert (E2 := f_equal (skipn (esize t)) E).
      rewrite !firstn_app_exact in E1 by apply le_bytes_len. rewrite !skipn_app_exact in E2 by apply le_bytes_len.
      f_equal; [|now apply IH]. apply (bits_inj t); auto.
      rewrite <- (of_le_le_bytes (esize t) (x mod card t)), <- (of_le_le_bytes (esize t) (y mod card t)) by apply bits_uint. congruence.
Qed.

(** ** Rows *)
(** number of lanes of a vector of [L] bytes *)
Definition good2 (t : elem) (F : Z -> Z -> Z) (L : nat) (ins : binop) : Prop :=
  forall xs ys, lanes t (L / esize t) xs -> lanes t (L / esize t) ys -> ins (vec t xs) (vec t ys) = vec t (map2 F xs ys).

Lemma map2_bits t f F xs ys : (forall x y, has_type t x -> has_type t y -> f (x mod card t) (y mod card t) = F x y mod card t) ->
  Forall (has_type t) xs -> Forall (has_type t) ys ->
  map2 f (map (fun x => x mod card t) xs) (map (fun x => x mod card t) ys) = map (fun x => x mod card t) (map2 F xs ys).
Proof.
  intros H Fx. revert ys. induction Fx as [|x xs Hx Fx IH]; intros ys Fy; [reflexivity|].
  destruct Fy as [|y ys Hy Fy]; [reflexivity|]. cbn [map map2]. now rewrite H, IH by auto.
Qed.
Lemma good_lanes t F L f :
  (forall x y, has_type t x -> has_type t y -> f (x mod card t) (y mod card t) = F x y mod card t) ->
  good2 t F L (on_lanes2 L (esize t) f).
Proof.
  intros H xs ys [Lx Fx] [Ly Fy]. unfold on_lanes2, vec. rewrite <- Lx at 1.
  rewrite <- (map_length (fun x => x mod card t) xs). rewrite each_lane2_arr; [|rewrite !map_length; congruence|apply bits_uints|apply bits_uints].
  f_equal. now apply map2_bits.
Qed.

Lemma good_add t L : good2 t (fun x y => wrap t (x + y)) L (vadd L (esize t)).
Proof.
  apply good_lanes. intros x y _ _. rewrite wrap_bits. change (lane_card (esize t)) with (card t).
  symmetry. apply Z.add_mod. pose proof (card_pos t). lia.
Qed.
Lemma good_sub t L : good2 t (fun x y => wrap t (x - y)) L (vsub L (esize t)).
Proof.
  apply good_lanes. intros x y _ _. rewrite wrap_bits. change (lane_card (esize t)) with (card t).
  symmetry. apply Zminus_mod.
Qed.
Lemma good_mul t L : good2 t (fun x y => wrap t (x * y)) L (vmul_lo L (esize t)).
Proof.
  apply good_lanes. intros x y _ _. rewrite wrap_bits. change (lane_card (esize t)) with (card t).
  symmetry. apply Z.mul_mod. pose proof (card_pos t). lia.
Qed.
Lemma truth_bits t b : ones (esize t) b = truth t b mod card t.
Proof. destruct t, b; reflexivity. Qed.
Lemma good_eq t L : good2 t (fun x y => truth t (x =? y)) L (vceq L (esize t)).
Proof.
  apply good_lanes. intros x y Hx Hy. rewrite <- truth_bits. f_equal.
  destruct (x =? y) eqn:E; [apply Z.eqb_eq in E; subst; apply Z.eqb_refl|].
  apply Z.eqb_neq in E. apply Z.eqb_neq. intro E'. apply E. eapply bits_inj; eauto.
Qed.
Lemma good_clt_s t L : signed t = true -> good2 t (fun x y => truth t (x <? y)) L (vclt_s L (esize t)).
Proof. intro S. apply good_lanes. intros x y Hx Hy. now rewrite <- truth_bits, !sgn_bits by auto. Qed.
Lemma good_cgt_s t L : signed t = true -> good2 t (fun x y => truth t (x <? y)) L (fun a b => vcgt_s L (esize t) b a).
Proof.
  intros S xs ys Hx Hy. unfold vcgt_s.
  assert (G : good2 t (fun x y => truth t (y <? x)) L (on_lanes2 L (esize t) (fun x y => ones (esize t) (sgn (esize t) y <? sgn (esize t) x)))).
  { apply good_lanes. intros x y Tx Ty. now rewrite <- truth_bits, !sgn_bits by auto. }
  rewrite (G ys xs Hy Hx). f_equal. clear. revert ys. induction xs as [|x xs IH]; intros [|y ys]; cbn [map2]; [reflexivity..|]. now rewrite IH.
Qed.
Lemma good_clt_u t L : signed t = false -> good2 t (fun x y => truth t (x <? y)) L (vclt_u L (esize t)).
Proof. intro S. apply good_lanes. intros x y Hx Hy. now rewrite <- truth_bits, !usg_bits by auto. Qed.
Lemma clamp_bits t z : signed t = true -> clamp_s (esize t) z = sat t z mod card t.
Proof. intro S. destruct t; try discriminate S; reflexivity. Qed.
Lemma good_qadd_s t L : signed t = true -> good2 t (fun x y => sat t (x + y)) L (vqadd_s L (esize t)).
Proof. intro S. apply good_lanes. intros x y Hx Hy. now rewrite !sgn_bits, clamp_bits by auto. Qed.
Lemma good_qsub_s t L : signed t = true -> good2 t (fun x y => sat t (x - y)) L (vqsub_s L (esize t)).
Proof. intro S. apply good_lanes. intros x y Hx Hy. now rewrite !sgn_bits, clamp_bits by auto. Qed.
Lemma good_qadd_u t L : signed t = false -> good2 t (fun x y => sat t (x + y)) L (vqadd_u L (esize t)).
Proof. intro S. apply good_lanes. intros x y Hx Hy. rewrite !usg_bits by auto. destruct t; try discriminate S; consts; lia. Qed.
Lemma good_qsub_u t L : signed t = false -> good2 t (fun x y => sat t (x - y)) L (vqsub_u L (esize t)).
Proof. intro S. apply good_lanes. intros x y Hx Hy. rewrite !usg_bits by auto. destruct t; try discriminate S; consts; lia. Qed.
Lemma good_max_s t L : signed t = true -> good2 t Z.max L (vmax_s L (esize t)).
Proof. intro S. apply good_lanes. intros x y Hx Hy. rewrite !sgn_bits by auto. destruct (x <? y) eqn:E; f_equal; lia. Qed.
Lemma good_min_s t L : signed t = true -> good2 t Z.min L (vmin_s L (esize t)).
Proof. intro S. apply good_lanes. intros x y Hx Hy. rewrite !sgn_bits by auto. destruct (x <? y) eqn:E; f_equal; lia. Qed.
Lemma good_max_u t L : signed t = false -> good2 t Z.max L (vmax_u L (esize t)).
Proof.
  intro S. apply good_lanes. intros x y Hx Hy. rewrite (usg_bits t x), (usg_bits t y) by auto.
  destruct (x <? y) eqn:E; symmetry; [replace (Z.max x y) with y by lia|replace (Z.max x y) with x by lia]; now apply usg_bits.
Qed.
Lemma good_min_u t L : signed t = false -> good2 t Z.min L (vmin_u L (esize t)).
Proof.
  intro S. apply good_lanes. intros x y Hx Hy. rewrite (usg_bits t x), (usg_bits t y) by auto.
  destruct (x <? y) eqn:E; symmetry; [replace (Z.min x y) with x by lia|replace (Z.min x y) with y by lia]; now apply usg_bits.
Qed.

(** unsigned comparison through max, and through flipping the sign bits *)
Lemma len_each2 n k f a b : length (each_lane2 n k f a b) = (k * n)%nat.
Proof. revert a b. induction n as [|n IH]; intros a b; cbn [each_lane2]; [cbn; lia|]. rewrite app_length, le_bytes_len, IH. lia. Qed.
Lemma vec_xor t xs ys : Forall (has_type t) xs -> Forall (has_type t) ys ->
  vxor (vec t xs) (vec t ys) = arr LE (esize t) (map2 (fun x y => Z.lxor (x mod card t) (y mod card t)) xs ys).
Proof. intros _ _. unfold vec, vxor. rewrite xor_arr. f_equal. apply map2_map_map. Qed.
Lemma truth_type t b : has_type t (truth t b).
Proof. destruct b; [apply wrap_type|]. destruct t; consts; lia. Qed.
Lemma lanes_map2 t n F xs ys : (forall x y, has_type t x -> has_type t y -> has_type t (F x y)) ->
  lanes t n xs -> lanes t n ys -> lanes t n (map2 F xs ys).
Proof.
  intros H [Lx Fx] [Ly Fy]. split; [now apply len_map2|]. now apply map2_F.
Qed.
Lemma max_type t x y : has_type t x -> has_type t y -> has_type t (Z.max x y).
Proof. unfold has_type. lia. Qed.
Lemma good_lt_max t L : signed t = false -> good2 t (fun x y => truth t (x <? y)) L (lt_by_max L (esize t)).
Proof.
  intros S xs ys Hx Hy. unfold lt_by_max. rewrite (good_max_u t L S xs ys Hx Hy).
  rewrite (good_eq t L xs xs Hx Hx), (good_eq t L xs (map2 Z.max xs ys) Hx) by (apply lanes_map2; auto using max_type).
  rewrite vec_xor by (apply map2_F; try (intros; apply truth_type); try apply Hx; try apply map2_F; try apply Hx; try apply Hy; auto using max_type).
  unfold vec. f_equal. destruct Hx as [_ Fx], Hy as [_ Fy]. revert ys Fy.
  induction Fx as [|x xs Hx Fx IH]; intros ys Fy; [reflexivity|]. destruct Fy as [|y ys Hy Fy]; [reflexivity|].
  cbn [map2 map]. f_equal; [|apply IH; exact Fy]. rewrite <- !truth_bits, Z.eqb_refl.
  destruct (x <? y) eqn:E.
  - replace (x =? Z.max x y) with false by lia. unfold ones. apply Z.lxor_0_l.
  - replace (x =? Z.max x y) with true by lia. unfold ones. apply Z.lxor_nilpotent.
Qed.
Lemma vset1_arr L k x : vset1 L k x = arr LE k (repeat x (L / k)).
Proof. unfold vset1. apply repeat_arr. Qed.
Ltac flip_case n c :=
  match goal with |- context [Z.lxor ?x c] =>
    let F := fresh in assert (F := flip_top n x); change (2 ^ n) with c in F; rewrite F by lia; clear F;
    destruct (x <? c) eqn:?; [destruct (x + c <? c) eqn:? | destruct (x - c <? c) eqn:?]; lia end.
Lemma flip_card t x : signed t = false -> has_type t x ->
  uint (esize t) (Z.lxor x (card t / 2)) /\ sgn (esize t) (Z.lxor x (card t / 2)) = x - card t / 2.
Proof.
  intros S H. unfold uint. destruct t; try discriminate S; consts.
  all: [> flip_case 7 128 | flip_case 15 32768 | flip_case 31 2147483648 | flip_case 63 9223372036854775808].
Qed.
Lemma vec_u t xs : signed t = false -> Forall (has_type t) xs -> vec t xs = arr LE (esize t) xs.
Proof.
  intros S F. unfold vec. f_equal. induction F as [|x xs Hx F IH]; [reflexivity|]. cbn [map]. now rewrite usg_bits, IH by auto.
Qed.
Lemma flip_vec t xs : signed t = false -> lanes t (16 / esize t) xs ->
  vxor (vec t xs) (vset1 16 (esize t) (lane_card (esize t) / 2)) = arr LE (esize t) (map (fun x => Z.lxor x (card t / 2)) xs).
Proof.
  intros S [Lx Fx]. rewrite vset1_arr, vec_u by auto. unfold vxor. rewrite xor_arr. f_equal. rewrite <- Lx. apply map2_repeat.
Qed.
Lemma good_lt_flip t : signed t = false -> good2 t (fun x y => truth t (x <? y)) 16 (lt_by_flip (esize t)).
Proof.
  intros S xs ys Hx Hy. unfold lt_by_flip. cbv zeta. rewrite !flip_vec by auto. unfold vclt_s, on_lanes2.
  destruct Hx as [Lx Fx], Hy as [Ly Fy].
  assert (U : forall l, Forall (has_type t) l -> Forall (uint (esize t)) (map (fun x => Z.lxor x (card t / 2)) l)).
  { intros l F. apply (map_F (has_type t)); auto. intros x Tx. now apply flip_card. }
  rewrite <- Lx at 1. rewrite <- (map_length (fun x => Z.lxor x (card t / 2)) xs) at 1.
  rewrite each_lane2_arr; [|rewrite !map_length; congruence|auto..].
  unfold vec. f_equal. rewrite map2_map_map. clear Lx Ly U. revert ys Fy.
  induction Fx as [|x xs Hx Fx IH]; intros ys Fy; [reflexivity|]. destruct Fy as [|y ys Hy Fy]; [reflexivity|].
  cbn [map2 map]. f_equal; [|apply IH; exact Fy]. rewrite <- truth_bits. f_equal.
  destruct (flip_card t x S Hx) as [_ ->], (flip_card t y S Hy) as [_ ->]. lia.
Qed.

(** ** unified *)
Definition is_some {A} (o : option A) : bool := match o with Some _ => true | None => false end.
Definition native (w : width) (s : isa) (t : elem) (avx2 rows : list (row binop)) : bool :=
  match w with W128 => is_some (select s t rows) | W256 => is_some (select s t avx2) || is_some (select s t rows) end.

Lemma split_lanes t xs : lanes t (32 / esize t) xs -> exists a b, xs = a ++ b /\ lanes t (16 / esize t) a /\ lanes t (16 / esize t) b /\
  lo128 (vec t xs) = vec t a /\ hi128 (vec t xs) = vec t b.
Proof.
  intros [L F]. destruct (split_at xs (16 / esize t)) as (a & b & -> & La); [rewrite L; destruct t; cbn; lia|].
  apply Forall_app in F as [Fa Fb]. rewrite app_length in L.
  assert (Lb : length b = (16 / esize t)%nat) by (destruct t; cbn in *; lia).
  exists a, b. rewrite vec_app. unfold lo128, hi128. rewrite firstn_app_exact, skipn_app_exact by (rewrite vec_len, La; destruct t; reflexivity).
  repeat split; auto.
Qed.

Lemma unified_ok avx2 rows w s t F :
  (forall ins, select s t avx2 = Some ins -> good2 t F 32 ins) ->
  (forall ins, select s t rows = Some ins -> good2 t F 16 ins) ->
  forall xs ys, lanes t (vlen w / esize t) xs -> lanes t (vlen w / esize t) ys ->
  unified avx2 rows w s t (vec t xs) (vec t ys) = if native w s t avx2 rows then Some (vec t (map2 F xs ys)) else None.
Proof.
  intros H1 H2 xs ys Hx Hy. destruct w; cbn [vlen] in *.
  - unfold unified, native, run128. destruct (select s t rows) as [ins|]; cbn [is_some]; [|reflexivity]. f_equal. now apply H2.
  - unfold unified, native. destruct (select s t avx2) as [ins|]; cbn [is_some orb]; [f_equal; now apply H1|].
    destruct (split_lanes t xs Hx) as (a & b & -> & La & Lb & Ea & Eb). destruct (split_lanes t ys Hy) as (c & d & -> & Lc & Ld & Ec & Ed).
    unfold vop2, run128. rewrite Ea, Eb, Ec, Ed. destruct (select s t rows) as [ins|]; cbn [is_some obind]; [|reflexivity].
    rewrite !(H2 _ eq_refl) by auto. rewrite map2_app2 by (destruct La, Lc; congruence). now rewrite vec_app.
Qed.

(** find the row that an operation selects *)
Ltac rows tbl tac :=
  let ins := fresh in let E := fresh in
  intros ins E; match goal with s : isa |- _ => destruct s end; match goal with t : elem |- _ => destruct t end;
  lazy [select tbl on on_a64 arch_aarch64 matches_isa inherits id_of id_eqb is_pod_type existsb elem_eqb b8 b16 b32 b64 andb orb] in E;
  try discriminate E; injection E as <-; tac.

Ltac typed lem := idtac; match goal with |- good2 ?t _ _ _ => exact (lem t _) end.
Ltac signed_or lem := idtac; match goal with |- good2 ?t _ _ _ => exact (lem t _ eq_refl) end.
Ltac flipped lem := idtac; match goal with |- good2 ?t _ _ _ => exact (lem t eq_refl) end.

(** ** Shifts *)
Lemma shift_uint d k n x : 0 <= n -> uint k x -> uint k (shift_bits d k n x).
Proof.
  intros Hn [H1 H2]. unfold uint, shift_bits, lane_card in *. assert (0 < 2 ^ n) by (apply Z.pow_pos_nonneg; lia).
  destruct d; [apply Z.mod_pos_bound; lia|]. split; [apply Z.div_pos; lia|].
  apply Z.le_lt_trans with x; [|exact H2]. apply Z.div_le_upper_bound; nia.
Qed.
Lemma map_ext_F {A B} (P : A -> Prop) (f g : A -> B) l : (forall x, P x -> f x = g x) -> Forall P l -> map f l = map g l.
Proof. intros H. induction 1; cbn [map]; [reflexivity|]. now rewrite H, IHForall. Qed.
Lemma on_lanes_arr L k f g xs : length xs = (L / k)%nat -> Forall (uint k) xs -> (forall x, uint k x -> f x = g x) ->
  on_lanes L k f (arr LE k xs) = arr LE k (map g xs).
Proof. intros H F E. unfold on_lanes. rewrite <- H, each_lane_arr by exact F. f_equal. now apply (map_ext_F (uint k)). Qed.

(** ** Moving lanes *)
Lemma lane_at_arr k i xs : (i < length xs)%nat -> lane_at k i (arr LE k xs) = le_bytes k (nth i xs 0).
Proof.
  unfold lane_at. revert i. induction xs as [|x xs IH]; intros i H; [cbn in H; lia|]. rewrite arr_cons. destruct i as [|i].
  - rewrite Nat.mul_0_r. cbn [skipn nth]. apply firstn_app_exact, le_bytes_len.
  - cbn [nth length] in *. rewrite <- (IH i) by lia. replace (k * S i)%nat with (k + k * i)%nat by lia.
    f_equal. rewrite <- skipn_add. f_equal. apply skipn_app_exact, le_bytes_len.
Qed.
Lemma flat_arr {A} k (f : A -> list Z) (g : A -> list Z) l : (forall i, In i l -> f i = arr LE k (g i)) ->
  flat_map f l = arr LE k (flat_map g l).
Proof.
  induction l as [|i l IH]; intro H; [reflexivity|]. cbn [flat_map]. rewrite arr_app, <- IH, (H i) by (intros; apply H; now right) || (now left). reflexivity.
Qed.
Lemma unpack_arr k from xs ys : (from + 8 / k <= length xs)%nat -> (from + 8 / k <= length ys)%nat ->
  unpack k from (arr LE k xs) (arr LE k ys) = arr LE k (flat_map (fun i => [nth i xs 0; nth i ys 0]) (seq from (8 / k))).
Proof.
  intros Lx Ly. unfold unpack. apply flat_arr. intros i H. apply in_seq in H. rewrite !lane_at_arr by lia.
  cbn [arr flat_map]. rewrite app_nil_r. reflexivity.
Qed.
Lemma shuffle_arr k idx xs ys : Forall (fun i => i < length xs + length ys)%nat idx ->
  wasm_shuffle k idx (arr LE k xs) (arr LE k ys) = arr LE k (map (fun i => nth i (xs ++ ys) 0) idx).
Proof.
  intro F. unfold wasm_shuffle. rewrite <- arr_app. induction F as [|i idx H F IH]; [reflexivity|]. cbn [flat_map map].
  rewrite IH, lane_at_arr by (rewrite app_length; lia). reflexivity.
Qed.

(** ** The primitives of Simd.v *)
(** two partial vector functions agree on vectors of [L] bytes *)
Definition same1 {A} (L : nat) (f g : list Z -> option A) : Prop := forall a, bytes a -> length a = L -> f a = g a.
Definition same2 (L : nat) (f g : list Z -> list Z -> option (list Z)) : Prop :=
  forall a b, bytes a -> length a = L -> bytes b -> length b = L -> f a b = g a b.
(** total ones *)
Definition eqf1 (L : nat) (f g : list Z -> list Z) : Prop := forall a, bytes a -> length a = L -> f a = g a.
Definition eqf2 (L : nat) (f g : list Z -> list Z -> list Z) : Prop :=
  forall a b, bytes a -> length a = L -> bytes b -> length b = L -> f a b = g a b.

Lemma each2_1 f : (forall x y, byte x -> byte y -> byte (f x y)) -> forall n a b, bytes a -> length a = n -> bytes b -> length b = n ->
  map2 f a b = each_lane2 n 1 f a b.
Proof.
  intro Hf. induction n as [|n IH]; intros [|x a] [|y b] Ba La Bb Lb; try discriminate; [reflexivity|].
  inversion Ba as [|? ? Hx Ba']; inversion Bb as [|? ? Hy Bb']; subst. cbn [map2 each_lane2 firstn skipn]. rewrite <- IH by (auto; cbn in *; lia).
  assert (O : forall z, of_le [z] = z) by (intro; cbn; lia). rewrite !O. change (le_bytes 1 (f x y)) with [f x y mod 256]. cbn [app].
  pose proof (Hf x y Hx Hy) as B. unfold byte in B. now rewrite Z.mod_small by lia.
Qed.
Lemma eqf2_1 L f : (forall x y, byte x -> byte y -> byte (f x y)) -> eqf2 L (map2 f) (on_lanes2 L 1 f).
Proof. intros Hf a b Ba La Bb Lb. unfold on_lanes2. rewrite Nat.div_1_r. now apply each2_1. Qed.
Lemma eqf2_2 L f : L = 16%nat \/ L = 32%nat -> eqf2 L (lanes16_2 f) (on_lanes2 L 2 f).
Proof.
  intros HL a b Ba La Bb Lb.
  destruct (lanes_of 2 (L / 2) a Ba) as (xs & Lx & Fx & ->); [destruct HL; subst; rewrite La; reflexivity|].
  destruct (lanes_of 2 (L / 2) b Bb) as (ys & Ly & Fy & ->); [destruct HL; subst; rewrite Lb; reflexivity|].
  rewrite lanes16_2_arr by auto. unfold on_lanes2. rewrite <- Lx, each_lane2_arr by (auto; congruence). reflexivity.
Qed.
Lemma eqf2_4 L f : L = 16%nat \/ L = 32%nat -> eqf2 L (lanes32_2 f) (on_lanes2 L 4 f).
Proof.
  intros HL a b Ba La Bb Lb.
  destruct (lanes_of 4 (L / 4) a Ba) as (xs & Lx & Fx & ->); [destruct HL; subst; rewrite La; reflexivity|].
  destruct (lanes_of 4 (L / 4) b Bb) as (ys & Ly & Fy & ->); [destruct HL; subst; rewrite Lb; reflexivity|].
  rewrite lanes32_2_arr by auto. unfold on_lanes2. rewrite <- Lx, each_lane2_arr by (auto; congruence). reflexivity.
Qed.
Lemma lanes16_arr f xs : Forall (uint 2) xs -> lanes16 f (arr LE 2 xs) = arr LE 2 (map f xs).
Proof. induction 1 as [|x xs Hx F IH]; [reflexivity|]. rewrite arr_cons, le2. cbn [lanes16 app map]. cbn zeta. now rewrite arr_cons, le2, mk16_le, IH by auto. Qed.
Lemma lanes32_arr f xs : Forall (uint 4) xs -> lanes32 f (arr LE 4 xs) = arr LE 4 (map f xs).
Proof. induction 1 as [|x xs Hx F IH]; [reflexivity|]. rewrite arr_cons, le4. cbn [lanes32 app map]. cbn zeta. now rewrite arr_cons, le4, mk32_le, IH by auto. Qed.
Lemma eqf1_2 L f g : L = 16%nat \/ L = 32%nat -> (forall x, uint 2 x -> g x = f x) -> eqf1 L (lanes16 f) (on_lanes L 2 g).
Proof.
  intros HL E a Ba La. destruct (lanes_of 2 (L / 2) a Ba) as (xs & Lx & Fx & ->); [destruct HL; subst; rewrite La; reflexivity|].
  rewrite lanes16_arr by auto. symmetry. now apply on_lanes_arr.
Qed.
Lemma eqf1_4 L f g : L = 16%nat \/ L = 32%nat -> (forall x, uint 4 x -> g x = f x) -> eqf1 L (lanes32 f) (on_lanes L 4 g).
Proof.
  intros HL E a Ba La. destruct (lanes_of 4 (L / 4) a Ba) as (xs & Lx & Fx & ->); [destruct HL; subst; rewrite La; reflexivity|].
  rewrite lanes32_arr by auto. symmetry. now apply on_lanes_arr.
Qed.
Lemma bytes_lo a : bytes a -> bytes (lo128 a). Proof. apply bytes_firstn. Qed.
Lemma bytes_hi a : bytes a -> bytes (hi128 a). Proof. apply bytes_skipn. Qed.
Lemma len_lo a : length a = 32%nat -> length (lo128 a) = 16%nat. Proof. unfold lo128. rewrite firstn_length. lia. Qed.
Lemma len_hi a : length a = 32%nat -> length (hi128 a) = 16%nat. Proof. unfold hi128. rewrite skipn_length. lia. Qed.

(** a row computed by the equivalent instruction of Simd.v, at both widths *)
Ltac compute_rows tbl rws :=
  lazy [unified tbl rws run128 select on on_a64 matches_isa inherits id_of id_eqb is_pod_type existsb elem_eqb b8 b16 b32 b64 andb orb
        native1 native2 wide1 wide2 arm all3 vop1 vop2 obind arch_aarch64 arch_arm].
(** per-lane agreement with the spec functions of Simd.v *)
Lemma eqf2_ext L f f' g : eqf2 L f g -> eqf2 L f' g -> eqf2 L f f'.
Proof. intros H H' a b Ba La Bb Lb. rewrite H, H' by auto. reflexivity. Qed.
Ltac link16 H := apply f_equal; apply H; auto.
Ltac link32 H16 H32 :=
  apply f_equal; first [apply H32; solve [auto] | f_equal; apply H16; auto using bytes_lo, bytes_hi, len_lo, len_hi].

Ltac simd_defs :=
  unfold u8_add, u8_sub, u8_add_sat, u8_sub_sat, i8_add_sat, u8_eq, u8_lt, i8_lt, u8_max, u8_min, mask8, s8, clamp in *.
Lemma k_add8 L : eqf2 L (map2 u8_add) (vadd L 1).
Proof. apply eqf2_1. unfold u8_add, byte. intros; lia. Qed.
Lemma k_sub8 L : eqf2 L (map2 u8_sub) (vsub L 1).
Proof. apply eqf2_1. unfold u8_sub, byte. intros; lia. Qed.
Lemma k_eq8 L : eqf2 L (map2 u8_eq) (vceq L 1).
Proof. apply eqf2_1. unfold byte, u8_eq, mask8. intros x y. destruct (x =? y); lia. Qed.
Lemma k_lt8s L : eqf2 L (map2 i8_lt) (vclt_s L 1).
Proof. apply (eqf2_1 L i8_lt). unfold byte, i8_lt, mask8. intros x y. destruct (s8 x <? s8 y); lia. Qed.
Lemma k_lt8s' L : eqf2 L (map2 i8_lt) (fun a b => vcgt_s L 1 b a).
Proof.
  intros a b Ba La Bb Lb. unfold vcgt_s. rewrite <- (eqf2_1 L (fun x y => i8_lt y x)) by (auto; unfold byte, i8_lt, mask8; intros x y; destruct (s8 y <? s8 x); lia).
  clear. revert b. induction a; intros [|y b]; cbn [map2]; [reflexivity..|]. now rewrite IHa.
Qed.
Lemma k_qadd8s L : eqf2 L (map2 i8_add_sat) (vqadd_s L 1).
Proof. apply (eqf2_1 L i8_add_sat). unfold byte, i8_add_sat. intros; apply Z.mod_pos_bound; lia. Qed.
Lemma k_qadd8u L : eqf2 L (map2 u8_add_sat) (vqadd_u L 1).
Proof. apply (eqf2_1 L u8_add_sat). unfold byte, u8_add_sat. intros; lia. Qed.
Lemma k_qsub8u L : eqf2 L (map2 u8_sub_sat) (vqsub_u L 1).
Proof. apply (eqf2_1 L u8_sub_sat). unfold byte, u8_sub_sat. intros; lia. Qed.
Lemma max_if x y : Z.max x y = if x <? y then y else x. Proof. destruct (Z.ltb_spec x y); lia. Qed.
Lemma min_if x y : Z.min x y = if x <? y then x else y. Proof. destruct (Z.ltb_spec x y); lia. Qed.
Lemma k_max8 L : eqf2 L (map2 u8_max) (vmax_u L 1).
Proof.
  intros a b Ba La Bb Lb. unfold vmax_u. rewrite <- eqf2_1; auto; [|intros x y; unfold byte; destruct (x <? y); lia].
  apply map2_diag. intros. apply max_if.
Qed.
Lemma k_min8 L : eqf2 L (map2 u8_min) (vmin_u L 1).
Proof.
  intros a b Ba La Bb Lb. unfold vmin_u. rewrite <- eqf2_1; auto; [|intros x y; unfold byte; destruct (x <? y); lia].
  apply map2_diag. intros. apply min_if.
Qed.
Lemma lanes16_2_ext f g a b : (forall x y, f x y = g x y) -> lanes16_2 f a b = lanes16_2 g a b.
Proof.
  intro E. enough (G : forall n a b, (length a <= n)%nat -> lanes16_2 f a b = lanes16_2 g a b) by (apply (G (length a)); lia).
  clear a b. induction n as [|n IH]; intros [|x [|y a]] b L; try reflexivity; [cbn in L; lia|].
  destruct b as [|z [|w b]]; try reflexivity. cbn [lanes16_2]. cbn zeta. rewrite E, IH by (cbn in L; lia). reflexivity.
Qed.
Lemma lanes32_2_ext f g a b : (forall x y, f x y = g x y) -> lanes32_2 f a b = lanes32_2 g a b.
Proof.
  intro E. enough (G : forall n a b, (length a <= n)%nat -> lanes32_2 f a b = lanes32_2 g a b) by (apply (G (length a)); lia).
  clear a b. induction n as [|n IH]; intros [|x [|y [|z [|w a]]]] b L; try reflexivity; [cbn in L; lia|].
  destruct b as [|x' [|y' [|z' [|w' b]]]]; try reflexivity. cbn [lanes32_2]. cbn zeta. rewrite E, IH by (cbn in L; lia). reflexivity.
Qed.
Lemma k_max16 L : L = 16%nat \/ L = 32%nat -> eqf2 L (lanes16_2 u16_max) (vmax_u L 2).
Proof. intros HL a b Ba La Bb Lb. unfold vmax_u. rewrite <- eqf2_2 by auto. apply lanes16_2_ext. intros. apply max_if. Qed.
Lemma k_max32 L : L = 16%nat \/ L = 32%nat -> eqf2 L (lanes32_2 u32_max) (vmax_u L 4).
Proof. intros HL a b Ba La Bb Lb. unfold vmax_u. rewrite <- eqf2_4 by auto. apply lanes32_2_ext. intros. apply max_if. Qed.
Lemma k_add32 L : L = 16%nat \/ L = 32%nat -> eqf2 L (lanes32_2 u32_add) (vadd L 4).
Proof. intro HL. now apply (eqf2_4 L u32_add). Qed.
Lemma k_sub32 L : L = 16%nat \/ L = 32%nat -> eqf2 L (lanes32_2 u32_sub) (vsub L 4).
Proof. intro HL. now apply (eqf2_4 L u32_sub). Qed.
Lemma k_mul16 L : L = 16%nat \/ L = 32%nat -> eqf2 L (lanes16_2 u16_mul_lo) (vmul_lo L 2).
Proof. intro HL. now apply (eqf2_2 L u16_mul_lo). Qed.
Lemma k_mulhi16 L : L = 16%nat \/ L = 32%nat -> eqf2 L (lanes16_2 u16_mul_hi) (vmul_hi_u L 2).
Proof. intro HL. now apply (eqf2_2 L u16_mul_hi). Qed.
Lemma k_packed t w xs : (** a vector of unsigned lanes *)
  signed t = false -> lanes t (vlen w / esize t) xs -> vec t xs = arr LE (esize t) xs /\ Forall (uint (esize t)) xs.
Proof.
  intros S [L F]. split; [now apply vec_u|]. apply (Forall_impl _ (P := has_type t)); [|exact F]. clear -S. intros x H.
  destruct t; try discriminate S; unfold uint; consts; lia.
Qed.
Lemma arr1 xs : Forall (uint 1) xs -> arr LE 1 xs = xs.
Proof.
  induction 1 as [|x xs Hx F IH]; [reflexivity|]. rewrite arr_cons, IH. change (le_bytes 1 x) with [x mod 256]. cbn [app].
  unfold uint in Hx. change (256 ^ Z.of_nat 1) with 256 in Hx. now rewrite Z.mod_small.
Qed.
Lemma vec_lt t f xs ys : signed t = false -> (forall x y, f x y = truth t (x <? y)) ->
  arr LE (esize t) (map2 f xs ys) = vec t (map2 (fun x y => truth t (x <? y)) xs ys).
Proof.
  intros S E. unfold vec. f_equal. revert ys. induction xs as [|x xs IH]; intros [|y ys]; cbn [map2 map]; [reflexivity..|].
  rewrite IH, E. f_equal. symmetry. apply usg_bits; [exact S|apply truth_type].
Qed.

(** zips on arrays of lanes; [n] lanes per vector *)
Ltac elems l H := repeat (destruct l as [|? l]; [discriminate H|]); destruct l; [clear H|discriminate H].
Lemma zip_lo_arr s t us vs : length us = (16 / esize t)%nat -> length vs = (16 / esize t)%nat ->
  zip_lo (esize t) s (arr LE (esize t) us) (arr LE (esize t) vs) =
  match s with Fallback => None | _ => Some (arr LE (esize t) (zipped (firstn (8 / esize t) us) (firstn (8 / esize t) vs))) end.
Proof.
  intros Lu Lv.
  assert (U : unpack_lo (esize t) (arr LE (esize t) us) (arr LE (esize t) vs) = arr LE (esize t) (zipped (firstn (8 / esize t) us) (firstn (8 / esize t) vs))).
  { unfold unpack_lo. rewrite unpack_arr by (rewrite ?Lu, ?Lv; destruct t; cbn; lia). f_equal. destruct t; cbn in Lu, Lv; elems us Lu; elems vs Lv; reflexivity. }
  assert (W : wasm_shuffle (esize t) (zip_lo_idx (esize t)) (arr LE (esize t) us) (arr LE (esize t) vs) = arr LE (esize t) (zipped (firstn (8 / esize t) us) (firstn (8 / esize t) vs))).
  { rewrite shuffle_arr by (rewrite Lu, Lv; destruct t; cbn; repeat constructor; lia). f_equal. destruct t; cbn in Lu, Lv; elems us Lu; elems vs Lv; reflexivity. }
  assert (N : esize t = 8%nat -> lane_at 8 0 (arr LE 8 us) ++ lane_at 8 0 (arr LE 8 vs) = arr LE 8 (zipped (firstn 1 us) (firstn 1 vs))).
  { intro E. rewrite E in *. cbn in Lu, Lv. elems us Lu. elems vs Lv. rewrite !lane_at_arr by (cbn; lia). reflexivity. }
  unfold zip_lo. destruct s; lazy [matches_isa existsb inherits id_of id_eqb orb]; rewrite ?U, ?W; try reflexivity;
  destruct (Nat.eqb_spec (esize t) 8) as [E|E]; try reflexivity; rewrite E in *; now rewrite N.
Qed.
Lemma zip_hi_arr s t us vs : length us = (16 / esize t)%nat -> length vs = (16 / esize t)%nat ->
  zip_hi (esize t) s (arr LE (esize t) us) (arr LE (esize t) vs) =
  match s with Fallback => None | _ => Some (arr LE (esize t) (zipped (skipn (8 / esize t) us) (skipn (8 / esize t) vs))) end.
Proof.
  intros Lu Lv.
  assert (U : unpack_hi (esize t) (arr LE (esize t) us) (arr LE (esize t) vs) = arr LE (esize t) (zipped (skipn (8 / esize t) us) (skipn (8 / esize t) vs))).
  { unfold unpack_hi. rewrite unpack_arr by (rewrite ?Lu, ?Lv; destruct t; cbn; lia). f_equal. destruct t; cbn in Lu, Lv; elems us Lu; elems vs Lv; reflexivity. }
  assert (W : wasm_shuffle (esize t) (zip_hi_idx (esize t)) (arr LE (esize t) us) (arr LE (esize t) vs) = arr LE (esize t) (zipped (skipn (8 / esize t) us) (skipn (8 / esize t) vs))).
  { rewrite shuffle_arr by (rewrite Lu, Lv; destruct t; cbn; repeat constructor; lia). f_equal. destruct t; cbn in Lu, Lv; elems us Lu; elems vs Lv; reflexivity. }
  assert (N : esize t = 8%nat -> lane_at 8 1 (arr LE 8 us) ++ lane_at 8 1 (arr LE 8 vs) = arr LE 8 (zipped (skipn 1 us) (skipn 1 vs))).
  { intro E. rewrite E in *. cbn in Lu, Lv. elems us Lu. elems vs Lv. rewrite !lane_at_arr by (cbn; lia). reflexivity. }
  unfold zip_hi. destruct s; lazy [matches_isa existsb inherits id_of id_eqb orb]; rewrite ?U, ?W; try reflexivity;
  destruct (Nat.eqb_spec (esize t) 8) as [E|E]; try reflexivity; rewrite E in *; now rewrite N.
Qed.
Lemma map_zipped (f : Z -> Z) xs ys : map f (zipped xs ys) = zipped (map f xs) (map f ys).
Proof. revert ys. induction xs as [|x xs IH]; intros [|y ys]; cbn [zipped map]; [reflexivity..|]. now rewrite IH. Qed.
Lemma map_every (f : Z -> Z) xs : map f (every_other xs) = every_other (map f xs).
Proof.
  enough (G : forall n xs, (length xs <= n)%nat -> map f (every_other xs) = every_other (map f xs)) by (apply (G (length xs)); lia).
  clear xs. induction n as [|n IH]; intros [|x [|y xs]] L; try reflexivity; [cbn in L; lia|]. cbn [every_other map]. rewrite IH by (cbn in L; lia). reflexivity.
Qed.

(** ** Horizontal maximum and minimum *)
Lemma list_max_ge l : Forall (fun x => x <= list_max l) l.
Proof.
  induction l as [|x l IH]; constructor; cbn [list_max fold_right]; [lia|]. revert IH. apply Forall_impl. unfold list_max. intros; lia.
Qed.
Lemma list_min_le l : Forall (fun x => list_min l <= x) l.
Proof.
  induction l as [|x l IH]; constructor; cbn [list_min fold_right]; [lia|]. revert IH. apply Forall_impl. unfold list_min. intros; lia.
Qed.
Lemma list_max_in l : l <> [] -> Forall (fun x => 0 <= x) l -> In (list_max l) l.
Proof.
  intros N F. induction F as [|x l Hx F IH]; [now elim N|]. unfold list_max in *. cbn [fold_right]. destruct l as [|y l].
  - left. cbn [fold_right]. lia.
  - destruct (Z.max_spec x (fold_right Z.max 0 (y :: l))) as [[_ ->]|[_ ->]]; [right; now apply IH|now left].
Qed.
Lemma list_min_in l : l <> [] -> Forall (fun x => x <= 255) l -> In (list_min l) l.
Proof.
  intros N F. induction F as [|x l Hx F IH]; [now elim N|]. unfold list_min in *. cbn [fold_right]. destruct l as [|y l].
  - left. cbn [fold_right]. lia.
  - destruct (Z.min_spec x (fold_right Z.min 255 (y :: l))) as [[_ ->]|[_ ->]]; [now left|right; now apply IH].
Qed.
Lemma in_map2 (f : Z -> Z -> Z) a b z : (forall x y, f x y = x \/ f x y = y) -> In z (map2 f a b) -> In z (a ++ b).
Proof.
  intro H. revert b. induction a as [|x a IH]; intros [|y b]; cbn [map2]; [intros []..|].
  intros [<-|I]; rewrite in_app_iff.
  - destruct (H x y) as [->| ->]; [left; now left|right; now left].
  - specialize (IH _ I). rewrite in_app_iff in IH. destruct IH; [left; now right|right; now right].
Qed.
Lemma map2_bound (R : Z -> Prop) (f : Z -> Z -> Z) a b : length a = length b -> (forall x y, R (f x y) -> R x /\ R y) ->
  Forall R (map2 f a b) -> Forall R (a ++ b).
Proof.
  intros L H F. apply Forall_app. revert b L F. induction a as [|x a IH]; intros [|y b] L F; try discriminate L; [split; constructor|].
  cbn [map2] in F. inversion F as [|? ? F1 F2]; subst. destruct (H _ _ F1). destruct (IH b (eq_add_S _ _ L) F2). split; constructor; auto.
Qed.

(** ** Bit masks *)
Definition top_bit (a : list Z) (i : Z) : bool := match nth_error a (Z.to_nat i) with Some b => 128 <=? b | None => false end.
Lemma movemask_bits a i : 0 <= i -> Z.testbit (movemask a) i = top_bit a i.
Proof.
  revert i. induction a as [|x a IH]; intros i Hi.
  - cbn [movemask]. rewrite Z.testbit_0_l. unfold top_bit. destruct (Z.to_nat i); reflexivity.
  - cbn [movemask]. replace ((if 128 <=? x then 1 else 0) + 2 * movemask a) with (2 * movemask a + Z.b2z (128 <=? x)) by (destruct (128 <=? x); cbn [Z.b2z]; lia).
    destruct (Z.eq_dec i 0) as [->|N]; [rewrite Z.testbit_0_r; reflexivity|].
    replace i with (Z.succ (i - 1)) by lia. rewrite Z.testbit_succ_r, IH by lia. unfold top_bit.
    replace (Z.to_nat (Z.succ (i - 1))) with (S (Z.to_nat (i - 1))) by lia. reflexivity.
Qed.
Lemma nonneg_eq x y : (forall i, 0 <= i -> Z.testbit x i = Z.testbit y i) -> x = y.
Proof. intro H. apply Z.bits_inj'. exact H. Qed.
Lemma sim_bitmask_bits a n : bytes a -> forall k m, (k + n <= length a)%nat -> length a = 16%nat ->
  exists r, sim_bitmask_loop a (seq k n) m = Some r /\
  forall i, 0 <= i -> Z.testbit r i = Z.testbit m i || ((Z.of_nat k <=? i) && (i <? Z.of_nat (k + n)) && top_bit a i).
Proof.
  intro B. induction n as [|n IH]; intros k m H L.
  - exists m. split; [reflexivity|]. intros i Hi. replace (_ && (i <? Z.of_nat (k + 0))) with false by lia. now rewrite orb_false_r.
  - cbn [seq sim_bitmask_loop]. destruct (nth_error a k) as [x|] eqn:E; [|apply nth_error_None in E; lia]. cbn [obind].
    set (m1 := Z.lor m _). destruct (IH (S k) m1) as (r & Er & Hr); [lia|exact L|]. exists r. split; [exact Er|].
    intros i Hi. rewrite Hr by exact Hi. unfold m1. rewrite Z.lor_spec. 
    assert (Bx : byte x) by (eapply Forall_forall; [exact B|]; eapply nth_error_In; exact E). unfold byte in Bx.
    assert (D : x / 128 = Z.b2z (128 <=? x)) by (destruct (128 <=? x) eqn:?; cbn [Z.b2z]; lia).
    assert (P : Z.testbit ((x / 128 * 2 ^ Z.of_nat k) mod 65536) i = (i =? Z.of_nat k) && (128 <=? x)).
    { change 65536 with (2 ^ 16). destruct (Z.ltb_spec i 16).
      - rewrite Z.mod_pow2_bits_low by lia. rewrite Z.mul_pow2_bits by lia. rewrite D. destruct (Z.eqb_spec i (Z.of_nat k)) as [->|N].
        + rewrite Z.sub_diag. now rewrite Z.b2z_bit0.
        + destruct (Z.ltb_spec (i - Z.of_nat k) 0); [apply Z.testbit_neg_r; lia|]. destruct (128 <=? x); cbn [Z.b2z]; [apply Z.bits_above_log2; cbn; lia|apply Z.testbit_0_l].
      - rewrite Z.mod_pow2_bits_high by lia. replace (i =? Z.of_nat k) with false by lia. reflexivity. }
    rewrite P. destruct (Z.eqb_spec i (Z.of_nat k)) as [->|N].
    + unfold top_bit. rewrite Nat2Z.id, E. replace (Z.of_nat (S k) <=? Z.of_nat k) with false by lia.
      replace (Z.of_nat k <=? Z.of_nat k) with true by lia. replace (Z.of_nat k <? Z.of_nat (k + S n)) with true by lia.
      cbn [andb orb]. now rewrite orb_false_r.
    + cbn [andb]. rewrite orb_false_r. f_equal. f_equal. lia.
Qed.
