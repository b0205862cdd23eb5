(** Facts about the floating-point rows: the order by sign and magnitude is the order of the values. *)
From Coq Require Import ZArith List Bool Lia ZifyBool ZifyNat.
From Verif Require Import Bytes Mem MemFacts Isa Ints Simd SimdFacts PrimFacts Loops Base64DecFacts UnicodeSpec UnicodeFacts SwapFacts LaneFacts VsimdSpec Vsimd VsimdFacts FloatSpec Float.
Import ListNotations.
Open Scope Z_scope.

(** the value of a magnitude *)
Definition mval (M m : Z) : Z := if m / M =? 0 then m mod M else (M + m mod M) * 2 ^ (m / M - 1).

Lemma mval_mono M m n : 0 < M -> 0 <= m -> m < n -> mval M m < mval M n.
Proof.
  intros HM Hm Hmn. unfold mval.
  pose proof (Z.mod_pos_bound m M HM) as Bm. pose proof (Z.mod_pos_bound n M HM) as Bn.
  pose proof (Z.div_mod m M ltac:(lia)) as Em. pose proof (Z.div_mod n M ltac:(lia)) as En.
  assert (Dm : 0 <= m / M) by (apply Z.div_pos; lia).
  assert (Dn : m / M <= n / M) by (apply Z.div_le_mono; lia).
  set (a := m mod M) in *. set (b := n mod M) in *. set (e := m / M) in *. set (f := n / M) in *.
  destruct (Z.eq_dec e f) as [Eq|Ne].
  - assert (a < b) by (subst f; rewrite <- Eq in En; nia).
    rewrite <- Eq. destruct (e =? 0) eqn:E0; [lia|].
    apply Z.mul_lt_mono_pos_r; [apply Z.pow_pos_nonneg; lia|lia].
  - destruct (f =? 0) eqn:F0; [lia|]. destruct (e =? 0) eqn:E0.
    + assert (1 <= 2 ^ (f - 1)) by (change 1 with (2 ^ 0); apply Z.pow_le_mono_r; lia). nia.
    + assert (2 * 2 ^ (e - 1) <= 2 ^ (f - 1)).
      { rewrite <- Z.pow_succ_r by lia. apply Z.pow_le_mono_r; lia. }
      assert (0 < 2 ^ (e - 1)) by (apply Z.pow_pos_nonneg; lia). nia.
Qed.
Lemma mval_zero M : 0 < M -> mval M 0 = 0.
Proof. intro H. unfold mval. rewrite Z.div_0_l, Z.mod_0_l by lia. reflexivity. Qed.
Lemma mval_nonneg M m : 0 < M -> 0 <= m -> 0 <= mval M m.
Proof.
  intros HM Hm. rewrite <- (mval_zero M HM). destruct (Z.eq_dec m 0) as [->|]; [lia|]. apply Z.lt_le_incl, mval_mono; lia.
Qed.

Lemma half_card t : lane_card (fsize t) / 2 = exps t * 2 ^ mant t. Proof. destruct t; reflexivity. Qed.
Lemma mant_pos t : 0 < 2 ^ mant t. Proof. destruct t; reflexivity. Qed.
Lemma exps_pos t : 1 < exps t. Proof. destruct t; reflexivity. Qed.
Lemma pattern_uint t x : pattern t x <-> uint (fsize t) x.
Proof. unfold pattern, uint. replace (2 * exps t * 2 ^ mant t) with (256 ^ Z.of_nat (fsize t)) by (destruct t; reflexivity). reflexivity. Qed.

Lemma mag_range t x : 0 <= magnitude t x < exps t * 2 ^ mant t.
Proof. unfold magnitude. rewrite half_card. apply Z.mod_pos_bound. pose proof (mant_pos t). pose proof (exps_pos t). nia. Qed.
Lemma mag_fields t x : 0 <= x -> magnitude t x / 2 ^ mant t = exponent t x /\ magnitude t x mod 2 ^ mant t = mantissa t x.
Proof.
  intro H. unfold magnitude, exponent, mantissa. rewrite half_card. pose proof (mant_pos t). pose proof (exps_pos t).
  rewrite (Z.mul_comm (exps t)). rewrite Z.rem_mul_r by lia. set (M := 2 ^ mant t) in *.
  pose proof (Z.mod_pos_bound x M ltac:(lia)).
  rewrite (Z.mul_comm M). split.
  - rewrite Z.div_add by lia. rewrite Z.div_small by lia. lia.
  - rewrite Z.mod_add by lia. apply Z.mod_small. lia.
Qed.
Lemma value_mag t x : pattern t x -> value t x = if x <? lane_card (fsize t) / 2 then mval (2 ^ mant t) (magnitude t x) else - mval (2 ^ mant t) (magnitude t x).
Proof.
  intros [H _]. destruct (mag_fields t x H) as [E1 E2]. unfold value, mval, negative. rewrite E1, E2, half_card.
  destruct (exps t * 2 ^ mant t <=? x) eqn:A, (x <? exps t * 2 ^ mant t) eqn:B; try lia; reflexivity.
Qed.

Lemma nan_spec t x : pattern t x -> is_nan t x = true <-> nan t x.
Proof.
  intros [H _]. destruct (mag_fields t x H) as [E1 E2]. unfold is_nan, nan. rewrite <- E1, <- E2.
  pose proof (mag_range t x) as R. pose proof (mant_pos t) as HM. set (m := magnitude t x) in *.
  assert (EI : infinity t = (exps t - 1) * 2 ^ mant t) by (destruct t; reflexivity). rewrite EI.
  pose proof (Z.div_mod m (2 ^ mant t) ltac:(lia)) as Em. pose proof (Z.mod_pos_bound m (2 ^ mant t) HM) as Bm.
  set (M := 2 ^ mant t) in *. rewrite Z.ltb_lt. split.
  - intro L. assert (m / M = exps t - 1).
    { apply Z.le_antisymm; [apply Z.lt_succ_r; apply Z.div_lt_upper_bound; nia|apply Z.div_le_lower_bound; nia]. }
    split; [assumption|]. nia.
  - intros [A B]. rewrite A in Em. nia.
Qed.
Lemma nan_false t x : pattern t x -> ~ nan t x -> is_nan t x = false.
Proof. intros P N. destruct (is_nan t x) eqn:E; [|reflexivity]. elim N. now apply nan_spec. Qed.
Lemma zero_spec t x : pattern t x -> zero t x <-> magnitude t x = 0.
Proof.
  intros [H _]. destruct (mag_fields t x H) as [E1 E2]. unfold zero. rewrite <- E1, <- E2. pose proof (mant_pos t). pose proof (mag_range t x) as R.
  split; [intros [A B]; rewrite (Z.div_mod (magnitude t x) (2 ^ mant t)) by lia; rewrite A, B; lia|].
  intros ->. now rewrite Z.div_0_l, Z.mod_0_l by lia.
Qed.

(** sign and magnitude order the patterns as their values do *)
Lemma key_value t x y : pattern t x -> pattern t y -> (key t x < key t y <-> value t x < value t y).
Proof.
  intros Px Py. rewrite !value_mag by assumption. unfold key.
  pose proof (mag_range t x) as [Rx _]. pose proof (mag_range t y) as [Ry _]. pose proof (mant_pos t) as HM.
  set (M := 2 ^ mant t) in *. set (m := magnitude t x) in *. set (n := magnitude t y) in *.
  pose proof (mval_mono M m n HM Rx) as A. pose proof (mval_mono M n m HM Ry) as B.
  pose proof (mval_nonneg M m HM Rx) as Zm. pose proof (mval_nonneg M n HM Ry) as Zn.
  assert (E : m = n -> mval M m = mval M n) by (intros ->; reflexivity).
  assert (Pm : 0 < m -> 0 < mval M m) by (intro; rewrite <- (mval_zero M HM); apply mval_mono; lia).
  assert (Pn : 0 < n -> 0 < mval M n) by (intro; rewrite <- (mval_zero M HM); apply mval_mono; lia).
  assert (Om : m = 0 -> mval M m = 0) by (intros ->; now apply mval_zero).
  assert (On : n = 0 -> mval M n = 0) by (intros ->; now apply mval_zero).
  destruct (x <? _), (y <? _); lia.
Qed.
Lemma key_inj t x y : pattern t x -> pattern t y -> ~ (zero t x /\ zero t y) -> key t x = key t y -> x = y.
Proof.
  intros Px Py N E. unfold key in E. pose proof (mag_range t x) as [Rx _]. pose proof (mag_range t y) as [Ry _].
  assert (D : forall z, pattern t z -> z = magnitude t z + if z <? lane_card (fsize t) / 2 then 0 else lane_card (fsize t) / 2).
  { intros z [Hz Hz']. unfold magnitude. rewrite half_card. pose proof (mant_pos t). pose proof (exps_pos t).
    set (HH := exps t * 2 ^ mant t) in *. assert (0 < HH) by (unfold HH; nia). destruct (z <? HH) eqn:A.
    - rewrite Z.mod_small; lia.
    - rewrite <- (Z.mod_unique z HH 1 (z - HH)); lia. }
  rewrite !zero_spec in N by assumption.
  rewrite (D x Px), (D y Py). destruct (x <? _), (y <? _); lia.
Qed.
Lemma value_inj t x y : pattern t x -> pattern t y -> ~ (zero t x /\ zero t y) -> value t x = value t y -> x = y.
Proof.
  intros Px Py N E. apply (key_inj t); auto. pose proof (key_value t x y Px Py). pose proof (key_value t y x Py Px). lia.
Qed.

Lemma flt_value t a b : pattern t a -> pattern t b -> ~ nan t a -> ~ nan t b -> flt t a b = (value t a <? value t b).
Proof.
  intros Pa Pb Na Nb. unfold flt. rewrite (nan_false t a), (nan_false t b) by assumption. cbn [negb andb].
  pose proof (key_value t a b Pa Pb). destruct (key t a <? key t b) eqn:A, (value t a <? value t b) eqn:B; lia.
Qed.
Lemma flt_nan t a b : pattern t a -> pattern t b -> nan t a \/ nan t b -> flt t a b = false.
Proof.
  intros Pa Pb N. unfold flt. destruct N as [N|N]; apply nan_spec in N; auto; rewrite N; cbn [negb andb]; [reflexivity|apply andb_false_intro1, andb_false_r].
Qed.

Lemma flush_id t x : pattern t x -> ~ subnormal t x -> flush t x = x.
Proof.
  intros P N. pose proof P as [H _]. destruct (mag_fields t x H) as [E1 E2]. unfold subnormal in N. rewrite <- E1, <- E2 in N.
  unfold flush. pose proof (mag_range t x) as [R _]. destruct (_ <? _) eqn:L; [|reflexivity].
  rewrite Z.div_small, Z.mod_small in N by lia. lia.
Qed.

(** ** the selected instruction, lane by lane *)
Definition max_lane (pick : Z -> Z -> Z) (s : isa) (t : felem) (a b : Z) : Z :=
  match s with
  | NEON64 | WASM128 => ieee_max t pick a b
  | NEON32 => ieee_max t pick (flush t a) (flush t b)
  | _ => if flt t b a then a else b
  end.
Definition min_lane (pick : Z -> Z -> Z) (s : isa) (t : felem) (a b : Z) : Z :=
  match s with
  | NEON64 | WASM128 => ieee_min t pick a b
  | NEON32 => ieee_min t pick (flush t a) (flush t b)
  | _ => if flt t a b then a else b
  end.
Definition fsupport (s : isa) (t : felem) : bool :=
  match s, t with Fallback, _ => false | (NEON32 | NEON64 | WASM128), F64 => false | _, _ => true end.
Definition fvec (t : felem) (xs : list Z) : list Z := arr LE (fsize t) xs.
Definition flanes (t : felem) (n : nat) (xs : list Z) : Prop := length xs = n /\ Forall (pattern t) xs.
Definition fcount (w : width) (t : felem) : nat := (vlen w / fsize t)%nat.

Definition fgood t (F : Z -> Z -> Z) (L : nat) (ins : binop) : Prop :=
  forall xs ys, flanes t (L / fsize t) xs -> flanes t (L / fsize t) ys -> ins (fvec t xs) (fvec t ys) = fvec t (map2 F xs ys).
Lemma fgood_lanes t F L : fgood t F L (on_lanes2 L (fsize t) F).
Proof.
  intros xs ys [Lx Fx] [Ly Fy]. unfold on_lanes2, fvec. rewrite <- Lx. apply each_lane2_arr; [congruence| |];
  (eapply Forall_impl; [|eassumption]); intros; now apply pattern_uint.
Qed.
Lemma fvec_app t xs ys : fvec t (xs ++ ys) = fvec t xs ++ fvec t ys.
Proof. unfold fvec, arr. apply flat_map_app. Qed.
Lemma fvec_len t xs : length (fvec t xs) = (fsize t * length xs)%nat.
Proof. unfold fvec. induction xs as [|x xs IH]; [cbn; lia|]. rewrite arr_cons, app_length, le_bytes_len, IH. cbn [length]. lia. Qed.
Lemma fsplit t xs : flanes t (32 / fsize t) xs -> exists a b, xs = a ++ b /\ flanes t (16 / fsize t) a /\ flanes t (16 / fsize t) b /\
  lo128 (fvec t xs) = fvec t a /\ hi128 (fvec t xs) = fvec t b.
Proof.
  intros [L F]. destruct (split_at xs (16 / fsize t)) as (a & b & -> & La); [rewrite L; destruct t; cbn; lia|].
  apply Forall_app in F as [Fa Fb]. rewrite app_length in L.
  assert (Lb : length b = (16 / fsize t)%nat) by (destruct t; cbn in *; lia).
  exists a, b. rewrite fvec_app. unfold lo128, hi128. rewrite firstn_app_exact, skipn_app_exact by (rewrite fvec_len, La; destruct t; reflexivity).
  repeat split; auto.
Qed.
Definition fnative (w : width) (s : isa) (t : felem) (avx2 rows : list frow) : bool :=
  match w with W128 => is_some (fselect s t rows) | W256 => is_some (fselect s t avx2) || is_some (fselect s t rows) end.
Lemma funified_ok avx2 rows w s t F :
  (forall ins, fselect s t avx2 = Some ins -> fgood t F 32 ins) ->
  (forall ins, fselect s t rows = Some ins -> fgood t F 16 ins) ->
  forall xs ys, flanes t (fcount w t) xs -> flanes t (fcount w t) ys ->
  funified avx2 rows w s t (fvec t xs) (fvec t ys) = if fnative w s t avx2 rows then Some (fvec t (map2 F xs ys)) else None.
Proof.
  intros H1 H2 xs ys Hx Hy. unfold fcount in *. destruct w; cbn [vlen] in *.
  - unfold funified, fnative, frun128. destruct (fselect s t rows) as [ins|]; cbn [is_some]; [|reflexivity]. f_equal. now apply H2.
  - unfold funified, fnative. destruct (fselect s t avx2) as [ins|]; cbn [is_some orb]; [f_equal; now apply H1|].
    destruct (fsplit t xs Hx) as (a & b & -> & La & Lb & Ea & Eb). destruct (fsplit t ys Hy) as (c & d & -> & Lc & Ld & Ec & Ed).
    unfold vop2, frun128. rewrite Ea, Eb, Ec, Ed. destruct (fselect s t rows) as [ins|]; cbn [is_some obind]; [|reflexivity].
    rewrite !(H2 _ eq_refl) by auto. rewrite map2_app2 by (destruct La, Lc; congruence). now rewrite fvec_app.
Qed.
Ltac frows E := lazy [fselect fmax_avx2 fmax_rows fmin_avx2 fmin_rows on on_a64 on_a32 arch_aarch64 matches_isa existsb inherits id_of id_eqb
  felem_eqb andb orb negb] in E.
Lemma f_max_ok pick w s t xs ys : flanes t (fcount w t) xs -> flanes t (fcount w t) ys ->
  f_max pick w s t (fvec t xs) (fvec t ys) = if fsupport s t then Some (fvec t (map2 (max_lane pick s t) xs ys)) else None.
Proof.
  intros Hx Hy. unfold f_max. rewrite (funified_ok _ _ w s t (max_lane pick s t)); [destruct w, s, t; reflexivity| | |exact Hx|exact Hy];
  intros ins E; destruct s, t; frows E; try discriminate E; injection E as <-; exact (fgood_lanes _ _ _).
Qed.
Lemma f_min_ok pick w s t xs ys : flanes t (fcount w t) xs -> flanes t (fcount w t) ys ->
  f_min pick w s t (fvec t xs) (fvec t ys) = if fsupport s t then Some (fvec t (map2 (min_lane pick s t) xs ys)) else None.
Proof.
  intros Hx Hy. unfold f_min. rewrite (funified_ok _ _ w s t (min_lane pick s t)); [destruct w, s, t; reflexivity| | |exact Hx|exact Hy];
  intros ins E; destruct s, t; frows E; try discriminate E; injection E as <-; exact (fgood_lanes _ _ _).
Qed.

Lemma map2_nth {A B C} (f : A -> B -> C) xs ys i a b : nth_error xs i = Some a -> nth_error ys i = Some b -> nth_error (map2 f xs ys) i = Some (f a b).
Proof.
  revert ys i. induction xs as [|x xs IH]; intros [|y ys] [|i] Ha Hb; try discriminate; cbn in *; [congruence|]. now apply IH.
Qed.
Lemma map2_len {A B C} (f : A -> B -> C) xs ys : length ys = length xs -> length (map2 f xs ys) = length xs.
Proof. revert ys. induction xs as [|x xs IH]; intros [|y ys] L; try discriminate; cbn in *; [reflexivity|]. f_equal. apply IH. lia. Qed.
Lemma flanes_nth t n xs i a : flanes t n xs -> nth_error xs i = Some a -> pattern t a.
Proof. intros [_ F] E. exact (proj1 (Forall_forall _ _) F a (nth_error_In _ _ E)). Qed.

Section lanes.
  Variables (pick : Z -> Z -> Z) (t : felem).
  Lemma ieee_max_greater a b : pattern t a -> pattern t b -> ~ nan t a -> ~ nan t b -> greater t a b (ieee_max t pick a b).
  Proof.
    intros Pa Pb Na Nb. unfold ieee_max, greater. rewrite !nan_false by assumption. cbn [orb].
    pose proof (key_value t a b Pa Pb) as K1. pose proof (key_value t b a Pb Pa) as K2.
    destruct (key t a <? key t b) eqn:A; [split; [now right|lia]|]. destruct (key t b <? key t a) eqn:B; [split; [now left|lia]|].
    destruct (Z.min_spec a b) as [[_ ->]|[_ ->]]; (split; [tauto|lia]).
  Qed.
  Lemma ieee_min_smaller a b : pattern t a -> pattern t b -> ~ nan t a -> ~ nan t b -> smaller t a b (ieee_min t pick a b).
  Proof.
    intros Pa Pb Na Nb. unfold ieee_min, smaller. rewrite !nan_false by assumption. cbn [orb].
    pose proof (key_value t a b Pa Pb) as K1. pose proof (key_value t b a Pb Pa) as K2.
    destruct (key t a <? key t b) eqn:A; [split; [now left|lia]|]. destruct (key t b <? key t a) eqn:B; [split; [now right|lia]|].
    destruct (Z.max_spec a b) as [[_ ->]|[_ ->]]; (split; [tauto|lia]).
  Qed.
  Lemma max_lane_greater s a b : pattern t a -> pattern t b -> ~ nan t a -> ~ nan t b ->
    (s = NEON32 -> ~ subnormal t a /\ ~ subnormal t b) -> greater t a b (max_lane pick s t a b).
  Proof.
    intros Pa Pb Na Nb Hs. assert (X : greater t a b (if flt t b a then a else b)).
    { rewrite flt_value by assumption. destruct (value t b <? value t a) eqn:E; (split; [tauto|lia]). }
    destruct s; cbn [max_lane]; auto using ieee_max_greater.
    destruct (Hs eq_refl). rewrite !flush_id by assumption. now apply ieee_max_greater.
  Qed.
  Lemma min_lane_smaller s a b : pattern t a -> pattern t b -> ~ nan t a -> ~ nan t b ->
    (s = NEON32 -> ~ subnormal t a /\ ~ subnormal t b) -> smaller t a b (min_lane pick s t a b).
  Proof.
    intros Pa Pb Na Nb Hs. assert (X : smaller t a b (if flt t a b then a else b)).
    { rewrite flt_value by assumption. destruct (value t a <? value t b) eqn:E; (split; [tauto|lia]). }
    destruct s; cbn [min_lane]; auto using ieee_min_smaller.
    destruct (Hs eq_refl). rewrite !flush_id by assumption. now apply ieee_min_smaller.
  Qed.
End lanes.

Lemma greater_unique t a b c d : pattern t a -> pattern t b -> ~ (zero t a /\ zero t b) -> greater t a b c -> greater t a b d -> c = d.
Proof.
  intros Pa Pb N ([->| ->] & A & B) ([->| ->] & C & D); try reflexivity; [|symmetry]; apply (value_inj t); auto; lia.
Qed.
Lemma smaller_unique t a b c d : pattern t a -> pattern t b -> ~ (zero t a /\ zero t b) -> smaller t a b c -> smaller t a b d -> c = d.
Proof.
  intros Pa Pb N ([->| ->] & A & B) ([->| ->] & C & D); try reflexivity; [|symmetry]; apply (value_inj t); auto; lia.
Qed.
