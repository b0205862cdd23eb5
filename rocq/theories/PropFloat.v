(** Property theorems for the floating-point rows of [max] and [min] of vsimd: C71.
    [fvec t xs] are the 16 or 32 bytes of a vector of lanes with the bit patterns [xs]. [pick] is the NaN that NEON and wasm
    give for NaN operands. *)
From Coq Require Import ZArith List Bool Lia ZifyBool ZifyNat.
From Verif Require Import Bytes Isa Ints Simd UnicodeSpec VsimdSpec Vsimd FloatSpec Float FloatFacts.
Import ListNotations.
Open Scope Z_scope.
Ltac Zify.zify_post_hook ::= Z.div_mod_to_equations.

(** f32 on every instruction set but the fallback, f64 on x86 only: elsewhere [unreachable!()] *)
Definition has_float (s : isa) (t : felem) : Prop :=
  match t with
  | F32 => s <> Fallback
  | F64 => s = SSE2 \/ s = SSSE3 \/ s = SSE41 \/ s = AVX2
  end.
Lemma has_float_support s t : has_float s t <-> fsupport s t = true.
Proof. destruct s, t; cbn; (split; intro H; try reflexivity; try discriminate; try (elim H; reflexivity); intuition discriminate). Qed.

Theorem C71_support : forall pick w s t xs ys, flanes t (fcount w t) xs -> flanes t (fcount w t) ys ->
  (f_max pick w s t (fvec t xs) (fvec t ys) <> None <-> has_float s t) /\
  (f_min pick w s t (fvec t xs) (fvec t ys) <> None <-> has_float s t).
Proof.
  intros pick w s t xs ys Hx Hy. rewrite has_float_support, f_max_ok, f_min_ok by assumption.
  destruct (fsupport s t); (split; split; intro H; congruence).
Qed.
Print Assumptions C71_support.

(** No lane is a NaN; the NEON unit of AArch32 flushes subnormal numbers, so there they are excluded. *)
Definition plain (s : isa) (t : felem) (a b : Z) : Prop :=
  ~ nan t a /\ ~ nan t b /\ (s = NEON32 -> ~ subnormal t a /\ ~ subnormal t b).

(** each lane of the result is the greater of the two lanes *)
Theorem C71_max : forall pick w s t xs ys, flanes t (fcount w t) xs -> flanes t (fcount w t) ys -> has_float s t ->
  exists zs, f_max pick w s t (fvec t xs) (fvec t ys) = Some (fvec t zs) /\ length zs = fcount w t /\
    forall i a b, nth_error xs i = Some a -> nth_error ys i = Some b -> plain s t a b ->
      exists c, nth_error zs i = Some c /\ greater t a b c.
Proof.
  intros pick w s t xs ys Hx Hy Hs. exists (map2 (max_lane pick s t) xs ys). split.
  { rewrite f_max_ok by assumption. apply has_float_support in Hs. now rewrite Hs. }
  split; [rewrite map2_len; [apply Hx|destruct Hx, Hy; congruence]|].
  intros i a b Ea Eb (Na & Nb & Hn). exists (max_lane pick s t a b). split; [now apply map2_nth|].
  apply max_lane_greater; [exact (flanes_nth _ _ _ _ _ Hx Ea)|exact (flanes_nth _ _ _ _ _ Hy Eb)|assumption..].
Qed.
Print Assumptions C71_max.

Theorem C71_min : forall pick w s t xs ys, flanes t (fcount w t) xs -> flanes t (fcount w t) ys -> has_float s t ->
  exists zs, f_min pick w s t (fvec t xs) (fvec t ys) = Some (fvec t zs) /\ length zs = fcount w t /\
    forall i a b, nth_error xs i = Some a -> nth_error ys i = Some b -> plain s t a b ->
      exists c, nth_error zs i = Some c /\ smaller t a b c.
Proof.
  intros pick w s t xs ys Hx Hy Hs. exists (map2 (min_lane pick s t) xs ys). split.
  { rewrite f_min_ok by assumption. apply has_float_support in Hs. now rewrite Hs. }
  split; [rewrite map2_len; [apply Hx|destruct Hx, Hy; congruence]|].
  intros i a b Ea Eb (Na & Nb & Hn). exists (min_lane pick s t a b). split; [now apply map2_nth|].
  apply min_lane_smaller; [exact (flanes_nth _ _ _ _ _ Hx Ea)|exact (flanes_nth _ _ _ _ _ Hy Eb)|assumption..].
Qed.
Print Assumptions C71_min.

(** 1.0, -2.0, infinity, 1.5 against 1.5, -1.0, the least subnormal number, -infinity *)
Definition f_xs := [1065353216; 3221225472; 2139095040; 1069547520].
Definition f_ys := [1069547520; 3212836864; 1; 4286578688].
Definition no_pick (a b : Z) : Z := 2143289344 (* 0x7fc0_0000 *).
Ltac f_lanes := split; [reflexivity|]; repeat (constructor; [unfold pattern; cbn; lia|]); constructor.
Ltac f_not := let A := fresh in let B := fresh in intros [A B]; first [discriminate A | discriminate B | now apply B | destruct A; discriminate | destruct B; discriminate].
Ltac f_plain := split; [f_not|split; [f_not|intro; try discriminate; split; f_not]].
Example C71_lanes_ex : flanes F32 (fcount W128 F32) f_xs /\ flanes F32 (fcount W128 F32) f_ys.
Proof. split; f_lanes. Qed.
Example C71_max_ex : f_max no_pick W128 SSE2 F32 (fvec F32 f_xs) (fvec F32 f_ys) = Some (fvec F32 [1069547520; 3212836864; 2139095040; 1069547520]).
Proof. vm_compute. reflexivity. Qed.
Example C71_min_ex : f_min no_pick W128 NEON64 F32 (fvec F32 f_xs) (fvec F32 f_ys) = Some (fvec F32 [1065353216; 3221225472; 1; 4286578688]).
Proof. vm_compute. reflexivity. Qed.
(** 1.0, -1.0 against -2.0, 0.0 *)
Example C71_f64_ex : f_max no_pick W128 AVX2 F64 (fvec F64 [4607182418800017408; 13830554455654793216]) (fvec F64 [13835058055282163712; 0]) =
  Some (fvec F64 [4607182418800017408; 0]).
Proof. vm_compute. reflexivity. Qed.
Example C71_f64_none : f_max no_pick W256 NEON64 F64 (fvec F64 [1; 2; 3; 4]) (fvec F64 [4; 3; 2; 1]) = None.
Proof. vm_compute. reflexivity. Qed.
Example C71_plain_ex : Forall (fun p => plain NEON64 F32 (fst p) (snd p)) (combine f_xs f_ys) /\ plain NEON32 F32 1065353216 1069547520.
Proof. split; [repeat (constructor; [f_plain|]); constructor|f_plain]. Qed.

(** The bits of the result do not depend on the instruction set if moreover no two zeros meet. *)
Theorem C71_same_everywhere : forall pick1 pick2 w s1 s2 t xs ys,
  flanes t (fcount w t) xs -> flanes t (fcount w t) ys -> has_float s1 t -> has_float s2 t ->
  (forall i a b, nth_error xs i = Some a -> nth_error ys i = Some b ->
     plain s1 t a b /\ plain s2 t a b /\ ~ (zero t a /\ zero t b)) ->
  f_max pick1 w s1 t (fvec t xs) (fvec t ys) = f_max pick2 w s2 t (fvec t xs) (fvec t ys) /\
  f_min pick1 w s1 t (fvec t xs) (fvec t ys) = f_min pick2 w s2 t (fvec t xs) (fvec t ys).
Proof.
  intros pick1 pick2 w s1 s2 t xs ys Hx Hy H1 H2 P. apply has_float_support in H1, H2.
  rewrite !f_max_ok, !f_min_ok, H1, H2 by assumption.
  destruct Hx as [Lx Fx], Hy as [Ly Fy]. rewrite <- Lx in Ly. clear Lx H1 H2.
  assert (E : map2 (max_lane pick1 s1 t) xs ys = map2 (max_lane pick2 s2 t) xs ys /\ map2 (min_lane pick1 s1 t) xs ys = map2 (min_lane pick2 s2 t) xs ys).
  { revert ys Fy Ly P. induction Fx as [|a xs Pa Fx IH]; intros ys Fy Ly P; destruct Fy as [|b ys Pb Fy]; try discriminate; [now split|].
    cbn [map2]. destruct (IH ys Fy) as [A B]; [cbn in Ly; lia|intros i; exact (P (S i))|]. rewrite A, B.
    destruct (P 0%nat a b eq_refl eq_refl) as ((Na & Nb & S1) & (_ & _ & S2) & Z).
    rewrite (greater_unique t a b (max_lane pick1 s1 t a b) (max_lane pick2 s2 t a b)) by auto using max_lane_greater.
    rewrite (smaller_unique t a b (min_lane pick1 s1 t a b) (min_lane pick2 s2 t a b)) by auto using min_lane_smaller. now split. }
  destruct E as [-> ->]. now split.
Qed.
Print Assumptions C71_same_everywhere.
Example C71_same_ex : forall i a b, nth_error f_xs i = Some a -> nth_error f_ys i = Some b ->
  plain SSE2 F32 a b /\ plain WASM128 F32 a b /\ ~ (zero F32 a /\ zero F32 b).
Proof.
  intros i a b Ha Hb. do 4 (destruct i as [|i]; [injection Ha as <-; injection Hb as <-; split; [f_plain|split; [f_plain|f_not]]|]).
  now destruct i.
Qed.

(** On x86 the second operand is the result if a lane is a NaN or both are zeros: neither is symmetric. *)
Definition is_x86 (s : isa) : Prop := s = SSE2 \/ s = SSSE3 \/ s = SSE41 \/ s = AVX2.
Theorem C71_x86_second : forall pick w s t xs ys, flanes t (fcount w t) xs -> flanes t (fcount w t) ys -> is_x86 s ->
  (forall i a b, nth_error xs i = Some a -> nth_error ys i = Some b -> nan t a \/ nan t b \/ (zero t a /\ zero t b)) ->
  f_max pick w s t (fvec t xs) (fvec t ys) = Some (fvec t ys) /\ f_min pick w s t (fvec t xs) (fvec t ys) = Some (fvec t ys).
Proof.
  intros pick w s t xs ys Hx Hy Hs P. rewrite !f_max_ok, !f_min_ok by assumption.
  replace (fsupport s t) with true by (destruct Hs as [->|[->|[->| ->]]], t; reflexivity).
  destruct Hx as [Lx Fx], Hy as [Ly Fy]. rewrite <- Lx in Ly. clear Lx.
  assert (F : forall a b, pattern t a -> pattern t b -> nan t a \/ nan t b \/ (zero t a /\ zero t b) -> flt t a b = false /\ flt t b a = false).
  { intros a b Pa Pb [N|[N|[A B]]]; [split; apply flt_nan; auto..|]. rewrite zero_spec in A, B by assumption.
    unfold flt, key. rewrite A, B. split; (destruct (a <? _), (b <? _); apply andb_false_r). }
  assert (E : map2 (max_lane pick s t) xs ys = ys /\ map2 (min_lane pick s t) xs ys = ys).
  { revert ys Fy Ly P. induction Fx as [|a xs Pa Fx IH]; intros ys Fy Ly P; destruct Fy as [|b ys Pb Fy]; try discriminate; [now split|].
    cbn [map2]. destruct (IH ys Fy) as [A B]; [cbn in Ly; lia|intros i; exact (P (S i))|]. rewrite A, B.
    destruct (F a b Pa Pb (P 0%nat a b eq_refl eq_refl)) as [F1 F2].
    destruct Hs as [->|[->|[->| ->]]]; cbn [max_lane min_lane]; rewrite F1, F2; now split. }
  destruct E as [-> ->]. now split.
Qed.
Print Assumptions C71_x86_second.
Example C71_x86_ex : forall i a b, nth_error [2143289344; 1065353216; 0; 2147483648] i = Some a -> nth_error [1065353216; 2143289344; 2147483648; 0] i = Some b ->
  nan F32 a \/ nan F32 b \/ (zero F32 a /\ zero F32 b).
Proof.
  intros i a b Ha Hb. destruct i as [|[|[|[|i]]]]; [..|now destruct i]; injection Ha as <-; injection Hb as <-;
  [left; now split|right; left; now split|right; right; now repeat split..].
Qed.

(** NEON and wasm give a NaN exactly for a NaN, and take -0 as smaller than +0. *)
Definition nan_propagates (s : isa) : Prop := s = NEON64 \/ s = WASM128.
Theorem C71_nan : forall pick w s xs ys, (forall a b, pattern F32 (pick a b) /\ nan F32 (pick a b)) ->
  flanes F32 (fcount w F32) xs -> flanes F32 (fcount w F32) ys -> nan_propagates s ->
  exists zs zs', f_max pick w s F32 (fvec F32 xs) (fvec F32 ys) = Some (fvec F32 zs) /\
    f_min pick w s F32 (fvec F32 xs) (fvec F32 ys) = Some (fvec F32 zs') /\
    forall i a b, nth_error xs i = Some a -> nth_error ys i = Some b ->
      exists c c', nth_error zs i = Some c /\ nth_error zs' i = Some c' /\
        (nan F32 c <-> nan F32 a \/ nan F32 b) /\ (nan F32 c' <-> nan F32 a \/ nan F32 b) /\
        (zero F32 a -> zero F32 b -> negative F32 c = negative F32 a && negative F32 b /\ negative F32 c' = negative F32 a || negative F32 b).
Proof.
  intros pick w s xs ys HN Hx Hy Hs. exists (map2 (ieee_max F32 pick) xs ys), (map2 (ieee_min F32 pick) xs ys).
  split; [rewrite f_max_ok by assumption; destruct Hs as [-> | ->]; reflexivity|].
  split; [rewrite f_min_ok by assumption; destruct Hs as [-> | ->]; reflexivity|].
  intros i a b Ea Eb. exists (ieee_max F32 pick a b), (ieee_min F32 pick a b). split; [now apply map2_nth|]. split; [now apply map2_nth|].
  assert (Pa : pattern F32 a) by exact (flanes_nth _ _ _ _ _ Hx Ea). assert (Pb : pattern F32 b) by exact (flanes_nth _ _ _ _ _ Hy Eb).
  assert (T : forall x, nan F32 x \/ ~ nan F32 x).
  { intro x. unfold nan. destruct (Z.eq_dec (exponent F32 x) (exps F32 - 1)), (Z.eq_dec (mantissa F32 x) 0); tauto. }
  assert (Q : nan F32 a \/ nan F32 b -> ieee_max F32 pick a b = pick a b /\ ieee_min F32 pick a b = pick a b).
  { intros N. unfold ieee_max, ieee_min. replace (is_nan F32 a || is_nan F32 b) with true; [now split|]. symmetry. apply orb_true_iff.
    destruct N as [N|N]; [left|right]; now apply nan_spec. }
  assert (R : ~ (nan F32 a \/ nan F32 b) -> ~ nan F32 (ieee_max F32 pick a b) /\ ~ nan F32 (ieee_min F32 pick a b)).
  { intros N. assert (Na : ~ nan F32 a) by tauto. assert (Nb : ~ nan F32 b) by tauto.
    destruct (ieee_max_greater pick F32 a b Pa Pb Na Nb) as [[-> | ->] _], (ieee_min_smaller pick F32 a b Pa Pb Na Nb) as [[-> | ->] _]; tauto. }
  split; [|split].
  - split; [intro N; destruct (T a), (T b); try tauto; elim (proj1 (R ltac:(tauto))); exact N|]. intro N. rewrite (proj1 (Q N)). apply HN.
  - split; [intro N; destruct (T a), (T b); try tauto; elim (proj2 (R ltac:(tauto))); exact N|]. intro N. rewrite (proj2 (Q N)). apply HN.
  - intros Za Zb. assert (Na : ~ nan F32 a) by (intros [A B]; destruct Za as [Z1 Z2]; now apply B).
    assert (Nb : ~ nan F32 b) by (intros [A B]; destruct Zb as [Z1 Z2]; now apply B).
    rewrite zero_spec in Za, Zb by assumption. unfold ieee_max, ieee_min. rewrite !nan_false by assumption. cbn [orb].
    unfold key. rewrite Za, Zb. unfold negative. set (h := exps F32 * 2 ^ mant F32).
    destruct (a <? _), (b <? _); cbn [Z.opp Z.ltb Z.compare]; lia.
Qed.
Print Assumptions C71_nan.
Example C71_nan_ex : (forall a b, pattern F32 (no_pick a b) /\ nan F32 (no_pick a b)) /\
  f_max no_pick W128 WASM128 F32 (fvec F32 [0; 2147483648; 1065353216; 2143289345]) (fvec F32 [2147483648; 2147483648; 2143289345; 0]) =
  Some (fvec F32 [0; 2147483648; 2143289344; 2143289344]).
Proof. split; [intros a b; split; [unfold pattern, no_pick; cbn; lia|now split]|vm_compute; reflexivity]. Qed.

(** So the instruction sets differ on NaNs, whatever NaN is picked, and on zeros. *)
Theorem C71_nan_refuted : exists xs ys, flanes F32 (fcount W128 F32) xs /\ flanes F32 (fcount W128 F32) ys /\
  forall pick s1 s2, (forall a b, pattern F32 (pick a b) /\ nan F32 (pick a b)) -> is_x86 s1 -> nan_propagates s2 ->
  f_max pick W128 s1 F32 (fvec F32 xs) (fvec F32 ys) <> f_max pick W128 s2 F32 (fvec F32 xs) (fvec F32 ys).
Proof.
  set (xs := [2143289344; 2143289344; 2143289344; 2143289344]). set (ys := [1065353216; 1065353216; 1065353216; 1065353216]).
  assert (Hx : flanes F32 (fcount W128 F32) xs) by f_lanes. assert (Hy : flanes F32 (fcount W128 F32) ys) by f_lanes.
  exists xs, ys. split; [exact Hx|]. split; [exact Hy|]. intros pick s1 s2 HN H1 H2.
  destruct (C71_x86_second pick W128 s1 F32 xs ys Hx Hy H1) as [-> _].
  { intros i a b Ha _. left. do 4 (destruct i as [|i]; [injection Ha as <-; now split|]). now destruct i. }
  rewrite f_max_ok by assumption. replace (fsupport s2 F32) with true by (destruct H2 as [-> | ->]; reflexivity).
  replace (max_lane pick s2 F32) with (ieee_max F32 pick) by (destruct H2 as [-> | ->]; reflexivity).
  intro E. assert (I : forall A (x y : A), Some x = Some y -> x = y) by congruence. apply I in E. clear I. unfold xs, ys in E. cbn [map2] in E.
  replace (ieee_max F32 pick 2143289344 1065353216) with (pick 2143289344 1065353216) in E by reflexivity.
  destruct (HN 2143289344 1065353216) as [[P1 P2] [_ N]]. set (c := pick 2143289344 1065353216) in *.
  unfold fvec in E. rewrite !VsimdFacts.arr_cons in E. cbn [le_bytes app fsize] in E. injection E as E1 E2 E3 E4 _.
  apply N. replace c with 1065353216; [reflexivity|]. change (2 * exps F32 * 2 ^ mant F32) with 4294967296 in P2. lia.
Qed.
Print Assumptions C71_nan_refuted.
Example C71_nan_refuted_ex : is_x86 SSE2 /\ nan_propagates NEON64 /\ f_max no_pick W128 SSE2 F32 (fvec F32 [2143289344; 0; 0; 0]) (fvec F32 [1065353216; 0; 0; 0]) =
  Some (fvec F32 [1065353216; 0; 0; 0]).
Proof. repeat split; [now left|now left]. Qed.

(** max of +0 and -0 on x86 and wasm *)
Theorem C71_zero_refuted : exists xs ys, flanes F32 (fcount W128 F32) xs /\ flanes F32 (fcount W128 F32) ys /\
  (forall i a b, nth_error xs i = Some a -> nth_error ys i = Some b -> zero F32 a /\ zero F32 b) /\
  forall pick, f_max pick W128 SSE2 F32 (fvec F32 xs) (fvec F32 ys) <> f_max pick W128 WASM128 F32 (fvec F32 xs) (fvec F32 ys).
Proof.
  exists [0; 0; 0; 0], [2147483648; 2147483648; 2147483648; 2147483648]. split; [f_lanes|]. split; [f_lanes|]. split.
  - intros i a b Ha Hb. do 4 (destruct i as [|i]; [injection Ha as <-; injection Hb as <-; now repeat split|]). now destruct i.
  - intros pick. vm_compute. discriminate.
Qed.
Print Assumptions C71_zero_refuted.

(** max on x86 is not symmetric *)
Theorem C71_symmetric_refuted : exists xs ys, flanes F32 (fcount W128 F32) xs /\ flanes F32 (fcount W128 F32) ys /\
  forall pick s, is_x86 s -> f_max pick W128 s F32 (fvec F32 xs) (fvec F32 ys) <> f_max pick W128 s F32 (fvec F32 ys) (fvec F32 xs).
Proof.
  exists [0; 0; 0; 0], [2147483648; 2147483648; 2147483648; 2147483648]. split; [f_lanes|]. split; [f_lanes|].
  intros pick s [->|[->|[->| ->]]]; vm_compute; discriminate.
Qed.
Print Assumptions C71_symmetric_refuted.
(** 2^-149 and 0: the NEON unit of AArch32 gives 0 as the greater *)
Theorem C71_subnormal_refuted : exists xs ys, flanes F32 (fcount W128 F32) xs /\ flanes F32 (fcount W128 F32) ys /\
  forall pick, f_max pick W128 NEON32 F32 (fvec F32 xs) (fvec F32 ys) <> f_max pick W128 NEON64 F32 (fvec F32 xs) (fvec F32 ys).
Proof.
  exists [1; 1; 1; 1], [0; 0; 0; 0]. split; [f_lanes|]. split; [f_lanes|]. intros pick. vm_compute. discriminate.
Qed.
Print Assumptions C71_subnormal_refuted.
