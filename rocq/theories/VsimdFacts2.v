(** Lemmas for the widening, narrowing and selecting operations of vsimd. *)
From Coq Require Import ZArith List Bool Lia ZifyBool ZifyNat.
From Verif Require Import Bytes Isa Ints Simd SimdFacts PrimFacts Loops UnicodeSpec UnicodeFacts SwapFacts LaneFacts VsimdSpec Vsimd VsimdFacts VsimdSpec2.
Import ListNotations.
Open Scope Z_scope.
Ltac Zify.zify_post_hook ::= Z.div_mod_to_equations.

Lemma pair_ind {A} (P : list A -> list A -> Prop) :
  P [] [] -> (forall x0 x1 y0 y1 xs ys, P xs ys -> P (x0 :: x1 :: xs) (y0 :: y1 :: ys)) ->
  forall n xs ys, length xs = (2 * n)%nat -> length ys = (2 * n)%nat -> P xs ys.
Proof.
  intros H0 H2. induction n as [|n IH]; intros [|x0 [|x1 xs]] [|y0 [|y1 ys]] Lx Ly; cbn in *; try discriminate; try lia; auto.
  apply H2, IH; lia.
Qed.
Lemma vec_cons t x xs : vec t (x :: xs) = le_bytes (esize t) (x mod card t) ++ vec t xs.
Proof. reflexivity. Qed.
Lemma sgn8 x : has_type I8 x -> s8 (x mod 256) = x.
Proof. unfold has_type, s8. change (min_of I8) with (-128). change (max_of I8) with 127. intro. destruct (_ <? _) eqn:?; lia. Qed.
Lemma sgn16 x : has_type I16 x -> s16 (x mod 65536) = x.
Proof. unfold has_type, s16. change (min_of I16) with (-32768). change (max_of I16) with 32767. intro. destruct (_ <? _) eqn:?; lia. Qed.
Lemma mod256_mod x : (x mod 256) mod 256 = x mod 256.
Proof. apply Zmod_mod. Qed.
Lemma vec8 x r : le_bytes 1 (x mod 256) ++ r = x mod 256 :: r.
Proof. cbn [le_bytes app]. now rewrite mod256_mod. Qed.

Lemma madd_vec n xs ys : length xs = (2 * n)%nat -> length ys = (2 * n)%nat -> Forall (has_type I16) xs -> Forall (has_type I16) ys ->
  lanes_madd (vec I16 xs) (vec I16 ys) = vec I32 (neighbours (fun a b c d => wrap I32 (dot a b c d)) xs ys).
Proof.
  intros Lx Ly. revert n xs ys Lx Ly. apply (pair_ind (fun xs ys => Forall (has_type I16) xs -> Forall (has_type I16) ys ->
    lanes_madd (vec I16 xs) (vec I16 ys) = vec I32 (neighbours (fun a b c d => wrap I32 (dot a b c d)) xs ys))); [reflexivity|].
  intros x0 x1 y0 y1 xs ys IH Fx Fy. apply Forall_cons_iff in Fx as [H0 Fx]. apply Forall_cons_iff in Fx as [H1 Fx].
  apply Forall_cons_iff in Fy as [K0 Fy]. apply Forall_cons_iff in Fy as [K1 Fy].
  rewrite !vec_cons. cbn [neighbours]. rewrite vec_cons. change (esize I16) with 2%nat. change (esize I32) with 4%nat.
  change (card I16) with 65536. change (card I32) with 4294967296. rewrite !le2, le4. cbn [app lanes_madd]. cbn zeta. rewrite IH by auto.
  rewrite !mk16_le by (unfold uint; change (256 ^ Z.of_nat 2) with 65536; lia).
  unfold madd. rewrite !sgn16 by auto.
  pose proof (wrap_bits I32 (dot x0 x1 y0 y1)) as W. change (card I32) with 4294967296 in W. rewrite W. unfold dot. reflexivity.
Qed.
Lemma maddubs_vec n xs ys : length xs = (2 * n)%nat -> length ys = (2 * n)%nat -> Forall (has_type U8) xs -> Forall (has_type I8) ys ->
  lanes_maddubs (vec U8 xs) (vec I8 ys) = vec I16 (neighbours (fun a b c d => sat I16 (dot a b c d)) xs ys).
Proof.
  intros Lx Ly. revert n xs ys Lx Ly. apply (pair_ind (fun xs ys => Forall (has_type U8) xs -> Forall (has_type I8) ys ->
    lanes_maddubs (vec U8 xs) (vec I8 ys) = vec I16 (neighbours (fun a b c d => sat I16 (dot a b c d)) xs ys))); [reflexivity|].
  intros x0 x1 y0 y1 xs ys IH Fx Fy. apply Forall_cons_iff in Fx as [H0 Fx]. apply Forall_cons_iff in Fx as [H1 Fx].
  apply Forall_cons_iff in Fy as [K0 Fy]. apply Forall_cons_iff in Fy as [K1 Fy].
  rewrite !vec_cons. cbn [neighbours]. rewrite vec_cons. change (esize U8) with 1%nat. change (esize I8) with 1%nat. change (esize I16) with 2%nat.
  change (card U8) with 256. change (card I8) with 256. change (card I16) with 65536. rewrite !vec8, le2. cbn [app lanes_maddubs]. cbn zeta. rewrite IH by auto.
  unfold maddubs. rewrite !sgn8 by auto.
  assert (U : forall x, has_type U8 x -> x mod 256 = x) by (intros x H; apply (usg_bits U8 x eq_refl H)).
  rewrite !U by auto. reflexivity.
Qed.
Lemma packus_vec xs : Forall (has_type I16) xs -> lanes_packus (vec I16 xs) = vec U8 (map (sat U8) xs).
Proof.
  induction 1 as [|x xs Hx F IH]; [reflexivity|]. cbn [map]. rewrite !vec_cons. change (esize I16) with 2%nat. change (esize U8) with 1%nat.
  change (card I16) with 65536. change (card U8) with 256. rewrite le2, vec8. cbn [app lanes_packus]. rewrite IH.
  rewrite mk16_le by (unfold uint; change (256 ^ Z.of_nat 2) with 65536; lia). f_equal.
  unfold packus. rewrite sgn16 by auto. unfold clamp, sat. change (min_of U8) with 0. change (max_of U8) with 255. lia.
Qed.
Lemma zero_extend_vec xs : Forall (has_type U8) xs -> zero_extend (vec U8 xs) = vec U16 xs.
Proof.
  induction 1 as [|x xs Hx F IH]; [reflexivity|]. rewrite !vec_cons. change (esize U16) with 2%nat. change (esize U8) with 1%nat.
  change (card U16) with 65536. change (card U8) with 256. rewrite le2, vec8. cbn [app zero_extend]. rewrite IH.
  unfold has_type in Hx. change (min_of U8) with 0 in Hx. change (max_of U8) with 255 in Hx.
  replace (x mod 65536) with x by lia. unfold byte0, byte1. repeat f_equal; lia.
Qed.
Lemma u8_vec xs : Forall (has_type U8) xs -> vec U8 xs = xs.
Proof.
  induction 1 as [|x xs Hx F IH]; [reflexivity|]. rewrite vec_cons, IH. change (esize U8) with 1%nat. change (card U8) with 256. rewrite vec8.
  f_equal. apply (usg_bits U8 x eq_refl Hx).
Qed.
Lemma vec_u8 xs : vec U8 xs = map (fun x => x mod 256) xs.
Proof.
  induction xs as [|x xs IH]; [reflexivity|]. rewrite vec_cons, IH. change (esize U8) with 1%nat. change (card U8) with 256. now rewrite vec8.
Qed.
Lemma bytes_u8 l : bytes l <-> Forall (has_type U8) l.
Proof.
  split; apply Forall_impl; unfold byte, has_type; change (min_of U8) with 0; change (max_of U8) with 255; intros; lia.
Qed.

(** ** Byte order *)
Lemma le_swap k x : le_bytes k (swap_bytes k x) = rev (le_bytes k x).
Proof.
  unfold swap_bytes. assert (E : of_be (le_bytes k x) = of_le (rev (le_bytes k x))) by (unfold of_le; now rewrite rev_involutive).
  rewrite E. assert (L : length (rev (le_bytes k x)) = k) by (rewrite rev_length; apply le_bytes_len).
  rewrite <- L at 1. apply le_bytes_of_le. unfold bytes. apply Forall_rev, le_bytes_bytes.
Qed.
Lemma rev_elems_arr k xs : rev_elems (length xs) k (arr LE k xs) = arr LE k (map (swap_bytes k) xs).
Proof.
  induction xs as [|x xs IH]; [reflexivity|]. cbn [length rev_elems map]. rewrite !arr_cons, firstn_app_exact, skipn_app_exact by apply le_bytes_len.
  now rewrite IH, le_swap.
Qed.
Definition swaps (s : isa) : bool := match s with SSE41 | AVX2 | NEON32 | NEON64 | WASM128 => true | _ => false end.
Lemma bswap128_rev k sh s a : (k, sh) = (2%nat, SHUFFLE_U16X8) \/ (k, sh) = (4%nat, SHUFFLE_U32X4) \/ (k, sh) = (8%nat, SHUFFLE_U64X2) ->
  length a = 16%nat -> bswap128 k sh s a = if swaps s then Some (rev_elems (16 / k) k a) else None.
Proof.
  intros H L. elems a L. destruct H as [H|[H|H]]; injection H as -> ->; destruct s; reflexivity.
Qed.
Lemma bswap256_rev k sh s a : (k, sh) = (2%nat, SHUFFLE_U16X8) \/ (k, sh) = (4%nat, SHUFFLE_U32X4) \/ (k, sh) = (8%nat, SHUFFLE_U64X2) ->
  length a = 32%nat -> bswap256 k sh s a = if swaps s then Some (rev_elems (32 / k) k a) else None.
Proof.
  intros H L. elems a L. destruct H as [H|[H|H]]; injection H as -> ->; destruct s; reflexivity.
Qed.

(** ** Selection *)
Lemma blend16_arr imm xs ys : length ys = length xs -> blend16 imm (arr LE 2 xs) (arr LE 2 ys) = arr LE 2 (chosen imm xs ys).
Proof.
  unfold chosen. revert imm ys. induction xs as [|x xs IH]; intros imm [|y ys] L; try discriminate L; [reflexivity|].
  rewrite !arr_cons, !le2. cbn [app blend16 length seq map nth]. rewrite arr_cons, le2.
  rewrite IH by (cbn in L; lia). rewrite <- seq_shift, map_map. change (Z.of_nat 0) with 0. rewrite Z.bit0_odd.
  assert (E : map (fun i => if Z.testbit (imm / 2) (Z.of_nat i) then nth i ys 0 else nth i xs 0) (seq 0 (length xs)) =
              map (fun i => if Z.testbit imm (Z.of_nat (S i)) then nth i ys 0 else nth i xs 0) (seq 0 (length xs))).
  { apply map_ext. intro i. rewrite <- Z.div2_div, Z.div2_spec, Z.shiftr_spec by lia. replace (Z.of_nat i + 1) with (Z.of_nat (S i)) by lia. reflexivity. }
  rewrite E. destruct (Z.odd imm); reflexivity.
Qed.
Lemma blend32_arr imm xs ys : length ys = length xs -> blend32 imm (arr LE 4 xs) (arr LE 4 ys) = arr LE 4 (chosen imm xs ys).
Proof.
  unfold chosen. revert imm ys. induction xs as [|x xs IH]; intros imm [|y ys] L; try discriminate L; [reflexivity|].
  rewrite !arr_cons, !le4. cbn [app blend32 length seq map nth]. rewrite arr_cons, le4.
  rewrite IH by (cbn in L; lia). rewrite <- seq_shift, map_map. change (Z.of_nat 0) with 0. rewrite Z.bit0_odd.
  assert (E : map (fun i => if Z.testbit (imm / 2) (Z.of_nat i) then nth i ys 0 else nth i xs 0) (seq 0 (length xs)) =
              map (fun i => if Z.testbit imm (Z.of_nat (S i)) then nth i ys 0 else nth i xs 0) (seq 0 (length xs))).
  { apply map_ext. intro i. rewrite <- Z.div2_div, Z.div2_spec, Z.shiftr_spec by lia. replace (Z.of_nat i + 1) with (Z.of_nat (S i)) by lia. reflexivity. }
  rewrite E. destruct (Z.odd imm); reflexivity.
Qed.
Lemma chosen_bits t imm xs ys : chosen imm (map (fun x => x mod card t) xs) (map (fun x => x mod card t) ys) = map (fun x => x mod card t) (chosen imm xs ys).
Proof.
  unfold chosen. rewrite map_map, map_length. apply map_ext. intro i.
  assert (N : forall l, nth i (map (fun x => x mod card t) l) 0 = nth i l 0 mod card t) by (intro l; exact (map_nth (fun x => x mod card t) l 0 i)).
  rewrite !N. destruct (Z.testbit _ _); reflexivity.
Qed.

(** ** Table lookup *)
Lemma pshufb_looked t i : pshufb_lane t i = looked_up t i.
Proof. reflexivity. Qed.
Lemma tbl16_in t i : length t = 16%nat -> 0 <= i < 16 \/ 128 <= i -> tbl16_lane t i = looked_up t i.
Proof.
  intros L H. unfold tbl16_lane, looked_up, tbl_get. destruct (16 <=? i) eqn:E; destruct (128 <=? i) eqn:E'; try lia; auto.
  now rewrite Z.mod_small by lia.
Qed.
