(** Facts about unicode-simd/utf32.rs [is_utf32le] and vsimd/ascii.rs. *)
From Coq Require Import ZArith List Bool Lia ZifyBool ZifyNat.
From Verif Require Import Bytes Mem MemFacts Isa Simd SimdFacts PrimFacts Ints Spec Loops UnicodeSpec Unicode UnicodeFacts SwapFacts LaneFacts.
Import ListNotations.
Open Scope Z_scope.
Open Scope m_scope.
Ltac Zify.zify_post_hook ::= Z.div_mod_to_equations.

Definition scalarb (x : Z) : bool := ((0 <=? x) && (x <? 55296)) || ((57343 <? x) && (x <=? 1114111)).

Lemma xor27 h : 0 <= h < 32 -> 0 <= Z.lxor h 27 < 32 /\ (Z.lxor h 27 = 0 <-> h = 27).
Proof.
  intro H. assert (E : forallb (fun n => (0 <=? Z.lxor (Z.of_nat n) 27) && (Z.lxor (Z.of_nat n) 27 <? 32) && Bool.eqb (Z.lxor (Z.of_nat n) 27 =? 0) (Z.of_nat n =? 27)) (seq 0 32) = true) by reflexivity.
  rewrite forallb_forall in E. specialize (E (Z.to_nat h)). rewrite Z2Nat.id in E by lia. specialize (E ltac:(apply in_seq; lia)).
  apply andb_prop in E as [E E3]. apply andb_prop in E as [E1 E2]. apply eqb_prop in E3. lia.
Qed.
Lemma xor_d800 x : 0 <= x -> Z.lxor x 55296 = 65536 * (x / 65536) + 2048 * Z.lxor (x mod 65536 / 2048) 27 + x mod 2048.
Proof.
  intro H. rewrite (lxor_split x 55296 16) by lia. change (55296 / 2 ^ 16) with 0. change (55296 mod 2 ^ 16) with 55296.
  rewrite Z.lxor_0_r. change (2 ^ 16) with 65536. rewrite (lxor_split (x mod 65536) 55296 11) by lia.
  change (55296 / 2 ^ 11) with 27. change (55296 mod 2 ^ 11) with 0. rewrite Z.lxor_0_r. change (2 ^ 11) with 2048.
  replace (x mod 65536 mod 2048) with (x mod 2048); [lia|]. change 65536 with (2048 * 32). rewrite Z.rem_mul_r by lia. lia.
Qed.
(** the value compared by the vector code *)
Definition key (x : Z) : Z := u32_sub (Z.lxor x 55296) 2048.
Lemma key_scalar x : uint 4 x -> (key x <=? 1112063) = scalarb x.
Proof.
  rewrite uint4. intro H. unfold key, u32_sub, scalarb. rewrite xor_d800 by lia.
  destruct (xor27 (x mod 65536 / 2048)) as [R Z0]; [lia|].
  remember (Z.lxor (x mod 65536 / 2048) 27) as h' eqn:E. clear E.
  assert (E1 : x mod 65536 = 2048 * (x mod 65536 / 2048) + x mod 2048).
  { replace (x mod 2048) with (x mod 65536 mod 2048); [apply Z.div_mod; lia|].
    change 65536 with (2048 * 32). rewrite Z.rem_mul_r by lia. rewrite Z.mul_comm, Z_mod_plus_full. apply Z.mod_mod. lia. }
  assert (E2 : x = 65536 * (x / 65536) + x mod 65536) by (apply Z.div_mod; lia).
  assert (R2 : 0 <= x mod 65536 / 2048 < 32) by lia. assert (R3 : 0 <= x mod 2048 < 2048) by lia.
  assert (R4 : 0 <= x / 65536 < 65536) by lia.
  remember (x / 65536) as q. remember (x mod 65536 / 2048) as h. remember (x mod 2048) as l. rewrite E1 in E2.
  clear -H R Z0 E2 R2 R3 R4. rewrite E2.
  destruct (Z.eq_dec q 0) as [->|NQ]; [destruct (Z.eq_dec h 27) as [->|NH]|].
  - replace h' with 0 by lia. replace ((65536 * 0 + 2048 * 0 + l - 2048) mod 4294967296) with (4294965248 + l); [lia|].
    apply (Z.mod_unique _ _ (-1)); lia.
  - rewrite Z.mod_small by lia. lia.
  - rewrite Z.mod_small by lia. lia.
Qed.
Lemma isv_scalar x : uint 4 x -> is_unicode_scalar_value x = scalarb x.
Proof. intro H. unfold is_unicode_scalar_value. fold (key x). rewrite <- key_scalar by auto. lia. Qed.

(** scanning a slice of integers *)
Lemma wp_scan_arr {A} (en : endian) k (P : list Z -> A -> Prop) m b o (xs : list Z) g fuel body acc (Q : ptr * A -> mem -> Prop) :
  (0 < k)%nat -> (0 < g)%nat -> (length xs mod g = 0)%nat -> (length xs < g * fuel)%nat -> P [] acc ->
  (forall c x r acc, xs = c ++ x ++ r -> length x = g -> P c acc ->
     wp (body ((b, o + k * length c)%nat, acc))
        (fun st m' => m' = m /\ exists acc', st = ((b, o + k * length (c ++ x))%nat, acc') /\ P (c ++ x) acc') m) ->
  (forall acc, P xs acc -> Q ((b, o + k * length xs)%nat, acc) m) ->
  wp (while_ fuel (fun st => plt (fst st) (b, o + k * length xs)%nat) body ((b, o), acc)) Q m.
Proof.
  intros Hk Hg Hm Hf HP Hb HQ. rewrite <- (arr_len en k xs) in *.
  apply (wp_scan (fun c acc => exists zs ys, xs = zs ++ ys /\ c = arr en k zs /\ P zs acc) m b o (arr en k xs) (k * g)); auto.
  - nia.
  - rewrite arr_len. rewrite Nat.mul_mod_distr_l by lia. lia.
  - rewrite arr_len. nia.
  - exists [], xs. auto.
  - intros c x r acc' E L (zs & ys & Ex & -> & HP'). rewrite Ex, arr_app in E. apply app_inv_head in E.
    assert (g <= length ys)%nat.
    { apply (f_equal (@length Z)) in E. rewrite arr_len, app_length, L in E. nia. }
    destruct (split_at ys g) as (y & r' & -> & Ly); [auto|]. rewrite arr_app in E.
    assert (arr en k y = x) as <-.
    { rewrite <- (firstn_app_exact (arr en k y) (arr en k r') (k * g)) by (rewrite arr_len; nia). rewrite E. now apply firstn_app_exact. }
    rewrite arr_len. eapply wp_mono; [eapply (Hb zs y r'); eauto|]. intros st m' (-> & acc'' & -> & HP''). split; [reflexivity|].
    exists acc''. rewrite <- arr_app, arr_len. split; [reflexivity|]. exists (zs ++ y), r'. rewrite <- app_assoc. auto.
  - intros acc' (zs & ys & E1 & E2 & HP').
    assert (ys = []) as ->.
    { apply (f_equal (@length Z)) in E2. rewrite !arr_len, E1, app_length in E2. destruct ys; [reflexivity|cbn [length] in E2; nia]. }
    rewrite app_nil_r in E1. subst zs. now apply HQ.
Qed.

Lemma arr_parts en k c x r : arr en k (c ++ x ++ r) = arr en k c ++ arr en k x ++ arr en k r.
Proof. now rewrite !arr_app. Qed.
Lemma wp_add_arr en k m b o xs i j (Q : ptr -> mem -> Prop) : bytes_at m b o (arr en k xs) -> (i + j <= length xs)%nat ->
  Q (b, o + k * (i + j))%nat m -> wp (padd (b, o + k * i)%nat (k * j)) Q m.
Proof.
  intros H L HQ. eapply wp_add_in; [exact H|rewrite arr_len; nia|]. now rewrite <- Nat.mul_add_distr_l.
Qed.
Lemma Forall_mid {A} (P : A -> Prop) a b c : Forall P (a ++ b ++ c) -> Forall P b.
Proof. intro F. apply Forall_app in F as [_ F]. now apply Forall_app in F. Qed.

Lemma utf32_fallback_ok en m b o xs : Forall (uint 4) xs -> bytes_at m b o (arr en 4 xs) ->
  wp (is_utf32le_fallback en (b, o) (length xs)) (fun r m' => r = forallb scalarb xs /\ m' = m) m.
Proof.
  intros F H. unfold is_utf32le_fallback. apply wp_bind. eapply wp_add0; [exact H|rewrite arr_len; lia|]. apply wp_bind.
  apply (wp_scan_arr en 4 (fun c f => f = forallb scalarb c) m b o xs 1); [lia|lia|apply Nat.mod_1_r|lia|reflexivity| |].
  - intros c x r acc E Lx ->. destruct x as [|x [|]]; try discriminate Lx. cbn [fst snd].
    pose proof H as H'. rewrite E in H'. pose proof H' as H2. rewrite arr_parts in H2. apply wp_bind.
    rewrite <- (arr_len en 4 c). eapply wp_load_mid; [exact H2|rewrite arr_len; reflexivity|]. rewrite arr_len.
    apply wp_bind. apply (wp_add_arr en 4 m b o (c ++ [x] ++ r) (length c) 1); [exact H'|rewrite !app_length; cbn [length]; lia|].
    apply wp_ret. split; [reflexivity|]. eexists. split; [rewrite app_length; reflexivity|].
    rewrite E in F. apply Forall_mid in F. inversion F; subst. rewrite forallb_app. cbn [forallb]. unfold arr. cbn [flat_map]. rewrite app_nil_r.
    rewrite of_native_bytes, isv_scalar by auto. now rewrite andb_true_r.
  - intros acc ->. apply wp_ret. auto.
Qed.

Lemma splat32_ok s x : simd s -> u32x8_splat s x = Some (lane32 (repeat x 8)).
Proof. intro Hs. destruct s; try discriminate Hs; reflexivity. Qed.
Lemma map2_rep8 (f : Z -> Z -> Z) xs y : length xs = 8%nat -> map2 f xs (repeat y 8) = map (fun x => f x y) xs.
Proof. intro L. rewrite <- L. apply map2_repeat. Qed.
Lemma Forall_rep (P : Z -> Prop) x n : P x -> Forall P (repeat x n).
Proof. intro H. induction n; constructor; auto. Qed.
Lemma xor_uint x : uint 4 x -> uint 4 (Z.lxor x 55296).
Proof.
  rewrite !uint4. intro H. rewrite xor_d800 by lia. destruct (xor27 (x mod 65536 / 2048)) as [R _]; [lia|]. 
  assert (x / 65536 < 65536) by lia. assert (0 <= x mod 2048 < 2048) by lia. lia.
Qed.
Lemma key_uint x : uint 4 (key x).
Proof. rewrite uint4. unfold key, u32_sub. lia. Qed.
Lemma utf32_step_ok s ws xs : sse41p s -> length ws = 8%nat -> length xs = 8%nat -> Forall (uint 4) ws -> Forall (uint 4) xs ->
  utf32_step s (lane32 ws) (lane32 xs) = Some (lane32 (map2 Z.max ws (map key xs))).
Proof.
  intros Hs Lw Lx Fw Fx. assert (S : simd s) by (destruct s; try discriminate Hs; reflexivity).
  unfold utf32_step. rewrite splat32_ok by auto. cbn [obind]. rewrite v256_xor_ok by (auto using repeat_length). cbn [obind].
  rewrite splat32_ok by auto. cbn [obind]. rewrite map2_rep8 by auto.
  rewrite u32x8_sub_ok; auto; [|now rewrite map_length|apply (map_F (uint 4)); auto using xor_uint|apply Forall_rep; rewrite uint4; lia].
  cbn [obind]. rewrite map2_rep8 by now rewrite map_length. rewrite map_map. change (map _ xs) with (map key xs).
  apply u32x8_max_ok; auto; [now rewrite map_length|]. apply (map_F (uint 4)); auto using key_uint.
Qed.

Definition small (x : Z) : bool := x <=? 1112063.
Lemma small_max ws xs : length ws = length xs -> forallb small (map2 Z.max ws (map key xs)) = forallb small ws && forallb (fun x => small (key x)) xs.
Proof.
  revert xs. induction ws as [|w ws IH]; intros [|x xs] L; try discriminate L; [reflexivity|]. cbn [map map2 forallb]. rewrite IH by (injection L; auto).
  assert (E : small (Z.max w (key x)) = small w && small (key x)) by (unfold small; lia). rewrite E.
  destruct (small w), (small (key x)); cbn [andb]; rewrite ?andb_false_r; reflexivity.
Qed.
Lemma zero_lane x : uint 4 x -> is_zero_list (le_bytes 4 (u32_lt 1112063 x)) = small x.
Proof. intro. unfold u32_lt, small. destruct (Z.ltb_spec 1112063 x), (Z.leb_spec x 1112063); try lia; reflexivity. Qed.
Lemma zero_lanes ws : Forall (uint 4) ws -> is_zero_list (lane32 (map2 u32_lt (repeat 1112063 (length ws)) ws)) = forallb small ws.
Proof.
  induction 1 as [|w ws Hw F IH]; [reflexivity|]. cbn [length repeat map2].
  change (is_zero_list (le_bytes 4 (u32_lt 1112063 w) ++ lane32 (map2 u32_lt (repeat 1112063 (length ws)) ws)) = forallb small (w :: ws)).
  rewrite is_zero_app, IH, zero_lane by auto. reflexivity.
Qed.

Definition MaxOk (c : list Z) (y : list Z) : Prop :=
  exists ws, y = lane32 ws /\ length ws = 8%nat /\ Forall (uint 4) ws /\ forallb small ws = forallb (fun x => small (key x)) c.

Lemma utf32_simd_ok s m b o xs : sse41p s -> Forall (uint 4) xs -> bytes_at m b o (arr LE 4 xs) ->
  wp (is_utf32le_simd LE s (b, o) (length xs)) (fun r m' => r = forallb scalarb xs /\ m' = m) m.
Proof.
  intros Hs F H. assert (S : simd s) by (destruct s; try discriminate Hs; reflexivity).
  unfold is_utf32le_simd. set (n := (length xs / 8 * 8)%nat). assert (Ln : (n <= length xs)%nat) by (unfold n; lia).
  rewrite splat32_ok by auto. apply wp_bind. apply wp_ret. apply wp_bind. eapply wp_add0; [exact H|rewrite arr_len; lia|].
  destruct (split_at xs n Ln) as (a & t & E & La). rewrite <- La. apply wp_bind.
  apply (wp_scan_arr LE 4 MaxOk m b o a 8).
  - lia.
  - lia.
  - rewrite La. unfold n. apply Nat.mod_mul. discriminate.
  - rewrite E, app_length. lia.
  - exists (repeat 0 8). repeat split. apply Forall_rep. rewrite uint4. lia.
  - intros c x r y Ea Lx (ws & -> & Lw & Fw & Hw). cbn [fst snd]. pose proof H as H'. rewrite E, Ea, <- !app_assoc in H'.
    assert (Fx : Forall (uint 4) x) by (rewrite E, Ea, <- !app_assoc in F; now apply Forall_mid in F).
    pose proof H' as H2. rewrite arr_parts in H2. apply wp_bind. rewrite <- (arr_len LE 4 c).
    eapply wp_load_mid; [exact H2|rewrite arr_len, Lx; reflexivity|]. rewrite arr_len. apply wp_bind.
    rewrite utf32_step_ok by auto. apply wp_ret. apply wp_bind.
    apply (wp_add_arr LE 4 m b o (c ++ x ++ r ++ t) (length c) 8); [exact H'|rewrite !app_length; lia|].
    apply wp_ret. split; [reflexivity|]. eexists. split; [rewrite app_length, Lx; reflexivity|].
    exists (map2 Z.max ws (map key x)). split; [reflexivity|]. split; [apply len_map2; auto; now rewrite map_length|].
    split; [apply map2_F; auto using uint_max; apply (map_F (uint 4)); auto using key_uint|].
    rewrite small_max, forallb_app by congruence. now rewrite Hw.
  - intros y (ws & -> & Lw & Fw & Hw). rewrite splat32_ok by auto. apply wp_bind, wp_ret.
    rewrite u32x8_lt_ok; auto; [|apply Forall_rep; rewrite uint4; lia]. apply wp_bind, wp_ret.
    rewrite v256_all_zero_ok; auto; [|rewrite arr_len, (len_map2 _ _ _ 8); auto|apply arr_bytes]. apply wp_bind, wp_ret.
    assert (Z := zero_lanes ws Fw). rewrite Lw in Z. rewrite Z. apply wp_bind.
    assert (Lt : length t = (length xs mod 8)%nat).
    { assert (length xs = n + length t)%nat by (rewrite E, app_length; lia). unfold n in *. lia. }
    rewrite E in H, F. rewrite arr_app in H. apply bytes_at_app in H as [_ H]. rewrite arr_len in H. apply Forall_app in F as [Fa Ft].
    rewrite <- Lt. eapply wp_mono; [apply utf32_fallback_ok; eauto|]. intros f m' (-> & ->). apply wp_ret. split; [|reflexivity].
    rewrite Hw, E, forallb_app. f_equal. clear -Fa. induction Fa as [|x l Hx Fa IH]; [reflexivity|]. cbn [forallb]. rewrite IH. f_equal.
    now apply key_scalar.
Qed.
Lemma is_utf32le_ok en s m b o xs : s = Fallback \/ (sse41p s /\ en = LE) -> Forall (uint 4) xs -> bytes_at m b o (arr en 4 xs) ->
  wp (is_utf32le en s (b, o) (length xs)) (fun r m' => r = forallb scalarb xs /\ m' = m) m.
Proof.
  intros [->|[Hs ->]] F H; [now apply utf32_fallback_ok|]. assert (G := utf32_simd_ok s m b o xs Hs F H).
  destruct s; try discriminate Hs; exact G.
Qed.

(** ** case conversion *)
Lemma map2_rep (f : Z -> Z -> Z) xs y n : length xs = n -> map2 f xs (repeat y n) = map (fun x => f x y) xs.
Proof. intros <-. apply map2_repeat. Qed.
Lemma map2_self (f : Z -> Z -> Z) (g : Z -> Z) xs : map2 f xs (map g xs) = map (fun x => f x (g x)) xs.
Proof. induction xs as [|x xs IH]; [reflexivity|]. cbn [map map2]. now rewrite IH. Qed.
Lemma convert_ok w s c (f : Z -> Z) x : simd s -> bytes x -> length x = vlen w ->
  (forall b, byte b -> u8_xor b (u8_and (i8_lt (u8_sub b (c + 128)) 154) 32) = f b) ->
  convert_ascii_case w s c x = Some (map f x).
Proof.
  intros Hs B L Hf. unfold convert_ascii_case. rewrite u8xn_splat_ok by auto. cbn [obind].
  rewrite u8xn_sub_ok by (auto using repeat_length). cbn [obind]. rewrite map2_rep by auto.
  rewrite u8xn_splat_ok by auto. cbn [obind]. rewrite i8xn_lt_ok by (auto using repeat_length; now rewrite map_length). cbn [obind].
  rewrite map2_rep by now rewrite map_length. rewrite map_map. rewrite u8xn_splat_ok by auto. cbn [obind].
  rewrite xn_and_ok by (auto using repeat_length; now rewrite map_length). cbn [obind]. rewrite map2_rep by now rewrite map_length.
  rewrite map_map, xn_xor_ok by (auto; now rewrite map_length). rewrite map2_self. f_equal. clear L.
  induction B as [|b x Hb B IH]; [reflexivity|]. cbn [map]. now rewrite IH, Hf.
Qed.
