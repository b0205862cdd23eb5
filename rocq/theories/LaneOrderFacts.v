(** Facts about the vector code of LaneOrder.v. *)
From Coq Require Import ZArith List Bool Lia ZifyBool ZifyNat.
From Verif Require Import Bytes Mem MemFacts Isa Simd SimdFacts PrimFacts Ints Spec Loops UnicodeSpec UnicodeFacts SwapFacts LaneFacts
  Utf32Facts Alsw AlswFacts Hex HexSimdFacts Base64 Base64Facts Base64SimdFacts Base32 Unicode LaneOrder.
Import ListNotations.
Open Scope Z_scope.
Open Scope m_scope.
Ltac Zify.zify_post_hook ::= Z.div_mod_to_equations.

(** ** Little-endian: nothing changes *)
Lemma on_lanes_le k f a : on_lanes LE k f a = f a.
Proof. unfold on_lanes. cbn [flip]. destruct (f a); reflexivity. Qed.
Lemma on_lanes2_le k f a b : on_lanes2 LE k f a b = f a b.
Proof. unfold on_lanes2. cbn [flip]. destruct (f a b); reflexivity. Qed.

Lemma obind_some {A B} (a : A) (f : A -> option B) : obind (Some a) f = f a.
Proof. reflexivity. Qed.

(** ** Flipping lanes *)
Fixpoint fl2 (l : list Z) : list Z := match l with a :: b :: r => b :: a :: fl2 r | _ => [] end.
Fixpoint fl4 (l : list Z) : list Z := match l with a :: b :: c :: d :: r => d :: c :: b :: a :: fl4 r | _ => [] end.
Lemma flip_fl2 a : flip BE 2 a = fl2 a.
Proof.
  unfold flip. assert (G : forall n l, (length l / 2 = n)%nat -> rev_elems n 2 l = fl2 l).
  { induction n as [|n IH]; intros [|p [|q r]] H; cbn [rev_elems]; try reflexivity.
    - cbn [length] in H. lia.
    - cbn in H. lia.
    - cbn in H. lia.
    - cbn [firstn skipn rev app fl2]. rewrite IH; [reflexivity|]. cbn [length] in H. lia. }
  now apply G.
Qed.
Lemma flip_fl4 a : flip BE 4 a = fl4 a.
Proof.
  unfold flip. assert (G : forall n l, (length l / 4 = n)%nat -> rev_elems n 4 l = fl4 l).
  { induction n as [|n IH]; intros [|p [|q [|r [|t u]]]] H; cbn [rev_elems]; try reflexivity; try (cbn in H; lia).
    - cbn [length] in H. lia.
    - cbn [firstn skipn rev app fl4]. rewrite IH; [reflexivity|]. cbn [length] in H. lia. }
  now apply G.
Qed.
Lemma fl2_len l : Nat.even (length l) = true -> length (fl2 l) = length l.
Proof.
  assert (G : forall n l, (length l <= n)%nat -> Nat.even (length l) = true -> length (fl2 l) = length l).
  { induction n as [|n IH]; intros [|p [|q r]] L E; try reflexivity; try discriminate E; cbn [length] in *; [lia|].
    cbn [fl2 length]. rewrite IH; auto. lia. }
  now apply (G (length l)).
Qed.
Lemma fl4_len l : (length l mod 4 = 0)%nat -> length (fl4 l) = length l.
Proof.
  assert (G : forall n l, (length l <= n)%nat -> (length l mod 4 = 0)%nat -> length (fl4 l) = length l).
  { induction n as [|n IH]; intros [|p [|q [|r [|t u]]]] L E; try reflexivity; try discriminate E; cbn [length] in L; [lia|].
    cbn [fl4 length]. rewrite IH; auto; [lia|]. cbn [length] in E. replace (S (S (S (S (length u))))) with (length u + 1 * 4)%nat in E by lia.
    now rewrite Nat.mod_add in E by lia. }
  now apply (G (length l)).
Qed.

(** ** ALSW: the neighbour bits come from the other side *)
Lemma shr3_lanes_be x : (length x mod 4 = 0)%nat -> bytes x -> Forall2 shr3_of x (fl4 (lanes32 (u32_shr 3) (fl4 x))).
Proof.
  induction x as [|a|a b|a b c|a b c d r IH] using list_ind4; intros E B; try (cbn in E; discriminate); [constructor|].
  inv_bytes. cbn [fl4 lanes32]. cbn zeta. cbn [fl4].
  unfold byte in *. unfold u32_shr, pow2, mk32, byte0, byte1, byte2, byte3. change (2 ^ 3) with 8.
  constructor; [exists 0; lia|].
  constructor; [exists (a mod 8); lia|].
  constructor; [exists (b mod 8); lia|].
  constructor; [exists (c mod 8); lia|].
  apply IH; auto. cbn [length] in E. replace (S (S (S (S (length r))))) with (length r + 1 * 4)%nat in E by lia.
  now rewrite Nat.mod_add in E by lia.
Qed.
Lemma neon_swz : swz NEON64. Proof. reflexivity. Qed.
Lemma neon_simd : simd NEON64. Proof. reflexivity. Qed.
Lemma shr3_ord en w x : length x = vlen w -> bytes x ->
  exists sh, on_lanes en 4 (u32xn_shr w NEON64 3) x = Some sh /\ Forall2 shr3_of x sh.
Proof.
  intros L B. assert (L4 := vlen_mod4 w x L). destruct en.
  - rewrite on_lanes_le, u32xn_shr_ok by auto using neon_simd. eexists. split; [reflexivity|]. now apply shr3_lanes.
  - unfold on_lanes. rewrite flip_fl4, u32xn_shr_ok by (auto using neon_simd; now rewrite fl4_len). cbn [obind]. rewrite flip_fl4.
    eexists. split; [reflexivity|]. now apply shr3_lanes_be.
Qed.
Lemma check_ascii_xn_ord_ok en a w x : check_exact a -> length x = vlen w -> bytes x ->
  check_ascii_xn_ord en w x (xn_luts w (check_lut a)) = Some (forallb (fun c => negb (al_decode a c =? 255)) x).
Proof.
  intros H L B. destruct (shr3_ord en w x L B) as (sh & E & F). unfold check_ascii_xn_ord. rewrite E. cbn [obind].
  exact (check_from_ok a H w NEON64 x sh neon_swz L B F).
Qed.
Lemma decode_ascii_xn_ord_ok en a w x : alsw_exact a -> length x = vlen w -> bytes x ->
  exists c1 c2,
    decode_ascii_xn_ord en w x (xn_luts w (check_lut a)) (xn_luts w (decode_lut a)) = Some (c1, c2) /\
    length c1 = vlen w /\ length c2 = vlen w /\ bytes c1 /\ bytes c2 /\
    highbits c1 = existsb (fun c => al_decode a c =? 255) x /\
    (existsb (fun c => al_decode a c =? 255) x = false -> c2 = map (al_decode a) x).
Proof.
  intros H L B. destruct (shr3_ord en w x L B) as (sh & E & F). unfold decode_ascii_xn_ord. rewrite E. cbn [obind].
  exact (decode_from_ok a H w NEON64 x sh neon_swz L B F).
Qed.

(** ** Hex *)
(** the two digits of every byte, the low one first *)
Fixpoint swapped (cs l : list Z) : list Z :=
  match l with a :: r => nth (Z.to_nat (a mod 16)) cs 0 :: nth (Z.to_nat (a / 16)) cs 0 :: swapped cs r | [] => [] end.
Lemma fl2_zero_extend l : fl2 (fl2 (zero_extend l)) = zero_extend l.
Proof. induction l as [|a l IH]; cbn [zero_extend fl2]; [reflexivity|]. now rewrite IH. Qed.
Lemma fl2_map2 f a b : length a = length b -> Nat.even (length a) = true -> fl2 (map2 f a b) = map2 f (fl2 a) (fl2 b).
Proof.
  assert (G : forall n a b, (length a <= n)%nat -> length a = length b -> Nat.even (length a) = true -> fl2 (map2 f a b) = map2 f (fl2 a) (fl2 b)).
  { induction n as [|n IH]; intros [|p [|q a']] [|t [|u b']] L E V; try discriminate; try reflexivity; cbn [length] in *; [lia|].
    cbn [map2 fl2]. rewrite IH; auto; lia. }
  intros. apply (G (length a)); auto.
Qed.
Lemma fl2_map (f : Z -> Z) a : fl2 (map f a) = map f (fl2 a).
Proof.
  assert (G : forall n a, (length a <= n)%nat -> fl2 (map f a) = map f (fl2 a)).
  { induction n as [|n IH]; intros [|p [|q a']] L; try reflexivity; cbn [length] in L; [lia|]. cbn [map fl2]. rewrite IH; [reflexivity|lia]. }
  now apply (G (length a)).
Qed.
Lemma fl2_nibs s cs l : bytes l -> map (swz_lane s cs) (fl2 (nibs l)) = swapped cs l.
Proof.
  induction 1 as [|a l Ha Hl IH]; [reflexivity|]. unfold byte in Ha.
  cbn [nibs flat_map nib app fl2 map swapped]. fold (nibs l). rewrite IH, !swz_lane_small by lia. reflexivity.
Qed.
Lemma encode_bytes16_be x cs : length cs = 16%nat -> length x = 16%nat -> bytes x ->
  hex_encode_bytes16_ord BE x (x2 cs) = Some (swapped cs x).
Proof.
  intros Lc Lx Bx. assert (Hs := neon_simd).
  assert (L32 : length (zero_extend x) = 32%nat) by (rewrite zero_extend_len; lia).
  assert (LF : length (fl2 (zero_extend x)) = 32%nat) by (rewrite fl2_len; rewrite L32; reflexivity).
  unfold hex_encode_bytes16_ord, on_lanes. rewrite from_u8_ok by auto. cbn [obind].
  rewrite !flip_fl2, !fl2_zero_extend, wide_shl16, wide_shr16 by auto. cbn [obind]. rewrite !flip_fl2.
  assert (LA : length (lanes16 (u16_shl 8) (zero_extend x)) = 32%nat) by (apply len_lanes16; auto; rewrite L32; reflexivity).
  assert (LB : length (lanes16 (u16_shr 4) (zero_extend x)) = 32%nat) by (apply len_lanes16; auto; rewrite L32; reflexivity).
  rewrite wide_or by (auto; rewrite fl2_len; rewrite ?LA, ?LB; reflexivity). cbn [obind].
  rewrite splat256_1 by auto. cbn [obind].
  rewrite <- fl2_map2 by (rewrite ?LA, ?LB; reflexivity).
  assert (Lm : length (map2 u8_or (lanes16 (u16_shl 8) (zero_extend x)) (lanes16 (u16_shr 4) (zero_extend x))) = 32%nat) by (apply len_map2; auto).
  assert (Lf : length (fl2 (map2 u8_or (lanes16 (u16_shl 8) (zero_extend x)) (lanes16 (u16_shr 4) (zero_extend x)))) = 32%nat)
    by (rewrite fl2_len; rewrite Lm; reflexivity).
  rewrite wide_and by (auto; apply repeat_length). cbn [obind].
  rewrite map2_repeat_r by auto. rewrite <- fl2_map. rewrite nib_values by auto.
  rewrite lut_swz; [|apply neon_swz|auto|].
  - now rewrite fl2_nibs.
  - rewrite fl2_len; rewrite nibs_len, Lx; reflexivity.
Qed.

(** the high digit of every pair, shifted into place: the low digit is lost *)
Fixpoint high_digits (v : list Z) : list Z := match v with a :: _ :: r => 16 * a :: high_digits r | _ => [] end.
Lemma merge_point_be a b : 0 <= a < 16 -> 0 <= b < 16 ->
  u8_or (byte1 (u16_shl 4 (mk16 b a))) (byte1 (u16_shr 12 (mk16 (byte0 (u16_shl 4 (mk16 b a))) (byte1 (u16_shl 4 (mk16 b a)))))) = 16 * a.
Proof.
  intros Ha Hb.
  apply Z.eqb_eq. revert a b Ha Hb. apply (sweep2 16 16). vm_compute. reflexivity.
Qed.
Definition merge_be (v : list Z) : list Z :=
  map2 u8_or (fl2 (lanes16 (u16_shl 4) (fl2 v))) (fl2 (lanes16 (u16_shr 12) (lanes16 (u16_shl 4) (fl2 v)))).
Lemma merge_evens_be v : Nat.even (length v) = true -> Forall (fun n => 0 <= n < 16) v -> evens (merge_be v) = high_digits v.
Proof.
  assert (G : forall n v, (length v <= n)%nat -> Nat.even (length v) = true -> Forall (fun n => 0 <= n < 16) v -> evens (merge_be v) = high_digits v).
  { induction n as [|n IH]; intros [|a [|b r]] L E F; try reflexivity; try discriminate E; cbn [length] in *; [lia|].
    inversion F as [|? ? F1 F2]; inversion F2; subst. unfold merge_be in *.
    cbn [fl2 lanes16]. cbn zeta. cbn [fl2 lanes16]. cbn zeta. cbn [fl2 map2 evens high_digits]. rewrite IH by (auto; lia).
    f_equal. now apply merge_point_be. }
  now apply (G (length v)).
Qed.
Lemma fl2_fl2 l : Nat.even (length l) = true -> fl2 (fl2 l) = l.
Proof.
  assert (G : forall n l, (length l <= n)%nat -> Nat.even (length l) = true -> fl2 (fl2 l) = l).
  { induction n as [|n IH]; intros [|a [|b r]] L E; try reflexivity; try discriminate E; cbn [length] in *; [lia|].
    cbn [fl2]. rewrite IH; auto. lia. }
  now apply (G (length l)).
Qed.
Lemma hex_merge_bits_be w v : length v = vlen w -> hex_merge_bits_ord BE w v = Some (merge_be v) /\ length (merge_be v) = vlen w.
Proof.
  intro L. assert (Ev : Nat.even (length v) = true) by (rewrite L; apply even_vlen).
  assert (LF : length (fl2 v) = vlen w) by (now rewrite fl2_len).
  assert (E1 : length (lanes16 (u16_shl 4) (fl2 v)) = vlen w) by (apply len_lanes16; auto; rewrite LF; apply even_vlen).
  assert (E2 : length (lanes16 (u16_shr 12) (lanes16 (u16_shl 4) (fl2 v))) = vlen w)
    by (apply len_lanes16; auto; rewrite E1; apply even_vlen).
  unfold hex_merge_bits_ord, on_lanes. rewrite flip_fl2, u16xn_shl_ok by auto using neon_simd. cbn [obind].
  rewrite !flip_fl2, fl2_fl2 by (rewrite E1; apply even_vlen). rewrite u16xn_shr_ok by auto using neon_simd. cbn [obind]. rewrite flip_fl2.
  rewrite xn_or_ok by (auto using neon_simd; rewrite fl2_len; rewrite ?E1, ?E2; auto using even_vlen).
  split; [reflexivity|]. unfold merge_be. apply len_map2; rewrite fl2_len; rewrite ?E1, ?E2; auto using even_vlen.
Qed.
(** decoded bytes with their low digits cleared *)
Lemma high_digits_pairs v : Forall (fun n => 0 <= n < 16) v -> Nat.even (length v) = true -> high_digits v = map (fun b => 16 * (b / 16)) (pairs v).
Proof.
  assert (G : forall n v, (length v <= n)%nat -> Forall (fun n => 0 <= n < 16) v -> Nat.even (length v) = true ->
              high_digits v = map (fun b => 16 * (b / 16)) (pairs v)).
  { induction n as [|n IH]; intros [|a [|b r]] L F E; try reflexivity; try discriminate E; cbn [length] in *; [lia|].
    inversion F as [|? ? F1 F2]; inversion F2; subst. cbn [high_digits pairs map]. rewrite IH by (auto; lia). f_equal. lia. }
  intros. now apply (G (length v)).
Qed.
Lemma hex_values x : bytes x -> existsb bad x = false -> Forall (fun n => 0 <= n < 16) (map parse_hex x).
Proof.
  intros B E. apply Forall_forall. intros n Hn. apply in_map_iff in Hn as (c & <- & Hc).
  apply parse_hex_range; [now apply (proj1 (Forall_forall _ _) B)|].
  apply not_true_is_false. intro Hbad. assert (existsb bad x = true) by (apply existsb_exists; eauto). congruence.
Qed.
Definition clear_low (r : result (list Z)) : result (list Z) := match r with Ok l => Ok (map (fun b => 16 * (b / 16)) l) | Err => Err end.
Lemma hex_decode_ascii16_be x : length x = 16%nat -> bytes x ->
  hex_decode_ascii16_ord BE x = Some (clear_low (dec_result (rfc_hex_decode x))).
Proof.
  intros Lx Bx.
  destruct (decode_ascii_xn_ord_ok BE HexAlsw W128 x hex_alsw_exact Lx Bx) as (c1 & c2 & E & L1 & L2 & B1 & B2 & H1 & H2).
  unfold hex_decode_ascii16_ord. change (decode_ascii_xn_ord BE W128 x (check_lut HexAlsw) (decode_lut HexAlsw) = Some (c1, c2)) in E.
  rewrite E. cbn [obind fst snd].
  destruct (hex_merge_bits_be W128 c2 L2) as [-> LM]. cbn [obind vlen] in *.
  assert (U : u8x8_unzip_even NEON64 (lo64 (merge_be c2)) (hi64 (merge_be c2)) = Some (evens (merge_be c2))).
  { generalize (merge_be c2) LM. clear. intros y Ly. explode y. reflexivity. }
  rewrite U. cbn [obind]. rewrite u8x16_highbit_any_ok by auto using neon_simd. cbn [obind]. rewrite H1.
  rewrite hex_decode_pairs by (auto; now rewrite Lx). change (fun c => al_decode HexAlsw c =? 255) with bad in *.
  destruct (existsb bad x) eqn:V; [reflexivity|]. cbn [dec_result clear_low].
  rewrite H2 by reflexivity. change (al_decode HexAlsw) with parse_hex.
  rewrite merge_evens_be, high_digits_pairs; auto using hex_values; now rewrite map_length, Lx.
Qed.
Lemma hex_decode_ascii32_be x : length x = 32%nat -> bytes x ->
  hex_decode_ascii32_ord BE x = Some (clear_low (dec_result (rfc_hex_decode x))).
Proof.
  intros Lx Bx.
  destruct (decode_ascii_xn_ord_ok BE HexAlsw W256 x hex_alsw_exact Lx Bx) as (c1 & c2 & E & L1 & L2 & B1 & B2 & H1 & H2).
  unfold hex_decode_ascii32_ord. change (decode_ascii_xn_ord BE W256 x (lut_x2 (check_lut HexAlsw)) (lut_x2 (decode_lut HexAlsw)) = Some (c1, c2)) in E.
  rewrite E. cbn [obind fst snd].
  destruct (hex_merge_bits_be W256 c2 L2) as [-> LM]. cbn [obind vlen] in *.
  assert (U : u8x16_unzip_even NEON64 (lo128 (merge_be c2)) (hi128 (merge_be c2)) = Some (evens (merge_be c2))).
  { generalize (merge_be c2) LM. clear. intros y Ly. explode y. reflexivity. }
  rewrite U. cbn [obind]. rewrite u8x32_highbit_any_ok by auto using neon_simd. cbn [obind]. rewrite H1.
  rewrite hex_decode_pairs by (auto; now rewrite Lx). change (fun c => al_decode HexAlsw c =? 255) with bad in *.
  destruct (existsb bad x) eqn:V; [reflexivity|]. cbn [dec_result clear_low].
  rewrite H2 by reflexivity. change (al_decode HexAlsw) with parse_hex.
  rewrite merge_evens_be, high_digits_pairs; auto using hex_values; now rewrite map_length, Lx.
Qed.

(** ** Base64 *)
(** the four six-bit digits of the number [a + 256 b + 65536 c], the lowest first *)
Definition lsext (a b c : Z) : list Z := [a mod 64; (b mod 16) * 4 + a / 64; (c mod 4) * 16 + b / 16; c / 4].
Fixpoint lsextets (l : list Z) : list Z := match l with a :: b :: c :: r => lsext a b c ++ lsextets r | _ => [] end.
Definition be_core (x : list Z) (n : nat) : list Z :=
  map2 u8_or
    (map2 u8_or (fl2 (lanes16 (u16_shr 10) (fl2 (map2 u8_and x (repeat_list n [0; 0; 252; 0])))))
                (fl2 (lanes16 (u16_shl 4) (fl2 (map2 u8_and x (repeat_list n [0; 0; 3; 240]))))))
    (map2 u8_or (fl2 (lanes16 (u16_shr 6) (fl2 (map2 u8_and x (repeat_list n [15; 192; 0; 0])))))
                (fl2 (lanes16 (u16_shl 8) (fl2 (map2 u8_and x (repeat_list n [0; 63; 0; 0])))))).
Lemma be_core_ok l n : (length l = 3 * n)%nat -> bytes l -> be_core (quads l) n = lsextets l.
Proof.
  revert n. induction l as [|a|a b|a b c r IH] using list_ind3; intros n L B; cbn [length] in L; try lia.
  - assert (n = 0)%nat as -> by lia. reflexivity.
  - destruct n as [|n]; [lia|]. inv_bytes.
    assert (LA := lane_a_shift c b ltac:(assumption) ltac:(assumption)).
    assert (LB := lane_b_shift b a ltac:(assumption) ltac:(assumption)). cbn zeta in LA, LB.
    unfold be_core in *. cbn [quads repeat_list app map2 fl2 lanes16 lsextets lsext]. cbn zeta.
    cbn [fl2 map2]. apply eq2 in LA as [-> ->]. apply eq2 in LB as [-> ->]. rewrite IH; auto. lia.
Qed.
Lemma fl2_len32 l : length l = 32%nat -> length (fl2 l) = 32%nat.
Proof. intro L. rewrite fl2_len; rewrite L; reflexivity. Qed.
Lemma fl2_len16 l : length l = 16%nat -> length (fl2 l) = 16%nat.
Proof. intro L. rewrite fl2_len; rewrite L; reflexivity. Qed.
Ltac vlens' := repeat first
  [ assumption | apply len_map2 | apply len_map | apply fl2_len32 | apply (lanes16_2_len _ _ _ 16) | apply (lanes16_len _ _ 16) | apply (lanes32_len _ _ 8) | apply repeat_list_len
  | rewrite !repeat_list_len; reflexivity ].
Ltac vlens16' := repeat first
  [ assumption | apply len_map2 | apply len_map | apply fl2_len16 | apply (lanes16_len _ _ 8) | apply repeat_list_len
  | rewrite !repeat_list_len; reflexivity ].
Lemma be_shr16 n a : length a = 32%nat -> on_lanes BE 2 (u16x16_shr NEON64 n) a = Some (fl2 (lanes16 (u16_shr n) (fl2 a))).
Proof. intro L. unfold on_lanes. rewrite flip_fl2, wide_shr16 by (auto using neon_simd, fl2_len32). cbn [obind]. now rewrite flip_fl2. Qed.
Lemma be_shl16 n a : length a = 32%nat -> on_lanes BE 2 (u16x16_shl NEON64 n) a = Some (fl2 (lanes16 (u16_shl n) (fl2 a))).
Proof. intro L. unfold on_lanes. rewrite flip_fl2, wide_shl16 by (auto using neon_simd, fl2_len32). cbn [obind]. now rewrite flip_fl2. Qed.
Lemma be_shr8 n a : on_lanes BE 2 (u16x8_shr NEON64 n) a = Some (fl2 (lanes16 (u16_shr n) (fl2 a))).
Proof. unfold on_lanes, u16x8_shr. rewrite flip_fl2, native1_ok by auto using neon_simd. cbn [obind]. now rewrite flip_fl2. Qed.
Lemma be_shl8 n a : on_lanes BE 2 (u16x8_shl NEON64 n) a = Some (fl2 (lanes16 (u16_shl n) (fl2 a))).
Proof. unfold on_lanes, u16x8_shl. rewrite flip_fl2, native1_ok by auto using neon_simd. cbn [obind]. now rewrite flip_fl2. Qed.
Lemma be_mask a b c d : flip BE 4 [a; b; c; d] = [d; c; b; a].
Proof. reflexivity. Qed.
Lemma split_core_be q : length q = 32%nat ->
  (let? m1 := splat256 NEON64 (flip BE 4 [0; 252; 0; 0]) in
   let? a1 := v256_and NEON64 q m1 in
   let? x1 := on_lanes BE 2 (u16x16_shr NEON64 10) a1 in
   let? m2 := splat256 NEON64 (flip BE 4 [240; 3; 0; 0]) in
   let? a2 := v256_and NEON64 q m2 in
   let? x2 := on_lanes BE 2 (u16x16_shl NEON64 4) a2 in
   let? m3 := splat256 NEON64 (flip BE 4 [0; 0; 192; 15]) in
   let? a3 := v256_and NEON64 q m3 in
   let? x3 := on_lanes BE 2 (u16x16_shr NEON64 6) a3 in
   let? m4 := splat256 NEON64 (flip BE 4 [0; 0; 63; 0]) in
   let? a4 := v256_and NEON64 q m4 in
   let? x4 := on_lanes BE 2 (u16x16_shl NEON64 8) a4 in
   let? o1 := v256_or NEON64 x1 x2 in
   let? o2 := v256_or NEON64 x3 x4 in
   v256_or NEON64 o1 o2) = Some (be_core q 8).
Proof.
  intro Lq. assert (Hs := neon_simd). rewrite !be_mask, !splat256_4 by auto. rewrite ?obind_some.
  repeat (first [rewrite wide_and by (auto; vlens') | rewrite be_shr16 by (auto; vlens') | rewrite be_shl16 by (auto; vlens') | rewrite wide_or by (auto; vlens')];
          rewrite ?obind_some).
  reflexivity.
Qed.
Lemma split_bits_x2_be x : length x = 32%nat -> bytes x ->
  split_bits_x2_ord BE x = Some (lsextets (firstn 24 (skipn 4 x))).
Proof.
  intros L B. unfold split_bits_x2_ord. rewrite split_shuffle by auto using neon_swz. rewrite ?obind_some.
  assert (Ll : length (firstn 24 (skipn 4 x)) = 24%nat) by (rewrite firstn_length, skipn_length; lia).
  assert (Bl : bytes (firstn 24 (skipn 4 x))) by (apply bytes_firstn, bytes_skipn, B).
  rewrite split_core_be by (rewrite quads_len; rewrite Ll; reflexivity). f_equal. now apply be_core_ok.
Qed.
Lemma split_bits_x1_be x : length x = 16%nat -> bytes x ->
  split_bits_x1_ord BE x = Some (lsextets (firstn 12 x)).
Proof.
  intros L B. unfold split_bits_x1_ord. rewrite split_shuffle_x1 by auto using neon_swz. rewrite ?obind_some.
  assert (Hs := neon_simd).
  set (l := firstn 12 x).
  assert (Ll : length l = 12%nat) by (unfold l; rewrite firstn_length; lia).
  assert (Bl : bytes l) by (apply bytes_firstn, B).
  assert (Lq : length (quads l) = 16%nat) by (rewrite quads_len; rewrite Ll; reflexivity).
  rewrite !be_mask, !splat128_ok by auto. rewrite ?obind_some. cbn [length]. change (16 / 4)%nat with 4%nat.
  unfold v128_and, v128_or.
  repeat (first [rewrite native2_ok by auto | rewrite be_shr8 | rewrite be_shl8]; rewrite ?obind_some).
  f_equal. exact (be_core_ok l 4 Ll Bl).
Qed.
Lemma lsextets_range l : bytes l -> Forall (fun v => 0 <= v < 64) (lsextets l).
Proof.
  induction l as [|a|a b|a b c r IH] using list_ind3; intro B; try constructor. all: inv_bytes; unfold byte in *; cbn [lsextets lsext app].
  - lia.
  - repeat (constructor; [lia|]). auto.
Qed.
Lemma lsextets_len l : length (lsextets l) = (length l / 3 * 4)%nat.
Proof.
  induction l as [|a|a b|a b c r IH] using list_ind3; try reflexivity.
  cbn [lsextets lsext app length]. rewrite IH. lia.
Qed.
Lemma encode_bytes24_be k x : length x = 32%nat -> bytes x ->
  encode_bytes24_ord BE x (x2 (encoding_shift (b64_charset k))) = Some (b64_chars k (lsextets (firstn 24 (skipn 4 x)))).
Proof.
  intros L B. unfold encode_bytes24_ord. rewrite split_bits_x2_be by auto. cbn [obind].
  apply (b64_encode_values_ok W256); [apply neon_swz| |].
  - rewrite lsextets_len, firstn_length, skipn_length, L. reflexivity.
  - apply lsextets_range, bytes_firstn, bytes_skipn, B.
Qed.
Lemma encode_bytes12_be k x : length x = 16%nat -> bytes x ->
  encode_bytes12_ord BE x (encoding_shift (b64_charset k)) = Some (b64_chars k (lsextets (firstn 12 x))).
Proof.
  intros L B. unfold encode_bytes12_ord. rewrite split_bits_x1_be by auto. cbn [obind].
  apply (b64_encode_values_ok W128); [apply neon_swz| |].
  - rewrite lsextets_len, firstn_length, L. reflexivity.
  - apply lsextets_range, bytes_firstn, B.
Qed.

(** ** UTF-32 *)
Lemma flip_arr k xs : (0 < k)%nat -> flip BE k (arr BE k xs) = arr LE k xs.
Proof.
  intro Hk. unfold flip. rewrite arr_len. replace (k * length xs / k)%nat with (length xs) by (rewrite Nat.mul_comm, Nat.div_mul; lia).
  induction xs as [|x xs IH]; [reflexivity|].
  cbn [length rev_elems]. change (arr BE k (x :: xs)) with (be_bytes k x ++ arr BE k xs).
  rewrite firstn_app_exact, skipn_app_exact, IH by (unfold be_bytes; now rewrite rev_length, le_bytes_len).
  unfold be_bytes. now rewrite rev_involutive.
Qed.
Lemma flip_arr' k xs : (0 < k)%nat -> flip BE k (arr LE k xs) = arr BE k xs.
Proof.
  intro Hk. unfold flip. rewrite arr_len. replace (k * length xs / k)%nat with (length xs) by (rewrite Nat.mul_comm, Nat.div_mul; lia).
  induction xs as [|x xs IH]; [reflexivity|].
  cbn [length rev_elems]. change (arr LE k (x :: xs)) with (le_bytes k x ++ arr LE k xs).
  rewrite firstn_app_exact, skipn_app_exact, IH by apply le_bytes_len. reflexivity.
Qed.
Lemma be_xor k x y : map2 u8_xor (be_bytes k x) (be_bytes k y) = be_bytes k (Z.lxor x y).
Proof.
  unfold be_bytes. rewrite <- le_xor. assert (L : length (le_bytes k x) = length (le_bytes k y)) by now rewrite !le_bytes_len.
  revert L. generalize (le_bytes k x) (le_bytes k y). clear. induction l as [|a l IH]; intros [|b l'] L; try discriminate L; [reflexivity|].
  cbn [map2 rev]. rewrite map2_app2 by (rewrite !rev_length; injection L; auto). rewrite IH by (injection L; auto). reflexivity.
Qed.
Lemma xor_arr_be k xs ys : length xs = length ys -> map2 u8_xor (arr BE k xs) (arr BE k ys) = arr BE k (map2 Z.lxor xs ys).
Proof.
  revert ys. induction xs as [|x xs IH]; intros [|y ys] L; try discriminate L; [reflexivity|].
  change (map2 u8_xor (be_bytes k x ++ arr BE k xs) (be_bytes k y ++ arr BE k ys) = be_bytes k (Z.lxor x y) ++ arr BE k (map2 Z.lxor xs ys)).
  rewrite map2_app2 by (unfold be_bytes; now rewrite !rev_length, !le_bytes_len). rewrite be_xor, IH by (injection L; auto). reflexivity.
Qed.

Lemma splat32_ord en x : u32x8_splat_ord en x = Some (arr en 4 (repeat x 8)).
Proof. destruct en; reflexivity. Qed.
Lemma flip_en en k xs : (0 < k)%nat -> flip en k (arr en k xs) = arr LE k xs.
Proof. destruct en; [reflexivity|apply flip_arr]. Qed.
Lemma flip_en' en k xs : (0 < k)%nat -> flip en k (arr LE k xs) = arr en k xs.
Proof. destruct en; [reflexivity|apply flip_arr']. Qed.
Lemma on_lanes2_arr en (op : list Z -> list Z -> option (list Z)) f xs ys :
  op (arr LE 4 xs) (arr LE 4 ys) = Some (arr LE 4 (map2 f xs ys)) ->
  on_lanes2 en 4 op (arr en 4 xs) (arr en 4 ys) = Some (arr en 4 (map2 f xs ys)).
Proof. intro E. unfold on_lanes2. rewrite !flip_en by lia. rewrite E. cbn [obind]. now rewrite flip_en' by lia. Qed.
Lemma xor_ord en xs ys : length xs = 8%nat -> length ys = 8%nat ->
  v256_xor NEON64 (arr en 4 xs) (arr en 4 ys) = Some (arr en 4 (map2 Z.lxor xs ys)).
Proof.
  intros Lx Ly. destruct en; [now apply v256_xor_ok|]. rewrite <- xor_arr_be by congruence.
  apply wide_map2; [reflexivity| |]; rewrite arr_len, ?Lx, ?Ly; reflexivity.
Qed.
Lemma utf32_step_ord_ok en ws xs : length ws = 8%nat -> length xs = 8%nat -> Forall (uint 4) ws -> Forall (uint 4) xs ->
  utf32_step_ord en (arr en 4 ws) (arr en 4 xs) = Some (arr en 4 (map2 Z.max ws (map key xs))).
Proof.
  intros Lw Lx Fw Fx. unfold utf32_step_ord. rewrite !splat32_ord. cbn [obind]. rewrite xor_ord by (auto using repeat_length). cbn [obind].
  rewrite map2_rep8 by auto. rewrite (on_lanes2_arr en _ u32_sub).
  2:{ apply u32x8_sub_ok; auto; [reflexivity|now rewrite map_length|apply (map_F (uint 4)); auto using xor_uint|apply Forall_rep; rewrite uint4; lia]. }
  cbn [obind]. rewrite map2_rep8 by now rewrite map_length. rewrite map_map. change (map _ xs) with (map key xs).
  apply on_lanes2_arr. apply u32x8_max_ok; auto; [reflexivity|now rewrite map_length|]. apply (map_F (uint 4)); auto using key_uint.
Qed.
Lemma is_zero_rev l : is_zero_list (rev l) = is_zero_list l.
Proof.
  induction l as [|a l IH]; [reflexivity|]. cbn [rev]. rewrite is_zero_app, IH. change (a :: l) with ([a] ++ l). rewrite is_zero_app.
  apply andb_comm.
Qed.
Lemma is_zero_arr en xs : is_zero_list (arr en 4 xs) = is_zero_list (arr LE 4 xs).
Proof.
  destruct en; [reflexivity|]. induction xs as [|x xs IH]; [reflexivity|].
  change (is_zero_list (rev (le_bytes 4 x) ++ arr BE 4 xs) = is_zero_list (le_bytes 4 x ++ arr LE 4 xs)).
  rewrite !is_zero_app, IH. f_equal. apply is_zero_rev.
Qed.
Definition MaxOrd (en : endian) (c : list Z) (y : list Z) : Prop :=
  exists ws, y = arr en 4 ws /\ length ws = 8%nat /\ Forall (uint 4) ws /\ forallb small ws = forallb (fun x => small (key x)) c.
Lemma utf32_ord_ok en m b o xs : Forall (uint 4) xs -> bytes_at m b o (arr en 4 xs) ->
  wp (is_utf32le_simd_ord en (b, o) (length xs)) (fun r m' => r = forallb scalarb xs /\ m' = m) m.
Proof.
  intros F H.
  unfold is_utf32le_simd_ord. set (n := (length xs / 8 * 8)%nat). assert (Ln : (n <= length xs)%nat) by (unfold n; lia).
  rewrite splat32_ord. apply wp_bind. apply wp_ret. apply wp_bind. eapply wp_add0; [exact H|rewrite arr_len; lia|].
  destruct (split_at xs n Ln) as (a & t & E & La). rewrite <- La. apply wp_bind.
  apply (wp_scan_arr en 4 (MaxOrd en) m b o a 8).
  - lia.
  - lia.
  - rewrite La. unfold n. apply Nat.mod_mul. discriminate.
  - rewrite E, app_length. lia.
  - exists (repeat 0 8). repeat split. apply Forall_rep. rewrite uint4. lia.
  - intros c x r y Ea Lx (ws & -> & Lw & Fw & Hw). cbn [fst snd]. pose proof H as H'. rewrite E, Ea, <- !app_assoc in H'.
    assert (Fx : Forall (uint 4) x) by (rewrite E, Ea, <- !app_assoc in F; now apply Forall_mid in F).
    pose proof H' as H2. rewrite arr_parts in H2. apply wp_bind. rewrite <- (arr_len en 4 c).
    eapply wp_load_mid; [exact H2|rewrite arr_len, Lx; reflexivity|]. rewrite arr_len. apply wp_bind.
    rewrite utf32_step_ord_ok by auto. apply wp_ret. apply wp_bind.
    apply (wp_add_arr en 4 m b o (c ++ x ++ r ++ t) (length c) 8); [exact H'|rewrite !app_length; lia|].
    apply wp_ret. split; [reflexivity|]. eexists. split; [rewrite app_length, Lx; reflexivity|].
    exists (map2 Z.max ws (map key x)). split; [reflexivity|]. split; [apply len_map2; auto; now rewrite map_length|].
    split; [apply map2_F; auto using uint_max; apply (map_F (uint 4)); auto using key_uint|].
    rewrite small_max, forallb_app by congruence. now rewrite Hw.
  - intros y (ws & -> & Lw & Fw & Hw). rewrite splat32_ord. apply wp_bind, wp_ret.
    rewrite (on_lanes2_arr en _ u32_lt) by (apply u32x8_lt_ok; auto; [reflexivity|apply Forall_rep; rewrite uint4; lia]). apply wp_bind, wp_ret.
    rewrite v256_all_zero_ok; [|reflexivity|rewrite arr_len, (len_map2 _ _ _ 8); auto|apply arr_bytes]. apply wp_bind, wp_ret.
    assert (Z := zero_lanes ws Fw). rewrite Lw in Z. rewrite is_zero_arr, Z. apply wp_bind.
    assert (Lt : length t = (length xs mod 8)%nat).
    { assert (length xs = n + length t)%nat by (rewrite E, app_length; lia). unfold n in *. lia. }
    rewrite E in H, F. rewrite arr_app in H. apply bytes_at_app in H as [_ H]. rewrite arr_len in H. apply Forall_app in F as [Fa Ft].
    rewrite <- Lt. eapply wp_mono; [apply utf32_fallback_ok; eauto|]. intros f m' (-> & ->). apply wp_ret. split; [|reflexivity].
    rewrite Hw, E, forallb_app. f_equal. clear -Fa. induction Fa as [|x l Hx Fa IH]; [reflexivity|]. cbn [forallb]. rewrite IH. f_equal.
    now apply key_scalar.
Qed.
