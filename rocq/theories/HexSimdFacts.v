(** Vector-level facts about the hexadecimal kernels. *)
From Coq Require Import ZArith List Bool Lia.
From Verif Require Import Bytes Mem Isa Simd SimdFacts Alsw AlswFacts Spec Hex.
Import ListNotations.
Open Scope Z_scope.
Ltac Zify.zify_post_hook ::= Z.div_mod_to_equations.

Definition lut_of (case : ascii_case) : list Z := match case with Lower => hex_lower | Upper => hex_upper end.

Definition nib (b : Z) : list Z := [b / 16; b mod 16].
Definition nibs (l : list Z) : list Z := flat_map nib l.

Lemma nibs_len l : length (nibs l) = (2 * length l)%nat.
Proof. unfold nibs. induction l as [|a l IH]; [reflexivity|]. cbn [flat_map nib length app]. rewrite IH. lia. Qed.

Lemma hex_encode_len cs l : length (rfc_hex_encode cs l) = (2 * length l)%nat.
Proof. unfold rfc_hex_encode. induction l as [|a l IH]; [reflexivity|]. cbn [flat_map length app]. rewrite IH. lia. Qed.
Lemma hex_encode_app cs a b : rfc_hex_encode cs (a ++ b) = rfc_hex_encode cs a ++ rfc_hex_encode cs b.
Proof. apply flat_map_app. Qed.

Lemma wide_and s a b : simd s -> length a = 32%nat -> length b = 32%nat -> v256_and s a b = Some (map2 u8_and a b).
Proof. intros. now apply (wide_map2 s u8_and). Qed.
Lemma wide_or s a b : simd s -> length a = 32%nat -> length b = 32%nat -> v256_or s a b = Some (map2 u8_or a b).
Proof. intros. now apply (wide_map2 s u8_or). Qed.
Lemma splat256_1 s x : simd s -> splat256 s [x] = Some (repeat x 32).
Proof. intro H. exact (u8xn_splat_ok W256 s x H). Qed.
Lemma wide_shl16 s n a : simd s -> length a = 32%nat -> u16x16_shl s n a = Some (lanes16 (u16_shl n) a).
Proof. intros. apply wide1_ok; auto; [intros; now apply native1_ok|now apply lanes16_halves]. Qed.
Lemma wide_shr16 s n a : simd s -> length a = 32%nat -> u16x16_shr s n a = Some (lanes16 (u16_shr n) a).
Proof. intros. apply wide1_ok; auto; [intros; now apply native1_ok|now apply lanes16_halves]. Qed.
Lemma u16xn_shl_ok w s n a : simd s -> length a = vlen w -> u16xn_shl w s n a = Some (lanes16 (u16_shl n) a).
Proof. intros Hs. destruct w; cbn [u16xn_shl pick vlen]; intro; [now apply native1_ok|now apply wide_shl16]. Qed.
Lemma u16xn_shr_ok w s n a : simd s -> length a = vlen w -> u16xn_shr w s n a = Some (lanes16 (u16_shr n) a).
Proof. intros Hs. destruct w; cbn [u16xn_shr pick vlen]; intro; [now apply native1_ok|now apply wide_shr16]. Qed.

Lemma zero_extend_app a b : zero_extend (a ++ b) = zero_extend a ++ zero_extend b.
Proof. induction a; cbn; [reflexivity|]. now rewrite IHa. Qed.
Lemma zero_extend_len a : length (zero_extend a) = (2 * length a)%nat.
Proof. induction a; cbn; [reflexivity|]. rewrite IHa. lia. Qed.
Lemma interleave_zero a n : (length a <= n)%nat -> interleave a (repeat 0 n) = zero_extend a.
Proof. revert n; induction a as [|x a IH]; intros [|n] H; cbn in *; try easy; try lia. rewrite IH; auto. lia. Qed.

Lemma from_u8_ok s a : simd s -> length a = 16%nat -> u16x16_from_u8x16 s a = Some (zero_extend a).
Proof.
  intros Hs La. unfold u16x16_from_u8x16. destruct (matches_isa s [IAVX2]); [reflexivity|].
  destruct (matches_isa s [ISSE2]) eqn:E.
  - unfold v128_create_zero, arm. unfold simd in Hs. unfold all3. rewrite Hs. cbn [obind].
    unfold u8x16_zip_lo, u8x16_zip_hi. rewrite !native2_ok by exact Hs. cbn [obind].
    change (lo64 (repeat 0 16)) with (repeat 0 8). change (hi64 (repeat 0 16)) with (repeat 0 8).
    rewrite !interleave_zero, <- zero_extend_app, firstn_skipn_8; auto.
    + unfold hi64. rewrite skipn_length. lia.
    + unfold lo64. rewrite firstn_length. lia.
  - unfold arm. replace (matches_isa s [INEON; IWASM128]) with true by (destruct s; easy).
    now rewrite <- zero_extend_app, firstn_skipn_8.
Qed.

Lemma nib_point a : byte a ->
  let hi := u16_shl 8 (mk16 a 0) in let lo := u16_shr 4 (mk16 a 0) in
  [u8_and (u8_or (byte0 hi) (byte0 lo)) 15; u8_and (u8_or (byte1 hi) (byte1 lo)) 15] = nib a.
Proof.
  intro H. apply list_eqb_eq. revert a H. apply byte_sweep. vm_compute. reflexivity.
Qed.
Lemma nib_values l : bytes l ->
  map (fun x => u8_and x 15) (map2 u8_or (lanes16 (u16_shl 8) (zero_extend l)) (lanes16 (u16_shr 4) (zero_extend l))) = nibs l.
Proof.
  induction 1 as [|a l Ha Hl IH]; [reflexivity|].
  cbn [zero_extend lanes16 nibs flat_map]. cbn zeta. cbn [map2 map]. rewrite IH.
  fold (nibs l). rewrite <- (nib_point a Ha). reflexivity.
Qed.

Lemma swz_lane_small s t v : 0 <= v < 16 -> swz_lane s t v = nth (Z.to_nat v) t 0.
Proof.
  intro H. unfold swz_lane, pshufb_lane, tbl16_lane, tbl_get.
  destruct (Z.leb_spec 128 v), (Z.leb_spec 16 v); try lia.
  rewrite Z.mod_small by lia. now destruct (matches_isa s [ISSSE3]).
Qed.

Lemma nibs_lookup s cs l : bytes l -> map (swz_lane s cs) (nibs l) = rfc_hex_encode cs l.
Proof.
  induction 1 as [|a l Ha Hl IH]; [reflexivity|]. unfold byte in Ha.
  cbn [nibs flat_map nib app map rfc_hex_encode]. fold (nibs l). rewrite IH.
  rewrite !swz_lane_small by lia. reflexivity.
Qed.

Lemma lut_swz s cs v : swz s -> length cs = 16%nat -> length v = 32%nat ->
  u8x16x2_swizzle s (x2 cs) v = Some (map (swz_lane s cs) v).
Proof. intros. now apply (u8x16xn_swizzle_ok W256). Qed.

Lemma encode_bytes16_ok s x cs : swz s -> length cs = 16%nat -> length x = 16%nat -> bytes x ->
  hex_encode_bytes16 s x (x2 cs) = Some (rfc_hex_encode cs x).
Proof.
  intros Hs Lc Lx Bx. assert (Hs' := swz_simd _ Hs).
  assert (L32 : length (zero_extend x) = 32%nat) by (rewrite zero_extend_len; lia).
  unfold hex_encode_bytes16. rewrite from_u8_ok by auto. cbn [obind].
  rewrite wide_shl16, wide_shr16 by auto. cbn [obind].
  rewrite wide_or by (auto; apply len_lanes16; auto; rewrite L32; reflexivity). cbn [obind].
  rewrite splat256_1 by auto. cbn [obind].
  assert (Lm : length (map2 u8_or (lanes16 (u16_shl 8) (zero_extend x)) (lanes16 (u16_shr 4) (zero_extend x))) = 32%nat)
    by (apply len_map2; apply len_lanes16; auto; rewrite L32; reflexivity).
  rewrite wide_and by (auto; apply repeat_length). cbn [obind].
  rewrite map2_repeat_r by auto. rewrite nib_values by auto.
  rewrite lut_swz by (auto; rewrite nibs_len; lia). now rewrite nibs_lookup.
Qed.

(** pair-wise nibbles of a 16-bit lane shifted right by 4 *)
Lemma shr4_point a b : byte a -> byte b ->
  let y := u16_shr 4 (mk16 a b) in [u8_and (byte0 y) 15; u8_and (byte1 y) 15] = [a / 16; b / 16].
Proof.
  unfold byte. intros Ha Hb. unfold u8_and. change 15 with (Z.ones 4). rewrite !Z.land_ones by lia.
  unfold u16_shr, mk16, byte0, byte1, pow2. change (2 ^ 4) with 16. f_equal; [|f_equal]; lia.
Qed.
Lemma shr4_values x : Nat.even (length x) = true -> bytes x ->
  map (fun v => u8_and v 15) (lanes16 (u16_shr 4) x) = map (fun v => v / 16) x.
Proof.
  assert (G : forall k x, (length x <= k)%nat -> Nat.even (length x) = true -> bytes x ->
     map (fun v => u8_and v 15) (lanes16 (u16_shr 4) x) = map (fun v => v / 16) x).
  { induction k; intros [|a [|b r]] Hk He B; cbn [length] in *; try easy; try lia.
    inv_bytes. cbn [lanes16 map]. cbn zeta. cbn [map].
    pose proof (shr4_point a b ltac:(auto) ltac:(auto)) as P. cbn zeta in P. inversion P as [[P1 P2]].
    rewrite P1, P2. rewrite IHk; auto. lia. }
  intros. now apply (G (length x)).
Qed.
Lemma and15 a : byte a -> u8_and a 15 = a mod 16.
Proof. intro H. apply Z.eqb_eq. revert a H. apply byte_sweep. vm_compute. reflexivity. Qed.
Lemma and15_values x : bytes x -> map (fun v => u8_and v 15) x = map (fun v => v mod 16) x.
Proof. induction 1; cbn; [reflexivity|]. now rewrite and15, IHForall. Qed.

Lemma interleave_nibs x : interleave (map (fun v => v / 16) x) (map (fun v => v mod 16) x) = nibs x.
Proof. induction x as [|a x IH]; [reflexivity|]. cbn [map interleave nibs flat_map nib app]. fold (nibs x). now rewrite IH. Qed.

Lemma nibs_app a b : nibs (a ++ b) = nibs a ++ nibs b.
Proof. apply flat_map_app. Qed.

Lemma encode_bytes32_ok x cs : length cs = 16%nat -> length x = 32%nat -> bytes x ->
  exists y1 y2, hex_encode_bytes32 AVX2 x (x2 cs) = Some (y1, y2) /\
    length y1 = 32%nat /\ length y2 = 32%nat /\ y1 ++ y2 = rfc_hex_encode cs x.
Proof.
  intros Lc Lx Bx. assert (Hs : swz AVX2) by reflexivity. assert (Hs' : simd AVX2) by reflexivity.
  unfold hex_encode_bytes32. rewrite splat256_1 by auto. cbn [obind].
  rewrite wide_shr16 by auto. cbn [obind].
  assert (Ls : length (lanes16 (u16_shr 4) x) = 32%nat) by (apply len_lanes16; auto; rewrite Lx; reflexivity).
  rewrite !wide_and by (auto; apply repeat_length). cbn [obind].
  rewrite !map2_repeat_r by auto. rewrite shr4_values by (auto; rewrite Lx; reflexivity).
  rewrite and15_values by auto.
  set (H := map (fun v => v / 16) x). set (L := map (fun v => v mod 16) x).
  unfold u8x16x2_zip_lo, u8x16x2_zip_hi, wide2, v128x2_zip_lo, v128x2_zip_hi, arm.
  change (matches_isa AVX2 [IAVX2]) with true. cbn [obind].
  assert (LH : length H = 32%nat) by (unfold H; rewrite map_length; auto).
  assert (LL : length L = 32%nat) by (unfold L; rewrite map_length; auto).
  assert (EQ : forall h l : list Z, length h = 32%nat -> length l = 32%nat ->
     (lo128 (interleave (lo64 (lo128 h)) (lo64 (lo128 l)) ++ interleave (lo64 (hi128 h)) (lo64 (hi128 l))) ++
      lo128 (interleave (hi64 (lo128 h)) (hi64 (lo128 l)) ++ interleave (hi64 (hi128 h)) (hi64 (hi128 l)))) =
     firstn 32 (interleave h l) /\
     (hi128 (interleave (lo64 (lo128 h)) (lo64 (lo128 l)) ++ interleave (lo64 (hi128 h)) (lo64 (hi128 l))) ++
      hi128 (interleave (hi64 (lo128 h)) (hi64 (lo128 l)) ++ interleave (hi64 (hi128 h)) (hi64 (hi128 l)))) =
     skipn 32 (interleave h l)).
  { clear. intros h l Hh Hl. explode h. explode l. split; reflexivity. }
  destruct (EQ H L LH LL) as [-> ->].
  unfold H, L. rewrite interleave_nibs.
  assert (LN := nibs_len x). rewrite Lx in LN.
  rewrite !lut_swz; auto.
  2:{ rewrite skipn_length. lia. }
  2:{ rewrite firstn_length. lia. }
  cbn [obind]. do 2 eexists. split; [reflexivity|]. rewrite !map_length, firstn_length, skipn_length.
  repeat split; try lia. rewrite <- map_app, firstn_skipn. now apply nibs_lookup.
Qed.

(** ** SSE2 encoder *)
Definition sse2_lane (off v : Z) : Z :=
  let h1 := u8_add v 48 in u8_add h1 (u8_and (i8_lt 57 h1) off).
Definition off_of (case : ascii_case) : Z := match case with Lower => 39 | Upper => 7 end.
Lemma sse2_lane_ok case v : 0 <= v < 16 -> sse2_lane (off_of case) v = nth (Z.to_nat v) (lut_of case) 0.
Proof.
  intro H. apply Z.eqb_eq. destruct case; revert v H.
  - apply (sweep1 16 (fun v => sse2_lane (off_of Lower) v =? nth (Z.to_nat v) (lut_of Lower) 0)). reflexivity.
  - apply (sweep1 16 (fun v => sse2_lane (off_of Upper) v =? nth (Z.to_nat v) (lut_of Upper) 0)). reflexivity.
Qed.

Lemma interleave_map f a b : interleave (map f a) (map f b) = map f (interleave a b).
Proof. revert b; induction a as [|x a IH]; intros [|y b]; cbn; auto. now rewrite IH. Qed.
Lemma nibs_map f case l : (forall v, 0 <= v < 16 -> f v = nth (Z.to_nat v) (lut_of case) 0) -> bytes l ->
  map f (nibs l) = rfc_hex_encode (lut_of case) l.
Proof.
  intro H. induction 1 as [|a l Ha Hl IH]; [reflexivity|]. unfold byte in Ha.
  cbn [nibs flat_map nib app map rfc_hex_encode]. fold (nibs l). rewrite IH, !H by lia. reflexivity.
Qed.

Lemma native_map2 s f a b : simd s -> native2 s (map2 f) a b = Some (map2 f a b).
Proof. apply native2_ok. Qed.

Lemma sse2_encode16_ok case x : length x = 16%nat -> bytes x ->
  exists y1 y2, sse2_encode16 SSE2 x (match case with Lower => LOWER_OFFSET | Upper => UPPER_OFFSET end) = Some (y1, y2) /\
    length y1 = 16%nat /\ length y2 = 16%nat /\ y1 ++ y2 = rfc_hex_encode (lut_of case) x.
Proof.
  intros Lx Bx. assert (Hs : simd SSE2) by reflexivity.
  unfold sse2_encode16. rewrite !splat128_1 by auto. cbn [obind].
  unfold u16x8_shr. rewrite native1_ok by auto. cbn [obind].
  assert (Ls : length (lanes16 (u16_shr 4) x) = 16%nat) by (apply len_lanes16; auto; rewrite Lx; reflexivity).
  unfold v128_and, u8x16_add, i8x16_lt, u8x16_zip_lo, u8x16_zip_hi.
  repeat (rewrite native2_ok by auto; cbn [obind]).
  rewrite (map2_repeat_r u8_and (lanes16 _ _)) by auto. rewrite (map2_repeat_r u8_and x) by auto.
  rewrite shr4_values by (auto; rewrite Lx; reflexivity).
  rewrite and15_values by auto.
  replace (match case with Lower => LOWER_OFFSET | Upper => UPPER_OFFSET end) with (repeat (off_of case) 16)
    by (destruct case; reflexivity).
  set (H := map (fun v => v / 16) x). set (L := map (fun v => v mod 16) x).
  assert (LH : length H = 16%nat) by (unfold H; rewrite map_length; auto).
  assert (LL : length L = 16%nat) by (unfold L; rewrite map_length; auto).
  assert (P : forall v, length v = 16%nat ->
    map2 u8_add (map2 u8_add v (repeat 48 16))
      (map2 u8_and (map2 i8_lt (repeat 57 16) (map2 u8_add v (repeat 48 16))) (repeat (off_of case) 16)) =
    map (sse2_lane (off_of case)) v).
  { intros v Lv. rewrite (map2_repeat_r _ v) by auto.
    rewrite map2_repeat_l by (now rewrite map_length). rewrite map2_repeat_r by (now rewrite !map_length).
    rewrite !map_map. rewrite map2_map_l, map2_map_r, map2_same. reflexivity. }
  rewrite !P by auto.
  do 2 eexists. split; [reflexivity|].
  assert (Q : interleave (lo64 H) (lo64 L) ++ interleave (hi64 H) (hi64 L) = interleave H L /\
     length (interleave (lo64 H) (lo64 L)) = 16%nat /\ length (interleave (hi64 H) (hi64 L)) = 16%nat).
  { clearbody H L. clear - LH LL. explode H. explode L. repeat split. }
  destruct Q as (Q & Q1 & Q2).
  unfold lo64, hi64 in *. rewrite !firstn_map, !skipn_map, !interleave_map, !map_length.
  split; [exact Q1|]. split; [exact Q2|]. rewrite <- map_app, Q. unfold H, L. rewrite interleave_nibs.
  apply nibs_map; [apply sse2_lane_ok|exact Bx].
Qed.

(** ** Decoding *)
Definition bad (c : Z) : bool := parse_hex c =? 255.
Fixpoint pairs (l : list Z) : list Z := match l with a :: b :: r => 16 * a + b :: pairs r | _ => [] end.

Lemma parse_hex_digit c : byte c -> hex_digit c = if bad c then None else Some (parse_hex c).
Proof.
  intro H. assert (E : (match hex_digit c with Some v => negb (bad c) && (parse_hex c =? v) | None => bad c end) = true)
    by (revert c H; apply byte_sweep; vm_compute; reflexivity).
  destruct (hex_digit c) as [v|]; [|now rewrite E].
  apply andb_true_iff in E as [E1 E2]. apply negb_true_iff in E1. rewrite E1. apply Z.eqb_eq in E2. congruence.
Qed.
Lemma parse_hex_range c : byte c -> bad c = false -> 0 <= parse_hex c < 16.
Proof.
  intros H. assert (E : (bad c || ((0 <=? parse_hex c) && (parse_hex c <? 16))) = true)
    by (revert c H; apply byte_sweep; vm_compute; reflexivity).
  intro B. rewrite B in E. cbn in E. apply andb_true_iff in E as [E1 E2].
  apply Z.leb_le in E1. apply Z.ltb_lt in E2. lia.
Qed.

Lemma list_ind2 {A} (P : list A -> Prop) :
  P [] -> (forall a b r, P r -> P (a :: b :: r)) -> forall l, Nat.even (length l) = true -> P l.
Proof.
  intros H0 H1. assert (G : forall k l, (length l <= k)%nat -> Nat.even (length l) = true -> P l).
  { induction k; intros [|a [|b r]] Hk He; cbn [length] in *; try easy; try lia. apply H1, IHk; auto. lia. }
  intros l. now apply (G (length l)).
Qed.

Lemma hex_decode_pairs x : Nat.even (length x) = true -> bytes x ->
  rfc_hex_decode x = if existsb bad x then None else Some (pairs (map parse_hex x)).
Proof.
  intros He. pattern x. apply list_ind2; [reflexivity| |exact He]. clear.
  intros a b r IH B. inv_bytes. cbn [rfc_hex_decode existsb map pairs].
  rewrite !parse_hex_digit, IH by auto.
  destruct (bad a), (bad b), (existsb bad r); reflexivity.
Qed.

Lemma hex_decode_app a b : Nat.even (length a) = true ->
  rfc_hex_decode (a ++ b) =
  match rfc_hex_decode a with
  | None => None
  | Some o => match rfc_hex_decode b with None => None | Some p => Some (o ++ p) end
  end.
Proof.
  intro He. pattern a. apply list_ind2; [| |exact He]; clear.
  - cbn [app rfc_hex_decode]. now destruct (rfc_hex_decode b).
  - intros u v r IH. cbn [app rfc_hex_decode]. rewrite IH.
    destruct (hex_digit u), (hex_digit v), (rfc_hex_decode r), (rfc_hex_decode b); reflexivity.
Qed.

Lemma hex_decode_length x o : rfc_hex_decode x = Some o -> length x = (2 * length o)%nat.
Proof.
  assert (G : forall k x o, (length x <= k)%nat -> rfc_hex_decode x = Some o -> length x = (2 * length o)%nat).
  { induction k; intros [|a [|b r]] o' Hk E; cbn [length rfc_hex_decode] in *; try lia; try easy; try (now inversion E).
    destruct (hex_digit a), (hex_digit b), (rfc_hex_decode r) as [p|] eqn:R; try easy.
    inversion E; subst. cbn [length]. rewrite (IHk r p); auto; lia. }
  apply (G (length x)). lia.
Qed.

Lemma pairs_len l : Nat.even (length l) = true -> (2 * length (pairs l))%nat = length l.
Proof. intro He. pattern l. apply list_ind2; [reflexivity| |exact He]. clear. intros a b r IH. cbn [pairs length]. lia. Qed.

Lemma merge_point a b : 0 <= a < 16 -> 0 <= b < 16 ->
  let x1 := u16_shl 4 (mk16 a b) in
  let x2 := u16_shr 12 (mk16 (byte0 x1) (byte1 x1)) in
  u8_or (byte0 x1) (byte0 x2) = 16 * a + b.
Proof.
  intros Ha Hb. apply Z.eqb_eq. revert a b Ha Hb.
  apply (sweep2 16 16 (fun a b => let x1 := u16_shl 4 (mk16 a b) in
     let x2 := u16_shr 12 (mk16 (byte0 x1) (byte1 x1)) in u8_or (byte0 x1) (byte0 x2) =? 16 * a + b)). reflexivity.
Qed.
Lemma merge_evens v : Nat.even (length v) = true -> Forall (fun n => 0 <= n < 16) v ->
  evens (map2 u8_or (lanes16 (u16_shl 4) v) (lanes16 (u16_shr 12) (lanes16 (u16_shl 4) v))) = pairs v.
Proof.
  intro He. pattern v. apply list_ind2; [reflexivity| |exact He]. clear.
  intros a b r IH F. inversion F as [|? ? F1 F2]; inversion F2; subst.
  cbn [lanes16]. cbn zeta. cbn [lanes16]. cbn zeta. cbn [map2 evens pairs].
  rewrite <- IH by auto. f_equal. now apply merge_point.
Qed.

Definition hex_decode_w (w : width) (s : isa) (x : list Z) : option (list Z * list Z) :=
  let? c := decode_ascii_xn w s x (xn_luts w (check_lut HexAlsw)) (xn_luts w (decode_lut HexAlsw)) in
  let? y := hex_merge_bits w s (snd c) in Some (y, fst c).

Lemma even_vlen w : Nat.even (vlen w) = true.
Proof. now destruct w. Qed.

Lemma hex_decode_w_ok w s x : swz s -> length x = vlen w -> bytes x ->
  exists y c1, hex_decode_w w s x = Some (y, c1) /\ length y = vlen w /\ length c1 = vlen w /\ bytes c1 /\
    highbits c1 = existsb bad x /\ (existsb bad x = false -> evens y = pairs (map parse_hex x)).
Proof.
  intros Hs Lx Bx. assert (Hs' := swz_simd _ Hs).
  destruct (decode_ascii_xn_ok HexAlsw hex_alsw_exact w s x Hs Lx Bx) as (c1 & c2 & E & L1 & L2 & B1 & B2 & H1 & H2).
  unfold hex_decode_w. rewrite E. cbn [obind fst snd]. unfold hex_merge_bits.
  assert (Ev : Nat.even (length c2) = true) by (rewrite L2; apply even_vlen).
  rewrite u16xn_shl_ok by auto. cbn [obind].
  assert (LA : length (lanes16 (u16_shl 4) c2) = vlen w) by (apply len_lanes16; auto).
  rewrite u16xn_shr_ok by auto. cbn [obind].
  assert (LB : length (lanes16 (u16_shr 12) (lanes16 (u16_shl 4) c2)) = vlen w)
    by (apply len_lanes16; auto; rewrite LA; apply even_vlen).
  rewrite xn_or_ok by auto. cbn [obind]. do 2 eexists. split; [reflexivity|].
  repeat split; auto.
  - apply len_map2; auto.
  - intro Hb. change (existsb bad x = false) in Hb. rewrite (H2 Hb).
    apply merge_evens; [now rewrite map_length, Lx, even_vlen|].
    apply Forall_forall. intros n Hn. apply in_map_iff in Hn as (c & <- & Hc).
    apply parse_hex_range; [now apply (proj1 (Forall_forall _ _) Bx)|].
    apply not_true_is_false. intro Hbad. assert (existsb bad x = true) by (apply existsb_exists; eauto). congruence.
Qed.

Definition dec_result (o : option (list Z)) : result (list Z) := match o with Some l => Ok l | None => Err end.

Lemma hex_decode_ascii16_ok s x : swz s -> length x = 16%nat -> bytes x ->
  hex_decode_ascii16 s x = Some (dec_result (rfc_hex_decode x)).
Proof.
  intros Hs Lx Bx. assert (Hs' := swz_simd _ Hs).
  destruct (hex_decode_w_ok W128 s x Hs Lx Bx) as (y & c1 & E & Ly & Lc & Bc & H1 & H2).
  unfold hex_decode_ascii16. change (hex_decode16 s x) with (hex_decode_w W128 s x). rewrite E. cbn [obind fst snd].
  cbn [vlen] in *.
  assert (U : (if matches_isa s [ISSSE3; IWASM128] then let? z := u8x16_swizzle s y UZP1 in Some (lo64 z)
    else if matches_isa s [INEON] then u8x8_unzip_even s (lo64 y) (hi64 y) else None) = Some (evens y)).
  { clear - Hs Ly. explode y. destruct s; try discriminate Hs; reflexivity. }
  rewrite U. cbn [obind]. rewrite u8x16_highbit_any_ok by auto. cbn [obind]. rewrite H1.
  rewrite hex_decode_pairs by (auto; now rewrite Lx).
  destruct (existsb bad x); [reflexivity|]. cbn [dec_result]. now rewrite H2.
Qed.

Lemma hex_decode_ascii32_ok s x : swz s -> length x = 32%nat -> bytes x ->
  hex_decode_ascii32 s x = Some (dec_result (rfc_hex_decode x)).
Proof.
  intros Hs Lx Bx. assert (Hs' := swz_simd _ Hs).
  destruct (hex_decode_w_ok W256 s x Hs Lx Bx) as (y & c1 & E & Ly & Lc & Bc & H1 & H2).
  unfold hex_decode_ascii32. change (hex_decode32 s x) with (hex_decode_w W256 s x). rewrite E. cbn [obind fst snd].
  cbn [vlen] in *.
  assert (U : (if matches_isa s [ISSSE3; IWASM128] then
      let? z := u8x16x2_swizzle s y DECODE_UZP1 in u64x2_zip_lo s (lo128 z) (hi128 z)
    else if matches_isa s [INEON] then u8x16_unzip_even s (lo128 y) (hi128 y)
    else None) = Some (evens y)).
  { clear - Hs Ly. explode y. destruct s; try discriminate Hs; reflexivity. }
  rewrite U. cbn [obind]. rewrite u8x32_highbit_any_ok by auto. cbn [obind]. rewrite H1.
  rewrite hex_decode_pairs by (auto; now rewrite Lx).
  destruct (existsb bad x); [reflexivity|]. cbn [dec_result]. now rewrite H2.
Qed.

Lemma hex_decode_ascii32x2_ok s x0 x1 : swz s -> length x0 = 32%nat -> bytes x0 -> length x1 = 32%nat -> bytes x1 ->
  hex_decode_ascii32x2 s x0 x1 = Some (dec_result (rfc_hex_decode (x0 ++ x1))).
Proof.
  intros Hs Lx Bx Lx1 Bx1. assert (Hs' := swz_simd _ Hs).
  destruct (hex_decode_w_ok W256 s x0 Hs Lx Bx) as (y & c1 & E & Ly & Lc & Bc & H1 & H2).
  destruct (hex_decode_w_ok W256 s x1 Hs Lx1 Bx1) as (y' & c1' & E' & Ly' & Lc' & Bc' & H1' & H2').
  unfold hex_decode_ascii32x2. change (hex_decode32 s) with (hex_decode_w W256 s). rewrite E, E'. cbn [obind fst snd].
  cbn [vlen] in *. rewrite wide_or by auto. cbn [obind].
  assert (U : (if matches_isa s [IAVX2] then
      let? ab := u8x16x2_swizzle s y DECODE_UZP1 in
      let? cd := u8x16x2_swizzle s y' DECODE_UZP2 in
      let? acbd := v256_or s ab cd in
      u64x4_permute_0213 s acbd
    else if matches_isa s [ISSSE3; IWASM128] then
      let? ab := u8x16x2_swizzle s y DECODE_UZP1 in
      let? cd := u8x16x2_swizzle s y' DECODE_UZP1 in
      u64x4_unzip_even s ab cd
    else if matches_isa s [INEON] then u8x32_unzip_even s y y'
    else None) = Some (evens y ++ evens y')).
  { assert (or0 : forall a, u8_or a 0 = a) by (intro; apply Z.lor_0_r).
    assert (or1 : forall a, u8_or 0 a = a) by (intro; apply Z.lor_0_l).
    clear - Hs Ly Ly' or0 or1. explode y. explode y'. destruct s; try discriminate Hs;
    cbn -[u8_or]; rewrite ?or0, ?or1; reflexivity. }
  rewrite U. cbn [obind]. rewrite u8x32_highbit_any_ok by (auto using len_map2, bytes_or). cbn [obind].
  rewrite highbits_or by (auto; congruence). rewrite H1, H1'.
  rewrite hex_decode_pairs.
  - rewrite existsb_app. destruct (existsb bad x0), (existsb bad x1); try reflexivity. cbn [orb dec_result].
    rewrite H2, H2' by auto. rewrite map_app. do 2 f_equal.
    assert (P : forall a b, Nat.even (length a) = true -> pairs (a ++ b) = pairs a ++ pairs b).
    { clear. intros a b Ha. pattern a. apply list_ind2; [reflexivity| |exact Ha]. clear. intros u v r IH. cbn [app pairs]. now rewrite IH. }
    symmetry. apply P. now rewrite map_length, Lx.
  - now rewrite app_length, Lx, Lx1.
  - apply bytes_app; auto.
Qed.

(** ** The width-generic check *)
Definition check_lane (x : Z) : Z :=
  u8_or (i8_lt (u8_sub x (48 + 128)) 138) (i8_lt (u8_sub (u8_and x 223) (65 + 128)) 134).
Lemma check_lane_ok x : byte x -> check_lane x = mask8 (negb (bad x)).
Proof. intro H. apply Z.eqb_eq. revert x H. apply byte_sweep. vm_compute. reflexivity. Qed.

Lemma hex_check_xn_ok w s x : simd s -> length x = vlen w -> bytes x ->
  hex_check_xn w s x = Some (negb (existsb bad x)).
Proof.
  intros Hs Lx Bx. unfold hex_check_xn.
  rewrite !u8xn_splat_ok by auto. cbn [obind].
  rewrite u8xn_sub_ok by (auto; apply repeat_length). cbn [obind].
  rewrite xn_and_ok by (auto; apply repeat_length). cbn [obind].
  rewrite !map2_repeat_r by auto.
  rewrite u8xn_sub_ok by (try apply repeat_length; auto; now rewrite map_length). cbn [obind].
  rewrite i8xn_lt_ok by (try apply repeat_length; auto; now rewrite map_length). cbn [obind].
  rewrite map2_repeat_r by (now rewrite map_length). rewrite map_map.
  rewrite map2_repeat_r by (now rewrite map_length). rewrite map_map.
  rewrite i8xn_lt_ok by (try apply repeat_length; auto; now rewrite map_length). cbn [obind].
  rewrite map2_repeat_r by (now rewrite map_length). rewrite map_map.
  rewrite xn_or_ok by (auto; now rewrite map_length). cbn [obind].
  rewrite map2_map_l, map2_map_r, map2_same.
  assert (M : map (fun x => u8_or (i8_lt (u8_sub x (48 + 128)) 138) (i8_lt (u8_sub (u8_and x 223) (65 + 128)) 134)) x
     = map (fun c => mask8 (negb (bad c))) x).
  { apply map_ext_in. intros c Hc. apply check_lane_ok. now apply (proj1 (Forall_forall _ _) Bx). }
  rewrite M. rewrite mask8xn_all_ok by (auto using ismask_map; now rewrite map_length). f_equal.
  clear. induction x as [|a x IH]; [reflexivity|]. cbn [map highbits_all forallb existsb].
  unfold highbits_all in IH. rewrite IH. destruct (bad a); reflexivity.
Qed.

(** ** SSE2 decoder *)
Definition nibble_lane (x : Z) : Z :=
  let t1 := u8_add x (255 - 57) in let t2 := u8_sub_sat t1 6 in let t3 := u8_sub t2 240 in
  let t4 := u8_and x 223 in let t5 := u8_sub t4 65 in let t6 := u8_add_sat t5 10 in u8_min t3 t6.
Lemma nibble_flag x : byte x -> (128 <=? u8_add_sat (nibble_lane x) (127 - 15)) = bad x.
Proof.
  intro H. apply eqb_prop. revert x H. apply byte_sweep. vm_compute. reflexivity.
Qed.
Lemma nibble_ok x : byte x -> bad x = false -> nibble_lane x = parse_hex x.
Proof.
  intro H. assert (E : bad x || (nibble_lane x =? parse_hex x) = true)
    by (revert x H; apply byte_sweep; vm_compute; reflexivity).
  intro B. rewrite B in E. now apply Z.eqb_eq.
Qed.

Lemma sse2_nibbles_ok x : length x = 16%nat ->
  sse2_decode_nibbles SSE2 x = Some (map nibble_lane x, map (fun c => u8_add_sat (nibble_lane c) (127 - 15)) x).
Proof. intro L. explode x. reflexivity. Qed.

Lemma sse2_flag_ok x : length x = 16%nat -> bytes x ->
  u8x16_bitmask SSE2 (map (fun c => u8_add_sat (nibble_lane c) (127 - 15)) x) =
    Some (movemask (map (fun c => u8_add_sat (nibble_lane c) (127 - 15)) x)) /\
  (movemask (map (fun c => u8_add_sat (nibble_lane c) (127 - 15)) x) =? 0) = negb (existsb bad x).
Proof.
  intros L B. split; [reflexivity|]. rewrite movemask_zero. f_equal. unfold highbits. clear L.
  induction B as [|a l Ha Hl IH]; [reflexivity|]. cbn [map existsb]. now rewrite IH, nibble_flag.
Qed.

Lemma sse2_merge_point a b : 0 <= a < 16 -> 0 <= b < 16 ->
  let lo := u16_shr 8 (mk16 a b) in let hi := u16_shl 4 (mk16 a b) in
  packus (mk16 (u8_and (u8_or (byte0 lo) (byte0 hi)) 255) (u8_and (u8_or (byte1 lo) (byte1 hi)) 0)) = 16 * a + b.
Proof.
  intros Ha Hb. apply Z.eqb_eq. revert a b Ha Hb.
  apply (sweep2 16 16 (fun a b => let lo := u16_shr 8 (mk16 a b) in let hi := u16_shl 4 (mk16 a b) in
  packus (mk16 (u8_and (u8_or (byte0 lo) (byte0 hi)) 255) (u8_and (u8_or (byte1 lo) (byte1 hi)) 0)) =? 16 * a + b)). reflexivity.
Qed.

Lemma sse2_merge_ok v : length v = 16%nat -> Forall (fun n => 0 <= n < 16) v ->
  sse2_merge_bits SSE2 v = Some (pairs v).
Proof.
  intros L F. explode v.
  repeat match goal with H : Forall _ (_ :: _) |- _ => inversion H; subst; clear H end.
  cbn [pairs]. rewrite <- !sse2_merge_point by assumption. reflexivity.
Qed.

Lemma sse2_decode_ok x : length x = 16%nat -> bytes x -> existsb bad x = false ->
  exists y, sse2_merge_bits SSE2 (map nibble_lane x) = Some y /\ rfc_hex_decode x = Some y.
Proof.
  intros L B H. exists (pairs (map parse_hex x)).
  assert (E : map nibble_lane x = map parse_hex x).
  { apply map_ext_in. intros c Hc. assert (byte c) by now apply (proj1 (Forall_forall _ _) B).
    apply nibble_ok; auto. apply not_true_is_false. intro Hb.
    assert (existsb bad x = true) by (apply existsb_exists; eauto). congruence. }
  rewrite E. split.
  - apply sse2_merge_ok; [now rewrite map_length|].
    apply Forall_forall. intros n Hn. apply in_map_iff in Hn as (c & <- & Hc).
    apply parse_hex_range; [now apply (proj1 (Forall_forall _ _) B)|].
    apply not_true_is_false. intro Hb. assert (existsb bad x = true) by (apply existsb_exists; eauto). congruence.
  - rewrite hex_decode_pairs by (auto; now rewrite L). now rewrite H.
Qed.
