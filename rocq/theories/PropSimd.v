(** Property theorems for the vsimd primitives: C38 (ALSW) and C41 (emulated primitives).
    A vector is the list of its bytes in memory order; [arr LE k xs] are the bytes of lanes of [k] bytes. *)
From Coq Require Import ZArith List Bool Lia String.
From Verif Require Import Bytes Isa Ints Simd SimdFacts PrimFacts UnicodeSpec LaneFacts Spec Alsw AlswFacts SimdProps.
Import ListNotations.
Open Scope list_scope. Open Scope Z_scope.

(** ** C38 *)

(** the check accepts exactly the vectors of alphabet characters, whatever the neighbouring lanes are *)
Theorem C38_check_ascii : forall al w s x, matches_isa s [ISSSE3; INEON; IWASM128] = true -> List.length x = vlen w -> bytes x ->
  check_ascii_xn w s x (xn_luts w (check_lut (alsw_table al))) = Some (forallb (in_alphabet al) x).
Proof.
  intros al w s x Hs L B. rewrite check_ascii_xn_ok by auto using alsw_table_exact. f_equal.
  induction B as [|c x Hc B IH] in L |- *; [reflexivity|]. clear IH L. revert c Hc.
  induction B as [|d x Hd B IH]; intros c Hc; cbn [forallb]; rewrite in_alphabet_ok by auto; [reflexivity|].
  f_equal. specialize (IH d Hd). exact IH.
Qed.
Print Assumptions C38_check_ascii.
(** the decoder's flag vector has no high bit exactly for vectors of alphabet characters,
    and then every lane of the value vector is the value of its character *)
Theorem C38_decode_ascii : forall al w s x, matches_isa s [ISSSE3; INEON; IWASM128] = true -> List.length x = vlen w -> bytes x ->
  exists flags values,
    decode_ascii_xn w s x (xn_luts w (check_lut (alsw_table al))) (xn_luts w (decode_lut (alsw_table al))) = Some (flags, values) /\
    List.length flags = vlen w /\ List.length values = vlen w /\ bytes flags /\ bytes values /\
    (Forall (fun f => f < 128) flags <-> Forall (fun c => exists v, char_value al c = Some v) x) /\
    (Forall (fun c => exists v, char_value al c = Some v) x -> map Some values = map (char_value al) x).
Proof.
  intros al w s x Hs L B. destruct (decode_ascii_xn_ok _ (alsw_table_exact al) w s x Hs L B) as (c1 & c2 & E & L1 & L2 & B1 & B2 & H1 & H2).
  exists c1, c2. split; [exact E|]. split; [exact L1|]. split; [exact L2|]. split; [exact B1|]. split; [exact B2|].
  assert (HF : highbits c1 = false <-> Forall (fun f => f < 128) c1).
  { unfold highbits. clear. induction c1 as [|f c1 IH]; cbn [existsb]; [split; [constructor|reflexivity]|].
    rewrite orb_false_iff, IH, Z.leb_gt. split; [intros [? ?]; constructor; assumption|intro H; inversion H; auto]. }
  assert (HX : existsb (fun c => al_decode (alsw_table al) c =? 255) x = false <-> Forall (fun c => exists v, char_value al c = Some v) x).
  { clear - B. induction B as [|c x Hc B IH]; cbn [existsb]; [split; [constructor|reflexivity]|].
    rewrite orb_false_iff, IH. pose proof (in_alphabet_ok al c Hc) as I. unfold in_alphabet in I.
    split.
    - intros [E F]. rewrite E in I. constructor; [|exact F]. destruct (char_value al c) as [v|]; [now exists v|discriminate I].
    - intro F. inversion F as [|? ? [v Ev] F']; subst. split; [|exact F']. rewrite Ev in I. now apply negb_sym in I. }
  split; [now rewrite <- HF, H1, HX|]. intro F. rewrite H2 by now apply HX.
  clear - B F. induction B as [|c x Hc B IH]; [reflexivity|]. inversion F as [|? ? [v Ev] F']; subst. cbn [map].
  rewrite IH by auto. f_equal. rewrite Ev. destruct (value_some al c v Hc Ev) as [-> _]. reflexivity.
Qed.
Print Assumptions C38_decode_ascii.
(** the neighbour does leak: the two lookups differ although the character is the same *)
Example C38_leak : map2 u8_avgr (lanes32 (u32_shr 3) [65; 65; 66; 66]) (repeat 0 4) = [20; 36; 36; 4]. Proof. reflexivity. Qed.
Example C38_ex : exists flags values, decode_ascii_xn W128 SSSE3 (str "Zm9vYmFyZm9vYmFy")
  (xn_luts W128 (check_lut StandardAlsw)) (xn_luts W128 (decode_lut StandardAlsw)) = Some (flags, values) /\
  highbits flags = false /\ firstn 4 values = [25; 38; 61; 47].
Proof. do 2 eexists. split; [vm_compute; reflexivity|]. split; reflexivity. Qed.
Example C38_ex_bad : check_ascii_xn W128 NEON64 (str "Zm9vYm-yZm9vYmFy") (xn_luts W128 (check_lut StandardAlsw)) = Some false.
Proof. vm_compute. reflexivity. Qed.

(** ** C41 *)
(** unsigned comparison, 8-, 16- and 32-bit lanes *)
Theorem C41_u8_lt : forall s, s <> Fallback -> forall a b, bytes a -> bytes b ->
  u8x16_lt s a b = Some (map2 (fun x y => if x <? y then 255 else 0) a b) /\
  (List.length a = 32%nat -> List.length b = 32%nat ->
   u8x32_lt s a b = Some (map2 (fun x y => if x <? y then 255 else 0) a b)).
Proof. intros s Hs; intros. split; intros; [apply u8x16_lt_ok|apply u8x32_lt_ok]; auto using not_fallback. Qed.
Print Assumptions C41_u8_lt.
Theorem C41_u16_lt : forall s, s <> Fallback -> forall xs ys, Forall (uint 2) xs -> Forall (uint 2) ys ->
  (List.length xs = 8%nat -> List.length ys = 8%nat ->
   u16x8_lt s (arr LE 2 xs) (arr LE 2 ys) = Some (arr LE 2 (map2 (fun x y => if x <? y then 65535 else 0) xs ys))) /\
  (List.length xs = 16%nat -> List.length ys = 16%nat ->
   u16x16_lt s (arr LE 2 xs) (arr LE 2 ys) = Some (arr LE 2 (map2 (fun x y => if x <? y then 65535 else 0) xs ys))).
Proof. intros s Hs; intros. split; intros; [apply u16x8_lt_ok|apply u16x16_lt_ok]; auto using not_fallback. Qed.
Print Assumptions C41_u16_lt.
Theorem C41_u32_lt : forall s, s <> Fallback -> forall xs ys, Forall (uint 4) xs -> Forall (uint 4) ys ->
  (List.length xs = 4%nat -> List.length ys = 4%nat ->
   u32x4_lt s (arr LE 4 xs) (arr LE 4 ys) = Some (arr LE 4 (map2 (fun x y => if x <? y then 4294967295 else 0) xs ys))) /\
  (List.length xs = 8%nat -> List.length ys = 8%nat ->
   u32x8_lt s (arr LE 4 xs) (arr LE 4 ys) = Some (arr LE 4 (map2 (fun x y => if x <? y then 4294967295 else 0) xs ys))).
Proof. intros s Hs; intros. split; intros; [apply u32x4_lt_ok|apply u32x8_lt_ok]; auto using not_fallback. Qed.
Print Assumptions C41_u32_lt.

(** operations on V256 that are done as two V128 halves *)
Theorem C41_v256_pointwise : forall s, s <> Fallback -> forall a b, List.length a = 32%nat -> List.length b = 32%nat ->
  v256_and s a b = Some (map2 Z.land a b) /\ v256_or s a b = Some (map2 Z.lor a b) /\ v256_xor s a b = Some (map2 Z.lxor a b) /\
  v256_andnot s a b = Some (map2 (fun x y => Z.land x (Z.lxor y 255)) a b) /\
  u8x32_add s a b = Some (map2 (fun x y => (x + y) mod 256) a b) /\ u8x32_sub s a b = Some (map2 (fun x y => (x - y) mod 256) a b) /\
  u8x32_add_sat s a b = Some (map2 (fun x y => Z.min 255 (x + y)) a b) /\ u8x32_sub_sat s a b = Some (map2 (fun x y => Z.max 0 (x - y)) a b) /\
  u8x32_eq s a b = Some (map2 (fun x y => if x =? y then 255 else 0) a b) /\
  u8x32_max s a b = Some (map2 Z.max a b) /\ u8x32_min s a b = Some (map2 Z.min a b) /\
  u8x32_avgr s a b = Some (map2 (fun x y => (x + y + 1) / 2) a b).
Proof.
  intros s Hs a b La Lb. assert (S := not_fallback s Hs).
  repeat match goal with |- _ /\ _ => split end; apply wide_map2; auto.
Qed.
Print Assumptions C41_v256_pointwise.

Theorem C41_v128_pointwise : forall s, s <> Fallback -> forall a b,
  v128_and s a b = Some (map2 Z.land a b) /\ v128_or s a b = Some (map2 Z.lor a b) /\ v128_xor s a b = Some (map2 Z.lxor a b) /\
  v128_andnot s a b = Some (map2 (fun x y => Z.land x (Z.lxor y 255)) a b) /\
  u8x16_add s a b = Some (map2 (fun x y => (x + y) mod 256) a b) /\ u8x16_sub s a b = Some (map2 (fun x y => (x - y) mod 256) a b) /\
  u8x16_add_sat s a b = Some (map2 (fun x y => Z.min 255 (x + y)) a b) /\ u8x16_sub_sat s a b = Some (map2 (fun x y => Z.max 0 (x - y)) a b) /\
  u8x16_eq s a b = Some (map2 (fun x y => if x =? y then 255 else 0) a b) /\
  u8x16_max s a b = Some (map2 Z.max a b) /\ u8x16_min s a b = Some (map2 Z.min a b) /\
  u8x16_avgr s a b = Some (map2 (fun x y => (x + y + 1) / 2) a b).
Proof. intros s Hs a b. destruct s; [contradiction| | | | | | |]; (repeat match goal with |- _ /\ _ => split end; reflexivity). Qed.
Print Assumptions C41_v128_pointwise.
(** constants, and vectors of equal lanes *)
Theorem C41_splat : forall s, s <> Fallback ->
  v128_create_zero s = Some (repeat 0 16) /\ v256_create_zero s = Some (repeat 0 32) /\
  forall k v, In k [1; 2; 4; 8]%nat -> List.length v = k ->
    (exists r, splat128 s v = Some r /\ List.length r = 16%nat /\ forall i, (i < 16)%nat -> nth i r 0 = nth (i mod k) v 0) /\
    (exists r, splat256 s v = Some r /\ List.length r = 32%nat /\ forall i, (i < 32)%nat -> nth i r 0 = nth (i mod k) v 0).
Proof.
  intros s Hs. split; [now destruct s|]. split; [now destruct s|]. intros k v J L.
  assert (E : splat128 s v = Some (repeat_list (16 / k) v) /\ splat256 s v = Some (repeat_list (32 / k) v)).
  { unfold splat256, splat128. rewrite L. destruct J as [<-|[<-|[<-|[<-|[]]]]]; (destruct s; [contradiction| | | | | | |]); (split; [reflexivity|]); cbn;
      unfold x2; cbn [app]; rewrite <- ?app_assoc; reflexivity. }
  destruct E as [-> ->].
  assert (G : forall n (P : nat -> Prop), Forall P (seq 0 n) -> forall i, (i < n)%nat -> P i).
  { intros n P H i Hi. rewrite Forall_forall in H. apply H, in_seq. lia. }
  destruct J as [<-|[<-|[<-|[<-|[]]]]]; (repeat (destruct v as [|? v]; [discriminate L|apply Nat.succ_inj in L]; try (destruct v; [|discriminate L])));
    (split; (eexists; split; [reflexivity|]; split; [reflexivity|]; apply G; repeat constructor)).
Qed.
Print Assumptions C41_splat.
(** the bytes of every 2-, 4- or 8-byte lane reversed *)
Theorem C41_bswap : forall s, matches_isa s [ISSE41; INEON; IWASM128] = true -> forall a,
  let swapped n k := map (fun i => nth (i / k * k + (k - 1 - i mod k)) a 0) (seq 0 n) in
  (List.length a = 16%nat ->
   u16x8_bswap s a = Some (swapped 16 2)%nat /\ u32x4_bswap s a = Some (swapped 16 4)%nat /\ u64x2_bswap s a = Some (swapped 16 8)%nat) /\
  (List.length a = 32%nat ->
   u16x16_bswap s a = Some (swapped 32 2)%nat /\ u32x8_bswap s a = Some (swapped 32 4)%nat /\ u64x4_bswap s a = Some (swapped 32 8)%nat).
Proof.
  intros s Hs a. cbv zeta. split; intro L.
  - do 16 (destruct a as [|? a]; [discriminate L|]). destruct a; [|discriminate L]. clear L.
    destruct s; try discriminate Hs; (split; [|split]); reflexivity.
  - do 32 (destruct a as [|? a]; [discriminate L|]). destruct a; [|discriminate L]. clear L.
    destruct s; try discriminate Hs; (split; [|split]); reflexivity.
Qed.
Print Assumptions C41_bswap.

Example C41_bswap_ex : u32x4_bswap NEON32 [0; 1; 2; 3; 4; 5; 6; 7; 8; 9; 10; 11; 12; 13; 14; 15] = Some [3; 2; 1; 0; 7; 6; 5; 4; 11; 10; 9; 8; 15; 14; 13; 12] /\
  u16x8_bswap SSSE3 (repeat 0 16) = None /\ splat128 WASM128 [1; 2] = Some [1; 2; 1; 2; 1; 2; 1; 2; 1; 2; 1; 2; 1; 2; 1; 2].
Proof. repeat split; reflexivity. Qed.

(** bitwise not and select *)
Theorem C41_not : forall s, s <> Fallback -> forall a, bytes a ->
  v128_not s a = Some (map (fun x => 255 - x) a) /\ (List.length a = 32%nat -> v256_not s a = Some (map (fun x => 255 - x) a)).
Proof. intros s Hs; intros. split; intros; [apply v128_not_ok|apply v256_not_ok]; auto using not_fallback. Qed.
Print Assumptions C41_not.
Theorem C41_bsl : forall s, s <> Fallback -> forall a b c, bytes a -> bytes b -> bytes c ->
  v128_bsl s a b c = Some (map3 (fun x y z => Z.lor (Z.land x y) (Z.land (Z.lxor x 255) z)) a b c) /\
  (List.length a = 32%nat -> List.length b = 32%nat -> List.length c = 32%nat ->
   v256_bsl s a b c = Some (map3 (fun x y z => Z.lor (Z.land x y) (Z.land (Z.lxor x 255) z)) a b c)).
Proof. intros s Hs; intros. split; intros; [apply v128_bsl_ok|apply v256_bsl_ok]; auto using not_fallback. Qed.
Print Assumptions C41_bsl.

(** horizontal tests *)
Theorem C41_mask : forall s, s <> Fallback -> forall a, Forall (fun x => x = 0 \/ x = 255) a ->
  (List.length a = 16%nat -> mask8x16_any s a = Some (existsb (Z.eqb 255) a) /\ mask8x16_all s a = Some (forallb (Z.eqb 255) a)) /\
  (List.length a = 32%nat -> mask8x32_any s a = Some (existsb (Z.eqb 255) a) /\ mask8x32_all s a = Some (forallb (Z.eqb 255) a)).
Proof.
  intros s Hs a M. assert (S := not_fallback s Hs).
  assert (E : existsb (Z.eqb 255) a = highbits a).
  { clear -M. unfold highbits. induction M as [|x a [-> | ->] M IH]; cbn [existsb]; [reflexivity|exact IH|reflexivity]. }
  assert (E' : forallb (Z.eqb 255) a = highbits_all a).
  { clear -M. unfold highbits_all. induction M as [|x a [-> | ->] M IH]; cbn [forallb]; [reflexivity|reflexivity|exact IH]. }
  rewrite E, E'. repeat split; auto using mask8x16_any_ok, mask8x16_all_ok, mask8x32_any_ok, mask8x32_all_ok.
Qed.
Print Assumptions C41_mask.
Theorem C41_highbit : forall s, s <> Fallback -> forall a, bytes a ->
  (List.length a = 16%nat -> u8x16_highbit_any s a = Some (existsb (fun x => 128 <=? x) a) /\ u8x16_highbit_all s a = Some (forallb (fun x => 128 <=? x) a)) /\
  (List.length a = 32%nat -> u8x32_highbit_any s a = Some (existsb (fun x => 128 <=? x) a) /\ u8x32_highbit_all s a = Some (forallb (fun x => 128 <=? x) a)).
Proof.
  intros s Hs a B. assert (S := not_fallback s Hs).
  repeat split; auto using u8x16_highbit_any_ok, u8x16_highbit_all_ok, u8x32_highbit_any_ok, u8x32_highbit_all_ok.
Qed.
Print Assumptions C41_highbit.
Theorem C41_any_zero : forall s, s <> Fallback -> forall a, bytes a ->
  (List.length a = 16%nat -> u8x16_any_zero s a = Some (existsb (Z.eqb 0) a)) /\
  (List.length a = 32%nat -> u8x32_any_zero s a = Some (existsb (Z.eqb 0) a)).
Proof.
  intros s Hs a B. assert (S := not_fallback s Hs).
  assert (E : existsb (Z.eqb 0) a = existsb (fun x => x =? 0) a) by (clear; induction a as [|x a IH]; cbn [existsb]; [reflexivity|now rewrite IH, Z.eqb_sym]).
  rewrite E. split; intros; auto using u8x16_any_zero_ok, u8x32_any_zero_ok.
Qed.
Print Assumptions C41_any_zero.
(** [all_zero] exists from SSE4.1 on *)
Theorem C41_all_zero : forall s a, matches_isa s [ISSE41; INEON; IWASM128] = true -> bytes a ->
  (List.length a = 16%nat -> v128_all_zero s a = Some (forallb (Z.eqb 0) a)) /\
  (List.length a = 32%nat -> v256_all_zero s a = Some (forallb (Z.eqb 0) a)).
Proof.
  intros s a Hs B.
  assert (E : forallb (Z.eqb 0) a = is_zero_list a) by (clear; unfold is_zero_list; induction a as [|x a IH]; cbn [forallb]; [reflexivity|now rewrite IH, Z.eqb_sym]).
  rewrite E. split; intros; auto using LaneFacts.v128_all_zero_ok, LaneFacts.v256_all_zero_ok.
Qed.
Print Assumptions C41_all_zero.

Example C41_ex_lt : u16x8_lt SSE2 (arr LE 2 [1; 40000; 3; 4; 5; 6; 7; 65535]) (arr LE 2 [40000; 1; 4; 3; 5; 65535; 32768; 0])
  = Some (arr LE 2 [65535; 0; 65535; 0; 0; 65535; 65535; 0]).
Proof. vm_compute. reflexivity. Qed.
Example C41_ex_zero : u8x16_any_zero NEON32 (repeat 1 15 ++ [0]) = Some true /\ u8x16_any_zero NEON32 (repeat 1 16) = Some false.
Proof. split; vm_compute; reflexivity. Qed.
Example C41_ex_sse2 : v128_all_zero SSE2 (repeat 0 16) = None. Proof. reflexivity. Qed.
