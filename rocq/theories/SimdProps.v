(** The primitives of C41 against lane-wise definitions, and ALSW against the alphabets of Spec (C38). *)
From Coq Require Import ZArith List Bool Lia.
From Verif Require Import Bytes Isa Ints Simd SimdFacts PrimFacts UnicodeSpec LaneFacts Spec Alsw AlswFacts.
Import ListNotations.
Open Scope Z_scope.
Ltac Zify.zify_post_hook ::= Z.div_mod_to_equations.

Lemma not_fallback s : s <> Fallback -> simd s.
Proof. intro H. destruct (simd_dec s); [contradiction|assumption]. Qed.

(** [not] *)
Lemma not_lane x : byte x -> u8_xor x (u8_eq x x) = 255 - x.
Proof.
  intro H. unfold u8_eq, u8_xor, mask8. rewrite Z.eqb_refl.
  assert (E : Z.lxor x 255 = Z.ldiff 255 x).
  { apply Z.bits_inj'. intros i Hi. rewrite Z.lxor_spec, Z.ldiff_spec.
    destruct (Z_lt_dec i 8).
    - rewrite ones8_testbit by lia. now destruct (Z.testbit x i).
    - rewrite (byte_testbit x), (byte_testbit 255) by (unfold byte; lia || assumption). reflexivity. }
  rewrite E. symmetry. apply Z.sub_nocarry_ldiff.
  apply Z.bits_inj'. intros i Hi. rewrite Z.ldiff_spec, Z.bits_0.
  destruct (Z_lt_dec i 8).
  - rewrite ones8_testbit by lia. apply andb_false_r.
  - now rewrite (byte_testbit x) by (lia || assumption).
Qed.
Lemma map2_self (f : Z -> Z -> Z) a : map2 f a a = map (fun x => f x x) a.
Proof. induction a; cbn; congruence. Qed.
Lemma map2_map_r (f : Z -> Z -> Z) g a : map2 f a (map g a) = map (fun x => f x (g x)) a.
Proof. induction a; cbn; congruence. Qed.
Lemma not_list a : bytes a -> map2 u8_xor a (map2 u8_eq a a) = map (fun x => 255 - x) a.
Proof.
  intro B. rewrite map2_self, map2_map_r. apply map_ext_in. intros x Hx. apply not_lane.
  unfold bytes in B. rewrite Forall_forall in B. auto.
Qed.
Lemma v128_not_ok s a : simd s -> bytes a -> v128_not s a = Some (map (fun x => 255 - x) a).
Proof.
  intros Hs B. unfold v128_not. rewrite not_list by auto. destruct s; try discriminate Hs; reflexivity.
Qed.
Lemma v256_not_ok s a : simd s -> length a = 32%nat -> bytes a -> v256_not s a = Some (map (fun x => 255 - x) a).
Proof.
  intros Hs L B. unfold v256_not. destruct (matches_isa s [IAVX2]) eqn:M.
  - destruct s; try discriminate M. cbn [u8x32_eq wide2 v256_xor]. unfold u8x32_eq, v256_xor, wide2, arm. rewrite M. cbn [obind].
    now rewrite not_list.
  - unfold vop1. rewrite !v128_not_ok by auto using bytes_lo, bytes_hi. cbn [obind].
    now rewrite <- map_app, lo_hi.
Qed.

(** [any_zero] on V256 *)
Lemma min_zero x y : byte x -> byte y -> (u8_min x y =? 0) = (x =? 0) || (y =? 0).
Proof. unfold byte, u8_min. intros. destruct (x =? 0) eqn:?, (y =? 0) eqn:?; cbn [orb]; lia. Qed.
Lemma any_zero_min a b : length a = length b -> bytes a -> bytes b ->
  existsb (fun x => x =? 0) (map2 u8_min a b) = existsb (fun x => x =? 0) (a ++ b).
Proof.
  intros L Ba Bb. rewrite existsb_app. revert b L Bb. induction Ba as [|x a Hx Ba IH]; intros [|y b] L Bb; try discriminate L; [reflexivity|].
  inversion Bb; subst. cbn [map2 existsb]. rewrite IH, min_zero by (auto; cbn in L; congruence).
  destruct (x =? 0), (y =? 0), (existsb (fun x => x =? 0) a), (existsb (fun x => x =? 0) b); reflexivity.
Qed.
Lemma bytes_min a b : bytes a -> bytes b -> bytes (map2 u8_min a b).
Proof.
  intros Ba. revert b. induction Ba as [|x a Hx Ba IH]; intros b Bb; [apply Forall_nil|].
  destruct b as [|y b]; [apply Forall_nil|]. inversion Bb; subst. cbn [map2]. apply Forall_cons; [|apply IH; assumption].
  unfold u8_min, byte in *. lia.
Qed.
Lemma u8x32_any_zero_ok s a : simd s -> length a = 32%nat -> bytes a ->
  u8x32_any_zero s a = Some (existsb (fun x => x =? 0) a).
Proof.
  intros Hs L B. unfold u8x32_any_zero. destruct (matches_isa s [IAVX2]) eqn:M.
  - destruct s; try discriminate M. unfold v256_create_zero, u8x32_eq, wide2, u8x32_bitmask, arm. rewrite M. cbn [obind].
    rewrite movemask_zero, negb_involutive. now rewrite eq_zero_bitmask.
  - assert (E : u8x16_min s (lo128 a) (hi128 a) = Some (map2 u8_min (lo128 a) (hi128 a))) by (apply native2_ok; auto).
    rewrite E. cbn [obind]. rewrite u8x16_any_zero_ok; auto.
    + rewrite any_zero_min, lo_hi; auto using bytes_lo, bytes_hi. rewrite lo_len, hi_len; auto.
    + apply len_map2; auto using lo_len, hi_len.
    + apply bytes_min; auto using bytes_lo, bytes_hi.
Qed.

(** ** ALSW *)
Inductive alphabet := Hex | Base64 | Base64Url | Base32 | Base32Hex.
Definition alsw_table (al : alphabet) : alsw_spec :=
  match al with Hex => HexAlsw | Base64 => StandardAlsw | Base64Url => UrlSafeAlsw
              | Base32 => Base32Alsw | Base32Hex => Base32HexAlsw end.
(** the value of a character, from the tables of RFC 4648 *)
Definition char_value (al : alphabet) (c : Z) : option Z :=
  match al with Hex => hex_digit c | Base64 => index_of c base64_std | Base64Url => index_of c base64_url
              | Base32 => index_of c base32_std | Base32Hex => index_of c base32_hex end.

Lemma alsw_table_exact al : alsw_exact (alsw_table al).
Proof. destruct al; [exact hex_alsw_exact|exact std_alsw_exact|exact url_alsw_exact|exact base32_alsw_exact|exact base32hex_alsw_exact]. Qed.

Definition value_ok (al : alphabet) (c : Z) : bool :=
  match char_value al c with
  | Some v => (al_decode (alsw_table al) c =? v) && negb (v =? 255)
  | None => al_decode (alsw_table al) c =? 255
  end.
Lemma value_sweep al c : byte c -> value_ok al c = true.
Proof.
  assert (H : forallb (value_ok al) (range 256) = true) by (destruct al; vm_compute; reflexivity).
  intro B. rewrite forallb_forall in H. apply H, in_range. exact B.
Qed.
Lemma value_some al c v : byte c -> char_value al c = Some v -> al_decode (alsw_table al) c = v /\ v <> 255.
Proof.
  intros B E. pose proof (value_sweep al c B) as H. unfold value_ok in H. rewrite E in H.
  apply andb_true_iff in H as [H1 H2]. rewrite Z.eqb_eq in H1. rewrite negb_true_iff, Z.eqb_neq in H2. auto.
Qed.
Lemma value_none al c : byte c -> char_value al c = None -> al_decode (alsw_table al) c = 255.
Proof. intros B E. pose proof (value_sweep al c B) as H. unfold value_ok in H. rewrite E in H. now apply Z.eqb_eq. Qed.

Definition in_alphabet (al : alphabet) (c : Z) : bool := match char_value al c with Some _ => true | None => false end.
Lemma in_alphabet_ok al c : byte c -> in_alphabet al c = negb (al_decode (alsw_table al) c =? 255).
Proof.
  intro B. unfold in_alphabet. destruct (char_value al c) eqn:E.
  - destruct (value_some al c z B E) as [-> N]. now rewrite (proj2 (Z.eqb_neq _ _) N).
  - now rewrite (value_none al c B E).
Qed.
