(** The base32 encoders compute the specification and touch only what they may. *)
From Coq Require Import ZArith List Bool Lia ZifyBool ZifyNat.
From Verif Require Import Bytes Mem MemFacts Loops Loops2 Isa Simd SimdFacts Alsw AlswFacts Spec Ints HexFacts Base64Facts Base64DecFacts Base32 Base32SimdFacts Base32SimdDec Base32Ref.
Import ListNotations.
Open Scope Z_scope.
Open Scope m_scope.
Ltac Zify.zify_post_hook ::= Z.div_mod_to_equations.

Lemma b32_charset_len k : length (b32_charset k) = 32%nat.
Proof. now destruct k. Qed.
Lemma pick5 x n : 0 <= n -> Z.land (Z.shiftr x n) 31 = (x / 2 ^ n) mod 32.
Proof. intro H. rewrite Z.shiftr_div_pow2 by exact H. change 31 with (Z.ones 5). now rewrite Z.land_ones by lia. Qed.

(** ** Reading big-endian integers *)
Lemma be_load en l : bytes l -> to_be en (length l) (of_native en l) = of_be l.
Proof.
  intro B. destruct en; [|reflexivity]. cbn [to_be of_native]. unfold swap_bytes, of_le.
  pose proof (le_bytes_of_be (rev l)) as H. rewrite rev_length, rev_involutive in H. rewrite H; [reflexivity|].
  unfold bytes. apply Forall_rev. exact B.
Qed.
Lemma of_be_bound l : bytes l -> 0 <= of_be l < 2 ^ (8 * Z.of_nat (length l)).
Proof.
  induction l as [|b l IH] using rev_ind; intro B; [now cbn|].
  apply bytes_app in B as [B1 B2]. inversion B2 as [|? ? Hb _]; subst. unfold byte in Hb.
  rewrite of_be_snoc, app_length. cbn [length]. specialize (IH B1).
  replace (8 * Z.of_nat (length l + 1)) with (8 * Z.of_nat (length l) + 8) by lia. rewrite Z.pow_add_r by lia. change (2 ^ 8) with 256. lia.
Qed.
Lemma of_be_cons a l : of_be (a :: l) = a * 2 ^ (8 * Z.of_nat (length l)) + of_be l.
Proof.
  induction l as [|b l IH] using rev_ind; [cbn; lia|].
  change (a :: l ++ [b]) with ((a :: l) ++ [b]). rewrite !of_be_snoc, IH, app_length. cbn [length].
  replace (8 * Z.of_nat (length l + 1)) with (8 * Z.of_nat (length l) + 8) by lia. rewrite Z.pow_add_r by lia. change (2 ^ 8) with 256. lia.
Qed.

(** ** The five-bit groups of an integer *)
Definition vals5 (N : nat) (x : Z) : list Z := map (fun j => (x / 2 ^ (Z.of_nat (N - 1 - j) * 5)) mod 32) (seq 0 N).

Ltac pows := repeat match goal with |- context [2 ^ ?n] => let v := eval vm_compute in (2 ^ n) in change (2 ^ n) with v end.

Lemma vals8 a b c d e : byte a -> byte b -> byte c -> byte d -> byte e -> vals5 8 (of_be [a; b; c; d; e]) = oct a b c d e.
Proof.
  intros. unfold byte in *. unfold vals5. cbn [seq map]. unfold of_be. cbn [fold_left]. pows.
  unfold oct. 
  set (lo := (d * 256) + e). assert (Hlo : 0 <= lo < 65536) by (unfold lo; lia).
  replace (((((0 * 256 + a) * 256 + b) * 256 + c) * 256 + d) * 256 + e) with (((a * 256 + b) * 256 + c) * 65536 + lo) by (unfold lo; lia).
  set (hi := (a * 256 + b) * 256 + c). assert (Hhi : 0 <= hi < 16777216) by (unfold hi; lia).
  replace ((hi * 65536 + lo) / 34359738368) with (hi / 524288) by lia.
  replace ((hi * 65536 + lo) / 1073741824) with (hi / 16384) by lia.
  replace ((hi * 65536 + lo) / 33554432) with (hi / 512) by lia.
  replace ((hi * 65536 + lo) / 1048576) with (hi / 16) by lia.
  replace ((hi * 65536 + lo) / 32768 mod 32) with ((hi mod 16) * 2 + lo / 32768) by lia.
  replace ((hi * 65536 + lo) / 1024 mod 32) with (lo / 1024 mod 32) by lia.
  replace ((hi * 65536 + lo) / 32 mod 32) with (lo / 32 mod 32) by lia.
  replace ((hi * 65536 + lo) / 1 mod 32) with (lo mod 32) by lia.
  unfold hi, lo. list_lia.
Qed.
Lemma vals2 a : byte a -> vals5 2 (of_be [a] * 4) = firstn 2 (oct a 0 0 0 0).
Proof.
  intros. unfold byte in *. unfold vals5. cbn [seq map]. unfold of_be. cbn [fold_left]. pows. unfold oct. cbn [firstn]. list_lia.
Qed.
Lemma vals4 a b : byte a -> byte b -> vals5 4 (of_be [a; b] * 16) = firstn 4 (oct a b 0 0 0).
Proof.
  intros. unfold byte in *. unfold vals5. cbn [seq map]. unfold of_be. cbn [fold_left]. pows. unfold oct. cbn [firstn]. list_lia.
Qed.
Lemma vals_5 a b c : byte a -> byte b -> byte c -> vals5 5 (of_be [a; b; c] * 2) = firstn 5 (oct a b c 0 0).
Proof.
  intros. unfold byte in *. unfold vals5. cbn [seq map]. unfold of_be. cbn [fold_left]. pows. unfold oct. cbn [firstn]. list_lia.
Qed.
Lemma vals7 a b c d : byte a -> byte b -> byte c -> byte d -> vals5 7 (of_be [a; b; c; d] * 8) = firstn 7 (oct a b c d 0).
Proof.
  intros. unfold byte in *. unfold vals5. cbn [seq map]. unfold of_be. cbn [fold_left]. pows. unfold oct. cbn [firstn].
  set (lo := (c * 256) + d). assert (Hlo : 0 <= lo < 65536) by (unfold lo; lia).
  set (hi := a * 256 + b). assert (Hhi : 0 <= hi < 65536) by (unfold hi; lia).
  replace (((((0 * 256 + a) * 256 + b) * 256 + c) * 256 + d) * 8) with ((hi * 65536 + lo) * 8) by (unfold lo, hi; lia).
  replace ((hi * 65536 + lo) * 8 / 1073741824) with (hi / 2048) by lia.
  replace ((hi * 65536 + lo) * 8 / 33554432) with (hi / 64) by lia.
  replace ((hi * 65536 + lo) * 8 / 1048576) with (hi / 2) by lia.
  replace ((hi * 65536 + lo) * 8 / 32768 mod 32) with ((hi mod 2) * 16 + lo / 4096) by lia.
  replace ((hi * 65536 + lo) * 8 / 1024 mod 32) with (lo / 128 mod 32) by lia.
  replace ((hi * 65536 + lo) * 8 / 32 mod 32) with (lo / 4 mod 32) by lia.
  replace ((hi * 65536 + lo) * 8 / 1 mod 32) with ((lo mod 4) * 8) by lia.
  unfold hi, lo. list_lia.
Qed.

Section Encode.
  Context (m0 : mem) (bs so : nat) (total : list Z) (bd d0 cap : nat) (t : target) (k : b32_kind) (pad : bool).
  Notation ppt := (pp bs so total).
  Notation qqt := (qq bd d0).
  Notation TSt := (TS m0 bs so total bd d0 cap).
  Notation E := (b32e k pad).
  Notation EIt := (EI m0 bs so total bd d0 cap E).

  Lemma wp_read_loop out x r m N y pre (Q : Z -> mem -> Prop) :
    TSt out (x ++ r) m -> bytes x -> length x = N -> x = pre ++ y -> Q (of_be x) m ->
    wp (for_ (length y) (length pre) (fun i ans =>
      c <- read (ppt (x ++ r)) i ;; ret (Z.lor ans (Z.shiftl c (Z.of_nat (N - 1 - i) * 8))))
      (of_be pre * 2 ^ (8 * Z.of_nat (length y)))) Q m.
  Proof.
    intros T B L. revert pre. induction y as [|c y IH]; intros pre Ex HQ; cbn [length for_].
    - apply wp_ret. rewrite app_nil_r in Ex. subst pre. now rewrite Z.mul_1_r.
    - assert (Lx := app_length pre (c :: y)). rewrite <- Ex in Lx. cbn [length] in Lx.
      assert (Hc : byte c) by (rewrite Ex in B; apply bytes_app in B as [_ B]; now inversion B).
      apply wp_bind, wp_bind. eapply wp_src_read; [exact T|lia|].
      assert (Nc : nth (length pre) x 0 = c) by (rewrite Ex, app_nth2, Nat.sub_diag by lia; reflexivity). rewrite Nc.
      apply wp_ret.
      replace (S (length pre)) with (length (pre ++ [c])) by (rewrite app_length; cbn [length]; lia).
      replace (Z.lor _ _) with (of_be (pre ++ [c]) * 2 ^ (8 * Z.of_nat (length y))).
      + apply IH; [now rewrite <- app_assoc|exact HQ].
      + symmetry. rewrite of_be_snoc. replace (Z.of_nat (N - 1 - length pre) * 8) with (8 * Z.of_nat (length y)) by lia.
        rewrite Z.shiftl_mul_pow2 by lia. unfold byte in Hc.
        assert (P : 2 ^ (8 * Z.of_nat (S (length y))) = 256 * 2 ^ (8 * Z.of_nat (length y))).
        { replace (8 * Z.of_nat (S (length y))) with (8 + 8 * Z.of_nat (length y)) by lia. now rewrite Z.pow_add_r by lia. }
        assert (P0 : 0 < 2 ^ (8 * Z.of_nat (length y))) by (apply Z.pow_pos_nonneg; lia).
        rewrite (lor_add _ _ (8 * Z.of_nat (S (length y)))); [rewrite P; lia|lia|apply Z.mod_mul; lia|rewrite P; nia].
  Qed.

  Lemma wp_read_be out x r m (Q : Z -> mem -> Prop) :
    TSt out (x ++ r) m -> bytes x -> Q (of_be x) m ->
    wp (read_be_bytes t (length x) (ppt (x ++ r))) Q m.
  Proof.
    intros T B HQ. unfold read_be_bytes.
    destruct (negb (t_wasm32 t) && (length x =? 3)%nat) eqn:G3.
    { apply andb_true_iff in G3 as [_ G3]. apply Nat.eqb_eq in G3.
      destruct x as [|a [|b [|c [|]]]]; try discriminate G3.
      assert (B2 : bytes [b; c]) by (now inversion B).
      apply wp_bind. eapply wp_src_read; [exact T|cbn [length]; lia|]. cbn [nth].
      change ([a; b; c] ++ r) with ([a] ++ [b; c] ++ r) in T |- *.
      apply wp_bind. eapply wp_src_end; [exact T|reflexivity|]. apply TS_adv in T.
      apply wp_bind. eapply wp_src_load; [exact T|reflexivity|]. apply wp_ret.
      change 2%nat with (length [b; c]). rewrite be_load by exact B2.
      rewrite (of_be_cons a [b; c]) in HQ. pose proof (of_be_bound [b; c] B2) as Hb. cbn [length] in *.
      change (8 * Z.of_nat 2) with 16 in *. rewrite Z.shiftl_mul_pow2 by lia.
      rewrite (lor_add _ _ 16); [exact HQ|lia|apply Z.mod_mul; lia|exact Hb]. }
    destruct (negb (t_wasm32 t) && (length x =? 5)%nat) eqn:G5.
    { apply andb_true_iff in G5 as [_ G5]. apply Nat.eqb_eq in G5.
      destruct x as [|a [|b [|c [|d [|e [|]]]]]]; try discriminate G5.
      assert (B2 : bytes [b; c; d; e]) by (now inversion B).
      apply wp_bind. eapply wp_src_read; [exact T|cbn [length]; lia|]. cbn [nth].
      change ([a; b; c; d; e] ++ r) with ([a] ++ [b; c; d; e] ++ r) in T |- *.
      apply wp_bind. eapply wp_src_end; [exact T|reflexivity|]. apply TS_adv in T.
      apply wp_bind. eapply wp_src_load; [exact T|reflexivity|]. apply wp_ret.
      change 4%nat with (length [b; c; d; e]). rewrite be_load by exact B2.
      rewrite (of_be_cons a [b; c; d; e]) in HQ. pose proof (of_be_bound _ B2) as Hb. cbn [length] in *.
      change (8 * Z.of_nat 4) with 32 in *. rewrite Z.shiftl_mul_pow2 by lia.
      rewrite (lor_add _ _ 32); [exact HQ|lia|apply Z.mod_mul; lia|exact Hb]. }
    apply (wp_read_loop out x r m (length x) x []); auto.
  Qed.

  (** writing the characters of an integer *)
  Lemma wp_encode_bits N x out rest m (Q : unit -> mem -> Prop) :
    TSt out rest m -> (0 < N)%nat -> 0 <= x < 2 ^ (5 * Z.of_nat N) -> (length out + N <= cap)%nat ->
    (bs <> bd \/ so + length total <= d0 \/ d0 + length out + N <= so + (length total - length rest))%nat ->
    (forall m', TSt (out ++ b32_chars k (vals5 N x)) rest m' -> Q tt m') ->
    wp (encode_bits N (qqt out) (b32_charset k) x) Q m.
  Proof.
    intros T HN Hx Hc Ha HQ. unfold encode_bits.
    set (q := x / 2 ^ (Z.of_nat (N - 1) * 5)).
    assert (P0 : 0 < 2 ^ (Z.of_nat (N - 1) * 5)) by (apply Z.pow_pos_nonneg; lia).
    assert (Hq : 0 <= q < 32).
    { split; [apply Z.div_pos; lia|]. apply Z.div_lt_upper_bound; [lia|].
      replace (5 * Z.of_nat N) with (Z.of_nat (N - 1) * 5 + 5) in Hx by lia. rewrite Z.pow_add_r in Hx by lia. change (2 ^ 5) with 32 in Hx. lia. }
    apply wp_bind. rewrite Z.shiftr_div_pow2 by lia. fold q.
    apply wp_table; [rewrite b32_charset_len; lia|].
    apply wp_bind. eapply wp_dst_write; [exact T|lia|lia|]. intros m1 T1.
    eapply (wp_for_write m0 bs so total bd d0 cap (b32_charset k) (fun i => Z.land (Z.shiftr x (Z.of_nat (N - 1 - i) * 5)) 31) out
      [nth (Z.to_nat q) (b32_charset k) 0]); [exact T1|reflexivity|lia|lia| |].
    { intros j _. rewrite b32_charset_len, pick5 by lia. apply Z.mod_pos_bound. lia. }
    intros m2 T2. apply HQ.
    replace (b32_chars k (vals5 N x)) with ([nth (Z.to_nat q) (b32_charset k) 0] ++
      map (fun j => nth (Z.to_nat (Z.land (Z.shiftr x (Z.of_nat (N - 1 - j) * 5)) 31)) (b32_charset k) 0) (seq 1 (N - 1))); [exact T2|].
    unfold b32_chars, vals5. replace (seq 0 N) with (0%nat :: seq 1 (N - 1)) by (destruct N; [lia|]; cbn [seq]; repeat f_equal; lia).
    cbn [map app]. rewrite map_map. f_equal.
    - rewrite Nat.sub_0_r. fold q. now rewrite Z.mod_small by lia.
    - apply map_ext. intro j. now rewrite pick5 by lia.
  Qed.

  Lemma wp_pad N z out rest m (Q : unit -> mem -> Prop) :
    TSt (out ++ z) rest m -> length z = N -> (N <= 8)%nat -> (length out + (if pad then 8 else N) <= cap)%nat ->
    (bs <> bd \/ so + length total <= d0 \/ d0 + length out + (if pad then 8 else N) <= so + (length total - length rest))%nat ->
    (forall m', TSt (out ++ z ++ if pad then repeat 61 (8 - N) else []) rest m' -> Q tt m') ->
    wp (b32_pad pad (qqt out) N) Q m.
  Proof.
    intros T Lz HN Hc Ha HQ. unfold b32_pad. destruct pad.
    2:{ apply wp_ret. apply HQ. now rewrite app_nil_r. }
    remember (8 - N)%nat as j eqn:Ej. assert (Hj : (N + j = 8)%nat) by lia. clear Ej HN.
    revert z N m T Lz Hj HQ. induction j as [|j IH]; intros z N m T Lz Hj HQ; cbn [for_].
    - apply wp_ret. apply HQ. cbn [repeat]. now rewrite app_nil_r.
    - apply wp_bind. eapply wp_dst_write_at; [exact T|exact Lz|lia|lia|]. intros m' T'.
      apply (IH (z ++ [61]) (S N) m'); auto; [rewrite app_length; cbn [length]; lia|lia|].
      intros m2 T2. apply HQ. rewrite <- app_assoc in T2. exact T2.
  Qed.

  Hypothesis HB : bytes total.
  Hypothesis cap_eq : cap = length (E total).
  Hypothesis disj : (bs <> bd \/ so + length total <= d0 \/ d0 + cap <= so)%nat.

  Lemma E5_app j x r : (j mod 5 = 0)%nat -> length x = j -> E (x ++ r) = E x ++ E r.
  Proof. intros H L. apply b32e_app. now rewrite L. Qed.

  Lemma enc40_ok out x r m : TSt out (x ++ r) m -> length x = 5%nat ->
    (length out + length (E x) <= cap)%nat ->
    (bs <> bd \/ so + length total <= d0 \/ d0 + length out + length (E x) <= so + (length total - length (x ++ r)))%nat ->
    wp (enc40_step t (b32_charset k) (ppt (x ++ r), qqt out))
       (fun st m' => st = (ppt r, qqt (out ++ E x)) /\ TSt (out ++ E x) r m') m.
  Proof.
    intros T Lx Hc Ha. assert (Bx := TS_bytes _ _ _ _ _ _ _ _ _ _ HB T). apply bytes_app in Bx as [Bx _].
    unfold enc40_step. cbn [fst snd]. rewrite <- Lx at 1.
    apply wp_bind. eapply wp_read_be; [exact T|exact Bx|]. pose proof (of_be_bound x Bx) as Hb. rewrite Lx in Hb.
    assert (EE : E x = b32_chars k (vals5 8 (of_be x))).
    { destruct x as [|a [|b [|c [|d [|e [|]]]]]]; try discriminate Lx. inv_bytes. rewrite vals8, b32e_5 by auto.
      cbn [b32e b32_tail]. apply app_nil_r. }
    rewrite EE in *. change (length (b32_chars k (vals5 8 (of_be x)))) with 8%nat in *.
    apply wp_bind. eapply wp_encode_bits; [exact T|lia|exact Hb|exact Hc|exact Ha|]. intros m' T'.
    apply wp_bind. eapply wp_src_end; [exact T'|exact Lx|]. apply TS_adv in T'.
    apply wp_bind. eapply wp_dst_add; [exact T'|reflexivity|]. apply wp_ret. auto.
  Qed.

  Definition done32 (_ : unit) (m : mem) : Prop := TSt (E total) [] m.

  Lemma extra32_arm out x m N sh pads : EIt out x m -> bytes x -> (0 < N <= 8)%nat -> 0 <= sh ->
    of_be x * 2 ^ sh < 2 ^ (5 * Z.of_nat N) ->
    E x = b32_chars k (vals5 N (of_be x * 2 ^ sh)) ++ (if pad then repeat 61 pads else []) ->
    pads = (8 - N)%nat ->
    wp (u <- read_be_bytes t (length x) (ppt x) ;; encode_bits N (qqt out) (b32_charset k) (Z.shiftl u sh) ;;; b32_pad pad (qqt out) N) done32 m.
  Proof.
    intros HI Bx HN Hs Hv HE ->. pose proof HI as [T HT].
    assert (Hc := EI_cap m0 bs so total bd d0 cap E cap_eq _ _ _ (E x) [] HI ltac:(now rewrite app_nil_r)).
    assert (Ha := EI_alias m0 bs so total bd d0 cap E cap_eq disj _ _ _ (E x) [] HI ltac:(now rewrite app_nil_r)).
    assert (LE : length (E x) = if pad then 8%nat else N).
    { rewrite HE, app_length, b32_chars_len. unfold vals5. rewrite map_length, seq_length. destruct pad; [rewrite repeat_length|cbn [length]]; lia. }
    rewrite LE in Hc, Ha. clear LE.
    assert (Hc' : (length out + N <= cap)%nat) by (destruct pad; lia).
    assert (Ha' : (bs <> bd \/ so + length total <= d0 \/ d0 + length out + N <= so + (length total - length x))%nat) by (destruct pad; lia).
    pose proof (of_be_bound x Bx) as Hb. 
    rewrite <- (app_nil_r x) in T |- *. rewrite app_nil_r at 1.
    apply wp_bind. eapply wp_read_be; [exact T|exact Bx|]. rewrite Z.shiftl_mul_pow2 by exact Hs. apply TS_adv in T.
    assert (P0 : 0 < 2 ^ sh) by (apply Z.pow_pos_nonneg; lia).
    assert (Lt := TS_suffix _ _ _ _ _ _ _ _ _ _ (proj1 HI)).
    apply wp_bind. eapply wp_encode_bits; [exact T|lia|split; [nia|exact Hv]|exact Hc'|cbn [length]; lia|].
    intros m1 T1. eapply wp_pad; [exact T1| |lia|exact Hc|cbn [length]; lia|].
    { rewrite b32_chars_len. unfold vals5. now rewrite map_length, seq_length. }
    intros m2 T2. unfold done32. rewrite <- HT, HE. exact T2.
  Qed.

  Lemma extra32_ok out rest m : EIt out rest m -> (length rest < 5)%nat ->
    wp (b32_encode_extra t (ppt rest) (length rest) (qqt out) (b32_charset k) pad) done32 m.
  Proof.
    intros HI L. pose proof HI as [T HE].
    assert (Bx := TS_bytes _ _ _ _ _ _ _ _ _ _ HB T). pose proof (of_be_bound rest Bx) as Hb.
    short rest L; cbn [length b32_encode_extra]; cbn [length] in Hb.
    - apply wp_ret. unfold done32. rewrite <- HE. cbn [b32e b32_tail]. now rewrite app_nil_r.
    - apply (extra32_arm out [z] m 2 2 6); auto; try lia.
      inv_bytes. change (2 ^ 2) with 4. rewrite vals2 by auto. reflexivity.
    - apply (extra32_arm out [z; z0] m 4 4 4); auto; try lia.
      inv_bytes. change (2 ^ 4) with 16. rewrite vals4 by auto. reflexivity.
    - apply (extra32_arm out [z; z0; z1] m 5 1 3); auto; try lia.
      inv_bytes. change (2 ^ 1) with 2. rewrite vals_5 by auto. reflexivity.
    - apply (extra32_arm out [z; z0; z1; z2] m 7 3 1); auto; try lia.
      inv_bytes. change (2 ^ 3) with 8. rewrite vals7 by auto. reflexivity.
  Qed.

  Lemma b32_encode_fallback_ok out rest m n : EIt out rest m -> n = length rest ->
    wp (b32_encode_fallback t (ppt rest) n (qqt out) k pad) done32 m.
  Proof.
    intros HI ->. unfold b32_encode_fallback. cbn zeta.
    destruct (split_blocks rest 5) as (a & b & -> & La & Lb); [lia|].
    apply wp_bind. eapply wp_src_end; [exact (proj1 HI)|exact La|].
    apply wp_bind. eapply (enc_loop m0 bs so total bd d0 cap E cap_eq disj 5); [lia| |exact HI| |lia| |].
    - intros. now apply (E5_app 5).
    - rewrite La. apply Nat.mod_mul. lia.
    - intros. apply enc40_ok; auto.
    - intros out' m' HI'. rewrite <- Lb. apply extra32_ok; auto. rewrite Lb. apply Nat.mod_upper_bound. lia.
  Qed.

  Hypothesis HA : bytes_at m0 bs so total.

  Lemma b32_encode_simd_ok s out rest m n : sse41p s -> EIt out rest m -> n = length rest -> rest = total ->
    wp (b32_encode_simd t s (ppt rest) n (qqt out) k pad) done32 m.
  Proof.
    intros Hs HI -> Et. unfold b32_encode_simd. cbn zeta. change (10 + 20 + 6)%nat with 36%nat. change (20 + 6)%nat with 26%nat.
    apply wp_bind. destruct (Nat.leb_spec 36 (length rest)) as [G|G]; [|apply wp_ret; now apply b32_encode_fallback_ok].
    destruct (split_at rest 5) as (h1 & r1 & -> & L1); [lia|]. assert (Lr1 := app_length h1 r1).
    destruct (split_at r1 5) as (h2 & r & -> & L2); [lia|]. assert (Lr2 := app_length h2 r).
    assert (EX : E (h1 ++ h2 ++ r) = E h1 ++ E (h2 ++ r)) by (now apply (E5_app 5)).
    assert (EX2 : E (h2 ++ r) = E h2 ++ E r) by (now apply (E5_app 5)).
    assert (Hc := EI_cap m0 bs so total bd d0 cap E cap_eq _ _ _ _ _ HI EX).
    assert (Ha := EI_alias m0 bs so total bd d0 cap E cap_eq disj _ _ _ _ _ HI EX).
    apply wp_bind. eapply wp_mono; [apply enc40_ok; [exact (proj1 HI)|exact L1|exact Hc|exact Ha]|].
    intros st m1 [-> T1].
    assert (HI1 : EIt (out ++ E h1) (h2 ++ r) m1).
    { split; [exact T1|]. rewrite <- app_assoc, <- EX. exact (proj2 HI). }
    assert (Hc1 := EI_cap m0 bs so total bd d0 cap E cap_eq _ _ _ _ _ HI1 EX2).
    assert (Ha1 := EI_alias m0 bs so total bd d0 cap E cap_eq disj _ _ _ _ _ HI1 EX2).
    apply wp_bind. eapply wp_mono; [apply enc40_ok; [exact T1|exact L2|exact Hc1|exact Ha1]|].
    intros st m2 [-> T2].
    assert (HI2 : EIt ((out ++ E h1) ++ E h2) r m2).
    { split; [exact T2|]. rewrite <- app_assoc, <- EX2. exact (proj2 HI1). }
    replace (length (h1 ++ h2 ++ r) - 10)%nat with (length r) by lia.
    eapply (enc_wloop m0 bs so total bd d0 cap E cap_eq disj 26 20); [lia| |exact HI2|lia| |].
    { intros. now apply (E5_app 20). }
    { clear HI1 HI2 T1 T2 m1 m2 Hc Ha Hc1 Ha1 EX EX2. intros out' x q m' T Lx Lq Hc Ha.
      assert (Lxq := app_length x q).
      assert (EEx : E x = b32_chars k (octs x)) by (apply b32e_octs; now rewrite Lx). rewrite EEx in *.
      eapply (wp_load_back m0 bs so total bd d0 cap disj); [exact HA|exact HB|exact T|rewrite <- Et, Lr1; lia|lia|].
      rewrite Lx. intros v Lv Bv Ev.
      apply wp_bind. eapply wp_lift; [apply encode_bytes20_ok; auto|]. rewrite Ev.
      apply wp_bind. eapply wp_dst_store; [exact T|exact Hc|exact Ha|]. intros m2 T2.
      apply wp_bind. eapply wp_src_end; [exact T2|exact Lx|]. apply TS_adv in T2.
      apply wp_bind. eapply wp_dst_add; [exact T2|rewrite b32_chars_len, octs_len, Lx; reflexivity|].
      apply wp_ret. split; [|exact T2]. f_equal. lia. }
    intros out' r' m' HI' _ _. now apply b32_encode_fallback_ok.
  Qed.

  Lemma b32_encode_impl_ok s n : s = Fallback \/ sse41p s -> EIt [] total m0 -> n = length total ->
    wp (b32_encode_impl t s (ppt total) n (qqt []) k pad) done32 m0.
  Proof.
    intros [->|Hs] HI Hn; cbn [b32_encode_impl].
    - now apply b32_encode_fallback_ok.
    - destruct s; try discriminate Hs; now apply b32_encode_simd_ok.
  Qed.
End Encode.
