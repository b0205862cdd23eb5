(** The base64 decoders and checkers compute the specification and touch only what they may. *)
From Coq Require Import ZArith List Bool Lia ZifyBool ZifyNat.
From Verif Require Import Bytes Mem MemFacts Loops Loops2 Isa Simd SimdFacts Alsw AlswFacts Spec Ints HexFacts Base64 Base64SimdFacts Base64Ref Base64Facts.
Import ListNotations.
Open Scope Z_scope.
Open Scope m_scope.
Ltac Zify.zify_post_hook ::= Z.div_mod_to_equations.

(** ** Byte order *)
Lemma of_be_snoc l b : of_be (l ++ [b]) = of_be l * 256 + b.
Proof. unfold of_be. now rewrite fold_left_app. Qed.
Lemma le_bytes_of_be l : bytes l -> le_bytes (length l) (of_be l) = rev l.
Proof.
  induction l as [|b l IH] using rev_ind; intro B; [reflexivity|].
  apply bytes_app in B as [B1 B2]. inversion B2 as [|? ? Hb _]; subst. unfold byte in Hb.
  rewrite of_be_snoc, app_length, rev_app_distr. cbn [length rev app]. rewrite Nat.add_comm. cbn [le_bytes Nat.add].
  replace ((of_be l * 256 + b) mod 256) with b by lia. replace ((of_be l * 256 + b) / 256) with (of_be l) by lia.
  now rewrite IH.
Qed.
Lemma le_bytes_len n x : length (le_bytes n x) = n.
Proof. revert x. induction n; intro x; cbn [le_bytes length]; auto. Qed.
Lemma le_bytes_bytes n x : bytes (le_bytes n x).
Proof. revert x. induction n; intro x; cbn [le_bytes]; constructor; [unfold byte; lia|auto]. apply IHn. Qed.
(** storing the byte-swapped-if-little-endian value stores the big-endian bytes *)
Lemma native_to_be en n x : native_bytes en n (to_be en n x) = be_bytes n x.
Proof.
  destruct en; [|reflexivity]. cbn [native_bytes to_be]. unfold swap_bytes, be_bytes.
  pose proof (le_bytes_of_be (le_bytes n x) (le_bytes_bytes n x)) as H. now rewrite le_bytes_len in H.
Qed.
Lemma be_bytes_len n x : length (be_bytes n x) = n.
Proof. unfold be_bytes. now rewrite rev_length, le_bytes_len. Qed.

(** ** Tables *)
Lemma b64_table_len k : length (b64_table k) = 256%nat.
Proof. destruct k; vm_compute; reflexivity. Qed.
Lemma b64_table_dv k c : byte c -> nth (Z.to_nat c) (b64_table k) 0 = dv k c.
Proof. intro H. apply Z.eqb_eq. destruct k; revert c H; apply byte_sweep; vm_compute; reflexivity. Qed.
Lemma b64_table_map k x : bytes x -> map (fun c => nth (Z.to_nat c) (b64_table k) 0) x = map (dv k) x.
Proof. intro B. apply map_ext_in. intros c Hc. apply b64_table_dv. unfold bytes in B. rewrite Forall_forall in B. auto. Qed.

(** accumulated flags *)
Definition okv (v : Z) : bool := (v =? 255) || ((0 <=? v) && (v <? 64)).
Lemma okv_byte v : okv v = true -> byte v.
Proof. unfold okv, byte. lia. Qed.
Lemma okv_lor u v : okv u = true -> okv v = true -> okv (Z.lor u v) = true /\ (Z.lor u v =? 255) = (u =? 255) || (v =? 255).
Proof.
  intros Hu Hv. pose proof (okv_byte u Hu) as Bu. pose proof (okv_byte v Hv) as Bv.
  destruct (Z.eqb_spec u 255) as [->|Nu]; [now rewrite lor_255|]. destruct (Z.eqb_spec v 255) as [->|Nv]; [now rewrite Z.lor_comm, lor_255|].
  unfold okv in *. assert (0 <= Z.lor u v < 2 ^ 6) by (apply lor_small; lia). lia.
Qed.
Lemma dv_okv k c : byte c -> okv (dv k c) = true.
Proof. intro H. destruct k; revert c H; apply byte_sweep; vm_compute; reflexivity. Qed.
Lemma flags_ok k x f : bytes x -> okv f = true ->
  (fold_left Z.lor (map (dv k) x) f =? 255) = (f =? 255) || existsb (b64_bad k) x.
Proof.
  intro B. revert f. induction B as [|c x Hc Hx IH]; intros f F; cbn [map fold_left existsb].
  - now rewrite orb_false_r.
  - destruct (okv_lor f (dv k c) F (dv_okv k c Hc)) as [F' E]. rewrite IH by exact F'. rewrite E, <- orb_assoc. reflexivity.
Qed.
Lemma flags0_ok k x : bytes x -> (fold_left Z.lor (map (dv k) x) 0 =? 255) = existsb (b64_bad k) x.
Proof. intro B. now rewrite flags_ok. Qed.

Lemma lor_add a b n : 0 <= n -> a mod 2 ^ n = 0 -> 0 <= b < 2 ^ n -> Z.lor a b = a + b.
Proof.
  intros Hn Ha Hb. rewrite <- Z.lxor_lor, <- Z.add_nocarry_lxor; auto.
  all: apply Z.bits_inj'; intros i Hi; rewrite Z.land_spec, Z.bits_0.
  all: destruct (Z.lt_ge_cases i n) as [L|L].
  all: try (rewrite (Z.div_mod a (2 ^ n)), Ha, Z.add_0_r, Z.mul_comm, Z.mul_pow2_bits_low by lia; reflexivity).
  all: replace (Z.testbit b i) with false; [apply andb_false_r|]; symmetry.
  all: destruct (Z.eq_dec b 0) as [->|N]; [apply Z.bits_0|]; apply Z.bits_above_log2; [lia|].
  all: apply Z.log2_lt_pow2; [lia|]; apply Z.lt_le_trans with (2 ^ n); [lia|]; apply Z.pow_le_mono_r; lia.
Qed.
Lemma shiftl_small v n N : 0 <= n <= N - 6 -> six v -> Z.shiftl v n mod 2 ^ N = v * 2 ^ n.
Proof.
  intros Hn Hv. rewrite Z.shiftl_mul_pow2 by lia. apply Z.mod_small. unfold six in Hv.
  split; [nia|]. apply Z.lt_le_trans with (2 ^ 6 * 2 ^ n); [change (2 ^ 6) with 64; nia|].
  rewrite <- Z.pow_add_r by lia. apply Z.pow_le_mono_r; lia.
Qed.

Lemma be3 u : 0 <= u < 2 ^ 24 -> be_bytes 3 u = [u / 65536; u / 256 mod 256; u mod 256].
Proof.
  intro H. change (2 ^ 24) with 16777216 in H. unfold be_bytes. cbn [le_bytes rev app]. list_lia.
Qed.

Definition acc4 (a b c d : Z) : Z := ((a * 64 + b) * 64 + c) * 64 + d.
Lemma acc4_range a b c d : six a -> six b -> six c -> six d -> 0 <= acc4 a b c d < 16777216.
Proof. unfold six, acc4. lia. Qed.
Lemma acc4_trip a b c d : six a -> six b -> six c -> six d ->
  trip a b c d = [acc4 a b c d / 65536; acc4 a b c d / 256 mod 256; acc4 a b c d mod 256].
Proof. unfold six, trip, acc4. intros. list_lia. Qed.

Lemma word4 a b c d : six a -> six b -> six c -> six d ->
  Z.lor (Z.lor (Z.lor (Z.lor 0 (Z.shiftl a (18 - Z.of_nat 0 * 6) mod 2 ^ 32)) (Z.shiftl b (18 - Z.of_nat 1 * 6) mod 2 ^ 32))
    (Z.shiftl c (18 - Z.of_nat 2 * 6) mod 2 ^ 32)) (Z.shiftl d (18 - Z.of_nat 3 * 6) mod 2 ^ 32) = acc4 a b c d.
Proof.
  intros Ha Hb Hc Hd. rewrite !shiftl_small by (auto; lia). unfold six, acc4 in *.
  change (2 ^ (18 - Z.of_nat 0 * 6)) with 262144. change (2 ^ (18 - Z.of_nat 1 * 6)) with 4096.
  change (2 ^ (18 - Z.of_nat 2 * 6)) with 64. change (2 ^ (18 - Z.of_nat 3 * 6)) with 1.
  rewrite Z.lor_0_l. rewrite (lor_add _ (b * 4096) 18) by (change (2 ^ 18) with 262144; lia).
  rewrite (lor_add _ (c * 64) 12) by (change (2 ^ 12) with 4096; lia).
  rewrite (lor_add _ (d * 1) 6) by (change (2 ^ 6) with 64; lia). lia.
Qed.

Lemma word8 a b c d e f g h : six a -> six b -> six c -> six d -> six e -> six f -> six g -> six h ->
  Z.lor (Z.lor (Z.lor (Z.lor (Z.lor (Z.lor (Z.lor (Z.lor 0
    (Z.shiftl a (58 - Z.of_nat 0 * 6) mod 2 ^ 64)) (Z.shiftl b (58 - Z.of_nat 1 * 6) mod 2 ^ 64))
    (Z.shiftl c (58 - Z.of_nat 2 * 6) mod 2 ^ 64)) (Z.shiftl d (58 - Z.of_nat 3 * 6) mod 2 ^ 64))
    (Z.shiftl e (58 - Z.of_nat 4 * 6) mod 2 ^ 64)) (Z.shiftl f (58 - Z.of_nat 5 * 6) mod 2 ^ 64))
    (Z.shiftl g (58 - Z.of_nat 6 * 6) mod 2 ^ 64)) (Z.shiftl h (58 - Z.of_nat 7 * 6) mod 2 ^ 64)
  = (acc4 a b c d * 16777216 + acc4 e f g h) * 65536.
Proof.
  intros Ha Hb Hc Hd He Hf Hg Hh. rewrite !shiftl_small by (auto; lia). unfold six, acc4 in *.
  change (2 ^ (58 - Z.of_nat 0 * 6)) with 288230376151711744. change (2 ^ (58 - Z.of_nat 1 * 6)) with 4503599627370496.
  change (2 ^ (58 - Z.of_nat 2 * 6)) with 70368744177664. change (2 ^ (58 - Z.of_nat 3 * 6)) with 1099511627776.
  change (2 ^ (58 - Z.of_nat 4 * 6)) with 17179869184. change (2 ^ (58 - Z.of_nat 5 * 6)) with 268435456.
  change (2 ^ (58 - Z.of_nat 6 * 6)) with 4194304. change (2 ^ (58 - Z.of_nat 7 * 6)) with 65536.
  rewrite Z.lor_0_l. rewrite (lor_add _ (b * 4503599627370496) 58) by (change (2 ^ 58) with 288230376151711744; lia).
  rewrite (lor_add _ (c * _) 52) by (change (2 ^ 52) with 4503599627370496; lia).
  rewrite (lor_add _ (d * _) 46) by (change (2 ^ 46) with 70368744177664; lia).
  rewrite (lor_add _ (e * _) 40) by (change (2 ^ 40) with 1099511627776; lia).
  rewrite (lor_add _ (f * _) 34) by (change (2 ^ 34) with 17179869184; lia).
  rewrite (lor_add _ (g * _) 28) by (change (2 ^ 28) with 268435456; lia).
  rewrite (lor_add _ (h * _) 22) by (change (2 ^ 22) with 4194304; lia). lia.
Qed.

Lemma be8 u v : 0 <= u < 16777216 -> 0 <= v < 16777216 ->
  be_bytes 8 ((u * 16777216 + v) * 65536) =
  [u / 65536; u / 256 mod 256; u mod 256] ++ [v / 65536; v / 256 mod 256; v mod 256] ++ [0; 0].
Proof.
  intros Hu Hv. unfold be_bytes. cbn [le_bytes].
  replace ((u * 16777216 + v) * 65536 / 256) with ((u * 16777216 + v) * 256) by lia.
  replace ((u * 16777216 + v) * 256 / 256) with (u * 16777216 + v) by lia.
  replace ((u * 16777216 + v) / 256) with (u * 65536 + v / 256) by lia.
  replace ((u * 65536 + v / 256) / 256) with (u * 256 + v / 65536) by lia.
  replace ((u * 256 + v / 65536) / 256) with u by lia.
  cbn [rev app]. list_lia.
Qed.

Lemma bad_cons k c x : existsb (b64_bad k) (c :: x) = b64_bad k c || existsb (b64_bad k) x.
Proof. reflexivity. Qed.
Lemma good_six k x : bytes x -> existsb (b64_bad k) x = false -> Forall six (map (dv k) x).
Proof. apply b64_vals_six. Qed.

  Lemma land_sweep v : six v -> Z.land v 15 = v mod 16 /\ Z.land v 3 = v mod 4.
  Proof.
    intro H. enough (G : (Z.land v 15 =? v mod 16) && (Z.land v 3 =? v mod 4) = true) by lia.
    revert v H. apply (sweep1 64). vm_compute. reflexivity.
  Qed.
  Lemma lor_tail1 u v : six u -> six v -> Z.lor (shl8 u 2) (shr8 v 4) = 4 * u + v / 16.
  Proof.
    unfold six, shl8, shr8. change (2 ^ 2) with 4. change (2 ^ 4) with 16. intros Hu Hv. replace (u * 4 mod 256) with (2 ^ 2 * u) by lia.
    rewrite (lor_disj 2) by lia. change (2 ^ 2) with 4. lia.
  Qed.
  Lemma lor_tail2 u v : six u -> six v -> Z.lor (shl8 u 4) (shr8 v 2) = u mod 16 * 16 + v / 4.
  Proof.
    unfold six, shl8, shr8. change (2 ^ 2) with 4. change (2 ^ 4) with 16. intros Hu Hv. replace (u * 16 mod 256) with (2 ^ 4 * (u mod 16)) by lia.
    rewrite (lor_disj 4) by lia. change (2 ^ 4) with 16. lia.
  Qed.

  Lemma dl_add j n : (j mod 4 = 0)%nat -> b64_dl (j + n) = (b64_dl j + b64_dl n)%nat.
  Proof. unfold b64_dl. lia. Qed.

Section Decode.
  Context (m0 : mem) (bs so : nat) (total : list Z) (bd d0 cap : nat) (k : b64_kind) (e : b64_extra) (en : endian).
  Notation ppt := (pp bs so total).
  Notation qqt := (qq bd d0).
  Notation TSt := (TS m0 bs so total bd d0 cap).
  Notation fg := (b64_forgiving e).
  Notation D := (b64d k fg).
  Notation DIt := (DI m0 bs so total bd d0 cap D b64_dl).
  Notation cfg := {| b64_kind_of := k; b64_extra_of := e |}.
  Notation bad := (existsb (b64_bad k)).
  Hypothesis HB : bytes total.

  Lemma ascii8_ok out x r m (Q : result unit -> mem -> Prop) : TSt out (x ++ r) m -> length x = 8%nat -> bytes x ->
    (length out + 8 <= cap)%nat -> (length out + length (x ++ r) <= length total)%nat ->
    (bs <> bd \/ so + length total <= d0 \/ d0 <= so)%nat ->
    (forall m', bad x = true -> Frame m0 bd d0 cap m' -> Q Err m') ->
    (forall m', bad x = false -> TSt (out ++ triples (map (dv k) x)) r m' -> Q (Ok tt) m') ->
    wp (b64_decode_ascii8 en true (ppt (x ++ r)) (qqt out) (b64_table k)) Q m.
  Proof.
    intros T Lx Bx Hc Ha alias HE HO. unfold b64_decode_ascii8.
    apply wp_bind. eapply (wp_for_table m0 bs so total bd d0 cap (b64_table k)
      (fun i b st => (Z.lor (fst st) (Z.shiftl b (58 - Z.of_nat i * 6) mod 2 ^ 64), Z.lor (snd st) b)));
      [exact T|exact Lx|exact Bx|apply b64_table_len|].
    rewrite b64_table_map by exact Bx. pose proof (flags0_ok k x Bx) as F.
    destruct x as [|c1 [|c2 [|c3 [|c4 [|c5 [|c6 [|c7 [|c8 [|]]]]]]]]]; try discriminate Lx.
    cbn [map seq combine fold_left fst snd] in F |- *.
    assert (Lt := TS_suffix _ _ _ _ _ _ _ _ _ _ T). 
    assert (T' := T). apply TS_adv in T'. rewrite app_length, Lx in Ha, Lt.
    rewrite native_to_be.
    set (yy := Z.lor _ (Z.shiftl (dv k c8) _ mod _)).
    apply wp_bind. eapply (wp_dst_store_part m0 bs so total bd d0 cap _ _ _ _ 6); [exact T'|rewrite be_bytes_len; lia|rewrite be_bytes_len; lia|rewrite be_bytes_len; lia|].
    intros m' T2. apply wp_ret. rewrite F. destruct (existsb _ _) eqn:G in |- *.
    - apply HE; [exact G|eapply TS_frame; exact T2].
    - apply HO; [exact G|]. pose proof (good_six k _ Bx G) as S6. cbn [map] in S6.
      repeat match goal with H : Forall six (_ :: _) |- _ => inversion H; clear H; subst end.
      unfold yy in T2. rewrite word8, be8 in T2 by auto using acc4_range.
      cbn [map triples]. rewrite !acc4_trip by auto. exact T2.
  Qed.

  Lemma ascii4_ok out x r m (Q : result unit -> mem -> Prop) : TSt out (x ++ r) m -> length x = 4%nat -> bytes x ->
    (length out + 3 <= cap)%nat -> (length out + length (x ++ r) <= length total)%nat ->
    (bs <> bd \/ so + length total <= d0 \/ d0 <= so)%nat ->
    (forall m', bad x = true -> Frame m0 bd d0 cap m' -> Q Err m') ->
    (forall m', bad x = false -> TSt (out ++ triples (map (dv k) x)) r m' -> Q (Ok tt) m') ->
    wp (b64_decode_ascii4 true (ppt (x ++ r)) (qqt out) (b64_table k)) Q m.
  Proof.
    intros T Lx Bx Hc Ha alias HE HO. unfold b64_decode_ascii4.
    apply wp_bind. eapply (wp_for_table m0 bs so total bd d0 cap (b64_table k)
      (fun i b st => (Z.lor (fst st) (Z.shiftl b (18 - Z.of_nat i * 6) mod 2 ^ 32), Z.lor (snd st) b)));
      [exact T|exact Lx|exact Bx|apply b64_table_len|].
    rewrite b64_table_map by exact Bx. pose proof (flags0_ok k x Bx) as F.
    destruct x as [|c1 [|c2 [|c3 [|c4 [|]]]]]; try discriminate Lx.
    cbn [map seq combine fold_left fst snd] in F |- *.
    assert (Lt := TS_suffix _ _ _ _ _ _ _ _ _ _ T). 
    assert (T' := T). apply TS_adv in T'. rewrite app_length, Lx in Ha, Lt.
    set (yy := Z.lor _ (Z.shiftl (dv k c4) _ mod _)). cbn zeta.
    apply wp_bind, wp_bind. eapply wp_dst_write; [exact T'|lia|lia|]. intros m1 T1.
    apply wp_bind. eapply wp_dst_write_at; [exact T1|reflexivity|lia|lia|]. intros m2 T2. cbn [app] in T2.
    eapply wp_dst_write_at; [exact T2|reflexivity|lia|lia|]. intros m3 T3. cbn [app] in T3.
    apply wp_ret. rewrite F. destruct (existsb _ _) eqn:G in |- *.
    - apply HE; [exact G|eapply TS_frame; exact T3].
    - apply HO; [exact G|]. pose proof (good_six k _ Bx G) as S6. cbn [map] in S6.
      repeat match goal with H : Forall six (_ :: _) |- _ => inversion H; clear H; subst end.
      unfold yy in T3. rewrite word4 in T3 by auto.
      cbn [map triples]. rewrite !acc4_trip by auto. cbn [app].
      replace [acc4 (dv k c1) (dv k c2) (dv k c3) (dv k c4) / 65536;
        acc4 (dv k c1) (dv k c2) (dv k c3) (dv k c4) / 256 mod 256;
        acc4 (dv k c1) (dv k c2) (dv k c3) (dv k c4) mod 256] with
        [nth 1 (be_bytes 4 (acc4 (dv k c1) (dv k c2) (dv k c3) (dv k c4))) 0;
         nth 2 (be_bytes 4 (acc4 (dv k c1) (dv k c2) (dv k c3) (dv k c4))) 0;
         nth 3 (be_bytes 4 (acc4 (dv k c1) (dv k c2) (dv k c3) (dv k c4))) 0]; [exact T3|].
      pose proof (acc4_range (dv k c1) (dv k c2) (dv k c3) (dv k c4)) as R. set (u := acc4 _ _ _ _) in *.
      unfold be_bytes. cbn [le_bytes rev app nth].
      destruct R as [R1 R2]; auto. list_lia.
  Qed.

  Definition dec_post (r : result unit) (m : mem) : Prop :=
    Frame m0 bd d0 cap m /\
    match r with
    | Ok _ => exists o, D total = Some o /\ length o = cap /\ TSt o [] m
    | Err => D total = None
    end.
  Lemma post_err m : D total = None -> Frame m0 bd d0 cap m -> dec_post Err m.
  Proof. now split. Qed.
  Lemma post_ok out m : DIt out [] m -> dec_post (Ok tt) m.
  Proof.
    intros (T & H & HL & _). split; [eapply TS_frame; exact T|]. cbn in H. rewrite app_nil_r in H.
    exists out. cbn in HL. split; [exact H|]. split; [lia|exact T].
  Qed.

  Hypothesis alias : (bs <> bd \/ so + length total <= d0 \/ d0 <= so)%nat.

  Lemma D_block j x r : (j mod 4 = 0)%nat -> length x = j -> D (x ++ r) = match D x with Some o => oapp o (D r) | None => None end.
  Proof.
    intros Hj Lx. rewrite b64d_block, (b64d_triples k _ x) by (now rewrite Lx). now destruct (existsb _ x).
  Qed.
  Lemma dec_extra_ok out rest m : DIt out rest m -> (length rest < 4)%nat -> (length rest <> 1)%nat ->
    wp (b64_decode_extra true (length rest) (ppt rest) (qqt out) (b64_table k) fg) dec_post m.
  Proof.
    intros HI L N. pose proof HI as (T & HD & HL & HAl).
    assert (Bx := TS_bytes _ _ _ _ _ _ _ _ _ _ HB T).
    pose proof (flags0_ok k rest Bx) as F. pose proof (good_six k rest Bx) as S6.
    destruct rest as [|c1 [|c2 [|c3 [|]]]]; cbn [length] in L, N; try lia; clear L N; cbn [length b64_decode_extra].
    - apply wp_ret. now apply (post_ok out).
    - change [c1; c2] with ([c1; c2] ++ []) in T |- *. inv_bytes.
      apply wp_bind. eapply wp_src_load; [exact T|reflexivity|]. apply TS_adv in T.
      apply wp_bind. apply wp_table; [rewrite b64_table_len; unfold byte in *; lia|].
      apply wp_bind. apply wp_table; [rewrite b64_table_len; unfold byte in *; lia|].
      rewrite !b64_table_dv by auto. cbn [map fold_left] in F. rewrite Z.lor_0_l in F. rewrite F.
      destruct (existsb (b64_bad k) [c1; c2]) eqn:G; cbn [negb andb].
      { apply wp_ret. apply post_err; [|eapply TS_frame; exact T]. rewrite HD.
        cbn [b64d b64d_tail]. cbn [existsb] in G. rewrite orb_false_r in G. now rewrite G. }
      specialize (S6 eq_refl). cbn [map] in S6.
      repeat match goal with H : Forall six (_ :: _) |- _ => inversion H; clear H; subst end.
      destruct (land_sweep (dv k c2)) as [-> _]; auto.
      cbn [existsb] in G. rewrite orb_false_r in G. cbn [b64d b64d_tail] in HD. rewrite G in HD.
      destruct (fg || (dv k c2 mod 16 =? 0)) eqn:Z0.
      + rewrite lor_tail1 by auto. change (b64_dl (length [c1; c2])) with 1%nat in HL.
        assert (Lt := TS_suffix _ _ _ _ _ _ _ _ _ _ (proj1 HI)). cbn [length] in *.
        apply wp_bind. eapply wp_dst_write; [exact T|lia|cbn [length]; lia|]. intros m' T'. apply wp_ret.
        apply (post_ok (out ++ [4 * dv k c1 + dv k c2 / 16])). split; [exact T'|]. rewrite app_length. cbn [length].
        split; [rewrite HD; cbn; now rewrite app_nil_r|]. change (b64_dl 0) with 0%nat. lia.
      + apply wp_ret. apply post_err; [exact HD|eapply TS_frame; exact T].
    - change [c1; c2; c3] with ([c1; c2; c3] ++ []) in T |- *. inv_bytes.
      apply wp_bind. eapply wp_src_load; [exact T|reflexivity|]. apply TS_adv in T.
      apply wp_bind. apply wp_table; [rewrite b64_table_len; unfold byte in *; lia|].
      apply wp_bind. apply wp_table; [rewrite b64_table_len; unfold byte in *; lia|].
      apply wp_bind. apply wp_table; [rewrite b64_table_len; unfold byte in *; lia|].
      rewrite !b64_table_dv by auto. cbn [map fold_left] in F. rewrite Z.lor_0_l in F. rewrite F.
      destruct (existsb (b64_bad k) [c1; c2; c3]) eqn:G; cbn [negb andb].
      { apply wp_ret. apply post_err; [|eapply TS_frame; exact T]. rewrite HD.
        cbn [b64d b64d_tail]. cbn [existsb] in G. rewrite orb_false_r in G. rewrite orb_assoc in G. now rewrite G. }
      specialize (S6 eq_refl). cbn [map] in S6.
      repeat match goal with H : Forall six (_ :: _) |- _ => inversion H; clear H; subst end.
      destruct (land_sweep (dv k c3)) as [_ ->]; auto.
      cbn [existsb] in G. rewrite orb_false_r, orb_assoc in G. cbn [b64d b64d_tail] in HD. rewrite G in HD.
      destruct (fg || (dv k c3 mod 4 =? 0)) eqn:Z0.
      + rewrite lor_tail1, lor_tail2 by auto. change (b64_dl (length [c1; c2; c3])) with 2%nat in HL.
        assert (Lt := TS_suffix _ _ _ _ _ _ _ _ _ _ (proj1 HI)). cbn [length] in *.
        apply wp_bind, wp_bind. eapply wp_dst_write; [exact T|lia|cbn [length]; lia|]. intros m1 T1.
        eapply wp_dst_write_at; [exact T1|reflexivity|lia|cbn [length]; lia|]. intros m' T'. apply wp_ret.
        apply (post_ok (out ++ [4 * dv k c1 + dv k c2 / 16; dv k c2 mod 16 * 16 + dv k c3 / 4])).
        split; [exact T'|]. rewrite app_length. cbn [length].
        split; [rewrite HD; cbn; now rewrite app_nil_r|]. change (b64_dl 0) with 0%nat. lia.
      + apply wp_ret. apply post_err; [exact HD|eapply TS_frame; exact T].
  Qed.

  Lemma triples_dl x : (length x mod 4 = 0)%nat -> length (triples (map (dv k) x)) = b64_dl (length x).
  Proof. intro H. rewrite triples_len, map_length. unfold b64_dl. lia. Qed.

  Lemma b64_decode_fallback_ok out rest m n : DIt out rest m -> n = length rest -> (n mod 4 <> 1)%nat ->
    wp (b64_decode_fallback en (ppt rest) (qqt out) n cfg) dec_post m.
  Proof.
    intros HI -> HN. unfold b64_decode_fallback. cbn [b64_kind_of b64_extra_of]. cbn zeta.
    apply wp_try. eapply (dec_wloop m0 bs so total bd d0 cap D b64_dl 11 8); [lia| | | |exact HB|exact HI|lia| | |].
    - intros. now apply (D_block 8).
    - intro. now apply dl_add.
    - cbn. lia.
    - clear out m HI HN. intros out x r m T Lx Bx Lr Hc Ha. change (b64_dl 8) with 6%nat in *.
      assert (Lt := TS_suffix _ _ _ _ _ _ _ _ _ _ T).
      assert (R2 : (2 <= b64_dl (length r))%nat) by (rewrite app_length in Lr; unfold b64_dl; lia).
      apply wp_try. apply ascii8_ok; auto; [lia| |].
      + intros m' G F. rewrite b64d_triples, G by (now rewrite Lx). auto.
      + intros m' G T'. assert (Lo := triples_dl x ltac:(now rewrite Lx)). rewrite Lx in Lo. change (b64_dl 8) with 6%nat in Lo.
        apply wp_bind. eapply wp_src_add; [exact T'|exact Lx| |exact Lt].
        apply wp_bind. eapply wp_dst_add; [exact T'|exact Lo|]. apply wp_ret.
        exists (triples (map (dv k) x)). rewrite b64d_triples, G by (now rewrite Lx). split; [reflexivity|]. split; [exact Lo|].
        split; [|exact T']. rewrite app_length, Lx. do 2 f_equal. lia.
    - intros m' HF F. now apply post_err.
    - clear out m HI. intros out r m HI _ Hm. assert (Hr : (length r mod 4 <> 1)%nat) by lia. clear Hm HN rest. rename r into rest.
      destruct (split_blocks rest 4) as (a & b & -> & La & Lb); [lia|].
      apply wp_bind. eapply wp_src_end; [exact (proj1 HI)|exact La|].
      apply wp_try. eapply (dec_loop m0 bs so total bd d0 cap D b64_dl 4); [lia| | | |exact HI| |lia| | |].
      + intros. now apply (D_block 4).
      + intro. now apply dl_add.
      + cbn. lia.
      + rewrite La. apply Nat.mod_mul. lia.
      + clear out m HI Hr. clear a b La Lb. intros out x r m T Lx Hc Ha. change (b64_dl 4) with 3%nat in *. cbn [fst snd].
        assert (Lt := TS_suffix _ _ _ _ _ _ _ _ _ _ T).
        assert (Bx := TS_bytes _ _ _ _ _ _ _ _ _ _ HB T). apply bytes_app in Bx as [Bx _].
        apply wp_try. apply ascii4_ok; auto; [lia| |].
        * intros m' G F. rewrite b64d_triples, G by (now rewrite Lx). auto.
        * intros m' G T'. assert (Lo := triples_dl x ltac:(now rewrite Lx)). rewrite Lx in Lo. change (b64_dl 4) with 3%nat in Lo.
          apply wp_bind. eapply wp_src_add; [exact T'|exact Lx| |exact Lt].
          apply wp_bind. eapply wp_dst_add; [exact T'|exact Lo|]. apply wp_ret.
          exists (triples (map (dv k) x)). rewrite b64d_triples, G by (now rewrite Lx). auto.
      + intros m' HF F. now apply post_err.
      + intros out' m' HI'. cbn [fst snd]. rewrite <- Lb. apply dec_extra_ok; auto; rewrite Lb; [apply Nat.mod_upper_bound; lia|exact Hr].
  Qed.

  Lemma b64_decode_simd_ok s out rest m n : swz s -> DIt out rest m -> n = length rest -> (n mod 4 <> 1)%nat ->
    wp (b64_decode_simd en s (ppt rest) (qqt out) n cfg) dec_post m.
  Proof.
    intros Hs HI -> HN. unfold b64_decode_simd. cbn [b64_kind_of b64_extra_of]. cbn zeta.
    apply wp_try. eapply (dec_wloop m0 bs so total bd d0 cap D b64_dl 38 32); [lia| | | |exact HB|exact HI|lia| | |].
    - intros. now apply (D_block 32).
    - intro. now apply dl_add.
    - change (b64_dl 32) with 24%nat. lia.
    - clear out m HI HN. intros out x r m T Lx Bx Lr Hc Ha. change (b64_dl 32) with 24%nat in *.
      assert (Lt := TS_suffix _ _ _ _ _ _ _ _ _ _ T).
      assert (Lxr := app_length x r).
      assert (R2 : (4 <= b64_dl (length r))%nat) by (unfold b64_dl; lia).
      apply wp_bind. eapply wp_src_load; [exact T|exact Lx|].
      apply wp_bind. eapply wp_lift; [apply b64_decode_ascii32_ok; auto|].
      rewrite b64d_triples by (now rewrite Lx).
      destruct (existsb (b64_bad k) x) eqn:G.
      { apply wp_ret. split; [reflexivity|eapply TS_frame; exact T]. }
      apply TS_adv in T. change (al_decode (b64_alsw k)) with (dv k).
      destruct (split_at x 16) as (x1 & x2 & -> & L1); [lia|].
      assert (L2 : length x2 = 16%nat) by (rewrite app_length in Lx; lia).
      assert (Lt1 : length (triples (map (dv k) x1)) = 12%nat) by (rewrite triples_dl; now rewrite L1).
      assert (Lt2 : length (triples (map (dv k) x2)) = 12%nat) by (rewrite triples_dl; now rewrite L2).
      assert (EM : merged (map (dv k) (x1 ++ x2)) = (triples (map (dv k) x1) ++ [0; 0; 0; 0]) ++ (triples (map (dv k) x2) ++ [0; 0; 0; 0])).
      { unfold merged. rewrite map_app, firstn_app_exact, skipn_app_exact by (now rewrite map_length). now rewrite <- !app_assoc. }
      rewrite EM. unfold lo128, hi128. rewrite firstn_app_exact, skipn_app_exact by (rewrite app_length, Lt1; reflexivity).
      assert (ET : triples (map (dv k) (x1 ++ x2)) = triples (map (dv k) x1) ++ triples (map (dv k) x2)).
      { pose proof (b64d_block k false x1 x2 ltac:(now rewrite L1)) as P1.
        pose proof (b64d_triples k false (x1 ++ x2) ltac:(now rewrite Lx)) as P2.
        pose proof (b64d_triples k false x2 ltac:(now rewrite L2)) as P3.
        rewrite existsb_app in G. apply orb_false_iff in G as [G1 G2]. rewrite G1 in P1. rewrite existsb_app, G1, G2 in P2.
        rewrite G2 in P3. rewrite P3 in P1. cbn [oapp orb] in P1, P2. congruence. }
      rewrite ET.
      apply wp_bind. eapply (wp_dst_store_part m0 bs so total bd d0 cap _ _ _ _ 12); [exact T| | | |].
      1,2,3: rewrite app_length, Lt1; cbn [length]; lia.
      rewrite firstn_app_exact by exact Lt1. intros m1 T1.
      apply wp_bind. eapply wp_dst_add; [exact T1|exact Lt1|].
      apply wp_bind. eapply (wp_dst_store_part m0 bs so total bd d0 cap _ _ _ _ 12); [exact T1| | | |].
      1,2,3: rewrite ?app_length, ?Lt1, ?Lt2; cbn [length]; lia.
      rewrite firstn_app_exact by exact Lt2. intros m2 T2. rewrite <- app_assoc in T2.
      apply wp_bind. eapply wp_src_add; [exact T2|exact Lx| |exact Lt].
      apply wp_bind. eapply wp_dst_add; [exact T2|rewrite app_length, Lt1, Lt2; reflexivity|]. apply wp_ret.
      eexists. split; [reflexivity|]. split; [rewrite app_length, Lt1, Lt2; reflexivity|].
      split; [|exact T2]. do 2 f_equal. lia.
    - intros m' HF F. now apply post_err.
    - intros out' r m' HI' _ Hm. apply b64_decode_fallback_ok; auto. lia.
  Qed.

  Lemma b64_decode_impl_ok s n : s = Fallback \/ swz s -> DIt [] total m0 -> n = length total -> (n mod 4 <> 1)%nat ->
    wp (b64_decode_impl en s (ppt total) (qqt []) n cfg) dec_post m0.
  Proof.
    intros [->|Hs] HI Hn HN; cbn [b64_decode_impl].
    - now apply b64_decode_fallback_ok.
    - destruct s; try discriminate Hs; now apply b64_decode_simd_ok.
  Qed.
End Decode.

Section Check.
  Context (m0 : mem) (bs so : nat) (total : list Z) (k : b64_kind) (e : b64_extra) (en : endian).
  Notation ppt := (pp bs so total).
  Notation RSt := (RS m0 bs so total).
  Notation fg := (b64_forgiving e).
  Notation D := (b64d k fg).
  Definition isSome (o : option (list Z)) : bool := match o with Some _ => true | None => false end.
  Definition V (l : list Z) : bool := isSome (D l).
  Notation CIt := (CI m0 bs so total V).
  Notation post := (chk_post m0 total V).
  Notation cfg := {| b64_kind_of := k; b64_extra_of := e |}.
  Notation good := (fun x => negb (existsb (b64_bad k) x)).
  Hypothesis HB : bytes total.

  Lemma V_block j x r : (j mod 4 = 0)%nat -> length x = j -> V (x ++ r) = good x && V r.
  Proof.
    intros Hj Lx. unfold V. rewrite b64d_block by (now rewrite Lx). destruct (existsb (b64_bad k) x); [reflexivity|].
    cbn [negb andb]. now destruct (D r).
  Qed.

  Lemma chk8_ok x r m (Q : result unit -> mem -> Prop) : RSt (x ++ r) m -> length x = 8%nat -> bytes x ->
    Q (if good x then Ok tt else Err) m ->
    wp (b64_decode_ascii8 en false (ppt (x ++ r)) null (b64_table k)) Q m.
  Proof.
    intros T Lx Bx HQ. unfold b64_decode_ascii8.
    apply wp_bind. eapply (wp_for_table m0 bs so total bs 0 0 (b64_table k) (fun i b st => (fst st, Z.lor (snd st) b)));
      [exact T|exact Lx|exact Bx|apply b64_table_len|].
    rewrite b64_table_map by exact Bx. pose proof (flags0_ok k x Bx) as F.
    destruct x as [|c1 [|c2 [|c3 [|c4 [|c5 [|c6 [|c7 [|c8 [|]]]]]]]]]; try discriminate Lx.
    cbn [map seq combine fold_left fst snd] in F |- *.
    apply wp_bind, wp_ret, wp_ret. rewrite F. destruct (existsb _ _); exact HQ.
  Qed.
  Lemma chk4_ok x r m (Q : result unit -> mem -> Prop) : RSt (x ++ r) m -> length x = 4%nat -> bytes x ->
    Q (if good x then Ok tt else Err) m ->
    wp (b64_decode_ascii4 false (ppt (x ++ r)) null (b64_table k)) Q m.
  Proof.
    intros T Lx Bx HQ. unfold b64_decode_ascii4.
    apply wp_bind. eapply (wp_for_table m0 bs so total bs 0 0 (b64_table k) (fun i b st => (fst st, Z.lor (snd st) b)));
      [exact T|exact Lx|exact Bx|apply b64_table_len|].
    rewrite b64_table_map by exact Bx. pose proof (flags0_ok k x Bx) as F.
    destruct x as [|c1 [|c2 [|c3 [|c4 [|]]]]]; try discriminate Lx.
    cbn [map seq combine fold_left fst snd] in F |- *.
    apply wp_bind, wp_ret, wp_ret. rewrite F. destruct (existsb _ _); exact HQ.
  Qed.

  Lemma chk_extra_ok rest m : CIt rest m -> (length rest < 4)%nat -> (length rest <> 1)%nat ->
    wp (b64_decode_extra false (length rest) (ppt rest) null (b64_table k) fg) post m.
  Proof.
    intros HI L N. pose proof HI as (T & HV).
    assert (Bx := TS_bytes _ _ _ _ _ _ _ _ _ _ HB T).
    pose proof (flags0_ok k rest Bx) as F. pose proof (good_six k rest Bx) as S6.
    destruct rest as [|c1 [|c2 [|c3 [|]]]]; cbn [length] in L, N; try lia; clear L N; cbn [length b64_decode_extra].
    - apply wp_ret. now apply (chk_ok m0 bs so total V []).
    - change [c1; c2] with ([c1; c2] ++ []) in T |- *. inv_bytes.
      apply wp_bind. eapply wp_src_load; [exact T|reflexivity|].
      apply wp_bind. apply wp_table; [rewrite b64_table_len; unfold byte in *; lia|].
      apply wp_bind. apply wp_table; [rewrite b64_table_len; unfold byte in *; lia|].
      rewrite !b64_table_dv by auto. cbn [map fold_left] in F. rewrite Z.lor_0_l in F. rewrite F.
      destruct (existsb (b64_bad k) [c1; c2]) eqn:G; cbn [negb andb].
      { apply wp_ret. apply (chk_err m0 bs so total V [c1; c2]); [exact HI|]. unfold V.
        cbn [b64d b64d_tail]. cbn [existsb] in G. rewrite orb_false_r in G. now rewrite G. }
      specialize (S6 eq_refl). cbn [map] in S6.
      repeat match goal with H : Forall six (_ :: _) |- _ => inversion H; clear H; subst end.
      destruct (land_sweep (dv k c2)) as [-> _]; auto.
      cbn [existsb] in G. rewrite orb_false_r in G.
      assert (HVr : V [c1; c2] = fg || (dv k c2 mod 16 =? 0)).
      { unfold V. cbn [b64d b64d_tail]. rewrite G. now destruct (fg || _). }
      destruct (fg || (dv k c2 mod 16 =? 0)) eqn:Z0.
      + apply wp_bind, wp_ret, wp_ret. now apply (chk_ok m0 bs so total V [c1; c2]).
      + apply wp_ret. now apply (chk_err m0 bs so total V [c1; c2]).
    - change [c1; c2; c3] with ([c1; c2; c3] ++ []) in T |- *. inv_bytes.
      apply wp_bind. eapply wp_src_load; [exact T|reflexivity|].
      apply wp_bind. apply wp_table; [rewrite b64_table_len; unfold byte in *; lia|].
      apply wp_bind. apply wp_table; [rewrite b64_table_len; unfold byte in *; lia|].
      apply wp_bind. apply wp_table; [rewrite b64_table_len; unfold byte in *; lia|].
      rewrite !b64_table_dv by auto. cbn [map fold_left] in F. rewrite Z.lor_0_l in F. rewrite F.
      destruct (existsb (b64_bad k) [c1; c2; c3]) eqn:G; cbn [negb andb].
      { apply wp_ret. apply (chk_err m0 bs so total V [c1; c2; c3]); [exact HI|]. unfold V.
        cbn [b64d b64d_tail]. cbn [existsb] in G. rewrite orb_false_r, orb_assoc in G. now rewrite G. }
      specialize (S6 eq_refl). cbn [map] in S6.
      repeat match goal with H : Forall six (_ :: _) |- _ => inversion H; clear H; subst end.
      destruct (land_sweep (dv k c3)) as [_ ->]; auto.
      cbn [existsb] in G. rewrite orb_false_r, orb_assoc in G.
      assert (HVr : V [c1; c2; c3] = fg || (dv k c3 mod 4 =? 0)).
      { unfold V. cbn [b64d b64d_tail]. rewrite G. now destruct (fg || _). }
      destruct (fg || (dv k c3 mod 4 =? 0)) eqn:Z0.
      + apply wp_bind, wp_ret, wp_ret. now apply (chk_ok m0 bs so total V [c1; c2; c3]).
      + apply wp_ret. now apply (chk_err m0 bs so total V [c1; c2; c3]).
  Qed.

  Lemma post_false m : V total = false -> (forall b, m b = m0 b) -> post Err m.
  Proof. intros H S. split; [exact S|]. now rewrite H. Qed.

  Lemma b64_check_fallback_ok rest m n : CIt rest m -> n = length rest -> (n mod 4 <> 1)%nat ->
    wp (b64_check_fallback en (ppt rest) n cfg) post m.
  Proof.
    intros HI -> HN. unfold b64_check_fallback. cbn [b64_kind_of b64_extra_of]. cbn zeta.
    apply wp_try. eapply (chk_wloop m0 bs so total V 11 8 good); [lia| |exact HB|exact HI|lia| |exact post_false|].
    { intros. now apply (V_block 8). }
    { intros x r m' T Lx Bx Lr. cbn [fst snd]. assert (T' := T). apply RS_adv in T'.
      apply wp_try. apply chk8_ok; auto. destruct (negb _) eqn:G.
      - apply wp_bind. eapply wp_src_end; [exact T|exact Lx|]. apply wp_ret. split; [exact T'|]. rewrite app_length, Lx. do 2 f_equal. lia.
      - auto. }
    intros r m' HI' _ Hm Hl. 
    apply wp_try. eapply (chk_wloop m0 bs so total V 4 4 good); [lia| |exact HB|exact HI'|lia| |exact post_false|].
    { intros. now apply (V_block 4). }
    { clear r m' HI' Hm Hl. intros x r m' T Lx Bx Lr. cbn [fst snd]. assert (T' := T). apply RS_adv in T'.
      apply wp_try. apply chk4_ok; auto. destruct (negb _) eqn:G.
      - apply wp_bind. eapply wp_src_end; [exact T|exact Lx|]. apply wp_ret. split; [exact T'|]. rewrite app_length, Lx. do 2 f_equal. lia.
      - auto. }
    intros r2 m2 HI2 L2 Hm2 _. cbn [fst snd]. apply chk_extra_ok; auto. lia.
  Qed.

  Lemma b64_check_simd_ok s rest m n : swz s -> CIt rest m -> n = length rest -> (n mod 4 <> 1)%nat ->
    wp (b64_check_simd en s (ppt rest) n cfg) post m.
  Proof.
    intros Hs HI -> HN. unfold b64_check_simd. cbn [b64_kind_of b64_extra_of]. cbn zeta.
    apply wp_try. eapply (chk_wloop m0 bs so total V 38 32 good); [lia| |exact HB|exact HI|lia| |exact post_false|].
    { intros. now apply (V_block 32). }
    { intros x r m' T Lx Bx Lr. cbn [fst snd]. assert (T' := T). apply RS_adv in T'.
      apply wp_bind. eapply wp_src_load; [exact T|exact Lx|].
      apply wp_bind. eapply wp_lift; [apply b64_check_ascii32_ok; auto|].
      destruct (negb _) eqn:G.
      - apply wp_bind. eapply wp_src_end; [exact T|exact Lx|]. apply wp_ret. split; [exact T'|]. rewrite app_length, Lx. do 2 f_equal. lia.
      - apply wp_ret. auto. }
    intros r m' HI' _ Hm Hl. cbn [fst snd]. apply b64_check_fallback_ok; auto. lia.
  Qed.

  Lemma b64_check_impl_ok s n : s = Fallback \/ swz s -> CIt total m0 -> n = length total -> (n mod 4 <> 1)%nat ->
    wp (b64_check_impl en s (ppt total) n cfg) post m0.
  Proof.
    intros [->|Hs] HI Hn HN; cbn [b64_check_impl].
    - now apply b64_check_fallback_ok.
    - destruct s; try discriminate Hs; now apply b64_check_simd_ok.
  Qed.
End Check.
