(** The base64 implementations compute the specification and touch only what they may. *)
From Coq Require Import ZArith List Bool Lia ZifyBool ZifyNat.
From Verif Require Import Bytes Mem MemFacts Loops Loops2 Isa Simd SimdFacts Alsw AlswFacts Spec Ints HexFacts Base64 Base64SimdFacts Base64Ref.
Import ListNotations.
Open Scope Z_scope.
Open Scope m_scope.
Ltac Zify.zify_post_hook ::= Z.div_mod_to_equations.

Ltac list_lia := repeat (apply (f_equal2 (@cons Z)); [lia|]); reflexivity.

Lemma charset_len k : length (b64_charset k) = 64%nat.
Proof. now destruct k. Qed.
Lemma land63 x : 0 <= Z.land x 63 < 64.
Proof. change 63 with (Z.ones 6). rewrite Z.land_ones by lia. apply Z.mod_pos_bound. lia. Qed.

(** the index computed by the scalar encoders *)
Lemma pick x k : 0 <= k -> Z.land (Z.shiftr x k) 63 = (x / 2 ^ k) mod 64.
Proof. intro H. rewrite Z.shiftr_div_pow2 by exact H. change 63 with (Z.ones 6). now rewrite Z.land_ones by lia. Qed.

Lemma bits24_vals a b c : byte a -> byte b -> byte c ->
  map (fun i => Z.land (Z.shiftr (of_be [0; a; b; c]) (18 - Z.of_nat i * 6)) 63) (seq 0 4) = sext a b c.
Proof.
  intros Ha Hb Hc. unfold byte in *. cbn [seq map]. rewrite !pick by lia. unfold of_be. cbn [fold_left].
  change (2 ^ (18 - Z.of_nat 0 * 6)) with 262144. change (2 ^ (18 - Z.of_nat 1 * 6)) with 4096.
  change (2 ^ (18 - Z.of_nat 2 * 6)) with 64. change (2 ^ (18 - Z.of_nat 3 * 6)) with 1.
  unfold sext. list_lia.
Qed.
Lemma bits48_vals a b c d e f g h : byte a -> byte b -> byte c -> byte d -> byte e -> byte f -> byte g -> byte h ->
  map (fun i => Z.land (Z.shiftr (of_be [a; b; c; d; e; f; g; h]) (58 - Z.of_nat i * 6)) 63) (seq 0 8) = sext a b c ++ sext d e f.
Proof.
  intros Ha Hb Hc Hd He Hf Hg Hh. unfold byte in *. cbn [seq map]. rewrite !pick by lia. unfold of_be. cbn [fold_left].
  set (lo := g * 256 + h). assert (Hlo : 0 <= lo < 65536) by (unfold lo; lia).
  set (x := (((((0 * 256 + a) * 256 + b) * 256 + c) * 256 + d) * 256 + e) * 256 + f).
  replace ((x * 256 + g) * 256 + h) with (x * 65536 + lo) by (unfold lo; lia).
  assert (P : forall k, 0 <= k -> (x * 65536 + lo) / 2 ^ (16 + k) = x / 2 ^ k).
  { intros k Hk. rewrite Z.pow_add_r by lia. change (2 ^ 16) with 65536. rewrite <- Z.div_div by lia.
    f_equal. lia. }
  set (u := (a * 256 + b) * 256 + c). set (v := (d * 256 + e) * 256 + f).
  assert (Hv : 0 <= v < 16777216) by (unfold v; lia).
  assert (Ex : x = u * 16777216 + v) by (unfold x, u, v; lia).
  assert (P2 : forall k, 0 <= k -> x / 2 ^ (24 + k) = u / 2 ^ k).
  { intros k Hk. rewrite Ex, Z.pow_add_r by lia. change (2 ^ 24) with 16777216. rewrite <- Z.div_div by lia. f_equal. lia. }
  change (58 - Z.of_nat 0 * 6) with (16 + (24 + 18)). change (58 - Z.of_nat 1 * 6) with (16 + (24 + 12)).
  change (58 - Z.of_nat 2 * 6) with (16 + (24 + 6)). change (58 - Z.of_nat 3 * 6) with (16 + (24 + 0)).
  change (58 - Z.of_nat 4 * 6) with (16 + 18). change (58 - Z.of_nat 5 * 6) with (16 + 12).
  change (58 - Z.of_nat 6 * 6) with (16 + 6). change (58 - Z.of_nat 7 * 6) with (16 + 0).
  rewrite !P, !P2 by lia. clear P P2.
  change (2 ^ 18) with 262144. change (2 ^ 12) with 4096. change (2 ^ 6) with 64. change (2 ^ 0) with 1.
  assert (Mu : forall q, x / q mod 64 = (u * 16777216 + v) / q mod 64) by (intro; now rewrite Ex).
  rewrite !Mu. clear Mu Ex. clearbody x lo. unfold sext. cbn [app]. subst u v. list_lia.
Qed.

Section Encode.
  Context (m0 : mem) (bs so : nat) (total : list Z) (bd d0 cap : nat) (k : b64_kind) (e : b64_extra).
  Notation ppt := (pp bs so total).
  Notation qqt := (qq bd d0).
  Notation TSt := (TS m0 bs so total bd d0 cap).
  Notation E := (b64e k (b64_padding e)).
  Notation EIt := (EI m0 bs so total bd d0 cap E).
  Notation cfg := {| b64_kind_of := k; b64_extra_of := e |}.
  Hypothesis HB : bytes total.
  Hypothesis cap_eq : cap = length (E total).
  Hypothesis disj : (bs <> bd \/ so + length total <= d0 \/ d0 + cap <= so)%nat.

  Lemma E_app j x r : (j mod 3 = 0)%nat -> length x = j -> E (x ++ r) = E x ++ E r.
  Proof. intros H L. apply b64e_app. now rewrite L. Qed.

  Lemma enc24_ok out x r m : TSt out (x ++ r) m -> length x = 3%nat -> (0 <= length r)%nat ->
    (length out + length (E x) <= cap)%nat ->
    (bs <> bd \/ so + length total <= d0 \/ d0 + length out + length (E x) <= so + (length total - length (x ++ r)))%nat ->
    wp (enc24_step (b64_charset k) (ppt (x ++ r), qqt out))
       (fun st m' => st = (ppt r, qqt (out ++ E x)) /\ TSt (out ++ E x) r m') m.
  Proof.
    intros T Lx _ Hc Ha. destruct x as [|a [|b [|c [|]]]]; try discriminate Lx.
    assert (Bx := TS_bytes _ _ _ _ _ _ _ _ _ _ HB T). cbn [app] in Bx. inv_bytes.
    unfold enc24_step, encode_bits24. cbn [fst snd].
    apply wp_bind, wp_bind. eapply wp_src_read; [exact T|cbn; lia|]. cbn [nth].
    apply wp_bind. eapply wp_src_read; [exact T|cbn; lia|]. cbn [nth].
    apply wp_bind. eapply wp_src_read; [exact T|cbn; lia|]. cbn [nth]. cbn zeta.
    assert (EE : E [a; b; c] = b64_chars k (sext a b c)) by (cbn [b64e b64_tail]; apply app_nil_r).
    rewrite EE in *. change (length (b64_chars k (sext a b c))) with 4%nat in *.
    eapply (wp_for_write m0 bs so total bd d0 cap _ _ out []); [rewrite app_nil_r; exact T|reflexivity|lia|lia| |].
    { intros j _. rewrite charset_len. apply land63. }
    intros m' T'. cbn [app] in T'.
    replace (map _ (seq 0 4)) with (b64_chars k (sext a b c)) in T'.
    2:{ rewrite <- bits24_vals by auto. unfold b64_chars. now rewrite map_map. }
    change (a :: b :: c :: r) with ([a; b; c] ++ r) in T'.
    apply wp_bind. eapply wp_src_end; [exact T'|reflexivity|]. apply TS_adv in T'.
    apply wp_bind. eapply wp_dst_add; [exact T'|reflexivity|]. apply wp_ret. auto.
  Qed.

  Lemma enc48_ok out x r m : TSt out (x ++ r) m -> length x = 6%nat -> (2 <= length r)%nat ->
    (length out + length (E x) <= cap)%nat ->
    (bs <> bd \/ so + length total <= d0 \/ d0 + length out + length (E x) <= so + (length total - length (x ++ r)))%nat ->
    wp (enc48_step (b64_charset k) (ppt (x ++ r), qqt out))
       (fun st m' => st = (ppt r, qqt (out ++ E x)) /\ TSt (out ++ E x) r m') m.
  Proof.
    intros T Lx Lr Hc Ha. destruct x as [|a [|b [|c [|d [|f [|g [|]]]]]]]; try discriminate Lx.
    destruct r as [|u [|v r]]; cbn [length] in Lr; try lia. clear Lr.
    assert (Bx := TS_bytes _ _ _ _ _ _ _ _ _ _ HB T). cbn [app] in Bx. inv_bytes.
    unfold enc48_step, encode_bits48. cbn [fst snd].
    assert (T8 : TSt out ([a; b; c; d; f; g; u; v] ++ r) m) by exact T.
    apply wp_bind, wp_bind. change ([a; b; c; d; f; g] ++ u :: v :: r) with ([a; b; c; d; f; g; u; v] ++ r).
    eapply wp_src_load; [exact T8|reflexivity|]. cbn zeta.
    assert (EE : E [a; b; c; d; f; g] = b64_chars k (sext a b c ++ sext d f g)) by (cbn [b64e b64_tail]; now rewrite app_nil_r).
    rewrite EE in *. change (length (b64_chars k (sext a b c ++ sext d f g))) with 8%nat in *.
    eapply (wp_for_write m0 bs so total bd d0 cap _ _ out []); [rewrite app_nil_r; exact T8|reflexivity|lia|cbn [app length] in *; lia| |].
    { intros j _. rewrite charset_len. apply land63. }
    intros m' T'. cbn [app] in T'.
    replace (map _ (seq 0 8)) with (b64_chars k (sext a b c ++ sext d f g)) in T'.
    2:{ rewrite <- (bits48_vals a b c d f g u v) by auto. unfold b64_chars. now rewrite map_map. }
    change (a :: b :: c :: d :: f :: g :: u :: v :: r) with ([a; b; c; d; f; g] ++ u :: v :: r) in T'.
    change ([a; b; c; d; f; g; u; v] ++ r) with ([a; b; c; d; f; g] ++ u :: v :: r).
    apply wp_bind. eapply wp_src_end; [exact T'|reflexivity|]. apply TS_adv in T'.
    apply wp_bind. eapply wp_dst_add; [exact T'|reflexivity|]. apply wp_ret. auto.
  Qed.

  Definition done (_ : unit) (m : mem) : Prop := TSt (E total) [] m.

  Lemma shift_facts a : byte a -> shr8 a 2 = a / 4 /\ shr8 (shl8 a 6) 2 = (a mod 4) * 16 /\ shr8 (shl8 a 4) 2 = (a mod 16) * 4 /\ shr8 a 4 = a / 16.
  Proof.
    intro H. unfold byte in H. unfold shr8, shl8. change (2 ^ 2) with 4. change (2 ^ 6) with 64. change (2 ^ 4) with 16. lia.
  Qed.
  Lemma lor_2 a b : byte a -> byte b -> Z.lor ((a mod 4) * 16) (b / 16) = (a mod 4) * 16 + b / 16.
  Proof. unfold byte. intros Ha Hb. rewrite Z.mul_comm. apply (lor_disj 4); lia. Qed.

  Lemma extra_ok out rest m : EIt out rest m -> (length rest < 3)%nat ->
    wp (b64_encode_extra (length rest) (ppt rest) (qqt out) (b64_charset k) (b64_padding e)) done m.
  Proof.
    intros HI L. pose proof HI as [T HE].
    assert (Hc := EI_cap m0 bs so total bd d0 cap E cap_eq _ _ _ (E rest) [] HI ltac:(now rewrite app_nil_r)).
    assert (Ha := EI_alias m0 bs so total bd d0 cap E cap_eq disj _ _ _ (E rest) [] HI ltac:(now rewrite app_nil_r)).
    unfold done. rewrite <- HE. clear HE HI.
    assert (Bx := TS_bytes _ _ _ _ _ _ _ _ _ _ HB T).
    destruct rest as [|a [|b [|]]]; cbn [length] in L; [| | |lia]; cbn [length b64_encode_extra]; inv_bytes.
    - apply wp_ret. cbn [b64e b64_tail]. now rewrite app_nil_r.
    - destruct (shift_facts a ltac:(auto)) as (S1 & S2 & _ & _).
      change [a] with ([a] ++ []) in T |- *.
      apply wp_bind. eapply wp_src_read; [exact T|cbn; lia|]. cbn [nth]. apply TS_adv in T. rewrite S1, S2.
      match goal with H : byte a |- _ => unfold byte in H end.
      apply wp_bind, wp_table; [rewrite charset_len; lia|]. apply wp_bind, wp_table; [rewrite charset_len; lia|].
      cbn [b64e b64_tail app] in *. unfold b64_chars in *. cbn [map app] in *. 
      destruct (b64_padding e); cbn [app length] in *.
      + apply wp_bind. eapply wp_dst_write; [exact T|lia|cbn [length] in *; lia|]. intros m1 T1.
        apply wp_bind. eapply wp_dst_write_at; [exact T1|reflexivity|lia|cbn [length] in *; lia|]. intros m2 T2. cbn [app] in T2.
        apply wp_bind. eapply wp_dst_write_at; [exact T2|reflexivity|lia|cbn [length] in *; lia|]. intros m3 T3. cbn [app] in T3.
        eapply wp_dst_write_at; [exact T3|reflexivity|lia|cbn [length] in *; lia|]. intros m4 T4. exact T4.
      + apply wp_bind. eapply wp_dst_write; [exact T|lia|cbn [length] in *; lia|]. intros m1 T1.
        apply wp_bind. eapply wp_dst_write_at; [exact T1|reflexivity|lia|cbn [length] in *; lia|]. intros m2 T2. cbn [app] in T2.
        apply wp_ret. exact T2.
    - destruct (shift_facts a ltac:(auto)) as (S1 & S2 & _ & _). destruct (shift_facts b ltac:(auto)) as (_ & _ & S3 & S4).
      change [a; b] with ([a; b] ++ []) in T |- *.
      apply wp_bind. eapply wp_src_read; [exact T|cbn; lia|]. cbn [nth].
      apply wp_bind. eapply wp_src_read; [exact T|cbn; lia|]. cbn [nth]. apply TS_adv in T.
      rewrite S1, S2, S3, S4, lor_2 by auto.
      repeat match goal with H : byte _ |- _ => unfold byte in H end.
      apply wp_bind, wp_table; [rewrite charset_len; lia|]. apply wp_bind, wp_table; [rewrite charset_len; lia|].
      apply wp_bind, wp_table; [rewrite charset_len; lia|].
      cbn [b64e b64_tail app] in *. unfold b64_chars in *. cbn [map app] in *. 
      destruct (b64_padding e); cbn [app length] in *.
      + apply wp_bind. eapply wp_dst_write; [exact T|lia|cbn [length] in *; lia|]. intros m1 T1.
        apply wp_bind. eapply wp_dst_write_at; [exact T1|reflexivity|lia|cbn [length] in *; lia|]. intros m2 T2. cbn [app] in T2.
        apply wp_bind. eapply wp_dst_write_at; [exact T2|reflexivity|lia|cbn [length] in *; lia|]. intros m3 T3. cbn [app] in T3.
        eapply wp_dst_write_at; [exact T3|reflexivity|lia|cbn [length] in *; lia|]. intros m4 T4. exact T4.
      + apply wp_bind. eapply wp_dst_write; [exact T|lia|cbn [length] in *; lia|]. intros m1 T1.
        apply wp_bind. eapply wp_dst_write_at; [exact T1|reflexivity|lia|cbn [length] in *; lia|]. intros m2 T2. cbn [app] in T2.
        apply wp_bind. eapply wp_dst_write_at; [exact T2|reflexivity|lia|cbn [length] in *; lia|]. intros m3 T3. cbn [app] in T3.
        apply wp_ret. exact T3.
  Qed.

  Lemma b64_encode_fallback_ok out rest m n : EIt out rest m -> n = length rest ->
    wp (b64_encode_fallback (ppt rest) n (qqt out) cfg) done m.
  Proof.
    intros HI ->. unfold b64_encode_fallback. cbn [b64_kind_of b64_extra_of]. cbn zeta.
    apply wp_bind. change (4 * 6 + 2)%nat with 26%nat. eapply (enc_wloop m0 bs so total bd d0 cap E cap_eq disj 26 24); [lia| |exact HI|lia| |].
    { intros. now apply (E_app 24). }
    { clear out m HI. intros out x r m T Lx Lr Hc Ha. rewrite app_length in Lr. cbn [fst snd].
      apply wp_bind. eapply wp_mono.
      - apply (enc_for m0 bs so total bd d0 cap E 6 2); [intros; now apply (E_app 6)|reflexivity|apply enc48_ok|exact T|exact Lx|lia|exact Hc|exact Ha].
      - intros st m' [-> T']. apply wp_ret. split; [|exact T']. rewrite app_length. do 2 f_equal. lia. }
    clear out m HI. intros out r m HI _ _. clear rest. rename r into rest.
    apply wp_bind. change (6 + 2)%nat with 8%nat. eapply (enc_wloop m0 bs so total bd d0 cap E cap_eq disj 8 6); [lia| |exact HI|lia| |].
    { intros. now apply (E_app 6). }
    { clear out m HI. intros out x r m T Lx Lr Hc Ha. rewrite app_length in Lr. cbn [fst snd].
      apply wp_bind. eapply wp_mono; [apply enc48_ok; auto; lia|].
      intros st m' [-> T']. apply wp_ret. split; [|exact T']. rewrite app_length. do 2 f_equal. lia. }
    clear out m HI. intros out r m HI _ _. clear rest. rename r into rest.
    destruct (split_blocks rest 3) as (a & b & -> & La & Lb); [lia|].
    apply wp_bind. eapply wp_src_end; [exact (proj1 HI)|exact La|].
    apply wp_bind. eapply (enc_loop m0 bs so total bd d0 cap E cap_eq disj 3); [lia| |exact HI| |lia| |].
    - intros. now apply (E_app 3).
    - rewrite La. apply Nat.mod_mul. lia.
    - intros. apply enc24_ok; auto. lia.
    - intros out' m' HI'. rewrite <- Lb. apply extra_ok; auto. rewrite Lb. apply Nat.mod_upper_bound. lia.
  Qed.

  Hypothesis HA : bytes_at m0 bs so total.

  Lemma x2_shift : x2 (encoding_shift (b64_charset k)) = encoding_shift (b64_charset k) ++ encoding_shift (b64_charset k).
  Proof. reflexivity. Qed.

  Lemma b64_encode_simd_ok s out rest m n : swz s -> EIt out rest m -> n = length rest -> rest = total ->
    wp (b64_encode_simd s (ppt rest) n (qqt out) cfg) done m.
  Proof.
    intros Hs HI -> Et. unfold b64_encode_simd. cbn [b64_kind_of b64_extra_of]. cbn zeta.
    (* second part: from any position *)
    assert (P2 : forall out rest m, EIt out rest m ->
      wp (let '(src, dst, len) := (ppt rest, qqt out, length rest) in
          ' (src, dst, len) <-
            (if (12 + 4 <=? len)%nat then
               x <- load src 16 ;;
               y <- lift (encode_bytes12 s x (encoding_shift (b64_charset k))) ;;
               store dst y ;;;
               src <- padd src 12 ;;
               dst <- padd dst 16 ;;
               ret (src, dst, len - 12)%nat
             else ret (src, dst, len)) ;;
          b64_encode_fallback src len dst cfg) done m).
    { clear out rest m HI Et. intros out rest m HI. change (12 + 4)%nat with 16%nat.
      destruct (Nat.leb_spec 16 (length rest)) as [G|G].
      - destruct (split_at rest 16) as (v & r & -> & Lv); [lia|].
        destruct (split_at v 12) as (x & y & -> & Lx); [lia|].
        assert (Ly : length y = 4%nat) by (rewrite app_length in Lv; lia).
        assert (T := proj1 HI).
        assert (Bx := TS_bytes _ _ _ _ _ _ _ _ _ _ HB T). apply bytes_app in Bx as [Bv _].
        apply wp_bind, wp_bind. eapply wp_src_load; [exact T|exact Lv|].
        apply wp_bind. eapply wp_lift; [apply encode_bytes12_ok; auto|].
        rewrite firstn_app_exact by exact Lx.
        assert (EX : E ((x ++ y) ++ r) = b64_chars k (sextets x) ++ E (y ++ r)).
        { rewrite <- app_assoc, (E_app 12) by auto. f_equal. apply b64e_sextets. now rewrite Lx. }
        assert (Hc := EI_cap m0 bs so total bd d0 cap E cap_eq _ _ _ _ _ HI EX).
        assert (Ha := EI_alias m0 bs so total bd d0 cap E cap_eq disj _ _ _ _ _ HI EX).
        apply wp_bind. eapply wp_dst_store; [exact T|exact Hc|exact Ha|]. intros m1 T1.
        rewrite <- app_assoc in *.
        apply wp_bind. eapply wp_src_end; [exact T1|exact Lx|]. apply TS_adv in T1.
        apply wp_bind. eapply wp_dst_add; [exact T1|rewrite b64_chars_len, sextets_len, Lx; reflexivity|].
        apply wp_ret. apply b64_encode_fallback_ok.
        + split; [exact T1|]. rewrite <- app_assoc, <- EX. exact (proj2 HI).
        + rewrite !app_length. lia.
      - apply wp_bind, wp_ret. now apply b64_encode_fallback_ok. }
    apply wp_bind. change (6 + 24 + 4)%nat with 34%nat. destruct (Nat.leb_spec 34 (length rest)) as [G|G]; [|apply wp_ret; now apply P2].
    destruct (split_at rest 6) as (h & r & -> & Lh); [lia|].
    assert (EX : E (h ++ r) = E h ++ E r) by (now apply (E_app 6)).
    assert (Hc := EI_cap m0 bs so total bd d0 cap E cap_eq _ _ _ _ _ HI EX).
    assert (Ha := EI_alias m0 bs so total bd d0 cap E cap_eq disj _ _ _ _ _ HI EX).
    assert (Lr := app_length h r).
    apply wp_bind. eapply wp_mono with (Q := fun st m' => st = (ppt r, qqt (out ++ E h), length r) /\ TSt (out ++ E h) r m').
    { destruct (split_at h 3) as (h1 & h2 & -> & L1); [lia|]. assert (L2 : length h2 = 3%nat) by (rewrite app_length in Lh; lia).
      assert (EH : E (h1 ++ h2) = E h1 ++ E h2) by (now apply (E_app 3)). rewrite EH, (app_length (E h1)) in Hc, Ha. rewrite EH. rewrite <- !app_assoc in *.
      assert (Lt := TS_suffix _ _ _ _ _ _ _ _ _ _ (proj1 HI)).
      cbn [for_]. apply wp_bind, wp_bind. cbn [fst snd]. eapply wp_mono; [apply enc24_ok; [exact (proj1 HI)|exact L1|lia|lia|lia]|].
      intros st m' [-> T']. apply wp_ret. cbn [fst snd].
      apply wp_bind, wp_bind. eapply wp_mono; [apply enc24_ok; [exact T'|exact L2|lia|rewrite app_length; lia|]|].
      { rewrite (app_length out). rewrite (app_length h1) in Lt, Ha. lia. }
      intros st m2 [-> T2]. apply wp_ret, wp_ret. rewrite <- app_assoc in *. split; [|exact T2]. f_equal. lia. }
    intros st m1 [-> T1].
    assert (HI1 : EIt (out ++ E h) r m1).
    { split; [exact T1|]. rewrite <- app_assoc, <- EX. exact (proj2 HI). }
    change (24 + 4)%nat with 28%nat.
    eapply (enc_wloop m0 bs so total bd d0 cap E cap_eq disj 28 24); [lia| |exact HI1|lia| |].
    { intros. now apply (E_app 24). }
    { clear P2 HI1 T1 m1 Hc Ha EX. intros out' x q m' T Lx Lq Hc Ha.
      assert (Lxq := app_length x q).
      assert (EEx : E x = b64_chars k (sextets x)) by (apply b64e_sextets; now rewrite Lx). rewrite EEx in *.
      eapply (wp_load_back m0 bs so total bd d0 cap disj); [exact HA|exact HB|exact T|rewrite <- Et, Lr; lia|lia|].
      rewrite Lx. intros v Lv Bv Ev.
      apply wp_bind. eapply wp_lift; [apply encode_bytes24_ok; auto|]. rewrite Ev.
      apply wp_bind. eapply wp_dst_store; [exact T|exact Hc|exact Ha|]. intros m2 T2.
      apply wp_bind. eapply wp_src_end; [exact T2|exact Lx|]. apply TS_adv in T2.
      apply wp_bind. eapply wp_dst_add; [exact T2|rewrite b64_chars_len, sextets_len, Lx; reflexivity|].
      apply wp_ret. split; [|exact T2]. f_equal. lia. }
    intros out' r' m' HI' _ _. now apply P2.
  Qed.

  Lemma b64_encode_impl_ok s n : s = Fallback \/ swz s -> EIt [] total m0 -> n = length total ->
    wp (b64_encode_impl s (ppt total) n (qqt []) cfg) done m0.
  Proof.
    intros [->|Hs] HI Hn; cbn [b64_encode_impl].
    - now apply b64_encode_fallback_ok.
    - destruct s; try discriminate Hs; now apply b64_encode_simd_ok.
  Qed.
End Encode.
