(** The hexadecimal implementations compute the specification and touch only what they may. *)
From Coq Require Import ZArith List Bool Lia ZifyNat.
From Verif Require Import Bytes Mem MemFacts Loops Isa Simd SimdFacts Alsw AlswFacts Spec Hex HexSimdFacts.
Import ListNotations.
Open Scope Z_scope.
Open Scope m_scope.
Ltac Zify.zify_post_hook ::= Z.div_mod_to_equations.

Lemma charset_lut case : charset case = lut_of case.
Proof. now destruct case. Qed.
Lemma lut_len case : length (lut_of case) = 16%nat.
Proof. now destruct case. Qed.
Lemma encode_lut_of case : match case with Lower => ENCODE_LOWER_LUT | Upper => ENCODE_UPPER_LUT end = x2 (lut_of case).
Proof. now destruct case. Qed.

Lemma div_mul_mod n k : (0 < k)%nat -> ((n / k * k) mod k = 0)%nat /\ (n / k * k + n mod k = n)%nat.
Proof. intro H. split; [apply Nat.mod_mul; lia|]. rewrite (Nat.div_mod n k) at 3 by lia. lia. Qed.

(** split off the part that a block loop handles *)
Lemma split_blocks {A} (l : list A) k : (0 < k)%nat ->
  exists a b, l = a ++ b /\ length a = (length l / k * k)%nat /\ length b = (length l mod k)%nat.
Proof.
  intro H. destruct (div_mul_mod (length l) k H) as [_ E].
  destruct (split_at l (length l / k * k)) as (a & b & -> & La); [lia|]. exists a, b. repeat split; auto.
  rewrite app_length in *. lia.
Qed.

Section Encode.
  Context (m0 : mem) (bs so : nat) (total : list Z) (bd d0 cap : nat) (case : ascii_case).
  Notation ppt := (pp bs so total).
  Notation qqt := (qq bd d0).
  Notation TSt := (TS m0 bs so total bd d0 cap).
  Notation E := (rfc_hex_encode (lut_of case)).
  Notation EIt := (EI m0 bs so total bd d0 cap E).
  Hypothesis HB : bytes total.
  Hypothesis cap_eq : cap = length (E total).
  Hypothesis disj : (bs <> bd \/ so + length total <= d0 \/ d0 + cap <= so)%nat.

  Lemma enc_step_ok out x r m : TSt out (x ++ r) m -> length x = 1%nat ->
    (length out + length (E x) <= cap)%nat ->
    (bs <> bd \/ so + length total <= d0 \/ d0 + length out + length (E x) <= so + (length total - length (x ++ r)))%nat ->
    wp (encode_step (charset case) (ppt (x ++ r), qqt out))
       (fun st m' => st = (ppt r, qqt (out ++ E x)) /\ TSt (out ++ E x) r m') m.
  Proof.
    intros T Lx Hc Ha. explode x. unfold encode_step, encode_bits. cbn [fst snd].
    assert (Bx := TS_bytes _ _ _ _ _ _ _ _ _ _ HB T). cbn [app] in Bx. inv_bytes.
    match goal with H : byte x0 |- _ => pose proof H as B0'; unfold byte in B0' end.
    apply wp_bind, wp_bind. eapply wp_src_read1; [exact T|].
    rewrite charset_lut.
    apply wp_bind. apply wp_table; [rewrite lut_len; lia|].
    apply wp_bind. change (Z.land x0 15) with (u8_and x0 15). rewrite and15 by auto. apply wp_table; [rewrite lut_len; lia|].
    cbn [rfc_hex_encode flat_map app length] in Hc, Ha.
    apply wp_bind. eapply (wp_dst_write m0 bs so total bd d0 cap); [exact T|lia| |].
    { cbn [app length] in *. lia. }
    intros m1 T1. eapply (wp_dst_write_at m0 bs so total bd d0 cap); [exact T1|reflexivity|lia| |].
    { cbn [app length] in *. lia. }
    intros m2 T2. apply wp_bind. eapply wp_src_end; [exact T2|reflexivity|].
    apply TS_adv in T2. cbn [app] in T2. apply wp_bind. eapply wp_dst_add; [exact T2|reflexivity|].
    apply wp_ret. split; [reflexivity|exact T2].
  Qed.

  Lemma E1 x r : E (x ++ r) = E x ++ E r.
  Proof. apply hex_encode_app. Qed.

  Definition done (_ : unit) (m : mem) : Prop := TSt (E total) [] m.

  Lemma EI_done out m : EIt out [] m -> TSt (E total) [] m.
  Proof. intros [T H]. cbn [rfc_hex_encode flat_map] in H. rewrite app_nil_r in H. now subst out. Qed.

  Lemma encode_short_ok out rest m n : EIt out rest m -> n = length rest ->
    wp (encode_short (ppt rest) n (qqt out) (charset case)) done m.
  Proof.
    intros HI ->. unfold encode_short.
    apply wp_bind. eapply wp_src_end_all; [exact (proj1 HI)|reflexivity|].
    apply wp_bind. eapply (enc_loop_nil m0 bs so total bd d0 cap E cap_eq disj 1); [lia| |exact HI| | | |].
    - intros; apply E1.
    - apply Nat.mod_1_r.
    - lia.
    - intros. now apply enc_step_ok.
    - intros out' m' HI'. apply wp_ret. now apply (EI_done out').
  Qed.

  Lemma encode_for_ok n i out x r m : TSt out (x ++ r) m -> length x = n ->
    (length out + length (E x) <= cap)%nat ->
    (bs <> bd \/ so + length total <= d0 \/ d0 + length out + length (E x) <= so + (length total - length (x ++ r)))%nat ->
    wp (for_ n i (fun _ st => encode_step (charset case) st) (ppt (x ++ r), qqt out))
       (fun st m' => st = (ppt r, qqt (out ++ E x)) /\ TSt (out ++ E x) r m') m.
  Proof.
    revert i out x m. induction n as [|n IH]; intros i out x m T Lx Hc Ha; cbn [for_].
    - explode x. apply wp_ret. cbn [rfc_hex_encode flat_map app]. rewrite app_nil_r. auto.
    - destruct x as [|a x]; [easy|]. cbn [length] in Lx.
      change (a :: x) with ([a] ++ x) in *. rewrite E1, app_length in *. rewrite <- app_assoc in *.
      apply wp_bind. eapply wp_mono; [apply enc_step_ok; auto; lia|].
      intros st m' [-> T']. eapply wp_mono; [apply IH; auto; try lia|].
      + rewrite app_length. lia.
      + rewrite app_length. destruct Ha as [?|[?|Ha]]; auto. right; right.
        assert (L := TS_suffix _ _ _ _ _ _ _ _ _ _ T). cbn [app length] in L, Ha. rewrite app_length in *. lia.
      + intros st m'' [-> T'']. rewrite <- app_assoc in T'' |- *. auto.
  Qed.

  Lemma encode_long_ok out rest m n : EIt out rest m -> n = length rest ->
    wp (encode_long (ppt rest) n (qqt out) case) done m.
  Proof.
    intros HI ->. unfold encode_long.
    destruct (split_blocks rest 8) as (a & b & -> & La & Lb); [lia|].
    apply wp_bind. eapply wp_src_end; [exact (proj1 HI)|exact La|].
    apply wp_bind. eapply (enc_loop m0 bs so total bd d0 cap E cap_eq disj 8); [lia| |exact HI| | | |].
    - intros; apply E1.
    - rewrite La. apply Nat.mod_mul. lia.
    - lia.
    - intros. now apply encode_for_ok.
    - intros out' m' HI'. cbn [fst snd]. apply encode_short_ok; auto.
  Qed.

  (** one block: load k bytes, produce E x, store it at once *)
  Lemma enc16_store s out x r m (Q : unit -> mem -> Prop) : swz s -> TSt out (x ++ r) m -> length x = 16%nat ->
    (length out + length (E x) <= cap)%nat ->
    (bs <> bd \/ so + length total <= d0 \/ d0 + length out + length (E x) <= so + (length total - length (x ++ r)))%nat ->
    (forall m', TSt (out ++ E x) (x ++ r) m' -> Q tt m') ->
    wp (v <- load (ppt (x ++ r)) 16 ;; y <- lift (hex_encode_bytes16 s v (x2 (lut_of case))) ;; store (qqt out) y) Q m.
  Proof.
    intros Hs T Lx Hc Ha HQ. apply wp_bind. eapply wp_src_load; [exact T|exact Lx|].
    assert (Bx := TS_bytes _ _ _ _ _ _ _ _ _ _ HB T). apply bytes_app in Bx as [Bx _].
    apply wp_bind. eapply wp_lift; [apply encode_bytes16_ok; auto; apply lut_len|].
    eapply wp_dst_store; eauto.
  Qed.

  Lemma enc16_step s out x r m : swz s -> TSt out (x ++ r) m -> length x = 16%nat ->
    (length out + length (E x) <= cap)%nat ->
    (bs <> bd \/ so + length total <= d0 \/ d0 + length out + length (E x) <= so + (length total - length (x ++ r)))%nat ->
    wp (v <- load (ppt (x ++ r)) 16 ;;
       y <- lift (hex_encode_bytes16 s v (x2 (lut_of case))) ;;
       store (qqt out) y ;;;
       dst <- padd (qqt out) 32 ;;
       src <- padd (ppt (x ++ r)) 16 ;;
       ret (src, dst))
     (fun st m' => st = (ppt r, qqt (out ++ E x)) /\ TSt (out ++ E x) r m') m.
  Proof.
    intros Hs T Lx Hc Ha. apply wp_bind. eapply wp_src_load; [exact T|exact Lx|].
    assert (Bx := TS_bytes _ _ _ _ _ _ _ _ _ _ HB T). apply bytes_app in Bx as [Bx _].
    apply wp_bind. eapply wp_lift; [apply encode_bytes16_ok; auto; apply lut_len|].
    apply wp_bind. eapply wp_dst_store; eauto. intros m' T'.
    apply wp_bind. eapply wp_dst_add; [exact T'|rewrite hex_encode_len, Lx; reflexivity|].
    apply wp_bind. eapply wp_src_end; [exact T'|exact Lx|]. apply TS_adv in T'. apply wp_ret. auto.
  Qed.

  Lemma enc_v128_ok s out rest m n : swz s -> EIt out rest m -> n = length rest ->
    wp (encode_simd_v128 s (ppt rest) n (qqt out) case) done m.
  Proof.
    intros Hs HI ->. unfold encode_simd_v128. rewrite encode_lut_of.
    destruct (split_blocks rest 16) as (a & b & -> & La & Lb); [lia|].
    apply wp_bind. eapply wp_src_end; [exact (proj1 HI)|exact La|].
    apply wp_bind. eapply (enc_loop m0 bs so total bd d0 cap E cap_eq disj 16); [lia| |exact HI| | | |].
    - intros; apply E1.
    - rewrite La. apply Nat.mod_mul. lia.
    - lia.
    - intros. cbn [fst snd]. now apply enc16_step.
    - intros out' m' HI'. cbn [fst snd]. rewrite <- Lb. destruct (Nat.eqb_spec (length b) 0) as [Z0|N].
      + destruct b; [|easy]. apply wp_ret. now apply (EI_done out').
      + now apply encode_short_ok.
  Qed.

  Lemma enc_sse2_ok out rest m n : EIt out rest m -> n = length rest ->
    wp (encode_simd_sse2 SSE2 (ppt rest) n (qqt out) case) done m.
  Proof.
    intros HI ->. unfold encode_simd_sse2.
    destruct (split_blocks rest 16) as (a & b & -> & La & Lb); [lia|].
    apply wp_bind. eapply wp_src_end; [exact (proj1 HI)|exact La|].
    apply wp_bind. eapply (enc_loop m0 bs so total bd d0 cap E cap_eq disj 16); [lia| |exact HI| | | |].
    - intros; apply E1.
    - rewrite La. apply Nat.mod_mul. lia.
    - lia.
    - clear out a b m HI La Lb. intros out x r m T Lx Hc Ha. cbn [fst snd].
      apply wp_bind. eapply wp_src_load; [exact T|exact Lx|].
      assert (Bx := TS_bytes _ _ _ _ _ _ _ _ _ _ HB T). apply bytes_app in Bx as [Bx _].
      apply wp_bind. eapply wp_src_end; [exact T|exact Lx|].
      assert (Lr : length (x ++ r) = (length x + length r)%nat) by apply app_length.
      assert (Ls := TS_suffix _ _ _ _ _ _ _ _ _ _ T).
      apply TS_adv in T.
      destruct (sse2_encode16_ok case x Lx Bx) as (y1 & y2 & Ey & L1 & L2 & Y).
      apply wp_bind. eapply wp_lift; [exact Ey|]. cbn [fst snd]. rewrite <- Y, app_length in Hc, Ha.
      apply wp_bind. eapply wp_dst_store; [exact T|lia|lia|]. intros m1 T1.
      apply wp_bind. eapply wp_dst_add; [exact T1|exact L1|].
      apply wp_bind. eapply wp_dst_store; [exact T1|rewrite app_length; lia|rewrite app_length; lia|]. intros m2 T2.
      apply wp_bind. eapply wp_dst_add; [exact T2|exact L2|].
      apply wp_ret. rewrite <- !app_assoc in *. rewrite Y in *. auto.
    - intros out' m' HI'. cbn [fst snd]. rewrite <- Lb. destruct (Nat.eqb_spec (length b) 0) as [Z0|N].
      + destruct b; [|easy]. apply wp_ret. now apply (EI_done out').
      + now apply encode_short_ok.
  Qed.

  Lemma enc_v256_ok out rest m n : EIt out rest m -> n = length rest ->
    wp (encode_simd_v256 AVX2 (ppt rest) n (qqt out) case) done m.
  Proof.
    intros HI ->. unfold encode_simd_v256. rewrite encode_lut_of. assert (Hs : swz AVX2) by reflexivity.
    destruct (Nat.eqb_spec (length rest) 16) as [E16|N16].
    { rewrite <- (app_nil_r rest) in HI |- *.
      apply (enc16_store AVX2 out rest []); auto.
      - exact (proj1 HI).
      - eapply (EI_cap m0 bs so total bd d0 cap E cap_eq); [exact HI|]. now rewrite E1.
      - eapply (EI_alias m0 bs so total bd d0 cap E cap_eq disj); [exact HI|]. now rewrite E1.
      - intros m' T'. unfold done. apply TS_adv in T'. destruct HI as [_ HE].
        rewrite app_nil_r in HE. now rewrite HE in T'. }
    destruct (split_blocks rest 32) as (a & b & -> & La & Lb); [lia|].
    apply wp_bind. eapply wp_src_end; [exact (proj1 HI)|exact La|].
    apply wp_bind. eapply (enc_loop m0 bs so total bd d0 cap E cap_eq disj 32); [lia| |exact HI| | | |].
    - intros; apply E1.
    - rewrite La. apply Nat.mod_mul. lia.
    - lia.
    - clear out a b m HI La Lb N16. intros out x r m T Lx Hc Ha. cbn [fst snd].
      apply wp_bind. eapply wp_src_load; [exact T|exact Lx|].
      assert (Bx := TS_bytes _ _ _ _ _ _ _ _ _ _ HB T). apply bytes_app in Bx as [Bx _].
      destruct (encode_bytes32_ok x (lut_of case) (lut_len case) Lx Bx) as (y1 & y2 & Ey & L1 & L2 & Y).
      apply wp_bind. eapply wp_lift; [exact Ey|]. cbn [fst snd]. rewrite <- Y, app_length in Hc, Ha.
      apply wp_bind. eapply wp_dst_store; [exact T|lia|lia|]. intros m1 T1.
      apply wp_bind. eapply wp_dst_add; [exact T1|exact L1|].
      apply wp_bind. eapply wp_dst_store; [exact T1|rewrite app_length; lia|rewrite (app_length out); lia|]. intros m2 T2.
      apply wp_bind. eapply wp_dst_add; [exact T2|exact L2|].
      apply wp_bind. eapply wp_src_end; [exact T2|exact Lx|]. apply TS_adv in T2.
      apply wp_ret. rewrite <- !app_assoc in *. rewrite Y in *. auto.
    - intros out' m' HI'. cbn [fst snd]. rewrite <- Lb. destruct (Nat.eqb_spec (length b) 0) as [Z0|N].
      { destruct b; [|easy]. apply wp_ret. now apply (EI_done out'). }
      apply wp_bind. destruct (Nat.leb_spec 16 (length b)) as [G|G].
      + destruct (split_at b 16) as (x & r & -> & Lx); [lia|]. rewrite app_length in *.
        assert (EX : E (x ++ r) = E x ++ E r) by apply E1.
        assert (Hc := EI_cap m0 bs so total bd d0 cap E cap_eq _ _ _ _ _ HI' EX).
        assert (Ha := EI_alias m0 bs so total bd d0 cap E cap_eq disj _ _ _ _ _ HI' EX).
        apply wp_bind. eapply wp_src_load; [exact (proj1 HI')|exact Lx|].
        assert (Bx := TS_bytes _ _ _ _ _ _ _ _ _ _ HB (proj1 HI')). apply bytes_app in Bx as [Bx _].
        apply wp_bind. eapply wp_lift; [apply encode_bytes16_ok; auto; apply lut_len|].
        apply wp_bind. eapply wp_dst_store; [exact (proj1 HI')|exact Hc|exact Ha|]. intros m1 T1.
        apply wp_bind. eapply wp_dst_add; [exact T1|rewrite hex_encode_len, Lx; reflexivity|].
        apply wp_bind. eapply wp_src_end; [exact T1|exact Lx|]. apply TS_adv in T1. apply wp_ret. 
        assert (HI1 : EIt (out' ++ E x) r m1).
        { split; [exact T1|]. rewrite <- app_assoc, <- EX. exact (proj2 HI'). }
        destruct (Nat.ltb_spec 0 (length x + length r - 16)).
        * apply encode_short_ok; auto. lia.
        * destruct r; [|cbn [length] in *; lia]. apply wp_ret. now apply (EI_done (out' ++ E x)).
      + apply wp_ret. destruct (Nat.ltb_spec 0 (length b)); [|lia]. now apply encode_short_ok.
  Qed.

  Lemma hex_encode_impl_ok s out rest m n : EIt out rest m -> n = length rest ->
    wp (hex_encode_impl s (ppt rest) n (qqt out) case) done m.
  Proof.
    intros HI Hn. destruct s; cbn [hex_encode_impl]; unfold hex_encode_simd; cbn;
      first [now apply encode_long_ok|now apply enc_sse2_ok|now apply enc_v256_ok|now apply enc_v128_ok].
  Qed.
End Encode.

(** ** Decoding *)
Lemma unhex_ok c : byte c -> unhex c = parse_hex c.
Proof. intro H. apply Z.eqb_eq. revert c H. apply byte_sweep. vm_compute. reflexivity. Qed.

Definition flagset (f : Z) : bool := (f =? 255) || ((0 <=? f) && (f <? 16)).
Lemma flag_lor f c : byte f -> byte c -> flagset f = true ->
  flagset (Z.lor f (parse_hex c)) = true /\ (Z.lor f (parse_hex c) =? 255) = (f =? 255) || bad c.
Proof.
  intros Hf Hc F. unfold bad. assert (P : parse_hex c = 255 \/ 0 <= parse_hex c < 16).
  { assert (G : (parse_hex c =? 255) || ((0 <=? parse_hex c) && (parse_hex c <? 16)) = true)
      by (revert c Hc; apply byte_sweep; vm_compute; reflexivity). lia. }
  destruct (Z.eqb_spec f 255) as [->|Nf].
  { rewrite lor_255 by (unfold byte; lia). auto. }
  destruct P as [P|P]; [rewrite P, Z.lor_comm, lor_255 by auto; auto|].
  unfold flagset in *. assert (0 <= Z.lor f (parse_hex c) < 2 ^ 4) by (apply lor_small; lia). lia.
Qed.
Lemma flagset_byte f : flagset f = true -> byte f.
Proof.
  unfold flagset, byte. intro H. apply orb_true_iff in H as [H|H].
  - apply Z.eqb_eq in H. lia.
  - apply andb_true_iff in H as [H1 H2]. apply Z.leb_le in H1. apply Z.ltb_lt in H2. lia.
Qed.

Definition flag_of (l : list Z) (f : Z) : Z := fold_left (fun f c => Z.lor f (parse_hex c)) l f.
Lemma flag_of_gen l f : bytes l -> flagset f = true -> (flag_of l f =? 255) = (f =? 255) || existsb bad l.
Proof.
  intro B. revert f. induction B as [|c l Hc Hl IH]; intros f F; cbn [flag_of fold_left existsb].
  - now rewrite orb_false_r.
  - destruct (flag_lor f c (flagset_byte f F) Hc F) as [F' E]. fold (flag_of l (Z.lor f (parse_hex c))).
    rewrite IH by exact F'. now rewrite E, orb_assoc.
Qed.
Lemma flag_of_ok l : bytes l -> (flag_of l 0 =? 255) = existsb bad l.
Proof. intro B. now rewrite flag_of_gen. Qed.
Lemma flag_of_app a b f : flag_of (a ++ b) f = flag_of b (flag_of a f).
Proof. apply fold_left_app. Qed.

Lemma bad_decode_none x : Nat.even (length x) = true -> bytes x -> existsb bad x = true -> rfc_hex_decode x = None.
Proof. intros H B E. rewrite hex_decode_pairs by auto. now rewrite E. Qed.
Lemma good_decode x : Nat.even (length x) = true -> bytes x -> existsb bad x = false ->
  rfc_hex_decode x = Some (pairs (map parse_hex x)).
Proof. intros H B E. rewrite hex_decode_pairs by auto. now rewrite E. Qed.

Lemma shl4_lor a b : 0 <= a < 16 -> 0 <= b < 16 -> Z.lor (shl4 a) b = 16 * a + b.
Proof.
  intros Ha Hb. apply Z.eqb_eq. revert a b Ha Hb.
  apply (sweep2 16 16 (fun a b => Z.lor (shl4 a) b =? 16 * a + b)). reflexivity.
Qed.

Lemma even_mod2 n : (n mod 2 = 0)%nat <-> Nat.even n = true.
Proof. rewrite Nat.even_spec. split.
  - intro H. exists (n / 2)%nat. lia.
  - intros [k ->]. now rewrite Nat.mul_comm, Nat.mod_mul by lia.
Qed.

Section Decode.
  Context (m0 : mem) (bs so : nat) (total : list Z) (bd d0 cap : nat).
  Notation ppt := (pp bs so total).
  Notation qqt := (qq bd d0).
  Notation TSt := (TS m0 bs so total bd d0 cap).
  Notation D := rfc_hex_decode.
  Notation half := (fun n => n / 2)%nat.
  Notation DIt := (DI m0 bs so total bd d0 cap D half).
  Hypothesis HB : bytes total.
  Hypothesis cap_eq : cap = (length total / 2)%nat.
  Hypothesis alias : (bs <> bd \/ so + length total <= d0 \/ d0 <= so)%nat.

  Lemma dec_bits_ok out a b r m (Q : Z -> mem -> Prop) : TSt out ([a; b] ++ r) m ->
    (length out + 1 <= cap)%nat -> (length out + length ([a; b] ++ r) <= length total)%nat ->
    (forall z m', TSt (out ++ [z]) r m' ->
       (bad a = false -> bad b = false -> z = 16 * parse_hex a + parse_hex b) ->
       Q (Z.lor (parse_hex a) (parse_hex b)) m') ->
    wp (decode_bits (ppt ([a; b] ++ r)) (qqt out)) Q m.
  Proof.
    intros T Hc Ha HQ. unfold decode_bits. cbn [app length] in Ha.
    assert (Bx := TS_bytes _ _ _ _ _ _ _ _ _ _ HB T). cbn [app] in Bx. inv_bytes.
    apply wp_bind. eapply wp_src_read; [exact T|cbn; lia|]. cbn [nth].
    apply wp_bind. eapply wp_src_read; [exact T|cbn; lia|]. cbn [nth].
    rewrite !unhex_ok by auto. apply TS_adv in T.
    apply wp_bind. eapply wp_dst_write; [exact T|exact Hc| |].
    { assert (L := TS_suffix _ _ _ _ _ _ _ _ _ _ T). lia. }
    intros m' T'. apply wp_ret. eapply HQ; [exact T'|]. intros Ga Gb.
    apply shl4_lor; apply parse_hex_range; auto.
  Qed.

  Lemma dec_step_ok out a b r m f : TSt out ([a; b] ++ r) m ->
    (length out + 1 <= cap)%nat -> (length out + length ([a; b] ++ r) <= length total)%nat ->
    wp (decode_step (ppt ([a; b] ++ r), qqt out, f)) (fun st m' => exists z,
       st = (ppt r, qqt (out ++ [z]), flag_of [a; b] f) /\ TSt (out ++ [z]) r m' /\
       (bad a = false -> bad b = false -> z = 16 * parse_hex a + parse_hex b)) m.
  Proof.
    intros T Hc Ha. unfold decode_step. apply wp_bind. apply dec_bits_ok; auto.
    assert (L := TS_suffix _ _ _ _ _ _ _ _ _ _ T).
    intros z m' T' Hz. apply wp_bind. eapply wp_src_add; [exact T'|reflexivity| |exact L].
    apply wp_bind. eapply wp_dst_add; [exact T'|reflexivity|].
    apply wp_ret. exists z. split; [|auto]. cbn [flag_of fold_left]. now rewrite Z.lor_assoc.
  Qed.

  (** the accumulating loop over a block [x]: [g] is what was written *)
  Definition good (x g : list Z) : Prop :=
    (2 * length g = length x)%nat /\ (existsb bad x = false -> g = pairs (map parse_hex x)).

  Lemma good_step x a b g z : Nat.even (length x) = true -> good x g ->
    (bad a = false -> bad b = false -> z = 16 * parse_hex a + parse_hex b) -> good (x ++ [a; b]) (g ++ [z]).
  Proof.
    intros He [H1 H2] Hz. split; [rewrite !app_length; cbn [length]; lia|].
    rewrite existsb_app. cbn [existsb]. intro H. apply orb_false_iff in H as [H3 H4].
    apply orb_false_iff in H4 as [H4 H5]. rewrite orb_false_r in H5.
    rewrite map_app, H2, Hz by auto. cbn [map].
    assert (P : forall a b, Nat.even (length a) = true -> pairs (a ++ b) = pairs a ++ pairs b).
    { clear. intros a b Ha. pattern a. apply list_ind2; [reflexivity| |exact Ha]. clear. intros u v r IH. cbn [app pairs]. now rewrite IH. }
    rewrite P by (now rewrite map_length). reflexivity.
  Qed.

  Lemma dec_for_ok n i out x r m f seen g : TSt (out ++ g) (x ++ r) m -> length x = (2 * n)%nat ->
    Nat.even (length seen) = true -> good seen g -> f = flag_of seen 0 ->
    (length (out ++ g) + n <= cap)%nat -> (length (out ++ g) + length (x ++ r) <= length total)%nat ->
    wp (for_ n i (fun _ st => decode_step st) (ppt (x ++ r), qqt (out ++ g), f)) (fun st m' => exists g',
       st = (ppt r, qqt (out ++ g'), flag_of (seen ++ x) 0) /\ TSt (out ++ g') r m' /\ good (seen ++ x) g') m.
  Proof.
    revert i x m f seen g. induction n as [|n IH]; intros i x m f seen g T Lx He G -> Hc Ha; cbn [for_].
    - destruct x; [|easy]. cbn [app] in *. rewrite app_nil_r. apply wp_ret. eauto.
    - destruct x as [|a [|b x]]; cbn [length] in Lx; try lia.
      change (a :: b :: x) with ([a; b] ++ x) in *. rewrite <- app_assoc in *.
      apply wp_bind. eapply wp_mono; [apply dec_step_ok; auto; lia|].
      intros st m' (z & -> & T' & Hz). rewrite <- app_assoc in *.
      replace (seen ++ [a; b] ++ x) with ((seen ++ [a; b]) ++ x) by (now rewrite <- app_assoc).
      apply IH; auto.
      + lia.
      + rewrite app_length. cbn [length]. rewrite Nat.add_comm. exact He.
      + now apply good_step.
      + now rewrite flag_of_app.
      + rewrite !app_length in *. cbn [length] in *. lia.
      + rewrite !app_length in *. cbn [length] in *. lia.
  Qed.

  Lemma half_add k n : (k mod 2 = 0)%nat -> ((k + n) / 2 = k / 2 + n / 2)%nat.
  Proof. intro H. apply Nat.mod_divide in H as [q ->]; [|lia]. rewrite Nat.div_add_l, Nat.div_mul by lia. reflexivity. Qed.

  (** The result of a decoder. *)
  Definition dec_post (r : result unit) (m : mem) : Prop :=
    Frame m0 bd d0 cap m /\
    match r with
    | Ok _ => exists o, D total = Some o /\ length o = cap /\ TSt o [] m
    | Err => D total = None
    end.

  Lemma post_err m : D total = None -> Frame m0 bd d0 cap m -> dec_post Err m.
  Proof. now split. Qed.
  Lemma post_ok out m : DIt out [] m -> dec_post (Ok tt) m.
  Proof.
    intros (T & H & HL & _). split; [eapply TS_frame; exact T|]. cbn in H. rewrite app_nil_r in H.
    exists out. cbn in HL. split; [exact H|]. split; [lia|exact T].
  Qed.

  Lemma D_block x r : Nat.even (length x) = true ->
    D (x ++ r) = match D x with Some o => oapp o (D r) | None => None end.
  Proof. intro H. rewrite hex_decode_app by exact H. destruct (D x), (D r); reflexivity. Qed.

  Lemma sc_step_ok out x r m : TSt out (x ++ r) m -> length x = 2%nat ->
    (length out + 2 / 2 + length r / 2 = cap)%nat -> (length out + length (x ++ r) <= length total)%nat ->
    wp (flag <- decode_bits (ppt (x ++ r)) (qqt out) ;;
         if flag =? 255 then ret Err else
         src <- padd (ppt (x ++ r)) 2 ;;
         dst <- padd (qqt out) 1 ;;
         ret (Ok (src, dst))) (fun st m' => match st with
           | Err => D x = None /\ Frame m0 bd d0 cap m'
           | Ok st => exists o, D x = Some o /\ length o = (2 / 2)%nat /\ st = (ppt r, qqt (out ++ o)) /\ TSt (out ++ o) r m'
           end) m.
  Proof.
    intros T Lx Hc Ha. assert (Bx := TS_bytes _ _ _ _ _ _ _ _ _ _ HB T). apply bytes_app in Bx as [Bx _].
    assert (L := TS_suffix _ _ _ _ _ _ _ _ _ _ T).
    pose proof (flag_of_ok x Bx) as F. pose proof (hex_decode_pairs x ltac:(now rewrite Lx) Bx) as P.
    destruct x as [|c1 [|c2 [|]]]; try discriminate Lx.
    change (2 / 2)%nat with 1%nat in *. apply wp_bind. apply dec_bits_ok; auto; [lia|].
    intros z m' T' Hz. cbn [flag_of fold_left] in F. rewrite Z.lor_0_l in F. rewrite F.
    cbn [existsb] in *. destruct (bad c1) eqn:B1; [|destruct (bad c2) eqn:B2]; cbn [orb] in *.
    1,2: apply wp_ret; split; [exact P|eapply TS_frame; exact T'].
    apply wp_bind. eapply wp_src_add; [exact T'|reflexivity| |exact L].
    apply wp_bind. eapply wp_dst_add; [exact T'|reflexivity|].
    apply wp_ret. cbn [map pairs] in P. rewrite <- Hz in P by auto. eauto 6.
  Qed.

  Lemma decode_short_ok s out rest m n : DIt out rest m -> n = length rest -> Nat.even n = true ->
    wp (decode_short s (ppt rest) n (qqt out)) dec_post m.
  Proof.
    intros HI -> He. unfold decode_short.
    destruct (matches_isa s [IAVX2; IWASM128]).
    - apply wp_bind. eapply wp_src_end_all; [exact (proj1 HI)|reflexivity|].
      apply wp_bind. eapply (dec_loop_nil m0 bs so total bd d0 cap D half 2); [lia| | | |exact HI| | | | |].
      + intros x r Lx. apply D_block. now rewrite Lx.
      + intro k. apply half_add. reflexivity.
      + cbn. lia.
      + now apply even_mod2.
      + lia.
      + intros. cbn [fst snd]. now apply sc_step_ok.
      + intros m' HN F. apply wp_ret. now apply post_err.
      + intros out' m' HI'. apply wp_ret. now apply (post_ok out').
    - apply wp_bind. eapply wp_src_end_all; [exact (proj1 HI)|reflexivity|].
      apply wp_bind.
      set (I := fun (st : ptr * ptr * Z) m => exists seen x g,
         rest = seen ++ x /\ Nat.even (length seen) = true /\ Nat.even (length x) = true /\
         st = (ppt x, qqt (out ++ g), flag_of seen 0) /\ good seen g /\ TSt (out ++ g) x m).
      pose proof HI as (T0 & HD & HL & HA).
      assert (Lr := TS_suffix _ _ _ _ _ _ _ _ _ _ T0).
      eapply (wp_while I (fun st => (so + length total - snd (fst (fst st)))%nat)).
      + exists [], rest, []. cbn [app length]. rewrite app_nil_r. repeat split; auto; apply T0.
      + unfold pp. cbn [fst snd]. lia.
      + intros st m' (seen & x & g & -> & Hs & Hx & -> & G & T) C. cbn [fst snd] in C.
        destruct x as [|a [|b x]]; [unfold plt, pp in C; cbn [snd length] in C; apply Nat.ltb_lt in C; lia|easy|].
        assert (L := TS_suffix _ _ _ _ _ _ _ _ _ _ T). destruct G as [G1 G2].
        rewrite !app_length in *. cbn [length] in *.
        assert (CapA : (length out + length g + 1 <= cap)%nat) by lia.
        change (a :: b :: x) with ([a; b] ++ x). 
        eapply wp_mono; [apply dec_step_ok; [exact T|rewrite app_length; lia|rewrite !app_length; cbn [length]; lia]|].
        intros st m'' (z & -> & T' & Hz). split.
        * exists (seen ++ [a; b]), x, (g ++ [z]). rewrite <- app_assoc in T'. rewrite <- !app_assoc. split; [reflexivity|].
          split; [rewrite app_length; cbn [length]; rewrite Nat.add_comm; exact Hs|].
          split; [exact Hx|]. split; [now rewrite flag_of_app|]. split; [|exact T'].
          apply good_step; auto. now split.
        * unfold pp. cbn [fst snd app length]. lia.
      + intros st m' (seen & x & g & -> & Hs & Hx & -> & G & T) C. cbn [fst snd] in C.
        assert (L := TS_suffix _ _ _ _ _ _ _ _ _ _ T).
        destruct x; [|unfold plt, pp in C; cbn [snd length] in *; apply Nat.ltb_ge in C; lia].
        assert (Bx : bytes seen). { pose proof (TS_bytes _ _ _ _ _ _ _ _ _ _ HB T0) as B. now rewrite app_nil_r in B. }
        apply wp_ret. rewrite flag_of_ok by auto. rewrite app_nil_r in *.
        destruct (existsb bad seen) eqn:EB.
        * apply post_err; [|eapply TS_frame; exact T]. rewrite HD, bad_decode_none by auto. reflexivity.
        * apply (post_ok (out ++ g)). destruct G as [G1 G2]. rewrite (good_decode seen) in HD by auto.
          split; [exact T|]. rewrite <- G2 in HD by auto. split; [|rewrite app_length; cbn [length] in *; split; [|lia]].
          -- rewrite HD. cbn. now rewrite app_nil_r.
          -- rewrite <- G1 in HL. rewrite (Nat.mul_comm 2), Nat.div_mul in HL by lia. cbn. lia.
  Qed.

  Definition block_post (x out r : list Z) (k : nat) (st : result (ptr * ptr)) (m' : mem) : Prop :=
    match st with
    | Err => D x = None /\ Frame m0 bd d0 cap m'
    | Ok st => exists o, D x = Some o /\ length o = (k / 2)%nat /\ st = (ppt r, qqt (out ++ o)) /\ TSt (out ++ o) r m'
    end.

  Lemma long_block_ok out x r m : TSt out (x ++ r) m -> length x = 16%nat ->
    (length out + 16 / 2 + length r / 2 = cap)%nat -> (length out + length (x ++ r) <= length total)%nat ->
    wp (' (src, dst, flag) <- for_ 8 0 (fun _ st => decode_step st) (ppt (x ++ r), qqt out, 0) ;;
       if flag =? 255 then ret Err else ret (Ok (src, dst))) (block_post x out r 16) m.
  Proof.
    intros T Lx Hc Ha. assert (Bx := TS_bytes _ _ _ _ _ _ _ _ _ _ HB T). apply bytes_app in Bx as [Bx _].
    change (16 / 2)%nat with 8%nat in *.
    assert (W := dec_for_ok 8 0 out x r m 0 [] []). rewrite app_nil_r in W.
    apply wp_bind. eapply wp_mono; [apply W; auto; try lia; now split|].
    - intros st m' (g & -> & T' & G). cbn [app] in *. rewrite flag_of_ok by auto.
      destruct (existsb bad x) eqn:EB; apply wp_ret; cbn [block_post].
      + split; [apply bad_decode_none; auto; now rewrite Lx|eapply TS_frame; exact T'].
      + exists g. destruct G as [G1 G2].
        split; [rewrite G2 by auto; apply good_decode; auto; now rewrite Lx|]. change (16 / 2)%nat with 8%nat. repeat split; auto; try lia; apply T'.
  Qed.

  Lemma decode_long_ok out rest m n : DIt out rest m -> n = length rest -> Nat.even n = true ->
    wp (decode_long (ppt rest) n (qqt out)) dec_post m.
  Proof.
    intros HI -> He. unfold decode_long.
    destruct (split_blocks rest 16) as (a & b & -> & La & Lb); [lia|].
    apply wp_bind. eapply wp_src_end; [exact (proj1 HI)|exact La|].
    apply wp_bind. eapply (dec_loop m0 bs so total bd d0 cap D half 16); [lia| | | |exact HI| | | | |].
    - intros x r Lx. apply D_block. now rewrite Lx.
    - intro k. now apply half_add.
    - cbn. lia.
    - rewrite La. apply Nat.mod_mul. lia.
    - lia.
    - intros. cbn [fst snd]. now apply long_block_ok.
    - intros m' HN F. apply wp_ret. now apply post_err.
    - intros out' m' HI'. cbn [fst snd]. apply decode_short_ok; auto.
      apply even_mod2. rewrite app_length in *. apply even_mod2 in He. lia.
  Qed.

  (** load-and-decode of one vector *)
  Lemma dec_block_ok k (f : list Z -> option (result (list Z))) out x r m (Q : result unit -> mem -> Prop) :
    TSt out (x ++ r) m -> length x = k -> Nat.even k = true -> f x = Some (dec_result (D x)) ->
    (length out + k / 2 + length r / 2 = cap)%nat -> (length out + length (x ++ r) <= length total)%nat ->
    (forall m', D x = None -> Frame m0 bd d0 cap m' -> Q Err m') ->
    (forall o m', D x = Some o -> length o = (k / 2)%nat -> TSt (out ++ o) r m' -> Q (Ok tt) m') ->
    wp (v <- load (ppt (x ++ r)) k ;; y <- lift (f v) ;;
        match y with Err => ret Err | Ok y => store (qqt out) y ;;; ret (Ok tt) end) Q m.
  Proof.
    intros T Lx He Hf Hc Ha HE HQ. apply wp_bind. eapply wp_src_load; [exact T|exact Lx|].
    assert (L := TS_suffix _ _ _ _ _ _ _ _ _ _ T).
    apply wp_bind. eapply wp_lift; [exact Hf|]. destruct (D x) as [o|] eqn:Ex; cbn [dec_result].
    - assert (Lo := hex_decode_length _ _ Ex). apply TS_adv in T. rewrite app_length in *.
      apply wp_bind. eapply wp_dst_store; [exact T|lia|lia|]. intros m' T'. apply wp_ret. eapply HQ; eauto. lia.
    - apply wp_ret. apply HE; auto. eapply TS_frame; exact T.
  Qed.

  Lemma dec16_ok s out x r m (Q : result unit -> mem -> Prop) : swz s ->
    TSt out (x ++ r) m -> length x = 16%nat ->
    (length out + 16 / 2 + length r / 2 = cap)%nat -> (length out + length (x ++ r) <= length total)%nat ->
    (forall m', D x = None -> Frame m0 bd d0 cap m' -> Q Err m') ->
    (forall o m', D x = Some o -> length o = (16 / 2)%nat -> TSt (out ++ o) r m' -> Q (Ok tt) m') ->
    wp (dec16 s (ppt (x ++ r)) (qqt out)) Q m.
  Proof.
    intros Hs T Lx. assert (Bx := TS_bytes _ _ _ _ _ _ _ _ _ _ HB T). apply bytes_app in Bx as [Bx _].
    unfold dec16. apply dec_block_ok; auto. now apply hex_decode_ascii16_ok.
  Qed.
  Lemma dec32_ok s out x r m (Q : result unit -> mem -> Prop) : swz s ->
    TSt out (x ++ r) m -> length x = 32%nat ->
    (length out + 32 / 2 + length r / 2 = cap)%nat -> (length out + length (x ++ r) <= length total)%nat ->
    (forall m', D x = None -> Frame m0 bd d0 cap m' -> Q Err m') ->
    (forall o m', D x = Some o -> length o = (32 / 2)%nat -> TSt (out ++ o) r m' -> Q (Ok tt) m') ->
    wp (dec32 s (ppt (x ++ r)) (qqt out)) Q m.
  Proof.
    intros Hs T Lx. assert (Bx := TS_bytes _ _ _ _ _ _ _ _ _ _ HB T). apply bytes_app in Bx as [Bx _].
    unfold dec32. apply dec_block_ok; auto. now apply hex_decode_ascii32_ok.
  Qed.

  Lemma DI_block k out x r m : DIt out (x ++ r) m -> length x = k -> (k mod 2 = 0)%nat ->
    (length out + k / 2 + length r / 2 = cap)%nat /\ (length out + length (x ++ r) <= length total)%nat.
  Proof. intros (_ & _ & HL & HA) Lx Hk. split; [|exact HA]. rewrite app_length, Lx, half_add in HL by auto. lia. Qed.

  Lemma DI_next k out x r o m m' : DIt out (x ++ r) m -> length x = k -> (k mod 2 = 0)%nat -> D x = Some o ->
    length o = (k / 2)%nat -> TSt (out ++ o) r m' -> DIt (out ++ o) r m'.
  Proof.
    intros HI Lx Hk Ho Lo T. eapply DI_step; eauto.
    - rewrite D_block, Ho by (apply even_mod2; now rewrite Lx). reflexivity.
    - rewrite app_length, Lx, half_add by auto. lia.
    - rewrite Lx, Lo. lia.
  Qed.
  Lemma DI_stop k out x r m : DIt out (x ++ r) m -> length x = k -> (k mod 2 = 0)%nat -> D x = None -> D total = None.
  Proof.
    intros HI Lx Hk Hn. eapply DI_fail; [exact HI|]. rewrite D_block, Hn by (apply even_mod2; now rewrite Lx). reflexivity.
  Qed.

  (** [if k <= len { decode one vector; advance }] *)
  Lemma opt16_ok s out rest m (Q : result (ptr * ptr * nat) -> mem -> Prop) : swz s ->
    DIt out rest m ->
    (forall m', D total = None -> Frame m0 bd d0 cap m' -> Q Err m') ->
    (forall out' rest' m', DIt out' rest' m' -> (length rest' mod 2 = length rest mod 2)%nat ->
        Q (Ok (ppt rest', qqt out', length rest')) m') ->
    wp (if (16 <=? length rest)%nat then
          try_ (dec16 s (ppt rest) (qqt out)) (fun _ =>
          src <- padd (ppt rest) 16 ;;
          dst <- padd (qqt out) 8 ;;
          ret (Ok (src, dst, length rest - 16)%nat))
        else ret (Ok (ppt rest, qqt out, length rest))) Q m.
  Proof.
    intros Hs HI HE HQ. destruct (Nat.leb_spec 16 (length rest)) as [G|G]; [|apply wp_ret; now apply HQ].
    destruct (split_at rest 16) as (x & r & -> & Lx); [lia|].
    destruct (DI_block 16 _ _ _ _ HI Lx eq_refl) as [C A].
    assert (L := TS_suffix _ _ _ _ _ _ _ _ _ _ (proj1 HI)).
    apply wp_try. apply dec16_ok; auto.
    - exact (proj1 HI).
    - intros m' HN F. apply HE; auto. eapply DI_stop; eauto.
    - intros o m' Ho Lo T. apply wp_bind. eapply wp_src_add; [exact T|exact Lx| |exact L].
      apply wp_bind. eapply wp_dst_add; [exact T|exact Lo|]. apply wp_ret.
      rewrite app_length, Lx. replace (16 + length r - 16)%nat with (length r) by lia.
      apply HQ; [eapply DI_next; eauto|]. rewrite app_length. lia.
  Qed.
  Lemma opt32_ok s out rest m (Q : result (ptr * ptr * nat) -> mem -> Prop) : swz s ->
    DIt out rest m ->
    (forall m', D total = None -> Frame m0 bd d0 cap m' -> Q Err m') ->
    (forall out' rest' m', DIt out' rest' m' -> (length rest' mod 2 = length rest mod 2)%nat ->
        Q (Ok (ppt rest', qqt out', length rest')) m') ->
    wp (if (32 <=? length rest)%nat then
          try_ (dec32 s (ppt rest) (qqt out)) (fun _ =>
          src <- padd (ppt rest) 32 ;;
          dst <- padd (qqt out) 16 ;;
          ret (Ok (src, dst, length rest - 32)%nat))
        else ret (Ok (ppt rest, qqt out, length rest))) Q m.
  Proof.
    intros Hs HI HE HQ. destruct (Nat.leb_spec 32 (length rest)) as [G|G]; [|apply wp_ret; now apply HQ].
    destruct (split_at rest 32) as (x & r & -> & Lx); [lia|].
    destruct (DI_block 32 _ _ _ _ HI Lx eq_refl) as [C A].
    assert (L := TS_suffix _ _ _ _ _ _ _ _ _ _ (proj1 HI)).
    apply wp_try. apply dec32_ok; auto.
    - exact (proj1 HI).
    - intros m' HN F. apply HE; auto. eapply DI_stop; eauto.
    - intros o m' Ho Lo T. apply wp_bind. eapply wp_src_add; [exact T|exact Lx| |exact L].
      apply wp_bind. eapply wp_dst_add; [exact T|exact Lo|]. apply wp_ret.
      rewrite app_length, Lx. replace (32 + length r - 32)%nat with (length r) by lia.
      apply HQ; [eapply DI_next; eauto|]. rewrite app_length. lia.
  Qed.

  Lemma dec_v128_ok s out rest m n : swz s -> DIt out rest m -> n = length rest -> Nat.even n = true ->
    wp (decode_simd_v128 s (ppt rest) n (qqt out)) dec_post m.
  Proof.
    intros Hs HI -> He. unfold decode_simd_v128. apply even_mod2 in He.
    destruct (split_blocks rest 32) as (a & b & -> & La & Lb); [lia|].
    apply wp_bind. eapply wp_src_end; [exact (proj1 HI)|exact La|].
    apply wp_try. eapply (dec_loop m0 bs so total bd d0 cap D half 32); [lia| | | |exact HI| | | | |].
    - intros x r Lx. apply D_block. now rewrite Lx.
    - intro k. now apply half_add.
    - cbn. lia.
    - rewrite La. apply Nat.mod_mul. lia.
    - lia.
    - clear out a b m HI La Lb He. intros out x r m T Lx Hc Ha. cbn [fst snd].
      assert (L := TS_suffix _ _ _ _ _ _ _ _ _ _ T).
      apply wp_try. apply dec32_ok; auto.
      intros o m' Ho Lo T'. apply wp_bind. eapply wp_src_add; [exact T'|exact Lx| |exact L].
      apply wp_bind. eapply wp_dst_add; [exact T'|exact Lo|]. apply wp_ret. eauto.
    - intros m' HN F. now apply post_err.
    - intros out' m' HI'. cbn [fst snd]. rewrite <- Lb.
      destruct (Nat.eqb_spec (length b) 0) as [Z0|N].
      { destruct b; [|easy]. apply wp_ret. now apply (post_ok out'). }
      apply wp_try. apply opt16_ok; auto.
      + intros; now apply post_err.
      + intros out1 rest1 m1 HI1 Hp. apply decode_short_ok; auto. apply even_mod2. rewrite app_length in *. lia.
  Qed.

  Lemma dec_sse2_ok out rest m n : DIt out rest m -> n = length rest -> Nat.even n = true ->
    wp (decode_simd_sse2 SSE2 (ppt rest) n (qqt out)) dec_post m.
  Proof.
    intros HI -> He. unfold decode_simd_sse2. apply even_mod2 in He.
    destruct (split_blocks rest 16) as (a & b & -> & La & Lb); [lia|].
    apply wp_bind. eapply wp_src_end; [exact (proj1 HI)|exact La|].
    apply wp_try. eapply (dec_loop m0 bs so total bd d0 cap D half 16); [lia| | | |exact HI| | | | |].
    - intros x r Lx. apply D_block. now rewrite Lx.
    - intro k. now apply half_add.
    - cbn. lia.
    - rewrite La. apply Nat.mod_mul. lia.
    - lia.
    - clear out a b m HI La Lb He. intros out x r m T Lx Hc Ha. cbn [fst snd].
      assert (L := TS_suffix _ _ _ _ _ _ _ _ _ _ T).
      assert (Bx := TS_bytes _ _ _ _ _ _ _ _ _ _ HB T). apply bytes_app in Bx as [Bx _].
      apply wp_bind. eapply wp_src_load; [exact T|exact Lx|].
      apply wp_bind. eapply wp_lift; [now apply sse2_nibbles_ok|]. cbn [fst snd].
      destruct (sse2_flag_ok x Lx Bx) as [F1 F2].
      apply wp_bind. eapply wp_lift; [exact F1|]. rewrite F2, negb_involutive.
      destruct (existsb bad x) eqn:EB.
      + apply wp_ret. split; [apply bad_decode_none; auto; now rewrite Lx|eapply TS_frame; exact T].
      + destruct (sse2_decode_ok x Lx Bx EB) as (y & E1 & E2).
        apply wp_bind. eapply wp_lift; [exact E1|].
        assert (Ly := hex_decode_length _ _ E2). apply TS_adv in T. rewrite app_length in *.
        apply wp_bind. eapply wp_dst_store; [exact T|lia|lia|]. intros m' T'.
        apply wp_bind. eapply wp_src_add; [exact T'|exact Lx| |rewrite app_length; exact L].
        apply wp_bind. eapply wp_dst_add; [exact T'|lia|]. apply wp_ret. exists y. repeat split; auto; try apply T'. lia.
    - intros m' HN F. now apply post_err.
    - intros out' m' HI'. cbn [fst snd]. rewrite <- Lb.
      destruct (Nat.eqb_spec (length b) 0) as [Z0|N].
      { destruct b; [|easy]. apply wp_ret. now apply (post_ok out'). }
      apply decode_short_ok; auto. apply even_mod2. rewrite app_length in *. lia.
  Qed.

  Lemma dec_v256_ok out rest m n : DIt out rest m -> n = length rest -> Nat.even n = true ->
    wp (decode_simd_v256 AVX2 (ppt rest) n (qqt out)) dec_post m.
  Proof.
    intros HI -> He. assert (Hs : swz AVX2) by reflexivity. unfold decode_simd_v256. apply even_mod2 in He.
    destruct (Nat.eqb_spec (length rest) 16) as [E16|N16].
    { destruct (split_at rest 16) as (x & r & -> & Lx); [lia|]. destruct r; [|rewrite app_length in E16; cbn in E16; lia].
      destruct (DI_block 16 _ _ _ _ HI Lx eq_refl) as [C A]. apply dec16_ok; auto.
      - exact (proj1 HI).
      - intros m' HN F. apply post_err; auto. eapply DI_stop; eauto.
      - intros o m' Ho Lo T. apply (post_ok (out ++ o)). eapply DI_next; eauto. }
    destruct (Nat.eqb_spec (length rest) 32) as [E32|N32].
    { destruct (split_at rest 32) as (x & r & -> & Lx); [lia|]. destruct r; [|rewrite app_length in E32; cbn in E32; lia].
      destruct (DI_block 32 _ _ _ _ HI Lx eq_refl) as [C A]. apply dec32_ok; auto.
      - exact (proj1 HI).
      - intros m' HN F. apply post_err; auto. eapply DI_stop; eauto.
      - intros o m' Ho Lo T. apply (post_ok (out ++ o)). eapply DI_next; eauto. }
    destruct (split_blocks rest 64) as (a & b & -> & La & Lb); [lia|].
    apply wp_bind. eapply wp_src_end; [exact (proj1 HI)|exact La|].
    apply wp_try. eapply (dec_loop m0 bs so total bd d0 cap D half 64); [lia| | | |exact HI| | | | |].
    - intros x r Lx. apply D_block. now rewrite Lx.
    - intro k. now apply half_add.
    - cbn. lia.
    - rewrite La. apply Nat.mod_mul. lia.
    - lia.
    - clear out a b m HI La Lb He N16 N32. intros out x r m T Lx Hc Ha. cbn [fst snd].
      assert (L := TS_suffix _ _ _ _ _ _ _ _ _ _ T).
      assert (Bx := TS_bytes _ _ _ _ _ _ _ _ _ _ HB T). apply bytes_app in Bx as [Bx _].
      destruct (split_at x 32) as (x0 & x1 & -> & L0); [lia|].
      assert (L1 : length x1 = 32%nat) by (rewrite app_length in Lx; lia).
      apply bytes_app in Bx as [B0 B1]. pose proof T as T2. rewrite <- app_assoc in T2 |- *.
      apply wp_bind. eapply wp_src_load; [exact T2|exact L0|].
      apply wp_bind. eapply wp_src_end; [exact T2|exact L0|]. pose proof (TS_adv _ _ _ _ _ _ _ _ _ _ _ T2) as T3.
      apply wp_bind. eapply wp_src_load; [exact T3|exact L1|].
      apply wp_bind. eapply wp_src_end; [exact T3|exact L1|]. pose proof (TS_adv _ _ _ _ _ _ _ _ _ _ _ T3) as T4.
      apply wp_bind. eapply wp_lift; [now apply hex_decode_ascii32x2_ok|].
      destruct (D (x0 ++ x1)) as [o|] eqn:Ex; cbn [dec_result].
      + assert (Lo := hex_decode_length _ _ Ex). rewrite (app_length (x0 ++ x1)) in *.
        change (64 / 2)%nat with 32%nat in *.
        apply wp_bind. eapply wp_dst_store; [exact T4|lia|lia|]. intros m' T'.
        apply wp_bind. eapply wp_dst_add; [exact T'|lia|]. apply wp_ret. exists o. repeat split; auto; try apply T'.
        change (64 / 2)%nat with 32%nat. lia.
      + apply wp_ret. split; [auto|eapply TS_frame; exact T].
    - intros m' HN F. now apply post_err.
    - intros out' m' HI'. cbn [fst snd]. rewrite <- Lb.
      destruct (Nat.eqb_spec (length b) 0) as [Z0|N].
      { destruct b; [|easy]. apply wp_ret. now apply (post_ok out'). }
      apply wp_try. apply opt32_ok; auto.
      + intros; now apply post_err.
      + intros out1 rest1 m1 HI1 Hp. apply wp_try. apply opt16_ok; auto.
        * intros; now apply post_err.
        * intros out2 rest2 m2 HI2 Hp2. apply decode_short_ok; auto. apply even_mod2. rewrite app_length in *. lia.
  Qed.

  Lemma hex_decode_impl_ok s out rest m n : DIt out rest m -> n = length rest -> Nat.even n = true ->
    wp (hex_decode_impl s (ppt rest) n (qqt out)) dec_post m.
  Proof.
    intros HI Hn He. destruct s; cbn [hex_decode_impl]; unfold hex_decode_simd; cbn;
      first [now apply decode_long_ok|now apply dec_sse2_ok|now apply dec_v256_ok|now apply dec_v128_ok].
  Qed.
End Decode.

(** ** Checking *)
Lemma unhex_bad x : byte x -> (unhex x =? 255) = bad x.
Proof.
  intro H. rewrite unhex_ok by auto. assert (E := flag_of_ok [x]). cbn in E. rewrite orb_false_r in E. apply E. now constructor.
Qed.

Definition valid (x : list Z) : bool := negb (existsb bad x).
Lemma valid_app x r : valid (x ++ r) = valid x && valid r.
Proof. unfold valid. now rewrite existsb_app, negb_orb. Qed.

Section Check.
  Context (m0 : mem) (bs so : nat) (total : list Z) (HB : bytes total).
  Notation ppt := (pp bs so total).
  Notation RSt := (RS m0 bs so total).
  Notation CIt := (CI m0 bs so total valid).
  Notation post := (chk_post m0 total valid).

  Lemma RS_bytes rest m : RSt rest m -> bytes rest.
  Proof. intro T. eapply TS_bytes; [exact HB|exact T]. Qed.

  Lemma check_short_ok rest m n : CIt rest m -> n = length rest -> wp (check_short (ppt rest) n) post m.
  Proof.
    intros HI ->. unfold check_short. apply wp_bind. eapply wp_src_end_all; [exact (proj1 HI)|reflexivity|].
    apply wp_bind.
    apply (loop_io (fun seen r => (ppt r, flag_of seen 0)) (fun seen r m => RSt r m /\ rest = seen ++ r) _ _ _ []).
    - split; [exact (proj1 HI)|reflexivity].
    - lia.
    - intros seen r m' [T E] C. cbn [fst snd] in *.
      rewrite plt_pp in C by (first [exact (TS_suffix _ _ _ _ _ _ _ _ _ _ T)|cbn; lia]).
      destruct r as [|a r]; [discriminate C|].
      apply wp_bind. eapply wp_src_read1; [exact T|].
      apply wp_bind. change (a :: r) with ([a] ++ r) in *.
      eapply wp_src_end; [exact T|reflexivity|]. apply wp_ret.
      exists (seen ++ [a]), r. rewrite flag_of_app. cbn [flag_of fold_left].
      assert (Ba := RS_bytes _ _ T). apply bytes_app in Ba as [Ba _]. inversion_clear Ba.
      split; [now rewrite unhex_ok by auto|].
      split; [split; [now apply RS_adv in T|now rewrite E, <- app_assoc]|]. cbn; lia.
    - intros seen r m' [T E] C. cbn [fst snd] in *.
      rewrite plt_pp in C by (first [exact (TS_suffix _ _ _ _ _ _ _ _ _ _ T)|cbn; lia]).
      destruct r as [|a r]; [|discriminate C]. rewrite app_nil_r in E. subst seen.
      apply wp_ret. rewrite flag_of_ok by (eapply RS_bytes; exact (proj1 HI)).
      split; [eapply RS_same; exact T|]. rewrite (proj2 HI). unfold valid. now destruct (existsb bad rest).
  Qed.

  Lemma check_short_sc_ok rest m n : CIt rest m -> n = length rest -> wp (check_short_sc (ppt rest) n) post m.
  Proof.
    intros HI ->. unfold check_short_sc. apply wp_bind. eapply wp_src_end_all; [exact (proj1 HI)|reflexivity|].
    apply wp_bind. eapply (chk_loop_nil m0 bs so total valid 1 valid); [lia| |exact HI|apply Nat.mod_1_r|lia| | |].
    - intros; apply valid_app.
    - intros x r m' T Lx. destruct x as [|a [|]]; try discriminate Lx.
      assert (Ba := RS_bytes _ _ T). cbn [app] in Ba. inversion_clear Ba.
      apply wp_bind. eapply wp_src_read1; [exact T|]. rewrite unhex_bad by auto. cbn [valid existsb].
      unfold valid. cbn [existsb]. rewrite orb_false_r. destruct (bad a); cbn [negb].
      + apply wp_ret. split; [now apply RS_adv in T|reflexivity].
      + apply wp_bind. eapply wp_src_end; [exact T|reflexivity|]. apply wp_ret.
        split; [now apply RS_adv in T|reflexivity].
    - intros m' E F. apply wp_ret. split; [exact F|now rewrite E].
    - intros m' HI'. apply wp_ret. now eapply chk_ok; [exact HI'|].
  Qed.

  Lemma check_vec_ok w s x r m (Q : bool -> mem -> Prop) : simd s -> RSt (x ++ r) m -> length x = vlen w ->
    Q (valid x) m -> wp (check_vec w s (ppt (x ++ r))) Q m.
  Proof.
    intros Hs T Lx HQ. unfold check_vec. apply wp_bind. eapply wp_src_load; [exact T|exact Lx|].
    assert (Bx := RS_bytes _ _ T). apply bytes_app in Bx as [Bx _].
    eapply wp_lift; [|exact HQ]. now apply hex_check_xn_ok.
  Qed.

  Lemma hex_check_impl_ok s rest m n : CIt rest m -> n = length rest -> wp (hex_check_impl s (ppt rest) n) post m.
  Proof.
    intros HI ->. destruct (simd_dec s) as [->|Hs]; [now apply check_short_ok|].
    assert (Hf : forall rest m, CIt rest m -> wp (if matches_isa s [IAVX2; IWASM128] then check_short_sc (ppt rest) (length rest)
       else check_short (ppt rest) (length rest)) post m).
    { intros r m' H. destruct (matches_isa s _); [now apply check_short_sc_ok|now apply check_short_ok]. }
    replace (hex_check_impl s) with (hex_check_simd s) by (destruct s; try discriminate Hs; reflexivity).
    unfold hex_check_simd.
    assert (HL : forall w a b m (Q : result ptr -> mem -> Prop), CIt (a ++ b) m -> (length a mod vlen w = 0)%nat ->
       (forall m, valid total = false -> (forall b, m b = m0 b) -> Q Err m) ->
       (forall m, CIt b m -> Q (Ok (ppt b)) m) ->
       wp (while_res (S (length (a ++ b))) (fun src => plt src (ppt b))
           (fun src => ok <- check_vec w s src ;; if ok : bool then src <- padd src (vlen w) ;; ret (Ok src) else ret Err)
           (ppt (a ++ b))) Q m).
    { clear rest m HI. intros w a b m Q HI Hm HE HQ.
      eapply (chk_loop m0 bs so total valid (vlen w) valid); [destruct w; cbn; lia| |exact HI|exact Hm|lia| |exact HE|exact HQ].
      - intros; apply valid_app.
      - intros x r m' T Lx. apply wp_bind. apply check_vec_ok; auto. destruct (valid x).
        + apply wp_bind. eapply wp_src_end; [exact T|exact Lx|]. apply wp_ret.
          split; [now apply RS_adv in T|reflexivity].
        + apply wp_ret. split; [now apply RS_adv in T|reflexivity]. }
    destruct (matches_isa s [IAVX2]) eqn:MA.
    - destruct (Nat.eqb_spec (length rest) 16) as [E16|N16].
      { apply wp_bind. rewrite <- (app_nil_r rest) in HI |- *. eapply check_vec_ok; [exact Hs|exact (proj1 HI)|exact E16|].
        apply wp_ret. destruct HI as [T HI]. split; [eapply RS_same; exact T|]. now rewrite HI, app_nil_r. }
      destruct (split_blocks rest 32) as (a & b & -> & La & Lb); [lia|].
      apply wp_bind. eapply wp_src_end; [exact (proj1 HI)|exact La|].
      apply wp_try. apply (HL W256); auto.
      { rewrite La. apply Nat.mod_mul. discriminate. }
      { intros m' E F. split; [exact F|now rewrite E]. }
      intros m' HI'. cbn zeta. rewrite <- Lb. destruct (Nat.eqb_spec (length b) 0) as [Z0|N].
      { destruct b; [|easy]. apply wp_ret. now eapply chk_ok; [exact HI'|]. }
      destruct (Nat.leb_spec 16 (length b)) as [G|G]; [|now apply Hf].
      destruct (split_at b 16) as (x & r & -> & Lx); [lia|].
      apply wp_bind. eapply check_vec_ok; [exact Hs|exact (proj1 HI')|exact Lx|]. destruct (valid x) eqn:Vx.
      + apply wp_bind. eapply wp_src_end; [exact (proj1 HI')|exact Lx|]. rewrite app_length, Lx.
        replace (16 + length r - 16)%nat with (length r) by lia. apply Hf. eapply CI_step; [exact HI'| |exact (RS_adv _ _ _ _ _ _ _ (proj1 HI'))].
        now rewrite valid_app, Vx.
      + apply wp_ret. eapply chk_err; [exact HI'|]. now rewrite valid_app, Vx.
    - destruct (split_blocks rest 16) as (a & b & -> & La & Lb); [lia|].
      apply wp_bind. eapply wp_src_end; [exact (proj1 HI)|exact La|].
      apply wp_try. apply (HL W128); auto.
      { rewrite La. apply Nat.mod_mul. discriminate. }
      { intros m' E F. split; [exact F|now rewrite E]. }
      intros m' HI'. cbn zeta. rewrite <- Lb. destruct (Nat.eqb_spec (length b) 0) as [Z0|N].
      { destruct b; [|easy]. apply wp_ret. now eapply chk_ok; [exact HI'|]. }
      now apply Hf.
  Qed.
End Check.
