(** What the hyphenated UUID functions of LaneOrderWhole.v compute on big-endian AArch64. *)
From Coq Require Import ZArith List Bool Lia ZifyNat.
From Verif Require Import Bytes Mem MemFacts Slices Codec Isa Simd SimdFacts Alsw Spec Ints Hex HexSimdFacts HexFacts HexApi
  Uuid UuidFacts UuidApi SwapFacts LaneOrder LaneOrderFacts LaneOrderWhole LaneOrderWholeFacts.
Import ListNotations.
Open Scope Z_scope.
Open Scope m_scope.
Ltac Zify.zify_post_hook ::= Z.div_mod_to_equations.

Lemma be_of_be n l : length l = n -> bytes l -> be_bytes n (of_be l) = l.
Proof.
  intros L B. assert (E := le_of_le n (rev l)). unfold of_le in E. rewrite rev_involutive in E.
  unfold be_bytes. rewrite E, rev_involutive; auto; [now rewrite rev_length|now apply bytes_rev].
Qed.

(** a parsed UUID without the low digit of every byte *)
Definition hi_digits (o : option (list Z)) : option (list Z) := match o with Some u => Some (map hi_digit u) | None => None end.

Lemma parse_hyphenated_be m bs so src bd d0 : bytes src -> length src = 36%nat ->
  bytes_at m bs so src -> (d0 + 16 <= length (m bd))%nat -> (bs <> bd \/ so + 36 <= d0 \/ d0 + 16 <= so)%nat ->
  wp (parse_hyphenated_simd_ord BE (bs, so) (bd, d0)) (parse_post m bd d0 (hi_digits (hyph_decode src))) m.
Proof.
  intros B L H R S.
  unfold parse_hyphenated_simd_ord, hyph_decode. rewrite L. cbn [Nat.eqb andb].
  destruct (US_init m bs so src bd d0 16 H R) as (cs & Lc & T); [lia|].
  apply wp_bind. eapply check_hyphens_ok; [exact T|exact L|].
  destruct (dashes src); cbn [negb]; [|apply wp_ret; split; [apply Frame_refl|reflexivity]].
  assert (BD := bytes_dehyphen src B). clear H R S. explode src.
  ld. cbn [firstn]. apply wp_bind. eapply wp_lift; [reflexivity|].
  lda. cbn [firstn skipn]. cbv zeta. 
  lda. cbn [firstn skipn].
  cbn [dehyphen firstn skipn app] in *.
  match goal with |- wp (bind (lift (hex_decode_ascii32_ord _ ?x)) _) (parse_post _ _ _ (hi_digits (rfc_hex_decode ?y))) _ => assert (E : x = y) end.
  { cbn [of_native]. unfold i32x8_set_lane7_ord, i16x16_set_lane7_ord. cbn [native_bytes].
    match goal with |- context [of_be [?a; ?b; ?c; ?d]] => assert (E4 := be_of_be 4 [a; b; c; d] eq_refl) end.
    match goal with |- context [of_be [?a; ?b]] => assert (E2 := be_of_be 2 [a; b] eq_refl) end.
    inv_bytes. rewrite E2, E4 by (repeat (constructor; [assumption|]); constructor). reflexivity. }
  rewrite E. clear E.
  match goal with |- context [rfc_hex_decode ?y] => set (t := y) in *; assert (Lt : length t = 32%nat) by reflexivity end. clearbody t.
  lf (hex_decode_ascii32_be t Lt BD). rewrite clear_low_be by auto. rewrite be_decode_block by auto.
  destruct (rfc_hex_decode t) as [y|] eqn:E; cbn [dec_result hi_digits].
  - eapply store16_post; [exact T|exact Lc|]. rewrite map_length. apply hex_decode_length in E. lia.
  - apply wp_ret. split; [apply Frame_refl|reflexivity].
Qed.

Lemma swapped_bytes case l : bytes l -> bytes (swapped (lut_of case) l).
Proof.
  intro B. induction B as [|a l Ha _ IH]; [constructor|]. cbn [swapped].
  assert (N : forall i, 0 <= i < 16 -> byte (nth (Z.to_nat i) (lut_of case) 0)).
  { intros i Hi. assert (S : forallb (fun i => byteb (nth (Z.to_nat i) (lut_of case) 0)) (range 16) = true)
      by (destruct case; vm_compute; reflexivity). rewrite forallb_forall in S. apply byteb_byte, S, in_range. lia. }
  unfold byte in Ha. constructor; [apply N; lia|]. constructor; [apply N; lia|exact IH].
Qed.

Lemma format_hyphenated_be case m bs so src bd d0 : bytes src -> length src = 16%nat ->
  bytes_at m bs so src -> (d0 + 36 <= length (m bd))%nat -> (bs <> bd \/ so + 16 <= d0 \/ d0 + 36 <= so)%nat ->
  wp (format_hyphenated_simd_ord BE (bs, so) (bd, d0) case) (fun _ => format_post m bd d0 (uuid_hyphenate (swapped (lut_of case) src))) m.
Proof.
  intros B L H R S. unfold format_hyphenated_simd_ord.
  destruct (US_init m bs so src bd d0 36 H R) as (cs & Lc & T); [lia|].
  apply wp_bind; eapply US_load; [exact T|lia|]. rewrite firstn_all2, lut_x2 by lia.
  lf (encode_bytes16_be src (lut_of case) (lut_len case) L B).
  assert (LA := swapped_len (lut_of case) src). rewrite L in LA. assert (BA := swapped_bytes case src B).
  set (a := swapped (lut_of case) src) in *. clearbody a. clear H R S.
  explode a. explode cs.
  apply wp_bind. eapply wp_lift; [reflexivity|].
  apply wp_bind. eapply wp_lift; [reflexivity|].
  apply wp_bind. eapply US_store; [exact T|apply Nat.leb_le; reflexivity|]. intros m1 T1. cbv zeta.
  apply wp_bind. eapply US_padd_dst; [exact T1|apply Nat.leb_le; reflexivity|].
  apply wp_bind. eapply US_store_at; [exact T1|apply Nat.leb_le; reflexivity|]. intros m2 T2.
  apply wp_bind. eapply US_padd_dst; [exact T2|apply Nat.leb_le; reflexivity|].
  eapply US_store_at; [exact T2|apply Nat.leb_le; reflexivity|]. intros m3 T3.
  eapply (US_final m bs so src).
  match type of T3 with US _ _ _ _ _ _ ?x _ => match goal with |- US _ _ _ _ _ _ ?y _ => assert (E : x = y) end end.
  { unfold i16x8_get_lane7_ord, i32x4_get_lane3_ord. cbn [lo128 hi128 firstn skipn native_bytes of_native]. inv_bytes.
    rewrite !be_of_be by (try reflexivity; repeat (constructor; [assumption|]); constructor).
    cbn. rewrite ?Z.lor_0_r. reflexivity. }
  rewrite <- E. exact T3.
Qed.

Lemma uuid_format_hyphenated_be case src : length src = 16%nat ->
  encodes (fun p _ q _ => r <- uuid_format_hyphenated_ord BE p q case ;; ret (Ok r)) src (uuid_hyphenate (swapped (lut_of case) src)).
Proof.
  intros L m b o d e dlen [B H] R S. unfold room, separate in *.
  assert (LE : length (uuid_hyphenate (swapped (lut_of case) src)) = 36%nat) by (apply hyphenate_len; rewrite swapped_len; lia).
  rewrite LE. intro Ld. unfold uuid_format_hyphenated_ord.
  destruct (wp_inv _ _ _ (format_hyphenated_be case m b o src d e B L H ltac:(lia) ltac:(lia))) as (u & m' & E & A & F).
  exists m'. unfold bind. rewrite E. split; [reflexivity|]. rewrite LE in F. now split.
Qed.

Lemma hi_digits_len f t : bytes t -> (forall x, f t = Some x -> length x = 16%nat) -> forall x, hi_digits (f t) = Some x -> length x = 16%nat.
Proof. intros B H x. destruct (f t) as [u|]; [|discriminate]. intro E. injection E as <-. rewrite map_length. auto. Qed.

Lemma uuid_parse_hyphenated_be src : decodes (fun p n q _ => uuid_parse_hyphenated_ord BE p n q) src 16 (hi_digits (hyph_decode src)).
Proof.
  intros m b o d e dlen [B H] R S L. unfold room, separate in *. apply wp_inv.
  unfold uuid_parse_hyphenated_ord.
  assert (HN := hi_digits_len hyph_decode src B (fun x E => proj1 (hyph_spec_bytes src x B E))).
  destruct (Nat.eqb_spec (length src) 36) as [L36|N]; cbn [negb].
  - apply parsed; [exact HN|]. apply parse_hyphenated_be; auto; lia.
  - apply wp_ret. split; [apply Frame_refl|]. unfold hyph_decode. apply Nat.eqb_neq in N. now rewrite N.
Qed.

Lemma dec32_post m bs so src bd d0 : bytes src -> length src = 32%nat ->
  bytes_at m bs so src -> (d0 + 16 <= length (m bd))%nat -> (bs <> bd \/ so + 32 <= d0 \/ d0 + 16 <= so)%nat ->
  wp (dec32_ord BE (bs, so) (bd, d0)) (parse_post m bd d0 (hi_digits (rfc_hex_decode src))) m.
Proof.
  intros B L H R S. destruct (US_init m bs so src bd d0 16 H R) as (cs & Lc & T); [lia|]. unfold dec32_ord.
  apply wp_bind; eapply US_load; [exact T|lia|]. rewrite firstn_all2 by lia.
  lf (hex_decode_ascii32_be src L B). rewrite clear_low_be by auto. rewrite be_decode_block by auto.
  destruct (rfc_hex_decode src) as [y|] eqn:E; cbn [dec_result hi_digits].
  - eapply store16_post; [exact T|exact Lc|]. rewrite map_length. apply hex_decode_length in E. lia.
  - apply wp_ret. split; [apply Frame_refl|reflexivity].
Qed.

Lemma uuid_parse_be src : decodes (fun p n q _ => uuid_parse_ord BE p n q) src 16 (hi_digits (uuid_decode src)).
Proof.
  intros m b o d e dlen [B H] R S L. unfold room, separate in *. apply wp_inv.
  unfold uuid_parse_ord. assert (HN := hi_digits_len uuid_decode src B (fun x E => proj1 (uuid_spec_bytes src x B E))). unfold uuid_decode in *.
  destruct (Nat.eqb_spec (length src) 32) as [L32|_].
  { apply parsed; [exact HN|]. apply dec32_post; auto; lia. }
  apply wp_try.
  destruct (Nat.eqb_spec (length src) 36) as [L36|_].
  { apply wp_ret. apply parsed; [exact HN|]. apply parse_hyphenated_be; auto; lia. }
  destruct (Nat.eqb_spec (length src) 38) as [L38|_].
  { apply wp_bind. eapply wp_read; [exact H|lia|].
    destruct (nth 0 src 0 =? 123); cbn [negb andb]; [|apply wp_ret; split; [apply Frame_refl|reflexivity]].
    apply wp_bind. eapply wp_read; [exact H|lia|].
    destruct (nth 37 src 0 =? 125); cbn [negb andb]; [|apply wp_ret; split; [apply Frame_refl|reflexivity]].
    assert (HB := proj1 H). apply wp_bind, wp_padd; cbn [fst snd]; [lia|]. apply wp_ret. apply parsed; [exact HN|].
    assert (H' := bytes_at_firstn _ _ _ _ 36 (bytes_at_skipn m b o src 1 ltac:(lia) H)).
    apply parse_hyphenated_be; auto; try lia.
    - now apply bytes_firstn, bytes_skipn.
    - rewrite firstn_length, skipn_length. lia. }
  destruct (Nat.eqb_spec (length src) 45) as [L45|_].
  { apply wp_bind. eapply wp_load; [exact H|lia|]. unfold URN_PREFIX.
    destruct (list_eqb _ _); [|apply wp_ret; split; [apply Frame_refl|reflexivity]].
    assert (HB := proj1 H). apply wp_bind, wp_padd; cbn [fst snd]; [lia|]. apply wp_ret. apply parsed; [exact HN|].
    assert (H' := bytes_at_skipn m b o src 9 ltac:(lia) H).
    apply parse_hyphenated_be; auto; try lia.
    - now apply bytes_skipn.
    - rewrite skipn_length. lia. }
  apply wp_ret. split; [apply Frame_refl|reflexivity].
Qed.
