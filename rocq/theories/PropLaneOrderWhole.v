(** C79: the whole functions on AArch64 of either byte order (C75 is about their kernels). The checks are right on both; on big-endian
    hexadecimal and UUID functions exchange or lose digits in exactly the blocks that a vector handles, and base64 and base32 are wrong
    as soon as a vector is used. *)
From Coq Require Import ZArith List Bool Lia ZifyNat String.
From Verif Require Import Bytes Mem MemFacts Slices Codec Isa Simd Spec Ints Hex HexFacts HexApi Base64 Base64Ref Base64Api Forgiving ForgivingFacts
  Base32 Base32Ref Base32Api Uuid UuidApi SimdFacts HexSimdFacts Base64Facts Base64SimdFacts Base32SimdFacts LaneOrder LaneOrderFacts LaneOrderWhole LaneOrderWholeFacts
  LaneOrderUuid LaneOrderExact LaneOrderExactWhole LaneOrderForgiving PropLaneOrder.
Import ListNotations.
Open Scope list_scope. Open Scope Z_scope. Open Scope m_scope.
Ltac Zify.zify_post_hook ::= Z.div_mod_to_equations.

(** On little-endian AArch64 these are the functions of the other files. *)
Ltac same_prog := repeat first
  [ reflexivity
  | apply tryE; [|intros]
  | apply bindE; [|intros]
  | apply whileE; intros
  | apply whileresE; intros
  | apply liftE; apply C75_little_endian; fail
  | match goal with |- (match ?x with _ => _ end) _ = _ => destruct x end
  | match goal with |- (let '(_, _) := ?x in _) _ = _ => destruct x end ].
Theorem C79_little_endian : forall m p n q k case c64 c32,
  hex_encode_ord LE p n q k case m = hex_encode NEON64 p n q k case m /\
  hex_decode_ord LE p n q k m = hex_decode NEON64 p n q k m /\
  hex_decode_inplace_ord LE p n m = hex_decode_inplace NEON64 p n m /\
  uuid_parse_simple_ord LE p n q m = uuid_parse_simple NEON64 p n q m /\
  uuid_format_simple_ord LE p q case m = uuid_format_simple NEON64 p q case m /\
  uuid_parse_hyphenated_ord LE p n q m = uuid_parse_hyphenated NEON64 p n q m /\
  uuid_format_hyphenated_ord LE p q case m = uuid_format_hyphenated NEON64 p q case m /\
  uuid_parse_ord LE p n q m = uuid_parse NEON64 NEON64 p n q m /\
  b64_encode_ord LE c64 p n q k m = b64_encode NEON64 c64 p n q k m /\
  b64_decode_ord LE c64 p n q k m = b64_decode LE NEON64 c64 p n q k m /\
  b64_decode_inplace_ord LE c64 p n m = b64_decode_inplace LE NEON64 c64 p n m /\
  b64_check_ord LE c64 p n m = b64_check LE NEON64 c64 p n m /\
  forgiving_decode_ord LE p n q k m = forgiving_decode LE NEON64 NEON64 p n q k m /\
  forgiving_decode_inplace_ord LE p n m = forgiving_decode_inplace LE NEON64 NEON64 p n m /\
  b32_encode_ord LE c32 p n q k m = b32_encode (aarch64 LE) NEON64 c32 p n q k m /\
  b32_decode_ord LE c32 p n q k m = b32_decode (aarch64 LE) NEON64 c32 p n q k m /\
  b32_decode_inplace_ord LE c32 p n m = b32_decode_inplace (aarch64 LE) NEON64 c32 p n m /\
  b32_check_ord LE c32 p n m = b32_check (aarch64 LE) NEON64 c32 p n m.
Proof.
  intros m p n q k case c64 c32.
  assert (D16 : forall p q m, dec16_ord LE p q m = dec16 NEON64 p q m) by (intros; unfold dec16_ord, dec16; same_prog).
  assert (D32 : forall p q m, dec32_ord LE p q m = dec32 NEON64 p q m) by (intros; unfold dec32_ord, dec32; same_prog).
  assert (HD : forall p n q m, hex_decode_simd_ord LE p n q m = decode_simd_v128 NEON64 p n q m).
  { intros. unfold hex_decode_simd_ord, decode_simd_v128. repeat (apply D16 || apply D32 || same_prog). }
  assert (PH : forall p q m, parse_hyphenated_simd_ord LE p q m = parse_hyphenated_impl NEON64 p q m).
  { intros. unfold parse_hyphenated_simd_ord, parse_hyphenated_impl, parse_hyphenated_simd. cbv zeta. same_prog. }
  assert (BD : forall c p n q k m, b64_decode_ord LE c p n q k m = b64_decode LE NEON64 c p n q k m).
  { intros. unfold b64_decode_ord, b64_decode, b64_decode_impl, b64_decode_simd_ord, b64_decode_simd. same_prog. }
  assert (BI : forall c p n m, b64_decode_inplace_ord LE c p n m = b64_decode_inplace LE NEON64 c p n m).
  { intros. unfold b64_decode_inplace_ord, b64_decode_inplace, b64_decode_impl, b64_decode_simd_ord, b64_decode_simd. same_prog. }
  repeat apply conj.
  - unfold hex_encode_ord, hex_encode, hex_encode_impl, hex_encode_simd, hex_encode_simd_ord, encode_simd_v128. cbn [arch_x86 andb]. same_prog.
  - unfold hex_decode_ord, hex_decode, hex_decode_impl, hex_decode_simd. cbn [arch_x86 andb]. destruct (negb _); [reflexivity|]. apply tryE; auto.
  - unfold hex_decode_inplace_ord, hex_decode_inplace, hex_decode_impl, hex_decode_simd. cbn [arch_x86 andb]. destruct (negb _); [reflexivity|]. apply tryE; auto.
  - unfold uuid_parse_simple_ord, uuid_parse_simple, parse_simple_impl, parse_simple_simd. destruct (negb _); [reflexivity|]. apply tryE; [apply D32|auto].
  - unfold uuid_format_simple_ord, uuid_format_simple, format_simple_impl, format_simple_simd. same_prog.
  - unfold uuid_parse_hyphenated_ord, uuid_parse_hyphenated. destruct (negb _); [reflexivity|]. apply tryE; [apply PH|auto].
  - unfold uuid_format_hyphenated_ord, uuid_format_hyphenated, format_hyphenated_impl, format_hyphenated_simd_ord, format_hyphenated_simd.
    cbv zeta. same_prog.
  - unfold uuid_parse_ord, uuid_parse, parse_simple_impl, parse_simple_simd. cbn [is_isa_type].
    destruct (n =? 32)%nat; [apply tryE; [apply D32|auto]|]. apply tryE; [reflexivity|]. intros. apply tryE; [apply PH|auto].
  - unfold b64_encode_ord, b64_encode, b64_encode_impl, b64_encode_simd_ord, b64_encode_simd. same_prog.
  - apply BD.
  - apply BI.
  - unfold b64_check_ord, b64_check, b64_check_impl, b64_check_simd_ord, b64_check_simd. same_prog.
  - unfold forgiving_decode_ord, forgiving_decode. repeat (apply BD || apply BI || same_prog).
  - unfold forgiving_decode_inplace_ord, forgiving_decode_inplace. repeat (apply BI || same_prog).
  - unfold b32_encode_ord, b32_encode, b32_encode_impl, b32_encode_simd_ord, b32_encode_simd. same_prog.
  - unfold b32_decode_ord, b32_decode, b32_decode_impl, b32_decode_simd_ord, b32_decode_simd. same_prog.
  - unfold b32_decode_inplace_ord, b32_decode_inplace, b32_decode_impl, b32_decode_simd_ord, b32_decode_simd. same_prog.
  - unfold b32_check_ord, b32_check, b32_check_impl, b32_check_simd_ord, b32_check_simd. same_prog.
Qed.
Print Assumptions C79_little_endian.

(** *** What is right on both *)

(** Checking base64: Ok exactly when decoding succeeds; without the forgiving variant, exactly for the encodings of RFC 4648. *)
Theorem C79_base64_check : forall en cfg src,
  checks (b64_check_ord en cfg) src (match b64_dec cfg src with Some _ => true | None => false end).
Proof. exact b64_check_ord_ok. Qed.
Print Assumptions C79_base64_check.
Theorem C79_base64_check_exact : forall en cfg src m b o, b64_extra_of cfg <> Forgiving -> slice m b o src ->
  exists r m', b64_check_ord en cfg (b, o) (List.length src) m = Ret r m' /\ same_mem m m' /\
    (r = Ok tt <-> exists x, bytes x /\ b64_rfc cfg x = src).
Proof.
  intros en cfg src m b o St H. destruct (b64_check_ord_ok en cfg src m b o H) as (m' & E & F). do 2 eexists. split; [exact E|]. split; [exact F|].
  destruct (b64_dec cfg src) as [x|] eqn:D.
  - split; [|reflexivity]. intros _. exists x. apply b64_dec_strict; [apply H|exact St|exact D].
  - split; [discriminate|]. intros (x & Hx). apply b64_dec_strict in Hx; [congruence|apply H|exact St].
Qed.
Print Assumptions C79_base64_check_exact.
Theorem C79_base32_check : forall en cfg src m b o, slice m b o src ->
  exists r m', b32_check_ord en cfg (b, o) (List.length src) m = Ret r m' /\ same_mem m m' /\
    (r = Ok tt <-> exists x, bytes x /\ b32_rfc cfg x = src).
Proof.
  intros en cfg src m b o H. destruct (b32_check_ord_ok en cfg src m b o H) as (m' & E & F).
  destruct (b32_check_exact (aarch64 LE) Fallback cfg src m b o (or_introl eq_refl) H) as (r & m2 & E2 & _ & I).
  destruct (b32_check_ok (aarch64 LE) Fallback cfg src (or_introl eq_refl) m b o H) as (m3 & E3 & _). rewrite E2 in E3. injection E3 as -> _.
  eauto.
Qed.
Print Assumptions C79_base32_check.

(** Inputs too short for a vector: the portable code runs, which is right on both orders (C01, C03, C24, C25). *)
Theorem C79_base64_short : forall en cfg p n q k m,
  ((n < 16)%nat -> b64_encode_ord en cfg p n q k m = b64_encode Fallback cfg p n q k m) /\
  ((n < 38)%nat -> b64_decode_ord en cfg p n q k m = b64_decode en Fallback cfg p n q k m).
Proof.
  intros en cfg p n q k m. split; intro L.
  - unfold b64_encode_ord, b64_encode, b64_encode_impl, b64_encode_simd_ord. destruct (negb _); [reflexivity|].
    apply bindE; [|reflexivity]. destruct (Nat.leb_spec (6 + 24 + 4) n) as [G|_]; [lia|]. unfold bind at 1. cbn [ret].
    destruct (Nat.leb_spec (12 + 4) n) as [G|_]; [lia|]. reflexivity.
  - unfold b64_decode_ord, b64_decode. unfold try_ at 1 3, bind at 1 2.
    destruct (b64_decoded_length p n cfg m) as [[nm|] m'| | |] eqn:E; try reflexivity. apply b64_decoded_length_le in E.
    destruct (negb _); [reflexivity|]. apply tryE; [|reflexivity]. cbn [b64_decode_impl]. unfold b64_decode_simd_ord.
    unfold try_, bind at 1. cbn [while_res snd]. destruct (Nat.leb_spec 38 (fst nm)) as [G|_]; [lia|]. reflexivity.
Qed.
Print Assumptions C79_base64_short.
Theorem C79_base32_short : forall en cfg p n q k m,
  ((n < 36)%nat -> b32_encode_ord en cfg p n q k m = b32_encode (aarch64 en) Fallback cfg p n q k m) /\
  ((n < 42)%nat -> b32_decode_ord en cfg p n q k m = b32_decode (aarch64 en) Fallback cfg p n q k m).
Proof.
  intros en cfg p n q k m. split; intro L.
  - unfold b32_encode_ord, b32_encode, b32_encode_impl, b32_encode_simd_ord. destruct (negb _); [reflexivity|].
    apply bindE; [|reflexivity]. destruct (Nat.leb_spec (10 + 20 + 6) n) as [G|_]; [lia|]. reflexivity.
  - unfold b32_decode_ord, b32_decode. unfold try_ at 1 3, bind at 1 2.
    destruct (b32_decoded_length p n (b32_padding cfg) m) as [[nm|] m'| | |] eqn:E; try reflexivity. apply b32_decoded_length_le in E.
    destruct (negb _); [reflexivity|]. apply tryE; [|reflexivity]. cbn [b32_decode_impl]. unfold b32_decode_simd_ord.
    unfold try_, bind at 1. cbn [while_res snd]. destruct (Nat.leb_spec 42 (fst nm)) as [G|_]; [lia|]. reflexivity.
Qed.
Print Assumptions C79_base32_short.

(** *** Hexadecimal on big-endian *)

(** Encoding: the two digits of every byte in a full block of 16 are exchanged, the rest is right. *)
Theorem C79_hex_encode_big_endian : forall case src,
  encodes (fun p n q k => hex_encode_ord BE p n q k case) src
    (let k := (List.length src / 16 * 16)%nat in
     flat_map (fun b => [nth (Z.to_nat (b mod 16)) (alphabet_of case) 0; nth (Z.to_nat (b / 16)) (alphabet_of case) 0]) (firstn k src) ++
     rfc_hex_encode (alphabet_of case) (skipn k src)).
Proof.
  intros case src. cbn zeta. assert (E := hex_encode_be_ok case src). unfold hex_be_encode in E. cbn zeta in E.
  assert (F : forall cs l, swapped cs l = flat_map (fun b => [nth (Z.to_nat (b mod 16)) cs 0; nth (Z.to_nat (b / 16)) cs 0]) l).
  { intros cs l. induction l as [|a l IH]; [reflexivity|]. cbn [swapped flat_map app]. now rewrite IH. }
  rewrite F in E. now destruct case.
Qed.
Print Assumptions C79_hex_encode_big_endian.

(** Decoding: the same texts are accepted; the bytes of full blocks of 16 digits lose their low digit, the rest is right. *)
Theorem C79_hex_decode_big_endian : forall src,
  decodes (hex_decode_ord BE) src (List.length src / 2)
    (match rfc_hex_decode src with
     | Some x => let k := (List.length src / 16 * 8)%nat in Some (map (fun b => 16 * (b / 16)) (firstn k x) ++ skipn k x)
     | None => None
     end).
Proof. exact hex_decode_be_ok. Qed.
Print Assumptions C79_hex_decode_big_endian.
Theorem C79_hex_decode_inplace_big_endian : forall data,
  decodes_inplace (hex_decode_inplace_ord BE) data (List.length data / 2)
    (match rfc_hex_decode data with
     | Some x => let k := (List.length data / 16 * 8)%nat in Some (map (fun b => 16 * (b / 16)) (firstn k x) ++ skipn k x)
     | None => None
     end).
Proof. exact hex_decode_inplace_be_ok. Qed.
Print Assumptions C79_hex_decode_inplace_big_endian.

(** UUIDs in the simple form *)
Theorem C79_uuid_big_endian : forall case u t, List.length u = 16%nat ->
  encodes (fun p _ q _ => r <- uuid_format_simple_ord BE p q case ;; ret (Ok r)) u
    (flat_map (fun b => [nth (Z.to_nat (b mod 16)) (alphabet_of case) 0; nth (Z.to_nat (b / 16)) (alphabet_of case) 0]) u) /\
  decodes (fun p n q _ => uuid_parse_simple_ord BE p n q) t 16
    (if (List.length t =? 32)%nat then match rfc_hex_decode t with Some u => Some (map (fun b => 16 * (b / 16)) u) | None => None end else None).
Proof.
  intros case u t L. split; [|exact (uuid_parse_simple_be t)].
  assert (F : forall cs l, swapped cs l = flat_map (fun b => [nth (Z.to_nat (b mod 16)) cs 0; nth (Z.to_nat (b / 16)) cs 0]) l).
  { intros cs l. induction l as [|a l IH]; [reflexivity|]. cbn [swapped flat_map app]. now rewrite IH. }
  rewrite <- F. assert (E := uuid_format_simple_be case u L). now destruct case.
Qed.
Print Assumptions C79_uuid_big_endian.

(** UUIDs with hyphens: the two lanes that are read and written as numbers of the target keep their bytes, so the digits are wrong in
    the same way and the hyphens are right. *)
Theorem C79_uuid_format_hyphenated_big_endian : forall case u, List.length u = 16%nat ->
  encodes (fun p _ q _ => r <- uuid_format_hyphenated_ord BE p q case ;; ret (Ok r)) u
    (uuid_hyphenate (flat_map (fun b => [nth (Z.to_nat (b mod 16)) (alphabet_of case) 0; nth (Z.to_nat (b / 16)) (alphabet_of case) 0]) u)).
Proof.
  intros case u L.
  assert (F : forall cs l, swapped cs l = flat_map (fun b => [nth (Z.to_nat (b mod 16)) cs 0; nth (Z.to_nat (b / 16)) cs 0]) l).
  { intros cs l. induction l as [|a l IH]; [reflexivity|]. cbn [swapped flat_map app]. now rewrite IH. }
  rewrite <- F. assert (E := uuid_format_hyphenated_be case u L). now destruct case.
Qed.
Print Assumptions C79_uuid_format_hyphenated_big_endian.
(** Parsing accepts the texts it should, in all four forms, and every byte loses its low digit. *)
Lemma hi_digits_exactly (o : option (list Z)) P : exactly o P ->
  exactly (hi_digits o) (fun x => exists u, P u /\ x = map (fun b => 16 * (b / 16)) u).
Proof.
  intros E x. destruct o as [u|]; cbn [hi_digits]; split.
  - intro H. injection H as <-. exists u. split; [now apply E|reflexivity].
  - intros (u' & H & ->). apply E in H. injection H as <-. reflexivity.
  - discriminate.
  - intros (u' & H & _). apply E in H. discriminate.
Qed.
Theorem C79_uuid_parse_big_endian : forall t,
  decode_exact (fun p n q _ => uuid_parse_ord BE p n q) t 16 (fun x => exists u, uuid_text t u /\ x = map (fun b => 16 * (b / 16)) u).
Proof. intro t. eapply exact_decode; [apply uuid_parse_be|]. intros _. apply hi_digits_exactly, uuid_exactly. Qed.
Print Assumptions C79_uuid_parse_big_endian.
Theorem C79_uuid_parse_hyphenated_big_endian : forall t,
  decode_exact (fun p n q _ => uuid_parse_hyphenated_ord BE p n q) t 16
    (fun x => exists u, uuid_text_hyphenated t u /\ x = map (fun b => 16 * (b / 16)) u).
Proof. intro t. eapply exact_decode; [apply uuid_parse_hyphenated_be|]. intros _. apply hi_digits_exactly, hyph_exactly. Qed.
Print Assumptions C79_uuid_parse_hyphenated_big_endian.

(** *** base64 and base32 on big-endian *)
Lemma encodes_bytes f src t u : (bytes src -> t = u) -> encodes f src t -> encodes f src u.
Proof. intros E H m b o d e n S. assert (B : bytes src) by apply S. rewrite <- (E B). now apply H. Qed.
Lemma inplace_bytes f src n t u : (bytes src -> t = u) -> decodes_inplace f src n t -> decodes_inplace f src n u.
Proof. intros E H m b o S. assert (B : bytes src) by apply S. rewrite <- (E B). now apply H. Qed.
Lemma decodes_bytes f src n t u : (bytes src -> t = u) -> decodes f src n t -> decodes f src n u.
Proof. intros E H m b o d e l S. assert (B : bytes src) by apply S. rewrite <- (E B). now apply H. Qed.

(** base64 encoding. [h] bytes before the vectors are right; the [v] bytes that vectors handle give the digits of the little-endian
    numbers (C75_base64_encode_big_endian); the rest is right. *)
Theorem C79_base64_encode_big_endian : forall cfg src,
  encodes (b64_encode_ord BE cfg) src
    (let n := List.length src in
     let h := if (34 <=? n)%nat then 6%nat else 0%nat in
     let k := if (34 <=? n)%nat then ((n - 10) / 24 * 24)%nat else 0%nat in
     let v := (k + (if (16 <=? n - h - k)%nat then 12 else 0))%nat in
     b64_rfc cfg (firstn h src) ++
     map (fun d => nth (Z.to_nat d) (b64_alphabet (b64_kind_of cfg)) 0) (le_digits (firstn v (skipn h src))) ++
     b64_rfc cfg (skipn v (skipn h src))).
Proof.
  intros [kd x] src. eapply encodes_bytes; [|apply b64_encode_be_ok]. intro B. cbn [b64_kind_of b64_extra_of]. cbn zeta.
  unfold b64_rfc. cbn [b64_kind_of b64_extra_of].
  rewrite <- !b64e_rfc, <- le_digits_ok, <- charset_alphabet by (repeat (apply bytes_firstn || apply bytes_skipn); exact B).
  fold (b64_chars kd (lsextets (firstn (((if (34 <=? List.length src)%nat then (List.length src - 10) / 24 * 24 else 0) +
     (if (16 <=? List.length src - (if (34 <=? List.length src)%nat then 6 else 0) - (if (34 <=? List.length src)%nat then (List.length src - 10) / 24 * 24 else 0))%nat then 12 else 0))%nat)
     (skipn (if (34 <=? List.length src)%nat then 6%nat else 0%nat) src)))).
  unfold be64. destruct (Nat.leb_spec 34 (List.length src)) as [G|G].
  - f_equal. unfold be64_mid, be64_cut, be64_t, be64_j. cbn zeta. rewrite skipn_length.
    replace (List.length src - 6 - 4)%nat with (List.length src - 10)%nat by lia. reflexivity.
  - unfold be64_tail, be64_cut, be64_t. cbn [firstn skipn b64e b64_tail app Nat.add]. rewrite !Nat.sub_0_r. reflexivity.
Qed.
Print Assumptions C79_base64_encode_big_endian.

(** base64 decoding. The same texts are accepted. Of the right bytes [x], whose text has [t] characters without padding, the first
    [24 ((t - 6) / 32)] are replaced by what vectors make of their digits (C75_base64_decode_big_endian); the rest is right. *)
Lemma garble3_ok l : (List.length l mod 3 = 0)%nat -> bytes l -> garble3 l = drop_low (rfc_values 6 l).
Proof.
  induction l as [|a|a b|a b c r IH] using list_ind3; intros L B; try discriminate L; [reflexivity|]. inv_bytes.
  rewrite rfc_values6_3 by assumption. cbn [garble3]. rewrite IH; [|cbn [List.length] in L; lia|assumption].
  unfold sext, btrip, byte in *. cbn [app drop_low]. cbn zeta. f_equal; [lia|]. f_equal; lia.
Qed.
Lemma b64_be_dec_ok cfg src : bytes src -> b64_be_dec cfg src =
    (match b64_dec cfg src with
     | Some x => let t := ((4 * List.length x + 2) / 3)%nat in
                 let j := (24 * ((t - 6) / 32))%nat in
                 Some (drop_low (rfc_values 6 (firstn j x)) ++ skipn j x)
     | None => None
     end).
Proof.
  intro B. assert (BX := fun x => b64_dec_facts cfg src x B).
  unfold b64_be_dec, be64d, b64_dec in *. destruct (b64_unpad _ src) as [t|]; [|reflexivity].
  destruct (b64d _ _ t) as [x|] eqn:D; [|reflexivity]. cbn zeta. destruct (BX x eq_refl) as [_ Bx].
  assert (L := b64d_len _ _ _ _ D). assert (N : (List.length t mod 4 <> 1)%nat) by (intro N; rewrite b64d_mod1 in D by exact N; discriminate).
  replace ((4 * List.length x + 2) / 3)%nat with (List.length t) by (rewrite L; unfold b64_dl; lia).
  fold (be64d_j (List.length t)). rewrite garble3_ok; [reflexivity| |now apply bytes_firstn].
  rewrite firstn_length_le by (rewrite L; unfold b64_dl, be64d_j; lia). unfold be64d_j. lia.
Qed.
Theorem C79_base64_decode_big_endian : forall cfg src,
  decodes (b64_decode_ord BE cfg) src (b64_need cfg src)
    (match b64_dec cfg src with
     | Some x => let t := ((4 * List.length x + 2) / 3)%nat in
                 let j := (24 * ((t - 6) / 32))%nat in
                 Some (drop_low (rfc_values 6 (firstn j x)) ++ skipn j x)
     | None => None
     end).
Proof. intros cfg src. eapply decodes_bytes; [apply b64_be_dec_ok|apply b64_decode_be_ok]. Qed.
Print Assumptions C79_base64_decode_big_endian.
Theorem C79_base64_decode_inplace_big_endian : forall cfg data,
  decodes_inplace (b64_decode_inplace_ord BE cfg) data (b64_need cfg data)
    (match b64_dec cfg data with
     | Some x => let t := ((4 * List.length x + 2) / 3)%nat in
                 let j := (24 * ((t - 6) / 32))%nat in
                 Some (drop_low (rfc_values 6 (firstn j x)) ++ skipn j x)
     | None => None
     end).
Proof. intros cfg data. eapply inplace_bytes; [apply b64_be_dec_ok|apply b64_decode_inplace_be_ok]. Qed.
Print Assumptions C79_base64_decode_inplace_big_endian.

(** Forgiving decoding accepts the texts of the WHATWG standard; the result is wrong in the same places. *)
Lemma forgiving_be_ok src : bytes src -> b64_be_dec STANDARD_FORGIVING (strip_whitespace src) =
    (match whatwg_forgiving_decode src with
     | Some x => let t := ((4 * List.length x + 2) / 3)%nat in
                 let j := (24 * ((t - 6) / 32))%nat in
                 Some (drop_low (rfc_values 6 (firstn j x)) ++ skipn j x)
     | None => None
     end).
Proof. intro B. rewrite b64_be_dec_ok by now apply strip_bytes. now rewrite forgiving_spec. Qed.
Theorem C79_forgiving_decode_big_endian : forall src,
  decodes (forgiving_decode_ord BE) src (List.length src)
    (match whatwg_forgiving_decode src with
     | Some x => let t := ((4 * List.length x + 2) / 3)%nat in
                 let j := (24 * ((t - 6) / 32))%nat in
                 Some (drop_low (rfc_values 6 (firstn j x)) ++ skipn j x)
     | None => None
     end).
Proof. intro src. eapply decodes_bytes; [apply forgiving_be_ok|apply forgiving_be]. Qed.
Print Assumptions C79_forgiving_decode_big_endian.
Theorem C79_forgiving_decode_inplace_big_endian : forall data,
  decodes_inplace (forgiving_decode_inplace_ord BE) data (List.length data)
    (match whatwg_forgiving_decode data with
     | Some x => let t := ((4 * List.length x + 2) / 3)%nat in
                 let j := (24 * ((t - 6) / 32))%nat in
                 Some (drop_low (rfc_values 6 (firstn j x)) ++ skipn j x)
     | None => None
     end).
Proof. intro data. eapply inplace_bytes; [apply forgiving_be_ok|apply forgiving_inplace_be]. Qed.
Print Assumptions C79_forgiving_decode_inplace_big_endian.

(** base32 encoding, with the digits of C75_base32_encode_big_endian *)
Theorem C79_base32_encode_big_endian : forall cfg src,
  encodes (b32_encode_ord BE cfg) src
    (let n := List.length src in
     let h := if (36 <=? n)%nat then 10%nat else 0%nat in
     let v := if (36 <=? n)%nat then ((n - 16) / 20 * 20)%nat else 0%nat in
     b32_rfc cfg (firstn h src) ++
     map (fun d => nth (Z.to_nat d) (b32_alphabet (b32_kind_of cfg)) 0) (field_digits (firstn v (skipn h src))) ++
     b32_rfc cfg (skipn v (skipn h src))).
Proof.
  intros [kd x] src. eapply encodes_bytes; [|apply b32_encode_be_ok]. intro B. cbn [b32_kind_of b32_padding]. cbn zeta.
  unfold b32_rfc. cbn [b32_kind_of b32_padding].
  rewrite <- !b32e_rfc, <- field_digits_ok, <- b32_charset_alphabet by (repeat (apply bytes_firstn || apply bytes_skipn); exact B).
  unfold be32. destruct (Nat.leb_spec 36 (List.length src)) as [G|G].
  - f_equal. unfold be32_mid, be32_j. cbn zeta. rewrite skipn_length.
    replace (List.length src - 10 - 6)%nat with (List.length src - 16)%nat by lia. reflexivity.
  - reflexivity.
Qed.
Print Assumptions C79_base32_encode_big_endian.

(** base32 decoding, with the bytes of C75_base32_decode_big_endian *)
Lemma garble5_ok l : (List.length l mod 5 = 0)%nat -> bytes l -> garble5 l = field_bytes (rfc_values 5 l).
Proof.
  induction l as [l H|a b c d e r IH] using list_ind5; intros L B.
  - rewrite Nat.mod_small in L by exact H. destruct l; [reflexivity|discriminate L].
  - inv_bytes. rewrite rfc_values5_5 by assumption. cbn [garble5]. rewrite IH; [|cbn [List.length] in L; lia|assumption].
    unfold oct, bquint, byte in *. cbn [app field_bytes le_bytes].
    change (2 ^ 6) with 64. change (2 ^ 12) with 4096. change (2 ^ 23) with 8388608. change (2 ^ 29) with 536870912.
    f_equal; [lia|]. f_equal; [lia|]. f_equal; [lia|]. f_equal; [lia|]. f_equal. lia.
Qed.
Lemma b32_be_dec_ok cfg src : bytes src -> b32_be_dec cfg src =
    (match b32_dec cfg src with
     | Some x => let t := ((8 * List.length x + 4) / 5)%nat in
                 let j := (20 * ((t - 10) / 32))%nat in
                 Some (field_bytes (rfc_values 5 (firstn j x)) ++ skipn j x)
     | None => None
     end).
Proof.
  intro B. assert (BX := fun x => b32_dec_facts cfg src x B).
  unfold b32_be_dec, be32d, b32_dec in *. destruct (b32_unpad _ src) as [t|]; [|reflexivity].
  destruct (b32d _ t) as [x|] eqn:D; [|reflexivity]. cbn zeta. destruct (BX x eq_refl) as [_ Bx].
  assert (L := b32d_len _ _ _ D). assert (N : b32_len_ok (List.length t) = true).
  { destruct (b32_len_ok (List.length t)) eqn:N; [reflexivity|]. rewrite b32d_bad_len in D by exact N. discriminate. }
  replace ((8 * List.length x + 4) / 5)%nat with (List.length t).
  2:{ rewrite L. unfold b32_dl, b32_len_ok in *. clear - N. generalize (Nat.div_mod (List.length t) 8 ltac:(lia)).
      assert (M := Nat.mod_upper_bound (List.length t) 8 ltac:(lia)). intro E.
      destruct (List.length t mod 8)%nat as [|[|[|[|[|[|[|[|]]]]]]]]; try discriminate N; lia. }
  fold (be32d_j (List.length t)). rewrite garble5_ok; [reflexivity| |now apply bytes_firstn].
  rewrite firstn_length_le by (rewrite L; unfold b32_dl, be32d_j; lia). unfold be32d_j. lia.
Qed.
Theorem C79_base32_decode_big_endian : forall cfg src,
  decodes (b32_decode_ord BE cfg) src (b32_need cfg src)
    (match b32_dec cfg src with
     | Some x => let t := ((8 * List.length x + 4) / 5)%nat in
                 let j := (20 * ((t - 10) / 32))%nat in
                 Some (field_bytes (rfc_values 5 (firstn j x)) ++ skipn j x)
     | None => None
     end).
Proof. intros cfg src. eapply decodes_bytes; [apply b32_be_dec_ok|apply b32_decode_be_ok]. Qed.
Print Assumptions C79_base32_decode_big_endian.
Theorem C79_base32_decode_inplace_big_endian : forall cfg data,
  decodes_inplace (b32_decode_inplace_ord BE cfg) data (b32_need cfg data)
    (match b32_dec cfg data with
     | Some x => let t := ((8 * List.length x + 4) / 5)%nat in
                 let j := (20 * ((t - 10) / 32))%nat in
                 Some (field_bytes (rfc_values 5 (firstn j x)) ++ skipn j x)
     | None => None
     end).
Proof. intros cfg data. eapply inplace_bytes; [apply b32_be_dec_ok|apply b32_decode_inplace_be_ok]. Qed.
Print Assumptions C79_base32_decode_inplace_big_endian.

(** *** So the encodings are wrong on big-endian: no function of the four crates that encodes or decodes meets its specification. *)
Definition show {A} (r : res A) (b : nat) : option (A * list cell) := match r with Ret a m => Some (a, m b) | _ => None end.
Lemma not_encodes (f : codec) src t n : bytes src -> List.length t = n ->
  show (f (0, 0)%nat (List.length src) (1, 0)%nat n (mem_of [cells src; uninit n])) 1 <> Some (Ok ((1, 0)%nat, n), cells t) ->
  ~ encodes f src t.
Proof.
  intros B L N H. apply N.
  destruct (H (mem_of [cells src; uninit n]) 0%nat 0%nat 1%nat 0%nat n) as (m' & E & P & F).
  - now apply slice_whole.
  - unfold room, mem_of, uninit. cbn. now rewrite repeat_length.
  - left. discriminate.
  - lia.
  - rewrite E. unfold show. rewrite L. do 2 f_equal. destruct F as (_ & F & _). destruct P as [P1 P2].
    assert (L1 : List.length (m' 1%nat) = n) by (rewrite F; unfold mem_of, uninit; cbn; now rewrite repeat_length).
    rewrite L in P2. cbn [skipn] in P2. rewrite <- L1, firstn_all in P2. exact P2.
Qed.
Lemma not_decodes (f : codec) src n x : bytes src -> List.length x = n ->
  show (f (0, 0)%nat (List.length src) (1, 0)%nat n (mem_of [cells src; uninit n])) 1 <> Some (Ok ((1, 0)%nat, n), cells x) ->
  ~ decodes f src n (Some x).
Proof.
  intros B L N H. apply N.
  destruct (H (mem_of [cells src; uninit n]) 0%nat 0%nat 1%nat 0%nat n) as (r & m' & E & F & -> & P).
  - now apply slice_whole.
  - unfold room, mem_of, uninit. cbn. now rewrite repeat_length.
  - left. discriminate.
  - lia.
  - rewrite E. unfold show. rewrite L. do 2 f_equal. destruct F as (_ & F & _). destruct P as [P1 P2].
    assert (L1 : List.length (m' 1%nat) = n) by (rewrite F; unfold mem_of, uninit; cbn; now rewrite repeat_length).
    rewrite L in P2. cbn [skipn] in P2. rewrite <- L1, firstn_all in P2. exact P2.
Qed.
Definition count (n : nat) : list Z := map Z.of_nat (seq 0 n).
Lemma bytes_b (l : list Z) : forallb (fun z => (0 <=? z) && (z <? 256)) l = true -> bytes l.
Proof. intro H. rewrite forallb_forall in H. apply Forall_forall. intros z I. specialize (H z I). apply andb_prop in H as [H1 H2]. apply Z.leb_le in H1. apply Z.ltb_lt in H2. now split. Qed.

Theorem C79_hex_encode_refuted : exists src, bytes src /\
  ~ encodes (fun p n q k => hex_encode_ord BE p n q k Lower) src (rfc_hex_encode (alphabet_of Lower) src).
Proof.
  exists (count 16). split; [now apply bytes_b|]. apply (not_encodes _ _ _ 32); [now apply bytes_b|reflexivity|].
  vm_compute. discriminate.
Qed.
Print Assumptions C79_hex_encode_refuted.
Theorem C79_hex_decode_refuted : exists src, bytes src /\
  ~ decodes (hex_decode_ord BE) (rfc_hex_encode (alphabet_of Lower) src) (List.length src) (Some src).
Proof.
  exists (count 8). split; [now apply bytes_b|]. apply (not_decodes _ _ 8); [now apply bytes_b|reflexivity|].
  vm_compute. discriminate.
Qed.
Print Assumptions C79_hex_decode_refuted.
Theorem C79_base64_encode_refuted : exists src, bytes src /\
  ~ encodes (b64_encode_ord BE STANDARD) src (b64_rfc STANDARD src).
Proof.
  exists (count 16). split; [now apply bytes_b|]. apply (not_encodes _ _ _ 24); [now apply bytes_b|reflexivity|].
  vm_compute. discriminate.
Qed.
Print Assumptions C79_base64_encode_refuted.
Theorem C79_base64_decode_refuted : exists src, bytes src /\
  ~ decodes (b64_decode_ord BE STANDARD) (b64_rfc STANDARD src) (List.length src) (Some src).
Proof.
  exists (count 30). split; [now apply bytes_b|]. apply (not_decodes _ _ 30); [now apply bytes_b|reflexivity|].
  vm_compute. discriminate.
Qed.
Print Assumptions C79_base64_decode_refuted.
Theorem C79_base32_encode_refuted : exists src, bytes src /\
  ~ encodes (b32_encode_ord BE BASE32) src (b32_rfc BASE32 src).
Proof.
  exists (count 36). split; [now apply bytes_b|]. apply (not_encodes _ _ _ 64); [now apply bytes_b|reflexivity|].
  vm_compute. discriminate.
Qed.
Print Assumptions C79_base32_encode_refuted.
Theorem C79_base32_decode_refuted : exists src, bytes src /\
  ~ decodes (b32_decode_ord BE BASE32) (b32_rfc BASE32 src) (List.length src) (Some src).
Proof.
  exists (count 30). split; [now apply bytes_b|]. apply (not_decodes _ _ 30); [now apply bytes_b|reflexivity|].
  vm_compute. discriminate.
Qed.
Print Assumptions C79_base32_decode_refuted.

(** Non-vacuity: what the functions give on concrete inputs, in both orders. *)
Definition run_on (f : codec) (src : list Z) (n : nat) : option (result (ptr * nat) * list cell) :=
  show (f (0, 0)%nat (List.length src) (1, 0)%nat n (mem_of [cells src; uninit n])) 1.
Example C79_hex_ex :
  run_on (fun p n q k => hex_encode_ord LE p n q k Lower) (count 18) 36 = Some (Ok ((1, 0)%nat, 36%nat), cells (rfc_hex_encode (alphabet_of Lower) (count 18))) /\
  run_on (fun p n q k => hex_encode_ord BE p n q k Lower) (count 18) 36
    = Some (Ok ((1, 0)%nat, 36%nat), cells (str "00102030405060708090a0b0c0d0e0f01011"%string)) /\
  run_on (hex_decode_ord LE) (rfc_hex_encode (alphabet_of Lower) (count 9)) 9 = Some (Ok ((1, 0)%nat, 9%nat), cells (count 9)) /\
  run_on (hex_decode_ord BE) (rfc_hex_encode (alphabet_of Lower) (map (fun x => 17 * x) (count 9))) 9
    = Some (Ok ((1, 0)%nat, 9%nat), cells [0; 16; 32; 48; 64; 80; 96; 112; 136]).
Proof. vm_compute. auto. Qed.
Example C79_uuid_ex :
  run_on (fun p _ q _ => r <- uuid_format_hyphenated_ord LE p q Lower ;; ret (Ok r)) (count 16) 36
    = Some (Ok ((1, 0)%nat, 36%nat), cells (str "00010203-0405-0607-0809-0a0b0c0d0e0f"%string)) /\
  run_on (fun p _ q _ => r <- uuid_format_hyphenated_ord BE p q Lower ;; ret (Ok r)) (count 16) 36
    = Some (Ok ((1, 0)%nat, 36%nat), cells (str "00102030-4050-6070-8090-a0b0c0d0e0f0"%string)) /\
  run_on (fun p n q _ => uuid_parse_ord LE p n q) (str "{10213243-5465-7687-98a9-bacbdcedfe0f}"%string) 16
    = Some (Ok ((1, 0)%nat, 16%nat), cells [16; 33; 50; 67; 84; 101; 118; 135; 152; 169; 186; 203; 220; 237; 254; 15]) /\
  run_on (fun p n q _ => uuid_parse_ord BE p n q) (str "{10213243-5465-7687-98a9-bacbdcedfe0f}"%string) 16
    = Some (Ok ((1, 0)%nat, 16%nat), cells [16; 32; 48; 64; 80; 96; 112; 128; 144; 160; 176; 192; 208; 224; 240; 0]) /\
  run_on (fun p n q _ => uuid_parse_ord BE p n q) (str "urn:uuid:10213243-5465-7687-98a9-bacbdcedfe0g"%string) 16 = Some (Err, uninit 16).
Proof. vm_compute. auto. Qed.
Example C79_base64_ex :
  run_on (b64_encode_ord LE STANDARD) (count 16) 24 = Some (Ok ((1, 0)%nat, 24%nat), cells (b64_rfc STANDARD (count 16))) /\
  run_on (b64_encode_ord BE STANDARD) (count 15) 20 = Some (Ok ((1, 0)%nat, 20%nat), cells (b64_rfc STANDARD (count 15))) /\
  run_on (b64_decode_ord LE STANDARD) (b64_rfc STANDARD (count 30)) 30 = Some (Ok ((1, 0)%nat, 30%nat), cells (count 30)).
Proof. vm_compute. auto. Qed.
Example C79_base32_ex :
  run_on (b32_encode_ord LE BASE32) (count 36) 64 = Some (Ok ((1, 0)%nat, 64%nat), cells (b32_rfc BASE32 (count 36))) /\
  run_on (b32_encode_ord BE BASE32) (count 35) 56 = Some (Ok ((1, 0)%nat, 56%nat), cells (b32_rfc BASE32 (count 35))) /\
  run_on (b32_decode_ord LE BASE32) (b32_rfc BASE32 (count 30)) 30 = Some (Ok ((1, 0)%nat, 30%nat), cells (count 30)).
Proof. vm_compute. auto. Qed.
Example C79_big_endian_ex :
  run_on (b64_encode_ord BE STANDARD) (count 50) 68 = Some (Ok ((1, 0)%nat, 68%nat), cells (str "AAECAwQFGcACJowCM0gDPARESMBFVYxFYkhGbwRHe8BIhIyIkUiJngSKKissLS4vMDE="%string)) /\
  run_on (b64_decode_ord BE STANDARD) (b64_rfc STANDARD (repeat 200 31)) 31 = Some (Ok ((1, 0)%nat, 31%nat), cells
    [51; 34; 0; 51; 34; 0; 51; 34; 0; 51; 34; 0; 51; 34; 0; 51; 34; 0; 51; 34; 0; 51; 34; 0; 200; 200; 200; 200; 200; 200; 200]) /\
  run_on (b32_encode_ord BE BASE32) (count 41) 72 = Some (Ok ((1, 0)%nat, 72%nat), cells (str "AAAQEAYEAUDAOCAJMBAGD2NQACRIEESYUCBLFOXAIDRNGY4IDYPSAIJCEMSCKJRHFA======"%string)) /\
  run_on (b32_decode_ord BE BASE32) (b32_rfc BASE32 (repeat 200 27)) 27 = Some (Ok ((1, 0)%nat, 27%nat), cells
    [64; 70; 0; 9; 1; 64; 70; 0; 9; 1; 64; 70; 0; 9; 1; 64; 70; 0; 9; 1; 200; 200; 200; 200; 200; 200; 200]).
Proof. vm_compute. auto. Qed.
Example C79_forgiving_ex :
  let text := str "yM jI"%string ++ firstn 40 (skipn 4 (b64_rfc STANDARD (repeat 200 31))) in
  let start o := match o with Some (r, c) => Some (r, firstn 31 c) | None => None end in
  start (run_on (forgiving_decode_ord LE) text 45) = Some (Ok ((1, 0)%nat, 31%nat), cells (repeat 200 31)) /\
  start (run_on (forgiving_decode_ord BE) text 45) = Some (Ok ((1, 0)%nat, 31%nat), cells
    [51; 34; 0; 51; 34; 0; 51; 34; 0; 51; 34; 0; 51; 34; 0; 51; 34; 0; 51; 34; 0; 51; 34; 0; 200; 200; 200; 200; 200; 200; 200]).
Proof. vm_compute. auto. Qed.
