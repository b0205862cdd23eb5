(** Property theorems C82: which source bits make which character, which characters make which byte, and how far one changed
    byte or character reaches. [encodes f src t]: in every memory that holds [src] and has enough room, [f] writes [t].
    [computes f src out]: likewise, [f] returns the bytes [x] if [out = Some x] and Err if [out = None]. *)
From Coq Require Import ZArith List Bool Lia String ZifyBool ZifyNat.
From Verif Require Import Bytes Mem MemFacts Slices Codec Isa Simd SimdFacts Spec SpecFacts Ints Hex HexSimdFacts HexApi
  Base64 Base64Ref Base64Api Base32SimdFacts Base32 Base32Ref Base32Api Forgiving ForgivingFacts Relations PrefixFacts PropPrefix PositionFacts.
Import ListNotations.
Open Scope list_scope. Open Scope Z_scope. Open Scope m_scope.
Ltac Zify.zify_post_hook ::= Z.div_mod_to_equations.
Notation length := List.length.

(** Character [j] is the digit of the bits [6 * j] to [6 * j + 5] of the source, which are in two neighbouring bytes; behind
    the source there are zero bits. Then there is padding, if the configuration asks for it, up to a multiple of four. *)
Theorem C82_base64_char : forall s cfg src, b64_isa s -> bytes src ->
  exists t, encodes (b64_encode s cfg) src t /\
  let n := ((8 * length src + 5) / 6)%nat in
  length t = (match b64_extra_of cfg with NoPad => n | Pad | Forgiving => (n + 3) / 4 * 4 end)%nat /\
  (forall j, (j < n)%nat -> nth j t 0 =
     nth (Z.to_nat ((256 * nth (6 * j / 8) src 0 + nth (6 * j / 8 + 1) src 0) / 2 ^ (10 - Z.of_nat (6 * j mod 8)) mod 64))
         (match b64_kind_of cfg with Standard => base64_std | UrlSafe => base64_url end) 0) /\
  (forall j, (n <= j < length t)%nat -> nth j t 0 = 61).
Proof.
  intros s cfg src I B. exists (b64_rfc cfg src). split; [now apply b64_encode_ok|].
  destruct (rfc_encode_positions 6 4 (b64_alphabet (b64_kind_of cfg)) (b64_padding (b64_extra_of cfg)) src ltac:(lia) ltac:(lia) B) as (L & C & P).
  cbn zeta in *. split; [|split; [exact C|exact P]]. unfold b64_rfc, rfc_base64. rewrite L. now destruct (b64_extra_of cfg).
Qed.
Print Assumptions C82_base64_char.
Theorem C82_base32_char : forall tg s cfg src, b32_isa s -> bytes src ->
  exists t, encodes (b32_encode tg s cfg) src t /\
  let n := ((8 * length src + 4) / 5)%nat in
  length t = (if b32_padding cfg then (n + 7) / 8 * 8 else n)%nat /\
  (forall j, (j < n)%nat -> nth j t 0 =
     nth (Z.to_nat ((256 * nth (5 * j / 8) src 0 + nth (5 * j / 8 + 1) src 0) / 2 ^ (11 - Z.of_nat (5 * j mod 8)) mod 32))
         (match b32_kind_of cfg with KBase32 => base32_std | KBase32Hex => base32_hex end) 0) /\
  (forall j, (n <= j < length t)%nat -> nth j t 0 = 61).
Proof.
  intros tg s cfg src I B. exists (b32_rfc cfg src). split; [now apply b32_encode_ok|].
  exact (rfc_encode_positions 5 8 (b32_alphabet (b32_kind_of cfg)) (b32_padding cfg) src ltac:(lia) ltac:(lia) B).
Qed.
Print Assumptions C82_base32_char.
Theorem C82_hex_char : forall s case src, bytes src ->
  exists t, encodes (fun p n q k => hex_encode s p n q k case) src t /\ length t = (2 * length src)%nat /\
  forall j, (j < 2 * length src)%nat -> nth j t 0 =
    nth (Z.to_nat (nth (j / 2) src 0 / 16 ^ (1 - Z.of_nat (j mod 2)) mod 16)) (match case with Lower => hex_lower | Upper => hex_upper end) 0.
Proof.
  intros s case src B. exists (rfc_hex_encode (lut_of case) src). split; [apply hex_encode_ok|]. split; [apply hex_encode_len|]. fold (lut_of case).
  induction B as [|b src Hb B IH]; intros j L; [cbn in L; lia|]. destruct j as [|[|j]]; cbn [rfc_hex_encode flat_map app nth].
  - change (0 / 2)%nat with 0%nat. change (0 mod 2)%nat with 0%nat. cbn [nth]. change (16 ^ (1 - Z.of_nat 0)) with 16.
    rewrite (Z.mod_small (b / 16)) by (unfold byte in Hb; lia). reflexivity.
  - change (1 / 2)%nat with 0%nat. change (1 mod 2)%nat with 1%nat. cbn [nth]. change (16 ^ (1 - Z.of_nat 1)) with 1. now rewrite Z.div_1_r.
  - fold (rfc_hex_encode (lut_of case) src). rewrite IH by (cbn [length] in L; lia).
    replace (S (S j) / 2)%nat with (S (j / 2)) by lia. replace (S (S j) mod 2)%nat with (j mod 2)%nat by lia. reflexivity.
Qed.
Print Assumptions C82_hex_char.

(** Byte [i] of a decoded text is bits [8 * i] to [8 * i + 7] of its characters' values. [v] is any function that gives the
    value of each character. *)
Theorem C82_base64_byte : forall en s cfg t x v, b64_isa s -> b64_extra_of cfg <> Forgiving -> bytes t ->
  computes (b64_decode en s cfg) t (Some x) ->
  (forall j, (j < (8 * length x + 5) / 6)%nat -> 0 <= v j < 64 /\
     nth (Z.to_nat (v j)) (match b64_kind_of cfg with Standard => base64_std | UrlSafe => base64_url end) 0 = nth j t 0) ->
  forall i, (i < length x)%nat ->
    nth i x 0 = (64 * v (8 * i / 6)%nat + v (8 * i / 6 + 1)%nat) / 2 ^ (4 - Z.of_nat (8 * i mod 6)) mod 256.
Proof.
  intros en s cfg t x v I St B H V i L. apply (computes_iff _ _ _ _ _ B (b64_decode_ok en s cfg t I)) in H.
  apply b64_dec_strict in H as [Bx E]; auto. assert (Ln := values_len 6 x ltac:(lia)). change (6 - 1)%nat with 5%nat in Ln.
  assert (W : forall j, (j < (8 * length x + 5) / 6)%nat -> v j = nth j (rfc_values 6 x) 0).
  { intros j Lj. destruct (V j Lj) as [R C]. rewrite <- E in C.
    now apply (text_values 6 4 (b64_alphabet (b64_kind_of cfg)) (b64_padding (b64_extra_of cfg))); auto using base64_distinct; lia. }
  rewrite !W by lia. now apply bytes_of_6.
Qed.
Print Assumptions C82_base64_byte.
(** for base32 the third character may be missing, if none of its bits is in the byte *)
Theorem C82_base32_byte : forall tg s cfg t x v, b32_isa s -> bytes t ->
  computes (b32_decode tg s cfg) t (Some x) -> (forall j, 0 <= v j < 32) ->
  (forall j, (j < (8 * length x + 4) / 5)%nat ->
     nth (Z.to_nat (v j)) (match b32_kind_of cfg with KBase32 => base32_std | KBase32Hex => base32_hex end) 0 = nth j t 0) ->
  forall i, (i < length x)%nat ->
    nth i x 0 = (1024 * v (8 * i / 5)%nat + 32 * v (8 * i / 5 + 1)%nat + v (8 * i / 5 + 2)%nat) / 2 ^ (7 - Z.of_nat (8 * i mod 5)) mod 256.
Proof.
  intros tg s cfg t x v I B H R V i L. apply (computes_iff _ _ _ _ _ B (b32_decode_ok tg s cfg t I)) in H.
  apply b32_dec_strict in H as [Bx E]; auto. assert (Ln := values_len 5 x ltac:(lia)). change (5 - 1)%nat with 4%nat in Ln.
  assert (W : forall j, (j < (8 * length x + 4) / 5)%nat -> v j = nth j (rfc_values 5 x) 0).
  { intros j Lj. assert (C := V j Lj). rewrite <- E in C.
    now apply (text_values 5 8 (b32_alphabet (b32_kind_of cfg)) (b32_padding cfg)); auto using base32_distinct; lia. }
  rewrite (bytes_of_5 x i (v (8 * i / 5 + 2)%nat) Bx L (R _)). rewrite Ln. cbn zeta.
  rewrite (proj2 (Nat.ltb_lt (8 * i / 5) ((8 * length x + 4) / 5))), (proj2 (Nat.ltb_lt (8 * i / 5 + 1) ((8 * length x + 4) / 5))) by lia.
  rewrite <- (W (8 * i / 5)%nat), <- (W (8 * i / 5 + 1)%nat) by lia.
  destruct (Nat.ltb_spec (8 * i / 5 + 2) ((8 * length x + 4) / 5)) as [Q|Q]; [now rewrite <- W|reflexivity].
Qed.
Print Assumptions C82_base32_byte.
Theorem C82_hex_byte : forall s t x, bytes t -> computes (hex_decode s) t (Some x) ->
  length t = (2 * length x)%nat /\ forall i, (i < length x)%nat ->
  exists v w, hex_digit (nth (2 * i) t 0) = Some v /\ hex_digit (nth (2 * i + 1) t 0) = Some w /\ nth i x 0 = 16 * v + w.
Proof.
  intros s t x B H. apply (computes_iff _ _ _ _ _ B (hex_decode_ok s t)) in H. clear B. split; [now apply hex_decode_even|].
  revert x H. pattern t. apply list_ind_pairs; clear t.
  - intros x H i L. injection H as <-. cbn in L. lia.
  - discriminate.
  - intros a b r IH x H i L. cbn [rfc_hex_decode] in H. destruct (hex_digit a) as [v|] eqn:Ea; [|discriminate].
    destruct (hex_digit b) as [w|] eqn:Eb; [|discriminate]. destruct (rfc_hex_decode r) as [o|] eqn:Er; [|discriminate]. injection H as <-.
    destruct i as [|i]; [exists v, w; cbn [Nat.mul Nat.add nth]; auto|].
    replace (2 * S i)%nat with (S (S (2 * i))) by lia. cbn [Nat.add nth]. apply (IH o eq_refl i). cbn [length] in L. lia.
Qed.
Print Assumptions C82_hex_byte.

(** One changed source byte changes the text, but only characters that have bits of that byte. *)
Theorem C82_base64_encode_local : forall s1 s2 cfg a b c d, b64_isa s1 -> b64_isa s2 -> bytes (a ++ c :: b) -> bytes (a ++ d :: b) -> c <> d ->
  exists t u, encodes (b64_encode s1 cfg) (a ++ c :: b) t /\ encodes (b64_encode s2 cfg) (a ++ d :: b) u /\ t <> u /\ length t = length u /\
  forall j, (6 * (j + 1) <= 8 * length a \/ 8 * (length a + 1) <= 6 * j)%nat -> nth j t 0 = nth j u 0.
Proof.
  intros s1 s2 cfg a b c d I1 I2 Bc Bd N. exists (b64_rfc cfg (a ++ c :: b)), (b64_rfc cfg (a ++ d :: b)).
  split; [now apply b64_encode_ok|]. split; [now apply b64_encode_ok|]. split; [|apply encode_change; lia].
  intros E. apply b64_rfc_inj in E; auto. apply app_inv_head in E. congruence.
Qed.
Print Assumptions C82_base64_encode_local.
Theorem C82_base32_encode_local : forall t1 t2 s1 s2 cfg a b c d, b32_isa s1 -> b32_isa s2 -> bytes (a ++ c :: b) -> bytes (a ++ d :: b) -> c <> d ->
  exists t u, encodes (b32_encode t1 s1 cfg) (a ++ c :: b) t /\ encodes (b32_encode t2 s2 cfg) (a ++ d :: b) u /\ t <> u /\ length t = length u /\
  forall j, (5 * (j + 1) <= 8 * length a \/ 8 * (length a + 1) <= 5 * j)%nat -> nth j t 0 = nth j u 0.
Proof.
  intros t1 t2 s1 s2 cfg a b c d I1 I2 Bc Bd N. exists (b32_rfc cfg (a ++ c :: b)), (b32_rfc cfg (a ++ d :: b)).
  split; [now apply b32_encode_ok|]. split; [now apply b32_encode_ok|]. split; [|apply encode_change; lia].
  intros E. apply b32_rfc_inj in E; auto. apply app_inv_head in E. congruence.
Qed.
Print Assumptions C82_base32_encode_local.
Lemma hex_rfc al x : bytes x -> rfc_encode 4 2 al false x = rfc_hex_encode al x.
Proof. intros B. unfold rfc_encode. cbn zeta. now rewrite app_nil_r, hex_chars. Qed.
Theorem C82_hex_encode_local : forall s1 s2 case a b c d, bytes (a ++ c :: b) -> bytes (a ++ d :: b) -> c <> d ->
  exists t u, encodes (fun p n q k => hex_encode s1 p n q k case) (a ++ c :: b) t /\
    encodes (fun p n q k => hex_encode s2 p n q k case) (a ++ d :: b) u /\ t <> u /\ length t = length u /\
  forall j, (j / 2 <> length a)%nat -> nth j t 0 = nth j u 0.
Proof.
  intros s1 s2 case a b c d Bc Bd N. exists (rfc_hex_encode (lut_of case) (a ++ c :: b)), (rfc_hex_encode (lut_of case) (a ++ d :: b)).
  split; [apply hex_encode_ok|]. split; [apply hex_encode_ok|].
  split; [intros E; apply hex_encode_inj in E; auto; apply app_inv_head in E; congruence|].
  destruct (encode_change 4 2 (lut_of case) false a b c d ltac:(lia)) as [L C]. cbn zeta in *. rewrite !hex_rfc in L, C by assumption.
  split; [exact L|]. intros j H. apply C. lia.
Qed.
Print Assumptions C82_hex_encode_local.

(** One changed character (not padding): if both texts are accepted, they give different bytes of the same number, and only
    bytes that have bits of that character differ. *)
Theorem C82_base64_decode_local : forall en1 en2 s1 s2 cfg a b c d x y, b64_isa s1 -> b64_isa s2 -> b64_extra_of cfg <> Forgiving ->
  bytes (a ++ c :: b) -> bytes (a ++ d :: b) -> c <> d -> c <> 61 -> d <> 61 ->
  computes (b64_decode en1 s1 cfg) (a ++ c :: b) (Some x) -> computes (b64_decode en2 s2 cfg) (a ++ d :: b) (Some y) ->
  x <> y /\ length x = length y /\
  forall i, (8 * (i + 1) <= 6 * length a \/ 6 * (length a + 1) <= 8 * i)%nat -> nth i x 0 = nth i y 0.
Proof.
  intros en1 en2 s1 s2 cfg a b c d x y I1 I2 St Bc Bd N Nc Nd H1 H2.
  apply (computes_iff _ _ _ _ _ Bc (b64_decode_ok en1 s1 cfg _ I1)) in H1. apply (computes_iff _ _ _ _ _ Bd (b64_decode_ok en2 s2 cfg _ I2)) in H2.
  apply b64_dec_strict in H1 as [Bx Ex]; auto. apply b64_dec_strict in H2 as [By Ey]; auto.
  split; [intros <-; rewrite Ex in Ey; apply app_inv_head in Ey; congruence|].
  apply (text_change 6 4 (b64_alphabet (b64_kind_of cfg)) (b64_padding (b64_extra_of cfg)) a b c d); auto using base64_distinct, b64_no_eq; lia.
Qed.
Print Assumptions C82_base64_decode_local.
Theorem C82_base32_decode_local : forall t1 t2 s1 s2 cfg a b c d x y, b32_isa s1 -> b32_isa s2 ->
  bytes (a ++ c :: b) -> bytes (a ++ d :: b) -> c <> d -> c <> 61 -> d <> 61 ->
  computes (b32_decode t1 s1 cfg) (a ++ c :: b) (Some x) -> computes (b32_decode t2 s2 cfg) (a ++ d :: b) (Some y) ->
  x <> y /\ length x = length y /\
  forall i, (8 * (i + 1) <= 5 * length a \/ 5 * (length a + 1) <= 8 * i)%nat -> nth i x 0 = nth i y 0.
Proof.
  intros t1 t2 s1 s2 cfg a b c d x y I1 I2 Bc Bd N Nc Nd H1 H2.
  apply (computes_iff _ _ _ _ _ Bc (b32_decode_ok t1 s1 cfg _ I1)) in H1. apply (computes_iff _ _ _ _ _ Bd (b32_decode_ok t2 s2 cfg _ I2)) in H2.
  apply b32_dec_strict in H1 as [Bx Ex]; auto. apply b32_dec_strict in H2 as [By Ey]; auto.
  split; [intros <-; rewrite Ex in Ey; apply app_inv_head in Ey; congruence|].
  apply (text_change 5 8 (b32_alphabet (b32_kind_of cfg)) (b32_padding cfg) a b c d); auto using base32_distinct, b32_no_eq; lia.
Qed.
Print Assumptions C82_base32_decode_local.
(** for hexadecimal the bytes differ exactly if the characters are not the same letter in two cases *)
Theorem C82_hex_decode_local : forall s1 s2 a b c d x y, bytes (a ++ c :: b) -> bytes (a ++ d :: b) ->
  computes (hex_decode s1) (a ++ c :: b) (Some x) -> computes (hex_decode s2) (a ++ d :: b) (Some y) ->
  (x = y <-> ascii_lower c = ascii_lower d) /\ length x = length y /\ forall i, i <> (length a / 2)%nat -> nth i x 0 = nth i y 0.
Proof.
  intros s1 s2 a b c d x y Bc Bd H1 H2.
  apply (computes_iff _ _ _ _ _ Bc (hex_decode_ok s1 _)) in H1. apply (computes_iff _ _ _ _ _ Bd (hex_decode_ok s2 _)) in H2.
  apply hex_decode_iff in H1 as [Bx Ex]; auto. apply hex_decode_iff in H2 as [By Ey]; auto. rewrite map_app in Ex, Ey. cbn [map] in Ex, Ey.
  split; [split; [intros <-|intros E]|].
  - rewrite <- Ex in Ey. apply app_inv_head in Ey. congruence.
  - rewrite E, Ey in Ex. symmetry. now apply (hex_encode_inj Lower).
  - assert (D : distinct 4 hex_lower).
    { intros u w Hu Hw. change (2 ^ Z.of_nat 4) with 16 in *.
      assert (G : forall v, 0 <= v < 16 -> index_of (nth (Z.to_nat v) hex_lower 0) hex_lower = Some v).
      { intros v Hv. assert (F : match index_of (nth (Z.to_nat v) hex_lower 0) hex_lower with Some i => i =? v | None => false end = true).
        { revert v Hv. apply (sweep1 16). vm_compute. reflexivity. }
        destruct (index_of _ _) as [i|]; [|discriminate]. apply Z.eqb_eq in F. now subst. }
      intros E. assert (G1 := G u Hu). rewrite E, (G w Hw) in G1. congruence. }
    assert (N : forall z, bytes z -> ~ In 61 (rfc_hex_encode hex_lower z)).
    { intros z Bz H. unfold rfc_hex_encode in H. apply in_flat_map in H as (q & Hq & H). unfold bytes in Bz. rewrite Forall_forall in Bz. assert (Hb := Bz q Hq).
      assert (F : negb (nth (Z.to_nat (q / 16)) hex_lower 0 =? 61) && negb (nth (Z.to_nat (q mod 16)) hex_lower 0 =? 61) = true).
      { clear - Hb. revert q Hb. apply byte_sweep. vm_compute. reflexivity. }
      destruct H as [H|[H|[]]]; rewrite H in F; cbn in F; [discriminate|now rewrite andb_false_r in F]. }
    assert (Nx := N x Bx). assert (Ny := N y By).
    rewrite <- (hex_chars hex_lower x Bx) in Nx. rewrite <- (hex_chars hex_lower y By) in Ny.
    destruct (text_change 4 2 hex_lower false (map ascii_lower a) (map ascii_lower b) (ascii_lower c) (ascii_lower d) x y) as [L C]; auto; try lia.
    + intros E. apply (N x Bx). rewrite <- Ex, E. apply in_or_app. right. now left.
    + intros E. apply (N y By). rewrite <- Ey, E. apply in_or_app. right. now left.
    + now rewrite hex_rfc.
    + now rewrite hex_rfc.
    + split; [exact L|]. intros i Hi. apply C. rewrite map_length. lia.
Qed.
Print Assumptions C82_hex_decode_local.

(** the hypotheses are met: the texts of two sources that differ in their second byte *)
Example C82_base64_ex : forall en s, b64_isa s ->
  computes (b64_decode en s STANDARD) (str "Zm9v"%string) (Some [102; 111; 111]) /\ computes (b64_decode en s STANDARD) (str "ZmPv"%string) (Some [102; 99; 239]).
Proof. intros en s I. split; (eapply computes_iff; [small_bytes|exact (b64_decode_ok en s _ _ I)|vm_compute; reflexivity]). Qed.
Example C82_base32_ex : forall tg s, b32_isa s ->
  computes (b32_decode tg s BASE32) (str "MZXW6==="%string) (Some [102; 111; 111]) /\ computes (b32_decode tg s BASE32) (str "MZAW6==="%string) (Some [102; 65; 111]).
Proof. intros tg s I. split; (eapply computes_iff; [small_bytes|exact (b32_decode_ok tg s _ _ I)|vm_compute; reflexivity]). Qed.
Example C82_hex_ex : forall s, computes (hex_decode s) (str "66Fa"%string) (Some [102; 250]) /\ computes (hex_decode s) (str "663a"%string) (Some [102; 58]).
Proof. intros s. split; (eapply computes_iff; [small_bytes|exact (hex_decode_ok s _)|vm_compute; reflexivity]). Qed.
(** "fo" and "fp": the second byte has bits of the characters 1 and 2 only *)
Example C82_encode_ex : b64_rfc STANDARD (str "fo"%string) = str "Zm8="%string /\ b64_rfc STANDARD (str "fp"%string) = str "ZnA="%string.
Proof. split; vm_compute; reflexivity. Qed.
