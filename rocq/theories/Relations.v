(** How decoders treat related inputs: concatenation, letter case, padding, white space. *)
From Coq Require Import ZArith List Bool Lia ZifyBool ZifyNat Arith.
From Verif Require Import Bytes Mem MemFacts Slices Codec Isa Simd SimdFacts Spec SpecFacts Ints Hex HexSimdFacts HexApi
  Base64 Base64Ref Base64Api Base32SimdFacts Base32 Base32Ref Base32Api Forgiving ForgivingFacts Uuid UuidFacts UuidApi.
Import ListNotations.
Open Scope list_scope. Open Scope Z_scope.
Ltac Zify.zify_post_hook ::= Z.div_mod_to_equations.

(** [f] on [src] computes [out] ([None]: Err) in every memory that holds [src] and has enough room for the result. *)
Definition computes (f : codec) (src : list Z) (out : option (list Z)) : Prop := exists n, decodes f src n out.

Lemma computes_iff f src n spec out : bytes src -> decodes f src n spec -> (computes f src out <-> spec = out).
Proof. intros B H. split; [intros [k K]; eapply decodes_det; eauto|intros <-; now exists n]. Qed.

(** ** Letter case *)
Lemma lower_byte c : byte c -> byte (ascii_lower c).
Proof. unfold byte, ascii_lower, between. intros H. destruct ((65 <=? c) && (c <=? 90)) eqn:E; lia. Qed.
Lemma lower_bytes l : bytes l -> bytes (map ascii_lower l).
Proof. intros H. induction H; cbn [map]; constructor; auto using lower_byte. Qed.
Lemma lower_idem c : ascii_lower (ascii_lower c) = ascii_lower c.
Proof. unfold ascii_lower, between. destruct ((65 <=? c) && (c <=? 90)) eqn:E; [|now rewrite E]. destruct ((65 <=? c + 32) && (c + 32 <=? 90)) eqn:F; lia. Qed.
Lemma lower_map_idem l : map ascii_lower (map ascii_lower l) = map ascii_lower l.
Proof. rewrite map_map. apply map_ext. apply lower_idem. Qed.
Lemma opt_iff {A} (a b : option A) : (forall x, a = Some x <-> b = Some x) -> a = b.
Proof. intros H. destruct a as [x|]; [symmetry; now apply H|]. destruct b as [y|]; [|reflexivity]. destruct (H y) as [_ K]. now rewrite K. Qed.
Lemma hex_decode_lower s t : bytes s -> bytes t -> map ascii_lower s = map ascii_lower t -> rfc_hex_decode s = rfc_hex_decode t.
Proof. intros Bs Bt E. apply opt_iff. intros x. rewrite !hex_decode_iff by assumption. now rewrite E. Qed.
Lemma map_firstn {A B} (f : A -> B) n l : map f (firstn n l) = firstn n (map f l).
Proof. revert l. induction n as [|n IH]; intros [|x l]; cbn; [reflexivity..|]. now rewrite IH. Qed.
Lemma map_skipn {A B} (f : A -> B) n l : map f (skipn n l) = skipn n (map f l).
Proof. revert l. induction n as [|n IH]; intros [|x l]; cbn; [reflexivity..|]. apply IH. Qed.
Lemma dehyphen_map f t : dehyphen (map f t) = map f (dehyphen t).
Proof. unfold dehyphen. now rewrite !map_app, !map_firstn, !map_skipn. Qed.
Lemma lower45 c : (ascii_lower c =? 45) = (c =? 45).
Proof. unfold ascii_lower, between. destruct ((65 <=? c) && (c <=? 90)) eqn:E; lia. Qed.
Lemma nth_lower i t : nth i (map ascii_lower t) 0 = ascii_lower (nth i t 0).
Proof. change 0 with (ascii_lower 0) at 1. apply map_nth. Qed.
Lemma dashes_lower t : dashes (map ascii_lower t) = dashes t.
Proof. unfold dashes. now rewrite !nth_lower, !lower45. Qed.
Lemma bytes_dehyphen t : bytes t -> bytes (dehyphen t).
Proof. intros B. unfold dehyphen. rewrite !bytes_app. repeat split; auto using bytes_firstn, bytes_skipn. Qed.
Lemma hyph_decode_lower s t : bytes s -> bytes t -> map ascii_lower s = map ascii_lower t -> hyph_decode s = hyph_decode t.
Proof.
  intros Bs Bt E. unfold hyph_decode. rewrite <- (dashes_lower s), E, dashes_lower, <- (map_length ascii_lower s), E, map_length.
  rewrite (hex_decode_lower (dehyphen s) (dehyphen t)); auto using bytes_dehyphen. now rewrite <- !dehyphen_map, E.
Qed.
Lemma simple_decode_lower s t : bytes s -> bytes t -> map ascii_lower s = map ascii_lower t -> simple_decode s = simple_decode t.
Proof.
  intros Bs Bt E. unfold simple_decode. rewrite <- (map_length ascii_lower s), E, map_length. now rewrite (hex_decode_lower s t).
Qed.

(** ** Concatenation *)
Lemma app_inj_len {A} (a b c d : list A) : length a = length c -> a ++ b = c ++ d -> a = c /\ b = d.
Proof.
  revert c. induction a as [|x a IH]; intros [|y c] L E; try discriminate; [auto|].
  injection L as L. injection E as -> E. destruct (IH c L E). now subst.
Qed.
Lemma b64_rfc_split cfg z a b : bytes z -> b64_rfc cfg z = a ++ b -> (length a mod 4 = 0)%nat ->
  exists x y, z = x ++ y /\ bytes x /\ bytes y /\ b64_rfc cfg x = a /\ b64_rfc cfg y = b.
Proof.
  intros B E La. set (n := (3 * (length a / 4))%nat).
  assert (Lz := b64_rfc_len cfg z B). rewrite E, app_length in Lz. unfold b64_encoded_length_unchecked in Lz. cbn zeta in Lz.
  destruct (Nat.le_gt_cases n (length z)) as [L|L].
  - exists (firstn n z), (skipn n z). assert (B1 := bytes_firstn n z B). assert (B2 := bytes_skipn n z B).
    split; [now rewrite firstn_skipn|]. split; [exact B1|]. split; [exact B2|].
    assert (Ln : length (firstn n z) = n) by (rewrite firstn_length; lia).
    rewrite <- (firstn_skipn n z), b64_rfc_app in E by (auto; rewrite Ln; unfold n; lia).
    assert (Lx : length (b64_rfc cfg (firstn n z)) = length a).
    { rewrite b64_rfc_len by exact B1. rewrite Ln. unfold b64_encoded_length_unchecked. cbn zeta.
      replace (n mod 3)%nat with 0%nat by (unfold n; lia). cbn [Nat.eqb]. unfold n. lia. }
    now apply app_inj_len in E.
  - exists z, []. assert (Hb : b = []).
    { destruct b as [|c b]; [reflexivity|]. cbn [length] in Lz. unfold n in L.
      destruct (length z mod 3 =? 0)%nat eqn:Q; [lia|]. destruct (b64_padding (b64_extra_of cfg)); lia. }
    subst b. rewrite app_nil_r in E. split; [now rewrite app_nil_r|]. split; [exact B|]. split; [constructor|]. split; [exact E|].
    destruct cfg as [[] []]; reflexivity.
Qed.
Lemma b32_rfc_split cfg z a b : bytes z -> b32_rfc cfg z = a ++ b -> (length a mod 8 = 0)%nat ->
  exists x y, z = x ++ y /\ bytes x /\ bytes y /\ b32_rfc cfg x = a /\ b32_rfc cfg y = b.
Proof.
  intros B E La. set (n := (5 * (length a / 8))%nat).
  assert (Lz := b32_rfc_len cfg z B). rewrite E, app_length in Lz. unfold b32_encoded_length_unchecked in Lz. cbn zeta in Lz.
  destruct (Nat.le_gt_cases n (length z)) as [L|L].
  - exists (firstn n z), (skipn n z). assert (B1 := bytes_firstn n z B). assert (B2 := bytes_skipn n z B).
    split; [now rewrite firstn_skipn|]. split; [exact B1|]. split; [exact B2|].
    assert (Ln : length (firstn n z) = n) by (rewrite firstn_length; lia).
    rewrite <- (firstn_skipn n z), b32_rfc_app in E by (auto; rewrite Ln; unfold n; lia).
    assert (Lx : length (b32_rfc cfg (firstn n z)) = length a).
    { rewrite b32_rfc_len by exact B1. rewrite Ln. unfold b32_encoded_length_unchecked. cbn zeta.
      replace (n mod 5)%nat with 0%nat by (unfold n; lia). cbn [Nat.eqb]. unfold n. lia. }
    now apply app_inj_len in E.
  - exists z, []. assert (Hb : b = []).
    { destruct b as [|c b]; [reflexivity|]. cbn [length] in Lz. unfold n in L.
      destruct (length z mod 5 =? 0)%nat eqn:Q; [lia|]. destruct (b32_padding cfg); [lia|].
      assert (M : (length z mod 5 < 5)%nat) by lia.
      destruct (length z mod 5)%nat as [|[|[|[|[|]]]]] eqn:R in Lz; cbn [nth] in Lz; lia. }
    subst b. rewrite app_nil_r in E. split; [now rewrite app_nil_r|]. split; [exact B|]. split; [constructor|]. split; [exact E|].
    destruct cfg as [[] []]; reflexivity.
Qed.
Lemma hex_decode_split a b z : bytes a -> bytes b -> (length a mod 2 = 0)%nat -> rfc_hex_decode (a ++ b) = Some z ->
  exists x y, z = x ++ y /\ rfc_hex_decode a = Some x /\ rfc_hex_decode b = Some y.
Proof.
  intros Ba Bb La H. apply hex_decode_iff in H; [|apply bytes_app; auto]. destruct H as [Bz E]. rewrite map_app in E.
  set (n := (length a / 2)%nat). exists (firstn n z), (skipn n z). split; [now rewrite firstn_skipn|].
  assert (B1 := bytes_firstn n z Bz). assert (B2 := bytes_skipn n z Bz).
  rewrite !hex_decode_iff by assumption.
  rewrite <- (firstn_skipn n z) in E. unfold rfc_hex_encode in E. rewrite flat_map_app in E. fold (rfc_hex_encode hex_lower (firstn n z)) in E. fold (rfc_hex_encode hex_lower (skipn n z)) in E.
  assert (L := f_equal (@length Z) E). rewrite !app_length, !map_length, !hex_encode_len, firstn_length, skipn_length in L.
  assert (Lx : length (map ascii_lower a) = length (rfc_hex_encode hex_lower (firstn n z))).
  { rewrite map_length, hex_encode_len, firstn_length. unfold n in *. lia. }
  apply app_inj_len in E as [E1 E2]; auto.
Qed.
Lemma hex_decode_app a b x y : bytes a -> bytes b -> rfc_hex_decode a = Some x -> rfc_hex_decode b = Some y -> rfc_hex_decode (a ++ b) = Some (x ++ y).
Proof.
  intros Ba Bb Hx Hy. apply hex_decode_iff in Hx; [|auto]. apply hex_decode_iff in Hy; [|auto]. apply hex_decode_iff; [apply bytes_app; auto|].
  destruct Hx as [Bx Ex], Hy as [By Ey]. split; [apply bytes_app; auto|]. unfold rfc_hex_encode. rewrite map_app, flat_map_app. now rewrite Ex, Ey.
Qed.

(** ** Padding *)
Lemma filter_pad t j : ~ In 61 t -> filter (fun c => negb (c =? 61)) (t ++ repeat 61 j) = t.
Proof.
  intros H. rewrite filter_app.
  assert (E : filter (fun c => negb (c =? 61)) (repeat 61 j) = []) by (induction j; [reflexivity|]; cbn; auto).
  rewrite E, app_nil_r. induction t as [|c t IH]; [reflexivity|]. cbn [filter]. destruct (Z.eqb_spec c 61) as [->|N].
  - elim H. now left.
  - cbn [negb]. f_equal. apply IH. intros K. apply H. now right.
Qed.
Lemma rfc_pad_iff k blk al x t : ~ In 61 (rfc_chars k al x) -> ~ In 61 t ->
  rfc_encode k blk al false x = t <-> rfc_encode k blk al true x = t ++ repeat 61 (rfc_pad_len blk (length t)).
Proof.
  intros Hx Ht. unfold rfc_encode. cbn zeta. rewrite app_nil_r. split.
  - intros <-. reflexivity.
  - intros E. apply (f_equal (filter (fun c => negb (c =? 61)))) in E. unfold pad_char in E. now rewrite !filter_pad in E.
Qed.
Lemma b64_no_eq k x : bytes x -> ~ In 61 (rfc_chars 6 (b64_alphabet k) x).
Proof.
  intros B H. assert (E := b64e_rfc k false x B). unfold rfc_base64, rfc_encode in E. cbn zeta in E. rewrite app_nil_r in E. rewrite <- E in H.
  assert (F := b64e_chars_ok k x B). rewrite Forall_forall in F. apply F in H. tauto.
Qed.
Lemma b32_no_eq k x : bytes x -> ~ In 61 (rfc_chars 5 (b32_alphabet k) x).
Proof.
  intros B H. assert (E := b32e_rfc k false x B). unfold rfc_base32, rfc_encode in E. cbn zeta in E. rewrite app_nil_r in E. rewrite <- E in H.
  assert (F := b32e_chars_ok k x B). rewrite Forall_forall in F. apply F in H. tauto.
Qed.
