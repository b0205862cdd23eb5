(** Property theorems C81: truncated and continued texts.
    [computes f src out]: in every memory that holds [src] and has enough room, [f] returns the bytes [x] if
    [out = Some x] and Err if [out = None]. *)
From Coq Require Import ZArith List Bool Lia String ZifyBool ZifyNat.
From Verif Require Import Bytes Mem MemFacts Slices Codec Isa Simd SimdFacts Spec SpecFacts Ints Hex HexSimdFacts HexApi
  Base64 Base64Ref Base64Api Base32SimdFacts Base32 Base32Ref Base32Api Forgiving ForgivingFacts Relations PrefixFacts.
Import ListNotations.
Open Scope list_scope. Open Scope Z_scope. Open Scope m_scope.
Ltac Zify.zify_post_hook ::= Z.div_mod_to_equations.

Lemma base64_distinct k : distinct 6 (b64_alphabet k).
Proof.
  intros a b Ha Hb E. change (2 ^ Z.of_nat 6) with 64 in *. rewrite <- charset_alphabet in E.
  destruct (char_ok k a Ha) as (_ & _ & Ea & _). destruct (char_ok k b Hb) as (_ & _ & Eb & _). rewrite <- Ea, <- Eb. now rewrite E.
Qed.
Lemma base32_distinct k : distinct 5 (b32_alphabet k).
Proof.
  intros a b Ha Hb E. change (2 ^ Z.of_nat 5) with 32 in *.
  set (v := fun c => match index_of c (b32_alphabet k) with Some i => i | None => -1 end).
  assert (G : forall x, 0 <= x < 32 -> v (nth (Z.to_nat x) (b32_alphabet k) 0) = x).
  { intros x Hx. apply Z.eqb_eq. revert x Hx. apply (sweep1 32). unfold v. destruct k; vm_compute; reflexivity. }
  rewrite <- (G a Ha), <- (G b Hb). now rewrite E.
Qed.

(** If a text and a continuation of it are both accepted, the bytes of the longer one continue those of the shorter one. *)
Theorem C81_base64_prefix : forall en1 en2 s1 s2 cfg a b x z, b64_isa s1 -> b64_isa s2 -> b64_extra_of cfg <> Forgiving -> bytes a -> bytes b ->
  computes (b64_decode en1 s1 cfg) a (Some x) -> computes (b64_decode en2 s2 cfg) (a ++ b) (Some z) -> exists y, z = x ++ y.
Proof.
  intros en1 en2 s1 s2 cfg a b x z I1 I2 St Ba Bb H1 H2. assert (Bab : bytes (a ++ b)) by now apply bytes_app.
  apply (computes_iff _ _ _ _ _ Ba (b64_decode_ok en1 s1 cfg a I1)) in H1. apply (computes_iff _ _ _ _ _ Bab (b64_decode_ok en2 s2 cfg _ I2)) in H2.
  apply b64_dec_strict in H1; auto. apply b64_dec_strict in H2; auto. destruct H1 as [Bx <-], H2 as [Bz E].
  apply (rfc_encode_prefix 6 _ _ _ _ _ _ ltac:(lia) (base64_distinct _) Bx Bz (b64_no_eq _ x Bx) E).
Qed.
Print Assumptions C81_base64_prefix.
Theorem C81_base32_prefix : forall t1 t2 s1 s2 cfg a b x z, b32_isa s1 -> b32_isa s2 -> bytes a -> bytes b ->
  computes (b32_decode t1 s1 cfg) a (Some x) -> computes (b32_decode t2 s2 cfg) (a ++ b) (Some z) -> exists y, z = x ++ y.
Proof.
  intros t1 t2 s1 s2 cfg a b x z I1 I2 Ba Bb H1 H2. assert (Bab : bytes (a ++ b)) by now apply bytes_app.
  apply (computes_iff _ _ _ _ _ Ba (b32_decode_ok t1 s1 cfg a I1)) in H1. apply (computes_iff _ _ _ _ _ Bab (b32_decode_ok t2 s2 cfg _ I2)) in H2.
  apply b32_dec_strict in H1; auto. apply b32_dec_strict in H2; auto. destruct H1 as [Bx <-], H2 as [Bz E].
  apply (rfc_encode_prefix 5 _ _ _ _ _ _ ltac:(lia) (base32_distinct _) Bx Bz (b32_no_eq _ x Bx) E).
Qed.
Print Assumptions C81_base32_prefix.
Theorem C81_hex_prefix : forall s1 s2 a b x z, bytes a -> bytes b ->
  computes (hex_decode s1) a (Some x) -> computes (hex_decode s2) (a ++ b) (Some z) -> exists y, z = x ++ y.
Proof.
  intros s1 s2 a b x z Ba Bb H1 H2. assert (Bab : bytes (a ++ b)) by now apply bytes_app.
  apply (computes_iff _ _ _ _ _ Ba (hex_decode_ok s1 a)) in H1. apply (computes_iff _ _ _ _ _ Bab (hex_decode_ok s2 _)) in H2.
  assert (L : (List.length a mod 2 = 0)%nat).
  { assert (K := H1). apply hex_decode_iff in K as [_ E]; auto. apply (f_equal (@List.length Z)) in E. rewrite map_length, hex_encode_len in E. lia. }
  destruct (hex_decode_split a b z Ba Bb L H2) as (x' & y & -> & E & _). exists y. congruence.
Qed.
Print Assumptions C81_hex_prefix.
(** also for the forgiving decoder, wherever the white space is *)
Theorem C81_forgiving_prefix : forall en1 en2 s1 s2 s3 s4 a b x z, b64_isa s2 -> b64_isa s4 -> bytes a -> bytes b ->
  computes (forgiving_decode en1 s1 s2) a (Some x) -> computes (forgiving_decode en2 s3 s4) (a ++ b) (Some z) -> exists y, z = x ++ y.
Proof.
  intros en1 en2 s1 s2 s3 s4 a b x z I2 I4 Ba Bb H1 H2. assert (Bab : bytes (a ++ b)) by now apply bytes_app.
  apply (computes_iff _ _ _ _ _ Ba (forgiving_decode_ok en1 s1 s2 a I2)) in H1. apply (computes_iff _ _ _ _ _ Bab (forgiving_decode_ok en2 s3 s4 _ I4)) in H2.
  unfold whatwg_forgiving_decode, forgiving_decode_nows in *. cbn zeta in *.
  destruct (unpad_prefix (strip_whitespace a)) as [j Ej]. destruct (unpad_prefix (strip_whitespace (a ++ b))) as [i Ei].
  set (u := whatwg_unpad (strip_whitespace a)) in *. set (w := whatwg_unpad (strip_whitespace (a ++ b))) in *.
  destruct (_ =? 1)%nat in H1; [discriminate|]. destruct (_ =? 1)%nat in H2; [discriminate|].
  destruct (sequence (map (fun c => index_of c base64_std) u)) as [vu|] eqn:Su; [|discriminate].
  destruct (sequence (map (fun c => index_of c base64_std) w)) as [vw|] eqn:Sw; [|discriminate].
  injection H1 as <-. injection H2 as <-.
  assert (N : ~ In 61 u).
  { intros H. now rewrite (sequence_none_in _ u 61 H) in Su. }
  unfold strip_whitespace in Ej, Ei. rewrite filter_app, Ej, <- app_assoc in Ei.
  destruct (unpadded_prefix _ _ _ _ N Ei) as [r Er]. rewrite Er in Sw.
  destruct (sequence_map_app _ u r vw Sw) as (v1 & v2 & -> & E1 & _). rewrite Su in E1. injection E1 as <-.
  rewrite flat_map_app. apply whole_prefix; [|rewrite ?app_length]; lia.
Qed.
Print Assumptions C81_forgiving_prefix.

(** A text whose length no encoding has is refused. *)
Theorem C81_base64_truncated : forall en s cfg t, b64_isa s -> b64_extra_of cfg <> Forgiving -> bytes t ->
  (if b64_padding (b64_extra_of cfg) then (List.length t mod 4 <> 0)%nat else (List.length t mod 4 = 1)%nat) ->
  computes (b64_decode en s cfg) t None.
Proof.
  intros en s cfg t I St B L. apply (computes_iff _ _ _ _ _ B (b64_decode_ok en s cfg t I)).
  destruct (b64_dec cfg t) as [x|] eqn:E; [|reflexivity]. exfalso. apply b64_dec_strict in E as [Bx <-]; auto.
  change (rfc_base64 _ _ x) with (b64_rfc cfg x) in L. rewrite b64_rfc_len in L by exact Bx. unfold b64_encoded_length_unchecked in L. cbn zeta in L.
  destruct (_ =? 0)%nat eqn:Q in L; destruct (b64_padding (b64_extra_of cfg)); lia.
Qed.
Print Assumptions C81_base64_truncated.
Theorem C81_base32_truncated : forall tg s cfg t, b32_isa s -> bytes t ->
  (if b32_padding cfg then List.length t mod 8 <> 0 else In (List.length t mod 8) [1; 3; 6])%nat ->
  computes (b32_decode tg s cfg) t None.
Proof.
  intros tg s cfg t I B L. apply (computes_iff _ _ _ _ _ B (b32_decode_ok tg s cfg t I)).
  destruct (b32_dec cfg t) as [x|] eqn:E; [|reflexivity]. exfalso. apply b32_dec_strict in E as [Bx <-]; auto.
  change (rfc_base32 _ _ x) with (b32_rfc cfg x) in L. rewrite b32_rfc_len in L by exact Bx. unfold b32_encoded_length_unchecked in L. cbn zeta in L.
  destruct (_ =? 0)%nat eqn:Q in L; destruct (b32_padding cfg); try (cbn [In] in L; lia).
  assert (M : (List.length x mod 5 < 5)%nat) by lia.
  destruct (List.length x mod 5)%nat as [|[|[|[|[|]]]]] eqn:R in L; cbn [nth In] in L; lia.
Qed.
Print Assumptions C81_base32_truncated.
Theorem C81_hex_truncated : forall s t, bytes t -> (List.length t mod 2 = 1)%nat -> computes (hex_decode s) t None.
Proof.
  intros s t B L. apply (computes_iff _ _ _ _ _ B (hex_decode_ok s t)).
  destruct (rfc_hex_decode t) as [x|] eqn:E; [|reflexivity]. exfalso. apply hex_decode_iff in E as [_ E]; auto.
  apply (f_equal (@List.length Z)) in E. rewrite map_length, hex_encode_len in E. lia.
Qed.
Print Assumptions C81_hex_truncated.
(** nothing may follow padding *)
Theorem C81_base64_after_padding : forall en1 en2 s1 s2 k a b x, b64_isa s1 -> b64_isa s2 -> bytes a -> bytes b -> b <> [] -> In 61 a ->
  computes (b64_decode en1 s1 {| b64_kind_of := k; b64_extra_of := Pad |}) a (Some x) ->
  computes (b64_decode en2 s2 {| b64_kind_of := k; b64_extra_of := Pad |}) (a ++ b) None.
Proof.
  intros en1 en2 s1 s2 k a b x I1 I2 Ba Bb Nb P H1. assert (Bab : bytes (a ++ b)) by now apply bytes_app.
  apply (computes_iff _ _ _ _ _ Bab (b64_decode_ok en2 s2 _ _ I2)).
  destruct (b64_dec _ (a ++ b)) as [z|] eqn:E; [|reflexivity]. elim Nb.
  apply (computes_iff _ _ _ _ _ Ba (b64_decode_ok en1 s1 _ a I1)) in H1. apply b64_dec_strict in H1 as [Bx E1]; [|auto|discriminate].
  apply b64_dec_strict in E as [Bz E2]; [|auto|discriminate]. cbn [b64_kind_of b64_extra_of b64_padding] in E1, E2. subst a.
  now apply (rfc_after_padding 6 4 (b64_alphabet k) x z); auto using b64_no_eq.
Qed.
Print Assumptions C81_base64_after_padding.
Theorem C81_base32_after_padding : forall t1 t2 s1 s2 k a b x, b32_isa s1 -> b32_isa s2 -> bytes a -> bytes b -> b <> [] -> In 61 a ->
  computes (b32_decode t1 s1 {| b32_kind_of := k; b32_padding := true |}) a (Some x) ->
  computes (b32_decode t2 s2 {| b32_kind_of := k; b32_padding := true |}) (a ++ b) None.
Proof.
  intros t1 t2 s1 s2 k a b x I1 I2 Ba Bb Nb P H1. assert (Bab : bytes (a ++ b)) by now apply bytes_app.
  apply (computes_iff _ _ _ _ _ Bab (b32_decode_ok t2 s2 _ _ I2)).
  destruct (b32_dec _ (a ++ b)) as [z|] eqn:E; [|reflexivity]. elim Nb.
  apply (computes_iff _ _ _ _ _ Ba (b32_decode_ok t1 s1 _ a I1)) in H1. apply b32_dec_strict in H1 as [Bx E1]; [|auto].
  apply b32_dec_strict in E as [Bz E2]; [|auto]. cbn [b32_kind_of b32_padding] in E1, E2. subst a.
  now apply (rfc_after_padding 5 8 (b32_alphabet k) x z); auto using b32_no_eq.
Qed.
Print Assumptions C81_base32_after_padding.

(** the hypotheses are met: an unpadded text cut in the middle of a group, a forgiving text with white space and spare bits,
    a padded text, and lengths that no encoding has *)
Definition no_pad64 : b64_config := {| b64_kind_of := Standard; b64_extra_of := NoPad |}.
Definition no_pad32 : b32_config := {| b32_kind_of := KBase32; b32_padding := false |}.
Ltac small_bytes := repeat constructor; vm_compute; congruence.
Example C81_base64_ex : forall en s, b64_isa s ->
  computes (b64_decode en s no_pad64) (str "Zg"%string) (Some (str "f"%string)) /\
  computes (b64_decode en s no_pad64) (str "Zg"%string ++ str "AA"%string) (Some [102; 0; 0]) /\
  computes (b64_decode en s no_pad64) (str "ZgAAA"%string) None /\
  computes (b64_decode en s {| b64_kind_of := Standard; b64_extra_of := Pad |}) (str "Zg=="%string) (Some (str "f"%string)) /\
  computes (b64_decode en s {| b64_kind_of := Standard; b64_extra_of := Pad |}) (str "Zg=="%string ++ str "Zg=="%string) None.
Proof.
  intros en s I. repeat apply conj; (eapply computes_iff; [small_bytes|exact (b64_decode_ok en s _ _ I)|vm_compute; reflexivity]).
Qed.
Example C81_base32_ex : forall tg s, b32_isa s ->
  computes (b32_decode tg s no_pad32) (str "MY"%string) (Some (str "f"%string)) /\
  computes (b32_decode tg s no_pad32) (str "MY"%string ++ str "AA"%string) (Some [102; 0]) /\
  computes (b32_decode tg s no_pad32) (str "MYA"%string) None /\
  computes (b32_decode tg s {| b32_kind_of := KBase32; b32_padding := true |}) (str "MY======"%string) (Some (str "f"%string)) /\
  computes (b32_decode tg s {| b32_kind_of := KBase32; b32_padding := true |}) (str "MY======"%string ++ str "MY======"%string) None.
Proof.
  intros tg s I. repeat apply conj; (eapply computes_iff; [small_bytes|exact (b32_decode_ok tg s _ _ I)|vm_compute; reflexivity]).
Qed.
Example C81_hex_ex : forall s, computes (hex_decode s) (str "6a"%string) (Some [106]) /\ computes (hex_decode s) (str "6a"%string ++ str "Ff"%string) (Some [106; 255]) /\
  computes (hex_decode s) (str "6aF"%string) None.
Proof.
  intros s. repeat apply conj; (eapply computes_iff; [small_bytes|exact (hex_decode_ok s _)|vm_compute; reflexivity]).
Qed.
Example C81_forgiving_ex : forall en s1 s2, b64_isa s2 ->
  computes (forgiving_decode en s1 s2) (str "a b "%string) (Some [105]) /\ computes (forgiving_decode en s1 s2) (str "a b "%string ++ str "c"%string) (Some [105; 183]).
Proof.
  intros en s1 s2 I. repeat apply conj; (eapply computes_iff; [small_bytes|exact (forgiving_decode_ok en s1 s2 _ I)|vm_compute; reflexivity]).
Qed.
