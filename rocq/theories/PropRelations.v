(** Property theorems C58-C60: how the decoders treat related inputs.
    [computes f src out]: in every memory that holds [src] and has enough room, [f] returns the bytes [x] if
    [out = Some x] and Err if [out = None]. *)
From Coq Require Import ZArith List Bool Lia String ZifyBool.
From Verif Require Import Bytes Mem MemFacts Slices Codec Isa Simd SimdFacts Spec SpecFacts Ints Hex HexSimdFacts HexApi
  Base64 Base64Ref Base64Api Base32SimdFacts Base32 Base32Ref Base32Api Forgiving ForgivingFacts Uuid UuidFacts UuidApi Relations.
Import ListNotations.
Open Scope list_scope. Open Scope Z_scope. Open Scope m_scope.

(** C58: strict decoders are not malleable: one text per value. *)
Theorem C58_base64_unique_text : forall en1 en2 s1 s2 cfg a b x, b64_isa s1 -> b64_isa s2 -> b64_extra_of cfg <> Forgiving -> bytes a -> bytes b ->
  computes (b64_decode en1 s1 cfg) a (Some x) -> computes (b64_decode en2 s2 cfg) b (Some x) -> a = b.
Proof.
  intros en1 en2 s1 s2 cfg a b x I1 I2 St Ba Bb H1 H2.
  apply (computes_iff _ _ _ _ _ Ba (b64_decode_ok en1 s1 cfg a I1)) in H1. apply (computes_iff _ _ _ _ _ Bb (b64_decode_ok en2 s2 cfg b I2)) in H2.
  apply b64_dec_strict in H1; auto. apply b64_dec_strict in H2; auto. destruct H1 as [_ <-], H2 as [_ <-]. reflexivity.
Qed.
Print Assumptions C58_base64_unique_text.
Theorem C58_base32_unique_text : forall t1 t2 s1 s2 cfg a b x, b32_isa s1 -> b32_isa s2 -> bytes a -> bytes b ->
  computes (b32_decode t1 s1 cfg) a (Some x) -> computes (b32_decode t2 s2 cfg) b (Some x) -> a = b.
Proof.
  intros t1 t2 s1 s2 cfg a b x I1 I2 Ba Bb H1 H2.
  apply (computes_iff _ _ _ _ _ Ba (b32_decode_ok t1 s1 cfg a I1)) in H1. apply (computes_iff _ _ _ _ _ Bb (b32_decode_ok t2 s2 cfg b I2)) in H2.
  apply b32_dec_strict in H1; auto. apply b32_dec_strict in H2; auto. destruct H1 as [_ <-], H2 as [_ <-]. reflexivity.
Qed.
Print Assumptions C58_base32_unique_text.
(** hexadecimal texts of one value differ in letter case only, and letter case does not matter *)
Theorem C58_hex_case : forall s1 s2 a b x, bytes a -> bytes b -> computes (hex_decode s1) a (Some x) ->
  (computes (hex_decode s2) b (Some x) <-> map ascii_lower a = map ascii_lower b).
Proof.
  intros s1 s2 a b x Ba Bb H1. apply (computes_iff _ _ _ _ _ Ba (hex_decode_ok s1 a)) in H1.
  rewrite (computes_iff _ _ _ _ _ Bb (hex_decode_ok s2 b)). split.
  - intros H2. apply hex_decode_iff in H1; auto. apply hex_decode_iff in H2; auto. destruct H1 as [_ ->], H2 as [_ ->]. reflexivity.
  - intros E. now rewrite <- (hex_decode_lower a b).
Qed.
Print Assumptions C58_hex_case.
Theorem C58_hex_encode_case : forall s1 s2 a, bytes a ->
  exists x, encodes (fun p n q k => hex_encode s1 p n q k Upper) a x /\ encodes (fun p n q k => hex_encode s2 p n q k Lower) a (map ascii_lower x).
Proof.
  intros s1 s2 a B. exists (rfc_hex_encode (alphabet_of Upper) a). split; [apply hex_encode_ok|].
  change (alphabet_of Upper) with (lut_of Upper). rewrite hex_lower_lut by exact B. exact (hex_encode_ok s2 Lower a).
Qed.
Print Assumptions C58_hex_encode_case.
(** for uuids too, in the simple and the hyphenated form *)
Theorem C58_uuid_simple_case : forall s1 s2 a b out, bytes a -> bytes b -> map ascii_lower a = map ascii_lower b ->
  (computes (parse_simple_codec s1) a out <-> computes (parse_simple_codec s2) b out).
Proof.
  intros s1 s2 a b out Ba Bb E. rewrite (computes_iff _ _ _ _ _ Ba (parse_simple_decodes s1 a)), (computes_iff _ _ _ _ _ Bb (parse_simple_decodes s2 b)).
  now rewrite (simple_decode_lower a b).
Qed.
Print Assumptions C58_uuid_simple_case.
Theorem C58_uuid_hyphenated_case : forall s1 s2 a b out, hyph_isa s1 -> hyph_isa s2 -> bytes a -> bytes b -> map ascii_lower a = map ascii_lower b ->
  (computes (parse_hyphenated_codec s1) a out <-> computes (parse_hyphenated_codec s2) b out).
Proof.
  intros s1 s2 a b out I1 I2 Ba Bb E.
  rewrite (computes_iff _ _ _ _ _ Ba (parse_hyphenated_decodes s1 a I1)), (computes_iff _ _ _ _ _ Bb (parse_hyphenated_decodes s2 b I2)).
  now rewrite (hyph_decode_lower a b).
Qed.
Print Assumptions C58_uuid_hyphenated_case.
(** ... but not for the prefix of the urn form *)
Definition urn_text (prefix : list Z) : list Z := prefix ++ uuid_hyphenated hex_lower (range 16).
Theorem C58_uuid_urn_case_refuted : exists a b, bytes a /\ bytes b /\ map ascii_lower a = map ascii_lower b /\
  forall s1 s2, hyph_isa s2 -> computes (parse_codec s1 s2) a (Some (range 16)) /\ computes (parse_codec s1 s2) b None.
Proof.
  assert (Ba : bytes (urn_text (str "urn:uuid:"))) by (repeat constructor; vm_compute; congruence).
  assert (Bb : bytes (urn_text (str "URN:UUID:"))) by (repeat constructor; vm_compute; congruence).
  exists (urn_text (str "urn:uuid:")), (urn_text (str "URN:UUID:")).
  split; [exact Ba|]. split; [exact Bb|]. split; [vm_compute; reflexivity|]. intros s1 s2 I.
  split; [apply (computes_iff _ _ _ _ _ Ba (uuid_parse_decodes s1 s2 _ I))|apply (computes_iff _ _ _ _ _ Bb (uuid_parse_decodes s1 s2 _ I))];
    vm_compute; reflexivity.
Qed.
Print Assumptions C58_uuid_urn_case_refuted.
(** the forgiving decoder is malleable, even without white space and padding: spare bits are ignored *)
Theorem C58_forgiving_unique_text_refuted : exists a b x, bytes a /\ bytes b /\ a <> b /\ strip_whitespace a = a /\ strip_whitespace b = b /\
  ~ In 61 a /\ ~ In 61 b /\
  forall en s1 s2, b64_isa s2 -> computes (forgiving_decode en s1 s2) a (Some x) /\ computes (forgiving_decode en s1 s2) b (Some x).
Proof.
  assert (Ba : bytes (str "ab")) by (repeat constructor; vm_compute; congruence).
  assert (Bb : bytes (str "aa")) by (repeat constructor; vm_compute; congruence).
  exists (str "ab"), (str "aa"), [105]. split; [exact Ba|]. split; [exact Bb|]. split; [discriminate|]. split; [reflexivity|]. split; [reflexivity|].
  split; [cbn; lia|]. split; [cbn; lia|]. intros en s1 s2 I.
  split; [apply (computes_iff _ _ _ _ _ Ba (forgiving_decode_ok en s1 s2 _ I))|apply (computes_iff _ _ _ _ _ Bb (forgiving_decode_ok en s1 s2 _ I))];
    vm_compute; reflexivity.
Qed.
Print Assumptions C58_forgiving_unique_text_refuted.

(** C59: decoding whole groups separately. *)
Theorem C59_base64_decode_app : forall en1 en2 en3 s1 s2 s3 cfg a b x y, b64_isa s1 -> b64_isa s2 -> b64_isa s3 -> b64_extra_of cfg <> Forgiving ->
  bytes a -> bytes b -> (List.length x mod 3 = 0)%nat ->
  computes (b64_decode en1 s1 cfg) a (Some x) -> computes (b64_decode en2 s2 cfg) b (Some y) -> computes (b64_decode en3 s3 cfg) (a ++ b) (Some (x ++ y)).
Proof.
  intros en1 en2 en3 s1 s2 s3 cfg a b x y I1 I2 I3 St Ba Bb L H1 H2.
  apply (computes_iff _ _ _ _ _ Ba (b64_decode_ok en1 s1 cfg a I1)) in H1. apply (computes_iff _ _ _ _ _ Bb (b64_decode_ok en2 s2 cfg b I2)) in H2.
  assert (Bab : bytes (a ++ b)) by now apply bytes_app. apply (computes_iff _ _ _ _ _ Bab (b64_decode_ok en3 s3 cfg _ I3)).
  apply b64_dec_strict in H1; auto. apply b64_dec_strict in H2; auto. apply b64_dec_strict; auto.
  destruct H1 as [Bx <-], H2 as [By <-]. split; [now apply bytes_app|]. now apply (b64_rfc_app cfg).
Qed.
Print Assumptions C59_base64_decode_app.
Theorem C59_base64_decode_split : forall en1 en2 en3 s1 s2 s3 cfg a b z, b64_isa s1 -> b64_isa s2 -> b64_isa s3 -> b64_extra_of cfg <> Forgiving ->
  bytes a -> bytes b -> (List.length a mod 4 = 0)%nat -> computes (b64_decode en1 s1 cfg) (a ++ b) (Some z) ->
  exists x y, z = x ++ y /\ computes (b64_decode en2 s2 cfg) a (Some x) /\ computes (b64_decode en3 s3 cfg) b (Some y).
Proof.
  intros en1 en2 en3 s1 s2 s3 cfg a b z I1 I2 I3 St Ba Bb L H.
  assert (Bab : bytes (a ++ b)) by now apply bytes_app. apply (computes_iff _ _ _ _ _ Bab (b64_decode_ok en1 s1 cfg _ I1)) in H.
  apply b64_dec_strict in H; auto. destruct H as [Bz E]. destruct (b64_rfc_split cfg z a b Bz E L) as (x & y & -> & Bx & By & Ex & Ey).
  exists x, y. split; [reflexivity|].
  rewrite (computes_iff _ _ _ _ _ Ba (b64_decode_ok en2 s2 cfg a I2)), (computes_iff _ _ _ _ _ Bb (b64_decode_ok en3 s3 cfg b I3)).
  split; apply b64_dec_strict; auto.
Qed.
Print Assumptions C59_base64_decode_split.
Theorem C59_base32_decode_app : forall t1 t2 t3 s1 s2 s3 cfg a b x y, b32_isa s1 -> b32_isa s2 -> b32_isa s3 ->
  bytes a -> bytes b -> (List.length x mod 5 = 0)%nat ->
  computes (b32_decode t1 s1 cfg) a (Some x) -> computes (b32_decode t2 s2 cfg) b (Some y) -> computes (b32_decode t3 s3 cfg) (a ++ b) (Some (x ++ y)).
Proof.
  intros t1 t2 t3 s1 s2 s3 cfg a b x y I1 I2 I3 Ba Bb L H1 H2.
  apply (computes_iff _ _ _ _ _ Ba (b32_decode_ok t1 s1 cfg a I1)) in H1. apply (computes_iff _ _ _ _ _ Bb (b32_decode_ok t2 s2 cfg b I2)) in H2.
  assert (Bab : bytes (a ++ b)) by now apply bytes_app. apply (computes_iff _ _ _ _ _ Bab (b32_decode_ok t3 s3 cfg _ I3)).
  apply b32_dec_strict in H1; auto. apply b32_dec_strict in H2; auto. apply b32_dec_strict; auto.
  destruct H1 as [Bx <-], H2 as [By <-]. split; [now apply bytes_app|]. now apply (b32_rfc_app cfg).
Qed.
Print Assumptions C59_base32_decode_app.
Theorem C59_base32_decode_split : forall t1 t2 t3 s1 s2 s3 cfg a b z, b32_isa s1 -> b32_isa s2 -> b32_isa s3 ->
  bytes a -> bytes b -> (List.length a mod 8 = 0)%nat -> computes (b32_decode t1 s1 cfg) (a ++ b) (Some z) ->
  exists x y, z = x ++ y /\ computes (b32_decode t2 s2 cfg) a (Some x) /\ computes (b32_decode t3 s3 cfg) b (Some y).
Proof.
  intros t1 t2 t3 s1 s2 s3 cfg a b z I1 I2 I3 Ba Bb L H.
  assert (Bab : bytes (a ++ b)) by now apply bytes_app. apply (computes_iff _ _ _ _ _ Bab (b32_decode_ok t1 s1 cfg _ I1)) in H.
  apply b32_dec_strict in H; auto. destruct H as [Bz E]. destruct (b32_rfc_split cfg z a b Bz E L) as (x & y & -> & Bx & By & Ex & Ey).
  exists x, y. split; [reflexivity|].
  rewrite (computes_iff _ _ _ _ _ Ba (b32_decode_ok t2 s2 cfg a I2)), (computes_iff _ _ _ _ _ Bb (b32_decode_ok t3 s3 cfg b I3)).
  split; apply b32_dec_strict; auto.
Qed.
Print Assumptions C59_base32_decode_split.
Theorem C59_hex_decode_app : forall s1 s2 s3 a b x y, bytes a -> bytes b ->
  computes (hex_decode s1) a (Some x) -> computes (hex_decode s2) b (Some y) -> computes (hex_decode s3) (a ++ b) (Some (x ++ y)).
Proof.
  intros s1 s2 s3 a b x y Ba Bb H1 H2.
  apply (computes_iff _ _ _ _ _ Ba (hex_decode_ok s1 a)) in H1. apply (computes_iff _ _ _ _ _ Bb (hex_decode_ok s2 b)) in H2.
  assert (Bab : bytes (a ++ b)) by now apply bytes_app. apply (computes_iff _ _ _ _ _ Bab (hex_decode_ok s3 _)). now apply hex_decode_app.
Qed.
Print Assumptions C59_hex_decode_app.
Theorem C59_hex_decode_split : forall s1 s2 s3 a b z, bytes a -> bytes b -> (List.length a mod 2 = 0)%nat ->
  computes (hex_decode s1) (a ++ b) (Some z) ->
  exists x y, z = x ++ y /\ computes (hex_decode s2) a (Some x) /\ computes (hex_decode s3) b (Some y).
Proof.
  intros s1 s2 s3 a b z Ba Bb L H.
  assert (Bab : bytes (a ++ b)) by now apply bytes_app. apply (computes_iff _ _ _ _ _ Bab (hex_decode_ok s1 _)) in H.
  destruct (hex_decode_split a b z Ba Bb L H) as (x & y & -> & Ex & Ey). exists x, y. split; [reflexivity|].
  now rewrite (computes_iff _ _ _ _ _ Ba (hex_decode_ok s2 a)), (computes_iff _ _ _ _ _ Bb (hex_decode_ok s3 b)).
Qed.
Print Assumptions C59_hex_decode_split.

(** C60: the padded configuration accepts what the unpadded one accepts with the missing '=' added. *)
Theorem C60_base64_padding : forall en1 en2 s1 s2 k t x, b64_isa s1 -> b64_isa s2 -> bytes t -> ~ In 61 t ->
  (computes (b64_decode en1 s1 {| b64_kind_of := k; b64_extra_of := NoPad |}) t (Some x) <->
   computes (b64_decode en2 s2 {| b64_kind_of := k; b64_extra_of := Pad |}) (t ++ repeat 61 (rfc_pad_len 4 (List.length t))) (Some x)).
Proof.
  intros en1 en2 s1 s2 k t x I1 I2 B N.
  assert (Bp : bytes (t ++ repeat 61 (rfc_pad_len 4 (List.length t)))).
  { apply bytes_app. split; [exact B|]. apply Forall_forall. intros c H. apply repeat_spec in H as ->. unfold byte. lia. }
  rewrite (computes_iff _ _ _ _ _ B (b64_decode_ok en1 s1 _ t I1)), (computes_iff _ _ _ _ _ Bp (b64_decode_ok en2 s2 _ _ I2)).
  rewrite !b64_dec_strict by (assumption || discriminate). cbn [b64_kind_of b64_extra_of b64_padding]. unfold rfc_base64.
  split; intros [Bx E]; (split; [exact Bx|]); apply (rfc_pad_iff 6 4 _ x t (b64_no_eq k x Bx) N); exact E.
Qed.
Print Assumptions C60_base64_padding.
Theorem C60_base32_padding : forall t1 t2 s1 s2 k t x, b32_isa s1 -> b32_isa s2 -> bytes t -> ~ In 61 t ->
  (computes (b32_decode t1 s1 {| b32_kind_of := k; b32_padding := false |}) t (Some x) <->
   computes (b32_decode t2 s2 {| b32_kind_of := k; b32_padding := true |}) (t ++ repeat 61 (rfc_pad_len 8 (List.length t))) (Some x)).
Proof.
  intros t1 t2 s1 s2 k t x I1 I2 B N.
  assert (Bp : bytes (t ++ repeat 61 (rfc_pad_len 8 (List.length t)))).
  { apply bytes_app. split; [exact B|]. apply Forall_forall. intros c H. apply repeat_spec in H as ->. unfold byte. lia. }
  rewrite (computes_iff _ _ _ _ _ B (b32_decode_ok t1 s1 _ t I1)), (computes_iff _ _ _ _ _ Bp (b32_decode_ok t2 s2 _ _ I2)).
  rewrite !b32_dec_strict by assumption. cbn [b32_kind_of b32_padding]. unfold rfc_base32.
  split; intros [Bx E]; (split; [exact Bx|]); apply (rfc_pad_iff 5 8 _ x t (b32_no_eq k x Bx) N); exact E.
Qed.
Print Assumptions C60_base32_padding.
(** without padding characters in the text no padded configuration is needed: the unpadded one rejects '=' *)
Theorem C60_base64_no_pad_rejects : forall en s k t, b64_isa s -> bytes t -> In 61 t ->
  computes (b64_decode en s {| b64_kind_of := k; b64_extra_of := NoPad |}) t None.
Proof.
  intros en s k t I B H. apply (computes_iff _ _ _ _ _ B (b64_decode_ok en s _ t I)).
  destruct (b64_dec _ t) as [x|] eqn:E; [|reflexivity]. apply b64_dec_strict in E; [|exact B|discriminate].
  cbn [b64_kind_of b64_extra_of b64_padding] in E. destruct E as [Bx <-]. unfold rfc_base64, rfc_encode in H. cbn zeta in H. rewrite app_nil_r in H.
  now apply b64_no_eq in H.
Qed.
Print Assumptions C60_base64_no_pad_rejects.
Theorem C60_base32_no_pad_rejects : forall tg s k t, b32_isa s -> bytes t -> In 61 t ->
  computes (b32_decode tg s {| b32_kind_of := k; b32_padding := false |}) t None.
Proof.
  intros tg s k t I B H. apply (computes_iff _ _ _ _ _ B (b32_decode_ok tg s _ t I)).
  destruct (b32_dec _ t) as [x|] eqn:E; [|reflexivity]. apply b32_dec_strict in E; [|exact B].
  cbn [b32_kind_of b32_padding] in E. destruct E as [Bx <-]. unfold rfc_base32, rfc_encode in H. cbn zeta in H. rewrite app_nil_r in H.
  now apply b32_no_eq in H.
Qed.
Print Assumptions C60_base32_no_pad_rejects.
(** C60: the forgiving decoder gives the same bytes for every text that a strict decoder of the standard alphabet accepts,
    also after inserting white space anywhere. *)
Theorem C60_forgiving_extends_strict : forall en1 en2 s1 s2 s3 e a b x, b64_isa s1 -> b64_isa s3 -> bytes a -> bytes b -> e <> Forgiving ->
  strip_whitespace b = a ->
  computes (b64_decode en1 s1 {| b64_kind_of := Standard; b64_extra_of := e |}) a (Some x) -> computes (forgiving_decode en2 s2 s3) b (Some x).
Proof.
  intros en1 en2 s1 s2 s3 e a b x I1 I3 Ba Bb St E H.
  apply (computes_iff _ _ _ _ _ Ba (b64_decode_ok en1 s1 _ a I1)) in H. apply (computes_iff _ _ _ _ _ Bb (forgiving_decode_ok en2 s2 s3 b I3)).
  rewrite <- forgiving_spec, E by exact Bb. apply b64_dec_strict in H; [|exact Ba|exact St]. cbn [b64_kind_of b64_extra_of] in H. destruct H as [Bx <-].
  now apply (b64_dec_forgiving_rfc Standard).
Qed.
Print Assumptions C60_forgiving_extends_strict.
Theorem C60_forgiving_ignores_whitespace : forall en1 en2 s1 s2 s3 s4 a b out, b64_isa s2 -> b64_isa s4 -> bytes a -> bytes b ->
  strip_whitespace a = strip_whitespace b ->
  (computes (forgiving_decode en1 s1 s2) a out <-> computes (forgiving_decode en2 s3 s4) b out).
Proof.
  intros en1 en2 s1 s2 s3 s4 a b out I2 I4 Ba Bb E.
  rewrite (computes_iff _ _ _ _ _ Ba (forgiving_decode_ok en1 s1 s2 a I2)), (computes_iff _ _ _ _ _ Bb (forgiving_decode_ok en2 s3 s4 b I4)).
  now rewrite <- !forgiving_spec, E by assumption.
Qed.
Print Assumptions C60_forgiving_ignores_whitespace.

(** C49, for the decoders: a text without '-' and '_' means the same in the other alphabet, and a character outside the
    alphabet is refused by [decode] and [check]. *)
Theorem C49_base64_url_decoders : forall en1 en2 s1 s2 e s out, b64_isa s1 -> b64_isa s2 -> bytes s -> ~ In 45 s -> ~ In 95 s ->
  (computes (b64_decode en1 s1 {| b64_kind_of := UrlSafe; b64_extra_of := e |}) (map to_url s) out <->
   computes (b64_decode en2 s2 {| b64_kind_of := Standard; b64_extra_of := e |}) s out).
Proof.
  intros en1 en2 s1 s2 e s out I1 I2 B N1 N2.
  assert (B' : bytes (map to_url s)).
  { clear N1 N2. induction B as [|c l Hc B IH]; cbn [map]; constructor; auto. unfold to_url. destruct (c =? 43), (c =? 47); unfold byte in *; lia. }
  rewrite (computes_iff _ _ _ _ _ B' (b64_decode_ok en1 s1 _ _ I1)), (computes_iff _ _ _ _ _ B (b64_decode_ok en2 s2 _ _ I2)).
  now rewrite b64_dec_url.
Qed.
Print Assumptions C49_base64_url_decoders.
Theorem C49_base64_foreign_rejected : forall en s cfg t c, b64_isa s -> bytes t -> In c t -> c <> 61 ->
  index_of c (b64_alphabet (b64_kind_of cfg)) = None ->
  computes (b64_decode en s cfg) t None /\ checks (b64_check en s cfg) t false.
Proof.
  intros en s cfg t c I B Hc N E. assert (D : b64_dec cfg t = None) by (eapply b64_dec_foreign; eauto; eapply Forall_forall in B; eauto). split.
  - apply (computes_iff _ _ _ _ _ B (b64_decode_ok en s _ _ I)). exact D.
  - assert (K := b64_check_ok en s cfg t I). rewrite D in K. exact K.
Qed.
Print Assumptions C49_base64_foreign_rejected.

(** ** Concrete instances *)
Lemma str_bytes l : forallb (fun c => (0 <=? c) && (c <? 256)) l = true -> bytes l.
Proof. intros H. rewrite forallb_forall in H. apply Forall_forall. intros c Hc. apply H in Hc. unfold byte. lia. Qed.
Example ex_computes : forall en s, b64_isa s -> computes (b64_decode en s STANDARD) (str "Zm9vYmE=") (Some (str "fooba")).
Proof. intros en s I. apply (computes_iff _ _ _ _ _ (str_bytes (str "Zm9vYmE=") eq_refl) (b64_decode_ok en s _ _ I)). vm_compute. reflexivity. Qed.
Example ex_whitespace : forall en s1 s2, b64_isa s2 -> computes (forgiving_decode en s1 s2) (str " Zm 9vY mE =") (Some (str "fooba")).
Proof.
  intros en s1 s2 I. eapply (C60_forgiving_extends_strict LE en Fallback s1 s2 Pad (str "Zm9vYmE=")); try assumption; try (now apply str_bytes);
    [now left|discriminate|reflexivity|apply (ex_computes LE Fallback); now left].
Qed.
Example ex_split : forall s, computes (hex_decode s) (str "dE" ++ str "AdbeeF") (Some [222; 173; 190; 239]).
Proof. intros s. apply (computes_iff _ _ _ _ _ (str_bytes (str "dE" ++ str "AdbeeF") eq_refl) (hex_decode_ok s _)). vm_compute. reflexivity. Qed.
Example ex_case : map ascii_lower (str "dEAdbeeF") = map ascii_lower (str "DeaDBEEf"). Proof. reflexivity. Qed.
Example ex_pad : forall tg s, b32_isa s -> computes (b32_decode tg s BASE32) (str "MZXW6YTBOI======") (Some (str "foobar")).
Proof. intros tg s I. apply (computes_iff _ _ _ _ _ (str_bytes (str "MZXW6YTBOI======") eq_refl) (b32_decode_ok tg s _ _ I)). vm_compute. reflexivity. Qed.
Example ex_foreign : index_of 45 (b64_alphabet Standard) = None /\ index_of 43 (b64_alphabet UrlSafe) = None /\ map to_url (str "a+/=") = str "a-_=".
Proof. repeat split; vm_compute; reflexivity. Qed.
