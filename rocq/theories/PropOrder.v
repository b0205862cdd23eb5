(** Property theorems C57: which encoders preserve the lexicographic order of byte strings. *)
From Coq Require Import ZArith List Bool Lia String.
From Verif Require Import Bytes Mem MemFacts Slices Codec Isa Simd SimdFacts Spec Ints Hex HexApi Base64 Base64Ref Base64Api
  Base32SimdFacts Base32 Base32Ref Base32Api HexSimdFacts Uuid UuidFacts UuidApi OrderFacts.
Import ListNotations.
Open Scope list_scope. Open Scope Z_scope. Open Scope m_scope.

(** C57: hexadecimal text, in a fixed case, sorts like the data. *)
Theorem C57_hex_order : forall s1 s2 case a b, bytes a -> bytes b ->
  exists x y, encodes (fun p n q k => hex_encode s1 p n q k case) a x /\
    encodes (fun p n q k => hex_encode s2 p n q k case) b y /\ lex x y = lex a b.
Proof.
  intros s1 s2 case a b Ba Bb. eexists _, _. split; [apply hex_encode_ok|]. split; [apply hex_encode_ok|].
  apply lex_hex; [|assumption|assumption]. destruct case; apply (sorted_check_ok _ 16); vm_compute; reflexivity.
Qed.
Print Assumptions C57_hex_order.

(** C57: base32hex without padding sorts like the data (RFC 4648, section 7). *)
Theorem C57_base32hex_order : forall t1 t2 s1 s2 a b, b32_isa s1 -> b32_isa s2 -> bytes a -> bytes b ->
  exists x y, encodes (b32_encode t1 s1 BASE32HEX_NO_PAD) a x /\ encodes (b32_encode t2 s2 BASE32HEX_NO_PAD) b y /\ lex x y = lex a b.
Proof.
  intros t1 t2 s1 s2 a b I1 I2 Ba Bb. eexists _, _. split; [now apply b32_encode_ok|]. split; [now apply b32_encode_ok|].
  unfold b32_rfc, rfc_base32, rfc_encode. cbn [BASE32HEX_NO_PAD b32_padding b32_kind_of]. rewrite !app_nil_r.
  apply lex_rfc_chars; [lia| |assumption|assumption]. apply (sorted_check_ok _ 32). vm_compute. reflexivity.
Qed.
Print Assumptions C57_base32hex_order.
(** C57: with padding this holds among byte strings of equal length *)
Theorem C57_base32hex_padded_order_same_length : forall t1 t2 s1 s2 a b, b32_isa s1 -> b32_isa s2 -> bytes a -> bytes b ->
  List.length a = List.length b ->
  exists x y, encodes (b32_encode t1 s1 BASE32HEX) a x /\ encodes (b32_encode t2 s2 BASE32HEX) b y /\ lex x y = lex a b.
Proof.
  intros t1 t2 s1 s2 a b I1 I2 Ba Bb L. eexists _, _. split; [now apply b32_encode_ok|]. split; [now apply b32_encode_ok|].
  unfold b32_rfc, rfc_base32, rfc_encode. cbn [BASE32HEX b32_padding b32_kind_of].
  assert (E : List.length (rfc_chars 5 (b32_alphabet KBase32Hex) a) = List.length (rfc_chars 5 (b32_alphabet KBase32Hex) b)).
  { pose proof (b32_rfc_len BASE32HEX_NO_PAD a Ba) as La. pose proof (b32_rfc_len BASE32HEX_NO_PAD b Bb) as Lb.
    unfold b32_rfc, rfc_base32, rfc_encode in La, Lb. cbn [BASE32HEX_NO_PAD b32_padding b32_kind_of] in La, Lb. rewrite app_nil_r in La, Lb.
    now rewrite La, Lb, L. }
  rewrite lex_app, E, lex_refl by exact E. rewrite lex_rfc_chars; [destruct (lex a b); reflexivity|lia| |assumption|assumption].
  apply (sorted_check_ok _ 32). vm_compute. reflexivity.
Qed.
Print Assumptions C57_base32hex_padded_order_same_length.
(** but not among strings of different lengths: '=' sorts after the digits *)
Theorem C57_base32hex_padded_order_refuted : exists a b x y, bytes a /\ bytes b /\
  (forall t s, b32_isa s -> encodes (b32_encode t s BASE32HEX) a x /\ encodes (b32_encode t s BASE32HEX) b y) /\
  lex a b = Lt /\ lex x y = Gt.
Proof.
  exists [0], [0; 0], (b32_rfc BASE32HEX [0]), (b32_rfc BASE32HEX [0; 0]).
  split; [repeat constructor; lia|]. split; [repeat constructor; lia|].
  split; [intros t s I; split; now apply b32_encode_ok|]. split; vm_compute; reflexivity.
Qed.
Print Assumptions C57_base32hex_padded_order_refuted.
(** nor do the alphabets of base32 and base64 preserve the order, with or without padding, even among strings of equal length *)
Theorem C57_base32_order_refuted : forall pad, exists a b x y, bytes a /\ bytes b /\ List.length a = List.length b /\
  (forall t s, b32_isa s -> encodes (b32_encode t s {| b32_kind_of := KBase32; b32_padding := pad |}) a x /\
                            encodes (b32_encode t s {| b32_kind_of := KBase32; b32_padding := pad |}) b y) /\
  lex a b = Lt /\ lex x y = Gt.
Proof.
  intros pad. set (cfg := {| b32_kind_of := KBase32; b32_padding := pad |}). exists [0], [255], (b32_rfc cfg [0]), (b32_rfc cfg [255]).
  split; [repeat constructor; lia|]. split; [repeat constructor; lia|]. split; [reflexivity|].
  split; [intros t s I; split; now apply b32_encode_ok|]. split; destruct pad; vm_compute; reflexivity.
Qed.
Print Assumptions C57_base32_order_refuted.
Theorem C57_base64_order_refuted : forall cfg, exists a b x y, bytes a /\ bytes b /\ List.length a = List.length b /\
  (forall s, b64_isa s -> encodes (b64_encode s cfg) a x /\ encodes (b64_encode s cfg) b y) /\
  lex a b = Lt /\ lex x y = Gt.
Proof.
  intros cfg. exists [0], [208], (b64_rfc cfg [0]), (b64_rfc cfg [208]).
  split; [repeat constructor; lia|]. split; [repeat constructor; lia|]. split; [reflexivity|].
  split; [intros s I; split; now apply b64_encode_ok|]. split; destruct cfg as [[] []]; vm_compute; reflexivity.
Qed.
Print Assumptions C57_base64_order_refuted.

(** C57: UUIDs, simple and hyphenated form *)
Theorem C57_uuid_order : forall s1 s2 case u v, bytes u -> bytes v -> List.length u = 16%nat -> List.length v = 16%nat ->
  exists x y, encodes (format_simple_codec s1 case) u x /\ encodes (format_simple_codec s2 case) v y /\ lex x y = lex u v.
Proof.
  intros s1 s2 case u v Bu Bv Lu Lv. eexists _, _. split; [now apply format_simple_encodes|]. split; [now apply format_simple_encodes|].
  apply lex_hex; [|assumption|assumption]. destruct case; apply (sorted_check_ok _ 16); vm_compute; reflexivity.
Qed.
Print Assumptions C57_uuid_order.
Theorem C57_uuid_hyphenated_order : forall s1 s2 case u v, hyph_isa s1 -> hyph_isa s2 ->
  bytes u -> bytes v -> List.length u = 16%nat -> List.length v = 16%nat ->
  exists x y, encodes (format_hyphenated_codec s1 case) u x /\ encodes (format_hyphenated_codec s2 case) v y /\ lex x y = lex u v.
Proof.
  intros s1 s2 case u v I1 I2 Bu Bv Lu Lv. eexists _, _. split; [now apply format_hyphenated_encodes|]. split; [now apply format_hyphenated_encodes|].
  unfold uuid_hyphenated. rewrite lex_hyphenate by (rewrite hex_encode_len; lia).
  apply lex_hex; [|assumption|assumption]. destruct case; apply (sorted_check_ok _ 16); vm_compute; reflexivity.
Qed.
Print Assumptions C57_uuid_hyphenated_order.

(** ** Concrete instances *)
Example ex_order : lex (str "foo") (str "foobar") = Lt /\ lex (str "fox") (str "foobar") = Gt /\
  lex (rfc_hex_encode hex_upper (str "fox")) (rfc_hex_encode hex_upper (str "foobar")) = Gt /\
  lex (b32_rfc BASE32HEX_NO_PAD (str "foo")) (b32_rfc BASE32HEX_NO_PAD (str "foobar")) = Lt.
Proof. vm_compute. auto. Qed.
Example ex_order_isa : b32_isa AVX2 /\ b32_isa NEON64 /\ b64_isa SSSE3 /\ hyph_isa WASM128 /\ bytes (str "foobar").
Proof. repeat split; try (now left); try (now right). repeat constructor; vm_compute; congruence. Qed.
