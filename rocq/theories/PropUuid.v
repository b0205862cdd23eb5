(** Property theorems for uuid-simd (C30-C33 and the uuid parts of C16, C45, C50).
    [hyph_isa s] says that [s] is the portable code or an instruction set for which the hyphenated functions are
    compiled (SSE4.1, AVX2, NEON, WASM128); the simple functions are proved for all eight. *)
From Coq Require Import ZArith List Bool Lia String.
From Verif Require Import Bytes Mem MemFacts Slices Codec Isa Simd Spec Hex HexSimdFacts HexApi Uuid UuidFacts UuidApi.
Import ListNotations.
Open Scope list_scope. Open Scope Z_scope. Open Scope m_scope.

(** C30: formatting writes the hexadecimal digits, in groups 8-4-4-4-12 for the hyphenated form. *)
Theorem C30_uuid_format_simple : forall s case u, List.length u = 16%nat ->
  encodes (format_simple_codec s case) u (uuid_simple (alphabet_of case) u).
Proof. exact format_simple_encodes. Qed.
Print Assumptions C30_uuid_format_simple.
Theorem C30_uuid_format_hyphenated : forall s case u, hyph_isa s -> List.length u = 16%nat ->
  encodes (format_hyphenated_codec s case) u (uuid_hyphenated (alphabet_of case) u).
Proof. exact format_hyphenated_encodes. Qed.
Print Assumptions C30_uuid_format_hyphenated.

(** C31: exactly the four forms are accepted. *)
Theorem C31_uuid_parse_exact : forall s1 s2 t, hyph_isa s2 -> decode_exact (parse_codec s1 s2) t 16 (uuid_text t).
Proof. intros s1 s2 t Hs. eapply exact_decode; [now apply uuid_parse_decodes|intros _; apply uuid_exactly]. Qed.
Print Assumptions C31_uuid_parse_exact.
Theorem C31_uuid_parse_simple_exact : forall s t, decode_exact (parse_simple_codec s) t 16 (uuid_text_simple t).
Proof. intros s t. eapply exact_decode; [apply parse_simple_decodes|intros _; apply simple_exactly]. Qed.
Print Assumptions C31_uuid_parse_simple_exact.
Theorem C31_uuid_parse_hyphenated_exact : forall s t, hyph_isa s -> decode_exact (parse_hyphenated_codec s) t 16 (uuid_text_hyphenated t).
Proof. intros s t Hs. eapply exact_decode; [now apply parse_hyphenated_decodes|intros _; apply hyph_exactly]. Qed.
Print Assumptions C31_uuid_parse_hyphenated_exact.
(** the specification in terms of the formatter: a text form is, up to letter case, a formatted UUID *)
Theorem C31_uuid_text_simple_lower : forall t u, bytes t ->
  uuid_text_simple t u <-> List.length u = 16%nat /\ bytes u /\ map ascii_lower t = uuid_simple hex_lower u.
Proof. intros t u B. unfold uuid_text_simple, uuid_simple. rewrite hex_decode_iff by exact B. tauto. Qed.
Print Assumptions C31_uuid_text_simple_lower.

(** C32: round trips, any pair of implementations, both cases. *)
Theorem C32_uuid_roundtrip_simple : forall s1 s2 s3 case u, hyph_isa s3 -> List.length u = 16%nat -> bytes u ->
  roundtrips (format_simple_codec s1 case) (parse_codec s2 s3) u 32.
Proof.
  intros s1 s2 s3 case u Hs L B. assert (E := format_simple_encodes s1 case u L).
  replace 32%nat with (List.length (uuid_simple (alphabet_of case) u)) by (unfold uuid_simple; rewrite hex_encode_len, L; reflexivity).
  apply roundtrip; [exact E| |apply simple_bytes].
  rewrite L. replace (Some u) with (uuid_decode (uuid_simple (alphabet_of case) u)); [now apply uuid_parse_decodes|].
  apply uuid_exactly. left. now apply simple_roundtrip.
Qed.
Print Assumptions C32_uuid_roundtrip_simple.
Theorem C32_uuid_roundtrip_hyphenated : forall s1 s2 s3 case u, hyph_isa s1 -> hyph_isa s3 -> List.length u = 16%nat -> bytes u ->
  roundtrips (format_hyphenated_codec s1 case) (parse_codec s2 s3) u 36.
Proof.
  intros s1 s2 s3 case u Hs1 Hs L B. assert (E := format_hyphenated_encodes s1 case u Hs1 L).
  replace 36%nat with (List.length (uuid_hyphenated (alphabet_of case) u)) by (apply hyphenate_len; rewrite hex_encode_len, L; reflexivity).
  apply roundtrip; [exact E| |apply hyphenated_bytes].
  rewrite L. replace (Some u) with (uuid_decode (uuid_hyphenated (alphabet_of case) u)); [now apply uuid_parse_decodes|].
  apply uuid_exactly. right. left. now apply hyphenated_roundtrip.
Qed.
Print Assumptions C32_uuid_roundtrip_hyphenated.
(** ... also through the parsers for one form *)
Theorem C32_uuid_roundtrip_one_form : forall s1 s2 s3 s4 case u, hyph_isa s3 -> hyph_isa s4 -> List.length u = 16%nat -> bytes u ->
  roundtrips (format_simple_codec s1 case) (parse_simple_codec s2) u 32 /\
  roundtrips (format_hyphenated_codec s3 case) (parse_hyphenated_codec s4) u 36.
Proof.
  intros s1 s2 s3 s4 case u Hs1 Hs L B. split.
  - replace 32%nat with (List.length (uuid_simple (alphabet_of case) u)) by (unfold uuid_simple; rewrite hex_encode_len, L; reflexivity).
    apply roundtrip; [now apply format_simple_encodes| |apply simple_bytes].
    rewrite L. replace (Some u) with (simple_decode (uuid_simple (alphabet_of case) u)); [apply parse_simple_decodes|].
    apply simple_exactly. now apply simple_roundtrip.
  - replace 36%nat with (List.length (uuid_hyphenated (alphabet_of case) u)) by (apply hyphenate_len; rewrite hex_encode_len, L; reflexivity).
    apply roundtrip; [now apply format_hyphenated_encodes| |apply hyphenated_bytes].
    rewrite L. replace (Some u) with (hyph_decode (uuid_hyphenated (alphabet_of case) u)); [now apply parse_hyphenated_decodes|].
    apply hyph_exactly. now apply hyphenated_roundtrip.
Qed.
Print Assumptions C32_uuid_roundtrip_one_form.
(** parsing, then formatting, gives the lower-cased text *)
Theorem C32_uuid_reformat : forall t u, bytes t -> uuid_text_simple t u ->
  uuid_simple hex_lower u = map ascii_lower t.
Proof. intros t u B H. apply C31_uuid_text_simple_lower in H; [|exact B]. symmetry. apply H. Qed.
Print Assumptions C32_uuid_reformat.

(** C33: memory safety. *)
Theorem C33_uuid_parse_memory : forall s1 s2 t, hyph_isa s2 -> array_safe (parse_codec s1 s2) t 16.
Proof.
  intros s1 s2 t Hs. eapply dec_array_safe; [now apply uuid_parse_decodes|]. intros x Hx B. now apply uuid_spec_bytes with t.
Qed.
Print Assumptions C33_uuid_parse_memory.
Theorem C33_uuid_parse_simple_memory : forall s t, array_safe (parse_simple_codec s) t 16.
Proof.
  intros s t. eapply dec_array_safe; [now apply parse_simple_decodes|]. intros x Hx B. now apply simple_spec_bytes with t.
Qed.
Print Assumptions C33_uuid_parse_simple_memory.
Theorem C33_uuid_parse_hyphenated_memory : forall s t, hyph_isa s -> array_safe (parse_hyphenated_codec s) t 16.
Proof.
  intros s t Hs. eapply dec_array_safe; [now apply parse_hyphenated_decodes|]. intros x Hx B. now apply hyph_spec_bytes with t.
Qed.
Print Assumptions C33_uuid_parse_hyphenated_memory.
Theorem C33_uuid_format_simple_memory : forall s case u, List.length u = 16%nat -> array_safe (format_simple_codec s case) u 32.
Proof.
  intros s case u L. assert (S := enc_array_safe _ _ _ (format_simple_encodes s case u L) (simple_bytes case u)).
  unfold uuid_simple in S. rewrite hex_encode_len, L in S. exact S.
Qed.
Print Assumptions C33_uuid_format_simple_memory.
Theorem C33_uuid_format_hyphenated_memory : forall s case u, hyph_isa s -> List.length u = 16%nat ->
  array_safe (format_hyphenated_codec s case) u 36.
Proof.
  intros s case u Hs L. assert (S := enc_array_safe _ _ _ (format_hyphenated_encodes s case u Hs L) (hyphenated_bytes case u)).
  unfold uuid_hyphenated in S. rewrite hyphenate_len in S; [exact S|]. rewrite hex_encode_len, L. reflexivity.
Qed.
Print Assumptions C33_uuid_format_hyphenated_memory.

(** C16: what the formatters write is ASCII. *)
Theorem C16_uuid_ascii : forall s1 s2 case1 case2 u, hyph_isa s2 -> bytes u -> List.length u = 16%nat ->
  exists x y, encodes (format_simple_codec s1 case1) u x /\ encodes (format_hyphenated_codec s2 case2) u y /\
  Forall ascii_char x /\ Forall ascii_char y.
Proof.
  intros s1 s2 c1 c2 u Hs B L. exists (uuid_simple (alphabet_of c1) u), (uuid_hyphenated (alphabet_of c2) u).
  split; [now apply format_simple_encodes|]. split; [now apply format_hyphenated_encodes|].
  split; [now apply hex_encode_ascii|]. apply hyphenate_forall; [unfold ascii_char; lia|now apply hex_encode_ascii].
Qed.
Print Assumptions C16_uuid_ascii.

(** C45: old destination contents do not matter; nor does the implementation. *)
Theorem C45_uuid_format_simple_old_contents : forall s1 s2 case u, List.length u = 16%nat ->
  array_agree (format_simple_codec s1 case) (format_simple_codec s2 case) u 32.
Proof.
  intros s1 s2 case u L. assert (A := enc_array_agree _ _ _ _ (format_simple_encodes s1 case u L) (format_simple_encodes s2 case u L)).
  unfold uuid_simple in A. rewrite hex_encode_len, L in A. exact A.
Qed.
Print Assumptions C45_uuid_format_simple_old_contents.
Theorem C45_uuid_format_hyphenated_old_contents : forall s1 s2 case u, hyph_isa s1 -> hyph_isa s2 -> List.length u = 16%nat ->
  array_agree (format_hyphenated_codec s1 case) (format_hyphenated_codec s2 case) u 36.
Proof.
  intros s1 s2 case u H1 H2 L.
  assert (A := enc_array_agree _ _ _ _ (format_hyphenated_encodes s1 case u H1 L) (format_hyphenated_encodes s2 case u H2 L)).
  unfold uuid_hyphenated in A. rewrite hyphenate_len in A; [exact A|]. rewrite hex_encode_len, L. reflexivity.
Qed.
Print Assumptions C45_uuid_format_hyphenated_old_contents.
Theorem C45_uuid_parse_old_contents : forall s1 s2 s3 s4 t, bytes t -> hyph_isa s2 -> hyph_isa s4 ->
  array_agree (parse_codec s1 s2) (parse_codec s3 s4) t 16.
Proof.
  intros s1 s2 s3 s4 t B H2 H4. eapply dec_array_agree; [now apply uuid_parse_decodes|now apply uuid_parse_decodes|].
  intros x Hx. now apply uuid_spec_bytes in Hx.
Qed.
Print Assumptions C45_uuid_parse_old_contents.

(** C50: formatting is injective, and different forms of one text do not collide. *)
Theorem C50_uuid_injective : forall s1 s2 case u v, bytes u -> bytes v -> List.length u = 16%nat -> List.length v = 16%nat ->
  exists x y, encodes (format_simple_codec s1 case) u x /\ encodes (format_simple_codec s2 case) v y /\ (x = y -> u = v).
Proof.
  intros s1 s2 case u v Bu Bv Lu Lv. exists (uuid_simple (alphabet_of case) u), (uuid_simple (alphabet_of case) v).
  split; [now apply format_simple_encodes|]. split; [now apply format_simple_encodes|]. intros E.
  apply (hex_encode_inj case); auto.
Qed.
Print Assumptions C50_uuid_injective.
Theorem C50_uuid_hyphenated_injective : forall s1 s2 case u v, hyph_isa s1 -> hyph_isa s2 ->
  bytes u -> bytes v -> List.length u = 16%nat -> List.length v = 16%nat ->
  exists x y, encodes (format_hyphenated_codec s1 case) u x /\ encodes (format_hyphenated_codec s2 case) v y /\ (x = y -> u = v).
Proof.
  intros s1 s2 case u v H1 H2 Bu Bv Lu Lv. exists (uuid_hyphenated (alphabet_of case) u), (uuid_hyphenated (alphabet_of case) v).
  split; [now apply format_hyphenated_encodes|]. split; [now apply format_hyphenated_encodes|]. intros E.
  assert (Ru := proj2 (hyph_exactly _ _) (hyphenated_roundtrip case u Bu Lu)).
  assert (Rv := proj2 (hyph_exactly _ _) (hyphenated_roundtrip case v Bv Lv)).
  enough (Some u = Some v) by congruence. rewrite <- Ru, <- Rv. f_equal. exact E.
Qed.
Print Assumptions C50_uuid_hyphenated_injective.

(** ** Concrete instances *)
Definition ex_u : list Z := [103; 228; 247; 206; 0; 17; 171; 205; 239; 255; 1; 2; 3; 4; 5; 254].
Definition ex_show {A} (r : res A) (b : nat) : option (A * list cell) := match r with Ret a m => Some (a, m b) | _ => None end.
Example ex_u_bytes : bytes ex_u /\ List.length ex_u = 16%nat.
Proof. split; [|reflexivity]. apply Forall_forall. intros x H. cbn in H. unfold byte. lia. Qed.
Example ex_format_hyphenated :
  map (fun s => ex_show (uuid_format_hyphenated s (0, 0)%nat (1, 1)%nat Upper (mem_of [cells ex_u; uninit 38])) 1)
      [Fallback; SSE41; AVX2; NEON32; NEON64; WASM128]
  = repeat (Some ((1, 1, 36)%nat, uninit 1 ++ cells (str "67E4F7CE-0011-ABCD-EFFF-0102030405FE") ++ uninit 1)) 6.
Proof. vm_compute. reflexivity. Qed.
Example ex_parse_urn :
  ex_show (uuid_parse SSE2 AVX2 (0, 0)%nat 45 (1, 0)%nat
    (mem_of [cells (str "urn:uuid:67e4F7Ce-0011-abcd-efff-0102030405fe"); uninit 16])) 1
  = Some (Ok (1, 0, 16)%nat, cells ex_u).
Proof. vm_compute. reflexivity. Qed.
Example ex_parse_braced :
  ex_show (uuid_parse SSE2 Fallback (0, 0)%nat 38 (1, 0)%nat
    (mem_of [cells (str "{67e4F7Ce-0011-abcd-efff-0102030405fe}"); uninit 16])) 1
  = Some (Ok (1, 0, 16)%nat, cells ex_u).
Proof. vm_compute. reflexivity. Qed.
(** "URN:UUID:" in capitals, a hyphen in the wrong place, and a non-digit *)
Example ex_parse_rejects :
  map (fun t => ex_show (uuid_parse SSE2 SSE41 (0, 0)%nat (List.length t) (1, 0)%nat (mem_of [cells t; uninit 16])) 1)
    [str "URN:UUID:67e4f7ce-0011-abcd-efff-0102030405fe"; str "67e4f7ce0-011-abcd-efff-0102030405fe";
     str "67e4f7ce-0011-abcd-efff-0102030405fg"; str "67e4f7ce0011abcdefff0102030405f"; str "67e4f7ce0011abcdefff0102030405f-"]
  = repeat (Some (Err, uninit 16)) 5.
Proof. vm_compute. reflexivity. Qed.
Example ex_text : uuid_text (str "{67e4F7Ce-0011-abcd-efff-0102030405fe}") ex_u.
Proof. apply uuid_exactly. vm_compute. reflexivity. Qed.
