(** Property theorems for the outer layers of the public interface (C61, C62, C63). *)
From Coq Require Import ZArith List Bool Lia ZifyNat String.
From Verif Require Import Bytes Mem MemFacts Ints Slices Codec Isa Simd Spec Hex HexFacts HexApi HexSimdFacts Base64 Base64Ref Base64Api
  Base32 Base32Ref Base32Api Uuid UuidFacts UuidApi Heap HeapFacts Public PublicFacts PropHeap.
Import ListNotations.
Open Scope list_scope. Open Scope Z_scope. Open Scope m_scope.

(** C61: strings and vectors. [encode_to_string] returns a string of exactly the RFC text, valid UTF-8, in one allocation of exactly
    that size; the only panic is a text longer than isize::MAX. *)
Theorem C61_hex_encode_to_string : forall M s case src, machine_ok M ->
  makes_string M (hex_encode_to_string M s case) src (rfc_hex_encode (alphabet_of case) src).
Proof. intros M s case src HM. apply string_of_box; [now apply hex_box|]. apply hex_encode_ascii. Qed.
Print Assumptions C61_hex_encode_to_string.
Theorem C61_base64_encode_to_string : forall M s cfg src, machine_ok M -> b64_isa s ->
  makes_string M (b64_encode_to_string M s cfg) src (b64_rfc cfg src).
Proof. intros M s cfg src HM Hs. apply string_of_box; [now apply b64_box|]. apply b64_rfc_ascii. Qed.
Print Assumptions C61_base64_encode_to_string.
Theorem C61_base32_encode_to_string : forall M t s cfg src, machine_ok M -> b32_isa s ->
  makes_string M (b32_encode_to_string M t s cfg) src (b32_rfc cfg src).
Proof. intros M t s cfg src HM Hs. apply string_of_box; [now apply b32_box|]. apply b32_rfc_ascii. Qed.
Print Assumptions C61_base32_encode_to_string.

(** [decode_to_vec]: exactly the bytes whose encoding the text is; it never panics *)
Theorem C61_hex_decode_to_vec : forall M s src, machine_ok M ->
  vec_exactly M (hex_decode_to_vec M s) src (fun x => bytes x /\ map ascii_lower src = rfc_hex_encode hex_lower x).
Proof. intros M s src HM. apply (vec_exact _ _ _ _ _ (hex_vec M s src HM)). intros B x. now apply hex_decode_iff. Qed.
Print Assumptions C61_hex_decode_to_vec.
Theorem C61_base64_decode_to_vec : forall M en s cfg src, machine_ok M -> b64_isa s -> b64_extra_of cfg <> Forgiving ->
  vec_exactly M (b64_decode_to_vec M en s cfg) src (fun x => bytes x /\ b64_rfc cfg x = src).
Proof.
  intros M en s cfg src HM Hs St. apply (vec_exact _ _ _ _ _ (b64_vec M en s cfg src HM Hs)). intros B x. now apply b64_dec_strict.
Qed.
Print Assumptions C61_base64_decode_to_vec.
Theorem C61_base32_decode_to_vec : forall M t s cfg src, machine_ok M -> b32_isa s ->
  vec_exactly M (b32_decode_to_vec M t s cfg) src (fun x => bytes x /\ b32_rfc cfg x = src).
Proof.
  intros M t s cfg src HM Hs. apply (vec_exact _ _ _ _ _ (b32_vec M t s cfg src HM Hs)). intros B x. now apply b32_dec_strict.
Qed.
Print Assumptions C61_base32_decode_to_vec.

(** Round trip: encoding any bytes to a string and decoding that string to a vector gives the bytes back, for every pair of
    implementations. [M1] and [M2] are the same machine with the allocator's two answers. *)
Theorem C61_hex_reads_back : forall M1 M2 s1 s2 case src, machine_ok M1 -> machine_ok M2 -> isize_limit M1 = isize_limit M2 -> bytes src ->
  reads_back M1 M2 (hex_encode_to_string M1 s1 case) (hex_decode_to_vec M2 s2) src (2 * List.length src).
Proof.
  intros M1 M2 s1 s2 case src H1 H2 EL B. rewrite <- (hex_encode_len (alphabet_of case) src).
  apply reads_back_of; [exact EL|now apply C61_hex_encode_to_string|]. rewrite <- (hex_decode_encode case src B). now apply hex_vec.
Qed.
Print Assumptions C61_hex_reads_back.
Theorem C61_base64_reads_back : forall M1 M2 en s1 s2 cfg src, machine_ok M1 -> machine_ok M2 -> isize_limit M1 = isize_limit M2 ->
  b64_isa s1 -> b64_isa s2 -> b64_extra_of cfg <> Forgiving -> bytes src ->
  reads_back M1 M2 (b64_encode_to_string M1 s1 cfg) (b64_decode_to_vec M2 en s2 cfg) src (List.length (b64_rfc cfg src)).
Proof.
  intros M1 M2 en s1 s2 cfg src H1 H2 EL Hs1 Hs2 St B.
  apply reads_back_of; [exact EL|now apply C61_base64_encode_to_string|]. rewrite <- (b64_dec_rfc cfg src B St). now apply b64_vec.
Qed.
Print Assumptions C61_base64_reads_back.
Theorem C61_base32_reads_back : forall M1 M2 t1 t2 s1 s2 cfg src, machine_ok M1 -> machine_ok M2 -> isize_limit M1 = isize_limit M2 ->
  b32_isa s1 -> b32_isa s2 -> bytes src ->
  reads_back M1 M2 (b32_encode_to_string M1 t1 s1 cfg) (b32_decode_to_vec M2 t2 s2 cfg) src (List.length (b32_rfc cfg src)).
Proof.
  intros M1 M2 t1 t2 s1 s2 cfg src H1 H2 EL Hs1 Hs2 B.
  apply reads_back_of; [exact EL|now apply C61_base32_encode_to_string|]. rewrite <- (b32_dec_rfc cfg src B). now apply b32_vec.
Qed.
Print Assumptions C61_base32_reads_back.

(** Appending to a [String] keeps it valid UTF-8, as [as_mut_vec] requires. *)
Theorem C61_hex_append_utf8 : forall M s case src, machine_ok M -> appends_utf8 M (hex_append_string M s case) src.
Proof. intros M s case src HM. apply (append_utf8 _ _ _ _ (hex_append M s case src HM)). apply hex_encode_ascii. Qed.
Print Assumptions C61_hex_append_utf8.
Theorem C61_base64_append_utf8 : forall M s cfg src, machine_ok M -> b64_isa s -> appends_utf8 M (b64_append_string M s cfg) src.
Proof. intros M s cfg src HM Hs. apply (append_utf8 _ _ _ _ (b64_append M s cfg src HM Hs)). apply b64_rfc_ascii. Qed.
Print Assumptions C61_base64_append_utf8.
Theorem C61_base32_append_utf8 : forall M t s cfg src, machine_ok M -> b32_isa s -> appends_utf8 M (b32_append_string M t s cfg) src.
Proof. intros M t s cfg src HM Hs. apply (append_utf8 _ _ _ _ (b32_append M t s cfg src HM Hs)). apply b32_rfc_ascii. Qed.
Print Assumptions C61_base32_append_utf8.

(** Concrete runs. *)
Definition m64' := {| pointer_bits := 64; overflow_checks := false; new_block := 6; spare := 0 |}.
Example C61_limits : machine_ok m64' /\ isize_limit m64 = isize_limit m64' /\ new_block m64 <> new_block m64'.
Proof. unfold machine_ok. cbn. repeat split; lia. Qed.
Definition show_try (r : res (result vec)) : option (option (nat * nat * list cell)) :=
  match r with Ret (Ok x) m => Some (Some (v_block x, v_len x, m (v_block x))) | Ret Err _ => Some None | _ => None end.
Example C61_run : show_try ((text <- b32_encode_to_string m64 {| t_endian := LE; t_wasm32 := false |} SSE41 BASE32 (0, 0)%nat 5 ;;
    b32_decode_to_vec m64' {| t_endian := LE; t_wasm32 := false |} Fallback BASE32 (v_block text, 0%nat) (v_len text)) hello) = Some (Some (6%nat, 5%nat, cells (str "Hello"%string))).
Proof. vm_compute. reflexivity. Qed.
Example C61_run_err : show_try (hex_decode_to_vec m64 AVX2 (3, 0)%nat 10 hello) = Some None.
Proof. vm_compute. reflexivity. Qed.
(** a string with a two-byte character, and bytes that are not UTF-8 *)
Example C61_utf8 : utf8 ([195; 169] ++ str "SGVsbG8="%string) /\ ~ utf8 [195; 65] /\ ~ utf8 [237; 160; 128].
Proof.
  split; [apply utf8_2; [lia..|]; apply utf8_ascii; repeat (constructor; [unfold ascii_char; cbn; lia|]); constructor|].
  split; intro H; inversion H; subst; lia.
Qed.

(** C62: the raw-pointer functions of hex-simd. *)
Theorem C62_hex_check_raw : forall s src, checks (hex_check_raw s) src (forallb hex_char src).
Proof. exact hex_check_ok. Qed.
Print Assumptions C62_hex_check_raw.
(** [encode_raw] needs room for twice the length and returns that; an allocation is at most isize::MAX bytes, so the
    multiplication does not overflow *)
Theorem C62_hex_encode_raw : forall M s case src m b o d e, machine_ok M -> slice m b o src -> room m d e (2 * List.length src) ->
  separate b o (List.length src) d e (2 * List.length src) -> Z.of_nat (List.length (m d)) <= isize_limit M ->
  exists m', hex_encode_raw M s (b, o) (List.length src) (d, e) case m = Ret (2 * Z.of_nat (List.length src)) m' /\
    bytes_at m' d e (rfc_hex_encode (alphabet_of case) src) /\ only_changed m d e (2 * List.length src) m'.
Proof. exact hex_encode_raw_ok. Qed.
Print Assumptions C62_hex_encode_raw.
(** [decode_raw]: half the length is written at most *)
Theorem C62_hex_decode_raw : forall s src m b o d e, slice m b o src -> room m d e (List.length src / 2) ->
  separate b o (List.length src) d e (List.length src / 2) ->
  exists r m', hex_decode_raw s (b, o) (List.length src) (d, e) m = Ret r m' /\ only_changed m d e (List.length src / 2) m' /\
    match r with
    | Ok n => n = (List.length src / 2)%nat /\ exists x, List.length x = n /\ bytes_at m' d e x /\ bytes x /\ map ascii_lower src = rfc_hex_encode hex_lower x
    | Err => forall x, bytes x -> map ascii_lower src <> rfc_hex_encode hex_lower x
    end.
Proof.
  intros s src m b o d e S R Sep. destruct (hex_decode_ok s src m b o d e _ S R Sep (le_n _)) as (r & m' & E & F & Q).
  rewrite hex_decode_raw_of, E. destruct (rfc_hex_decode src) as [x|] eqn:D.
  - destruct Q as [-> A]. exists (Ok (List.length x)), m'. split; [reflexivity|]. split; [exact F|]. assert (L := hex_decode_even _ _ D).
    split; [lia|]. exists x. split; [reflexivity|]. split; [exact A|]. apply hex_decode_iff; [apply S|exact D].
  - subst r. exists Err, m'. split; [reflexivity|]. split; [exact F|]. intros x Bx K.
    assert (rfc_hex_decode src = Some x) by (apply hex_decode_iff; [apply S|auto]). congruence.
Qed.
Print Assumptions C62_hex_decode_raw.
(** source and destination may be the same *)
Theorem C62_hex_decode_raw_inplace : forall s data m b o, slice m b o data ->
  exists r m', hex_decode_raw s (b, o) (List.length data) (b, o) m = Ret r m' /\ only_changed m b o (List.length data / 2) m' /\
    match r with
    | Ok n => n = (List.length data / 2)%nat /\ exists x, List.length x = n /\ bytes_at m' b o x /\ bytes x /\ map ascii_lower data = rfc_hex_encode hex_lower x
    | Err => forall x, bytes x -> map ascii_lower data <> rfc_hex_encode hex_lower x
    end.
Proof.
  intros s src m b o S. destruct (hex_decode_inplace_ok s src m b o S) as (r & m' & E & F & Q).
  rewrite hex_decode_raw_inplace, E. destruct (rfc_hex_decode src) as [x|] eqn:D.
  - destruct Q as [-> A]. exists (Ok (List.length x)), m'. split; [reflexivity|]. split; [exact F|]. assert (L := hex_decode_even _ _ D).
    split; [lia|]. exists x. split; [reflexivity|]. split; [exact A|]. apply hex_decode_iff; [apply S|exact D].
  - subst r. exists Err, m'. split; [reflexivity|]. split; [exact F|]. intros x Bx K.
    assert (rfc_hex_decode src = Some x) by (apply hex_decode_iff; [apply S|auto]). congruence.
Qed.
Print Assumptions C62_hex_decode_raw_inplace.
Definition raw_mem : mem := mem_of [cells (str "48656c6C6f"%string); uninit 5].
Example C62_run_inplace : match hex_decode_raw SSE2 (0, 0)%nat 10 (0, 0)%nat raw_mem with Ret (Ok n) m => Some (n, m 0%nat) | _ => None end
  = Some (5%nat, cells (str "Helloc6C6f"%string)).
Proof. vm_compute. reflexivity. Qed.
Example C62_run_copy : match hex_decode_raw SSE2 (0, 0)%nat 10 (1, 0)%nat raw_mem with Ret (Ok n) m => Some (n, m 1%nat) | _ => None end
  = Some (5%nat, cells (str "Hello"%string)).
Proof. vm_compute. reflexivity. Qed.
(** without the room the call is undefined *)
Example C62_run_short : hex_decode_raw SSE2 (0, 0)%nat 10 (1, 1)%nat raw_mem = UB.
Proof. vm_compute. reflexivity. Qed.

(** C63: [UuidExt]. The local buffer is fully initialised when it is read ([assume_init], [slice_assume_init]); memory is as before. *)
Theorem C63_uuid_ext_parse : forall M s1 s2 t, hyph_isa s2 -> parses (ext_parse M s1 s2) t M (uuid_text t).
Proof.
  intros M s1 s2 t Hs. apply (parse_uuid_ok M (uuid_parse s1 s2) t (uuid_decode t)); [now apply uuid_parse_decodes|intros _; apply uuid_exactly|].
  intros B u Hu. now apply uuid_spec_bytes in Hu.
Qed.
Print Assumptions C63_uuid_ext_parse.
Theorem C63_uuid_ext_parse_simple : forall M s t, parses (ext_parse_simple M s) t M (uuid_text_simple t).
Proof.
  intros M s t. apply (parse_uuid_ok M (uuid_parse_simple s) t (simple_decode t)); [now apply parse_simple_decodes|intros _; apply simple_exactly|].
  intros B u Hu. now apply simple_spec_bytes in Hu.
Qed.
Print Assumptions C63_uuid_ext_parse_simple.
Theorem C63_uuid_ext_parse_hyphenated : forall M s t, hyph_isa s -> parses (ext_parse_hyphenated M s) t M (uuid_text_hyphenated t).
Proof.
  intros M s t Hs. apply (parse_uuid_ok M (uuid_parse_hyphenated s) t (hyph_decode t)); [now apply parse_hyphenated_decodes|intros _; apply hyph_exactly|].
  intros B u Hu. now apply hyph_spec_bytes in Hu.
Qed.
Print Assumptions C63_uuid_ext_parse_hyphenated.

(** [g] is whatever the caller's formatter does with the string *)
Theorem C63_uuid_fmt_simple : forall R M s (g : list Z -> R) u m b o, List.length u = 16%nat -> slice m b o u -> m (new_block M) = [] ->
  exists m1 m2 m3,
    simple_lower_hex M s (b, o) g m = Ret (g (uuid_simple hex_lower u)) m1 /\ same_mem m m1 /\
    simple_upper_hex M s (b, o) g m = Ret (g (uuid_simple hex_upper u)) m2 /\ same_mem m m2 /\
    simple_display M s (b, o) g m = Ret (g (uuid_simple hex_lower u)) m3 /\ same_mem m m3.
Proof.
  intros R M s g u m b o L S F.
  assert (K : forall case, exists m', format_uuid M 32 (b, o) case (uuid_format_simple s) g m = Ret (g (uuid_simple (alphabet_of case) u)) m' /\ same_mem m m').
  { intro case. apply (format_uuid_ok M 32 (uuid_format_simple s) case g u _ (format_simple_encodes s case u L) L); auto.
    - unfold uuid_simple. rewrite hex_encode_len, L. reflexivity.
    - now apply hex_encode_ascii. }
  destruct (K Lower) as (m1 & E1 & S1), (K Upper) as (m2 & E2 & S2). exists m1, m2, m1. auto 10.
Qed.
Print Assumptions C63_uuid_fmt_simple.
Theorem C63_uuid_fmt_hyphenated : forall R M s (g : list Z -> R) u m b o, hyph_isa s -> List.length u = 16%nat -> slice m b o u -> m (new_block M) = [] ->
  exists m1 m2 m3,
    hyphenated_lower_hex M s (b, o) g m = Ret (g (uuid_hyphenated hex_lower u)) m1 /\ same_mem m m1 /\
    hyphenated_upper_hex M s (b, o) g m = Ret (g (uuid_hyphenated hex_upper u)) m2 /\ same_mem m m2 /\
    hyphenated_display M s (b, o) g m = Ret (g (uuid_hyphenated hex_lower u)) m3 /\ same_mem m m3.
Proof.
  intros R M s g u m b o Hs L S F.
  assert (K : forall case, exists m', format_uuid M 36 (b, o) case (uuid_format_hyphenated s) g m = Ret (g (uuid_hyphenated (alphabet_of case) u)) m' /\ same_mem m m').
  { intro case. apply (format_uuid_ok M 36 (uuid_format_hyphenated s) case g u _ (format_hyphenated_encodes s case u Hs L) L); auto.
    - apply hyphenate_len. rewrite hex_encode_len, L. reflexivity.
    - intro B. apply hyphenate_forall; [unfold ascii_char; lia|now apply hex_encode_ascii]. }
  destruct (K Lower) as (m1 & E1 & S1), (K Upper) as (m2 & E2 & S2). exists m1, m2, m1. auto 10.
Qed.
Print Assumptions C63_uuid_fmt_hyphenated.
(** The two halves fit together: whatever is displayed parses back to the same UUID, by both the general and the specific parser. *)
Theorem C63_uuid_display_parses : forall u, bytes u -> List.length u = 16%nat ->
  uuid_text (uuid_simple hex_lower u) u /\ uuid_text (uuid_simple hex_upper u) u /\
  uuid_text (uuid_hyphenated hex_lower u) u /\ uuid_text (uuid_hyphenated hex_upper u) u /\
  uuid_text_simple (uuid_simple hex_lower u) u /\ uuid_text_hyphenated (uuid_hyphenated hex_lower u) u.
Proof.
  intros u B L. assert (A := simple_roundtrip Lower u B L). assert (A' := simple_roundtrip Upper u B L).
  assert (H := hyphenated_roundtrip Lower u B L). assert (H' := hyphenated_roundtrip Upper u B L).
  split; [now left|]. split; [now left|]. split; [right; now left|]. split; [right; now left|]. auto.
Qed.
Print Assumptions C63_uuid_display_parses.

Definition uuid_mem : mem := mem_of [cells (str "67e55044-10b1-426f-9247-bb680e5fe0c8"%string);
  cells [103; 229; 80; 68; 16; 177; 66; 111; 146; 71; 187; 104; 14; 95; 224; 200]; cells (str "67e55044-10b1-426f-9247+bb680e5fe0c8"%string)].
Definition value {A} (r : res A) : option A := match r with Ret a _ => Some a | _ => None end.
Example C63_run_parse : value (ext_parse m64 SSE41 AVX2 (0, 0)%nat 36 uuid_mem) = Some (Ok [103; 229; 80; 68; 16; 177; 66; 111; 146; 71; 187; 104; 14; 95; 224; 200]).
Proof. vm_compute. reflexivity. Qed.
Example C63_run_parse_err : value (ext_parse m64 SSE41 AVX2 (2, 0)%nat 36 uuid_mem) = Some Err.
Proof. vm_compute. reflexivity. Qed.
Example C63_run_display : value (hyphenated_display m64 Fallback (1, 0)%nat (fun x => x) uuid_mem) = Some (str "67e55044-10b1-426f-9247-bb680e5fe0c8"%string).
Proof. vm_compute. reflexivity. Qed.
