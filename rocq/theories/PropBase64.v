(** Property theorems for base64-simd: C01-C09, C49 and the base64 parts of C10, C16, C43, C44, C45, C47, C50.

    [b64_isa s]: [s] is the scalar fallback, or an instruction set with a byte shuffle (SSSE3, SSE4.1, AVX2,
    NEON on A32 or A64, WASM SIMD128); those are the ones dispatched to. [cfg] ranges over alphabet (standard, url-safe)
    and padding mode (padded, unpadded, forgiving); [en] over the target byte order. *)
From Coq Require Import ZArith List Bool Lia String.
From Verif Require Import Bytes Mem MemFacts Slices Codec Isa Simd SimdFacts Spec Ints SwapFacts Base64 Base64Ref Base64Api.
Import ListNotations.
Open Scope list_scope. Open Scope Z_scope. Open Scope m_scope.

(** C01: encode = RFC 4648. *)
Theorem C01_base64_encode : forall s cfg src, b64_isa s ->
  encodes (b64_encode s cfg) src
    (rfc_base64 (match b64_kind_of cfg with Standard => base64_std | UrlSafe => base64_url end)
                (match b64_extra_of cfg with NoPad => false | Pad | Forgiving => true end) src).
Proof. exact b64_encode_ok. Qed.
Print Assumptions C01_base64_encode.
(** the public constants, lib.rs:135-172 *)
Theorem C01_base64_constants : forall s src, b64_isa s ->
  encodes (b64_encode s STANDARD) src (rfc_base64 base64_std true src) /\
  encodes (b64_encode s URL_SAFE) src (rfc_base64 base64_url true src) /\
  encodes (b64_encode s STANDARD_NO_PAD) src (rfc_base64 base64_std false src) /\
  encodes (b64_encode s URL_SAFE_NO_PAD) src (rfc_base64 base64_url false src) /\
  encodes (b64_encode s STANDARD_FORGIVING) src (rfc_base64 base64_std true src).
Proof.
  intros s src Hs. exact (conj (b64_encode_ok s STANDARD src Hs) (conj (b64_encode_ok s URL_SAFE src Hs)
    (conj (b64_encode_ok s STANDARD_NO_PAD src Hs) (conj (b64_encode_ok s URL_SAFE_NO_PAD src Hs) (b64_encode_ok s STANDARD_FORGIVING src Hs))))).
Qed.
Print Assumptions C01_base64_constants.

(** C02: strict decode accepts exactly the canonical encodings. *)
Theorem C02_base64_decode_exact : forall en s cfg src, b64_isa s -> b64_extra_of cfg <> Forgiving ->
  decodes_exactly (b64_decode en s cfg) src
    (fun x => bytes x /\ rfc_base64 (match b64_kind_of cfg with Standard => base64_std | UrlSafe => base64_url end)
                                    (match b64_extra_of cfg with NoPad => false | Pad | Forgiving => true end) x = src).
Proof. exact b64_exactly. Qed.
Print Assumptions C02_base64_decode_exact.
(** the forgiving configuration, without white space: the WHATWG rules on the same alphabet *)
Theorem C02_base64_forgiving_config : forall en s k src, b64_isa s -> bytes src ->
  decodes (b64_decode en s {| b64_kind_of := k; b64_extra_of := Forgiving |}) src
    (b64_need {| b64_kind_of := k; b64_extra_of := Forgiving |} src) (forgiving_decode_nows (b64_alphabet k) src).
Proof. intros en s k src Hs B. rewrite <- b64_dec_forgiving by exact B. now apply b64_decode_ok. Qed.
Print Assumptions C02_base64_forgiving_config.
(** the public constants *)
Theorem C02_base64_constants : forall en s src, b64_isa s ->
  decodes_exactly (b64_decode en s STANDARD) src (fun x => bytes x /\ rfc_base64 base64_std true x = src) /\
  decodes_exactly (b64_decode en s URL_SAFE) src (fun x => bytes x /\ rfc_base64 base64_url true x = src) /\
  decodes_exactly (b64_decode en s STANDARD_NO_PAD) src (fun x => bytes x /\ rfc_base64 base64_std false x = src) /\
  decodes_exactly (b64_decode en s URL_SAFE_NO_PAD) src (fun x => bytes x /\ rfc_base64 base64_url false x = src) /\
  (bytes src -> decodes (b64_decode en s STANDARD_FORGIVING) src (b64_need STANDARD_FORGIVING src) (forgiving_decode_nows base64_std src)).
Proof.
  intros en s src Hs.
  exact (conj (C02_base64_decode_exact en s STANDARD src Hs ltac:(discriminate)) (conj (C02_base64_decode_exact en s URL_SAFE src Hs ltac:(discriminate))
    (conj (C02_base64_decode_exact en s STANDARD_NO_PAD src Hs ltac:(discriminate)) (conj (C02_base64_decode_exact en s URL_SAFE_NO_PAD src Hs ltac:(discriminate))
    (C02_base64_forgiving_config en s Standard src Hs))))).
Qed.
Print Assumptions C02_base64_constants.

(** C03: round trip. *)
Theorem C03_base64_roundtrip : forall en s1 s2 cfg src, b64_isa s1 -> b64_isa s2 -> b64_extra_of cfg <> Forgiving -> bytes src ->
  roundtrips (b64_encode s1 cfg) (b64_decode en s2 cfg) src (List.length (b64_rfc cfg src)).
Proof. exact b64_roundtrip. Qed.
Print Assumptions C03_base64_roundtrip.

(** C04: every implementation decodes like every other (take [s2 = Fallback]), for every input and configuration. *)
Theorem C04_base64_decode_agree : forall en1 en2 s1 s2 cfg src, b64_isa s1 -> b64_isa s2 ->
  agree (b64_decode en1 s1 cfg) (b64_decode en2 s2 cfg) src.
Proof. exact b64_decode_agree. Qed.
Print Assumptions C04_base64_decode_agree.
(** [agree] speaks of calls that return; they always do. *)
Theorem C04_base64_decode_total : forall en s cfg src, b64_isa s ->
  decodes (b64_decode en s cfg) src (b64_need cfg src) (b64_dec cfg src).
Proof. exact b64_decode_ok. Qed.
Print Assumptions C04_base64_decode_total.

(** C05: check is Ok iff decode is Ok. *)
Theorem C05_base64_check : forall en s cfg src, b64_isa s ->
  checks (b64_check en s cfg) src (match b64_dec cfg src with Some _ => true | None => false end).
Proof. exact b64_check_ok. Qed.
Print Assumptions C05_base64_check.
Theorem C05_base64_check_iff_decode : forall en1 en2 s1 s2 cfg src m b o m2 d e dlen r1 m1' r2 m2', b64_isa s1 -> b64_isa s2 ->
  slice m b o src -> slice m2 b o src -> room m2 d e dlen -> separate b o (List.length src) d e dlen -> (b64_need cfg src <= dlen)%nat ->
  b64_check en1 s1 cfg (b, o) (List.length src) m = Ret r1 m1' ->
  b64_decode en2 s2 cfg (b, o) (List.length src) (d, e) dlen m2 = Ret r2 m2' ->
  (r1 = Ok tt <-> exists n, r2 = Ok ((d, e), n)) /\ (r1 = Err <-> r2 = Err).
Proof. exact b64_check_iff. Qed.
Print Assumptions C05_base64_check_iff_decode.

Theorem C05_base64_check_exact : forall en s cfg src m b o, b64_isa s -> b64_extra_of cfg <> Forgiving -> slice m b o src ->
  exists r m', b64_check en s cfg (b, o) (List.length src) m = Ret r m' /\ same_mem m m' /\
    (r = Ok tt <-> exists x, bytes x /\ b64_rfc cfg x = src).
Proof. exact b64_check_exact. Qed.
Print Assumptions C05_base64_check_exact.

(** C06, C07: memory safety. *)
Theorem C06_base64_encode_safe : forall s cfg src, b64_isa s -> bytes src ->
  mem_safe (b64_encode s cfg) src (List.length (b64_rfc cfg src)).
Proof. exact b64_enc_safe. Qed.
Print Assumptions C06_base64_encode_safe.
Theorem C07_base64_decode_safe : forall en s cfg src, b64_isa s -> mem_safe (b64_decode en s cfg) src (b64_need cfg src).
Proof. exact b64_dec_safe. Qed.
Print Assumptions C07_base64_decode_safe.
Theorem C07_base64_check_safe : forall en s cfg src m b o, b64_isa s -> slice m b o src ->
  exists r m', b64_check en s cfg (b, o) (List.length src) m = Ret r m' /\ same_mem m m'.
Proof. intros en s cfg src m b o I H. destruct (C05_base64_check en s cfg src I m b o H) as [m' [E S]]. eauto. Qed.
Print Assumptions C07_base64_check_safe.

(** C08: decode_inplace. *)
Theorem C08_base64_decode_inplace : forall en s cfg data, b64_isa s ->
  decodes_inplace (b64_decode_inplace en s cfg) data (b64_need cfg data) (b64_dec cfg data).
Proof. exact b64_decode_inplace_ok. Qed.
Print Assumptions C08_base64_decode_inplace.
Theorem C08_base64_decode_inplace_exact : forall en s cfg data, b64_isa s -> b64_extra_of cfg <> Forgiving ->
  inplace_exactly (b64_decode_inplace en s cfg) data (fun x => bytes x /\ b64_rfc cfg x = data).
Proof. exact b64_inplace_exact. Qed.
Print Assumptions C08_base64_decode_inplace_exact.
(** on success the number of changed cells is the length of the result, so what follows it is unchanged *)
Theorem C08_base64_result_length : forall cfg s x, bytes s -> b64_dec cfg s = Some x -> List.length x = b64_need cfg s /\ bytes x.
Proof. exact b64_dec_facts. Qed.
Print Assumptions C08_base64_result_length.

(** C09: lengths. *)
Theorem C09_base64_encoded_length : forall bits cfg src, 16 <= bits -> bytes src -> Z.of_nat (List.length src) <= usize_max bits ->
  b64_encoded_length bits (Z.of_nat (List.length src)) cfg =
  if Z.of_nat (List.length src) <=? usize_max bits / 2 then Some (Z.of_nat (List.length (b64_rfc cfg src))) else None.
Proof. exact b64_encoded_length_ok. Qed.
Print Assumptions C09_base64_encoded_length.
Theorem C09_base64_decoded_length : forall m b o s cfg, slice m b o s ->
  exists r, b64_decoded_length (b, o) (List.length s) cfg m = Ret r m /\
    (r = Err <-> match b64_unpad (b64_extra_of cfg) s with Some t => (List.length t mod 4 = 1)%nat | None => True end) /\
    (forall n k, r = Ok (n, k) -> k = b64_need cfg s) /\
    (forall x, b64_dec cfg s = Some x -> exists n, r = Ok (n, List.length x)).
Proof. exact b64_decoded_length_ok. Qed.
Print Assumptions C09_base64_decoded_length.
Theorem C09_base64_estimated_decoded_length : forall bits cfg s, 16 <= bits -> Z.of_nat (List.length s) <= usize_max bits ->
  b64_estimated_decoded_length bits (Z.of_nat (List.length s)) = Z.of_nat ((List.length s + 3) / 4 * 3) /\
  (b64_need cfg s <= (List.length s + 3) / 4 * 3)%nat.
Proof. exact b64_estimated_ok. Qed.
Print Assumptions C09_base64_estimated_decoded_length.

(** C10: short destinations. *)
Theorem C10_base64_encode_short : forall s cfg src, rejects_short (b64_encode s cfg) src (List.length (b64_rfc cfg src)).
Proof. exact b64_encode_short. Qed.
Print Assumptions C10_base64_encode_short.
Theorem C10_base64_decode_short : forall en s cfg src, rejects_short (b64_decode en s cfg) src (b64_need cfg src).
Proof. exact b64_decode_short. Qed.
Print Assumptions C10_base64_decode_short.

(** C16: ASCII. *)
Theorem C16_base64_ascii : forall s cfg src, b64_isa s -> bytes src ->
  exists t, encodes (b64_encode_as_str s cfg) src t /\ Forall ascii_char t.
Proof. intros s cfg src Hs B. exists (b64_rfc cfg src). assert (E := b64_encode_ok s cfg src Hs). split; [exact E|exact (b64_ascii s cfg src _ Hs B E)]. Qed.
Print Assumptions C16_base64_ascii.

(** C43: the scalar tables invert the alphabets. *)
Theorem C43_base64_table : forall k c, byte c ->
  nth (Z.to_nat c) (b64_table k) 0 = match index_of c (b64_alphabet k) with Some v => v | None => 255 end.
Proof. exact b64_table_inverse. Qed.
Print Assumptions C43_base64_table.

(** C44: byte order. The only multi-byte access of encoding is [u64::from_be_bytes] (encode.rs:36), which the standard library
    defines as [from_be] of the number read in the order of the target: the model's [of_be] on both orders. *)
Theorem C44_from_be_bytes : forall en l, bytes l -> List.length l = 8%nat -> to_be en 8 (of_native en l) = of_be l.
Proof.
  intros [|] l B L; [|reflexivity]. cbn [to_be of_native]. unfold swap_bytes. rewrite <- L. now rewrite le_bytes_of_le.
Qed.
Print Assumptions C44_from_be_bytes.
Example C44_from_be_bytes_ex : to_be LE 8 (of_native LE [1; 2; 3; 4; 5; 6; 7; 8]) = 72623859790382856 /\
  to_be BE 8 (of_native BE [1; 2; 3; 4; 5; 6; 7; 8]) = 72623859790382856.
Proof. split; reflexivity. Qed.
Theorem C44_base64_decode_endian : forall s cfg src, b64_isa s -> agree (b64_decode LE s cfg) (b64_decode BE s cfg) src.
Proof. intros s cfg src Hs. now apply b64_decode_agree. Qed.
Print Assumptions C44_base64_decode_endian.

(** C45: previous contents of the destination. *)
Theorem C45_base64_encode_old_contents : forall s1 s2 cfg src, b64_isa s1 -> b64_isa s2 -> agree (b64_encode s1 cfg) (b64_encode s2 cfg) src.
Proof. exact b64_encode_agree. Qed.
Print Assumptions C45_base64_encode_old_contents.
Theorem C45_base64_decode_old_contents : forall en s cfg src, b64_isa s -> ignores_old (b64_decode en s cfg) src.
Proof. intros en s cfg src Hs. now apply b64_decode_agree. Qed.
Print Assumptions C45_base64_decode_old_contents.

(** C47, C50. *)
Theorem C47_base64_compositional : forall s1 s2 s3 cfg a b, b64_isa s1 -> b64_isa s2 -> b64_isa s3 ->
  bytes a -> bytes b -> (List.length a mod 3 = 0)%nat ->
  exists x y, encodes (b64_encode s1 cfg) a x /\ encodes (b64_encode s2 cfg) b y /\ encodes (b64_encode s3 cfg) (a ++ b) (x ++ y).
Proof.
  intros s1 s2 s3 cfg a b H1 H2 H3 Ba Bb L. assert (E1 := b64_encode_ok s1 cfg a H1). assert (E2 := b64_encode_ok s2 cfg b H2).
  exists (b64_rfc cfg a), (b64_rfc cfg b). split; [exact E1|]. split; [exact E2|]. exact (b64_compositional s1 s2 s3 cfg a b _ _ H1 H2 H3 Ba Bb L E1 E2).
Qed.
Print Assumptions C47_base64_compositional.
Theorem C50_base64_injective : forall s1 s2 cfg a b, b64_isa s1 -> b64_isa s2 -> bytes a -> bytes b ->
  exists x y, encodes (b64_encode s1 cfg) a x /\ encodes (b64_encode s2 cfg) b y /\ (x = y -> a = b).
Proof.
  intros s1 s2 cfg a b H1 H2 Ba Bb. assert (E1 := b64_encode_ok s1 cfg a H1). assert (E2 := b64_encode_ok s2 cfg b H2).
  exists (b64_rfc cfg a), (b64_rfc cfg b). split; [exact E1|]. split; [exact E2|]. intros E. rewrite <- E in E2.
  exact (b64_injective s1 s2 cfg a b _ H1 H2 Ba Bb E1 E2).
Qed.
Print Assumptions C50_base64_injective.

(** C49: the two alphabets. [to_url] maps '+' to '-', '/' to '_' and nothing else. *)
Theorem C49_base64_url_encode : forall s1 s2 e src, b64_isa s1 -> b64_isa s2 -> bytes src ->
  exists t, encodes (b64_encode s1 {| b64_kind_of := Standard; b64_extra_of := e |}) src t /\
    encodes (b64_encode s2 {| b64_kind_of := UrlSafe; b64_extra_of := e |}) src (map to_url t).
Proof.
  intros s1 s2 e src H1 H2 B. exists (b64_rfc {| b64_kind_of := Standard; b64_extra_of := e |} src). split; [now apply b64_encode_ok|].
  unfold b64_rfc. cbn [b64_kind_of b64_extra_of b64_alphabet]. rewrite <- b64_rfc_url. now apply (b64_encode_ok s2 {| b64_kind_of := UrlSafe; b64_extra_of := e |}).
Qed.
Print Assumptions C49_base64_url_encode.
Theorem C49_base64_url_decode : forall e s, bytes s -> ~ In 45 s -> ~ In 95 s ->
  b64_dec {| b64_kind_of := UrlSafe; b64_extra_of := e |} (map to_url s) = b64_dec {| b64_kind_of := Standard; b64_extra_of := e |} s.
Proof. exact b64_dec_url. Qed.
Print Assumptions C49_base64_url_decode.
Theorem C49_base64_foreign : forall cfg s c, In c s -> byte c -> c <> 61 -> index_of c (b64_alphabet (b64_kind_of cfg)) = None ->
  b64_dec cfg s = None.
Proof. exact b64_dec_foreign. Qed.
Print Assumptions C49_base64_foreign.

(** ** Concrete instances: the hypotheses are satisfiable and the model computes. *)
Definition ex_src : list Z := range 100.
Definition ex_mem : mem := mem_of [cells ex_src; uninit 150].
Example ex_slice : slice ex_mem 0 0 ex_src.
Proof. apply slice_whole; [|reflexivity]. apply Forall_forall. intros x H. apply in_range in H. unfold byte. lia. Qed.
Example ex_room : room ex_mem 1 3 140 /\ separate 0 0 (List.length ex_src) 1 3 140 /\ (List.length (b64_rfc STANDARD ex_src) <= 140)%nat.
Proof. unfold room, separate. vm_compute. lia. Qed.
Definition ex_show {A} (r : res A) (b : nat) : option (A * list cell) := match r with Ret a m => Some (a, m b) | _ => None end.
Example ex_isas : b64_isa Fallback /\ b64_isa SSSE3 /\ b64_isa AVX2 /\ b64_isa NEON64 /\ b64_isa WASM128.
Proof. repeat split; (now left) || now right. Qed.
Example ex_encode_avx2 :
  ex_show (b64_encode AVX2 STANDARD (0, 0)%nat 100 (1, 3)%nat 140 ex_mem) 1
  = Some (Ok (1, 3, 136)%nat, uninit 3 ++ cells (rfc_base64 base64_std true ex_src) ++ uninit 11).
Proof. vm_compute. reflexivity. Qed.
(** 56 characters: one 32-byte vector step, three 8-byte steps *)
Definition ex_text : list Z := rfc_base64 base64_url true (map (fun x => 255 - 5 * x) (range 41)).
Example ex_decode_ok : ex_show (b64_decode BE NEON32 URL_SAFE (0, 0)%nat 56 (1, 2)%nat 41 (mem_of [cells ex_text; uninit 43])) 1
  = Some (Ok (1, 2, 41)%nat, uninit 2 ++ cells (map (fun x => 255 - 5 * x) (range 41))).
Proof. vm_compute. reflexivity. Qed.
(** non-zero trailing bits: Err, and the destination has been written by then *)
Example ex_decode_err : ex_show (b64_decode LE SSSE3 STANDARD (0, 0)%nat 8 (1, 0)%nat 5 (mem_of [cells (str "Zm9vYmF="); uninit 5])) 1
  = Some (Err, cells (str "foo") ++ uninit 2).
Proof. vm_compute. reflexivity. Qed.
Example ex_decode_forgiving : ex_show (b64_decode LE SSSE3 STANDARD_FORGIVING (0, 0)%nat 8 (1, 0)%nat 5 (mem_of [cells (str "Zm9vYmF="); uninit 5])) 1
  = Some (Ok (1, 0, 5)%nat, cells (str "fooba")).
Proof. vm_compute. reflexivity. Qed.
Example ex_inplace : ex_show (b64_decode_inplace LE Fallback STANDARD_NO_PAD (0, 1)%nat 7 (mem_of [cells (str "!Zm9vYmE!")])) 0
  = Some (Ok (0, 1, 5)%nat, cells (str "!foobamE!")).
Proof. vm_compute. reflexivity. Qed.
Example ex_check : ex_show (b64_check LE AVX2 URL_SAFE (0, 0)%nat 56 (mem_of [cells ex_text])) 0 = Some (Ok tt, cells ex_text)
  /\ ex_show (b64_check LE AVX2 STANDARD (0, 0)%nat 56 (mem_of [cells ex_text])) 0 = Some (Err, cells ex_text).
Proof. split; vm_compute; reflexivity. Qed.
Example ex_lengths : b64_encoded_length 64 100 STANDARD = Some 136 /\ b64_encoded_length 64 (2 ^ 63) STANDARD = None /\
  b64_encoded_length 32 (2 ^ 31 - 1) STANDARD = Some 2863311532.
Proof. repeat split; vm_compute; reflexivity. Qed.
