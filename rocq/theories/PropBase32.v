(** Property theorems for base32-simd: C24-C29, C48 and the base32 parts of C10, C16, C43, C44, C45, C47, C50.

    [b32_isa s]: [s] is the scalar fallback, SSE4.1, AVX2, NEON on A32 or A64, or WASM SIMD128: those that encode and
    decode are dispatched to. [b32_chk_isa s]: also SSSE3, for check. [cfg] ranges over alphabet (base32, base32hex) and
    padding; [t] over the target properties that the scalar code looks at (byte order, wasm32 or not). *)
From Coq Require Import ZArith List Bool Lia String.
From Verif Require Import Bytes Mem MemFacts Slices Codec Isa Simd SimdFacts Spec Ints Base32SimdFacts Base32 Base32Ref Base32Api.
Import ListNotations.
Open Scope list_scope. Open Scope Z_scope. Open Scope m_scope.

(** C24: encode = RFC 4648. *)
Theorem C24_base32_encode : forall t s cfg src, b32_isa s ->
  encodes (b32_encode t s cfg) src
    (rfc_base32 (match b32_kind_of cfg with KBase32 => base32_std | KBase32Hex => base32_hex end) (b32_padding cfg) src).
Proof. exact b32_encode_ok. Qed.
Print Assumptions C24_base32_encode.
(** the public constants, lib.rs:98-119 *)
Theorem C24_base32_constants : forall t s src, b32_isa s ->
  encodes (b32_encode t s BASE32) src (rfc_base32 base32_std true src) /\
  encodes (b32_encode t s BASE32HEX) src (rfc_base32 base32_hex true src) /\
  encodes (b32_encode t s BASE32_NO_PAD) src (rfc_base32 base32_std false src) /\
  encodes (b32_encode t s BASE32HEX_NO_PAD) src (rfc_base32 base32_hex false src).
Proof.
  intros t s src Hs. exact (conj (b32_encode_ok t s BASE32 src Hs) (conj (b32_encode_ok t s BASE32HEX src Hs)
    (conj (b32_encode_ok t s BASE32_NO_PAD src Hs) (b32_encode_ok t s BASE32HEX_NO_PAD src Hs)))).
Qed.
Print Assumptions C24_base32_constants.

(** C25: decode accepts exactly the canonical encodings, whatever the length of the destination. *)
Theorem C25_base32_decode_exact : forall t s cfg src, b32_isa s ->
  decodes_exactly (b32_decode t s cfg) src
    (fun x => bytes x /\ rfc_base32 (match b32_kind_of cfg with KBase32 => base32_std | KBase32Hex => base32_hex end) (b32_padding cfg) x = src).
Proof. exact b32_exact. Qed.
Print Assumptions C25_base32_decode_exact.
Theorem C25_base32_constants : forall t s src, b32_isa s ->
  decodes_exactly (b32_decode t s BASE32) src (fun x => bytes x /\ rfc_base32 base32_std true x = src) /\
  decodes_exactly (b32_decode t s BASE32HEX) src (fun x => bytes x /\ rfc_base32 base32_hex true x = src) /\
  decodes_exactly (b32_decode t s BASE32_NO_PAD) src (fun x => bytes x /\ rfc_base32 base32_std false x = src) /\
  decodes_exactly (b32_decode t s BASE32HEX_NO_PAD) src (fun x => bytes x /\ rfc_base32 base32_hex false x = src).
Proof.
  intros t s src Hs. exact (conj (b32_exact t s BASE32 src Hs) (conj (b32_exact t s BASE32HEX src Hs)
    (conj (b32_exact t s BASE32_NO_PAD src Hs) (b32_exact t s BASE32HEX_NO_PAD src Hs)))).
Qed.
Print Assumptions C25_base32_constants.
Theorem C25_base32_roundtrip : forall t1 t2 s1 s2 cfg src, b32_isa s1 -> b32_isa s2 -> bytes src ->
  roundtrips (b32_encode t1 s1 cfg) (b32_decode t2 s2 cfg) src (List.length (b32_rfc cfg src)).
Proof. exact b32_roundtrip. Qed.
Print Assumptions C25_base32_roundtrip.

(** C26: check is Ok iff decode is Ok, iff the text is canonical. *)
Theorem C26_base32_check_iff_decode : forall t1 t2 s1 s2 cfg src m b o m2 d e dlen r1 m1' r2 m2', b32_chk_isa s1 -> b32_isa s2 ->
  slice m b o src -> slice m2 b o src -> room m2 d e dlen -> separate b o (List.length src) d e dlen -> (b32_need cfg src <= dlen)%nat ->
  b32_check t1 s1 cfg (b, o) (List.length src) m = Ret r1 m1' ->
  b32_decode t2 s2 cfg (b, o) (List.length src) (d, e) dlen m2 = Ret r2 m2' ->
  (r1 = Ok tt <-> exists n, r2 = Ok ((d, e), n)) /\ (r1 = Err <-> r2 = Err).
Proof. exact b32_check_iff. Qed.
Print Assumptions C26_base32_check_iff_decode.
Theorem C26_base32_check : forall t s cfg src m b o, b32_chk_isa s -> slice m b o src ->
  exists r m', b32_check t s cfg (b, o) (List.length src) m = Ret r m' /\ same_mem m m' /\
    (r = Ok tt <-> exists x, bytes x /\ b32_rfc cfg x = src).
Proof. exact b32_check_exact. Qed.
Print Assumptions C26_base32_check.

(** C27: memory safety. *)
Theorem C27_base32_encode_safe : forall t s cfg src, b32_isa s -> bytes src ->
  mem_safe (b32_encode t s cfg) src (List.length (b32_rfc cfg src)).
Proof. exact b32_enc_safe. Qed.
Print Assumptions C27_base32_encode_safe.
Theorem C27_base32_decode_safe : forall t s cfg src, b32_isa s -> mem_safe (b32_decode t s cfg) src (b32_need cfg src).
Proof. exact b32_dec_safe. Qed.
Print Assumptions C27_base32_decode_safe.
Theorem C27_base32_check_safe : forall t s cfg src m b o, b32_chk_isa s -> slice m b o src ->
  exists r m', b32_check t s cfg (b, o) (List.length src) m = Ret r m' /\ same_mem m m'.
Proof. intros t s cfg src m b o I H. destruct (b32_check_exact t s cfg src m b o I H) as (r & m' & E & S & _). eauto. Qed.
Print Assumptions C27_base32_check_safe.

(** C28: decode_inplace. *)
Theorem C28_base32_decode_inplace : forall t s cfg data, b32_isa s ->
  inplace_exactly (b32_decode_inplace t s cfg) data (fun x => bytes x /\ b32_rfc cfg x = data).
Proof. exact b32_inplace_exact. Qed.
Print Assumptions C28_base32_decode_inplace.

(** C29: lengths. *)
Theorem C29_base32_encoded_length : forall bits cfg src, 16 <= bits -> bytes src -> Z.of_nat (List.length src) <= usize_max bits ->
  b32_encoded_length bits (Z.of_nat (List.length src)) cfg =
  if Z.of_nat (List.length src) <=? usize_max bits / 2 then Some (Z.of_nat (List.length (b32_rfc cfg src))) else None.
Proof. exact b32_encoded_length_ok. Qed.
Print Assumptions C29_base32_encoded_length.
Theorem C29_base32_decoded_length : forall m b o s cfg, slice m b o s ->
  exists r, b32_decoded_length (b, o) (List.length s) (b32_padding cfg) m = Ret r m /\
    (r = Err <-> match b32_unpad (b32_padding cfg) s with Some t => In (List.length t mod 8)%nat [1; 3; 6]%nat | None => True end) /\
    (forall n k, r = Ok (n, k) -> k = b32_need cfg s) /\
    (forall x, b32_dec cfg s = Some x -> exists n, r = Ok (n, List.length x)).
Proof. exact b32_decoded_length_ok. Qed.
Print Assumptions C29_base32_decoded_length.
(** without the reference decoder: on the encoding of [x] it returns the length of [x] *)
Theorem C29_base32_decoded_length_rfc : forall m b o x cfg, bytes x -> slice m b o (b32_rfc cfg x) ->
  b32_decoded_length_api cfg (b, o) (List.length (b32_rfc cfg x)) m = Ret (Ok (List.length x)) m.
Proof.
  intros m b o x cfg B H. destruct (b32_decoded_length_ok m b o _ cfg H) as (r & E & _ & _ & P).
  destruct (P x (b32_dec_rfc cfg x B)) as [n ->]. unfold b32_decoded_length_api, try_, bind. rewrite E. reflexivity.
Qed.
Print Assumptions C29_base32_decoded_length_rfc.
Theorem C29_base32_estimated_decoded_length : forall bits cfg s, 16 <= bits -> Z.of_nat (List.length s) <= usize_max bits ->
  b32_estimated_decoded_length bits (Z.of_nat (List.length s)) = Z.of_nat ((List.length s + 7) / 8 * 5) /\
  (b32_need cfg s <= (List.length s + 7) / 8 * 5)%nat.
Proof. exact b32_estimated_ok. Qed.
Print Assumptions C29_base32_estimated_decoded_length.

(** C48: decoded_length accepts texts that are no encoding, refuting the expectation that it checks the padding. *)
Theorem C48_base32_decoded_length_strict_refuted : exists cfg s m b o n k,
  slice m b o s /\ b32_decoded_length (b, o) (List.length s) (b32_padding cfg) m = Ret (Ok (n, k)) m /\
  ~ exists x, bytes x /\ b32_rfc cfg x = s.
Proof.
  exists BASE32, (str "AA=A=A==")%string, (mem_of [cells (str "AA=A=A==")%string]), 0%nat, 0%nat, 4%nat, 2%nat.
  assert (B : bytes (str "AA=A=A==")%string) by (apply Forall_forall; intros x Hx; unfold byte; cbn in Hx; lia).
  split; [now apply slice_whole|]. split; [reflexivity|]. intros (x & Hx). apply b32_dec_strict in Hx; [|exact B]. vm_compute in Hx. discriminate.
Qed.
Print Assumptions C48_base32_decoded_length_strict_refuted.
(** not only that text: every 8-character text whose last six characters hold 0, 1, 3, 4 or 6 [=] anywhere *)
Theorem C48_base32_decoded_length_lax : forall cfg s m b o, b32_padding cfg = true -> slice m b o s -> List.length s = 8%nat ->
  In (count_eq (skipn 2 s)) [0; 1; 3; 4; 6]%nat ->
  exists n k, b32_decoded_length (b, o) (List.length s) (b32_padding cfg) m = Ret (Ok (n, k)) m.
Proof. exact b32_decoded_length_lax. Qed.
Print Assumptions C48_base32_decoded_length_lax.

(** C10: short destinations. *)
Theorem C10_base32_encode_short : forall t s cfg src, rejects_short (b32_encode t s cfg) src (List.length (b32_rfc cfg src)).
Proof. exact b32_encode_short. Qed.
Print Assumptions C10_base32_encode_short.
Theorem C10_base32_decode_short : forall t s cfg src, rejects_short (b32_decode t s cfg) src (b32_need cfg src).
Proof. exact b32_decode_short. Qed.
Print Assumptions C10_base32_decode_short.

(** C16: ASCII. *)
Theorem C16_base32_ascii : forall t s cfg src, b32_isa s -> bytes src ->
  exists x, encodes (b32_encode_as_str t s cfg) src x /\ Forall ascii_char x.
Proof. intros t s cfg src Hs B. exists (b32_rfc cfg src). assert (E := b32_encode_ok t s cfg src Hs). split; [exact E|exact (b32_ascii t s cfg src _ Hs B E)]. Qed.
Print Assumptions C16_base32_ascii.

(** C43: the scalar tables invert the alphabets. *)
Theorem C43_base32_table : forall k c, byte c ->
  nth (Z.to_nat c) (b32_table k) 0 = match index_of c (b32_alphabet k) with Some v => v | None => 255 end.
Proof. exact b32_table_inverse. Qed.
Print Assumptions C43_base32_table.

(** C44: byte order (and wasm32 or not), C45: previous contents of the destination. *)
Theorem C44_base32_encode_target : forall t1 t2 s1 s2 cfg src, b32_isa s1 -> b32_isa s2 -> agree (b32_encode t1 s1 cfg) (b32_encode t2 s2 cfg) src.
Proof. exact b32_encode_agree. Qed.
Print Assumptions C44_base32_encode_target.
Theorem C44_base32_decode_target : forall t1 t2 s1 s2 cfg src, b32_isa s1 -> b32_isa s2 -> agree (b32_decode t1 s1 cfg) (b32_decode t2 s2 cfg) src.
Proof. exact b32_decode_agree. Qed.
Print Assumptions C44_base32_decode_target.
Theorem C45_base32_encode_old_contents : forall t s cfg src, b32_isa s -> ignores_old (b32_encode t s cfg) src.
Proof. intros t s cfg src Hs. now apply b32_encode_agree. Qed.
Print Assumptions C45_base32_encode_old_contents.
Theorem C45_base32_decode_old_contents : forall t s cfg src, b32_isa s -> ignores_old (b32_decode t s cfg) src.
Proof. intros t s cfg src Hs. now apply b32_decode_agree. Qed.
Print Assumptions C45_base32_decode_old_contents.

(** C47, C50. *)
Theorem C47_base32_compositional : forall t1 t2 t3 s1 s2 s3 cfg a b, b32_isa s1 -> b32_isa s2 -> b32_isa s3 ->
  bytes a -> bytes b -> (List.length a mod 5 = 0)%nat ->
  exists x y, encodes (b32_encode t1 s1 cfg) a x /\ encodes (b32_encode t2 s2 cfg) b y /\ encodes (b32_encode t3 s3 cfg) (a ++ b) (x ++ y).
Proof.
  intros t1 t2 t3 s1 s2 s3 cfg a b H1 H2 H3 Ba Bb L. assert (E1 := b32_encode_ok t1 s1 cfg a H1). assert (E2 := b32_encode_ok t2 s2 cfg b H2).
  exists (b32_rfc cfg a), (b32_rfc cfg b). split; [exact E1|]. split; [exact E2|].
  exact (b32_compositional t1 t2 t3 s1 s2 s3 cfg a b _ _ H1 H2 H3 Ba Bb L E1 E2).
Qed.
Print Assumptions C47_base32_compositional.
Theorem C50_base32_injective : forall t1 t2 s1 s2 cfg a b, b32_isa s1 -> b32_isa s2 -> bytes a -> bytes b ->
  exists x y, encodes (b32_encode t1 s1 cfg) a x /\ encodes (b32_encode t2 s2 cfg) b y /\ (x = y -> a = b).
Proof.
  intros t1 t2 s1 s2 cfg a b H1 H2 Ba Bb. assert (E1 := b32_encode_ok t1 s1 cfg a H1). assert (E2 := b32_encode_ok t2 s2 cfg b H2).
  exists (b32_rfc cfg a), (b32_rfc cfg b). split; [exact E1|]. split; [exact E2|]. intros E. rewrite <- E in E2.
  exact (b32_injective t1 t2 s1 s2 cfg a b _ H1 H2 Ba Bb E1 E2).
Qed.
Print Assumptions C50_base32_injective.

(** ** Concrete instances: the hypotheses are satisfiable and the model computes. *)
Definition ex_le : target := {| t_endian := LE; t_wasm32 := false |}.
Definition ex_be : target := {| t_endian := BE; t_wasm32 := false |}.
Definition ex_show {A} (r : res A) (b : nat) : option (A * list cell) := match r with Ret a m => Some (a, m b) | _ => None end.
Definition ex_src : list Z := map (fun x => 255 - 5 * x) (range 49).
Definition ex_mem : mem := mem_of [cells ex_src; uninit 90].
Example ex_slice : slice ex_mem 0 0 ex_src.
Proof. apply slice_whole; [|reflexivity]. apply Forall_forall. intros x H. apply in_map_iff in H as (y & <- & H). apply in_range in H. unfold byte. lia. Qed.
Example ex_room : room ex_mem 1 3 85 /\ separate 0 0 (List.length ex_src) 1 3 85 /\ (List.length (b32_rfc BASE32 ex_src) <= 85)%nat.
Proof. unfold room, separate. vm_compute. lia. Qed.
Example ex_isas : b32_isa Fallback /\ b32_isa SSE41 /\ b32_isa AVX2 /\ b32_isa NEON32 /\ b32_isa NEON64 /\ b32_isa WASM128 /\ b32_chk_isa SSSE3.
Proof. repeat split; (now left) || now right. Qed.
(** 49 bytes: ten scalar bytes, a vector step, scalar steps and a partial group *)
Example ex_encode_avx2 :
  ex_show (b32_encode ex_le AVX2 BASE32 (0, 0)%nat 49 (1, 3)%nat 85 ex_mem) 1
  = Some (Ok (1, 3, 80)%nat, uninit 3 ++ cells (rfc_base32 base32_std true ex_src) ++ uninit 7).
Proof. vm_compute. reflexivity. Qed.
Example ex_encode_foobar : ex_show (b32_encode ex_be Fallback BASE32HEX_NO_PAD (0, 0)%nat 4 (1, 0)%nat 7 (mem_of [cells (str "foob"); uninit 7])) 1
  = Some (Ok (1, 0, 7)%nat, cells (str "CPNMUOG")).
Proof. vm_compute. reflexivity. Qed.
Definition ex_text : list Z := rfc_base32 base32_std true ex_src.
Example ex_decode_ok : ex_show (b32_decode ex_be NEON32 BASE32 (0, 0)%nat 80 (1, 2)%nat 49 (mem_of [cells ex_text; uninit 51])) 1
  = Some (Ok (1, 2, 49)%nat, uninit 2 ++ cells ex_src).
Proof. vm_compute. reflexivity. Qed.
(** non-zero trailing bits, misplaced padding, lower case: Err *)
Example ex_decode_err :
  ex_show (b32_decode ex_le SSE41 BASE32 (0, 0)%nat 8 (1, 0)%nat 5 (mem_of [cells (str "MZXW6YR="); uninit 5])) 1 = Some (Err, uninit 5) /\
  ex_show (b32_decode ex_le SSE41 BASE32 (0, 0)%nat 8 (1, 0)%nat 5 (mem_of [cells (str "AA=A=A=="); uninit 5])) 1 = Some (Err, uninit 5) /\
  ex_show (b32_decode ex_le SSE41 BASE32 (0, 0)%nat 8 (1, 0)%nat 5 (mem_of [cells (str "mzxw6yq="); uninit 5])) 1 = Some (Err, uninit 5).
Proof. repeat split; vm_compute; reflexivity. Qed.
Example ex_inplace : ex_show (b32_decode_inplace ex_le AVX2 BASE32 (0, 1)%nat 80 (mem_of [cells ([33] ++ ex_text ++ [33])])) 0
  = Some (Ok (0, 1, 49)%nat, cells ([33] ++ ex_src ++ skipn 49 ex_text ++ [33])).
Proof. vm_compute. reflexivity. Qed.
Example ex_check : ex_show (b32_check ex_le SSSE3 BASE32 (0, 0)%nat 80 (mem_of [cells ex_text])) 0 = Some (Ok tt, cells ex_text)
  /\ ex_show (b32_check ex_le SSSE3 BASE32HEX (0, 0)%nat 80 (mem_of [cells ex_text])) 0 = Some (Err, cells ex_text).
Proof. split; vm_compute; reflexivity. Qed.
Example ex_lengths : b32_encoded_length 64 49 BASE32 = Some 80 /\ b32_encoded_length 64 (2 ^ 63) BASE32 = None /\
  b32_encoded_length 32 (2 ^ 31 - 1) BASE32_NO_PAD = Some 3435973836.
Proof. repeat split; vm_compute; reflexivity. Qed.
