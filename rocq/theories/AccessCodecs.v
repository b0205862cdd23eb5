(** The functions of the crates access the same addresses in any two runs on slices of the same lengths, until one of the runs
    stops (AccessFacts.v). Lemmas only. One lemma for each of the programs of Reify.v. *)
From Coq Require Import ZArith List Bool Lia.
From Verif Require Import Bytes Mem MemFacts Slices Isa Simd Alsw Ints Conc ConcFacts ConcBase64Facts Reify Access AccessFacts.
From Verif Require Hex Base64 Base32 Uuid Unicode.
From Verif Require Import Spec Base64Ref Base64Api Base32Ref Base32Api.
Import ListNotations.
Open Scope nat_scope. Open Scope m_scope.

Lemma alk_hex_encode_bits {H H' : Prop} {d d' : nat} (src : ptr) (dst : nat * nat) (cs cs' : list Z) K K' : alike (the_prog (@rei_hex_encode_bits H d src dst cs K)) (the_prog (@rei_hex_encode_bits H' d' src dst cs' K')).
Proof. unfold rei_hex_encode_bits, Hex.encode_bits. repeat alk1. Qed.
#[export] Hint Extern 1 (alike (the_prog (rei_hex_encode_bits _ _ _ _)) _) => apply alk_hex_encode_bits : alk.
Lemma alk_hex_encode_step {H H' : Prop} {d d' : nat} (cs cs' : list Z) (st : ptr * ptr) K K' : alike (the_prog (@rei_hex_encode_step H d cs st K)) (the_prog (@rei_hex_encode_step H' d' cs' st K')).
Proof. unfold rei_hex_encode_step, Hex.encode_step. repeat alk1. Qed.
#[export] Hint Extern 1 (alike (the_prog (rei_hex_encode_step _ _ _)) _) => apply alk_hex_encode_step : alk.
Lemma alk_hex_encode_short {H H' : Prop} {d d' : nat} (src : ptr) (len : nat) (dst : nat * nat) (cs cs' : list Z) K K' : alike (the_prog (@rei_hex_encode_short H d src len dst cs K)) (the_prog (@rei_hex_encode_short H' d' src len dst cs' K')).
Proof. unfold rei_hex_encode_short, Hex.encode_short. repeat alk1. Qed.
#[export] Hint Extern 1 (alike (the_prog (rei_hex_encode_short _ _ _ _ _)) _) => apply alk_hex_encode_short : alk.
Lemma alk_hex_encode_long {H H' : Prop} {d d' : nat} (src : ptr) (len : nat) (dst : nat * nat) (case : Hex.ascii_case) K K' : alike (the_prog (@rei_hex_encode_long H d src len dst case K)) (the_prog (@rei_hex_encode_long H' d' src len dst case K')).
Proof. unfold rei_hex_encode_long, Hex.encode_long. repeat alk1. Qed.
#[export] Hint Extern 1 (alike (the_prog (rei_hex_encode_long _ _ _ _ _)) _) => apply alk_hex_encode_long : alk.
Lemma alk_hex_encode_fallback {H H' : Prop} {d d' : nat} (src : ptr) (len : nat) (dst : nat * nat) (case : Hex.ascii_case) K K' : alike (the_prog (@rei_hex_encode_fallback H d src len dst case K)) (the_prog (@rei_hex_encode_fallback H' d' src len dst case K')).
Proof. unfold rei_hex_encode_fallback, Hex.hex_encode_fallback. repeat alk1. Qed.
#[export] Hint Extern 1 (alike (the_prog (rei_hex_encode_fallback _ _ _ _ _)) _) => apply alk_hex_encode_fallback : alk.
Lemma alk_hex_encode_simd_v256 {H H' : Prop} {d d' : nat} (s : Isa.isa) (src : ptr) (len : nat) (dst : nat * nat) (case : Hex.ascii_case) K K' : alike (the_prog (@rei_hex_encode_simd_v256 H d s src len dst case K)) (the_prog (@rei_hex_encode_simd_v256 H' d' s src len dst case K')).
Proof. unfold rei_hex_encode_simd_v256, Hex.encode_simd_v256. repeat alk1. Qed.
#[export] Hint Extern 1 (alike (the_prog (rei_hex_encode_simd_v256 _ _ _ _ _ _)) _) => apply alk_hex_encode_simd_v256 : alk.
Lemma alk_hex_encode_simd_v128 {H H' : Prop} {d d' : nat} (s : Isa.isa) (src : ptr) (len : nat) (dst : nat * nat) (case : Hex.ascii_case) K K' : alike (the_prog (@rei_hex_encode_simd_v128 H d s src len dst case K)) (the_prog (@rei_hex_encode_simd_v128 H' d' s src len dst case K')).
Proof. unfold rei_hex_encode_simd_v128, Hex.encode_simd_v128. repeat alk1. Qed.
#[export] Hint Extern 1 (alike (the_prog (rei_hex_encode_simd_v128 _ _ _ _ _ _)) _) => apply alk_hex_encode_simd_v128 : alk.
Lemma alk_hex_encode_simd_sse2 {H H' : Prop} {d d' : nat} (s : Isa.isa) (src : ptr) (len : nat) (dst : nat * nat) (case : Hex.ascii_case) K K' : alike (the_prog (@rei_hex_encode_simd_sse2 H d s src len dst case K)) (the_prog (@rei_hex_encode_simd_sse2 H' d' s src len dst case K')).
Proof. unfold rei_hex_encode_simd_sse2, Hex.encode_simd_sse2. repeat alk1. Qed.
#[export] Hint Extern 1 (alike (the_prog (rei_hex_encode_simd_sse2 _ _ _ _ _ _)) _) => apply alk_hex_encode_simd_sse2 : alk.
Lemma alk_hex_encode_simd {H H' : Prop} {d d' : nat} (s : Isa.isa) (src : ptr) (len : nat) (dst : nat * nat) (case : Hex.ascii_case) K K' : alike (the_prog (@rei_hex_encode_simd H d s src len dst case K)) (the_prog (@rei_hex_encode_simd H' d' s src len dst case K')).
Proof. unfold rei_hex_encode_simd, Hex.hex_encode_simd. repeat alk1. Qed.
#[export] Hint Extern 1 (alike (the_prog (rei_hex_encode_simd _ _ _ _ _ _)) _) => apply alk_hex_encode_simd : alk.
Lemma alk_hex_encode_impl {H H' : Prop} {d d' : nat} (s : Isa.isa) (src : ptr) (len : nat) (dst : nat * nat) (case : Hex.ascii_case) K K' : alike (the_prog (@rei_hex_encode_impl H d s src len dst case K)) (the_prog (@rei_hex_encode_impl H' d' s src len dst case K')).
Proof. unfold rei_hex_encode_impl, Hex.hex_encode_impl. destruct s; repeat alk1. Qed.
#[export] Hint Extern 1 (alike (the_prog (rei_hex_encode_impl _ _ _ _ _ _)) _) => apply alk_hex_encode_impl : alk.
Lemma alk_hex_encode {H H' : Prop} {d d' : nat} (s : Isa.isa) (src : ptr) (slen : nat) (dst : nat * nat) (dlen : nat) (case : Hex.ascii_case) K K' : alike (the_prog (@rei_hex_encode H d s src slen dst dlen case K)) (the_prog (@rei_hex_encode H' d' s src slen dst dlen case K')).
Proof. unfold rei_hex_encode, Hex.hex_encode. repeat alk1. Qed.
#[export] Hint Extern 1 (alike (the_prog (rei_hex_encode _ _ _ _ _ _ _)) _) => apply alk_hex_encode : alk.
Lemma alk_hex_decode_bits {H H' : Prop} {d d' : nat} (src : ptr) (dst : nat * nat) K K' : alike (the_prog (@rei_hex_decode_bits H d src dst K)) (the_prog (@rei_hex_decode_bits H' d' src dst K')).
Proof. unfold rei_hex_decode_bits, Hex.decode_bits. repeat alk1. Qed.
#[export] Hint Extern 1 (alike (the_prog (rei_hex_decode_bits _ _ _)) _) => apply alk_hex_decode_bits : alk.
Lemma alk_hex_decode_step {H H' : Prop} {d d' : nat} (st st' : ptr * ptr * Z) K K' : rel st st' -> alike (the_prog (@rei_hex_decode_step H d st K)) (the_prog (@rei_hex_decode_step H' d' st' K')).
Proof. let R := fresh in intro R; unrel R st st'. unfold rei_hex_decode_step, Hex.decode_step. repeat alk1. Qed.
#[export] Hint Extern 1 (alike (the_prog (rei_hex_decode_step _ _)) _) => apply alk_hex_decode_step; alk_rel : alk.
Lemma alk_hex_decode_short {H H' : Prop} {d d' : nat} (s : Isa.isa) (src : ptr) (len : nat) (dst : nat * nat) K K' : alike (the_prog (@rei_hex_decode_short H d s src len dst K)) (the_prog (@rei_hex_decode_short H' d' s src len dst K')).
Proof. unfold rei_hex_decode_short, Hex.decode_short. repeat alk1. Qed.
#[export] Hint Extern 1 (alike (the_prog (rei_hex_decode_short _ _ _ _ _)) _) => apply alk_hex_decode_short : alk.
Lemma alk_hex_decode_long {H H' : Prop} {d d' : nat} (src : ptr) (len : nat) (dst : nat * nat) K K' : alike (the_prog (@rei_hex_decode_long H d src len dst K)) (the_prog (@rei_hex_decode_long H' d' src len dst K')).
Proof. unfold rei_hex_decode_long, Hex.decode_long. repeat alk1. Qed.
#[export] Hint Extern 1 (alike (the_prog (rei_hex_decode_long _ _ _ _)) _) => apply alk_hex_decode_long : alk.
Lemma alk_hex_decode_fallback {H H' : Prop} {d d' : nat} (src : ptr) (len : nat) (dst : nat * nat) K K' : alike (the_prog (@rei_hex_decode_fallback H d src len dst K)) (the_prog (@rei_hex_decode_fallback H' d' src len dst K')).
Proof. unfold rei_hex_decode_fallback, Hex.hex_decode_fallback. repeat alk1. Qed.
#[export] Hint Extern 1 (alike (the_prog (rei_hex_decode_fallback _ _ _ _)) _) => apply alk_hex_decode_fallback : alk.
Lemma alk_hex_dec16 {H H' : Prop} {d d' : nat} (s : Isa.isa) (src : ptr) (dst : nat * nat) K K' : alike (the_prog (@rei_hex_dec16 H d s src dst K)) (the_prog (@rei_hex_dec16 H' d' s src dst K')).
Proof. unfold rei_hex_dec16, Hex.dec16. repeat alk1. Qed.
#[export] Hint Extern 1 (alike (the_prog (rei_hex_dec16 _ _ _ _)) _) => apply alk_hex_dec16 : alk.
Lemma alk_hex_dec32 {H H' : Prop} {d d' : nat} (s : Isa.isa) (src : ptr) (dst : nat * nat) K K' : alike (the_prog (@rei_hex_dec32 H d s src dst K)) (the_prog (@rei_hex_dec32 H' d' s src dst K')).
Proof. unfold rei_hex_dec32, Hex.dec32. repeat alk1. Qed.
#[export] Hint Extern 1 (alike (the_prog (rei_hex_dec32 _ _ _ _)) _) => apply alk_hex_dec32 : alk.
Lemma alk_hex_decode_simd_v256 {H H' : Prop} {d d' : nat} (s : Isa.isa) (src : ptr) (len : nat) (dst : nat * nat) K K' : alike (the_prog (@rei_hex_decode_simd_v256 H d s src len dst K)) (the_prog (@rei_hex_decode_simd_v256 H' d' s src len dst K')).
Proof. unfold rei_hex_decode_simd_v256, Hex.decode_simd_v256. repeat alk1. Qed.
#[export] Hint Extern 1 (alike (the_prog (rei_hex_decode_simd_v256 _ _ _ _ _)) _) => apply alk_hex_decode_simd_v256 : alk.
Lemma alk_hex_decode_simd_v128 {H H' : Prop} {d d' : nat} (s : Isa.isa) (src : ptr) (len : nat) (dst : nat * nat) K K' : alike (the_prog (@rei_hex_decode_simd_v128 H d s src len dst K)) (the_prog (@rei_hex_decode_simd_v128 H' d' s src len dst K')).
Proof. unfold rei_hex_decode_simd_v128, Hex.decode_simd_v128. repeat alk1. Qed.
#[export] Hint Extern 1 (alike (the_prog (rei_hex_decode_simd_v128 _ _ _ _ _)) _) => apply alk_hex_decode_simd_v128 : alk.
Lemma alk_hex_decode_simd_sse2 {H H' : Prop} {d d' : nat} (s : Isa.isa) (src : ptr) (len : nat) (dst : nat * nat) K K' : alike (the_prog (@rei_hex_decode_simd_sse2 H d s src len dst K)) (the_prog (@rei_hex_decode_simd_sse2 H' d' s src len dst K')).
Proof. unfold rei_hex_decode_simd_sse2, Hex.decode_simd_sse2. repeat alk1. Qed.
#[export] Hint Extern 1 (alike (the_prog (rei_hex_decode_simd_sse2 _ _ _ _ _)) _) => apply alk_hex_decode_simd_sse2 : alk.
Lemma alk_hex_decode_simd {H H' : Prop} {d d' : nat} (s : Isa.isa) (src : ptr) (len : nat) (dst : nat * nat) K K' : alike (the_prog (@rei_hex_decode_simd H d s src len dst K)) (the_prog (@rei_hex_decode_simd H' d' s src len dst K')).
Proof. unfold rei_hex_decode_simd, Hex.hex_decode_simd. repeat alk1. Qed.
#[export] Hint Extern 1 (alike (the_prog (rei_hex_decode_simd _ _ _ _ _)) _) => apply alk_hex_decode_simd : alk.
Lemma alk_hex_decode_impl {H H' : Prop} {d d' : nat} (s : Isa.isa) (src : ptr) (len : nat) (dst : nat * nat) K K' : alike (the_prog (@rei_hex_decode_impl H d s src len dst K)) (the_prog (@rei_hex_decode_impl H' d' s src len dst K')).
Proof. unfold rei_hex_decode_impl, Hex.hex_decode_impl. destruct s; repeat alk1. Qed.
#[export] Hint Extern 1 (alike (the_prog (rei_hex_decode_impl _ _ _ _ _)) _) => apply alk_hex_decode_impl : alk.
Lemma alk_hex_decode {H H' : Prop} {d d' : nat} (s : Isa.isa) (src : ptr) (slen : nat) (dst : nat * nat) (dlen : nat) K K' : alike (the_prog (@rei_hex_decode H d s src slen dst dlen K)) (the_prog (@rei_hex_decode H' d' s src slen dst dlen K')).
Proof. unfold rei_hex_decode, Hex.hex_decode. repeat alk1. Qed.
#[export] Hint Extern 1 (alike (the_prog (rei_hex_decode _ _ _ _ _ _)) _) => apply alk_hex_decode : alk.
Lemma alk_hex_decode_inplace {H H' : Prop} {d d' : nat} (s : Isa.isa) (data : nat * nat) (len : nat) K K' : alike (the_prog (@rei_hex_decode_inplace H d s data len K)) (the_prog (@rei_hex_decode_inplace H' d' s data len K')).
Proof. unfold rei_hex_decode_inplace, Hex.hex_decode_inplace. repeat alk1. Qed.
#[export] Hint Extern 1 (alike (the_prog (rei_hex_decode_inplace _ _ _ _)) _) => apply alk_hex_decode_inplace : alk.
Lemma alk_hex_check_short {H H' : Prop} {P P' : nat -> Prop} (src : ptr) (len : nat) : alike (the_prog (@rei_hex_check_short H P src len)) (the_prog (@rei_hex_check_short H' P' src len)).
Proof. unfold rei_hex_check_short, Hex.check_short. repeat alk1. Qed.
#[export] Hint Extern 1 (alike (the_prog (rei_hex_check_short _ _)) _) => apply alk_hex_check_short : alk.
Lemma alk_hex_check_short_sc {H H' : Prop} {P P' : nat -> Prop} (src : ptr) (len : nat) : alike (the_prog (@rei_hex_check_short_sc H P src len)) (the_prog (@rei_hex_check_short_sc H' P' src len)).
Proof. unfold rei_hex_check_short_sc, Hex.check_short_sc. repeat alk1. Qed.
#[export] Hint Extern 1 (alike (the_prog (rei_hex_check_short_sc _ _)) _) => apply alk_hex_check_short_sc : alk.
Lemma alk_hex_check_fallback {H H' : Prop} {P P' : nat -> Prop} (src : ptr) (len : nat) : alike (the_prog (@rei_hex_check_fallback H P src len)) (the_prog (@rei_hex_check_fallback H' P' src len)).
Proof. unfold rei_hex_check_fallback, Hex.hex_check_fallback. repeat alk1. Qed.
#[export] Hint Extern 1 (alike (the_prog (rei_hex_check_fallback _ _)) _) => apply alk_hex_check_fallback : alk.
Lemma alk_hex_check_vec {H H' : Prop} {P P' : nat -> Prop} (w : Simd.width) (s : Isa.isa) (src : ptr) : alike (the_prog (@rei_hex_check_vec H P w s src)) (the_prog (@rei_hex_check_vec H' P' w s src)).
Proof. unfold rei_hex_check_vec, Hex.check_vec. repeat alk1. Qed.
#[export] Hint Extern 1 (alike (the_prog (rei_hex_check_vec _ _ _)) _) => apply alk_hex_check_vec : alk.
Lemma alk_hex_check_simd {H H' : Prop} {P P' : nat -> Prop} (s : Isa.isa) (src : ptr) (len : nat) : alike (the_prog (@rei_hex_check_simd H P s src len)) (the_prog (@rei_hex_check_simd H' P' s src len)).
Proof. unfold rei_hex_check_simd, Hex.hex_check_simd. repeat alk1. Qed.
#[export] Hint Extern 1 (alike (the_prog (rei_hex_check_simd _ _ _)) _) => apply alk_hex_check_simd : alk.
Lemma alk_hex_check_impl {H H' : Prop} {P P' : nat -> Prop} (s : Isa.isa) (src : ptr) (len : nat) : alike (the_prog (@rei_hex_check_impl H P s src len)) (the_prog (@rei_hex_check_impl H' P' s src len)).
Proof. unfold rei_hex_check_impl, Hex.hex_check_impl. destruct s; repeat alk1. Qed.
#[export] Hint Extern 1 (alike (the_prog (rei_hex_check_impl _ _ _)) _) => apply alk_hex_check_impl : alk.
Lemma alk_hex_check {H H' : Prop} {P P' : nat -> Prop} (s : Isa.isa) (src : ptr) (len : nat) : alike (the_prog (@rei_hex_check H P s src len)) (the_prog (@rei_hex_check H' P' s src len)).
Proof. unfold rei_hex_check, Hex.hex_check. repeat alk1. Qed.
#[export] Hint Extern 1 (alike (the_prog (rei_hex_check _ _ _)) _) => apply alk_hex_check : alk.
Lemma alk_b64_encode_bits24 {H H' : Prop} {d d' : nat} (src : ptr) (dst : nat * nat) (charset charset' : list Z) K K' : alike (the_prog (@rei_b64_encode_bits24 H d src dst charset K)) (the_prog (@rei_b64_encode_bits24 H' d' src dst charset' K')).
Proof. unfold rei_b64_encode_bits24, Base64.encode_bits24. repeat alk1. Qed.
#[export] Hint Extern 1 (alike (the_prog (rei_b64_encode_bits24 _ _ _ _)) _) => apply alk_b64_encode_bits24 : alk.
Lemma alk_b64_encode_bits48 {H H' : Prop} {d d' : nat} (src : ptr) (dst : nat * nat) (charset charset' : list Z) K K' : alike (the_prog (@rei_b64_encode_bits48 H d src dst charset K)) (the_prog (@rei_b64_encode_bits48 H' d' src dst charset' K')).
Proof. unfold rei_b64_encode_bits48, Base64.encode_bits48. repeat alk1. Qed.
#[export] Hint Extern 1 (alike (the_prog (rei_b64_encode_bits48 _ _ _ _)) _) => apply alk_b64_encode_bits48 : alk.
Lemma alk_b64_encode_extra {H H' : Prop} {d d' : nat} (extra : nat) (src : ptr) (dst : nat * nat) (charset charset' : list Z) (padding : bool) K K' : alike (the_prog (@rei_b64_encode_extra H d extra src dst charset padding K)) (the_prog (@rei_b64_encode_extra H' d' extra src dst charset' padding K')).
Proof. unfold rei_b64_encode_extra, Base64.b64_encode_extra. repeat alk1. Qed.
#[export] Hint Extern 1 (alike (the_prog (rei_b64_encode_extra _ _ _ _ _ _)) _) => apply alk_b64_encode_extra : alk.
Lemma alk_b64_enc48_step {H H' : Prop} {d d' : nat} (charset charset' : list Z) (st : ptr * ptr) K K' : alike (the_prog (@rei_b64_enc48_step H d charset st K)) (the_prog (@rei_b64_enc48_step H' d' charset' st K')).
Proof. unfold rei_b64_enc48_step, Base64.enc48_step. repeat alk1. Qed.
#[export] Hint Extern 1 (alike (the_prog (rei_b64_enc48_step _ _ _)) _) => apply alk_b64_enc48_step : alk.
Lemma alk_b64_enc24_step {H H' : Prop} {d d' : nat} (charset charset' : list Z) (st : ptr * ptr) K K' : alike (the_prog (@rei_b64_enc24_step H d charset st K)) (the_prog (@rei_b64_enc24_step H' d' charset' st K')).
Proof. unfold rei_b64_enc24_step, Base64.enc24_step. repeat alk1. Qed.
#[export] Hint Extern 1 (alike (the_prog (rei_b64_enc24_step _ _ _)) _) => apply alk_b64_enc24_step : alk.
Lemma alk_b64_encode_fallback {H H' : Prop} {d d' : nat} (src : ptr) (len : nat) (dst : nat * nat) (config : Base64.b64_config) K K' : alike (the_prog (@rei_b64_encode_fallback H d src len dst config K)) (the_prog (@rei_b64_encode_fallback H' d' src len dst config K')).
Proof. unfold rei_b64_encode_fallback, Base64.b64_encode_fallback. repeat alk1. Qed.
#[export] Hint Extern 1 (alike (the_prog (rei_b64_encode_fallback _ _ _ _ _)) _) => apply alk_b64_encode_fallback : alk.
Lemma alk_b64_encode_simd {H H' : Prop} {d d' : nat} (s : Isa.isa) (src : ptr) (len : nat) (dst : nat * nat) (config : Base64.b64_config) K K' : alike (the_prog (@rei_b64_encode_simd H d s src len dst config K)) (the_prog (@rei_b64_encode_simd H' d' s src len dst config K')).
Proof. unfold rei_b64_encode_simd, Base64.b64_encode_simd. repeat alk1. Qed.
#[export] Hint Extern 1 (alike (the_prog (rei_b64_encode_simd _ _ _ _ _ _)) _) => apply alk_b64_encode_simd : alk.
Lemma alk_b64_encode_impl {H H' : Prop} {d d' : nat} (s : Isa.isa) (src : ptr) (len : nat) (dst : nat * nat) (config : Base64.b64_config) K K' : alike (the_prog (@rei_b64_encode_impl H d s src len dst config K)) (the_prog (@rei_b64_encode_impl H' d' s src len dst config K')).
Proof. unfold rei_b64_encode_impl, Base64.b64_encode_impl. destruct s; repeat alk1. Qed.
#[export] Hint Extern 1 (alike (the_prog (rei_b64_encode_impl _ _ _ _ _ _)) _) => apply alk_b64_encode_impl : alk.
Lemma alk_b64_encode {H H' : Prop} {d d' : nat} (s : Isa.isa) (config : Base64.b64_config) (src : ptr) (slen : nat) (dst : nat * nat) (dlen : nat) K K' : alike (the_prog (@rei_b64_encode H d s config src slen dst dlen K)) (the_prog (@rei_b64_encode H' d' s config src slen dst dlen K')).
Proof. unfold rei_b64_encode, Base64.b64_encode. repeat alk1. Qed.
#[export] Hint Extern 1 (alike (the_prog (rei_b64_encode _ _ _ _ _ _ _)) _) => apply alk_b64_encode : alk.
Lemma alk_b64_count_pad {H H' : Prop} {P P' : nat -> Prop} (src : ptr) (len : nat) : @alike nat (rel_any nat) (the_prog (@rei_b64_count_pad H P src len)) (the_prog (@rei_b64_count_pad H' P' src len)).
Proof. unfold rei_b64_count_pad, Base64.b64_count_pad. repeat alk1. Qed.
Lemma alk_b64_decoded_length {H H' : Prop} {P P' : nat -> Prop} (src : ptr) (len : nat) (config : Base64.b64_config) :
  @alike _ (rel_result _ (rel_any (nat * nat))) (the_prog (@rei_b64_decoded_length H P src len config)) (the_prog (@rei_b64_decoded_length H' P' src len config)).
Proof.
  unfold rei_b64_decoded_length, Base64.b64_decoded_length. alk1; [alk1|]. apply (@alk_rei_try _ _ _ _ _ _ (rel_any nat)).
  - alk1; [alk1; [|alk1]|alk1|alk1; [|alk1]].
    + apply (@alk_rei_bind _ _ _ _ _ _ (rel_any nat)); [apply alk_b64_count_pad|intros a b _; alk1|alk_stop].
    + apply (@alk_rei_bind _ _ _ _ _ _ (rel_any nat)); [apply alk_b64_count_pad|intros a b _; alk1|alk_stop].
  - intros a b _. destruct (a mod 4) as [|[|[|[|?]]]]; destruct (b mod 4) as [|[|[|[|?]]]]; alk1.
Qed.
Lemma alk_b64_decode_ascii8_w {H H' : Prop} {d d' : nat} (en : Ints.endian) (src : ptr) (dst : nat * nat) (table table' : list Z) K K' : alike (the_prog (@rei_b64_decode_ascii8_w H d en src dst table K)) (the_prog (@rei_b64_decode_ascii8_w H' d' en src dst table' K')).
Proof. unfold rei_b64_decode_ascii8_w, Base64.b64_decode_ascii8. repeat alk1. Qed.
#[export] Hint Extern 1 (alike (the_prog (rei_b64_decode_ascii8_w _ _ _ _ _)) _) => apply alk_b64_decode_ascii8_w : alk.
Lemma alk_b64_decode_ascii8_c {H H' : Prop} {P P' : nat -> Prop} (en : Ints.endian) (src : ptr) (dst : ptr) (table table' : list Z) : alike (the_prog (@rei_b64_decode_ascii8_c H P en src dst table)) (the_prog (@rei_b64_decode_ascii8_c H' P' en src dst table')).
Proof. unfold rei_b64_decode_ascii8_c, Base64.b64_decode_ascii8. repeat alk1. Qed.
#[export] Hint Extern 1 (alike (the_prog (rei_b64_decode_ascii8_c _ _ _ _)) _) => apply alk_b64_decode_ascii8_c : alk.
Lemma alk_b64_decode_ascii4_w {H H' : Prop} {d d' : nat} (src : ptr) (dst : nat * nat) (table table' : list Z) K K' : alike (the_prog (@rei_b64_decode_ascii4_w H d src dst table K)) (the_prog (@rei_b64_decode_ascii4_w H' d' src dst table' K')).
Proof. unfold rei_b64_decode_ascii4_w, Base64.b64_decode_ascii4. repeat alk1. Qed.
#[export] Hint Extern 1 (alike (the_prog (rei_b64_decode_ascii4_w _ _ _ _)) _) => apply alk_b64_decode_ascii4_w : alk.
Lemma alk_b64_decode_ascii4_c {H H' : Prop} {P P' : nat -> Prop} (src : ptr) (dst : ptr) (table table' : list Z) : alike (the_prog (@rei_b64_decode_ascii4_c H P src dst table)) (the_prog (@rei_b64_decode_ascii4_c H' P' src dst table')).
Proof. unfold rei_b64_decode_ascii4_c, Base64.b64_decode_ascii4. repeat alk1. Qed.
#[export] Hint Extern 1 (alike (the_prog (rei_b64_decode_ascii4_c _ _ _)) _) => apply alk_b64_decode_ascii4_c : alk.
Lemma alk_b64_decode_extra_w {H H' : Prop} {d d' : nat} (extra : nat) (src : ptr) (dst : nat * nat) (table table' : list Z) (forgiving : bool) K K' : alike (the_prog (@rei_b64_decode_extra_w H d extra src dst table forgiving K)) (the_prog (@rei_b64_decode_extra_w H' d' extra src dst table' forgiving K')).
Proof. unfold rei_b64_decode_extra_w, Base64.b64_decode_extra. repeat alk1. Qed.
#[export] Hint Extern 1 (alike (the_prog (rei_b64_decode_extra_w _ _ _ _ _ _)) _) => apply alk_b64_decode_extra_w : alk.
Lemma alk_b64_decode_extra_c {H H' : Prop} {P P' : nat -> Prop} (extra : nat) (src : ptr) (dst : ptr) (table table' : list Z) (forgiving : bool) : alike (the_prog (@rei_b64_decode_extra_c H P extra src dst table forgiving)) (the_prog (@rei_b64_decode_extra_c H' P' extra src dst table' forgiving)).
Proof. unfold rei_b64_decode_extra_c, Base64.b64_decode_extra. repeat alk1. Qed.
#[export] Hint Extern 1 (alike (the_prog (rei_b64_decode_extra_c _ _ _ _ _)) _) => apply alk_b64_decode_extra_c : alk.
Lemma alk_b64_decode_fallback {H H' : Prop} {d d' : nat} (en : Ints.endian) (src : ptr) (dst : nat * nat) (n : nat) (config : Base64.b64_config) K K' : alike (the_prog (@rei_b64_decode_fallback H d en src dst n config K)) (the_prog (@rei_b64_decode_fallback H' d' en src dst n config K')).
Proof. unfold rei_b64_decode_fallback, Base64.b64_decode_fallback. repeat alk1. Qed.
#[export] Hint Extern 1 (alike (the_prog (rei_b64_decode_fallback _ _ _ _ _ _)) _) => apply alk_b64_decode_fallback : alk.
Lemma alk_b64_decode_simd {H H' : Prop} {d d' : nat} (en : Ints.endian) (s : Isa.isa) (src : ptr) (dst : nat * nat) (n : nat) (config : Base64.b64_config) K K' : alike (the_prog (@rei_b64_decode_simd H d en s src dst n config K)) (the_prog (@rei_b64_decode_simd H' d' en s src dst n config K')).
Proof. unfold rei_b64_decode_simd, Base64.b64_decode_simd. repeat alk1. Qed.
#[export] Hint Extern 1 (alike (the_prog (rei_b64_decode_simd _ _ _ _ _ _ _)) _) => apply alk_b64_decode_simd : alk.
Lemma alk_b64_decode_impl {H H' : Prop} {d d' : nat} (en : Ints.endian) (s : Isa.isa) (src : ptr) (dst : nat * nat) (n : nat) (config : Base64.b64_config) K K' : alike (the_prog (@rei_b64_decode_impl H d en s src dst n config K)) (the_prog (@rei_b64_decode_impl H' d' en s src dst n config K')).
Proof. unfold rei_b64_decode_impl, Base64.b64_decode_impl. destruct s; repeat alk1. Qed.
#[export] Hint Extern 1 (alike (the_prog (rei_b64_decode_impl _ _ _ _ _ _ _)) _) => apply alk_b64_decode_impl : alk.
Lemma alk_b64_check_fallback {H H' : Prop} {P P' : nat -> Prop} (en : Ints.endian) (src : ptr) (n : nat) (config : Base64.b64_config) : alike (the_prog (@rei_b64_check_fallback H P en src n config)) (the_prog (@rei_b64_check_fallback H' P' en src n config)).
Proof. unfold rei_b64_check_fallback, Base64.b64_check_fallback. repeat alk1. Qed.
#[export] Hint Extern 1 (alike (the_prog (rei_b64_check_fallback _ _ _ _)) _) => apply alk_b64_check_fallback : alk.
Lemma alk_b64_check_simd {H H' : Prop} {P P' : nat -> Prop} (en : Ints.endian) (s : Isa.isa) (src : ptr) (n : nat) (config : Base64.b64_config) : alike (the_prog (@rei_b64_check_simd H P en s src n config)) (the_prog (@rei_b64_check_simd H' P' en s src n config)).
Proof. unfold rei_b64_check_simd, Base64.b64_check_simd. repeat alk1. Qed.
#[export] Hint Extern 1 (alike (the_prog (rei_b64_check_simd _ _ _ _ _)) _) => apply alk_b64_check_simd : alk.
Lemma alk_b64_check_impl {H H' : Prop} {P P' : nat -> Prop} (en : Ints.endian) (s : Isa.isa) (src : ptr) (n : nat) (config : Base64.b64_config) : alike (the_prog (@rei_b64_check_impl H P en s src n config)) (the_prog (@rei_b64_check_impl H' P' en s src n config)).
Proof. unfold rei_b64_check_impl, Base64.b64_check_impl. destruct s; repeat alk1. Qed.
#[export] Hint Extern 1 (alike (the_prog (rei_b64_check_impl _ _ _ _ _)) _) => apply alk_b64_check_impl : alk.
Lemma alk_b32_encode_bits {H H' : Prop} {d d' : nat} (N : nat) (dst : nat * nat) (charset charset' : list Z) (x x' : Z) K K' : alike (the_prog (@rei_b32_encode_bits H d N dst charset x K)) (the_prog (@rei_b32_encode_bits H' d' N dst charset' x' K')).
Proof. unfold rei_b32_encode_bits, Base32.encode_bits. repeat alk1. Qed.
#[export] Hint Extern 1 (alike (the_prog (rei_b32_encode_bits _ _ _ _ _)) _) => apply alk_b32_encode_bits : alk.
Lemma alk_b32_read_be_bytes {H H' : Prop} {P P' : nat -> Prop} (t : Base32.target) (N : nat) (src : ptr) : alike (the_prog (@rei_b32_read_be_bytes H P t N src)) (the_prog (@rei_b32_read_be_bytes H' P' t N src)).
Proof. unfold rei_b32_read_be_bytes, Base32.read_be_bytes. repeat alk1. Qed.
#[export] Hint Extern 1 (alike (the_prog (rei_b32_read_be_bytes _ _ _)) _) => apply alk_b32_read_be_bytes : alk.
Lemma alk_b32_pad {H H' : Prop} {d d' : nat} (padding : bool) (dst : nat * nat) (N : nat) K K' : alike (the_prog (@rei_b32_pad H d padding dst N K)) (the_prog (@rei_b32_pad H' d' padding dst N K')).
Proof. unfold rei_b32_pad, Base32.b32_pad. repeat alk1. Qed.
#[export] Hint Extern 1 (alike (the_prog (rei_b32_pad _ _ _ _)) _) => apply alk_b32_pad : alk.
Lemma alk_b32_encode_extra {H H' : Prop} {d d' : nat} (t : Base32.target) (src : ptr) (extra : nat) (dst : nat * nat) (charset charset' : list Z) (padding : bool) K K' : alike (the_prog (@rei_b32_encode_extra H d t src extra dst charset padding K)) (the_prog (@rei_b32_encode_extra H' d' t src extra dst charset' padding K')).
Proof. unfold rei_b32_encode_extra, Base32.b32_encode_extra. repeat alk1. Qed.
#[export] Hint Extern 1 (alike (the_prog (rei_b32_encode_extra _ _ _ _ _ _ _)) _) => apply alk_b32_encode_extra : alk.
Lemma alk_b32_enc40_step {H H' : Prop} {d d' : nat} (t : Base32.target) (charset charset' : list Z) (st : ptr * ptr) K K' : alike (the_prog (@rei_b32_enc40_step H d t charset st K)) (the_prog (@rei_b32_enc40_step H' d' t charset' st K')).
Proof. unfold rei_b32_enc40_step, Base32.enc40_step. repeat alk1. Qed.
#[export] Hint Extern 1 (alike (the_prog (rei_b32_enc40_step _ _ _ _)) _) => apply alk_b32_enc40_step : alk.
Lemma alk_b32_encode_fallback {H H' : Prop} {d d' : nat} (t : Base32.target) (src : ptr) (len : nat) (dst : nat * nat) (kind : Base32.b32_kind) (padding : bool) K K' : alike (the_prog (@rei_b32_encode_fallback H d t src len dst kind padding K)) (the_prog (@rei_b32_encode_fallback H' d' t src len dst kind padding K')).
Proof. unfold rei_b32_encode_fallback, Base32.b32_encode_fallback. repeat alk1. Qed.
#[export] Hint Extern 1 (alike (the_prog (rei_b32_encode_fallback _ _ _ _ _ _ _)) _) => apply alk_b32_encode_fallback : alk.
Lemma alk_b32_encode_simd {H H' : Prop} {d d' : nat} (t : Base32.target) (s : Isa.isa) (src : ptr) (len : nat) (dst : nat * nat) (kind : Base32.b32_kind) (padding : bool) K K' : alike (the_prog (@rei_b32_encode_simd H d t s src len dst kind padding K)) (the_prog (@rei_b32_encode_simd H' d' t s src len dst kind padding K')).
Proof. unfold rei_b32_encode_simd, Base32.b32_encode_simd. repeat alk1. Qed.
#[export] Hint Extern 1 (alike (the_prog (rei_b32_encode_simd _ _ _ _ _ _ _ _)) _) => apply alk_b32_encode_simd : alk.
Lemma alk_b32_encode_impl {H H' : Prop} {d d' : nat} (t : Base32.target) (s : Isa.isa) (src : ptr) (len : nat) (dst : nat * nat) (kind : Base32.b32_kind) (padding : bool) K K' : alike (the_prog (@rei_b32_encode_impl H d t s src len dst kind padding K)) (the_prog (@rei_b32_encode_impl H' d' t s src len dst kind padding K')).
Proof. unfold rei_b32_encode_impl, Base32.b32_encode_impl. destruct s; repeat alk1. Qed.
#[export] Hint Extern 1 (alike (the_prog (rei_b32_encode_impl _ _ _ _ _ _ _ _)) _) => apply alk_b32_encode_impl : alk.
Lemma alk_b32_encode {H H' : Prop} {d d' : nat} (t : Base32.target) (s : Isa.isa) (config : Base32.b32_config) (src : ptr) (slen : nat) (dst : nat * nat) (dlen : nat) K K' : alike (the_prog (@rei_b32_encode H d t s config src slen dst dlen K)) (the_prog (@rei_b32_encode H' d' t s config src slen dst dlen K')).
Proof. unfold rei_b32_encode, Base32.b32_encode. repeat alk1. Qed.
#[export] Hint Extern 1 (alike (the_prog (rei_b32_encode _ _ _ _ _ _ _ _)) _) => apply alk_b32_encode : alk.
Lemma alk_b32_decoded_length {H H' : Prop} {P P' : nat -> Prop} (data : ptr) (len : nat) (padding : bool) :
  @alike _ (rel_result _ (rel_any (nat * nat))) (the_prog (@rei_b32_decoded_length H P data len padding)) (the_prog (@rei_b32_decoded_length H' P' data len padding)).
Proof.
  unfold rei_b32_decoded_length, Base32.b32_decoded_length. alk1; [alk1|]. apply (@alk_rei_try _ _ _ _ _ _ (rel_any nat)).
  - alk1; [|alk1]. alk1; [|alk1]. repeat alk1.
  - intros a b _. repeat alk1.
Qed.
Lemma alk_b32_decode_bits {H H' : Prop} {P P' : nat -> Prop} (N : nat) (src : ptr) (table table' : list Z) : alike (the_prog (@rei_b32_decode_bits H P N src table)) (the_prog (@rei_b32_decode_bits H' P' N src table')).
Proof. unfold rei_b32_decode_bits, Base32.decode_bits. repeat alk1. Qed.
#[export] Hint Extern 1 (alike (the_prog (rei_b32_decode_bits _ _ _)) _) => apply alk_b32_decode_bits : alk.
Lemma alk_b32_write_be_bytes {H H' : Prop} {d d' : nat} (t : Base32.target) (N : nat) (dst : nat * nat) (x x' : Z) K K' : alike (the_prog (@rei_b32_write_be_bytes H d t N dst x K)) (the_prog (@rei_b32_write_be_bytes H' d' t N dst x' K')).
Proof. unfold rei_b32_write_be_bytes, Base32.write_be_bytes. repeat alk1. Qed.
#[export] Hint Extern 1 (alike (the_prog (rei_b32_write_be_bytes _ _ _ _ _)) _) => apply alk_b32_write_be_bytes : alk.
Lemma alk_b32_decode_arm_w {H H' : Prop} {d d' : nat} (t : Base32.target) (chars : nat) (spare : nat) (nbytes : nat) (src : ptr) (dst : nat * nat) (table table' : list Z) K K' : alike (the_prog (@rei_b32_decode_arm_w H d t chars spare nbytes src dst table K)) (the_prog (@rei_b32_decode_arm_w H' d' t chars spare nbytes src dst table' K')).
Proof. unfold rei_b32_decode_arm_w, Base32.decode_arm. repeat alk1. Qed.
#[export] Hint Extern 1 (alike (the_prog (rei_b32_decode_arm_w _ _ _ _ _ _ _ _)) _) => apply alk_b32_decode_arm_w : alk.
Lemma alk_b32_decode_arm_c {H H' : Prop} {P P' : nat -> Prop} (t : Base32.target) (chars : nat) (spare : nat) (nbytes : nat) (src : ptr) (dst : ptr) (table table' : list Z) : alike (the_prog (@rei_b32_decode_arm_c H P t chars spare nbytes src dst table)) (the_prog (@rei_b32_decode_arm_c H' P' t chars spare nbytes src dst table')).
Proof. unfold rei_b32_decode_arm_c, Base32.decode_arm. repeat alk1. Qed.
#[export] Hint Extern 1 (alike (the_prog (rei_b32_decode_arm_c _ _ _ _ _ _ _)) _) => apply alk_b32_decode_arm_c : alk.
Lemma alk_b32_decode_extra_w {H H' : Prop} {d d' : nat} (t : Base32.target) (src : ptr) (extra : nat) (dst : nat * nat) (table table' : list Z) K K' : alike (the_prog (@rei_b32_decode_extra_w H d t src extra dst table K)) (the_prog (@rei_b32_decode_extra_w H' d' t src extra dst table' K')).
Proof. unfold rei_b32_decode_extra_w, Base32.b32_decode_extra. repeat alk1. Qed.
#[export] Hint Extern 1 (alike (the_prog (rei_b32_decode_extra_w _ _ _ _ _ _)) _) => apply alk_b32_decode_extra_w : alk.
Lemma alk_b32_decode_extra_c {H H' : Prop} {P P' : nat -> Prop} (t : Base32.target) (src : ptr) (extra : nat) (dst : ptr) (table table' : list Z) : alike (the_prog (@rei_b32_decode_extra_c H P t src extra dst table)) (the_prog (@rei_b32_decode_extra_c H' P' t src extra dst table')).
Proof. unfold rei_b32_decode_extra_c, Base32.b32_decode_extra. repeat alk1. Qed.
#[export] Hint Extern 1 (alike (the_prog (rei_b32_decode_extra_c _ _ _ _ _)) _) => apply alk_b32_decode_extra_c : alk.
Lemma alk_b32_decode_fallback {H H' : Prop} {d d' : nat} (t : Base32.target) (src : ptr) (n : nat) (dst : nat * nat) (kind : Base32.b32_kind) K K' : alike (the_prog (@rei_b32_decode_fallback H d t src n dst kind K)) (the_prog (@rei_b32_decode_fallback H' d' t src n dst kind K')).
Proof. unfold rei_b32_decode_fallback, Base32.b32_decode_fallback. repeat alk1. Qed.
#[export] Hint Extern 1 (alike (the_prog (rei_b32_decode_fallback _ _ _ _ _ _)) _) => apply alk_b32_decode_fallback : alk.
Lemma alk_b32_decode_simd {H H' : Prop} {d d' : nat} (t : Base32.target) (s : Isa.isa) (src : ptr) (n : nat) (dst : nat * nat) (kind : Base32.b32_kind) K K' : alike (the_prog (@rei_b32_decode_simd H d t s src n dst kind K)) (the_prog (@rei_b32_decode_simd H' d' t s src n dst kind K')).
Proof. unfold rei_b32_decode_simd, Base32.b32_decode_simd. repeat alk1. Qed.
#[export] Hint Extern 1 (alike (the_prog (rei_b32_decode_simd _ _ _ _ _ _ _)) _) => apply alk_b32_decode_simd : alk.
Lemma alk_b32_decode_impl {H H' : Prop} {d d' : nat} (t : Base32.target) (s : Isa.isa) (src : ptr) (n : nat) (dst : nat * nat) (kind : Base32.b32_kind) K K' : alike (the_prog (@rei_b32_decode_impl H d t s src n dst kind K)) (the_prog (@rei_b32_decode_impl H' d' t s src n dst kind K')).
Proof. unfold rei_b32_decode_impl, Base32.b32_decode_impl. destruct s; repeat alk1. Qed.
#[export] Hint Extern 1 (alike (the_prog (rei_b32_decode_impl _ _ _ _ _ _ _)) _) => apply alk_b32_decode_impl : alk.
Lemma alk_b32_check_fallback {H H' : Prop} {P P' : nat -> Prop} (t : Base32.target) (src : ptr) (len : nat) (kind : Base32.b32_kind) : alike (the_prog (@rei_b32_check_fallback H P t src len kind)) (the_prog (@rei_b32_check_fallback H' P' t src len kind)).
Proof. unfold rei_b32_check_fallback, Base32.b32_check_fallback. repeat alk1. Qed.
#[export] Hint Extern 1 (alike (the_prog (rei_b32_check_fallback _ _ _ _)) _) => apply alk_b32_check_fallback : alk.
Lemma alk_b32_check_simd {H H' : Prop} {P P' : nat -> Prop} (t : Base32.target) (s : Isa.isa) (src : ptr) (len : nat) (kind : Base32.b32_kind) : alike (the_prog (@rei_b32_check_simd H P t s src len kind)) (the_prog (@rei_b32_check_simd H' P' t s src len kind)).
Proof. unfold rei_b32_check_simd, Base32.b32_check_simd. repeat alk1. Qed.
#[export] Hint Extern 1 (alike (the_prog (rei_b32_check_simd _ _ _ _ _)) _) => apply alk_b32_check_simd : alk.
Lemma alk_b32_check_impl {H H' : Prop} {P P' : nat -> Prop} (t : Base32.target) (s : Isa.isa) (src : ptr) (len : nat) (kind : Base32.b32_kind) : alike (the_prog (@rei_b32_check_impl H P t s src len kind)) (the_prog (@rei_b32_check_impl H' P' t s src len kind)).
Proof. unfold rei_b32_check_impl, Base32.b32_check_impl. destruct s; repeat alk1. Qed.
#[export] Hint Extern 1 (alike (the_prog (rei_b32_check_impl _ _ _ _ _)) _) => apply alk_b32_check_impl : alk.
Lemma alk_uuid_parse_simple_fallback {H H' : Prop} {d d' : nat} (src : ptr) (dst : nat * nat) K K' : alike (the_prog (@rei_uuid_parse_simple_fallback H d src dst K)) (the_prog (@rei_uuid_parse_simple_fallback H' d' src dst K')).
Proof. unfold rei_uuid_parse_simple_fallback, Uuid.parse_simple_fallback. repeat alk1. Qed.
#[export] Hint Extern 1 (alike (the_prog (rei_uuid_parse_simple_fallback _ _ _)) _) => apply alk_uuid_parse_simple_fallback : alk.
Lemma alk_uuid_check_hyphens {H H' : Prop} {P P' : nat -> Prop} (src : ptr) : alike (the_prog (@rei_uuid_check_hyphens H P src)) (the_prog (@rei_uuid_check_hyphens H' P' src)).
Proof. unfold rei_uuid_check_hyphens, Uuid.check_hyphens. repeat alk1. Qed.
#[export] Hint Extern 1 (alike (the_prog (rei_uuid_check_hyphens _)) _) => apply alk_uuid_check_hyphens : alk.
Lemma alk_uuid_parse_hyphenated_fallback {H H' : Prop} {d d' : nat} (src : ptr) (dst : nat * nat) K K' : alike (the_prog (@rei_uuid_parse_hyphenated_fallback H d src dst K)) (the_prog (@rei_uuid_parse_hyphenated_fallback H' d' src dst K')).
Proof. unfold rei_uuid_parse_hyphenated_fallback, Uuid.parse_hyphenated_fallback. repeat alk1. Qed.
#[export] Hint Extern 1 (alike (the_prog (rei_uuid_parse_hyphenated_fallback _ _ _)) _) => apply alk_uuid_parse_hyphenated_fallback : alk.
Lemma alk_uuid_parse_simple_simd_sse2 {H H' : Prop} {d d' : nat} (s : Isa.isa) (src : ptr) (dst : nat * nat) K K' : alike (the_prog (@rei_uuid_parse_simple_simd_sse2 H d s src dst K)) (the_prog (@rei_uuid_parse_simple_simd_sse2 H' d' s src dst K')).
Proof. unfold rei_uuid_parse_simple_simd_sse2, Uuid.parse_simple_simd_sse2. repeat alk1. Qed.
#[export] Hint Extern 1 (alike (the_prog (rei_uuid_parse_simple_simd_sse2 _ _ _ _)) _) => apply alk_uuid_parse_simple_simd_sse2 : alk.
Lemma alk_uuid_parse_simple_simd {H H' : Prop} {d d' : nat} (s : Isa.isa) (src : ptr) (dst : nat * nat) K K' : alike (the_prog (@rei_uuid_parse_simple_simd H d s src dst K)) (the_prog (@rei_uuid_parse_simple_simd H' d' s src dst K')).
Proof. unfold rei_uuid_parse_simple_simd, Uuid.parse_simple_simd. repeat alk1. Qed.
#[export] Hint Extern 1 (alike (the_prog (rei_uuid_parse_simple_simd _ _ _ _)) _) => apply alk_uuid_parse_simple_simd : alk.
Lemma alk_uuid_parse_hyphenated_simd {H H' : Prop} {d d' : nat} (s : Isa.isa) (src : ptr) (dst : nat * nat) K K' : alike (the_prog (@rei_uuid_parse_hyphenated_simd H d s src dst K)) (the_prog (@rei_uuid_parse_hyphenated_simd H' d' s src dst K')).
Proof. unfold rei_uuid_parse_hyphenated_simd, Uuid.parse_hyphenated_simd. repeat alk1. Qed.
#[export] Hint Extern 1 (alike (the_prog (rei_uuid_parse_hyphenated_simd _ _ _ _)) _) => apply alk_uuid_parse_hyphenated_simd : alk.
Lemma alk_uuid_format_simple_fallback {H H' : Prop} {d d' : nat} (src : ptr) (dst : nat * nat) (case : Hex.ascii_case) K K' : alike (the_prog (@rei_uuid_format_simple_fallback H d src dst case K)) (the_prog (@rei_uuid_format_simple_fallback H' d' src dst case K')).
Proof. unfold rei_uuid_format_simple_fallback, Uuid.format_simple_fallback. repeat alk1. Qed.
#[export] Hint Extern 1 (alike (the_prog (rei_uuid_format_simple_fallback _ _ _ _)) _) => apply alk_uuid_format_simple_fallback : alk.
Lemma alk_uuid_format_hyphenated_fallback {H H' : Prop} {d d' : nat} (src : ptr) (dst : nat * nat) (case : Hex.ascii_case) K K' : alike (the_prog (@rei_uuid_format_hyphenated_fallback H d src dst case K)) (the_prog (@rei_uuid_format_hyphenated_fallback H' d' src dst case K')).
Proof. unfold rei_uuid_format_hyphenated_fallback, Uuid.format_hyphenated_fallback. repeat alk1. Qed.
#[export] Hint Extern 1 (alike (the_prog (rei_uuid_format_hyphenated_fallback _ _ _ _)) _) => apply alk_uuid_format_hyphenated_fallback : alk.
Lemma alk_uuid_format_simple_simd_sse2 {H H' : Prop} {d d' : nat} (s : Isa.isa) (src : ptr) (dst : nat * nat) (case : Hex.ascii_case) K K' : alike (the_prog (@rei_uuid_format_simple_simd_sse2 H d s src dst case K)) (the_prog (@rei_uuid_format_simple_simd_sse2 H' d' s src dst case K')).
Proof. unfold rei_uuid_format_simple_simd_sse2, Uuid.format_simple_simd_sse2. repeat alk1. Qed.
#[export] Hint Extern 1 (alike (the_prog (rei_uuid_format_simple_simd_sse2 _ _ _ _ _)) _) => apply alk_uuid_format_simple_simd_sse2 : alk.
Lemma alk_uuid_format_simple_simd {H H' : Prop} {d d' : nat} (s : Isa.isa) (src : ptr) (dst : nat * nat) (case : Hex.ascii_case) K K' : alike (the_prog (@rei_uuid_format_simple_simd H d s src dst case K)) (the_prog (@rei_uuid_format_simple_simd H' d' s src dst case K')).
Proof. unfold rei_uuid_format_simple_simd, Uuid.format_simple_simd. repeat alk1. Qed.
#[export] Hint Extern 1 (alike (the_prog (rei_uuid_format_simple_simd _ _ _ _ _)) _) => apply alk_uuid_format_simple_simd : alk.
Lemma alk_uuid_format_hyphenated_simd {H H' : Prop} {d d' : nat} (s : Isa.isa) (src : ptr) (dst : nat * nat) (case : Hex.ascii_case) K K' : alike (the_prog (@rei_uuid_format_hyphenated_simd H d s src dst case K)) (the_prog (@rei_uuid_format_hyphenated_simd H' d' s src dst case K')).
Proof. unfold rei_uuid_format_hyphenated_simd, Uuid.format_hyphenated_simd. repeat alk1. Qed.
#[export] Hint Extern 1 (alike (the_prog (rei_uuid_format_hyphenated_simd _ _ _ _ _)) _) => apply alk_uuid_format_hyphenated_simd : alk.
Lemma alk_uuid_parse_simple_impl {H H' : Prop} {d d' : nat} (s : Isa.isa) (src : ptr) (dst : nat * nat) K K' : alike (the_prog (@rei_uuid_parse_simple_impl H d s src dst K)) (the_prog (@rei_uuid_parse_simple_impl H' d' s src dst K')).
Proof. unfold rei_uuid_parse_simple_impl, Uuid.parse_simple_impl. destruct s; repeat alk1. Qed.
#[export] Hint Extern 1 (alike (the_prog (rei_uuid_parse_simple_impl _ _ _ _)) _) => apply alk_uuid_parse_simple_impl : alk.
Lemma alk_uuid_parse_hyphenated_impl {H H' : Prop} {d d' : nat} (s : Isa.isa) (src : ptr) (dst : nat * nat) K K' : alike (the_prog (@rei_uuid_parse_hyphenated_impl H d s src dst K)) (the_prog (@rei_uuid_parse_hyphenated_impl H' d' s src dst K')).
Proof. unfold rei_uuid_parse_hyphenated_impl, Uuid.parse_hyphenated_impl. destruct s; repeat alk1. Qed.
#[export] Hint Extern 1 (alike (the_prog (rei_uuid_parse_hyphenated_impl _ _ _ _)) _) => apply alk_uuid_parse_hyphenated_impl : alk.
Lemma alk_uuid_format_simple_impl {H H' : Prop} {d d' : nat} (s : Isa.isa) (src : ptr) (dst : nat * nat) (case : Hex.ascii_case) K K' : alike (the_prog (@rei_uuid_format_simple_impl H d s src dst case K)) (the_prog (@rei_uuid_format_simple_impl H' d' s src dst case K')).
Proof. unfold rei_uuid_format_simple_impl, Uuid.format_simple_impl. destruct s; repeat alk1. Qed.
#[export] Hint Extern 1 (alike (the_prog (rei_uuid_format_simple_impl _ _ _ _ _)) _) => apply alk_uuid_format_simple_impl : alk.
Lemma alk_uuid_format_hyphenated_impl {H H' : Prop} {d d' : nat} (s : Isa.isa) (src : ptr) (dst : nat * nat) (case : Hex.ascii_case) K K' : alike (the_prog (@rei_uuid_format_hyphenated_impl H d s src dst case K)) (the_prog (@rei_uuid_format_hyphenated_impl H' d' s src dst case K')).
Proof. unfold rei_uuid_format_hyphenated_impl, Uuid.format_hyphenated_impl. destruct s; repeat alk1. Qed.
#[export] Hint Extern 1 (alike (the_prog (rei_uuid_format_hyphenated_impl _ _ _ _ _)) _) => apply alk_uuid_format_hyphenated_impl : alk.
Lemma alk_uuid_parse_simple {H H' : Prop} {d d' : nat} (s : Isa.isa) (src : ptr) (n : nat) (dst : nat * nat) K K' : alike (the_prog (@rei_uuid_parse_simple H d s src n dst K)) (the_prog (@rei_uuid_parse_simple H' d' s src n dst K')).
Proof. unfold rei_uuid_parse_simple, Uuid.uuid_parse_simple. repeat alk1. Qed.
#[export] Hint Extern 1 (alike (the_prog (rei_uuid_parse_simple _ _ _ _ _)) _) => apply alk_uuid_parse_simple : alk.
Lemma alk_uuid_parse_hyphenated {H H' : Prop} {d d' : nat} (s : Isa.isa) (src : ptr) (n : nat) (dst : nat * nat) K K' : alike (the_prog (@rei_uuid_parse_hyphenated H d s src n dst K)) (the_prog (@rei_uuid_parse_hyphenated H' d' s src n dst K')).
Proof. unfold rei_uuid_parse_hyphenated, Uuid.uuid_parse_hyphenated. repeat alk1. Qed.
#[export] Hint Extern 1 (alike (the_prog (rei_uuid_parse_hyphenated _ _ _ _ _)) _) => apply alk_uuid_parse_hyphenated : alk.
Lemma alk_uuid_parse {H H' : Prop} {d d' : nat} (s1 : Isa.isa) (s2 : Isa.isa) (src : ptr) (n : nat) (dst : nat * nat) K K' : alike (the_prog (@rei_uuid_parse H d s1 s2 src n dst K)) (the_prog (@rei_uuid_parse H' d' s1 s2 src n dst K')).
Proof. unfold rei_uuid_parse, Uuid.uuid_parse. repeat alk1. Qed.
#[export] Hint Extern 1 (alike (the_prog (rei_uuid_parse _ _ _ _ _ _)) _) => apply alk_uuid_parse : alk.
Lemma alk_uuid_format_simple {H H' : Prop} {d d' : nat} (s : Isa.isa) (src : ptr) (dst : nat * nat) (case : Hex.ascii_case) K K' : alike (the_prog (@rei_uuid_format_simple H d s src dst case K)) (the_prog (@rei_uuid_format_simple H' d' s src dst case K')).
Proof. unfold rei_uuid_format_simple, Uuid.uuid_format_simple. repeat alk1. Qed.
#[export] Hint Extern 1 (alike (the_prog (rei_uuid_format_simple _ _ _ _ _)) _) => apply alk_uuid_format_simple : alk.
Lemma alk_uuid_format_hyphenated {H H' : Prop} {d d' : nat} (s : Isa.isa) (src : ptr) (dst : nat * nat) (case : Hex.ascii_case) K K' : alike (the_prog (@rei_uuid_format_hyphenated H d s src dst case K)) (the_prog (@rei_uuid_format_hyphenated H' d' s src dst case K')).
Proof. unfold rei_uuid_format_hyphenated, Uuid.uuid_format_hyphenated. repeat alk1. Qed.
#[export] Hint Extern 1 (alike (the_prog (rei_uuid_format_hyphenated _ _ _ _ _)) _) => apply alk_uuid_format_hyphenated : alk.
Lemma alk_uni_is_ascii_fallback {H H' : Prop} {P P' : nat -> Prop} (src : ptr) (len : nat) : alike (the_prog (@rei_uni_is_ascii_fallback H P src len)) (the_prog (@rei_uni_is_ascii_fallback H' P' src len)).
Proof. unfold rei_uni_is_ascii_fallback, Unicode.is_ascii_fallback. repeat alk1. Qed.
#[export] Hint Extern 1 (alike (the_prog (rei_uni_is_ascii_fallback _ _)) _) => apply alk_uni_is_ascii_fallback : alk.
Lemma alk_uni_is_ascii_simd_v256 {H H' : Prop} {P P' : nat -> Prop} (s : Isa.isa) (src : ptr) (len : nat) : alike (the_prog (@rei_uni_is_ascii_simd_v256 H P s src len)) (the_prog (@rei_uni_is_ascii_simd_v256 H' P' s src len)).
Proof. unfold rei_uni_is_ascii_simd_v256, Unicode.is_ascii_simd_v256. repeat alk1. Qed.
#[export] Hint Extern 1 (alike (the_prog (rei_uni_is_ascii_simd_v256 _ _ _)) _) => apply alk_uni_is_ascii_simd_v256 : alk.
Lemma alk_uni_loadu {H H' : Prop} {P P' : nat -> Prop} (p : ptr) (k : nat) : alike (the_prog (@rei_uni_loadu H P p k)) (the_prog (@rei_uni_loadu H' P' p k)).
Proof. unfold rei_uni_loadu, Unicode.loadu. repeat alk1. Qed.
#[export] Hint Extern 1 (alike (the_prog (rei_uni_loadu _ _)) _) => apply alk_uni_loadu : alk.
Definition rel_tiny : Rel (bool * ptr * nat) := {| rel x y := x = y; stop x := fst (fst x) = false |}.
Lemma alk_uni_check_tiny {H H' : Prop} {P P' : nat -> Prop} (src : ptr) (len : nat) : @alike bool rel_answer (the_prog (@rei_uni_check_tiny H P src len)) (the_prog (@rei_uni_check_tiny H' P' src len)).
Proof.
  unfold rei_uni_check_tiny, Unicode.check_tiny. alk1; [repeat alk1|]. apply (@alk_rei_bind _ _ _ _ _ _ rel_tiny).
  - alk1; [|now apply alike_done]. apply alk_rei_bind; [repeat alk1|alk_intro|alk_stop]. destruct (Unicode.check4 a), (Unicode.check4 b).
    + apply alk_rei_bind; [alk1|alk_intro|alk_stop]. apply alike_done. exact eq_refl.
    + apply alike_stop_r. exact eq_refl.
    + apply alike_stop_l. exact eq_refl.
    + apply alike_stop_l. exact eq_refl.
  - intros [[c p] n] x E. cbn [rel rel_tiny] in E. subst x. repeat alk1.
  - intros [[c p] n] E. cbn in E. subst c. split; exact eq_refl.
Qed.
#[export] Hint Extern 1 (@alike bool rel_answer (the_prog (rei_uni_check_tiny _ _)) _) => apply alk_uni_check_tiny : alk.
Lemma alk_uni_check_short {H H' : Prop} {P P' : nat -> Prop} (src : ptr) (len : nat) : alike (the_prog (@rei_uni_check_short H P src len)) (the_prog (@rei_uni_check_short H' P' src len)).
Proof. unfold rei_uni_check_short, Unicode.check_short. repeat alk1. Qed.
#[export] Hint Extern 1 (alike (the_prog (rei_uni_check_short _ _)) _) => apply alk_uni_check_short : alk.
Lemma alk_uni_or_load {H H' : Prop} {P P' : nat -> Prop} (x x' : list Z) (src : ptr) (k : nat) : alike (the_prog (@rei_uni_or_load H P x src k)) (the_prog (@rei_uni_or_load H' P' x' src k)).
Proof. unfold rei_uni_or_load, Unicode.or_load. repeat alk1. Qed.
#[export] Hint Extern 1 (alike (the_prog (rei_uni_or_load _ _ _)) _) => apply alk_uni_or_load : alk.
Lemma alk_uni_check_medium {H H' : Prop} {P P' : nat -> Prop} (src : ptr) (len : nat) : alike (the_prog (@rei_uni_check_medium H P src len)) (the_prog (@rei_uni_check_medium H' P' src len)).
Proof. unfold rei_uni_check_medium, Unicode.check_medium. repeat alk1. Qed.
#[export] Hint Extern 1 (alike (the_prog (rei_uni_check_medium _ _)) _) => apply alk_uni_check_medium : alk.
Lemma alk_uni_check_long {H H' : Prop} {P P' : nat -> Prop} (src : ptr) (len : nat) : @alike bool rel_answer (the_prog (@rei_uni_check_long H P src len)) (the_prog (@rei_uni_check_long H' P' src len)).
Proof. unfold rei_uni_check_long, Unicode.check_long. repeat alk1. Qed.
#[export] Hint Extern 1 (@alike bool rel_answer (the_prog (rei_uni_check_long _ _)) _) => apply alk_uni_check_long : alk.
Lemma alk_uni_is_ascii_sse2 {H H' : Prop} {P P' : nat -> Prop} (src : ptr) (len : nat) : @alike bool rel_answer (the_prog (@rei_uni_is_ascii_sse2 H P src len)) (the_prog (@rei_uni_is_ascii_sse2 H' P' src len)).
Proof. unfold rei_uni_is_ascii_sse2, Unicode.is_ascii_sse2. repeat alk1. Qed.
#[export] Hint Extern 1 (@alike bool rel_answer (the_prog (rei_uni_is_ascii_sse2 _ _)) _) => apply alk_uni_is_ascii_sse2 : alk.
Lemma alk_uni_is_ascii_simd {H H' : Prop} {P P' : nat -> Prop} (x64 : bool) (s : Isa.isa) (src : ptr) (len : nat) : @alike bool rel_answer (the_prog (@rei_uni_is_ascii_simd H P x64 s src len)) (the_prog (@rei_uni_is_ascii_simd H' P' x64 s src len)).
Proof. unfold rei_uni_is_ascii_simd, Unicode.is_ascii_simd. repeat alk1. Qed.
#[export] Hint Extern 1 (@alike bool rel_answer (the_prog (rei_uni_is_ascii_simd _ _ _ _)) _) => apply alk_uni_is_ascii_simd : alk.
Lemma alk_uni_is_ascii {H H' : Prop} {P P' : nat -> Prop} (x64 : bool) (s : Isa.isa) (src : ptr) (len : nat) : @alike bool rel_answer (the_prog (@rei_uni_is_ascii H P x64 s src len)) (the_prog (@rei_uni_is_ascii H' P' x64 s src len)).
Proof. unfold rei_uni_is_ascii, Unicode.is_ascii. repeat alk1. Qed.
#[export] Hint Extern 1 (@alike bool rel_answer (the_prog (rei_uni_is_ascii _ _ _ _)) _) => apply alk_uni_is_ascii : alk.
Lemma alk_uni_from_ascii {H H' : Prop} {P P' : nat -> Prop} (x64 : bool) (s : isa) (src : ptr) (len : nat) :
  alike (the_prog (@rei_uni_from_ascii H P x64 s src len)) (the_prog (@rei_uni_from_ascii H' P' x64 s src len)).
Proof.
  unfold rei_uni_from_ascii, Unicode.from_ascii. apply (@alk_rei_bind _ _ _ _ _ _ rel_answer); [alk1|intros a b _; alk1|].
  intros a E. cbn in E. subst a. split; exact eq_refl.
Qed.
Lemma alk_uni_is_utf32le_fallback {H H' : Prop} {P P' : nat -> Prop} (en : Ints.endian) (src : ptr) (len : nat) : alike (the_prog (@rei_uni_is_utf32le_fallback H P en src len)) (the_prog (@rei_uni_is_utf32le_fallback H' P' en src len)).
Proof. unfold rei_uni_is_utf32le_fallback, Unicode.is_utf32le_fallback. repeat alk1. Qed.
#[export] Hint Extern 1 (alike (the_prog (rei_uni_is_utf32le_fallback _ _ _)) _) => apply alk_uni_is_utf32le_fallback : alk.
Lemma alk_uni_is_utf32le_simd {H H' : Prop} {P P' : nat -> Prop} (en : Ints.endian) (s : Isa.isa) (src : ptr) (len : nat) : alike (the_prog (@rei_uni_is_utf32le_simd H P en s src len)) (the_prog (@rei_uni_is_utf32le_simd H' P' en s src len)).
Proof. unfold rei_uni_is_utf32le_simd, Unicode.is_utf32le_simd. repeat alk1. Qed.
#[export] Hint Extern 1 (alike (the_prog (rei_uni_is_utf32le_simd _ _ _ _)) _) => apply alk_uni_is_utf32le_simd : alk.
Lemma alk_uni_is_utf32le {H H' : Prop} {P P' : nat -> Prop} (en : Ints.endian) (s : Isa.isa) (src : ptr) (len : nat) : alike (the_prog (@rei_uni_is_utf32le H P en s src len)) (the_prog (@rei_uni_is_utf32le H' P' en s src len)).
Proof. unfold rei_uni_is_utf32le, Unicode.is_utf32le. repeat alk1. Qed.
#[export] Hint Extern 1 (alike (the_prog (rei_uni_is_utf32le _ _ _ _)) _) => apply alk_uni_is_utf32le : alk.
Lemma alk_uni_bswap_fallback {H H' : Prop} {d d' : nat} (en : Ints.endian) (t : Unicode.elem) (src : ptr) (len : nat) (dst : nat * nat) K K' : alike (the_prog (@rei_uni_bswap_fallback H d en t src len dst K)) (the_prog (@rei_uni_bswap_fallback H' d' en t src len dst K')).
Proof. unfold rei_uni_bswap_fallback, Unicode.bswap_fallback. repeat alk1. Qed.
#[export] Hint Extern 1 (alike (the_prog (rei_uni_bswap_fallback _ _ _ _ _ _)) _) => apply alk_uni_bswap_fallback : alk.
Lemma alk_uni_bswap_simd {H H' : Prop} {d d' : nat} (en : Ints.endian) (t : Unicode.elem) (s : Isa.isa) (src : ptr) (len : nat) (dst : nat * nat) K K' : alike (the_prog (@rei_uni_bswap_simd H d en t s src len dst K)) (the_prog (@rei_uni_bswap_simd H' d' en t s src len dst K')).
Proof. unfold rei_uni_bswap_simd, Unicode.bswap_simd. repeat alk1. Qed.
#[export] Hint Extern 1 (alike (the_prog (rei_uni_bswap_simd _ _ _ _ _ _ _)) _) => apply alk_uni_bswap_simd : alk.
Lemma alk_uni_swap_endianness {H H' : Prop} {d d' : nat} (en : Ints.endian) (t : Unicode.elem) (s : Isa.isa) (src : ptr) (len : nat) (dst : nat * nat) K K' : alike (the_prog (@rei_uni_swap_endianness H d en t s src len dst K)) (the_prog (@rei_uni_swap_endianness H' d' en t s src len dst K')).
Proof. unfold rei_uni_swap_endianness, Unicode.swap_endianness. repeat alk1. Qed.
#[export] Hint Extern 1 (alike (the_prog (rei_uni_swap_endianness _ _ _ _ _ _ _)) _) => apply alk_uni_swap_endianness : alk.
Lemma alk_uni_swap_endianness_inplace {H H' : Prop} {d d' : nat} (en : Ints.endian) (t : Unicode.elem) (s : Isa.isa) (data : nat * nat) (len : nat) K K' : alike (the_prog (@rei_uni_swap_endianness_inplace H d en t s data len K)) (the_prog (@rei_uni_swap_endianness_inplace H' d' en t s data len K')).
Proof. unfold rei_uni_swap_endianness_inplace, Unicode.swap_endianness_inplace. repeat alk1. Qed.
#[export] Hint Extern 1 (alike (the_prog (rei_uni_swap_endianness_inplace _ _ _ _ _ _)) _) => apply alk_uni_swap_endianness_inplace : alk.
Lemma alk_uni_swap_endianness_to {H H' : Prop} {d d' : nat} (en : Ints.endian) (t : Unicode.elem) (s : Isa.isa) (src : ptr) (len : nat) (dst : nat * nat) (dlen : nat) K K' : alike (the_prog (@rei_uni_swap_endianness_to H d en t s src len dst dlen K)) (the_prog (@rei_uni_swap_endianness_to H' d' en t s src len dst dlen K')).
Proof. unfold rei_uni_swap_endianness_to, Unicode.swap_endianness_to. repeat alk1. Qed.
#[export] Hint Extern 1 (alike (the_prog (rei_uni_swap_endianness_to _ _ _ _ _ _ _ _)) _) => apply alk_uni_swap_endianness_to : alk.

(** ** Encoders fail only because of the lengths *)
Lemma alw_hex_encode {H H' : Prop} {d d' : nat} s src slen dst dlen case K K' :
  @alike _ (rel_any _) (the_prog (@rei_hex_encode H d s src slen dst dlen case K)) (the_prog (@rei_hex_encode H' d' s src slen dst dlen case K')).
Proof. unfold rei_hex_encode, Hex.hex_encode. repeat alk1. Qed.
Lemma alw_b64_encode {H H' : Prop} {d d' : nat} s c src slen dst dlen K K' :
  @alike _ (rel_any _) (the_prog (@rei_b64_encode H d s c src slen dst dlen K)) (the_prog (@rei_b64_encode H' d' s c src slen dst dlen K')).
Proof. unfold rei_b64_encode, Base64.b64_encode. repeat alk1. Qed.
Lemma alw_b32_encode {H H' : Prop} {d d' : nat} t s c src slen dst dlen K K' :
  @alike _ (rel_any _) (the_prog (@rei_b32_encode H d t s c src slen dst dlen K)) (the_prog (@rei_b32_encode H' d' t s c src slen dst dlen K')).
Proof. unfold rei_b32_encode, Base32.b32_encode. repeat alk1. Qed.

(** ** Functions that first find out how long the decoded data are *)
Definition comparable {A} {RA : Rel A} (p : prog A) (m m' : mem) : Prop :=
  (initial_part (trace p m) (trace p m') \/ initial_part (trace p m') (trace p m)) /\
  forall a a' m1 m1', run p m = Ret a m1 -> run p m' = Ret a' m1' -> ~ stop a -> ~ stop a' -> trace p m = trace p m'.
Lemma alike_comparable {A} {RA : Rel A} (p : prog A) m m' : alike p p -> same_sizes m m' -> comparable p m m'.
Proof. intros K E. destruct (alike_trace p p K m m' E) as [C D]. split; [exact C|]. intros a a' m1 m1' R R' S S'. apply (D a a' m1 m1' R R' S S'). Qed.
Lemma run_bind {A B} (p : prog A) (f : A -> prog B) : forall m, run (pbind p f) m = bind (run p) (fun a => run (f a)) m.
Proof.
  induction p as [a|x|b k IH|q n k IH|q xs k IH]; intro m; cbn [pbind run].
  - reflexivity.
  - now destruct x.
  - apply IH.
  - unfold bind. destruct (load q n m); try reflexivity. apply IH.
  - unfold bind. destruct (store q xs m); try reflexivity. apply IH.
Qed.
Lemma trace_bind {A B} (p : prog A) (f : A -> prog B) a : forall m m1, run p m = Ret a m1 -> trace (pbind p f) m = trace p m ++ trace (f a) m1.
Proof.
  induction p as [a'|x|b k IH|q n k IH|q xs k IH]; intros m m1; cbn [pbind run trace].
  - now intros [= <- <-].
  - now destruct x.
  - apply IH.
  - unfold bind. destruct (load q n m) as [l m2| | |] eqn:L; try discriminate. intro R. cbn [app]. f_equal.
    assert (m2 = m) as -> by (unfold load in L; destruct (_ <=? _); [|easy]; destruct (sequence _); [|easy]; congruence). now apply IH.
  - unfold bind. destruct (store q xs m) as [l m2| | |] eqn:L; try discriminate. intro R. cbn [app]. f_equal. now apply IH.
Qed.
Lemma comparable_try {A B} {RB : Rel B} (p : prog (result A)) (F : result A -> prog (result B)) r m m' :
  @alike _ (rel_result _ (rel_any A)) p p -> run p m = Ret r m -> run p m' = Ret r m' -> F Err = Done Err ->
  (forall a, alike (F (Ok a)) (F (Ok a))) -> same_sizes m m' -> comparable (pbind p F) m m'.
Proof.
  intros K R R' FE FO E. destruct (alike_trace p p K m m' E) as [C D]. unfold comparable.
  rewrite (trace_bind p F r m m R), (trace_bind p F r m' m' R'), !run_bind. unfold bind. rewrite R, R'. destruct r as [a|].
  - destruct (D (Ok a) (Ok a) m m' R) as [-> _].
    { exact R'. } { discriminate. } { discriminate. }
    destruct (alike_comparable _ m m' (FO a) E) as [[[u U]|[u U]] G].
    + split; [left; exists u; rewrite U; now rewrite app_assoc|]. intros a1 a2 m1 m2 R1 R2 S1 S2. f_equal. exact (G a1 a2 m1 m2 R1 R2 S1 S2).
    + split; [right; exists u; rewrite U; now rewrite app_assoc|]. intros a1 a2 m1 m2 R1 R2 S1 S2. f_equal. exact (G a1 a2 m1 m2 R1 R2 S1 S2).
  - rewrite FE. cbn [trace]. rewrite !app_nil_r. split; [exact C|]. intros a1 a2 m1 m2 [= <- <-] _ N. destruct N. exact eq_refl.
Qed.
Section Padded.
Context {H : Prop} {m m' : mem} (E : same_sizes m m').
Lemma cmp_b64_decode {d : nat} en s config src slen dst dlen K r :
  Base64.b64_decoded_length src slen config m = Ret r m -> Base64.b64_decoded_length src slen config m' = Ret r m' ->
  comparable (the_prog (@rei_b64_decode H d en s config src slen dst dlen K)) m m'.
Proof.
  intros R R'. unfold rei_b64_decode, Base64.b64_decode. apply (comparable_try _ _ r); [apply alk_b64_decoded_length| | |exact eq_refl| |exact E].
  - rewrite reified_imp. exact R.
  - rewrite reified_imp. exact R'.
  - intro a. repeat alk1.
Qed.
Lemma cmp_b64_decode_inplace {d : nat} en s config data len K r :
  Base64.b64_decoded_length data len config m = Ret r m -> Base64.b64_decoded_length data len config m' = Ret r m' ->
  comparable (the_prog (@rei_b64_decode_inplace H d en s config data len K)) m m'.
Proof.
  intros R R'. unfold rei_b64_decode_inplace, Base64.b64_decode_inplace. apply (comparable_try _ _ r); [apply alk_b64_decoded_length| | |exact eq_refl| |exact E].
  - rewrite reified_imp. exact R.
  - rewrite reified_imp. exact R'.
  - intro a. repeat alk1.
Qed.
Lemma cmp_b64_check {P : nat -> Prop} en s config data len r :
  Base64.b64_decoded_length data len config m = Ret r m -> Base64.b64_decoded_length data len config m' = Ret r m' ->
  comparable (the_prog (@rei_b64_check H P en s config data len)) m m'.
Proof.
  intros R R'. unfold rei_b64_check, Base64.b64_check. apply (comparable_try _ _ r); [apply alk_b64_decoded_length| | |exact eq_refl| |exact E].
  - rewrite reified_imp. exact R.
  - rewrite reified_imp. exact R'.
  - intro a. repeat alk1.
Qed.
Lemma cmp_b32_decode {d : nat} t s config src slen dst dlen K r :
  Base32.b32_decoded_length src slen (Base32.b32_padding config) m = Ret r m -> Base32.b32_decoded_length src slen (Base32.b32_padding config) m' = Ret r m' ->
  comparable (the_prog (@rei_b32_decode H d t s config src slen dst dlen K)) m m'.
Proof.
  intros R R'. unfold rei_b32_decode, Base32.b32_decode. apply (comparable_try _ _ r); [apply alk_b32_decoded_length| | |exact eq_refl| |exact E].
  - rewrite reified_imp. exact R.
  - rewrite reified_imp. exact R'.
  - intro a. repeat alk1.
Qed.
Lemma cmp_b32_decode_inplace {d : nat} t s config data len K r :
  Base32.b32_decoded_length data len (Base32.b32_padding config) m = Ret r m -> Base32.b32_decoded_length data len (Base32.b32_padding config) m' = Ret r m' ->
  comparable (the_prog (@rei_b32_decode_inplace H d t s config data len K)) m m'.
Proof.
  intros R R'. unfold rei_b32_decode_inplace, Base32.b32_decode_inplace. apply (comparable_try _ _ r); [apply alk_b32_decoded_length| | |exact eq_refl| |exact E].
  - rewrite reified_imp. exact R.
  - rewrite reified_imp. exact R'.
  - intro a. repeat alk1.
Qed.
Lemma cmp_b32_check {P : nat -> Prop} t s config data len r :
  Base32.b32_decoded_length data len (Base32.b32_padding config) m = Ret r m -> Base32.b32_decoded_length data len (Base32.b32_padding config) m' = Ret r m' ->
  comparable (the_prog (@rei_b32_check H P t s config data len)) m m'.
Proof.
  intros R R'. unfold rei_b32_check, Base32.b32_check. apply (comparable_try _ _ r); [apply alk_b32_decoded_length| | |exact eq_refl| |exact E].
  - rewrite reified_imp. exact R.
  - rewrite reified_imp. exact R'.
  - intro a. repeat alk1.
Qed.
End Padded.

(** ** Padding *)
Lemma nth_skipn_plus {A} (d : A) k : forall l i, nth i (skipn k l) d = nth (k + i) l d.
Proof. induction k as [|k IH]; intros [|x l] i; cbn [skipn Nat.add nth]; try reflexivity; [now destruct i|apply IH]. Qed.
Lemma marks_last k (x x' : list Z) : length x = length x' -> (forall i, length x - k <= i -> (nth i x 0 = 61 <-> nth i x' 0 = 61)%Z) ->
  map (Z.eqb 61) (skipn (length x - k) x) = map (Z.eqb 61) (skipn (length x - k) x').
Proof.
  intros L H. apply nth_ext with (d := false) (d' := false).
  - now rewrite !map_length, !skipn_length, L.
  - intros i Hi. rewrite map_length, skipn_length in Hi.
    rewrite (nth_indep _ false (61 =? 0)%Z), (nth_indep (map _ (skipn _ x')) false (61 =? 0)%Z) by (rewrite map_length, skipn_length; lia).
    rewrite !map_nth, !nth_skipn_plus. specialize (H (length x - k + i) ltac:(lia)).
    destruct (Z.eqb_spec 61 (nth (length x - k + i) x 0%Z)), (Z.eqb_spec 61 (nth (length x - k + i) x' 0%Z)); try reflexivity; exfalso; intuition.
Qed.
Lemma count_eq_marks x x' : map (Z.eqb 61) x = map (Z.eqb 61) x' -> count_eq x = count_eq x'.
Proof.
  unfold count_eq. revert x'. induction x as [|c x IH]; intros [|c' x'] E; try discriminate E; [reflexivity|]. assert (E1 := f_equal (hd false) E). assert (E2 := f_equal (@tl bool) E). cbn [map hd tl] in E1, E2.
  assert (E3 : (c =? 61)%Z = (c' =? 61)%Z) by now rewrite (Z.eqb_sym c), (Z.eqb_sym c').
  cbn [filter]. rewrite E3. destruct (c' =? 61)%Z; cbn [length]; now rewrite (IH _ E2).
Qed.
Lemma dl_result32_marks cfg x x' : length x = length x' -> (forall i, length x - 6 <= i -> (nth i x 0 = 61 <-> nth i x' 0 = 61)%Z) ->
  dl_result32 cfg x = dl_result32 cfg x'.
Proof.
  intros L H. apply marks_last in H; [|exact L]. apply count_eq_marks in H. unfold dl_result32, b32_unpad. rewrite <- L, <- H.
  destruct (Base32.b32_padding cfg); [|now rewrite L]. destruct (length x mod 8 =? 0); [|reflexivity]. now rewrite !firstn_length, L.
Qed.
Lemma unpad_length l : length (whatwg_unpad l) =
  if length l mod 4 =? 0 then
    match map (Z.eqb 61) (skipn (length l - 2) l) with [true; true] => length l - 2 | [_; true] => length l - 1 | _ => length l end
  else length l.
Proof.
  unfold whatwg_unpad. destruct (Nat.eqb_spec (length l mod 4) 0) as [E|]; [|reflexivity].
  destruct l as [|c l _] using rev_ind; [reflexivity|]. destruct l as [|c1 l _] using rev_ind; [rewrite app_length in E; cbn in E; lia|].
  rewrite !ends_eq_snoc, !drop_last_snoc. cbv zeta. rewrite ?ends_eq_snoc, ?drop_last_snoc.
  replace (skipn _ _) with [c1; c] by (rewrite <- app_assoc; replace (length _ - 2) with (length l) by (rewrite app_length; cbn; lia);
    rewrite skipn_app, skipn_all, Nat.sub_diag; reflexivity).
  cbn [map]. rewrite (Z.eqb_sym c), (Z.eqb_sym c1). destruct (61 =? c)%Z, (61 =? c1)%Z; rewrite ?app_length; cbn [length]; lia.
Qed.
Lemma dl_result_marks cfg x x' : length x = length x' -> (forall i, length x - 2 <= i -> (nth i x 0 = 61 <-> nth i x' 0 = 61)%Z) ->
  dl_result cfg x = dl_result cfg x'.
Proof.
  intros L H. apply marks_last in H; [|exact L]. assert (U : length (whatwg_unpad x) = length (whatwg_unpad x')) by (rewrite !unpad_length, <- L, H; reflexivity).
  unfold dl_result, b64_unpad. destruct (Base64.b64_extra_of cfg); rewrite <- ?L.
  - destruct (length x mod 4 =? 0); [|reflexivity]. now rewrite U.
  - reflexivity.
  - now rewrite U.
Qed.
Lemma dl_padding cfg src n m m' : same_padding 2 src n m m' ->
  exists r, Base64.b64_decoded_length src n cfg m = Ret r m /\ Base64.b64_decoded_length src n cfg m' = Ret r m'.
Proof.
  destruct src as [b o]. intros (_ & x & x' & B & B' & L & L' & H). subst n. exists (dl_result cfg x). split.
  - assert (W : wp (Base64.b64_decoded_length (b, o) (length x) cfg) (fun r m1 => r = dl_result cfg x /\ m1 = m) m)
      by (apply (decoded_length_wp m b o x cfg); [exact B|split; reflexivity]).
    apply wp_inv in W as (r & m1 & E & -> & ->). exact E.
  - rewrite (dl_result_marks cfg x x' (eq_sym L') H). rewrite <- L'.
    assert (W : wp (Base64.b64_decoded_length (b, o) (length x') cfg) (fun r m1 => r = dl_result cfg x' /\ m1 = m') m')
      by (apply (decoded_length_wp m' b o x' cfg); [exact B'|split; reflexivity]).
    apply wp_inv in W as (r & m1 & E & -> & ->). exact E.
Qed.
Lemma dl_padding32 cfg src n m m' : same_padding 6 src n m m' ->
  exists r, Base32.b32_decoded_length src n (Base32.b32_padding cfg) m = Ret r m /\ Base32.b32_decoded_length src n (Base32.b32_padding cfg) m' = Ret r m'.
Proof.
  destruct src as [b o]. intros (_ & x & x' & B & B' & L & L' & H). subst n. exists (dl_result32 cfg x). split.
  - assert (W : wp (Base32.b32_decoded_length (b, o) (length x) (Base32.b32_padding cfg)) (fun r m1 => r = dl_result32 cfg x /\ m1 = m) m)
      by (apply (b32_decoded_length_wp m b o x cfg); [exact B|split; reflexivity]).
    apply wp_inv in W as (r & m1 & E & -> & ->). exact E.
  - rewrite (dl_result32_marks cfg x x' (eq_sym L') H). rewrite <- L'.
    assert (W : wp (Base32.b32_decoded_length (b, o) (length x') (Base32.b32_padding cfg)) (fun r m1 => r = dl_result32 cfg x' /\ m1 = m') m')
      by (apply (b32_decoded_length_wp m' b o x' cfg); [exact B'|split; reflexivity]).
    apply wp_inv in W as (r & m1 & E & -> & ->). exact E.
Qed.
(** Without padding the length of the text is enough. *)
Lemma dl_nopad cfg src n m m' : Base64.b64_extra_of cfg = Base64.NoPad ->
  exists r, Base64.b64_decoded_length src n cfg m = Ret r m /\ Base64.b64_decoded_length src n cfg m' = Ret r m'.
Proof.
  intro E. unfold Base64.b64_decoded_length. rewrite E. destruct (n =? 0); [eexists; split; reflexivity|].
  pose proof (Nat.mod_upper_bound n 4 ltac:(lia)) as U. unfold try_, bind, ret. cbv beta iota zeta.
  destruct (n mod 4) as [|[|[|[|?]]]]; [..|lia]; eexists; split; reflexivity.
Qed.
Lemma dl_nopad32 cfg src n m m' : Base32.b32_padding cfg = false ->
  exists r, Base32.b32_decoded_length src n (Base32.b32_padding cfg) m = Ret r m /\ Base32.b32_decoded_length src n (Base32.b32_padding cfg) m' = Ret r m'.
Proof.
  intro E. unfold Base32.b32_decoded_length. rewrite E. destruct (n =? 0); [eexists; split; reflexivity|]. unfold try_, bind, ret. cbv beta iota zeta.
  destruct (nth _ _ _ =? 255); eexists; split; reflexivity.
Qed.

(** ** The form of the theorems *)
Lemma fixed_alike {A} {RA : Rel A} {H P Q} (good : A -> Prop) c (R : @reified H P A Q c) : (forall a, good a -> ~ stop a) ->
  alike (the_prog R) (the_prog R) -> fixed_pattern same_sizes good c.
Proof.
  intros G K. exists (the_prog R). split; [apply reified_fol|]. intros m m' E. destruct (alike_comparable _ m m' K E) as [C D].
  split; [exact C|]. intros a a' m1 m1' R1 R2 G1 G2. apply (D a a' m1 m1'); auto; now rewrite reified_imp.
Qed.
Lemma fixed_comparable {A} {H P Q} (similar : mem -> mem -> Prop) c (R : @reified H P (result A) Q c) {RA : Rel A} :
  (forall m m', similar m m' -> comparable (the_prog R) m m') -> fixed_pattern similar succeeds c.
Proof.
  intro K. exists (the_prog R). split; [apply reified_fol|]. intros m m' E. destruct (K m m' E) as [C D].
  split; [exact C|]. intros a a' m1 m1' R1 R2 G1 G2. apply (D a a' m1 m1'); [now rewrite reified_imp|now rewrite reified_imp|exact G1|exact G2].
Qed.
