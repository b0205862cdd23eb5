(** The number of memory accesses of the functions of the crates (CostFacts.v). Lemmas only. One lemma for each of the programs of Reify.v. *)
From Coq Require Import ZArith List Bool Lia ZifyBool ZifyNat.
From Verif Require Import Bytes Mem MemFacts Slices Isa Simd Alsw Ints Conc ConcFacts ConcBase64Facts Reify Access AccessFacts CostFacts.
From Verif Require Hex Base64 Base32 Uuid Unicode Forgiving.
Import ListNotations.
Open Scope nat_scope. Open Scope m_scope.
Ltac Zify.zify_post_hook ::= Z.div_mod_to_equations.

Lemma co_hex_encode_bits : forall {H : Prop} {d : nat} (src : ptr) (dst : nat * nat) (cs : list Z) L K, costs L 0 3 (the_prog (@rei_hex_encode_bits H d src dst cs K)).
Proof. co_start. { unfold rei_hex_encode_bits, Hex.encode_bits. co. } all: co_end. Qed.
#[export] Hint Extern 1 (costs _ _ _ (the_prog (rei_hex_encode_bits _ _ _ _))) => eapply co_hex_encode_bits : cos.
Lemma co_hex_encode_step : forall {H : Prop} {d : nat} (cs : list Z) (st : ptr * ptr) L K, costs L 0 3 (the_prog (@rei_hex_encode_step H d cs st K)).
Proof. co_start. { unfold rei_hex_encode_step, Hex.encode_step. co. } all: co_end. Qed.
#[export] Hint Extern 1 (costs _ _ _ (the_prog (rei_hex_encode_step _ _ _))) => eapply co_hex_encode_step : cos.
Lemma co_hex_encode_short : forall {H : Prop} {d : nat} (src : ptr) (len : nat) (dst : nat * nat) (cs : list Z) L K, len <= L -> costs L 3 0 (the_prog (@rei_hex_encode_short H d src len dst cs K)).
Proof. co_start. { unfold rei_hex_encode_short, Hex.encode_short. co. } all: co_end. Qed.
#[export] Hint Extern 1 (costs _ _ _ (the_prog (rei_hex_encode_short _ _ _ _ _))) => eapply co_hex_encode_short; cbn [fst snd]; lia : cos.
Lemma co_hex_encode_long : forall {H : Prop} {d : nat} (src : ptr) (len : nat) (dst : nat * nat) (case : Hex.ascii_case) L K, len <= L -> costs L 27 0 (the_prog (@rei_hex_encode_long H d src len dst case K)).
Proof. co_start. { unfold rei_hex_encode_long, Hex.encode_long. co. } all: co_end. Qed.
#[export] Hint Extern 1 (costs _ _ _ (the_prog (rei_hex_encode_long _ _ _ _ _))) => eapply co_hex_encode_long; cbn [fst snd]; lia : cos.
Lemma co_hex_encode_fallback : forall {H : Prop} {d : nat} (src : ptr) (len : nat) (dst : nat * nat) (case : Hex.ascii_case) L K, len <= L -> costs L 27 0 (the_prog (@rei_hex_encode_fallback H d src len dst case K)).
Proof. co_start. { unfold rei_hex_encode_fallback, Hex.hex_encode_fallback. co. } all: co_end. Qed.
#[export] Hint Extern 1 (costs _ _ _ (the_prog (rei_hex_encode_fallback _ _ _ _ _))) => eapply co_hex_encode_fallback; cbn [fst snd]; lia : cos.
Lemma co_hex_encode_simd_v256 : forall {H : Prop} {d : nat} (s : Isa.isa) (src : ptr) (len : nat) (dst : nat * nat) (case : Hex.ascii_case) L K, len <= L -> costs L 6 2 (the_prog (@rei_hex_encode_simd_v256 H d s src len dst case K)).
Proof. co_start. { unfold rei_hex_encode_simd_v256, Hex.encode_simd_v256. co. } all: co_end. Qed.
#[export] Hint Extern 1 (costs _ _ _ (the_prog (rei_hex_encode_simd_v256 _ _ _ _ _ _))) => eapply co_hex_encode_simd_v256; cbn [fst snd]; lia : cos.
Lemma co_hex_encode_simd_v128 : forall {H : Prop} {d : nat} (s : Isa.isa) (src : ptr) (len : nat) (dst : nat * nat) (case : Hex.ascii_case) L K, len <= L -> costs L 5 0 (the_prog (@rei_hex_encode_simd_v128 H d s src len dst case K)).
Proof. co_start. { unfold rei_hex_encode_simd_v128, Hex.encode_simd_v128. co. } all: co_end. Qed.
#[export] Hint Extern 1 (costs _ _ _ (the_prog (rei_hex_encode_simd_v128 _ _ _ _ _ _))) => eapply co_hex_encode_simd_v128; cbn [fst snd]; lia : cos.
Lemma co_hex_encode_simd_sse2 : forall {H : Prop} {d : nat} (s : Isa.isa) (src : ptr) (len : nat) (dst : nat * nat) (case : Hex.ascii_case) L K, len <= L -> costs L 6 0 (the_prog (@rei_hex_encode_simd_sse2 H d s src len dst case K)).
Proof. co_start. { unfold rei_hex_encode_simd_sse2, Hex.encode_simd_sse2. co. } all: co_end. Qed.
#[export] Hint Extern 1 (costs _ _ _ (the_prog (rei_hex_encode_simd_sse2 _ _ _ _ _ _))) => eapply co_hex_encode_simd_sse2; cbn [fst snd]; lia : cos.
Lemma co_hex_encode_simd : forall {H : Prop} {d : nat} (s : Isa.isa) (src : ptr) (len : nat) (dst : nat * nat) (case : Hex.ascii_case) L K, len <= L -> costs L 6 2 (the_prog (@rei_hex_encode_simd H d s src len dst case K)).
Proof. co_start. { unfold rei_hex_encode_simd, Hex.hex_encode_simd. co. } all: co_end. Qed.
#[export] Hint Extern 1 (costs _ _ _ (the_prog (rei_hex_encode_simd _ _ _ _ _ _))) => eapply co_hex_encode_simd; cbn [fst snd]; lia : cos.
Lemma co_hex_encode_impl : forall {H : Prop} {d : nat} (s : Isa.isa) (src : ptr) (len : nat) (dst : nat * nat) (case : Hex.ascii_case) L K, len <= L -> costs L 27 2 (the_prog (@rei_hex_encode_impl H d s src len dst case K)).
Proof. co_start. { unfold rei_hex_encode_impl, Hex.hex_encode_impl. co_cases s; co. } all: co_end. Qed.
#[export] Hint Extern 1 (costs _ _ _ (the_prog (rei_hex_encode_impl _ _ _ _ _ _))) => eapply co_hex_encode_impl; cbn [fst snd]; lia : cos.
Lemma co_hex_encode : forall {H : Prop} {d : nat} (s : Isa.isa) (src : ptr) (slen : nat) (dst : nat * nat) (dlen : nat) (case : Hex.ascii_case) L K, slen <= L -> @costs _ (size_any _) L 27 2 (the_prog (@rei_hex_encode H d s src slen dst dlen case K)).
Proof. co_start. { unfold rei_hex_encode, Hex.hex_encode. co. } all: co_end. Qed.
#[export] Hint Extern 1 (@costs _ (size_any _) _ _ _ (the_prog (rei_hex_encode _ _ _ _ _ _ _))) => eapply co_hex_encode; cbn [fst snd]; lia : cos.
Lemma co_hex_decode_bits : forall {H : Prop} {d : nat} (src : ptr) (dst : nat * nat) L K, costs L 0 3 (the_prog (@rei_hex_decode_bits H d src dst K)).
Proof. co_start. { unfold rei_hex_decode_bits, Hex.decode_bits. co. } all: co_end. Qed.
#[export] Hint Extern 1 (costs _ _ _ (the_prog (rei_hex_decode_bits _ _ _))) => eapply co_hex_decode_bits : cos.
Lemma co_hex_decode_step : forall {H : Prop} {d : nat} (st : ptr * ptr * Z) L K, costs L 0 3 (the_prog (@rei_hex_decode_step H d st K)).
Proof. co_start. { unfold rei_hex_decode_step, Hex.decode_step. co. } all: co_end. Qed.
#[export] Hint Extern 1 (costs _ _ _ (the_prog (rei_hex_decode_step _ _))) => eapply co_hex_decode_step : cos.
Lemma co_hex_decode_short : forall {H : Prop} {d : nat} (s : Isa.isa) (src : ptr) (len : nat) (dst : nat * nat) L K, len <= L -> costs L 3 0 (the_prog (@rei_hex_decode_short H d s src len dst K)).
Proof. co_start. { unfold rei_hex_decode_short, Hex.decode_short. co. } all: co_end. Qed.
#[export] Hint Extern 1 (costs _ _ _ (the_prog (rei_hex_decode_short _ _ _ _ _))) => eapply co_hex_decode_short; cbn [fst snd]; lia : cos.
Lemma co_hex_decode_long : forall {H : Prop} {d : nat} (src : ptr) (len : nat) (dst : nat * nat) L K, len <= L -> costs L 27 0 (the_prog (@rei_hex_decode_long H d src len dst K)).
Proof. co_start. { unfold rei_hex_decode_long, Hex.decode_long. co. } all: co_end. Qed.
#[export] Hint Extern 1 (costs _ _ _ (the_prog (rei_hex_decode_long _ _ _ _))) => eapply co_hex_decode_long; cbn [fst snd]; lia : cos.
Lemma co_hex_decode_fallback : forall {H : Prop} {d : nat} (src : ptr) (len : nat) (dst : nat * nat) L K, len <= L -> costs L 27 0 (the_prog (@rei_hex_decode_fallback H d src len dst K)).
Proof. co_start. { unfold rei_hex_decode_fallback, Hex.hex_decode_fallback. co. } all: co_end. Qed.
#[export] Hint Extern 1 (costs _ _ _ (the_prog (rei_hex_decode_fallback _ _ _ _))) => eapply co_hex_decode_fallback; cbn [fst snd]; lia : cos.
Lemma co_hex_dec16 : forall {H : Prop} {d : nat} (s : Isa.isa) (src : ptr) (dst : nat * nat) L K, costs L 0 2 (the_prog (@rei_hex_dec16 H d s src dst K)).
Proof. co_start. { unfold rei_hex_dec16, Hex.dec16. co. } all: co_end. Qed.
#[export] Hint Extern 1 (costs _ _ _ (the_prog (rei_hex_dec16 _ _ _ _))) => eapply co_hex_dec16 : cos.
Lemma co_hex_dec32 : forall {H : Prop} {d : nat} (s : Isa.isa) (src : ptr) (dst : nat * nat) L K, costs L 0 2 (the_prog (@rei_hex_dec32 H d s src dst K)).
Proof. co_start. { unfold rei_hex_dec32, Hex.dec32. co. } all: co_end. Qed.
#[export] Hint Extern 1 (costs _ _ _ (the_prog (rei_hex_dec32 _ _ _ _))) => eapply co_hex_dec32 : cos.
Lemma co_hex_decode_simd_v256 : forall {H : Prop} {d : nat} (s : Isa.isa) (src : ptr) (len : nat) (dst : nat * nat) L K, len <= L -> costs L 6 4 (the_prog (@rei_hex_decode_simd_v256 H d s src len dst K)).
Proof. co_start. { unfold rei_hex_decode_simd_v256, Hex.decode_simd_v256. co. } all: co_end. Qed.
#[export] Hint Extern 1 (costs _ _ _ (the_prog (rei_hex_decode_simd_v256 _ _ _ _ _))) => eapply co_hex_decode_simd_v256; cbn [fst snd]; lia : cos.
Lemma co_hex_decode_simd_v128 : forall {H : Prop} {d : nat} (s : Isa.isa) (src : ptr) (len : nat) (dst : nat * nat) L K, len <= L -> costs L 5 2 (the_prog (@rei_hex_decode_simd_v128 H d s src len dst K)).
Proof. co_start. { unfold rei_hex_decode_simd_v128, Hex.decode_simd_v128. co. } all: co_end. Qed.
#[export] Hint Extern 1 (costs _ _ _ (the_prog (rei_hex_decode_simd_v128 _ _ _ _ _))) => eapply co_hex_decode_simd_v128; cbn [fst snd]; lia : cos.
Lemma co_hex_decode_simd_sse2 : forall {H : Prop} {d : nat} (s : Isa.isa) (src : ptr) (len : nat) (dst : nat * nat) L K, len <= L -> costs L 5 0 (the_prog (@rei_hex_decode_simd_sse2 H d s src len dst K)).
Proof. co_start. { unfold rei_hex_decode_simd_sse2, Hex.decode_simd_sse2. co. } all: co_end. Qed.
#[export] Hint Extern 1 (costs _ _ _ (the_prog (rei_hex_decode_simd_sse2 _ _ _ _ _))) => eapply co_hex_decode_simd_sse2; cbn [fst snd]; lia : cos.
Lemma co_hex_decode_simd : forall {H : Prop} {d : nat} (s : Isa.isa) (src : ptr) (len : nat) (dst : nat * nat) L K, len <= L -> costs L 6 4 (the_prog (@rei_hex_decode_simd H d s src len dst K)).
Proof. co_start. { unfold rei_hex_decode_simd, Hex.hex_decode_simd. co. } all: co_end. Qed.
#[export] Hint Extern 1 (costs _ _ _ (the_prog (rei_hex_decode_simd _ _ _ _ _))) => eapply co_hex_decode_simd; cbn [fst snd]; lia : cos.
Lemma co_hex_decode_impl : forall {H : Prop} {d : nat} (s : Isa.isa) (src : ptr) (len : nat) (dst : nat * nat) L K, len <= L -> costs L 27 4 (the_prog (@rei_hex_decode_impl H d s src len dst K)).
Proof. co_start. { unfold rei_hex_decode_impl, Hex.hex_decode_impl. co_cases s; co. } all: co_end. Qed.
#[export] Hint Extern 1 (costs _ _ _ (the_prog (rei_hex_decode_impl _ _ _ _ _))) => eapply co_hex_decode_impl; cbn [fst snd]; lia : cos.
Lemma co_hex_decode : forall {H : Prop} {d : nat} (s : Isa.isa) (src : ptr) (slen : nat) (dst : nat * nat) (dlen : nat) L K, slen <= L -> costs L 27 4 (the_prog (@rei_hex_decode H d s src slen dst dlen K)).
Proof. co_start. { unfold rei_hex_decode, Hex.hex_decode. co. } all: co_end. Qed.
#[export] Hint Extern 1 (costs _ _ _ (the_prog (rei_hex_decode _ _ _ _ _ _))) => eapply co_hex_decode; cbn [fst snd]; lia : cos.
Lemma co_hex_decode_inplace : forall {H : Prop} {d : nat} (s : Isa.isa) (data : nat * nat) (len : nat) L K, len <= L -> costs L 27 4 (the_prog (@rei_hex_decode_inplace H d s data len K)).
Proof. co_start. { unfold rei_hex_decode_inplace, Hex.hex_decode_inplace. co. } all: co_end. Qed.
#[export] Hint Extern 1 (costs _ _ _ (the_prog (rei_hex_decode_inplace _ _ _ _))) => eapply co_hex_decode_inplace; cbn [fst snd]; lia : cos.
Lemma co_hex_check_short : forall {H : Prop} {P : nat -> Prop} (src : ptr) (len : nat) L, len <= L -> costs L 1 0 (the_prog (@rei_hex_check_short H P src len)).
Proof. co_start. { unfold rei_hex_check_short, Hex.check_short. co. } all: co_end. Qed.
#[export] Hint Extern 1 (costs _ _ _ (the_prog (rei_hex_check_short _ _))) => eapply co_hex_check_short; cbn [fst snd]; lia : cos.
Lemma co_hex_check_short_sc : forall {H : Prop} {P : nat -> Prop} (src : ptr) (len : nat) L, len <= L -> costs L 1 0 (the_prog (@rei_hex_check_short_sc H P src len)).
Proof. co_start. { unfold rei_hex_check_short_sc, Hex.check_short_sc. co. } all: co_end. Qed.
#[export] Hint Extern 1 (costs _ _ _ (the_prog (rei_hex_check_short_sc _ _))) => eapply co_hex_check_short_sc; cbn [fst snd]; lia : cos.
Lemma co_hex_check_fallback : forall {H : Prop} {P : nat -> Prop} (src : ptr) (len : nat) L, len <= L -> costs L 1 0 (the_prog (@rei_hex_check_fallback H P src len)).
Proof. co_start. { unfold rei_hex_check_fallback, Hex.hex_check_fallback. co. } all: co_end. Qed.
#[export] Hint Extern 1 (costs _ _ _ (the_prog (rei_hex_check_fallback _ _))) => eapply co_hex_check_fallback; cbn [fst snd]; lia : cos.
Lemma co_hex_check_vec : forall {H : Prop} {P : nat -> Prop} (w : Simd.width) (s : Isa.isa) (src : ptr) L, costs L 0 1 (the_prog (@rei_hex_check_vec H P w s src)).
Proof. co_start. { unfold rei_hex_check_vec, Hex.check_vec. co. } all: co_end. Qed.
#[export] Hint Extern 1 (costs _ _ _ (the_prog (rei_hex_check_vec _ _ _))) => eapply co_hex_check_vec : cos.
Lemma co_hex_check_simd : forall {H : Prop} {P : nat -> Prop} (s : Isa.isa) (src : ptr) (len : nat) L, len <= L -> costs L 2 1 (the_prog (@rei_hex_check_simd H P s src len)).
Proof. co_start. { unfold rei_hex_check_simd, Hex.hex_check_simd. co. } all: co_end. Qed.
#[export] Hint Extern 1 (costs _ _ _ (the_prog (rei_hex_check_simd _ _ _))) => eapply co_hex_check_simd; cbn [fst snd]; lia : cos.
Lemma co_hex_check_impl : forall {H : Prop} {P : nat -> Prop} (s : Isa.isa) (src : ptr) (len : nat) L, len <= L -> costs L 2 1 (the_prog (@rei_hex_check_impl H P s src len)).
Proof. co_start. { unfold rei_hex_check_impl, Hex.hex_check_impl. co_cases s; co. } all: co_end. Qed.
#[export] Hint Extern 1 (costs _ _ _ (the_prog (rei_hex_check_impl _ _ _))) => eapply co_hex_check_impl; cbn [fst snd]; lia : cos.
Lemma co_hex_check : forall {H : Prop} {P : nat -> Prop} (s : Isa.isa) (src : ptr) (len : nat) L, len <= L -> costs L 2 1 (the_prog (@rei_hex_check H P s src len)).
Proof. co_start. { unfold rei_hex_check, Hex.hex_check. co. } all: co_end. Qed.
#[export] Hint Extern 1 (costs _ _ _ (the_prog (rei_hex_check _ _ _))) => eapply co_hex_check; cbn [fst snd]; lia : cos.
Lemma co_b64_encode_bits24 : forall {H : Prop} {d : nat} (src : ptr) (dst : nat * nat) (charset : list Z) L K, costs L 0 7 (the_prog (@rei_b64_encode_bits24 H d src dst charset K)).
Proof. co_start. { unfold rei_b64_encode_bits24, Base64.encode_bits24. co. } all: co_end. Qed.
#[export] Hint Extern 1 (costs _ _ _ (the_prog (rei_b64_encode_bits24 _ _ _ _))) => eapply co_b64_encode_bits24 : cos.
Lemma co_b64_encode_bits48 : forall {H : Prop} {d : nat} (src : ptr) (dst : nat * nat) (charset : list Z) L K, costs L 0 9 (the_prog (@rei_b64_encode_bits48 H d src dst charset K)).
Proof. co_start. { unfold rei_b64_encode_bits48, Base64.encode_bits48. co. } all: co_end. Qed.
#[export] Hint Extern 1 (costs _ _ _ (the_prog (rei_b64_encode_bits48 _ _ _ _))) => eapply co_b64_encode_bits48 : cos.
Lemma co_b64_encode_extra : forall {H : Prop} {d : nat} (extra : nat) (src : ptr) (dst : nat * nat) (charset : list Z) (padding : bool) L K, costs L 0 6 (the_prog (@rei_b64_encode_extra H d extra src dst charset padding K)).
Proof. co_start. { unfold rei_b64_encode_extra, Base64.b64_encode_extra. co. } all: co_end. Qed.
#[export] Hint Extern 1 (costs _ _ _ (the_prog (rei_b64_encode_extra _ _ _ _ _ _))) => eapply co_b64_encode_extra : cos.
Lemma co_b64_enc48_step : forall {H : Prop} {d : nat} (charset : list Z) (st : ptr * ptr) L K, costs L 0 9 (the_prog (@rei_b64_enc48_step H d charset st K)).
Proof. co_start. { unfold rei_b64_enc48_step, Base64.enc48_step. co. } all: co_end. Qed.
#[export] Hint Extern 1 (costs _ _ _ (the_prog (rei_b64_enc48_step _ _ _))) => eapply co_b64_enc48_step : cos.
Lemma co_b64_enc24_step : forall {H : Prop} {d : nat} (charset : list Z) (st : ptr * ptr) L K, costs L 0 7 (the_prog (@rei_b64_enc24_step H d charset st K)).
Proof. co_start. { unfold rei_b64_enc24_step, Base64.enc24_step. co. } all: co_end. Qed.
#[export] Hint Extern 1 (costs _ _ _ (the_prog (rei_b64_enc24_step _ _ _))) => eapply co_b64_enc24_step : cos.
Lemma co_b64_encode_fallback : forall {H : Prop} {d : nat} (src : ptr) (len : nat) (dst : nat * nat) (config : Base64.b64_config) L K, len <= L -> costs L 52 6 (the_prog (@rei_b64_encode_fallback H d src len dst config K)).
Proof. co_start. { unfold rei_b64_encode_fallback, Base64.b64_encode_fallback. co. } all: co_end. Qed.
#[export] Hint Extern 1 (costs _ _ _ (the_prog (rei_b64_encode_fallback _ _ _ _ _))) => eapply co_b64_encode_fallback; cbn [fst snd]; lia : cos.
Lemma co_b64_encode_simd : forall {H : Prop} {d : nat} (s : Isa.isa) (src : ptr) (len : nat) (dst : nat * nat) (config : Base64.b64_config) L K, len <= L -> costs L 54 22 (the_prog (@rei_b64_encode_simd H d s src len dst config K)).
Proof. co_start. { unfold rei_b64_encode_simd, Base64.b64_encode_simd. co. } all: co_end. Qed.
#[export] Hint Extern 1 (costs _ _ _ (the_prog (rei_b64_encode_simd _ _ _ _ _ _))) => eapply co_b64_encode_simd; cbn [fst snd]; lia : cos.
Lemma co_b64_encode_impl : forall {H : Prop} {d : nat} (s : Isa.isa) (src : ptr) (len : nat) (dst : nat * nat) (config : Base64.b64_config) L K, len <= L -> costs L 54 22 (the_prog (@rei_b64_encode_impl H d s src len dst config K)).
Proof. co_start. { unfold rei_b64_encode_impl, Base64.b64_encode_impl. co_cases s; co. } all: co_end. Qed.
#[export] Hint Extern 1 (costs _ _ _ (the_prog (rei_b64_encode_impl _ _ _ _ _ _))) => eapply co_b64_encode_impl; cbn [fst snd]; lia : cos.
Lemma co_b64_encode : forall {H : Prop} {d : nat} (s : Isa.isa) (config : Base64.b64_config) (src : ptr) (slen : nat) (dst : nat * nat) (dlen : nat) L K, slen <= L -> @costs _ (size_any _) L 54 22 (the_prog (@rei_b64_encode H d s config src slen dst dlen K)).
Proof. co_start. { unfold rei_b64_encode, Base64.b64_encode. co. } all: co_end. Qed.
#[export] Hint Extern 1 (@costs _ (size_any _) _ _ _ (the_prog (rei_b64_encode _ _ _ _ _ _ _))) => eapply co_b64_encode; cbn [fst snd]; lia : cos.
Lemma co_b64_count_pad : forall {H : Prop} {P : nat -> Prop} (src : ptr) (len : nat) L, len <= L -> @costs _ (size_any _) L 0 2 (the_prog (@rei_b64_count_pad H P src len)).
Proof. co_start. { unfold rei_b64_count_pad, Base64.b64_count_pad. co. } all: co_end. Qed.
#[export] Hint Extern 1 (@costs _ (size_any _) _ _ _ (the_prog (rei_b64_count_pad _ _))) => eapply co_b64_count_pad; cbn [fst snd]; lia : cos.
Lemma co_b64_decoded_length : forall {H : Prop} {P : nat -> Prop} (src : ptr) (len : nat) (config : Base64.b64_config) L, len <= L -> @costs _ (size_result _ size_fst) L 0 2 (the_prog (@rei_b64_decoded_length H P src len config)).
Proof. co_start. { unfold rei_b64_decoded_length, Base64.b64_decoded_length. co. } all: co_end. Qed.
#[export] Hint Extern 1 (@costs _ (size_result _ size_fst) _ _ _ (the_prog (rei_b64_decoded_length _ _ _))) => eapply co_b64_decoded_length; cbn [fst snd]; lia : cos.
Lemma co_b64_decode_ascii8_w : forall {H : Prop} {d : nat} (en : Ints.endian) (src : ptr) (dst : nat * nat) (table : list Z) L K, costs L 0 9 (the_prog (@rei_b64_decode_ascii8_w H d en src dst table K)).
Proof. co_start. { unfold rei_b64_decode_ascii8_w, Base64.b64_decode_ascii8. co. } all: co_end. Qed.
#[export] Hint Extern 1 (costs _ _ _ (the_prog (rei_b64_decode_ascii8_w _ _ _ _ _))) => eapply co_b64_decode_ascii8_w : cos.
Lemma co_b64_decode_ascii8_c : forall {H : Prop} {P : nat -> Prop} (en : Ints.endian) (src : ptr) (dst : ptr) (table : list Z) L, costs L 0 8 (the_prog (@rei_b64_decode_ascii8_c H P en src dst table)).
Proof. co_start. { unfold rei_b64_decode_ascii8_c, Base64.b64_decode_ascii8. co. } all: co_end. Qed.
#[export] Hint Extern 1 (costs _ _ _ (the_prog (rei_b64_decode_ascii8_c _ _ _ _))) => eapply co_b64_decode_ascii8_c : cos.
Lemma co_b64_decode_ascii4_w : forall {H : Prop} {d : nat} (src : ptr) (dst : nat * nat) (table : list Z) L K, costs L 0 7 (the_prog (@rei_b64_decode_ascii4_w H d src dst table K)).
Proof. co_start. { unfold rei_b64_decode_ascii4_w, Base64.b64_decode_ascii4. co. } all: co_end. Qed.
#[export] Hint Extern 1 (costs _ _ _ (the_prog (rei_b64_decode_ascii4_w _ _ _ _))) => eapply co_b64_decode_ascii4_w : cos.
Lemma co_b64_decode_ascii4_c : forall {H : Prop} {P : nat -> Prop} (src : ptr) (dst : ptr) (table : list Z) L, costs L 0 4 (the_prog (@rei_b64_decode_ascii4_c H P src dst table)).
Proof. co_start. { unfold rei_b64_decode_ascii4_c, Base64.b64_decode_ascii4. co. } all: co_end. Qed.
#[export] Hint Extern 1 (costs _ _ _ (the_prog (rei_b64_decode_ascii4_c _ _ _))) => eapply co_b64_decode_ascii4_c : cos.
Lemma co_b64_decode_extra_w : forall {H : Prop} {d : nat} (extra : nat) (src : ptr) (dst : nat * nat) (table : list Z) (forgiving : bool) L K, costs L 0 3 (the_prog (@rei_b64_decode_extra_w H d extra src dst table forgiving K)).
Proof. co_start. { unfold rei_b64_decode_extra_w, Base64.b64_decode_extra. co. } all: co_end. Qed.
#[export] Hint Extern 1 (costs _ _ _ (the_prog (rei_b64_decode_extra_w _ _ _ _ _ _))) => eapply co_b64_decode_extra_w : cos.
Lemma co_b64_decode_extra_c : forall {H : Prop} {P : nat -> Prop} (extra : nat) (src : ptr) (dst : ptr) (table : list Z) (forgiving : bool) L, costs L 0 1 (the_prog (@rei_b64_decode_extra_c H P extra src dst table forgiving)).
Proof. co_start. { unfold rei_b64_decode_extra_c, Base64.b64_decode_extra. co. } all: co_end. Qed.
#[export] Hint Extern 1 (costs _ _ _ (the_prog (rei_b64_decode_extra_c _ _ _ _ _))) => eapply co_b64_decode_extra_c : cos.
Lemma co_b64_decode_fallback : forall {H : Prop} {d : nat} (en : Ints.endian) (src : ptr) (dst : nat * nat) (n : nat) (config : Base64.b64_config) L K, n <= L -> costs L 16 3 (the_prog (@rei_b64_decode_fallback H d en src dst n config K)).
Proof. co_start. { unfold rei_b64_decode_fallback, Base64.b64_decode_fallback. co. } all: co_end. Qed.
#[export] Hint Extern 1 (costs _ _ _ (the_prog (rei_b64_decode_fallback _ _ _ _ _ _))) => eapply co_b64_decode_fallback; cbn [fst snd]; lia : cos.
Lemma co_b64_decode_simd : forall {H : Prop} {d : nat} (en : Ints.endian) (s : Isa.isa) (src : ptr) (dst : nat * nat) (n : nat) (config : Base64.b64_config) L K, n <= L -> costs L 19 3 (the_prog (@rei_b64_decode_simd H d en s src dst n config K)).
Proof. co_start. { unfold rei_b64_decode_simd, Base64.b64_decode_simd. co. } all: co_end. Qed.
#[export] Hint Extern 1 (costs _ _ _ (the_prog (rei_b64_decode_simd _ _ _ _ _ _ _))) => eapply co_b64_decode_simd; cbn [fst snd]; lia : cos.
Lemma co_b64_decode_impl : forall {H : Prop} {d : nat} (en : Ints.endian) (s : Isa.isa) (src : ptr) (dst : nat * nat) (n : nat) (config : Base64.b64_config) L K, n <= L -> costs L 19 3 (the_prog (@rei_b64_decode_impl H d en s src dst n config K)).
Proof. co_start. { unfold rei_b64_decode_impl, Base64.b64_decode_impl. co_cases s; co. } all: co_end. Qed.
#[export] Hint Extern 1 (costs _ _ _ (the_prog (rei_b64_decode_impl _ _ _ _ _ _ _))) => eapply co_b64_decode_impl; cbn [fst snd]; lia : cos.
Lemma co_b64_decode : forall {H : Prop} {d : nat} (en : Ints.endian) (s : Isa.isa) (config : Base64.b64_config) (src : ptr) (slen : nat) (dst : nat * nat) (dlen : nat) L K, slen <= L -> @costs _ (size_any _) L 19 5 (the_prog (@rei_b64_decode H d en s config src slen dst dlen K)).
Proof. co_start. { unfold rei_b64_decode, Base64.b64_decode. co. } all: co_end. Qed.
#[export] Hint Extern 1 (@costs _ (size_any _) _ _ _ (the_prog (rei_b64_decode _ _ _ _ _ _ _ _))) => eapply co_b64_decode; cbn [fst snd]; lia : cos.
Lemma co_b64_decode_inplace : forall {H : Prop} {d : nat} (en : Ints.endian) (s : Isa.isa) (config : Base64.b64_config) (data : nat * nat) (len : nat) L K, len <= L -> @costs _ (size_any _) L 19 5 (the_prog (@rei_b64_decode_inplace H d en s config data len K)).
Proof. co_start. { unfold rei_b64_decode_inplace, Base64.b64_decode_inplace. co. } all: co_end. Qed.
#[export] Hint Extern 1 (@costs _ (size_any _) _ _ _ (the_prog (rei_b64_decode_inplace _ _ _ _ _ _))) => eapply co_b64_decode_inplace; cbn [fst snd]; lia : cos.
Lemma co_b64_check_fallback : forall {H : Prop} {P : nat -> Prop} (en : Ints.endian) (src : ptr) (n : nat) (config : Base64.b64_config) L, n <= L -> costs L 12 1 (the_prog (@rei_b64_check_fallback H P en src n config)).
Proof. co_start. { unfold rei_b64_check_fallback, Base64.b64_check_fallback. co. } all: co_end. Qed.
#[export] Hint Extern 1 (costs _ _ _ (the_prog (rei_b64_check_fallback _ _ _ _))) => eapply co_b64_check_fallback; cbn [fst snd]; lia : cos.
Lemma co_b64_check_simd : forall {H : Prop} {P : nat -> Prop} (en : Ints.endian) (s : Isa.isa) (src : ptr) (n : nat) (config : Base64.b64_config) L, n <= L -> costs L 13 1 (the_prog (@rei_b64_check_simd H P en s src n config)).
Proof. co_start. { unfold rei_b64_check_simd, Base64.b64_check_simd. co. } all: co_end. Qed.
#[export] Hint Extern 1 (costs _ _ _ (the_prog (rei_b64_check_simd _ _ _ _ _))) => eapply co_b64_check_simd; cbn [fst snd]; lia : cos.
Lemma co_b64_check_impl : forall {H : Prop} {P : nat -> Prop} (en : Ints.endian) (s : Isa.isa) (src : ptr) (n : nat) (config : Base64.b64_config) L, n <= L -> costs L 13 1 (the_prog (@rei_b64_check_impl H P en s src n config)).
Proof. co_start. { unfold rei_b64_check_impl, Base64.b64_check_impl. co_cases s; co. } all: co_end. Qed.
#[export] Hint Extern 1 (costs _ _ _ (the_prog (rei_b64_check_impl _ _ _ _ _))) => eapply co_b64_check_impl; cbn [fst snd]; lia : cos.
Lemma co_b64_check : forall {H : Prop} {P : nat -> Prop} (en : Ints.endian) (s : Isa.isa) (config : Base64.b64_config) (data : ptr) (len : nat) L, len <= L -> costs L 13 3 (the_prog (@rei_b64_check H P en s config data len)).
Proof. co_start. { unfold rei_b64_check, Base64.b64_check. co. } all: co_end. Qed.
#[export] Hint Extern 1 (costs _ _ _ (the_prog (rei_b64_check _ _ _ _ _))) => eapply co_b64_check; cbn [fst snd]; lia : cos.
Lemma co_b32_encode_bits : forall {H : Prop} {d : nat} (N : nat) (dst : nat * nat) (charset : list Z) (x : Z) L K, N <= 8 -> costs L 0 9 (the_prog (@rei_b32_encode_bits H d N dst charset x K)).
Proof. co_start. { unfold rei_b32_encode_bits, Base32.encode_bits. co. } all: co_end. Qed.
#[export] Hint Extern 1 (costs _ _ _ (the_prog (rei_b32_encode_bits _ _ _ _ _))) => eapply co_b32_encode_bits; cbn [fst snd]; lia : cos.
Lemma co_b32_read_be_bytes : forall {H : Prop} {P : nat -> Prop} (t : Base32.target) (N : nat) (src : ptr) L, N <= 8 -> costs L 0 8 (the_prog (@rei_b32_read_be_bytes H P t N src)).
Proof. co_start. { unfold rei_b32_read_be_bytes, Base32.read_be_bytes. co. } all: co_end. Qed.
#[export] Hint Extern 1 (costs _ _ _ (the_prog (rei_b32_read_be_bytes _ _ _))) => eapply co_b32_read_be_bytes; cbn [fst snd]; lia : cos.
Lemma co_b32_pad : forall {H : Prop} {d : nat} (padding : bool) (dst : nat * nat) (N : nat) L K, N <= 8 -> costs L 0 8 (the_prog (@rei_b32_pad H d padding dst N K)).
Proof. co_start. { unfold rei_b32_pad, Base32.b32_pad. co. } all: co_end. Qed.
#[export] Hint Extern 1 (costs _ _ _ (the_prog (rei_b32_pad _ _ _ _))) => eapply co_b32_pad; cbn [fst snd]; lia : cos.
Lemma co_b32_encode_extra : forall {H : Prop} {d : nat} (t : Base32.target) (src : ptr) (extra : nat) (dst : nat * nat) (charset : list Z) (padding : bool) L K, costs L 0 25 (the_prog (@rei_b32_encode_extra H d t src extra dst charset padding K)).
Proof. co_start. { unfold rei_b32_encode_extra, Base32.b32_encode_extra. co. } all: co_end. Qed.
#[export] Hint Extern 1 (costs _ _ _ (the_prog (rei_b32_encode_extra _ _ _ _ _ _ _))) => eapply co_b32_encode_extra : cos.
Lemma co_b32_enc40_step : forall {H : Prop} {d : nat} (t : Base32.target) (charset : list Z) (st : ptr * ptr) L K, costs L 0 17 (the_prog (@rei_b32_enc40_step H d t charset st K)).
Proof. co_start. { unfold rei_b32_enc40_step, Base32.enc40_step. co. } all: co_end. Qed.
#[export] Hint Extern 1 (costs _ _ _ (the_prog (rei_b32_enc40_step _ _ _ _))) => eapply co_b32_enc40_step : cos.
Lemma co_b32_encode_fallback : forall {H : Prop} {d : nat} (t : Base32.target) (src : ptr) (len : nat) (dst : nat * nat) (kind : Base32.b32_kind) (padding : bool) L K, len <= L -> costs L 17 25 (the_prog (@rei_b32_encode_fallback H d t src len dst kind padding K)).
Proof. co_start. { unfold rei_b32_encode_fallback, Base32.b32_encode_fallback. co. } all: co_end. Qed.
#[export] Hint Extern 1 (costs _ _ _ (the_prog (rei_b32_encode_fallback _ _ _ _ _ _ _))) => eapply co_b32_encode_fallback; cbn [fst snd]; lia : cos.
Lemma co_b32_encode_simd : forall {H : Prop} {d : nat} (t : Base32.target) (s : Isa.isa) (src : ptr) (len : nat) (dst : nat * nat) (kind : Base32.b32_kind) (padding : bool) L K, len <= L -> costs L 19 59 (the_prog (@rei_b32_encode_simd H d t s src len dst kind padding K)).
Proof. co_start. { unfold rei_b32_encode_simd, Base32.b32_encode_simd. co. } all: co_end. Qed.
#[export] Hint Extern 1 (costs _ _ _ (the_prog (rei_b32_encode_simd _ _ _ _ _ _ _ _))) => eapply co_b32_encode_simd; cbn [fst snd]; lia : cos.
Lemma co_b32_encode_impl : forall {H : Prop} {d : nat} (t : Base32.target) (s : Isa.isa) (src : ptr) (len : nat) (dst : nat * nat) (kind : Base32.b32_kind) (padding : bool) L K, len <= L -> costs L 19 59 (the_prog (@rei_b32_encode_impl H d t s src len dst kind padding K)).
Proof. co_start. { unfold rei_b32_encode_impl, Base32.b32_encode_impl. co_cases s; co. } all: co_end. Qed.
#[export] Hint Extern 1 (costs _ _ _ (the_prog (rei_b32_encode_impl _ _ _ _ _ _ _ _))) => eapply co_b32_encode_impl; cbn [fst snd]; lia : cos.
Lemma co_b32_encode : forall {H : Prop} {d : nat} (t : Base32.target) (s : Isa.isa) (config : Base32.b32_config) (src : ptr) (slen : nat) (dst : nat * nat) (dlen : nat) L K, slen <= L -> @costs _ (size_any _) L 19 59 (the_prog (@rei_b32_encode H d t s config src slen dst dlen K)).
Proof. co_start. { unfold rei_b32_encode, Base32.b32_encode. co. } all: co_end. Qed.
#[export] Hint Extern 1 (@costs _ (size_any _) _ _ _ (the_prog (rei_b32_encode _ _ _ _ _ _ _ _))) => eapply co_b32_encode; cbn [fst snd]; lia : cos.
Lemma co_b32_decoded_length : forall {H : Prop} {P : nat -> Prop} (data : ptr) (len : nat) (padding : bool) L, len <= L -> @costs _ (size_result _ size_fst) L 0 1 (the_prog (@rei_b32_decoded_length H P data len padding)).
Proof. co_start. { unfold rei_b32_decoded_length, Base32.b32_decoded_length. co. } all: co_end. Qed.
#[export] Hint Extern 1 (@costs _ (size_result _ size_fst) _ _ _ (the_prog (rei_b32_decoded_length _ _ _))) => eapply co_b32_decoded_length; cbn [fst snd]; lia : cos.
Lemma co_b32_decode_bits : forall {H : Prop} {P : nat -> Prop} (N : nat) (src : ptr) (table : list Z) L, N <= 8 -> costs L 0 8 (the_prog (@rei_b32_decode_bits H P N src table)).
Proof. co_start. { unfold rei_b32_decode_bits, Base32.decode_bits. co. } all: co_end. Qed.
#[export] Hint Extern 1 (costs _ _ _ (the_prog (rei_b32_decode_bits _ _ _))) => eapply co_b32_decode_bits; cbn [fst snd]; lia : cos.
Lemma co_b32_write_be_bytes : forall {H : Prop} {d : nat} (t : Base32.target) (N : nat) (dst : nat * nat) (x : Z) L K, N <= 8 -> costs L 0 8 (the_prog (@rei_b32_write_be_bytes H d t N dst x K)).
Proof. co_start. { unfold rei_b32_write_be_bytes, Base32.write_be_bytes. co. } all: co_end. Qed.
#[export] Hint Extern 1 (costs _ _ _ (the_prog (rei_b32_write_be_bytes _ _ _ _ _))) => eapply co_b32_write_be_bytes; cbn [fst snd]; lia : cos.
Lemma co_b32_decode_arm_w : forall {H : Prop} {d : nat} (t : Base32.target) (chars : nat) (spare : nat) (nbytes : nat) (src : ptr) (dst : nat * nat) (table : list Z) L K, chars <= 8 -> spare <= 8 -> nbytes <= 8 -> costs L 0 16 (the_prog (@rei_b32_decode_arm_w H d t chars spare nbytes src dst table K)).
Proof. co_start. { unfold rei_b32_decode_arm_w, Base32.decode_arm. co. } all: co_end. Qed.
#[export] Hint Extern 1 (costs _ _ _ (the_prog (rei_b32_decode_arm_w _ _ _ _ _ _ _ _))) => eapply co_b32_decode_arm_w; cbn [fst snd]; lia : cos.
Lemma co_b32_decode_arm_c : forall {H : Prop} {P : nat -> Prop} (t : Base32.target) (chars : nat) (spare : nat) (nbytes : nat) (src : ptr) (dst : ptr) (table : list Z) L, chars <= 8 -> spare <= 8 -> nbytes <= 8 -> costs L 0 8 (the_prog (@rei_b32_decode_arm_c H P t chars spare nbytes src dst table)).
Proof. co_start. { unfold rei_b32_decode_arm_c, Base32.decode_arm. co. } all: co_end. Qed.
#[export] Hint Extern 1 (costs _ _ _ (the_prog (rei_b32_decode_arm_c _ _ _ _ _ _ _))) => eapply co_b32_decode_arm_c; cbn [fst snd]; lia : cos.
Lemma co_b32_decode_extra_w : forall {H : Prop} {d : nat} (t : Base32.target) (src : ptr) (extra : nat) (dst : nat * nat) (table : list Z) L K, costs L 0 16 (the_prog (@rei_b32_decode_extra_w H d t src extra dst table K)).
Proof. co_start. { unfold rei_b32_decode_extra_w, Base32.b32_decode_extra. co. } all: co_end. Qed.
#[export] Hint Extern 1 (costs _ _ _ (the_prog (rei_b32_decode_extra_w _ _ _ _ _ _))) => eapply co_b32_decode_extra_w : cos.
Lemma co_b32_decode_extra_c : forall {H : Prop} {P : nat -> Prop} (t : Base32.target) (src : ptr) (extra : nat) (dst : ptr) (table : list Z) L, costs L 0 8 (the_prog (@rei_b32_decode_extra_c H P t src extra dst table)).
Proof. co_start. { unfold rei_b32_decode_extra_c, Base32.b32_decode_extra. co. } all: co_end. Qed.
#[export] Hint Extern 1 (costs _ _ _ (the_prog (rei_b32_decode_extra_c _ _ _ _ _))) => eapply co_b32_decode_extra_c : cos.
Lemma co_b32_decode_fallback : forall {H : Prop} {d : nat} (t : Base32.target) (src : ptr) (n : nat) (dst : nat * nat) (kind : Base32.b32_kind) L K, n <= L -> costs L 16 16 (the_prog (@rei_b32_decode_fallback H d t src n dst kind K)).
Proof. co_start. { unfold rei_b32_decode_fallback, Base32.b32_decode_fallback. co. } all: co_end. Qed.
#[export] Hint Extern 1 (costs _ _ _ (the_prog (rei_b32_decode_fallback _ _ _ _ _ _))) => eapply co_b32_decode_fallback; cbn [fst snd]; lia : cos.
Lemma co_b32_decode_simd : forall {H : Prop} {d : nat} (t : Base32.target) (s : Isa.isa) (src : ptr) (n : nat) (dst : nat * nat) (kind : Base32.b32_kind) L K, n <= L -> costs L 19 16 (the_prog (@rei_b32_decode_simd H d t s src n dst kind K)).
Proof. co_start. { unfold rei_b32_decode_simd, Base32.b32_decode_simd. co. } all: co_end. Qed.
#[export] Hint Extern 1 (costs _ _ _ (the_prog (rei_b32_decode_simd _ _ _ _ _ _ _))) => eapply co_b32_decode_simd; cbn [fst snd]; lia : cos.
Lemma co_b32_decode_impl : forall {H : Prop} {d : nat} (t : Base32.target) (s : Isa.isa) (src : ptr) (n : nat) (dst : nat * nat) (kind : Base32.b32_kind) L K, n <= L -> costs L 19 16 (the_prog (@rei_b32_decode_impl H d t s src n dst kind K)).
Proof. co_start. { unfold rei_b32_decode_impl, Base32.b32_decode_impl. co_cases s; co. } all: co_end. Qed.
#[export] Hint Extern 1 (costs _ _ _ (the_prog (rei_b32_decode_impl _ _ _ _ _ _ _))) => eapply co_b32_decode_impl; cbn [fst snd]; lia : cos.
Lemma co_b32_decode : forall {H : Prop} {d : nat} (t : Base32.target) (s : Isa.isa) (config : Base32.b32_config) (src : ptr) (slen : nat) (dst : nat * nat) (dlen : nat) L K, slen <= L -> @costs _ (size_any _) L 19 17 (the_prog (@rei_b32_decode H d t s config src slen dst dlen K)).
Proof. co_start. { unfold rei_b32_decode, Base32.b32_decode. co. } all: co_end. Qed.
#[export] Hint Extern 1 (@costs _ (size_any _) _ _ _ (the_prog (rei_b32_decode _ _ _ _ _ _ _ _))) => eapply co_b32_decode; cbn [fst snd]; lia : cos.
Lemma co_b32_decode_inplace : forall {H : Prop} {d : nat} (t : Base32.target) (s : Isa.isa) (config : Base32.b32_config) (data : nat * nat) (len : nat) L K, len <= L -> @costs _ (size_any _) L 19 17 (the_prog (@rei_b32_decode_inplace H d t s config data len K)).
Proof. co_start. { unfold rei_b32_decode_inplace, Base32.b32_decode_inplace. co. } all: co_end. Qed.
#[export] Hint Extern 1 (@costs _ (size_any _) _ _ _ (the_prog (rei_b32_decode_inplace _ _ _ _ _ _))) => eapply co_b32_decode_inplace; cbn [fst snd]; lia : cos.
Lemma co_b32_check_fallback : forall {H : Prop} {P : nat -> Prop} (t : Base32.target) (src : ptr) (len : nat) (kind : Base32.b32_kind) L, len <= L -> costs L 8 8 (the_prog (@rei_b32_check_fallback H P t src len kind)).
Proof. co_start. { unfold rei_b32_check_fallback, Base32.b32_check_fallback. co. } all: co_end. Qed.
#[export] Hint Extern 1 (costs _ _ _ (the_prog (rei_b32_check_fallback _ _ _ _))) => eapply co_b32_check_fallback; cbn [fst snd]; lia : cos.
Lemma co_b32_check_simd : forall {H : Prop} {P : nat -> Prop} (t : Base32.target) (s : Isa.isa) (src : ptr) (len : nat) (kind : Base32.b32_kind) L, len <= L -> costs L 9 8 (the_prog (@rei_b32_check_simd H P t s src len kind)).
Proof. co_start. { unfold rei_b32_check_simd, Base32.b32_check_simd. co. } all: co_end. Qed.
#[export] Hint Extern 1 (costs _ _ _ (the_prog (rei_b32_check_simd _ _ _ _ _))) => eapply co_b32_check_simd; cbn [fst snd]; lia : cos.
Lemma co_b32_check_impl : forall {H : Prop} {P : nat -> Prop} (t : Base32.target) (s : Isa.isa) (src : ptr) (len : nat) (kind : Base32.b32_kind) L, len <= L -> costs L 9 8 (the_prog (@rei_b32_check_impl H P t s src len kind)).
Proof. co_start. { unfold rei_b32_check_impl, Base32.b32_check_impl. co_cases s; co. } all: co_end. Qed.
#[export] Hint Extern 1 (costs _ _ _ (the_prog (rei_b32_check_impl _ _ _ _ _))) => eapply co_b32_check_impl; cbn [fst snd]; lia : cos.
Lemma co_b32_check : forall {H : Prop} {P : nat -> Prop} (t : Base32.target) (s : Isa.isa) (config : Base32.b32_config) (data : ptr) (len : nat) L, len <= L -> costs L 9 9 (the_prog (@rei_b32_check H P t s config data len)).
Proof. co_start. { unfold rei_b32_check, Base32.b32_check. co. } all: co_end. Qed.
#[export] Hint Extern 1 (costs _ _ _ (the_prog (rei_b32_check _ _ _ _ _))) => eapply co_b32_check; cbn [fst snd]; lia : cos.
Lemma co_b32_decoded_length_api : forall {H : Prop} {P : nat -> Prop} (config : Base32.b32_config) (data : ptr) (len : nat) L, len <= L -> @costs _ (size_any _) L 0 1 (the_prog (@rei_b32_decoded_length_api H P config data len)).
Proof. co_start. { unfold rei_b32_decoded_length_api, Base32.b32_decoded_length_api. co. } all: co_end. Qed.
#[export] Hint Extern 1 (@costs _ (size_any _) _ _ _ (the_prog (rei_b32_decoded_length_api _ _ _))) => eapply co_b32_decoded_length_api; cbn [fst snd]; lia : cos.
Lemma co_uuid_parse_simple_fallback : forall {H : Prop} {d : nat} (src : ptr) (dst : nat * nat) L K, costs L 0 48 (the_prog (@rei_uuid_parse_simple_fallback H d src dst K)).
Proof. co_start. { unfold rei_uuid_parse_simple_fallback, Uuid.parse_simple_fallback. co. } all: co_end. Qed.
#[export] Hint Extern 1 (costs _ _ _ (the_prog (rei_uuid_parse_simple_fallback _ _ _))) => eapply co_uuid_parse_simple_fallback : cos.
Lemma co_uuid_check_hyphens : forall {H : Prop} {P : nat -> Prop} (src : ptr) L, costs L 0 4 (the_prog (@rei_uuid_check_hyphens H P src)).
Proof. co_start. { unfold rei_uuid_check_hyphens, Uuid.check_hyphens. co. } all: co_end. Qed.
#[export] Hint Extern 1 (costs _ _ _ (the_prog (rei_uuid_check_hyphens _))) => eapply co_uuid_check_hyphens : cos.
Lemma co_uuid_parse_hyphenated_fallback : forall {H : Prop} {d : nat} (src : ptr) (dst : nat * nat) L K, costs L 0 52 (the_prog (@rei_uuid_parse_hyphenated_fallback H d src dst K)).
Proof. co_start. { unfold rei_uuid_parse_hyphenated_fallback, Uuid.parse_hyphenated_fallback. co. } all: co_end. Qed.
#[export] Hint Extern 1 (costs _ _ _ (the_prog (rei_uuid_parse_hyphenated_fallback _ _ _))) => eapply co_uuid_parse_hyphenated_fallback : cos.
Lemma co_uuid_parse_simple_simd_sse2 : forall {H : Prop} {d : nat} (s : Isa.isa) (src : ptr) (dst : nat * nat) L K, costs L 0 3 (the_prog (@rei_uuid_parse_simple_simd_sse2 H d s src dst K)).
Proof. co_start. { unfold rei_uuid_parse_simple_simd_sse2, Uuid.parse_simple_simd_sse2. co. } all: co_end. Qed.
#[export] Hint Extern 1 (costs _ _ _ (the_prog (rei_uuid_parse_simple_simd_sse2 _ _ _ _))) => eapply co_uuid_parse_simple_simd_sse2 : cos.
Lemma co_uuid_parse_simple_simd : forall {H : Prop} {d : nat} (s : Isa.isa) (src : ptr) (dst : nat * nat) L K, costs L 0 3 (the_prog (@rei_uuid_parse_simple_simd H d s src dst K)).
Proof. co_start. { unfold rei_uuid_parse_simple_simd, Uuid.parse_simple_simd. co. } all: co_end. Qed.
#[export] Hint Extern 1 (costs _ _ _ (the_prog (rei_uuid_parse_simple_simd _ _ _ _))) => eapply co_uuid_parse_simple_simd : cos.
Lemma co_uuid_parse_hyphenated_simd : forall {H : Prop} {d : nat} (s : Isa.isa) (src : ptr) (dst : nat * nat) L K, costs L 0 8 (the_prog (@rei_uuid_parse_hyphenated_simd H d s src dst K)).
Proof. co_start. { unfold rei_uuid_parse_hyphenated_simd, Uuid.parse_hyphenated_simd. co. } all: co_end. Qed.
#[export] Hint Extern 1 (costs _ _ _ (the_prog (rei_uuid_parse_hyphenated_simd _ _ _ _))) => eapply co_uuid_parse_hyphenated_simd : cos.
Lemma co_uuid_format_simple_fallback : forall {H : Prop} {d : nat} (src : ptr) (dst : nat * nat) (case : Hex.ascii_case) L K, costs L 0 48 (the_prog (@rei_uuid_format_simple_fallback H d src dst case K)).
Proof. co_start. { unfold rei_uuid_format_simple_fallback, Uuid.format_simple_fallback. co. } all: co_end. Qed.
#[export] Hint Extern 1 (costs _ _ _ (the_prog (rei_uuid_format_simple_fallback _ _ _ _))) => eapply co_uuid_format_simple_fallback : cos.
Lemma co_uuid_format_hyphenated_fallback : forall {H : Prop} {d : nat} (src : ptr) (dst : nat * nat) (case : Hex.ascii_case) L K, costs L 0 110 (the_prog (@rei_uuid_format_hyphenated_fallback H d src dst case K)).
Proof. co_start. { unfold rei_uuid_format_hyphenated_fallback, Uuid.format_hyphenated_fallback. eapply (@co_rei_bind _ _ _ _ _ (size_any nat)); [|intros x _; co1]. eapply co_rei_for_known; [intros i x _; eapply co_body; [co1; eapply (@co_rei_bind _ _ _ _ _ (size_any _)); [eapply co_while_known; [intros s _; eapply co_body; [co|]|]|intros y _]|]|]; co; apply Nat.le_0_l. } all: co_end. Qed.
#[export] Hint Extern 1 (costs _ _ _ (the_prog (rei_uuid_format_hyphenated_fallback _ _ _ _))) => eapply co_uuid_format_hyphenated_fallback : cos.
Lemma co_uuid_format_simple_simd_sse2 : forall {H : Prop} {d : nat} (s : Isa.isa) (src : ptr) (dst : nat * nat) (case : Hex.ascii_case) L K, costs L 0 3 (the_prog (@rei_uuid_format_simple_simd_sse2 H d s src dst case K)).
Proof. co_start. { unfold rei_uuid_format_simple_simd_sse2, Uuid.format_simple_simd_sse2. co. } all: co_end. Qed.
#[export] Hint Extern 1 (costs _ _ _ (the_prog (rei_uuid_format_simple_simd_sse2 _ _ _ _ _))) => eapply co_uuid_format_simple_simd_sse2 : cos.
Lemma co_uuid_format_simple_simd : forall {H : Prop} {d : nat} (s : Isa.isa) (src : ptr) (dst : nat * nat) (case : Hex.ascii_case) L K, costs L 0 3 (the_prog (@rei_uuid_format_simple_simd H d s src dst case K)).
Proof. co_start. { unfold rei_uuid_format_simple_simd, Uuid.format_simple_simd. co. } all: co_end. Qed.
#[export] Hint Extern 1 (costs _ _ _ (the_prog (rei_uuid_format_simple_simd _ _ _ _ _))) => eapply co_uuid_format_simple_simd : cos.
Lemma co_uuid_format_hyphenated_simd : forall {H : Prop} {d : nat} (s : Isa.isa) (src : ptr) (dst : nat * nat) (case : Hex.ascii_case) L K, costs L 0 4 (the_prog (@rei_uuid_format_hyphenated_simd H d s src dst case K)).
Proof. co_start. { unfold rei_uuid_format_hyphenated_simd, Uuid.format_hyphenated_simd. co. } all: co_end. Qed.
#[export] Hint Extern 1 (costs _ _ _ (the_prog (rei_uuid_format_hyphenated_simd _ _ _ _ _))) => eapply co_uuid_format_hyphenated_simd : cos.
Lemma co_uuid_parse_simple_impl : forall {H : Prop} {d : nat} (s : Isa.isa) (src : ptr) (dst : nat * nat) L K, costs L 0 48 (the_prog (@rei_uuid_parse_simple_impl H d s src dst K)).
Proof. co_start. { unfold rei_uuid_parse_simple_impl, Uuid.parse_simple_impl. co_cases s; co. } all: co_end. Qed.
#[export] Hint Extern 1 (costs _ _ _ (the_prog (rei_uuid_parse_simple_impl _ _ _ _))) => eapply co_uuid_parse_simple_impl : cos.
Lemma co_uuid_parse_hyphenated_impl : forall {H : Prop} {d : nat} (s : Isa.isa) (src : ptr) (dst : nat * nat) L K, costs L 0 52 (the_prog (@rei_uuid_parse_hyphenated_impl H d s src dst K)).
Proof. co_start. { unfold rei_uuid_parse_hyphenated_impl, Uuid.parse_hyphenated_impl. co_cases s; co. } all: co_end. Qed.
#[export] Hint Extern 1 (costs _ _ _ (the_prog (rei_uuid_parse_hyphenated_impl _ _ _ _))) => eapply co_uuid_parse_hyphenated_impl : cos.
Lemma co_uuid_format_simple_impl : forall {H : Prop} {d : nat} (s : Isa.isa) (src : ptr) (dst : nat * nat) (case : Hex.ascii_case) L K, costs L 0 48 (the_prog (@rei_uuid_format_simple_impl H d s src dst case K)).
Proof. co_start. { unfold rei_uuid_format_simple_impl, Uuid.format_simple_impl. co_cases s; co. } all: co_end. Qed.
#[export] Hint Extern 1 (costs _ _ _ (the_prog (rei_uuid_format_simple_impl _ _ _ _ _))) => eapply co_uuid_format_simple_impl : cos.
Lemma co_uuid_format_hyphenated_impl : forall {H : Prop} {d : nat} (s : Isa.isa) (src : ptr) (dst : nat * nat) (case : Hex.ascii_case) L K, costs L 0 110 (the_prog (@rei_uuid_format_hyphenated_impl H d s src dst case K)).
Proof. co_start. { unfold rei_uuid_format_hyphenated_impl, Uuid.format_hyphenated_impl. co_cases s; co. } all: co_end. Qed.
#[export] Hint Extern 1 (costs _ _ _ (the_prog (rei_uuid_format_hyphenated_impl _ _ _ _ _))) => eapply co_uuid_format_hyphenated_impl : cos.
Lemma co_uuid_parse_simple : forall {H : Prop} {d : nat} (s : Isa.isa) (src : ptr) (n : nat) (dst : nat * nat) L K, n <= L -> @costs _ (size_any _) L 0 48 (the_prog (@rei_uuid_parse_simple H d s src n dst K)).
Proof. co_start. { unfold rei_uuid_parse_simple, Uuid.uuid_parse_simple. co. } all: co_end. Qed.
#[export] Hint Extern 1 (@costs _ (size_any _) _ _ _ (the_prog (rei_uuid_parse_simple _ _ _ _ _))) => eapply co_uuid_parse_simple; cbn [fst snd]; lia : cos.
Lemma co_uuid_parse_hyphenated : forall {H : Prop} {d : nat} (s : Isa.isa) (src : ptr) (n : nat) (dst : nat * nat) L K, n <= L -> @costs _ (size_any _) L 0 52 (the_prog (@rei_uuid_parse_hyphenated H d s src n dst K)).
Proof. co_start. { unfold rei_uuid_parse_hyphenated, Uuid.uuid_parse_hyphenated. co. } all: co_end. Qed.
#[export] Hint Extern 1 (@costs _ (size_any _) _ _ _ (the_prog (rei_uuid_parse_hyphenated _ _ _ _ _))) => eapply co_uuid_parse_hyphenated; cbn [fst snd]; lia : cos.
Lemma co_uuid_parse : forall {H : Prop} {d : nat} (s1 : Isa.isa) (s2 : Isa.isa) (src : ptr) (n : nat) (dst : nat * nat) L K, n <= L -> @costs _ (size_any _) L 0 54 (the_prog (@rei_uuid_parse H d s1 s2 src n dst K)).
Proof. co_start. { unfold rei_uuid_parse, Uuid.uuid_parse. co. } all: co_end. Qed.
#[export] Hint Extern 1 (@costs _ (size_any _) _ _ _ (the_prog (rei_uuid_parse _ _ _ _ _ _))) => eapply co_uuid_parse; cbn [fst snd]; lia : cos.
Lemma co_uuid_format_simple : forall {H : Prop} {d : nat} (s : Isa.isa) (src : ptr) (dst : nat * nat) (case : Hex.ascii_case) L K, @costs _ (size_any _) L 0 48 (the_prog (@rei_uuid_format_simple H d s src dst case K)).
Proof. co_start. { unfold rei_uuid_format_simple, Uuid.uuid_format_simple. co. } all: co_end. Qed.
#[export] Hint Extern 1 (@costs _ (size_any _) _ _ _ (the_prog (rei_uuid_format_simple _ _ _ _ _))) => eapply co_uuid_format_simple : cos.
Lemma co_uuid_format_hyphenated : forall {H : Prop} {d : nat} (s : Isa.isa) (src : ptr) (dst : nat * nat) (case : Hex.ascii_case) L K, @costs _ (size_any _) L 0 110 (the_prog (@rei_uuid_format_hyphenated H d s src dst case K)).
Proof. co_start. { unfold rei_uuid_format_hyphenated, Uuid.uuid_format_hyphenated. co. } all: co_end. Qed.
#[export] Hint Extern 1 (@costs _ (size_any _) _ _ _ (the_prog (rei_uuid_format_hyphenated _ _ _ _ _))) => eapply co_uuid_format_hyphenated : cos.
Lemma co_uni_is_ascii_fallback : forall {H : Prop} {P : nat -> Prop} (src : ptr) (len : nat) L, len <= L -> costs L 1 0 (the_prog (@rei_uni_is_ascii_fallback H P src len)).
Proof. co_start. { unfold rei_uni_is_ascii_fallback, Unicode.is_ascii_fallback. co. } all: co_end. Qed.
#[export] Hint Extern 1 (costs _ _ _ (the_prog (rei_uni_is_ascii_fallback _ _))) => eapply co_uni_is_ascii_fallback; cbn [fst snd]; lia : cos.
Lemma co_uni_is_ascii_simd_v256 : forall {H : Prop} {P : nat -> Prop} (s : Isa.isa) (src : ptr) (len : nat) L, len <= L -> costs L 2 0 (the_prog (@rei_uni_is_ascii_simd_v256 H P s src len)).
Proof. co_start. { unfold rei_uni_is_ascii_simd_v256, Unicode.is_ascii_simd_v256. co. } all: co_end. Qed.
#[export] Hint Extern 1 (costs _ _ _ (the_prog (rei_uni_is_ascii_simd_v256 _ _ _))) => eapply co_uni_is_ascii_simd_v256; cbn [fst snd]; lia : cos.
Lemma co_uni_loadu : forall {H : Prop} {P : nat -> Prop} (p : ptr) (k : nat) L, costs L 0 1 (the_prog (@rei_uni_loadu H P p k)).
Proof. co_start. { unfold rei_uni_loadu, Unicode.loadu. co. } all: co_end. Qed.
#[export] Hint Extern 1 (costs _ _ _ (the_prog (rei_uni_loadu _ _))) => eapply co_uni_loadu : cos.
Lemma co_uni_check_tiny : forall {H : Prop} {P : nat -> Prop} (src : ptr) (len : nat) L, len <= L -> costs L 0 4 (the_prog (@rei_uni_check_tiny H P src len)).
Proof. co_start. { unfold rei_uni_check_tiny, Unicode.check_tiny. co. } all: co_end. Qed.
#[export] Hint Extern 1 (costs _ _ _ (the_prog (rei_uni_check_tiny _ _))) => eapply co_uni_check_tiny; cbn [fst snd]; lia : cos.
Lemma co_uni_check_short : forall {H : Prop} {P : nat -> Prop} (src : ptr) (len : nat) L, len <= L -> costs L 0 2 (the_prog (@rei_uni_check_short H P src len)).
Proof. co_start. { unfold rei_uni_check_short, Unicode.check_short. co. } all: co_end. Qed.
#[export] Hint Extern 1 (costs _ _ _ (the_prog (rei_uni_check_short _ _))) => eapply co_uni_check_short; cbn [fst snd]; lia : cos.
Lemma co_uni_or_load : forall {H : Prop} {P : nat -> Prop} (x : list Z) (src : ptr) (k : nat) L, costs L 0 1 (the_prog (@rei_uni_or_load H P x src k)).
Proof. co_start. { unfold rei_uni_or_load, Unicode.or_load. co. } all: co_end. Qed.
#[export] Hint Extern 1 (costs _ _ _ (the_prog (rei_uni_or_load _ _ _))) => eapply co_uni_or_load : cos.
Lemma co_uni_check_medium : forall {H : Prop} {P : nat -> Prop} (src : ptr) (len : nat) L, len <= L -> costs L 0 4 (the_prog (@rei_uni_check_medium H P src len)).
Proof. co_start. { unfold rei_uni_check_medium, Unicode.check_medium. co. } all: co_end. Qed.
#[export] Hint Extern 1 (costs _ _ _ (the_prog (rei_uni_check_medium _ _))) => eapply co_uni_check_medium; cbn [fst snd]; lia : cos.
Lemma co_uni_check_long : forall {H : Prop} {P : nat -> Prop} (src : ptr) (len : nat) L, len <= L -> costs L 1 4 (the_prog (@rei_uni_check_long H P src len)).
Proof. co_start. { unfold rei_uni_check_long, Unicode.check_long. co. } all: co_end. Qed.
#[export] Hint Extern 1 (costs _ _ _ (the_prog (rei_uni_check_long _ _))) => eapply co_uni_check_long; cbn [fst snd]; lia : cos.
Lemma co_uni_is_ascii_sse2 : forall {H : Prop} {P : nat -> Prop} (src : ptr) (len : nat) L, len <= L -> costs L 1 4 (the_prog (@rei_uni_is_ascii_sse2 H P src len)).
Proof. co_start. { unfold rei_uni_is_ascii_sse2, Unicode.is_ascii_sse2. co. } all: co_end. Qed.
#[export] Hint Extern 1 (costs _ _ _ (the_prog (rei_uni_is_ascii_sse2 _ _))) => eapply co_uni_is_ascii_sse2; cbn [fst snd]; lia : cos.
Lemma co_uni_is_ascii_simd : forall {H : Prop} {P : nat -> Prop} (x64 : bool) (s : Isa.isa) (src : ptr) (len : nat) L, len <= L -> costs L 2 4 (the_prog (@rei_uni_is_ascii_simd H P x64 s src len)).
Proof. co_start. { unfold rei_uni_is_ascii_simd, Unicode.is_ascii_simd. co. } all: co_end. Qed.
#[export] Hint Extern 1 (costs _ _ _ (the_prog (rei_uni_is_ascii_simd _ _ _ _))) => eapply co_uni_is_ascii_simd; cbn [fst snd]; lia : cos.
Lemma co_uni_is_ascii : forall {H : Prop} {P : nat -> Prop} (x64 : bool) (s : Isa.isa) (src : ptr) (len : nat) L, len <= L -> costs L 2 4 (the_prog (@rei_uni_is_ascii H P x64 s src len)).
Proof. co_start. { unfold rei_uni_is_ascii, Unicode.is_ascii. co. } all: co_end. Qed.
#[export] Hint Extern 1 (costs _ _ _ (the_prog (rei_uni_is_ascii _ _ _ _))) => eapply co_uni_is_ascii; cbn [fst snd]; lia : cos.
Lemma co_uni_from_ascii : forall {H : Prop} {P : nat -> Prop} (x64 : bool) (s : Isa.isa) (src : ptr) (len : nat) L, len <= L -> costs L 2 4 (the_prog (@rei_uni_from_ascii H P x64 s src len)).
Proof. co_start. { unfold rei_uni_from_ascii, Unicode.from_ascii. co. } all: co_end. Qed.
#[export] Hint Extern 1 (costs _ _ _ (the_prog (rei_uni_from_ascii _ _ _ _))) => eapply co_uni_from_ascii; cbn [fst snd]; lia : cos.
Lemma co_uni_is_utf32le_fallback : forall {H : Prop} {P : nat -> Prop} (en : Ints.endian) (src : ptr) (len : nat) L, len <= L -> costs L 1 0 (the_prog (@rei_uni_is_utf32le_fallback H P en src len)).
Proof. co_start. { unfold rei_uni_is_utf32le_fallback, Unicode.is_utf32le_fallback. co. } all: co_end. Qed.
#[export] Hint Extern 1 (costs _ _ _ (the_prog (rei_uni_is_utf32le_fallback _ _ _))) => eapply co_uni_is_utf32le_fallback; cbn [fst snd]; lia : cos.
Lemma co_uni_is_utf32le_simd : forall {H : Prop} {P : nat -> Prop} (en : Ints.endian) (s : Isa.isa) (src : ptr) (len : nat) L, len <= L -> costs L 2 0 (the_prog (@rei_uni_is_utf32le_simd H P en s src len)).
Proof. co_start. { unfold rei_uni_is_utf32le_simd, Unicode.is_utf32le_simd. co. } all: co_end. Qed.
#[export] Hint Extern 1 (costs _ _ _ (the_prog (rei_uni_is_utf32le_simd _ _ _ _))) => eapply co_uni_is_utf32le_simd; cbn [fst snd]; lia : cos.
Lemma co_uni_is_utf32le : forall {H : Prop} {P : nat -> Prop} (en : Ints.endian) (s : Isa.isa) (src : ptr) (len : nat) L, len <= L -> costs L 2 0 (the_prog (@rei_uni_is_utf32le H P en s src len)).
Proof. co_start. { unfold rei_uni_is_utf32le, Unicode.is_utf32le. co. } all: co_end. Qed.
#[export] Hint Extern 1 (costs _ _ _ (the_prog (rei_uni_is_utf32le _ _ _ _))) => eapply co_uni_is_utf32le; cbn [fst snd]; lia : cos.
Lemma co_uni_bswap_fallback : forall {H : Prop} {d : nat} (en : Ints.endian) (t : Unicode.elem) (src : ptr) (len : nat) (dst : nat * nat) L K, len <= L -> costs L 2 0 (the_prog (@rei_uni_bswap_fallback H d en t src len dst K)).
Proof. co_start. { unfold rei_uni_bswap_fallback, Unicode.bswap_fallback. co. } all: co_end. Qed.
#[export] Hint Extern 1 (costs _ _ _ (the_prog (rei_uni_bswap_fallback _ _ _ _ _ _))) => eapply co_uni_bswap_fallback; cbn [fst snd]; lia : cos.
Lemma co_uni_bswap_simd : forall {H : Prop} {d : nat} (en : Ints.endian) (t : Unicode.elem) (s : Isa.isa) (src : ptr) (len : nat) (dst : nat * nat) L K, len <= L -> costs L 4 0 (the_prog (@rei_uni_bswap_simd H d en t s src len dst K)).
Proof. co_start. { unfold rei_uni_bswap_simd, Unicode.bswap_simd. co. eapply co_uni_bswap_fallback. transitivity len; [apply Nat.mod_le; now destruct t|assumption]. } all: co_end. Qed.
#[export] Hint Extern 1 (costs _ _ _ (the_prog (rei_uni_bswap_simd _ _ _ _ _ _ _))) => eapply co_uni_bswap_simd; cbn [fst snd]; lia : cos.
Lemma co_uni_swap_endianness : forall {H : Prop} {d : nat} (en : Ints.endian) (t : Unicode.elem) (s : Isa.isa) (src : ptr) (len : nat) (dst : nat * nat) L K, len <= L -> costs L 4 0 (the_prog (@rei_uni_swap_endianness H d en t s src len dst K)).
Proof. co_start. { unfold rei_uni_swap_endianness, Unicode.swap_endianness. co. } all: co_end. Qed.
#[export] Hint Extern 1 (costs _ _ _ (the_prog (rei_uni_swap_endianness _ _ _ _ _ _ _))) => eapply co_uni_swap_endianness; cbn [fst snd]; lia : cos.
Lemma co_uni_swap_endianness_inplace : forall {H : Prop} {d : nat} (en : Ints.endian) (t : Unicode.elem) (s : Isa.isa) (data : nat * nat) (len : nat) L K, len <= L -> costs L 4 0 (the_prog (@rei_uni_swap_endianness_inplace H d en t s data len K)).
Proof. co_start. { unfold rei_uni_swap_endianness_inplace, Unicode.swap_endianness_inplace. co. } all: co_end. Qed.
#[export] Hint Extern 1 (costs _ _ _ (the_prog (rei_uni_swap_endianness_inplace _ _ _ _ _ _))) => eapply co_uni_swap_endianness_inplace; cbn [fst snd]; lia : cos.
Lemma co_uni_swap_endianness_to : forall {H : Prop} {d : nat} (en : Ints.endian) (t : Unicode.elem) (s : Isa.isa) (src : ptr) (len : nat) (dst : nat * nat) (dlen : nat) L K, len <= L -> costs L 4 0 (the_prog (@rei_uni_swap_endianness_to H d en t s src len dst dlen K)).
Proof. co_start. { unfold rei_uni_swap_endianness_to, Unicode.swap_endianness_to. co. } all: co_end. Qed.
#[export] Hint Extern 1 (costs _ _ _ (the_prog (rei_uni_swap_endianness_to _ _ _ _ _ _ _ _))) => eapply co_uni_swap_endianness_to; cbn [fst snd]; lia : cos.
Lemma co_forg_lookup_ascii_whitespace : forall {H : Prop} {P : nat -> Prop} (c : Z) L, costs L 0 0 (the_prog (@rei_forg_lookup_ascii_whitespace H P c)).
Proof. co_start. { unfold rei_forg_lookup_ascii_whitespace, Forgiving.lookup_ascii_whitespace. co. } all: co_end. Qed.
#[export] Hint Extern 1 (costs _ _ _ (the_prog (rei_forg_lookup_ascii_whitespace _))) => eapply co_forg_lookup_ascii_whitespace : cos.
Lemma co_forg_find_non_ascii_whitespace_short : forall {H : Prop} {P : nat -> Prop} (src : ptr) (len : nat) L, len <= L -> @costs _ (size_any _) L 1 0 (the_prog (@rei_forg_find_non_ascii_whitespace_short H P src len)).
Proof. co_start. { unfold rei_forg_find_non_ascii_whitespace_short, Forgiving.find_non_ascii_whitespace_short. co. } all: co_end. Qed.
#[export] Hint Extern 1 (@costs _ (size_any _) _ _ _ (the_prog (rei_forg_find_non_ascii_whitespace_short _ _))) => eapply co_forg_find_non_ascii_whitespace_short; cbn [fst snd]; lia : cos.
Lemma co_forg_find_non_ascii_whitespace_fallback : forall {H : Prop} {P : nat -> Prop} (src : ptr) (len : nat) L, len <= L -> @costs _ (size_any _) L 1 0 (the_prog (@rei_forg_find_non_ascii_whitespace_fallback H P src len)).
Proof. co_start. { unfold rei_forg_find_non_ascii_whitespace_fallback, Forgiving.find_non_ascii_whitespace_fallback. co. } all: co_end. Qed.
#[export] Hint Extern 1 (@costs _ (size_any _) _ _ _ (the_prog (rei_forg_find_non_ascii_whitespace_fallback _ _))) => eapply co_forg_find_non_ascii_whitespace_fallback; cbn [fst snd]; lia : cos.
Lemma co_forg_find_loop : forall {H : Prop} {P : nat -> Prop} (w : Simd.width) (s : Isa.isa) (fuel : nat) (end_ : ptr) (src : ptr) L, fuel <= S L -> costs L 1 0 (the_prog (@rei_forg_find_loop H P w s fuel end_ src)).
Proof. co_start. { unfold rei_forg_find_loop, Forgiving.find_loop. co. } all: co_end. Qed.
#[export] Hint Extern 1 (costs _ _ _ (the_prog (rei_forg_find_loop _ _ _ _ _))) => eapply co_forg_find_loop; cbn [fst snd]; lia : cos.
Lemma co_forg_find_non_ascii_whitespace_simd : forall {H : Prop} {P : nat -> Prop} (s : Isa.isa) (src : ptr) (len : nat) L, len <= L -> @costs _ (size_any _) L 2 1 (the_prog (@rei_forg_find_non_ascii_whitespace_simd H P s src len)).
Proof. co_start. { unfold rei_forg_find_non_ascii_whitespace_simd, Forgiving.find_non_ascii_whitespace_simd. co. } all: co_end. Qed.
#[export] Hint Extern 1 (@costs _ (size_any _) _ _ _ (the_prog (rei_forg_find_non_ascii_whitespace_simd _ _ _))) => eapply co_forg_find_non_ascii_whitespace_simd; cbn [fst snd]; lia : cos.
Lemma co_forg_find_non_ascii_whitespace : forall {H : Prop} {P : nat -> Prop} (s : Isa.isa) (src : ptr) (len : nat) L, len <= L -> @costs _ (size_any _) L 2 1 (the_prog (@rei_forg_find_non_ascii_whitespace H P s src len)).
Proof. co_start. { unfold rei_forg_find_non_ascii_whitespace, Forgiving.find_non_ascii_whitespace. co_cases s; co. } all: co_end. Qed.
#[export] Hint Extern 1 (@costs _ (size_any _) _ _ _ (the_prog (rei_forg_find_non_ascii_whitespace _ _ _))) => eapply co_forg_find_non_ascii_whitespace; cbn [fst snd]; lia : cos.
Lemma co_forg_remove_ascii_whitespace_fallback : forall {H : Prop} {d : nat} (src : ptr) (len : nat) (dst : nat * nat) L K, len <= L -> @costs _ (size_any _) L 2 0 (the_prog (@rei_forg_remove_ascii_whitespace_fallback H d src len dst K)).
Proof. co_start. { unfold rei_forg_remove_ascii_whitespace_fallback, Forgiving.remove_ascii_whitespace_fallback. co. } all: co_end. Qed.
#[export] Hint Extern 1 (@costs _ (size_any _) _ _ _ (the_prog (rei_forg_remove_ascii_whitespace_fallback _ _ _ _))) => eapply co_forg_remove_ascii_whitespace_fallback; cbn [fst snd]; lia : cos.
Lemma co_forg_debug_assert : forall {H : Prop} {P : nat -> Prop} (b : bool) L, costs L 0 0 (the_prog (@rei_forg_debug_assert H P b)).
Proof. co_start. { unfold rei_forg_debug_assert, Forgiving.debug_assert. co. } all: co_end. Qed.
#[export] Hint Extern 1 (costs _ _ _ (the_prog (rei_forg_debug_assert _))) => eapply co_forg_debug_assert : cos.
Lemma co_forg_remove_ascii_whitespace_inplace : forall {H : Prop} {d : nat} (s : Isa.isa) (data : nat * nat) (len : nat) L K, len <= L -> costs L 4 1 (the_prog (@rei_forg_remove_ascii_whitespace_inplace H d s data len K)).
Proof. co_start. { unfold rei_forg_remove_ascii_whitespace_inplace, Forgiving.remove_ascii_whitespace_inplace. co. } all: co_end. Qed.
#[export] Hint Extern 1 (costs _ _ _ (the_prog (rei_forg_remove_ascii_whitespace_inplace _ _ _ _))) => eapply co_forg_remove_ascii_whitespace_inplace; cbn [fst snd]; lia : cos.
Lemma co_forg_forgiving_decode_inplace : forall {H : Prop} {d : nat} (en : Ints.endian) (s1 : Isa.isa) (s2 : Isa.isa) (data : nat * nat) (len : nat) L K, len <= L -> @costs _ (size_any _) L 23 6 (the_prog (@rei_forg_forgiving_decode_inplace H d en s1 s2 data len K)).
Proof. co_start. { unfold rei_forg_forgiving_decode_inplace, Forgiving.forgiving_decode_inplace. co. } all: co_end. Qed.
#[export] Hint Extern 1 (@costs _ (size_any _) _ _ _ (the_prog (rei_forg_forgiving_decode_inplace _ _ _ _ _ _))) => eapply co_forg_forgiving_decode_inplace; cbn [fst snd]; lia : cos.
Lemma co_forg_copy_nonoverlapping : forall {H : Prop} {d : nat} (src : ptr) (dst : nat * nat) (n : nat) L K, n <= L -> costs L 0 2 (the_prog (@rei_forg_copy_nonoverlapping H d src dst n K)).
Proof. co_start. { unfold rei_forg_copy_nonoverlapping, Forgiving.copy_nonoverlapping. co. } all: co_end. Qed.
#[export] Hint Extern 1 (costs _ _ _ (the_prog (rei_forg_copy_nonoverlapping _ _ _ _))) => eapply co_forg_copy_nonoverlapping; cbn [fst snd]; lia : cos.
Lemma co_forg_forgiving_decode : forall {H : Prop} {d : nat} (en : Ints.endian) (s1 : Isa.isa) (s2 : Isa.isa) (src : ptr) (len : nat) (dst : nat * nat) (dlen : nat) L K, len <= L -> @costs _ (size_any _) L 23 8 (the_prog (@rei_forg_forgiving_decode H d en s1 s2 src len dst dlen K)).
Proof. co_start. { unfold rei_forg_forgiving_decode, Forgiving.forgiving_decode. co. } all: co_end. Qed.
#[export] Hint Extern 1 (@costs _ (size_any _) _ _ _ (the_prog (rei_forg_forgiving_decode _ _ _ _ _ _ _ _))) => eapply co_forg_forgiving_decode; cbn [fst snd]; lia : cos.
