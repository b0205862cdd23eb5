(** The functions of the crates make the same accesses on pointers into other allocations (Rename.v). Lemmas only. One lemma for
    each of the programs of Reify.v. *)
From Coq Require Import ZArith List Bool Lia.
From Verif Require Import Bytes Mem MemFacts Slices Isa Simd Alsw Ints Conc ConcFacts ConcBase64Facts Reify Rename.
From Verif Require Hex Base64 Base32 Uuid Unicode Forgiving.
Import ListNotations.
Open Scope nat_scope. Open Scope m_scope.

Lemma mvd_hex_encode_bits {g : nat -> nat} {H H' : Prop} {d d' : nat} (src : ptr) (dst : ptr) (cs : list Z) K K' : moved g (the_prog (@rei_hex_encode_bits H d src dst cs K)) (the_prog (@rei_hex_encode_bits H' d' (place g src) (place g dst) cs K')).
Proof. unfold rei_hex_encode_bits, Hex.encode_bits. repeat mvd1. Qed.
#[export] Hint Extern 1 (moved _ (the_prog (rei_hex_encode_bits _ _ _ _)) _) => apply mvd_hex_encode_bits : mvd.
Lemma mvd_hex_encode_step {g : nat -> nat} {H H' : Prop} {d d' : nat} (cs : list Z) (st st' : ptr * ptr) K K' : mov (g := g) st st' -> moved g (the_prog (@rei_hex_encode_step H d cs st K)) (the_prog (@rei_hex_encode_step H' d' cs st' K')).
Proof. let R := fresh in intro R; unmov R st st'. unfold rei_hex_encode_step, Hex.encode_step. repeat mvd1. Qed.
#[export] Hint Extern 1 (moved _ (the_prog (rei_hex_encode_step _ _ _)) _) => apply mvd_hex_encode_step; mvd_rel : mvd.
Lemma mvd_hex_encode_short {g : nat -> nat} {H H' : Prop} {d d' : nat} (src : ptr) (len : nat) (dst : ptr) (cs : list Z) K K' : moved g (the_prog (@rei_hex_encode_short H d src len dst cs K)) (the_prog (@rei_hex_encode_short H' d' (place g src) len (place g dst) cs K')).
Proof. unfold rei_hex_encode_short, Hex.encode_short. repeat mvd1. Qed.
#[export] Hint Extern 1 (moved _ (the_prog (rei_hex_encode_short _ _ _ _ _)) _) => apply mvd_hex_encode_short : mvd.
Lemma mvd_hex_encode_long {g : nat -> nat} {H H' : Prop} {d d' : nat} (src : ptr) (len : nat) (dst : ptr) (case : Hex.ascii_case) K K' : moved g (the_prog (@rei_hex_encode_long H d src len dst case K)) (the_prog (@rei_hex_encode_long H' d' (place g src) len (place g dst) case K')).
Proof. unfold rei_hex_encode_long, Hex.encode_long. repeat mvd1. Qed.
#[export] Hint Extern 1 (moved _ (the_prog (rei_hex_encode_long _ _ _ _ _)) _) => apply mvd_hex_encode_long : mvd.
Lemma mvd_hex_encode_fallback {g : nat -> nat} {H H' : Prop} {d d' : nat} (src : ptr) (len : nat) (dst : ptr) (case : Hex.ascii_case) K K' : moved g (the_prog (@rei_hex_encode_fallback H d src len dst case K)) (the_prog (@rei_hex_encode_fallback H' d' (place g src) len (place g dst) case K')).
Proof. unfold rei_hex_encode_fallback, Hex.hex_encode_fallback. repeat mvd1. Qed.
#[export] Hint Extern 1 (moved _ (the_prog (rei_hex_encode_fallback _ _ _ _ _)) _) => apply mvd_hex_encode_fallback : mvd.
Lemma mvd_hex_encode_simd_v256 {g : nat -> nat} {H H' : Prop} {d d' : nat} (s : Isa.isa) (src : ptr) (len : nat) (dst : ptr) (case : Hex.ascii_case) K K' : moved g (the_prog (@rei_hex_encode_simd_v256 H d s src len dst case K)) (the_prog (@rei_hex_encode_simd_v256 H' d' s (place g src) len (place g dst) case K')).
Proof. unfold rei_hex_encode_simd_v256, Hex.encode_simd_v256. repeat mvd1. Qed.
#[export] Hint Extern 1 (moved _ (the_prog (rei_hex_encode_simd_v256 _ _ _ _ _ _)) _) => apply mvd_hex_encode_simd_v256 : mvd.
Lemma mvd_hex_encode_simd_v128 {g : nat -> nat} {H H' : Prop} {d d' : nat} (s : Isa.isa) (src : ptr) (len : nat) (dst : ptr) (case : Hex.ascii_case) K K' : moved g (the_prog (@rei_hex_encode_simd_v128 H d s src len dst case K)) (the_prog (@rei_hex_encode_simd_v128 H' d' s (place g src) len (place g dst) case K')).
Proof. unfold rei_hex_encode_simd_v128, Hex.encode_simd_v128. repeat mvd1. Qed.
#[export] Hint Extern 1 (moved _ (the_prog (rei_hex_encode_simd_v128 _ _ _ _ _ _)) _) => apply mvd_hex_encode_simd_v128 : mvd.
Lemma mvd_hex_encode_simd_sse2 {g : nat -> nat} {H H' : Prop} {d d' : nat} (s : Isa.isa) (src : ptr) (len : nat) (dst : ptr) (case : Hex.ascii_case) K K' : moved g (the_prog (@rei_hex_encode_simd_sse2 H d s src len dst case K)) (the_prog (@rei_hex_encode_simd_sse2 H' d' s (place g src) len (place g dst) case K')).
Proof. unfold rei_hex_encode_simd_sse2, Hex.encode_simd_sse2. repeat mvd1. Qed.
#[export] Hint Extern 1 (moved _ (the_prog (rei_hex_encode_simd_sse2 _ _ _ _ _ _)) _) => apply mvd_hex_encode_simd_sse2 : mvd.
Lemma mvd_hex_encode_simd {g : nat -> nat} {H H' : Prop} {d d' : nat} (s : Isa.isa) (src : ptr) (len : nat) (dst : ptr) (case : Hex.ascii_case) K K' : moved g (the_prog (@rei_hex_encode_simd H d s src len dst case K)) (the_prog (@rei_hex_encode_simd H' d' s (place g src) len (place g dst) case K')).
Proof. unfold rei_hex_encode_simd, Hex.hex_encode_simd. repeat mvd1. Qed.
#[export] Hint Extern 1 (moved _ (the_prog (rei_hex_encode_simd _ _ _ _ _ _)) _) => apply mvd_hex_encode_simd : mvd.
Lemma mvd_hex_encode_impl {g : nat -> nat} {H H' : Prop} {d d' : nat} (s : Isa.isa) (src : ptr) (len : nat) (dst : ptr) (case : Hex.ascii_case) K K' : moved g (the_prog (@rei_hex_encode_impl H d s src len dst case K)) (the_prog (@rei_hex_encode_impl H' d' s (place g src) len (place g dst) case K')).
Proof. unfold rei_hex_encode_impl, Hex.hex_encode_impl. destruct s; repeat mvd1. Qed.
#[export] Hint Extern 1 (moved _ (the_prog (rei_hex_encode_impl _ _ _ _ _ _)) _) => apply mvd_hex_encode_impl : mvd.
Lemma mvd_hex_encode {g : nat -> nat} {H H' : Prop} {d d' : nat} (s : Isa.isa) (src : ptr) (slen : nat) (dst : ptr) (dlen : nat) (case : Hex.ascii_case) K K' : moved g (the_prog (@rei_hex_encode H d s src slen dst dlen case K)) (the_prog (@rei_hex_encode H' d' s (place g src) slen (place g dst) dlen case K')).
Proof. unfold rei_hex_encode, Hex.hex_encode. repeat mvd1. Qed.
#[export] Hint Extern 1 (moved _ (the_prog (rei_hex_encode _ _ _ _ _ _ _)) _) => apply mvd_hex_encode : mvd.
Lemma mvd_hex_decode_bits {g : nat -> nat} {H H' : Prop} {d d' : nat} (src : ptr) (dst : ptr) K K' : moved g (the_prog (@rei_hex_decode_bits H d src dst K)) (the_prog (@rei_hex_decode_bits H' d' (place g src) (place g dst) K')).
Proof. unfold rei_hex_decode_bits, Hex.decode_bits. repeat mvd1. Qed.
#[export] Hint Extern 1 (moved _ (the_prog (rei_hex_decode_bits _ _ _)) _) => apply mvd_hex_decode_bits : mvd.
Lemma mvd_hex_decode_step {g : nat -> nat} {H H' : Prop} {d d' : nat} (st st' : ptr * ptr * Z) K K' : mov (g := g) st st' -> moved g (the_prog (@rei_hex_decode_step H d st K)) (the_prog (@rei_hex_decode_step H' d' st' K')).
Proof. let R := fresh in intro R; unmov R st st'. unfold rei_hex_decode_step, Hex.decode_step. repeat mvd1. Qed.
#[export] Hint Extern 1 (moved _ (the_prog (rei_hex_decode_step _ _)) _) => apply mvd_hex_decode_step; mvd_rel : mvd.
Lemma mvd_hex_decode_short {g : nat -> nat} {H H' : Prop} {d d' : nat} (s : Isa.isa) (src : ptr) (len : nat) (dst : ptr) K K' : moved g (the_prog (@rei_hex_decode_short H d s src len dst K)) (the_prog (@rei_hex_decode_short H' d' s (place g src) len (place g dst) K')).
Proof. unfold rei_hex_decode_short, Hex.decode_short. repeat mvd1. Qed.
#[export] Hint Extern 1 (moved _ (the_prog (rei_hex_decode_short _ _ _ _ _)) _) => apply mvd_hex_decode_short : mvd.
Lemma mvd_hex_decode_long {g : nat -> nat} {H H' : Prop} {d d' : nat} (src : ptr) (len : nat) (dst : ptr) K K' : moved g (the_prog (@rei_hex_decode_long H d src len dst K)) (the_prog (@rei_hex_decode_long H' d' (place g src) len (place g dst) K')).
Proof. unfold rei_hex_decode_long, Hex.decode_long. repeat mvd1. Qed.
#[export] Hint Extern 1 (moved _ (the_prog (rei_hex_decode_long _ _ _ _)) _) => apply mvd_hex_decode_long : mvd.
Lemma mvd_hex_decode_fallback {g : nat -> nat} {H H' : Prop} {d d' : nat} (src : ptr) (len : nat) (dst : ptr) K K' : moved g (the_prog (@rei_hex_decode_fallback H d src len dst K)) (the_prog (@rei_hex_decode_fallback H' d' (place g src) len (place g dst) K')).
Proof. unfold rei_hex_decode_fallback, Hex.hex_decode_fallback. repeat mvd1. Qed.
#[export] Hint Extern 1 (moved _ (the_prog (rei_hex_decode_fallback _ _ _ _)) _) => apply mvd_hex_decode_fallback : mvd.
Lemma mvd_hex_dec16 {g : nat -> nat} {H H' : Prop} {d d' : nat} (s : Isa.isa) (src : ptr) (dst : ptr) K K' : moved g (the_prog (@rei_hex_dec16 H d s src dst K)) (the_prog (@rei_hex_dec16 H' d' s (place g src) (place g dst) K')).
Proof. unfold rei_hex_dec16, Hex.dec16. repeat mvd1. Qed.
#[export] Hint Extern 1 (moved _ (the_prog (rei_hex_dec16 _ _ _ _)) _) => apply mvd_hex_dec16 : mvd.
Lemma mvd_hex_dec32 {g : nat -> nat} {H H' : Prop} {d d' : nat} (s : Isa.isa) (src : ptr) (dst : ptr) K K' : moved g (the_prog (@rei_hex_dec32 H d s src dst K)) (the_prog (@rei_hex_dec32 H' d' s (place g src) (place g dst) K')).
Proof. unfold rei_hex_dec32, Hex.dec32. repeat mvd1. Qed.
#[export] Hint Extern 1 (moved _ (the_prog (rei_hex_dec32 _ _ _ _)) _) => apply mvd_hex_dec32 : mvd.
Lemma mvd_hex_decode_simd_v256 {g : nat -> nat} {H H' : Prop} {d d' : nat} (s : Isa.isa) (src : ptr) (len : nat) (dst : ptr) K K' : moved g (the_prog (@rei_hex_decode_simd_v256 H d s src len dst K)) (the_prog (@rei_hex_decode_simd_v256 H' d' s (place g src) len (place g dst) K')).
Proof. unfold rei_hex_decode_simd_v256, Hex.decode_simd_v256. repeat mvd1. Qed.
#[export] Hint Extern 1 (moved _ (the_prog (rei_hex_decode_simd_v256 _ _ _ _ _)) _) => apply mvd_hex_decode_simd_v256 : mvd.
Lemma mvd_hex_decode_simd_v128 {g : nat -> nat} {H H' : Prop} {d d' : nat} (s : Isa.isa) (src : ptr) (len : nat) (dst : ptr) K K' : moved g (the_prog (@rei_hex_decode_simd_v128 H d s src len dst K)) (the_prog (@rei_hex_decode_simd_v128 H' d' s (place g src) len (place g dst) K')).
Proof. unfold rei_hex_decode_simd_v128, Hex.decode_simd_v128. repeat mvd1. Qed.
#[export] Hint Extern 1 (moved _ (the_prog (rei_hex_decode_simd_v128 _ _ _ _ _)) _) => apply mvd_hex_decode_simd_v128 : mvd.
Lemma mvd_hex_decode_simd_sse2 {g : nat -> nat} {H H' : Prop} {d d' : nat} (s : Isa.isa) (src : ptr) (len : nat) (dst : ptr) K K' : moved g (the_prog (@rei_hex_decode_simd_sse2 H d s src len dst K)) (the_prog (@rei_hex_decode_simd_sse2 H' d' s (place g src) len (place g dst) K')).
Proof. unfold rei_hex_decode_simd_sse2, Hex.decode_simd_sse2. repeat mvd1. Qed.
#[export] Hint Extern 1 (moved _ (the_prog (rei_hex_decode_simd_sse2 _ _ _ _ _)) _) => apply mvd_hex_decode_simd_sse2 : mvd.
Lemma mvd_hex_decode_simd {g : nat -> nat} {H H' : Prop} {d d' : nat} (s : Isa.isa) (src : ptr) (len : nat) (dst : ptr) K K' : moved g (the_prog (@rei_hex_decode_simd H d s src len dst K)) (the_prog (@rei_hex_decode_simd H' d' s (place g src) len (place g dst) K')).
Proof. unfold rei_hex_decode_simd, Hex.hex_decode_simd. repeat mvd1. Qed.
#[export] Hint Extern 1 (moved _ (the_prog (rei_hex_decode_simd _ _ _ _ _)) _) => apply mvd_hex_decode_simd : mvd.
Lemma mvd_hex_decode_impl {g : nat -> nat} {H H' : Prop} {d d' : nat} (s : Isa.isa) (src : ptr) (len : nat) (dst : ptr) K K' : moved g (the_prog (@rei_hex_decode_impl H d s src len dst K)) (the_prog (@rei_hex_decode_impl H' d' s (place g src) len (place g dst) K')).
Proof. unfold rei_hex_decode_impl, Hex.hex_decode_impl. destruct s; repeat mvd1. Qed.
#[export] Hint Extern 1 (moved _ (the_prog (rei_hex_decode_impl _ _ _ _ _)) _) => apply mvd_hex_decode_impl : mvd.
Lemma mvd_hex_decode {g : nat -> nat} {H H' : Prop} {d d' : nat} (s : Isa.isa) (src : ptr) (slen : nat) (dst : ptr) (dlen : nat) K K' : moved g (the_prog (@rei_hex_decode H d s src slen dst dlen K)) (the_prog (@rei_hex_decode H' d' s (place g src) slen (place g dst) dlen K')).
Proof. unfold rei_hex_decode, Hex.hex_decode. repeat mvd1. Qed.
#[export] Hint Extern 1 (moved _ (the_prog (rei_hex_decode _ _ _ _ _ _)) _) => apply mvd_hex_decode : mvd.
Lemma mvd_hex_decode_inplace {g : nat -> nat} {H H' : Prop} {d d' : nat} (s : Isa.isa) (data : ptr) (len : nat) K K' : moved g (the_prog (@rei_hex_decode_inplace H d s data len K)) (the_prog (@rei_hex_decode_inplace H' d' s (place g data) len K')).
Proof. unfold rei_hex_decode_inplace, Hex.hex_decode_inplace. repeat mvd1. Qed.
#[export] Hint Extern 1 (moved _ (the_prog (rei_hex_decode_inplace _ _ _ _)) _) => apply mvd_hex_decode_inplace : mvd.
Lemma mvd_hex_check_short {g : nat -> nat} {H H' : Prop} {P P' : nat -> Prop} (src : ptr) (len : nat) : moved g (the_prog (@rei_hex_check_short H P src len)) (the_prog (@rei_hex_check_short H' P' (place g src) len)).
Proof. unfold rei_hex_check_short, Hex.check_short. repeat mvd1. Qed.
#[export] Hint Extern 1 (moved _ (the_prog (rei_hex_check_short _ _)) _) => apply mvd_hex_check_short : mvd.
Lemma mvd_hex_check_short_sc {g : nat -> nat} {H H' : Prop} {P P' : nat -> Prop} (src : ptr) (len : nat) : moved g (the_prog (@rei_hex_check_short_sc H P src len)) (the_prog (@rei_hex_check_short_sc H' P' (place g src) len)).
Proof. unfold rei_hex_check_short_sc, Hex.check_short_sc. repeat mvd1. Qed.
#[export] Hint Extern 1 (moved _ (the_prog (rei_hex_check_short_sc _ _)) _) => apply mvd_hex_check_short_sc : mvd.
Lemma mvd_hex_check_fallback {g : nat -> nat} {H H' : Prop} {P P' : nat -> Prop} (src : ptr) (len : nat) : moved g (the_prog (@rei_hex_check_fallback H P src len)) (the_prog (@rei_hex_check_fallback H' P' (place g src) len)).
Proof. unfold rei_hex_check_fallback, Hex.hex_check_fallback. repeat mvd1. Qed.
#[export] Hint Extern 1 (moved _ (the_prog (rei_hex_check_fallback _ _)) _) => apply mvd_hex_check_fallback : mvd.
Lemma mvd_hex_check_vec {g : nat -> nat} {H H' : Prop} {P P' : nat -> Prop} (w : Simd.width) (s : Isa.isa) (src : ptr) : moved g (the_prog (@rei_hex_check_vec H P w s src)) (the_prog (@rei_hex_check_vec H' P' w s (place g src))).
Proof. unfold rei_hex_check_vec, Hex.check_vec. repeat mvd1. Qed.
#[export] Hint Extern 1 (moved _ (the_prog (rei_hex_check_vec _ _ _)) _) => apply mvd_hex_check_vec : mvd.
Lemma mvd_hex_check_simd {g : nat -> nat} {H H' : Prop} {P P' : nat -> Prop} (s : Isa.isa) (src : ptr) (len : nat) : moved g (the_prog (@rei_hex_check_simd H P s src len)) (the_prog (@rei_hex_check_simd H' P' s (place g src) len)).
Proof. unfold rei_hex_check_simd, Hex.hex_check_simd. repeat mvd1. Qed.
#[export] Hint Extern 1 (moved _ (the_prog (rei_hex_check_simd _ _ _)) _) => apply mvd_hex_check_simd : mvd.
Lemma mvd_hex_check_impl {g : nat -> nat} {H H' : Prop} {P P' : nat -> Prop} (s : Isa.isa) (src : ptr) (len : nat) : moved g (the_prog (@rei_hex_check_impl H P s src len)) (the_prog (@rei_hex_check_impl H' P' s (place g src) len)).
Proof. unfold rei_hex_check_impl, Hex.hex_check_impl. destruct s; repeat mvd1. Qed.
#[export] Hint Extern 1 (moved _ (the_prog (rei_hex_check_impl _ _ _)) _) => apply mvd_hex_check_impl : mvd.
Lemma mvd_hex_check {g : nat -> nat} {H H' : Prop} {P P' : nat -> Prop} (s : Isa.isa) (src : ptr) (len : nat) : moved g (the_prog (@rei_hex_check H P s src len)) (the_prog (@rei_hex_check H' P' s (place g src) len)).
Proof. unfold rei_hex_check, Hex.hex_check. repeat mvd1. Qed.
#[export] Hint Extern 1 (moved _ (the_prog (rei_hex_check _ _ _)) _) => apply mvd_hex_check : mvd.
Lemma mvd_b64_encode_bits24 {g : nat -> nat} {H H' : Prop} {d d' : nat} (src : ptr) (dst : ptr) (charset : list Z) K K' : moved g (the_prog (@rei_b64_encode_bits24 H d src dst charset K)) (the_prog (@rei_b64_encode_bits24 H' d' (place g src) (place g dst) charset K')).
Proof. unfold rei_b64_encode_bits24, Base64.encode_bits24. repeat mvd1. Qed.
#[export] Hint Extern 1 (moved _ (the_prog (rei_b64_encode_bits24 _ _ _ _)) _) => apply mvd_b64_encode_bits24 : mvd.
Lemma mvd_b64_encode_bits48 {g : nat -> nat} {H H' : Prop} {d d' : nat} (src : ptr) (dst : ptr) (charset : list Z) K K' : moved g (the_prog (@rei_b64_encode_bits48 H d src dst charset K)) (the_prog (@rei_b64_encode_bits48 H' d' (place g src) (place g dst) charset K')).
Proof. unfold rei_b64_encode_bits48, Base64.encode_bits48. repeat mvd1. Qed.
#[export] Hint Extern 1 (moved _ (the_prog (rei_b64_encode_bits48 _ _ _ _)) _) => apply mvd_b64_encode_bits48 : mvd.
Lemma mvd_b64_encode_extra {g : nat -> nat} {H H' : Prop} {d d' : nat} (extra : nat) (src : ptr) (dst : ptr) (charset : list Z) (padding : bool) K K' : moved g (the_prog (@rei_b64_encode_extra H d extra src dst charset padding K)) (the_prog (@rei_b64_encode_extra H' d' extra (place g src) (place g dst) charset padding K')).
Proof. unfold rei_b64_encode_extra, Base64.b64_encode_extra. repeat mvd1. Qed.
#[export] Hint Extern 1 (moved _ (the_prog (rei_b64_encode_extra _ _ _ _ _ _)) _) => apply mvd_b64_encode_extra : mvd.
Lemma mvd_b64_enc48_step {g : nat -> nat} {H H' : Prop} {d d' : nat} (charset : list Z) (st st' : ptr * ptr) K K' : mov (g := g) st st' -> moved g (the_prog (@rei_b64_enc48_step H d charset st K)) (the_prog (@rei_b64_enc48_step H' d' charset st' K')).
Proof. let R := fresh in intro R; unmov R st st'. unfold rei_b64_enc48_step, Base64.enc48_step. repeat mvd1. Qed.
#[export] Hint Extern 1 (moved _ (the_prog (rei_b64_enc48_step _ _ _)) _) => apply mvd_b64_enc48_step; mvd_rel : mvd.
Lemma mvd_b64_enc24_step {g : nat -> nat} {H H' : Prop} {d d' : nat} (charset : list Z) (st st' : ptr * ptr) K K' : mov (g := g) st st' -> moved g (the_prog (@rei_b64_enc24_step H d charset st K)) (the_prog (@rei_b64_enc24_step H' d' charset st' K')).
Proof. let R := fresh in intro R; unmov R st st'. unfold rei_b64_enc24_step, Base64.enc24_step. repeat mvd1. Qed.
#[export] Hint Extern 1 (moved _ (the_prog (rei_b64_enc24_step _ _ _)) _) => apply mvd_b64_enc24_step; mvd_rel : mvd.
Lemma mvd_b64_encode_fallback {g : nat -> nat} {H H' : Prop} {d d' : nat} (src : ptr) (len : nat) (dst : ptr) (config : Base64.b64_config) K K' : moved g (the_prog (@rei_b64_encode_fallback H d src len dst config K)) (the_prog (@rei_b64_encode_fallback H' d' (place g src) len (place g dst) config K')).
Proof. unfold rei_b64_encode_fallback, Base64.b64_encode_fallback. repeat mvd1. Qed.
#[export] Hint Extern 1 (moved _ (the_prog (rei_b64_encode_fallback _ _ _ _ _)) _) => apply mvd_b64_encode_fallback : mvd.
Lemma mvd_b64_encode_simd {g : nat -> nat} {H H' : Prop} {d d' : nat} (s : Isa.isa) (src : ptr) (len : nat) (dst : ptr) (config : Base64.b64_config) K K' : moved g (the_prog (@rei_b64_encode_simd H d s src len dst config K)) (the_prog (@rei_b64_encode_simd H' d' s (place g src) len (place g dst) config K')).
Proof. unfold rei_b64_encode_simd, Base64.b64_encode_simd. repeat mvd1. Qed.
#[export] Hint Extern 1 (moved _ (the_prog (rei_b64_encode_simd _ _ _ _ _ _)) _) => apply mvd_b64_encode_simd : mvd.
Lemma mvd_b64_encode_impl {g : nat -> nat} {H H' : Prop} {d d' : nat} (s : Isa.isa) (src : ptr) (len : nat) (dst : ptr) (config : Base64.b64_config) K K' : moved g (the_prog (@rei_b64_encode_impl H d s src len dst config K)) (the_prog (@rei_b64_encode_impl H' d' s (place g src) len (place g dst) config K')).
Proof. unfold rei_b64_encode_impl, Base64.b64_encode_impl. destruct s; repeat mvd1. Qed.
#[export] Hint Extern 1 (moved _ (the_prog (rei_b64_encode_impl _ _ _ _ _ _)) _) => apply mvd_b64_encode_impl : mvd.
Lemma mvd_b64_encode {g : nat -> nat} {H H' : Prop} {d d' : nat} (s : Isa.isa) (config : Base64.b64_config) (src : ptr) (slen : nat) (dst : ptr) (dlen : nat) K K' : moved g (the_prog (@rei_b64_encode H d s config src slen dst dlen K)) (the_prog (@rei_b64_encode H' d' s config (place g src) slen (place g dst) dlen K')).
Proof. unfold rei_b64_encode, Base64.b64_encode. repeat mvd1. Qed.
#[export] Hint Extern 1 (moved _ (the_prog (rei_b64_encode _ _ _ _ _ _ _)) _) => apply mvd_b64_encode : mvd.
Lemma mvd_b64_count_pad {g : nat -> nat} {H H' : Prop} {P P' : nat -> Prop} (src : ptr) (len : nat) : moved g (the_prog (@rei_b64_count_pad H P src len)) (the_prog (@rei_b64_count_pad H' P' (place g src) len)).
Proof. unfold rei_b64_count_pad, Base64.b64_count_pad. repeat mvd1. Qed.
#[export] Hint Extern 1 (moved _ (the_prog (rei_b64_count_pad _ _)) _) => apply mvd_b64_count_pad : mvd.
Lemma mvd_b64_decoded_length {g : nat -> nat} {H H' : Prop} {P P' : nat -> Prop} (src : ptr) (len : nat) (config : Base64.b64_config) : moved g (the_prog (@rei_b64_decoded_length H P src len config)) (the_prog (@rei_b64_decoded_length H' P' (place g src) len config)).
Proof. unfold rei_b64_decoded_length, Base64.b64_decoded_length. repeat mvd1. Qed.
#[export] Hint Extern 1 (moved _ (the_prog (rei_b64_decoded_length _ _ _)) _) => apply mvd_b64_decoded_length : mvd.
Lemma mvd_b64_decode_ascii8_w {g : nat -> nat} {H H' : Prop} {d d' : nat} (en : Ints.endian) (src : ptr) (dst : ptr) (table : list Z) K K' : moved g (the_prog (@rei_b64_decode_ascii8_w H d en src dst table K)) (the_prog (@rei_b64_decode_ascii8_w H' d' en (place g src) (place g dst) table K')).
Proof. unfold rei_b64_decode_ascii8_w, Base64.b64_decode_ascii8. repeat mvd1. Qed.
#[export] Hint Extern 1 (moved _ (the_prog (rei_b64_decode_ascii8_w _ _ _ _ _)) _) => apply mvd_b64_decode_ascii8_w : mvd.
Lemma mvd_b64_decode_ascii8_c {g : nat -> nat} {H H' : Prop} {P P' : nat -> Prop} (en : Ints.endian) (src : ptr) (dst : ptr) (table : list Z) : moved g (the_prog (@rei_b64_decode_ascii8_c H P en src dst table)) (the_prog (@rei_b64_decode_ascii8_c H' P' en (place g src) (place g dst) table)).
Proof. unfold rei_b64_decode_ascii8_c, Base64.b64_decode_ascii8. repeat mvd1. Qed.
#[export] Hint Extern 1 (moved _ (the_prog (rei_b64_decode_ascii8_c _ _ _ _)) _) => apply mvd_b64_decode_ascii8_c : mvd.
Lemma mvd_b64_decode_ascii4_w {g : nat -> nat} {H H' : Prop} {d d' : nat} (src : ptr) (dst : ptr) (table : list Z) K K' : moved g (the_prog (@rei_b64_decode_ascii4_w H d src dst table K)) (the_prog (@rei_b64_decode_ascii4_w H' d' (place g src) (place g dst) table K')).
Proof. unfold rei_b64_decode_ascii4_w, Base64.b64_decode_ascii4. repeat mvd1. Qed.
#[export] Hint Extern 1 (moved _ (the_prog (rei_b64_decode_ascii4_w _ _ _ _)) _) => apply mvd_b64_decode_ascii4_w : mvd.
Lemma mvd_b64_decode_ascii4_c {g : nat -> nat} {H H' : Prop} {P P' : nat -> Prop} (src : ptr) (dst : ptr) (table : list Z) : moved g (the_prog (@rei_b64_decode_ascii4_c H P src dst table)) (the_prog (@rei_b64_decode_ascii4_c H' P' (place g src) (place g dst) table)).
Proof. unfold rei_b64_decode_ascii4_c, Base64.b64_decode_ascii4. repeat mvd1. Qed.
#[export] Hint Extern 1 (moved _ (the_prog (rei_b64_decode_ascii4_c _ _ _)) _) => apply mvd_b64_decode_ascii4_c : mvd.
Lemma mvd_b64_decode_extra_w {g : nat -> nat} {H H' : Prop} {d d' : nat} (extra : nat) (src : ptr) (dst : ptr) (table : list Z) (forgiving : bool) K K' : moved g (the_prog (@rei_b64_decode_extra_w H d extra src dst table forgiving K)) (the_prog (@rei_b64_decode_extra_w H' d' extra (place g src) (place g dst) table forgiving K')).
Proof. unfold rei_b64_decode_extra_w, Base64.b64_decode_extra. repeat mvd1. Qed.
#[export] Hint Extern 1 (moved _ (the_prog (rei_b64_decode_extra_w _ _ _ _ _ _)) _) => apply mvd_b64_decode_extra_w : mvd.
Lemma mvd_b64_decode_extra_c {g : nat -> nat} {H H' : Prop} {P P' : nat -> Prop} (extra : nat) (src : ptr) (dst : ptr) (table : list Z) (forgiving : bool) : moved g (the_prog (@rei_b64_decode_extra_c H P extra src dst table forgiving)) (the_prog (@rei_b64_decode_extra_c H' P' extra (place g src) (place g dst) table forgiving)).
Proof. unfold rei_b64_decode_extra_c, Base64.b64_decode_extra. repeat mvd1. Qed.
#[export] Hint Extern 1 (moved _ (the_prog (rei_b64_decode_extra_c _ _ _ _ _)) _) => apply mvd_b64_decode_extra_c : mvd.
Lemma mvd_b64_decode_fallback {g : nat -> nat} {H H' : Prop} {d d' : nat} (en : Ints.endian) (src : ptr) (dst : ptr) (n : nat) (config : Base64.b64_config) K K' : moved g (the_prog (@rei_b64_decode_fallback H d en src dst n config K)) (the_prog (@rei_b64_decode_fallback H' d' en (place g src) (place g dst) n config K')).
Proof. unfold rei_b64_decode_fallback, Base64.b64_decode_fallback. repeat mvd1. Qed.
#[export] Hint Extern 1 (moved _ (the_prog (rei_b64_decode_fallback _ _ _ _ _ _)) _) => apply mvd_b64_decode_fallback : mvd.
Lemma mvd_b64_decode_simd {g : nat -> nat} {H H' : Prop} {d d' : nat} (en : Ints.endian) (s : Isa.isa) (src : ptr) (dst : ptr) (n : nat) (config : Base64.b64_config) K K' : moved g (the_prog (@rei_b64_decode_simd H d en s src dst n config K)) (the_prog (@rei_b64_decode_simd H' d' en s (place g src) (place g dst) n config K')).
Proof. unfold rei_b64_decode_simd, Base64.b64_decode_simd. repeat mvd1. Qed.
#[export] Hint Extern 1 (moved _ (the_prog (rei_b64_decode_simd _ _ _ _ _ _ _)) _) => apply mvd_b64_decode_simd : mvd.
Lemma mvd_b64_decode_impl {g : nat -> nat} {H H' : Prop} {d d' : nat} (en : Ints.endian) (s : Isa.isa) (src : ptr) (dst : ptr) (n : nat) (config : Base64.b64_config) K K' : moved g (the_prog (@rei_b64_decode_impl H d en s src dst n config K)) (the_prog (@rei_b64_decode_impl H' d' en s (place g src) (place g dst) n config K')).
Proof. unfold rei_b64_decode_impl, Base64.b64_decode_impl. destruct s; repeat mvd1. Qed.
#[export] Hint Extern 1 (moved _ (the_prog (rei_b64_decode_impl _ _ _ _ _ _ _)) _) => apply mvd_b64_decode_impl : mvd.
Lemma mvd_b64_decode {g : nat -> nat} {H H' : Prop} {d d' : nat} (en : Ints.endian) (s : Isa.isa) (config : Base64.b64_config) (src : ptr) (slen : nat) (dst : ptr) (dlen : nat) K K' : moved g (the_prog (@rei_b64_decode H d en s config src slen dst dlen K)) (the_prog (@rei_b64_decode H' d' en s config (place g src) slen (place g dst) dlen K')).
Proof. unfold rei_b64_decode, Base64.b64_decode. repeat mvd1. Qed.
#[export] Hint Extern 1 (moved _ (the_prog (rei_b64_decode _ _ _ _ _ _ _ _)) _) => apply mvd_b64_decode : mvd.
Lemma mvd_b64_decode_inplace {g : nat -> nat} {H H' : Prop} {d d' : nat} (en : Ints.endian) (s : Isa.isa) (config : Base64.b64_config) (data : ptr) (len : nat) K K' : moved g (the_prog (@rei_b64_decode_inplace H d en s config data len K)) (the_prog (@rei_b64_decode_inplace H' d' en s config (place g data) len K')).
Proof. unfold rei_b64_decode_inplace, Base64.b64_decode_inplace. repeat mvd1. Qed.
#[export] Hint Extern 1 (moved _ (the_prog (rei_b64_decode_inplace _ _ _ _ _ _)) _) => apply mvd_b64_decode_inplace : mvd.
Lemma mvd_b64_check_fallback {g : nat -> nat} {H H' : Prop} {P P' : nat -> Prop} (en : Ints.endian) (src : ptr) (n : nat) (config : Base64.b64_config) : moved g (the_prog (@rei_b64_check_fallback H P en src n config)) (the_prog (@rei_b64_check_fallback H' P' en (place g src) n config)).
Proof. unfold rei_b64_check_fallback, Base64.b64_check_fallback. repeat mvd1. Qed.
#[export] Hint Extern 1 (moved _ (the_prog (rei_b64_check_fallback _ _ _ _)) _) => apply mvd_b64_check_fallback : mvd.
Lemma mvd_b64_check_simd {g : nat -> nat} {H H' : Prop} {P P' : nat -> Prop} (en : Ints.endian) (s : Isa.isa) (src : ptr) (n : nat) (config : Base64.b64_config) : moved g (the_prog (@rei_b64_check_simd H P en s src n config)) (the_prog (@rei_b64_check_simd H' P' en s (place g src) n config)).
Proof. unfold rei_b64_check_simd, Base64.b64_check_simd. repeat mvd1. Qed.
#[export] Hint Extern 1 (moved _ (the_prog (rei_b64_check_simd _ _ _ _ _)) _) => apply mvd_b64_check_simd : mvd.
Lemma mvd_b64_check_impl {g : nat -> nat} {H H' : Prop} {P P' : nat -> Prop} (en : Ints.endian) (s : Isa.isa) (src : ptr) (n : nat) (config : Base64.b64_config) : moved g (the_prog (@rei_b64_check_impl H P en s src n config)) (the_prog (@rei_b64_check_impl H' P' en s (place g src) n config)).
Proof. unfold rei_b64_check_impl, Base64.b64_check_impl. destruct s; repeat mvd1. Qed.
#[export] Hint Extern 1 (moved _ (the_prog (rei_b64_check_impl _ _ _ _ _)) _) => apply mvd_b64_check_impl : mvd.
Lemma mvd_b64_check {g : nat -> nat} {H H' : Prop} {P P' : nat -> Prop} (en : Ints.endian) (s : Isa.isa) (config : Base64.b64_config) (data : ptr) (len : nat) : moved g (the_prog (@rei_b64_check H P en s config data len)) (the_prog (@rei_b64_check H' P' en s config (place g data) len)).
Proof. unfold rei_b64_check, Base64.b64_check. repeat mvd1. Qed.
#[export] Hint Extern 1 (moved _ (the_prog (rei_b64_check _ _ _ _ _)) _) => apply mvd_b64_check : mvd.
Lemma mvd_b32_encode_bits {g : nat -> nat} {H H' : Prop} {d d' : nat} (N : nat) (dst : ptr) (charset : list Z) (x : Z) K K' : moved g (the_prog (@rei_b32_encode_bits H d N dst charset x K)) (the_prog (@rei_b32_encode_bits H' d' N (place g dst) charset x K')).
Proof. unfold rei_b32_encode_bits, Base32.encode_bits. repeat mvd1. Qed.
#[export] Hint Extern 1 (moved _ (the_prog (rei_b32_encode_bits _ _ _ _ _)) _) => apply mvd_b32_encode_bits : mvd.
Lemma mvd_b32_read_be_bytes {g : nat -> nat} {H H' : Prop} {P P' : nat -> Prop} (t : Base32.target) (N : nat) (src : ptr) : moved g (the_prog (@rei_b32_read_be_bytes H P t N src)) (the_prog (@rei_b32_read_be_bytes H' P' t N (place g src))).
Proof. unfold rei_b32_read_be_bytes, Base32.read_be_bytes. repeat mvd1. Qed.
#[export] Hint Extern 1 (moved _ (the_prog (rei_b32_read_be_bytes _ _ _)) _) => apply mvd_b32_read_be_bytes : mvd.
Lemma mvd_b32_pad {g : nat -> nat} {H H' : Prop} {d d' : nat} (padding : bool) (dst : ptr) (N : nat) K K' : moved g (the_prog (@rei_b32_pad H d padding dst N K)) (the_prog (@rei_b32_pad H' d' padding (place g dst) N K')).
Proof. unfold rei_b32_pad, Base32.b32_pad. repeat mvd1. Qed.
#[export] Hint Extern 1 (moved _ (the_prog (rei_b32_pad _ _ _ _)) _) => apply mvd_b32_pad : mvd.
Lemma mvd_b32_encode_extra {g : nat -> nat} {H H' : Prop} {d d' : nat} (t : Base32.target) (src : ptr) (extra : nat) (dst : ptr) (charset : list Z) (padding : bool) K K' : moved g (the_prog (@rei_b32_encode_extra H d t src extra dst charset padding K)) (the_prog (@rei_b32_encode_extra H' d' t (place g src) extra (place g dst) charset padding K')).
Proof. unfold rei_b32_encode_extra, Base32.b32_encode_extra. repeat mvd1. Qed.
#[export] Hint Extern 1 (moved _ (the_prog (rei_b32_encode_extra _ _ _ _ _ _ _)) _) => apply mvd_b32_encode_extra : mvd.
Lemma mvd_b32_enc40_step {g : nat -> nat} {H H' : Prop} {d d' : nat} (t : Base32.target) (charset : list Z) (st st' : ptr * ptr) K K' : mov (g := g) st st' -> moved g (the_prog (@rei_b32_enc40_step H d t charset st K)) (the_prog (@rei_b32_enc40_step H' d' t charset st' K')).
Proof. let R := fresh in intro R; unmov R st st'. unfold rei_b32_enc40_step, Base32.enc40_step. repeat mvd1. Qed.
#[export] Hint Extern 1 (moved _ (the_prog (rei_b32_enc40_step _ _ _ _)) _) => apply mvd_b32_enc40_step; mvd_rel : mvd.
Lemma mvd_b32_encode_fallback {g : nat -> nat} {H H' : Prop} {d d' : nat} (t : Base32.target) (src : ptr) (len : nat) (dst : ptr) (kind : Base32.b32_kind) (padding : bool) K K' : moved g (the_prog (@rei_b32_encode_fallback H d t src len dst kind padding K)) (the_prog (@rei_b32_encode_fallback H' d' t (place g src) len (place g dst) kind padding K')).
Proof. unfold rei_b32_encode_fallback, Base32.b32_encode_fallback. repeat mvd1. Qed.
#[export] Hint Extern 1 (moved _ (the_prog (rei_b32_encode_fallback _ _ _ _ _ _ _)) _) => apply mvd_b32_encode_fallback : mvd.
Lemma mvd_b32_encode_simd {g : nat -> nat} {H H' : Prop} {d d' : nat} (t : Base32.target) (s : Isa.isa) (src : ptr) (len : nat) (dst : ptr) (kind : Base32.b32_kind) (padding : bool) K K' : moved g (the_prog (@rei_b32_encode_simd H d t s src len dst kind padding K)) (the_prog (@rei_b32_encode_simd H' d' t s (place g src) len (place g dst) kind padding K')).
Proof. unfold rei_b32_encode_simd, Base32.b32_encode_simd. repeat mvd1. Qed.
#[export] Hint Extern 1 (moved _ (the_prog (rei_b32_encode_simd _ _ _ _ _ _ _ _)) _) => apply mvd_b32_encode_simd : mvd.
Lemma mvd_b32_encode_impl {g : nat -> nat} {H H' : Prop} {d d' : nat} (t : Base32.target) (s : Isa.isa) (src : ptr) (len : nat) (dst : ptr) (kind : Base32.b32_kind) (padding : bool) K K' : moved g (the_prog (@rei_b32_encode_impl H d t s src len dst kind padding K)) (the_prog (@rei_b32_encode_impl H' d' t s (place g src) len (place g dst) kind padding K')).
Proof. unfold rei_b32_encode_impl, Base32.b32_encode_impl. destruct s; repeat mvd1. Qed.
#[export] Hint Extern 1 (moved _ (the_prog (rei_b32_encode_impl _ _ _ _ _ _ _ _)) _) => apply mvd_b32_encode_impl : mvd.
Lemma mvd_b32_encode {g : nat -> nat} {H H' : Prop} {d d' : nat} (t : Base32.target) (s : Isa.isa) (config : Base32.b32_config) (src : ptr) (slen : nat) (dst : ptr) (dlen : nat) K K' : moved g (the_prog (@rei_b32_encode H d t s config src slen dst dlen K)) (the_prog (@rei_b32_encode H' d' t s config (place g src) slen (place g dst) dlen K')).
Proof. unfold rei_b32_encode, Base32.b32_encode. repeat mvd1. Qed.
#[export] Hint Extern 1 (moved _ (the_prog (rei_b32_encode _ _ _ _ _ _ _ _)) _) => apply mvd_b32_encode : mvd.
Lemma mvd_b32_decoded_length {g : nat -> nat} {H H' : Prop} {P P' : nat -> Prop} (data : ptr) (len : nat) (padding : bool) : moved g (the_prog (@rei_b32_decoded_length H P data len padding)) (the_prog (@rei_b32_decoded_length H' P' (place g data) len padding)).
Proof. unfold rei_b32_decoded_length, Base32.b32_decoded_length. repeat mvd1. Qed.
#[export] Hint Extern 1 (moved _ (the_prog (rei_b32_decoded_length _ _ _)) _) => apply mvd_b32_decoded_length : mvd.
Lemma mvd_b32_decode_bits {g : nat -> nat} {H H' : Prop} {P P' : nat -> Prop} (N : nat) (src : ptr) (table : list Z) : moved g (the_prog (@rei_b32_decode_bits H P N src table)) (the_prog (@rei_b32_decode_bits H' P' N (place g src) table)).
Proof. unfold rei_b32_decode_bits, Base32.decode_bits. repeat mvd1. Qed.
#[export] Hint Extern 1 (moved _ (the_prog (rei_b32_decode_bits _ _ _)) _) => apply mvd_b32_decode_bits : mvd.
Lemma mvd_b32_write_be_bytes {g : nat -> nat} {H H' : Prop} {d d' : nat} (t : Base32.target) (N : nat) (dst : ptr) (x : Z) K K' : moved g (the_prog (@rei_b32_write_be_bytes H d t N dst x K)) (the_prog (@rei_b32_write_be_bytes H' d' t N (place g dst) x K')).
Proof. unfold rei_b32_write_be_bytes, Base32.write_be_bytes. repeat mvd1. Qed.
#[export] Hint Extern 1 (moved _ (the_prog (rei_b32_write_be_bytes _ _ _ _ _)) _) => apply mvd_b32_write_be_bytes : mvd.
Lemma mvd_b32_decode_arm_w {g : nat -> nat} {H H' : Prop} {d d' : nat} (t : Base32.target) (chars : nat) (spare : nat) (nbytes : nat) (src : ptr) (dst : ptr) (table : list Z) K K' : moved g (the_prog (@rei_b32_decode_arm_w H d t chars spare nbytes src dst table K)) (the_prog (@rei_b32_decode_arm_w H' d' t chars spare nbytes (place g src) (place g dst) table K')).
Proof. unfold rei_b32_decode_arm_w, Base32.decode_arm. repeat mvd1. Qed.
#[export] Hint Extern 1 (moved _ (the_prog (rei_b32_decode_arm_w _ _ _ _ _ _ _ _)) _) => apply mvd_b32_decode_arm_w : mvd.
Lemma mvd_b32_decode_arm_c {g : nat -> nat} {H H' : Prop} {P P' : nat -> Prop} (t : Base32.target) (chars : nat) (spare : nat) (nbytes : nat) (src : ptr) (dst : ptr) (table : list Z) : moved g (the_prog (@rei_b32_decode_arm_c H P t chars spare nbytes src dst table)) (the_prog (@rei_b32_decode_arm_c H' P' t chars spare nbytes (place g src) (place g dst) table)).
Proof. unfold rei_b32_decode_arm_c, Base32.decode_arm. repeat mvd1. Qed.
#[export] Hint Extern 1 (moved _ (the_prog (rei_b32_decode_arm_c _ _ _ _ _ _ _)) _) => apply mvd_b32_decode_arm_c : mvd.
Lemma mvd_b32_decode_extra_w {g : nat -> nat} {H H' : Prop} {d d' : nat} (t : Base32.target) (src : ptr) (extra : nat) (dst : ptr) (table : list Z) K K' : moved g (the_prog (@rei_b32_decode_extra_w H d t src extra dst table K)) (the_prog (@rei_b32_decode_extra_w H' d' t (place g src) extra (place g dst) table K')).
Proof. unfold rei_b32_decode_extra_w, Base32.b32_decode_extra. repeat mvd1. Qed.
#[export] Hint Extern 1 (moved _ (the_prog (rei_b32_decode_extra_w _ _ _ _ _ _)) _) => apply mvd_b32_decode_extra_w : mvd.
Lemma mvd_b32_decode_extra_c {g : nat -> nat} {H H' : Prop} {P P' : nat -> Prop} (t : Base32.target) (src : ptr) (extra : nat) (dst : ptr) (table : list Z) : moved g (the_prog (@rei_b32_decode_extra_c H P t src extra dst table)) (the_prog (@rei_b32_decode_extra_c H' P' t (place g src) extra (place g dst) table)).
Proof. unfold rei_b32_decode_extra_c, Base32.b32_decode_extra. repeat mvd1. Qed.
#[export] Hint Extern 1 (moved _ (the_prog (rei_b32_decode_extra_c _ _ _ _ _)) _) => apply mvd_b32_decode_extra_c : mvd.
Lemma mvd_b32_decode_fallback {g : nat -> nat} {H H' : Prop} {d d' : nat} (t : Base32.target) (src : ptr) (n : nat) (dst : ptr) (kind : Base32.b32_kind) K K' : moved g (the_prog (@rei_b32_decode_fallback H d t src n dst kind K)) (the_prog (@rei_b32_decode_fallback H' d' t (place g src) n (place g dst) kind K')).
Proof. unfold rei_b32_decode_fallback, Base32.b32_decode_fallback. repeat mvd1. Qed.
#[export] Hint Extern 1 (moved _ (the_prog (rei_b32_decode_fallback _ _ _ _ _ _)) _) => apply mvd_b32_decode_fallback : mvd.
Lemma mvd_b32_decode_simd {g : nat -> nat} {H H' : Prop} {d d' : nat} (t : Base32.target) (s : Isa.isa) (src : ptr) (n : nat) (dst : ptr) (kind : Base32.b32_kind) K K' : moved g (the_prog (@rei_b32_decode_simd H d t s src n dst kind K)) (the_prog (@rei_b32_decode_simd H' d' t s (place g src) n (place g dst) kind K')).
Proof. unfold rei_b32_decode_simd, Base32.b32_decode_simd. repeat mvd1. Qed.
#[export] Hint Extern 1 (moved _ (the_prog (rei_b32_decode_simd _ _ _ _ _ _ _)) _) => apply mvd_b32_decode_simd : mvd.
Lemma mvd_b32_decode_impl {g : nat -> nat} {H H' : Prop} {d d' : nat} (t : Base32.target) (s : Isa.isa) (src : ptr) (n : nat) (dst : ptr) (kind : Base32.b32_kind) K K' : moved g (the_prog (@rei_b32_decode_impl H d t s src n dst kind K)) (the_prog (@rei_b32_decode_impl H' d' t s (place g src) n (place g dst) kind K')).
Proof. unfold rei_b32_decode_impl, Base32.b32_decode_impl. destruct s; repeat mvd1. Qed.
#[export] Hint Extern 1 (moved _ (the_prog (rei_b32_decode_impl _ _ _ _ _ _ _)) _) => apply mvd_b32_decode_impl : mvd.
Lemma mvd_b32_decode {g : nat -> nat} {H H' : Prop} {d d' : nat} (t : Base32.target) (s : Isa.isa) (config : Base32.b32_config) (src : ptr) (slen : nat) (dst : ptr) (dlen : nat) K K' : moved g (the_prog (@rei_b32_decode H d t s config src slen dst dlen K)) (the_prog (@rei_b32_decode H' d' t s config (place g src) slen (place g dst) dlen K')).
Proof. unfold rei_b32_decode, Base32.b32_decode. repeat mvd1. Qed.
#[export] Hint Extern 1 (moved _ (the_prog (rei_b32_decode _ _ _ _ _ _ _ _)) _) => apply mvd_b32_decode : mvd.
Lemma mvd_b32_decode_inplace {g : nat -> nat} {H H' : Prop} {d d' : nat} (t : Base32.target) (s : Isa.isa) (config : Base32.b32_config) (data : ptr) (len : nat) K K' : moved g (the_prog (@rei_b32_decode_inplace H d t s config data len K)) (the_prog (@rei_b32_decode_inplace H' d' t s config (place g data) len K')).
Proof. unfold rei_b32_decode_inplace, Base32.b32_decode_inplace. repeat mvd1. Qed.
#[export] Hint Extern 1 (moved _ (the_prog (rei_b32_decode_inplace _ _ _ _ _ _)) _) => apply mvd_b32_decode_inplace : mvd.
Lemma mvd_b32_check_fallback {g : nat -> nat} {H H' : Prop} {P P' : nat -> Prop} (t : Base32.target) (src : ptr) (len : nat) (kind : Base32.b32_kind) : moved g (the_prog (@rei_b32_check_fallback H P t src len kind)) (the_prog (@rei_b32_check_fallback H' P' t (place g src) len kind)).
Proof. unfold rei_b32_check_fallback, Base32.b32_check_fallback. repeat mvd1. Qed.
#[export] Hint Extern 1 (moved _ (the_prog (rei_b32_check_fallback _ _ _ _)) _) => apply mvd_b32_check_fallback : mvd.
Lemma mvd_b32_check_simd {g : nat -> nat} {H H' : Prop} {P P' : nat -> Prop} (t : Base32.target) (s : Isa.isa) (src : ptr) (len : nat) (kind : Base32.b32_kind) : moved g (the_prog (@rei_b32_check_simd H P t s src len kind)) (the_prog (@rei_b32_check_simd H' P' t s (place g src) len kind)).
Proof. unfold rei_b32_check_simd, Base32.b32_check_simd. repeat mvd1. Qed.
#[export] Hint Extern 1 (moved _ (the_prog (rei_b32_check_simd _ _ _ _ _)) _) => apply mvd_b32_check_simd : mvd.
Lemma mvd_b32_check_impl {g : nat -> nat} {H H' : Prop} {P P' : nat -> Prop} (t : Base32.target) (s : Isa.isa) (src : ptr) (len : nat) (kind : Base32.b32_kind) : moved g (the_prog (@rei_b32_check_impl H P t s src len kind)) (the_prog (@rei_b32_check_impl H' P' t s (place g src) len kind)).
Proof. unfold rei_b32_check_impl, Base32.b32_check_impl. destruct s; repeat mvd1. Qed.
#[export] Hint Extern 1 (moved _ (the_prog (rei_b32_check_impl _ _ _ _ _)) _) => apply mvd_b32_check_impl : mvd.
Lemma mvd_b32_check {g : nat -> nat} {H H' : Prop} {P P' : nat -> Prop} (t : Base32.target) (s : Isa.isa) (config : Base32.b32_config) (data : ptr) (len : nat) : moved g (the_prog (@rei_b32_check H P t s config data len)) (the_prog (@rei_b32_check H' P' t s config (place g data) len)).
Proof. unfold rei_b32_check, Base32.b32_check. repeat mvd1. Qed.
#[export] Hint Extern 1 (moved _ (the_prog (rei_b32_check _ _ _ _ _)) _) => apply mvd_b32_check : mvd.
Lemma mvd_b32_decoded_length_api {g : nat -> nat} {H H' : Prop} {P P' : nat -> Prop} (config : Base32.b32_config) (data : ptr) (len : nat) : moved g (the_prog (@rei_b32_decoded_length_api H P config data len)) (the_prog (@rei_b32_decoded_length_api H' P' config (place g data) len)).
Proof. unfold rei_b32_decoded_length_api, Base32.b32_decoded_length_api. repeat mvd1. Qed.
#[export] Hint Extern 1 (moved _ (the_prog (rei_b32_decoded_length_api _ _ _)) _) => apply mvd_b32_decoded_length_api : mvd.
Lemma mvd_uuid_parse_simple_fallback {g : nat -> nat} {H H' : Prop} {d d' : nat} (src : ptr) (dst : ptr) K K' : moved g (the_prog (@rei_uuid_parse_simple_fallback H d src dst K)) (the_prog (@rei_uuid_parse_simple_fallback H' d' (place g src) (place g dst) K')).
Proof. unfold rei_uuid_parse_simple_fallback, Uuid.parse_simple_fallback. repeat mvd1. Qed.
#[export] Hint Extern 1 (moved _ (the_prog (rei_uuid_parse_simple_fallback _ _ _)) _) => apply mvd_uuid_parse_simple_fallback : mvd.
Lemma mvd_uuid_check_hyphens {g : nat -> nat} {H H' : Prop} {P P' : nat -> Prop} (src : ptr) : moved g (the_prog (@rei_uuid_check_hyphens H P src)) (the_prog (@rei_uuid_check_hyphens H' P' (place g src))).
Proof. unfold rei_uuid_check_hyphens, Uuid.check_hyphens. repeat mvd1. Qed.
#[export] Hint Extern 1 (moved _ (the_prog (rei_uuid_check_hyphens _)) _) => apply mvd_uuid_check_hyphens : mvd.
Lemma mvd_uuid_parse_hyphenated_fallback {g : nat -> nat} {H H' : Prop} {d d' : nat} (src : ptr) (dst : ptr) K K' : moved g (the_prog (@rei_uuid_parse_hyphenated_fallback H d src dst K)) (the_prog (@rei_uuid_parse_hyphenated_fallback H' d' (place g src) (place g dst) K')).
Proof. unfold rei_uuid_parse_hyphenated_fallback, Uuid.parse_hyphenated_fallback. repeat mvd1. Qed.
#[export] Hint Extern 1 (moved _ (the_prog (rei_uuid_parse_hyphenated_fallback _ _ _)) _) => apply mvd_uuid_parse_hyphenated_fallback : mvd.
Lemma mvd_uuid_parse_simple_simd_sse2 {g : nat -> nat} {H H' : Prop} {d d' : nat} (s : Isa.isa) (src : ptr) (dst : ptr) K K' : moved g (the_prog (@rei_uuid_parse_simple_simd_sse2 H d s src dst K)) (the_prog (@rei_uuid_parse_simple_simd_sse2 H' d' s (place g src) (place g dst) K')).
Proof. unfold rei_uuid_parse_simple_simd_sse2, Uuid.parse_simple_simd_sse2. repeat mvd1. Qed.
#[export] Hint Extern 1 (moved _ (the_prog (rei_uuid_parse_simple_simd_sse2 _ _ _ _)) _) => apply mvd_uuid_parse_simple_simd_sse2 : mvd.
Lemma mvd_uuid_parse_simple_simd {g : nat -> nat} {H H' : Prop} {d d' : nat} (s : Isa.isa) (src : ptr) (dst : ptr) K K' : moved g (the_prog (@rei_uuid_parse_simple_simd H d s src dst K)) (the_prog (@rei_uuid_parse_simple_simd H' d' s (place g src) (place g dst) K')).
Proof. unfold rei_uuid_parse_simple_simd, Uuid.parse_simple_simd. repeat mvd1. Qed.
#[export] Hint Extern 1 (moved _ (the_prog (rei_uuid_parse_simple_simd _ _ _ _)) _) => apply mvd_uuid_parse_simple_simd : mvd.
Lemma mvd_uuid_parse_hyphenated_simd {g : nat -> nat} {H H' : Prop} {d d' : nat} (s : Isa.isa) (src : ptr) (dst : ptr) K K' : moved g (the_prog (@rei_uuid_parse_hyphenated_simd H d s src dst K)) (the_prog (@rei_uuid_parse_hyphenated_simd H' d' s (place g src) (place g dst) K')).
Proof. unfold rei_uuid_parse_hyphenated_simd, Uuid.parse_hyphenated_simd. repeat mvd1. Qed.
#[export] Hint Extern 1 (moved _ (the_prog (rei_uuid_parse_hyphenated_simd _ _ _ _)) _) => apply mvd_uuid_parse_hyphenated_simd : mvd.
Lemma mvd_uuid_format_simple_fallback {g : nat -> nat} {H H' : Prop} {d d' : nat} (src : ptr) (dst : ptr) (case : Hex.ascii_case) K K' : moved g (the_prog (@rei_uuid_format_simple_fallback H d src dst case K)) (the_prog (@rei_uuid_format_simple_fallback H' d' (place g src) (place g dst) case K')).
Proof. unfold rei_uuid_format_simple_fallback, Uuid.format_simple_fallback. repeat mvd1. Qed.
#[export] Hint Extern 1 (moved _ (the_prog (rei_uuid_format_simple_fallback _ _ _ _)) _) => apply mvd_uuid_format_simple_fallback : mvd.
Lemma mvd_uuid_format_hyphenated_fallback {g : nat -> nat} {H H' : Prop} {d d' : nat} (src : ptr) (dst : ptr) (case : Hex.ascii_case) K K' : moved g (the_prog (@rei_uuid_format_hyphenated_fallback H d src dst case K)) (the_prog (@rei_uuid_format_hyphenated_fallback H' d' (place g src) (place g dst) case K')).
Proof. unfold rei_uuid_format_hyphenated_fallback, Uuid.format_hyphenated_fallback. repeat mvd1. Qed.
#[export] Hint Extern 1 (moved _ (the_prog (rei_uuid_format_hyphenated_fallback _ _ _ _)) _) => apply mvd_uuid_format_hyphenated_fallback : mvd.
Lemma mvd_uuid_format_simple_simd_sse2 {g : nat -> nat} {H H' : Prop} {d d' : nat} (s : Isa.isa) (src : ptr) (dst : ptr) (case : Hex.ascii_case) K K' : moved g (the_prog (@rei_uuid_format_simple_simd_sse2 H d s src dst case K)) (the_prog (@rei_uuid_format_simple_simd_sse2 H' d' s (place g src) (place g dst) case K')).
Proof. unfold rei_uuid_format_simple_simd_sse2, Uuid.format_simple_simd_sse2. repeat mvd1. Qed.
#[export] Hint Extern 1 (moved _ (the_prog (rei_uuid_format_simple_simd_sse2 _ _ _ _ _)) _) => apply mvd_uuid_format_simple_simd_sse2 : mvd.
Lemma mvd_uuid_format_simple_simd {g : nat -> nat} {H H' : Prop} {d d' : nat} (s : Isa.isa) (src : ptr) (dst : ptr) (case : Hex.ascii_case) K K' : moved g (the_prog (@rei_uuid_format_simple_simd H d s src dst case K)) (the_prog (@rei_uuid_format_simple_simd H' d' s (place g src) (place g dst) case K')).
Proof. unfold rei_uuid_format_simple_simd, Uuid.format_simple_simd. repeat mvd1. Qed.
#[export] Hint Extern 1 (moved _ (the_prog (rei_uuid_format_simple_simd _ _ _ _ _)) _) => apply mvd_uuid_format_simple_simd : mvd.
Lemma mvd_uuid_format_hyphenated_simd {g : nat -> nat} {H H' : Prop} {d d' : nat} (s : Isa.isa) (src : ptr) (dst : ptr) (case : Hex.ascii_case) K K' : moved g (the_prog (@rei_uuid_format_hyphenated_simd H d s src dst case K)) (the_prog (@rei_uuid_format_hyphenated_simd H' d' s (place g src) (place g dst) case K')).
Proof. unfold rei_uuid_format_hyphenated_simd, Uuid.format_hyphenated_simd. repeat mvd1. Qed.
#[export] Hint Extern 1 (moved _ (the_prog (rei_uuid_format_hyphenated_simd _ _ _ _ _)) _) => apply mvd_uuid_format_hyphenated_simd : mvd.
Lemma mvd_uuid_parse_simple_impl {g : nat -> nat} {H H' : Prop} {d d' : nat} (s : Isa.isa) (src : ptr) (dst : ptr) K K' : moved g (the_prog (@rei_uuid_parse_simple_impl H d s src dst K)) (the_prog (@rei_uuid_parse_simple_impl H' d' s (place g src) (place g dst) K')).
Proof. unfold rei_uuid_parse_simple_impl, Uuid.parse_simple_impl. destruct s; repeat mvd1. Qed.
#[export] Hint Extern 1 (moved _ (the_prog (rei_uuid_parse_simple_impl _ _ _ _)) _) => apply mvd_uuid_parse_simple_impl : mvd.
Lemma mvd_uuid_parse_hyphenated_impl {g : nat -> nat} {H H' : Prop} {d d' : nat} (s : Isa.isa) (src : ptr) (dst : ptr) K K' : moved g (the_prog (@rei_uuid_parse_hyphenated_impl H d s src dst K)) (the_prog (@rei_uuid_parse_hyphenated_impl H' d' s (place g src) (place g dst) K')).
Proof. unfold rei_uuid_parse_hyphenated_impl, Uuid.parse_hyphenated_impl. destruct s; repeat mvd1. Qed.
#[export] Hint Extern 1 (moved _ (the_prog (rei_uuid_parse_hyphenated_impl _ _ _ _)) _) => apply mvd_uuid_parse_hyphenated_impl : mvd.
Lemma mvd_uuid_format_simple_impl {g : nat -> nat} {H H' : Prop} {d d' : nat} (s : Isa.isa) (src : ptr) (dst : ptr) (case : Hex.ascii_case) K K' : moved g (the_prog (@rei_uuid_format_simple_impl H d s src dst case K)) (the_prog (@rei_uuid_format_simple_impl H' d' s (place g src) (place g dst) case K')).
Proof. unfold rei_uuid_format_simple_impl, Uuid.format_simple_impl. destruct s; repeat mvd1. Qed.
#[export] Hint Extern 1 (moved _ (the_prog (rei_uuid_format_simple_impl _ _ _ _ _)) _) => apply mvd_uuid_format_simple_impl : mvd.
Lemma mvd_uuid_format_hyphenated_impl {g : nat -> nat} {H H' : Prop} {d d' : nat} (s : Isa.isa) (src : ptr) (dst : ptr) (case : Hex.ascii_case) K K' : moved g (the_prog (@rei_uuid_format_hyphenated_impl H d s src dst case K)) (the_prog (@rei_uuid_format_hyphenated_impl H' d' s (place g src) (place g dst) case K')).
Proof. unfold rei_uuid_format_hyphenated_impl, Uuid.format_hyphenated_impl. destruct s; repeat mvd1. Qed.
#[export] Hint Extern 1 (moved _ (the_prog (rei_uuid_format_hyphenated_impl _ _ _ _ _)) _) => apply mvd_uuid_format_hyphenated_impl : mvd.
Lemma mvd_uuid_parse_simple {g : nat -> nat} {H H' : Prop} {d d' : nat} (s : Isa.isa) (src : ptr) (n : nat) (dst : ptr) K K' : moved g (the_prog (@rei_uuid_parse_simple H d s src n dst K)) (the_prog (@rei_uuid_parse_simple H' d' s (place g src) n (place g dst) K')).
Proof. unfold rei_uuid_parse_simple, Uuid.uuid_parse_simple. repeat mvd1. Qed.
#[export] Hint Extern 1 (moved _ (the_prog (rei_uuid_parse_simple _ _ _ _ _)) _) => apply mvd_uuid_parse_simple : mvd.
Lemma mvd_uuid_parse_hyphenated {g : nat -> nat} {H H' : Prop} {d d' : nat} (s : Isa.isa) (src : ptr) (n : nat) (dst : ptr) K K' : moved g (the_prog (@rei_uuid_parse_hyphenated H d s src n dst K)) (the_prog (@rei_uuid_parse_hyphenated H' d' s (place g src) n (place g dst) K')).
Proof. unfold rei_uuid_parse_hyphenated, Uuid.uuid_parse_hyphenated. repeat mvd1. Qed.
#[export] Hint Extern 1 (moved _ (the_prog (rei_uuid_parse_hyphenated _ _ _ _ _)) _) => apply mvd_uuid_parse_hyphenated : mvd.
Lemma mvd_uuid_parse {g : nat -> nat} {H H' : Prop} {d d' : nat} (s1 : Isa.isa) (s2 : Isa.isa) (src : ptr) (n : nat) (dst : ptr) K K' : moved g (the_prog (@rei_uuid_parse H d s1 s2 src n dst K)) (the_prog (@rei_uuid_parse H' d' s1 s2 (place g src) n (place g dst) K')).
Proof. unfold rei_uuid_parse, Uuid.uuid_parse. repeat mvd1. Qed.
#[export] Hint Extern 1 (moved _ (the_prog (rei_uuid_parse _ _ _ _ _ _)) _) => apply mvd_uuid_parse : mvd.
Lemma mvd_uuid_format_simple {g : nat -> nat} {H H' : Prop} {d d' : nat} (s : Isa.isa) (src : ptr) (dst : ptr) (case : Hex.ascii_case) K K' : moved g (the_prog (@rei_uuid_format_simple H d s src dst case K)) (the_prog (@rei_uuid_format_simple H' d' s (place g src) (place g dst) case K')).
Proof. unfold rei_uuid_format_simple, Uuid.uuid_format_simple. repeat mvd1. Qed.
#[export] Hint Extern 1 (moved _ (the_prog (rei_uuid_format_simple _ _ _ _ _)) _) => apply mvd_uuid_format_simple : mvd.
Lemma mvd_uuid_format_hyphenated {g : nat -> nat} {H H' : Prop} {d d' : nat} (s : Isa.isa) (src : ptr) (dst : ptr) (case : Hex.ascii_case) K K' : moved g (the_prog (@rei_uuid_format_hyphenated H d s src dst case K)) (the_prog (@rei_uuid_format_hyphenated H' d' s (place g src) (place g dst) case K')).
Proof. unfold rei_uuid_format_hyphenated, Uuid.uuid_format_hyphenated. repeat mvd1. Qed.
#[export] Hint Extern 1 (moved _ (the_prog (rei_uuid_format_hyphenated _ _ _ _ _)) _) => apply mvd_uuid_format_hyphenated : mvd.
Lemma mvd_uni_is_ascii_fallback {g : nat -> nat} {H H' : Prop} {P P' : nat -> Prop} (src : ptr) (len : nat) : moved g (the_prog (@rei_uni_is_ascii_fallback H P src len)) (the_prog (@rei_uni_is_ascii_fallback H' P' (place g src) len)).
Proof. unfold rei_uni_is_ascii_fallback, Unicode.is_ascii_fallback. repeat mvd1. Qed.
#[export] Hint Extern 1 (moved _ (the_prog (rei_uni_is_ascii_fallback _ _)) _) => apply mvd_uni_is_ascii_fallback : mvd.
Lemma mvd_uni_is_ascii_simd_v256 {g : nat -> nat} {H H' : Prop} {P P' : nat -> Prop} (s : Isa.isa) (src : ptr) (len : nat) : moved g (the_prog (@rei_uni_is_ascii_simd_v256 H P s src len)) (the_prog (@rei_uni_is_ascii_simd_v256 H' P' s (place g src) len)).
Proof. unfold rei_uni_is_ascii_simd_v256, Unicode.is_ascii_simd_v256. repeat mvd1. Qed.
#[export] Hint Extern 1 (moved _ (the_prog (rei_uni_is_ascii_simd_v256 _ _ _)) _) => apply mvd_uni_is_ascii_simd_v256 : mvd.
Lemma mvd_uni_loadu {g : nat -> nat} {H H' : Prop} {P P' : nat -> Prop} (p : ptr) (k : nat) : moved g (the_prog (@rei_uni_loadu H P p k)) (the_prog (@rei_uni_loadu H' P' (place g p) k)).
Proof. unfold rei_uni_loadu, Unicode.loadu. repeat mvd1. Qed.
#[export] Hint Extern 1 (moved _ (the_prog (rei_uni_loadu _ _)) _) => apply mvd_uni_loadu : mvd.
Lemma mvd_uni_check_tiny {g : nat -> nat} {H H' : Prop} {P P' : nat -> Prop} (src : ptr) (len : nat) : moved g (the_prog (@rei_uni_check_tiny H P src len)) (the_prog (@rei_uni_check_tiny H' P' (place g src) len)).
Proof. unfold rei_uni_check_tiny, Unicode.check_tiny. repeat mvd1. Qed.
#[export] Hint Extern 1 (moved _ (the_prog (rei_uni_check_tiny _ _)) _) => apply mvd_uni_check_tiny : mvd.
Lemma mvd_uni_check_short {g : nat -> nat} {H H' : Prop} {P P' : nat -> Prop} (src : ptr) (len : nat) : moved g (the_prog (@rei_uni_check_short H P src len)) (the_prog (@rei_uni_check_short H' P' (place g src) len)).
Proof. unfold rei_uni_check_short, Unicode.check_short. repeat mvd1. Qed.
#[export] Hint Extern 1 (moved _ (the_prog (rei_uni_check_short _ _)) _) => apply mvd_uni_check_short : mvd.
Lemma mvd_uni_or_load {g : nat -> nat} {H H' : Prop} {P P' : nat -> Prop} (x : list Z) (src : ptr) (k : nat) : moved g (the_prog (@rei_uni_or_load H P x src k)) (the_prog (@rei_uni_or_load H' P' x (place g src) k)).
Proof. unfold rei_uni_or_load, Unicode.or_load. repeat mvd1. Qed.
#[export] Hint Extern 1 (moved _ (the_prog (rei_uni_or_load _ _ _)) _) => apply mvd_uni_or_load : mvd.
Lemma mvd_uni_check_medium {g : nat -> nat} {H H' : Prop} {P P' : nat -> Prop} (src : ptr) (len : nat) : moved g (the_prog (@rei_uni_check_medium H P src len)) (the_prog (@rei_uni_check_medium H' P' (place g src) len)).
Proof. unfold rei_uni_check_medium, Unicode.check_medium. repeat mvd1. Qed.
#[export] Hint Extern 1 (moved _ (the_prog (rei_uni_check_medium _ _)) _) => apply mvd_uni_check_medium : mvd.
Lemma mvd_uni_check_long {g : nat -> nat} {H H' : Prop} {P P' : nat -> Prop} (src : ptr) (len : nat) : moved g (the_prog (@rei_uni_check_long H P src len)) (the_prog (@rei_uni_check_long H' P' (place g src) len)).
Proof. unfold rei_uni_check_long, Unicode.check_long. repeat mvd1. Qed.
#[export] Hint Extern 1 (moved _ (the_prog (rei_uni_check_long _ _)) _) => apply mvd_uni_check_long : mvd.
Lemma mvd_uni_is_ascii_sse2 {g : nat -> nat} {H H' : Prop} {P P' : nat -> Prop} (src : ptr) (len : nat) : moved g (the_prog (@rei_uni_is_ascii_sse2 H P src len)) (the_prog (@rei_uni_is_ascii_sse2 H' P' (place g src) len)).
Proof. unfold rei_uni_is_ascii_sse2, Unicode.is_ascii_sse2. repeat mvd1. Qed.
#[export] Hint Extern 1 (moved _ (the_prog (rei_uni_is_ascii_sse2 _ _)) _) => apply mvd_uni_is_ascii_sse2 : mvd.
Lemma mvd_uni_is_ascii_simd {g : nat -> nat} {H H' : Prop} {P P' : nat -> Prop} (x64 : bool) (s : Isa.isa) (src : ptr) (len : nat) : moved g (the_prog (@rei_uni_is_ascii_simd H P x64 s src len)) (the_prog (@rei_uni_is_ascii_simd H' P' x64 s (place g src) len)).
Proof. unfold rei_uni_is_ascii_simd, Unicode.is_ascii_simd. repeat mvd1. Qed.
#[export] Hint Extern 1 (moved _ (the_prog (rei_uni_is_ascii_simd _ _ _ _)) _) => apply mvd_uni_is_ascii_simd : mvd.
Lemma mvd_uni_is_ascii {g : nat -> nat} {H H' : Prop} {P P' : nat -> Prop} (x64 : bool) (s : Isa.isa) (src : ptr) (len : nat) : moved g (the_prog (@rei_uni_is_ascii H P x64 s src len)) (the_prog (@rei_uni_is_ascii H' P' x64 s (place g src) len)).
Proof. unfold rei_uni_is_ascii, Unicode.is_ascii. repeat mvd1. Qed.
#[export] Hint Extern 1 (moved _ (the_prog (rei_uni_is_ascii _ _ _ _)) _) => apply mvd_uni_is_ascii : mvd.
Lemma mvd_uni_from_ascii {g : nat -> nat} {H H' : Prop} {P P' : nat -> Prop} (x64 : bool) (s : Isa.isa) (src : ptr) (len : nat) : moved g (the_prog (@rei_uni_from_ascii H P x64 s src len)) (the_prog (@rei_uni_from_ascii H' P' x64 s (place g src) len)).
Proof. unfold rei_uni_from_ascii, Unicode.from_ascii. repeat mvd1. Qed.
#[export] Hint Extern 1 (moved _ (the_prog (rei_uni_from_ascii _ _ _ _)) _) => apply mvd_uni_from_ascii : mvd.
Lemma mvd_uni_is_utf32le_fallback {g : nat -> nat} {H H' : Prop} {P P' : nat -> Prop} (en : Ints.endian) (src : ptr) (len : nat) : moved g (the_prog (@rei_uni_is_utf32le_fallback H P en src len)) (the_prog (@rei_uni_is_utf32le_fallback H' P' en (place g src) len)).
Proof. unfold rei_uni_is_utf32le_fallback, Unicode.is_utf32le_fallback. repeat mvd1. Qed.
#[export] Hint Extern 1 (moved _ (the_prog (rei_uni_is_utf32le_fallback _ _ _)) _) => apply mvd_uni_is_utf32le_fallback : mvd.
Lemma mvd_uni_is_utf32le_simd {g : nat -> nat} {H H' : Prop} {P P' : nat -> Prop} (en : Ints.endian) (s : Isa.isa) (src : ptr) (len : nat) : moved g (the_prog (@rei_uni_is_utf32le_simd H P en s src len)) (the_prog (@rei_uni_is_utf32le_simd H' P' en s (place g src) len)).
Proof. unfold rei_uni_is_utf32le_simd, Unicode.is_utf32le_simd. repeat mvd1. Qed.
#[export] Hint Extern 1 (moved _ (the_prog (rei_uni_is_utf32le_simd _ _ _ _)) _) => apply mvd_uni_is_utf32le_simd : mvd.
Lemma mvd_uni_is_utf32le {g : nat -> nat} {H H' : Prop} {P P' : nat -> Prop} (en : Ints.endian) (s : Isa.isa) (src : ptr) (len : nat) : moved g (the_prog (@rei_uni_is_utf32le H P en s src len)) (the_prog (@rei_uni_is_utf32le H' P' en s (place g src) len)).
Proof. unfold rei_uni_is_utf32le, Unicode.is_utf32le. repeat mvd1. Qed.
#[export] Hint Extern 1 (moved _ (the_prog (rei_uni_is_utf32le _ _ _ _)) _) => apply mvd_uni_is_utf32le : mvd.
Lemma mvd_uni_bswap_fallback {g : nat -> nat} {H H' : Prop} {d d' : nat} (en : Ints.endian) (t : Unicode.elem) (src : ptr) (len : nat) (dst : ptr) K K' : moved g (the_prog (@rei_uni_bswap_fallback H d en t src len dst K)) (the_prog (@rei_uni_bswap_fallback H' d' en t (place g src) len (place g dst) K')).
Proof. unfold rei_uni_bswap_fallback, Unicode.bswap_fallback. repeat mvd1. Qed.
#[export] Hint Extern 1 (moved _ (the_prog (rei_uni_bswap_fallback _ _ _ _ _ _)) _) => apply mvd_uni_bswap_fallback : mvd.
Lemma mvd_uni_bswap_simd {g : nat -> nat} {H H' : Prop} {d d' : nat} (en : Ints.endian) (t : Unicode.elem) (s : Isa.isa) (src : ptr) (len : nat) (dst : ptr) K K' : moved g (the_prog (@rei_uni_bswap_simd H d en t s src len dst K)) (the_prog (@rei_uni_bswap_simd H' d' en t s (place g src) len (place g dst) K')).
Proof. unfold rei_uni_bswap_simd, Unicode.bswap_simd. repeat mvd1. Qed.
#[export] Hint Extern 1 (moved _ (the_prog (rei_uni_bswap_simd _ _ _ _ _ _ _)) _) => apply mvd_uni_bswap_simd : mvd.
Lemma mvd_uni_swap_endianness {g : nat -> nat} {H H' : Prop} {d d' : nat} (en : Ints.endian) (t : Unicode.elem) (s : Isa.isa) (src : ptr) (len : nat) (dst : ptr) K K' : moved g (the_prog (@rei_uni_swap_endianness H d en t s src len dst K)) (the_prog (@rei_uni_swap_endianness H' d' en t s (place g src) len (place g dst) K')).
Proof. unfold rei_uni_swap_endianness, Unicode.swap_endianness. repeat mvd1. Qed.
#[export] Hint Extern 1 (moved _ (the_prog (rei_uni_swap_endianness _ _ _ _ _ _ _)) _) => apply mvd_uni_swap_endianness : mvd.
Lemma mvd_uni_swap_endianness_inplace {g : nat -> nat} {H H' : Prop} {d d' : nat} (en : Ints.endian) (t : Unicode.elem) (s : Isa.isa) (data : ptr) (len : nat) K K' : moved g (the_prog (@rei_uni_swap_endianness_inplace H d en t s data len K)) (the_prog (@rei_uni_swap_endianness_inplace H' d' en t s (place g data) len K')).
Proof. unfold rei_uni_swap_endianness_inplace, Unicode.swap_endianness_inplace. repeat mvd1. Qed.
#[export] Hint Extern 1 (moved _ (the_prog (rei_uni_swap_endianness_inplace _ _ _ _ _ _)) _) => apply mvd_uni_swap_endianness_inplace : mvd.
Lemma mvd_uni_swap_endianness_to {g : nat -> nat} {H H' : Prop} {d d' : nat} (en : Ints.endian) (t : Unicode.elem) (s : Isa.isa) (src : ptr) (len : nat) (dst : ptr) (dlen : nat) K K' : moved g (the_prog (@rei_uni_swap_endianness_to H d en t s src len dst dlen K)) (the_prog (@rei_uni_swap_endianness_to H' d' en t s (place g src) len (place g dst) dlen K')).
Proof. unfold rei_uni_swap_endianness_to, Unicode.swap_endianness_to. repeat mvd1. Qed.
#[export] Hint Extern 1 (moved _ (the_prog (rei_uni_swap_endianness_to _ _ _ _ _ _ _ _)) _) => apply mvd_uni_swap_endianness_to : mvd.
Lemma mvd_forg_lookup_ascii_whitespace {g : nat -> nat} {H H' : Prop} {P P' : nat -> Prop} (c : Z) : moved g (the_prog (@rei_forg_lookup_ascii_whitespace H P c)) (the_prog (@rei_forg_lookup_ascii_whitespace H' P' c)).
Proof. unfold rei_forg_lookup_ascii_whitespace, Forgiving.lookup_ascii_whitespace. repeat mvd1. Qed.
#[export] Hint Extern 1 (moved _ (the_prog (rei_forg_lookup_ascii_whitespace _)) _) => apply mvd_forg_lookup_ascii_whitespace : mvd.
Lemma mvd_forg_find_non_ascii_whitespace_short {g : nat -> nat} {H H' : Prop} {P P' : nat -> Prop} (src : ptr) (len : nat) : moved g (the_prog (@rei_forg_find_non_ascii_whitespace_short H P src len)) (the_prog (@rei_forg_find_non_ascii_whitespace_short H' P' (place g src) len)).
Proof. unfold rei_forg_find_non_ascii_whitespace_short, Forgiving.find_non_ascii_whitespace_short. repeat mvd1. Qed.
#[export] Hint Extern 1 (moved _ (the_prog (rei_forg_find_non_ascii_whitespace_short _ _)) _) => apply mvd_forg_find_non_ascii_whitespace_short : mvd.
Lemma mvd_forg_find_non_ascii_whitespace_fallback {g : nat -> nat} {H H' : Prop} {P P' : nat -> Prop} (src : ptr) (len : nat) : moved g (the_prog (@rei_forg_find_non_ascii_whitespace_fallback H P src len)) (the_prog (@rei_forg_find_non_ascii_whitespace_fallback H' P' (place g src) len)).
Proof. unfold rei_forg_find_non_ascii_whitespace_fallback, Forgiving.find_non_ascii_whitespace_fallback. repeat mvd1. Qed.
#[export] Hint Extern 1 (moved _ (the_prog (rei_forg_find_non_ascii_whitespace_fallback _ _)) _) => apply mvd_forg_find_non_ascii_whitespace_fallback : mvd.
Lemma mvd_forg_find_loop {g : nat -> nat} {H H' : Prop} {P P' : nat -> Prop} (w : Simd.width) (s : Isa.isa) (fuel : nat) (end_ : ptr) (src : ptr) : moved g (the_prog (@rei_forg_find_loop H P w s fuel end_ src)) (the_prog (@rei_forg_find_loop H' P' w s fuel (place g end_) (place g src))).
Proof. unfold rei_forg_find_loop, Forgiving.find_loop. repeat mvd1. Qed.
#[export] Hint Extern 1 (moved _ (the_prog (rei_forg_find_loop _ _ _ _ _)) _) => apply mvd_forg_find_loop : mvd.
Lemma mvd_forg_find_non_ascii_whitespace_simd {g : nat -> nat} {H H' : Prop} {P P' : nat -> Prop} (s : Isa.isa) (src : ptr) (len : nat) : moved g (the_prog (@rei_forg_find_non_ascii_whitespace_simd H P s src len)) (the_prog (@rei_forg_find_non_ascii_whitespace_simd H' P' s (place g src) len)).
Proof. unfold rei_forg_find_non_ascii_whitespace_simd, Forgiving.find_non_ascii_whitespace_simd. repeat mvd1. Qed.
#[export] Hint Extern 1 (moved _ (the_prog (rei_forg_find_non_ascii_whitespace_simd _ _ _)) _) => apply mvd_forg_find_non_ascii_whitespace_simd : mvd.
Lemma mvd_forg_find_non_ascii_whitespace {g : nat -> nat} {H H' : Prop} {P P' : nat -> Prop} (s : Isa.isa) (src : ptr) (len : nat) : moved g (the_prog (@rei_forg_find_non_ascii_whitespace H P s src len)) (the_prog (@rei_forg_find_non_ascii_whitespace H' P' s (place g src) len)).
Proof. unfold rei_forg_find_non_ascii_whitespace, Forgiving.find_non_ascii_whitespace. destruct s; repeat mvd1. Qed.
#[export] Hint Extern 1 (moved _ (the_prog (rei_forg_find_non_ascii_whitespace _ _ _)) _) => apply mvd_forg_find_non_ascii_whitespace : mvd.
Lemma mvd_forg_remove_ascii_whitespace_fallback {g : nat -> nat} {H H' : Prop} {d d' : nat} (src : ptr) (len : nat) (dst : ptr) K K' : moved g (the_prog (@rei_forg_remove_ascii_whitespace_fallback H d src len dst K)) (the_prog (@rei_forg_remove_ascii_whitespace_fallback H' d' (place g src) len (place g dst) K')).
Proof. unfold rei_forg_remove_ascii_whitespace_fallback, Forgiving.remove_ascii_whitespace_fallback. repeat mvd1. Qed.
#[export] Hint Extern 1 (moved _ (the_prog (rei_forg_remove_ascii_whitespace_fallback _ _ _ _)) _) => apply mvd_forg_remove_ascii_whitespace_fallback : mvd.
Lemma mvd_forg_debug_assert {g : nat -> nat} {H H' : Prop} {P P' : nat -> Prop} (b : bool) : moved g (the_prog (@rei_forg_debug_assert H P b)) (the_prog (@rei_forg_debug_assert H' P' b)).
Proof. unfold rei_forg_debug_assert, Forgiving.debug_assert. repeat mvd1. Qed.
#[export] Hint Extern 1 (moved _ (the_prog (rei_forg_debug_assert _)) _) => apply mvd_forg_debug_assert : mvd.
Lemma mvd_forg_remove_ascii_whitespace_inplace {g : nat -> nat} {H H' : Prop} {d d' : nat} (s : Isa.isa) (data : ptr) (len : nat) K K' : moved g (the_prog (@rei_forg_remove_ascii_whitespace_inplace H d s data len K)) (the_prog (@rei_forg_remove_ascii_whitespace_inplace H' d' s (place g data) len K')).
Proof. unfold rei_forg_remove_ascii_whitespace_inplace, Forgiving.remove_ascii_whitespace_inplace. repeat mvd1. Qed.
#[export] Hint Extern 1 (moved _ (the_prog (rei_forg_remove_ascii_whitespace_inplace _ _ _ _)) _) => apply mvd_forg_remove_ascii_whitespace_inplace : mvd.
Lemma mvd_forg_forgiving_decode_inplace {g : nat -> nat} {H H' : Prop} {d d' : nat} (en : Ints.endian) (s1 : Isa.isa) (s2 : Isa.isa) (data : ptr) (len : nat) K K' : moved g (the_prog (@rei_forg_forgiving_decode_inplace H d en s1 s2 data len K)) (the_prog (@rei_forg_forgiving_decode_inplace H' d' en s1 s2 (place g data) len K')).
Proof. unfold rei_forg_forgiving_decode_inplace, Forgiving.forgiving_decode_inplace. repeat mvd1. Qed.
#[export] Hint Extern 1 (moved _ (the_prog (rei_forg_forgiving_decode_inplace _ _ _ _ _ _)) _) => apply mvd_forg_forgiving_decode_inplace : mvd.
(** [copy_nonoverlapping] must not overlap: two parts of one allocation have to be disjoint. *)
Definition apart (p q : ptr) (n : nat) : Prop := fst p = fst q -> snd p + n <= snd q \/ snd q + n <= snd p.
Lemma mvd_forg_copy_nonoverlapping {g : nat -> nat} {H H' : Prop} {d d' : nat} (src : ptr) (dst : ptr) (n : nat) K K' : apart (place g src) (place g dst) n ->
  moved g (the_prog (@rei_forg_copy_nonoverlapping H d src dst n K)) (the_prog (@rei_forg_copy_nonoverlapping H' d' (place g src) (place g dst) n K')).
Proof.
  intro A. unfold rei_forg_copy_nonoverlapping, Forgiving.copy_nonoverlapping. destruct (_ && _)%bool; [repeat mvd1|].
  assert (E : ((fst (place g src) =? fst (place g dst)) && (snd (place g src) <? snd (place g dst) + n) && (snd (place g dst) <? snd (place g src) + n) = false)%bool).
  { unfold apart in A. destruct (Nat.eqb_spec (fst (place g src)) (fst (place g dst))) as [E|]; [specialize (A E)|reflexivity].
    destruct (Nat.ltb_spec (snd (place g src)) (snd (place g dst) + n)), (Nat.ltb_spec (snd (place g dst)) (snd (place g src) + n)); cbn; lia. }
  rewrite E. repeat mvd1.
Qed.
Lemma mvd_forg_forgiving_decode {g : nat -> nat} {H H' : Prop} {d d' : nat} (en : Ints.endian) (s1 s2 : Isa.isa) (src : ptr) (len : nat) (dst : ptr) (dlen : nat) K K' :
  (len <= dlen -> apart (place g src) (place g dst) len) ->
  moved g (the_prog (@rei_forg_forgiving_decode H d en s1 s2 src len dst dlen K)) (the_prog (@rei_forg_forgiving_decode H' d' en s1 s2 (place g src) len (place g dst) dlen K')).
Proof.
  intro A0. unfold rei_forg_forgiving_decode, Forgiving.forgiving_decode. destruct (negb (len <=? dlen)) eqn:EL; [mvd1|].
  assert (A : apart (place g src) (place g dst) len) by (apply A0, Nat.leb_le, negb_false_iff, EL). clear A0 EL. mvd1; [mvd1|].
  apply (mvd_rei_bind (RA := fun _ _ : unit => (a <=? len) = true)).
  - unfold rei_forg_debug_assert, Forgiving.debug_assert. destruct (a <=? len); constructor. exact eq_refl.
  - intros u u' E. hnf in E. apply Nat.leb_le in E. destruct u, u'. mvd1; [mvd1|]. mvd1; [|repeat mvd1].
    apply mvd_forg_copy_nonoverlapping. intro F. specialize (A F). lia.
Qed.
#[export] Hint Extern 1 (moved _ (the_prog (rei_forg_forgiving_decode _ _ _ _ _ _ _ _)) _) => apply mvd_forg_forgiving_decode : mvd.
