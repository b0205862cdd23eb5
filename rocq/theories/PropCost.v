(** Property theorems about the number of memory accesses (C77): for every function it is at most linear in the length of the
    text, whatever the bytes are, also when the function fails. An access is one load or one store of the code, of up to 32
    bytes; the one call of [copy_nonoverlapping] counts as one load and one store; reads of the constant tables are not counted.
    The constants are not tight: a loop that steps by several bytes is counted as if it stepped by one. *)
From Coq Require Import ZArith List Bool Lia String.
From Verif Require Import Bytes Mem MemFacts Slices Isa Ints Hex Base64 Base32 Uuid Unicode Forgiving Conc Reify Access CostFacts CostCodecs.
Import ListNotations.
Open Scope list_scope. Open Scope nat_scope. Open Scope m_scope.

(** [c] makes the accesses of a program (Conc.v, [follows]; C76_programs), and there are at most [n], in whatever memory it starts. *)
Definition accesses_at_most {A} (n : nat) (c : M A) : Prop := exists p, follows c p /\ forall m, List.length (trace p m) <= n.
Lemma at_most_reified {A} {SA : Size A} {H : Prop} {P : nat -> Prop} {Q : A -> Prop} {c : M A} {r : reified H P Q c} {L a b n} :
  costs L a b (the_prog r) -> a * S L + b <= n -> accesses_at_most n c.
Proof. intros C E. exists (the_prog r). split; [apply reified_fol|]. intro m. destruct (C m) as [T _]. lia. Qed.

(** C77 *)
Theorem C77_hex : forall s src n dst k,
  (forall case, accesses_at_most (27 * n + 29) (hex_encode s src n dst k case)) /\
  accesses_at_most (27 * n + 31) (hex_decode s src n dst k) /\
  accesses_at_most (27 * n + 31) (hex_decode_inplace s src n) /\
  accesses_at_most (2 * n + 3) (hex_check s src n).
Proof.
  intros. refine (conj (fun case => _) (conj _ (conj _ _))).
  - refine (at_most_reified (@co_hex_encode True (fst dst) s src n dst k case n (fun _ => eq_refl) (le_n n)) _). lia.
  - refine (at_most_reified (@co_hex_decode True (fst dst) s src n dst k n (fun _ => eq_refl) (le_n n)) _). lia.
  - refine (at_most_reified (@co_hex_decode_inplace True (fst src) s src n n (fun _ => eq_refl) (le_n n)) _). lia.
  - refine (at_most_reified (@co_hex_check True (fun _ => True) s src n n (le_n n)) _). lia.
Qed.
Print Assumptions C77_hex.
Theorem C77_base64 : forall en s cfg src n dst k,
  accesses_at_most (54 * n + 76) (b64_encode s cfg src n dst k) /\
  accesses_at_most (19 * n + 24) (b64_decode en s cfg src n dst k) /\
  accesses_at_most (19 * n + 24) (b64_decode_inplace en s cfg src n) /\
  accesses_at_most (13 * n + 16) (b64_check en s cfg src n).
Proof.
  intros. refine (conj _ (conj _ (conj _ _))).
  - refine (at_most_reified (@co_b64_encode True (fst dst) s cfg src n dst k n (fun _ => eq_refl) (le_n n)) _). lia.
  - refine (at_most_reified (@co_b64_decode True (fst dst) en s cfg src n dst k n (fun _ => eq_refl) (le_n n)) _). lia.
  - refine (at_most_reified (@co_b64_decode_inplace True (fst src) en s cfg src n n (fun _ => eq_refl) (le_n n)) _). lia.
  - refine (at_most_reified (@co_b64_check True (fun _ => True) en s cfg src n n (le_n n)) _). lia.
Qed.
Print Assumptions C77_base64.
(** Forgiving decoding, where the accesses do depend on the bytes (C76_forgiving_refuted): no text makes it superlinear. *)
Theorem C77_forgiving : forall en s1 s2 src n dst k,
  accesses_at_most (2 * n + 3) (find_non_ascii_whitespace s1 src n) /\
  accesses_at_most (4 * n + 5) (remove_ascii_whitespace_inplace s1 src n) /\
  accesses_at_most (23 * n + 29) (forgiving_decode_inplace en s1 s2 src n) /\
  accesses_at_most (23 * n + 31) (forgiving_decode en s1 s2 src n dst k).
Proof.
  intros. refine (conj _ (conj _ (conj _ _))).
  - refine (at_most_reified (@co_forg_find_non_ascii_whitespace True (fun _ => True) s1 src n n (le_n n)) _). lia.
  - refine (at_most_reified (@co_forg_remove_ascii_whitespace_inplace True (fst src) s1 src n n (fun _ => eq_refl) (le_n n)) _). lia.
  - refine (at_most_reified (@co_forg_forgiving_decode_inplace True (fst src) en s1 s2 src n n (fun _ => eq_refl) (le_n n)) _). lia.
  - refine (at_most_reified (@co_forg_forgiving_decode True (fst dst) en s1 s2 src n dst k n (fun _ => eq_refl) (le_n n)) _). lia.
Qed.
Print Assumptions C77_forgiving.
Theorem C77_base32 : forall t s cfg src n dst k,
  accesses_at_most (19 * n + 78) (b32_encode t s cfg src n dst k) /\
  accesses_at_most (19 * n + 36) (b32_decode t s cfg src n dst k) /\
  accesses_at_most (19 * n + 36) (b32_decode_inplace t s cfg src n) /\
  accesses_at_most (9 * n + 18) (b32_check t s cfg src n).
Proof.
  intros. refine (conj _ (conj _ (conj _ _))).
  - refine (at_most_reified (@co_b32_encode True (fst dst) t s cfg src n dst k n (fun _ => eq_refl) (le_n n)) _). lia.
  - refine (at_most_reified (@co_b32_decode True (fst dst) t s cfg src n dst k n (fun _ => eq_refl) (le_n n)) _). lia.
  - refine (at_most_reified (@co_b32_decode_inplace True (fst src) t s cfg src n n (fun _ => eq_refl) (le_n n)) _). lia.
  - refine (at_most_reified (@co_b32_check True (fun _ => True) t s cfg src n n (le_n n)) _). lia.
Qed.
Print Assumptions C77_base32.
(** uuid: a constant number *)
Theorem C77_uuid : forall s1 s2 src n dst,
  accesses_at_most 48 (uuid_parse_simple s1 src n dst) /\ accesses_at_most 52 (uuid_parse_hyphenated s1 src n dst) /\
  accesses_at_most 54 (uuid_parse s1 s2 src n dst) /\
  forall case, accesses_at_most 48 (uuid_format_simple s1 src dst case) /\ accesses_at_most 110 (uuid_format_hyphenated s1 src dst case).
Proof.
  intros. refine (conj _ (conj _ (conj _ (fun case => conj _ _)))).
  - refine (at_most_reified (@co_uuid_parse_simple True (fst dst) s1 src n dst n (fun _ => eq_refl) (le_n n)) _). lia.
  - refine (at_most_reified (@co_uuid_parse_hyphenated True (fst dst) s1 src n dst n (fun _ => eq_refl) (le_n n)) _). lia.
  - refine (at_most_reified (@co_uuid_parse True (fst dst) s1 s2 src n dst n (fun _ => eq_refl) (le_n n)) _). lia.
  - refine (at_most_reified (@co_uuid_format_simple True (fst dst) s1 src dst case 0 (fun _ => eq_refl)) _). lia.
  - refine (at_most_reified (@co_uuid_format_hyphenated True (fst dst) s1 src dst case 0 (fun _ => eq_refl)) _). lia.
Qed.
Print Assumptions C77_uuid.
(** unicode; [n] is the number of code units *)
Theorem C77_unicode : forall en x64 t s src n dst k,
  accesses_at_most (2 * n + 6) (is_ascii x64 s src n) /\ accesses_at_most (2 * n + 6) (from_ascii x64 s src n) /\
  accesses_at_most (2 * n + 2) (is_utf32le en s src n) /\
  accesses_at_most (4 * n + 4) (swap_endianness_to en t s src n dst k) /\
  accesses_at_most (4 * n + 4) (swap_endianness_inplace en t s src n).
Proof.
  intros. refine (conj _ (conj _ (conj _ (conj _ _)))).
  - refine (at_most_reified (@co_uni_is_ascii True (fun _ => True) x64 s src n n (le_n n)) _). lia.
  - refine (at_most_reified (@co_uni_from_ascii True (fun _ => True) x64 s src n n (le_n n)) _). lia.
  - refine (at_most_reified (@co_uni_is_utf32le True (fun _ => True) en s src n n (le_n n)) _). lia.
  - refine (at_most_reified (@co_uni_swap_endianness_to True (fst dst) en t s src n dst k n (fun _ => eq_refl) (le_n n)) _). lia.
  - refine (at_most_reified (@co_uni_swap_endianness_inplace True (fst src) en t s src n n (fun _ => eq_refl) (le_n n)) _). lia.
Qed.
Print Assumptions C77_unicode.

(** ** Examples: the number of accesses of actual runs *)
Definition hex_enc (s : isa) (n : nat) := the_prog (@rei_hex_encode True 1 s (0, 0) n (1, 0) (2 * n) Lower (fun _ => eq_refl)).
Example C77_example_hex :
  let count s n := List.length (trace (hex_enc s n) (mem_of [cells (repeat 7%Z n); uninit (2 * n)])) in
  map (count Fallback) [0; 1; 10; 20; 40; 80] = [0; 3; 30; 60; 120; 240] /\
  map (count AVX2) [0; 1; 10; 20; 40; 80] = [0; 3; 30; 14; 27; 8] /\
  map (count SSE2) [0; 1; 10; 20; 40; 80] = [0; 3; 30; 15; 30; 15].
Proof. vm_compute. refine (conj _ (conj _ _)); reflexivity. Qed.
(** forgiving decoding of texts of one letter and white space in turn *)
Definition forg (s : isa) (n : nat) := the_prog (@rei_forg_forgiving_decode_inplace True 0 LE s s (0, 0) n (fun _ => eq_refl)).
Example C77_example_forgiving :
  let count s n := List.length (trace (forg s n) (mem_of [cells (firstn n (List.concat (repeat [65; 32]%Z n)))])) in
  map (count Fallback) [8; 16; 32; 64; 128] = [21; 40; 73; 139; 271] /\
  map (count AVX2) [8; 16; 32; 64; 128] = [21; 41; 74; 140; 239].
Proof. vm_compute. refine (conj _ _); reflexivity. Qed.
