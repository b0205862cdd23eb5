(** C84: the functions of BorrowsApi.v are the modelled functions with borrows added and nothing else changed, in every state and for
    every argument, whether or not the call succeeds. *)
From Coq Require Import ZArith List Bool Lia.
From Verif Require Import Bytes Mem MemFacts Slices Codec Conc Isa Simd Ints Hex Base64 Base32 Forgiving Uuid Unicode Parallel
  Borrows BorrowsApi BorrowsFacts BorrowsHex BorrowsBase64 BorrowsBase32 BorrowsUuid BorrowsUnicode BorrowsForgiving BorrowsPar BorrowsParFacts
  BorrowsExt BorrowsExtFacts.
Import ListNotations.
Open Scope nat_scope. Open Scope m_scope. Open Scope borrow_scope.

(** whatever runs, with its borrows, makes the call of the modelled function with the same result and the same memory *)
Theorem C84_annotated_calls : forall A B (f : A -> B) (x : bcode A) (c : M B) s m a s' m',
  annotates f x c -> runs x s m a s' m' -> c m = Ret (f a) m'.
Proof. intros A B f x c s m a s' m' HA HR. exact (runs_code f x s m a s' m' HR c HA). Qed.
Print Assumptions C84_annotated_calls.

Theorem C84_only_borrows_added :
  (forall s p n t, annotates (fun a => a) (hex_check_b s p n t) (hex_check s p n)) /\
  (forall s case p n q k ts td, annotates fst (hex_encode_b s case p n q k ts td) (hex_encode s p n q k case)) /\
  (forall s p n q k ts td, annotates fst (hex_decode_b s p n q k ts td) (hex_decode s p n q k)) /\
  (forall s p n t, annotates fst (hex_decode_inplace_b s p n t) (hex_decode_inplace s p n)) /\
  (forall en s cfg p n t, annotates (fun a => a) (b64_check_b en s cfg p n t) (b64_check en s cfg p n)) /\
  (forall s cfg p n q k ts td, annotates fst (b64_encode_b s cfg p n q k ts td) (b64_encode s cfg p n q k)) /\
  (forall en s cfg p n q k ts td, annotates fst (b64_decode_b en s cfg p n q k ts td) (b64_decode en s cfg p n q k)) /\
  (forall en s cfg p n t, annotates fst (b64_decode_inplace_b en s cfg p n t) (b64_decode_inplace en s cfg p n)) /\
  (forall en s1 s2 p n q k ts td, annotates fst (forgiving_decode_b en s1 s2 p n q k ts td) (forgiving_decode en s1 s2 p n q k)) /\
  (forall en s1 s2 p n t, annotates fst (forgiving_decode_inplace_b en s1 s2 p n t) (forgiving_decode_inplace en s1 s2 p n)) /\
  (forall P order pl s cfg p n q k ts td, annotates fst (b64_par_encode_b P order pl s cfg p n q k ts td) (b64_par_encode P order s cfg p n q k)) /\
  (forall tg s cfg p n t, annotates (fun a => a) (b32_check_b tg s cfg p n t) (b32_check tg s cfg p n)) /\
  (forall tg s cfg p n q k ts td, annotates fst (b32_encode_b tg s cfg p n q k ts td) (b32_encode tg s cfg p n q k)) /\
  (forall tg s cfg p n q k ts td, annotates fst (b32_decode_b tg s cfg p n q k ts td) (b32_decode tg s cfg p n q k)) /\
  (forall tg s cfg p n t, annotates fst (b32_decode_inplace_b tg s cfg p n t) (b32_decode_inplace tg s cfg p n)) /\
  (forall s p n q ts td, annotates fst (uuid_parse_simple_b s p n q ts td) (uuid_parse_simple s p n q)) /\
  (forall s p n q ts td, annotates fst (uuid_parse_hyphenated_b s p n q ts td) (uuid_parse_hyphenated s p n q)) /\
  (forall s1 s2 p n q ts td, annotates fst (uuid_parse_b s1 s2 p n q ts td) (uuid_parse s1 s2 p n q)) /\
  (forall s case p q ts td, annotates fst (uuid_format_simple_b s case p q ts td) (uuid_format_simple s p q case)) /\
  (forall s case p q ts td, annotates fst (uuid_format_hyphenated_b s case p q ts td) (uuid_format_hyphenated s p q case)) /\
  (forall x64 s p n t, annotates (fun a => a) (is_ascii_b x64 s p n t) (is_ascii x64 s p n)) /\
  (forall x64 s p n t, annotates fst (from_ascii_b x64 s p n t) (from_ascii x64 s p n)) /\
  (forall en s p n t, annotates (fun a => a) (is_utf32le_b en s p n t) (is_utf32le en s p n)) /\
  (forall en t s p n q k ts td, annotates fst (swap_b en t s p n q k ts td) (swap_endianness_to en t s p n q k)).
Proof.
  repeat split; intros.
  - apply hex_check_ann. - apply hex_encode_ann. - apply hex_decode_ann. - apply hex_decode_inplace_ann.
  - apply b64_check_ann. - apply b64_encode_ann. - apply b64_decode_ann. - apply b64_decode_inplace_ann.
  - apply forgiving_ann. - apply forgiving_inplace_ann. - apply par_encode_ann.
  - apply b32_check_ann. - apply b32_encode_ann. - apply b32_decode_ann. - apply b32_decode_inplace_ann.
  - apply uuid_parse_simple_ann. - apply uuid_parse_hyphenated_ann. - apply uuid_parse_ann. - apply uuid_format_simple_ann. - apply uuid_format_hyphenated_ann.
  - apply is_ascii_ann. - apply from_ascii_ann. - apply is_utf32le_ann. - apply swap_ann.
Qed.
Print Assumptions C84_only_borrows_added.
(** [annotates] tells programs apart: leaving the length check out of hex-simd's [decode_inplace] is not only a matter of borrows *)
Example C84_annotates_distinguishes : ~ annotates fst (Return (Ok ((0, 0), 0), 0) : bcode (result (ptr * nat) * nat)) (hex_decode_inplace Fallback (0, 0) 1).
Proof. intro H. specialize (H (fun _ => [Some 48%Z])). vm_compute in H. discriminate H. Qed.
