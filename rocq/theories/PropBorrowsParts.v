(** C84, continued: source and destination may be parts of one allocation, as after [split_at_mut] ([borrows_parts], BorrowsParts.v).
    That [copy_nonoverlapping] gets parts that do not overlap is in C85. *)
From Coq Require Import ZArith List Bool Lia.
From Verif Require Import Bytes Mem MemFacts Slices Codec Conc ConcFacts Isa Simd SimdFacts Spec Ints UnicodeSpec Hex Base64 Base64Api Base32 Base32Api Forgiving Uuid UuidFacts Unicode UnicodeFacts
  SwapFacts LaneFacts Utf32Facts ConcApi ConcApiFacts Borrows BorrowsApi BorrowsFacts Rename BorrowsParts BorrowsPartsFacts PropBorrows.
Import ListNotations.
Open Scope nat_scope. Open Scope m_scope. Open Scope borrow_scope.

Theorem C84_parts_hex_encode : forall s case src dlen,
  borrows_parts of_result (fun p n q k ts td => hex_encode_b s case p n q k ts td) (fun p n q k => hex_encode s p n q k case) src dlen.
Proof. intros. apply parts_of_into. now apply C84_hex_encode. Qed.
Print Assumptions C84_parts_hex_encode.
Theorem C84_parts_hex_decode : forall s src dlen, borrows_parts of_result (hex_decode_b s) (hex_decode s) src dlen.
Proof. intros. apply parts_of_into. now apply C84_hex_decode. Qed.
Print Assumptions C84_parts_hex_decode.
Theorem C84_parts_base64_encode : forall s cfg src dlen, b64_isa s -> borrows_parts of_result (b64_encode_b s cfg) (b64_encode s cfg) src dlen.
Proof. intros. apply parts_of_into. now apply C84_base64_encode. Qed.
Print Assumptions C84_parts_base64_encode.
Theorem C84_parts_base64_decode : forall en s cfg src dlen, b64_isa s -> borrows_parts of_result (b64_decode_b en s cfg) (b64_decode en s cfg) src dlen.
Proof. intros. apply parts_of_into. now apply C84_base64_decode. Qed.
Print Assumptions C84_parts_base64_decode.
Theorem C84_parts_forgiving_decode : forall en s1 s2 src dlen, b64_isa s2 ->
  borrows_parts of_result (forgiving_decode_b en s1 s2) (forgiving_decode en s1 s2) src dlen.
Proof. intros. apply parts_of_into. now apply C84_forgiving_decode. Qed.
Print Assumptions C84_parts_forgiving_decode.
Theorem C84_parts_base32_encode : forall t s cfg src dlen, b32_isa s -> borrows_parts of_result (b32_encode_b t s cfg) (b32_encode t s cfg) src dlen.
Proof. intros. apply parts_of_into. now apply C84_base32_encode. Qed.
Print Assumptions C84_parts_base32_encode.
Theorem C84_parts_base32_decode : forall t s cfg src dlen, b32_isa s -> borrows_parts of_result (b32_decode_b t s cfg) (b32_decode t s cfg) src dlen.
Proof. intros. apply parts_of_into. now apply C84_base32_decode. Qed.
Print Assumptions C84_parts_base32_decode.
Theorem C84_parts_uuid_parse : forall s1 s2 src, hyph_isa s2 ->
  borrows_parts of_result (fun p n q _ ts td => uuid_parse_b s1 s2 p n q ts td) (fun p n q _ => uuid_parse s1 s2 p n q) src 16.
Proof. intros. apply parts_of_into. now apply C84_uuid_parse. Qed.
Print Assumptions C84_parts_uuid_parse.
Theorem C84_parts_uuid_parse_simple : forall s src,
  borrows_parts of_result (fun p n q _ ts td => uuid_parse_simple_b s p n q ts td) (fun p n q _ => uuid_parse_simple s p n q) src 16.
Proof. intros. apply parts_of_into. now apply C84_uuid_parse_simple. Qed.
Print Assumptions C84_parts_uuid_parse_simple.
Theorem C84_parts_uuid_parse_hyphenated : forall s src, hyph_isa s ->
  borrows_parts of_result (fun p n q _ ts td => uuid_parse_hyphenated_b s p n q ts td) (fun p n q _ => uuid_parse_hyphenated s p n q) src 16.
Proof. intros. apply parts_of_into. now apply C84_uuid_parse_hyphenated. Qed.
Print Assumptions C84_parts_uuid_parse_hyphenated.
Theorem C84_parts_uuid_format_simple : forall s case src, length src = 16 ->
  borrows_parts Some (fun p _ q _ ts td => uuid_format_simple_b s case p q ts td) (fun p _ q _ => uuid_format_simple s p q case) src 32.
Proof. intros. apply parts_of_into. now apply C84_uuid_format_simple. Qed.
Print Assumptions C84_parts_uuid_format_simple.
Theorem C84_parts_uuid_format_hyphenated : forall s case src, hyph_isa s -> length src = 16 ->
  borrows_parts Some (fun p _ q _ ts td => uuid_format_hyphenated_b s case p q ts td) (fun p _ q _ => uuid_format_hyphenated s p q case) src 36.
Proof. intros. apply parts_of_into. now apply C84_uuid_format_hyphenated. Qed.
Print Assumptions C84_parts_uuid_format_hyphenated.
Theorem C84_parts_swap : forall en t s xs k, swap_isa s -> Forall (uint (esize t)) xs -> length xs <= k ->
  borrows_parts (fun a => Some (fst a, esize t * snd a)) (fun p n q k ts td => swap_b en t s p (n / esize t) q (k / esize t) ts td)
    (fun p n q k => swap_endianness_to en t s p (n / esize t) q (k / esize t)) (arr en (esize t) xs) (esize t * k).
Proof. intros. apply parts_of_into. now apply C84_swap. Qed.
Print Assumptions C84_parts_swap.

(** Where each name is an allocation of its own, these are the runs of Borrows.v. *)
Lemma trun_at_same {A} v (p : prog A) : forall s m, trun_at (fun b => b) v p s m = trun v p s m.
Proof.
  induction p as [a|f|b k IH|q n k IH|q xs k IH]; intros s m; cbn [trun_at trun]; auto; replace (place (fun b => b) q) with q by (now destruct q).
  - destruct (tread _ q n s); [|reflexivity]. destruct (load q n m); auto.
  - destruct (twrite _ q _ s); [|reflexivity]. destruct (store q xs m); auto.
Qed.
Theorem C84_parts_of_one_each : forall A (x : bcode A) s m a s' m', runs_at (fun b => b) x s m a s' m' <-> runs x s m a s' m'.
Proof.
  assert (B : forall x, borrow_at (fun b => b) x = x) by (intros [| |k p t [b o] n]; reflexivity).
  intros A x s m a s' m'. split; induction 1 as [A a s m|A x k s m t s1 a s' m' E _ IH|A X v c k p s m y s1 m1 a s' m' HF E _ IH].
  - constructor.
  - rewrite B in E. econstructor; eauto.
  - rewrite trun_at_same in E. econstructor; eauto.
  - constructor.
  - eapply runs_at_borrow; [rewrite B; exact E|exact IH].
  - eapply runs_at_exec; [exact HF|rewrite trun_at_same; exact E|exact IH].
Qed.
Print Assumptions C84_parts_of_one_each.

(** ** Examples *)
(** "Hi!" and six cells behind it, in one allocation; [split_at_mut] has made two references from [&mut] (tag 0): tag 1 for the first three
    bytes, from which the shared reference 2 was made, and tag 3 for the others *)
Definition split_stacks : borrows :=
  {| stacks := fun b o => if negb (b =? 0) then [] else
       if o <? 3 then [{| i_perm := SharedRO; i_tag := 2; i_call := None |}; unique_item 1; unique_item 0]
       else if o <? 9 then [unique_item 3; unique_item 0] else [];
     fresh := 4; active := [] |}.
Definition split_mem := mem_of [cells [72; 105; 33]%Z ++ uninit 6].
Example C84_parts_run : let g := named 1 0 in
  exists r u s' m', runs_at g (hex_encode_b AVX2 Lower (0, 0) 3 (1, 3) 6 2 3) split_stacks split_mem (r, u) s' m' /\
    returned split_stacks s' (placed g (of_result r)) u /\ may_read s' (0, 0) 3 2 /\ may_write s' (0, 3) 6 3 /\
    (forall i, i < 6 -> nth_error (m' 0) (3 + i) = nth_error (cells [52; 56; 54; 57; 50; 49]%Z) i).
Proof.
  intro g. assert (S : slice split_mem 0 0 [72; 105; 33]%Z).
  { split; [repeat constructor; unfold byte; lia|split; [cbv; lia|reflexivity]]. }
  destruct (C84_parts_hex_encode AVX2 Lower [72; 105; 33]%Z 6 split_mem split_stacks 0 0 0 3 2 3 1 S) as (r & u & s' & m' & R & L & RT & MR & MW & _ & m2 & E & _ & C).
  - cbv. lia.
  - right. left. cbv. lia.
  - discriminate.
  - split; [intros c []|]. intros b o i. cbn [stacks split_stacks fresh]. destruct (negb (b =? 0)); [intros []|]. destruct (o <? 3); [|destruct (o <? 9); [|intros []]];
      cbn [In]; intuition (subst; cbn in *; try lia; try discriminate).
  - cbn. lia.
  - cbn. lia.
  - intros i Hi. cbn in Hi. destruct i as [|[|[|i]]]; [| | |lia]; vm_compute; discriminate.
  - intros i Hi. destruct i as [|[|[|[|[|[|i]]]]]]; [| | | | | |lia]; vm_compute; do 2 eexists; split; reflexivity.
  - exists r, u, s', m'. split; [exact R|]. split; [exact RT|]. split; [exact MR|]. split; [exact MW|]. intros i Hi. rewrite C by exact Hi.
    change (length [72%Z; 105%Z; 33%Z]) with 3 in E.
    assert (E2 : match hex_encode AVX2 (0, 0) 3 (1, 3) 6 Lower (fun y => split_mem (named 1 0 y)) with Ret _ m3 => skipn 3 (m3 1) | _ => [] end
               = cells [52; 56; 54; 57; 50; 49]%Z) by (vm_compute; reflexivity).
    rewrite E in E2. rewrite <- E2. now rewrite nth_error_skipn.
Qed.
(** The byte behind the source is the first one of the destination: the pointer to the source may not read it, the one to the destination may. *)
Definition full_mem := mem_of [cells [72; 105; 33; 0; 0; 0; 0; 0; 0]%Z].
Definition reads_it (p : ptr) := match trun_at (named 1 0) (via2 0 2 1 3) (p_load p 1) split_stacks full_mem with Some (l, _, _) => Some l | None => None end.
Example C84_parts_across : reads_it (0, 3) = None /\ reads_it (1, 3) = Some [0%Z] /\ reads_it (0, 2) = Some [33%Z] /\ reads_it (1, 2) = None.
Proof. repeat split. Qed.
Definition writes_it (p : ptr) := match trun_at (named 1 0) (via2 0 2 1 3) (p_store p [7%Z]) split_stacks full_mem with Some (_, _, m) => Some (m 0) | None => None end.
Example C84_parts_write : writes_it (1, 3) = Some (cells [72; 105; 33; 7; 0; 0; 0; 0; 0]%Z) /\ writes_it (1, 2) = None /\ writes_it (0, 3) = None /\ writes_it (0, 2) = None.
Proof. repeat split. Qed.
(** and a new reference to the four bytes from the last one of the source on can be made from neither pointer *)
Definition makes_it (k : kind) (t : nat) (p : ptr) (n : nat) := match perform (borrow_at (named 1 0) (Retag k false t p n)) split_stacks with Some _ => true | None => false end.
Example C84_parts_retag : makes_it MutRef 3 (1, 3) 6 = true /\ makes_it SharedRef 2 (0, 0) 3 = true /\ makes_it MutRef 3 (1, 2) 4 = false /\
  makes_it SharedRef 2 (0, 2) 4 = false /\ makes_it SharedRef 0 (0, 2) 4 = true.
Proof. repeat split. Qed.
