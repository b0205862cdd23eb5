(** C87, continued: source and destination may be parts of one allocation, as after [split_at_mut] ([tree_parts], TreeParts.v).
    That [copy_nonoverlapping] gets parts that do not overlap is in C85. *)
From Coq Require Import ZArith List Bool Lia.
From Verif Require Import Bytes Mem MemFacts Slices Codec Conc ConcFacts Isa Simd SimdFacts Spec Ints UnicodeSpec Hex Base64 Base64Api Base32 Base32Api Forgiving Uuid UuidFacts Unicode UnicodeFacts
  SwapFacts LaneFacts Utf32Facts ConcApi ConcApiFacts Borrows BorrowsApi BorrowsFacts Rename BorrowsParts TreeBorrows TreeParts TreePartsFacts PropTree.
Import ListNotations.
Open Scope nat_scope. Open Scope m_scope. Open Scope borrow_scope.

Theorem C87_parts_hex_encode : forall s case src dlen,
  tree_parts of_result (fun p n q k ts td => hex_encode_b s case p n q k ts td) (fun p n q k => hex_encode s p n q k case) src dlen.
Proof. intros. apply tree_parts_of; [intros; apply nests_hex_encode|]. now apply C87_hex_encode. Qed.
Print Assumptions C87_parts_hex_encode.
Theorem C87_parts_hex_decode : forall s src dlen, tree_parts of_result (hex_decode_b s) (hex_decode s) src dlen.
Proof. intros. apply tree_parts_of; [intros; apply nests_hex_decode|]. now apply C87_hex_decode. Qed.
Print Assumptions C87_parts_hex_decode.
Theorem C87_parts_base64_encode : forall s cfg src dlen, b64_isa s -> tree_parts of_result (b64_encode_b s cfg) (b64_encode s cfg) src dlen.
Proof. intros. apply tree_parts_of; [intros; apply nests_b64_encode|]. now apply C87_base64_encode. Qed.
Print Assumptions C87_parts_base64_encode.
Theorem C87_parts_base64_decode : forall en s cfg src dlen, b64_isa s -> tree_parts of_result (b64_decode_b en s cfg) (b64_decode en s cfg) src dlen.
Proof. intros. apply tree_parts_of; [intros; apply nests_b64_decode|]. now apply C87_base64_decode. Qed.
Print Assumptions C87_parts_base64_decode.
Theorem C87_parts_forgiving_decode : forall en s1 s2 src dlen, b64_isa s2 ->
  tree_parts of_result (forgiving_decode_b en s1 s2) (forgiving_decode en s1 s2) src dlen.
Proof. intros. apply tree_parts_of; [intros; apply nests_forgiving_decode|]. now apply C87_forgiving_decode. Qed.
Print Assumptions C87_parts_forgiving_decode.
Theorem C87_parts_base32_encode : forall t s cfg src dlen, b32_isa s -> tree_parts of_result (b32_encode_b t s cfg) (b32_encode t s cfg) src dlen.
Proof. intros. apply tree_parts_of; [intros; apply nests_b32_encode|]. now apply C87_base32_encode. Qed.
Print Assumptions C87_parts_base32_encode.
Theorem C87_parts_base32_decode : forall t s cfg src dlen, b32_isa s -> tree_parts of_result (b32_decode_b t s cfg) (b32_decode t s cfg) src dlen.
Proof. intros. apply tree_parts_of; [intros; apply nests_b32_decode|]. now apply C87_base32_decode. Qed.
Print Assumptions C87_parts_base32_decode.
Theorem C87_parts_uuid_parse : forall s1 s2 src, hyph_isa s2 ->
  tree_parts of_result (fun p n q _ ts td => uuid_parse_b s1 s2 p n q ts td) (fun p n q _ => uuid_parse s1 s2 p n q) src 16.
Proof. intros. apply tree_parts_of; [intros; apply nests_uuid_parse|]. now apply C87_uuid_parse. Qed.
Print Assumptions C87_parts_uuid_parse.
Theorem C87_parts_uuid_parse_simple : forall s src,
  tree_parts of_result (fun p n q _ ts td => uuid_parse_simple_b s p n q ts td) (fun p n q _ => uuid_parse_simple s p n q) src 16.
Proof. intros. apply tree_parts_of; [intros; apply nests_uuid_parse_simple|]. now apply C87_uuid_parse_simple. Qed.
Print Assumptions C87_parts_uuid_parse_simple.
Theorem C87_parts_uuid_parse_hyphenated : forall s src, hyph_isa s ->
  tree_parts of_result (fun p n q _ ts td => uuid_parse_hyphenated_b s p n q ts td) (fun p n q _ => uuid_parse_hyphenated s p n q) src 16.
Proof. intros. apply tree_parts_of; [intros; apply nests_uuid_parse_hyphenated|]. now apply C87_uuid_parse_hyphenated. Qed.
Print Assumptions C87_parts_uuid_parse_hyphenated.
Theorem C87_parts_uuid_format_simple : forall s case src, length src = 16 ->
  tree_parts Some (fun p _ q _ ts td => uuid_format_simple_b s case p q ts td) (fun p _ q _ => uuid_format_simple s p q case) src 32.
Proof. intros. apply tree_parts_of; [intros; apply nests_uuid_format_simple|]. now apply C87_uuid_format_simple. Qed.
Print Assumptions C87_parts_uuid_format_simple.
Theorem C87_parts_uuid_format_hyphenated : forall s case src, hyph_isa s -> length src = 16 ->
  tree_parts Some (fun p _ q _ ts td => uuid_format_hyphenated_b s case p q ts td) (fun p _ q _ => uuid_format_hyphenated s p q case) src 36.
Proof. intros. apply tree_parts_of; [intros; apply nests_uuid_format_hyphenated|]. now apply C87_uuid_format_hyphenated. Qed.
Print Assumptions C87_parts_uuid_format_hyphenated.
Theorem C87_parts_swap : forall en t s xs k, swap_isa s -> Forall (uint (esize t)) xs -> length xs <= k ->
  tree_parts (fun a => Some (fst a, esize t * snd a)) (fun p n q k ts td => swap_b en t s p (n / esize t) q (k / esize t) ts td)
    (fun p n q k => swap_endianness_to en t s p (n / esize t) q (k / esize t)) (arr en (esize t) xs) (esize t * k).
Proof. intros. apply tree_parts_of; [intros; apply nests_swap|]. now apply C87_swap. Qed.
Print Assumptions C87_parts_swap.

(** Where each name is an allocation of its own, these are the runs of TreeBorrows.v. *)
Lemma tree_run_at_same {A} v (p : prog A) : forall s m, tree_run_at (fun b => b) v p s m = tree_run v p s m.
Proof.
  induction p as [a|f|b k IH|q n k IH|q xs k IH]; intros s m; cbn [tree_run_at tree_run]; auto; replace (place (fun b => b) q) with q by (now destruct q).
  - destruct (tree_read _ q n s); [|reflexivity]. destruct (load q n m); auto.
  - destruct (tree_write _ q _ s); [|reflexivity]. destruct (store q xs m); auto.
Qed.
Theorem C87_parts_of_one_each : forall A (x : bcode A) s m a s' m', tree_runs_at (fun b => b) x s m a s' m' <-> tree_runs x s m a s' m'.
Proof.
  assert (B : forall x, borrow_at (fun b => b) x = x) by (intros [| |k p t [b o] n]; reflexivity).
  intros A x s m a s' m'. split; induction 1 as [A a s m|A x k s m t s1 a s' m' E _ IH|A X v c k p s m y s1 m1 a s' m' HF E _ IH].
  - constructor.
  - rewrite B in E. econstructor; eauto.
  - rewrite tree_run_at_same in E. econstructor; eauto.
  - constructor.
  - eapply truns_at_borrow; [rewrite B; exact E|exact IH].
  - eapply truns_at_exec; [exact HF|rewrite tree_run_at_same; exact E|exact IH].
Qed.
Print Assumptions C87_parts_of_one_each.

(** ** Examples *)
(** "Hi!" and six cells behind it, in one allocation; [split_at_mut] has made two references from [&mut] (tag 0): tag 1 for the first three
    bytes, from which the shared reference 2 was made, and tag 3 for the others *)
Definition split_trees : trees :=
  {| perms := fun b o u => if negb (b =? 0) then None else
       match u with
       | 0 => if o <? 9 then Some TActive else None
       | 1 => if o <? 3 then Some (TReserved false) else None
       | 2 => if o <? 3 then Some TFrozen else None
       | 3 => if negb (o <? 3) && (o <? 9) then Some (TReserved false) else None
       | _ => None
       end;
     path := fun u => match u with 0 => [0] | 1 => [1; 0] | 2 => [2; 1; 0] | 3 => [3; 0] | _ => [] end;
     tfresh := 4; calls := [] |}.
Lemma split_trees_ok : tree_ok split_trees.
Proof.
  split; [|split; [intros u []|]].
  - intros t Ht. cbn [tfresh split_trees] in Ht. destruct t as [|[|[|[|t]]]]; [| | | |lia]; cbn [path split_trees In tfresh]; (split; [now left|]);
      intros u Hu; repeat (destruct Hu as [<-|Hu]; [cbn [path]; split; [lia|]; split; [intros w Hw; cbn [In] in *; tauto|]; intros w Hw; cbn [In] in *;
        repeat (destruct Hw as [<-|Hw]; [cbn [path In]; tauto|]); destruct Hw|]); destruct Hu.
  - intros b o u Hu. cbn [tfresh split_trees perms] in *. destruct (negb _); [reflexivity|]. destruct u as [|[|[|[|u]]]]; try lia. reflexivity.
Qed.
Definition split_mem := Slices.mem_of [cells [72; 105; 33]%Z ++ uninit 6].
Example C87_parts_run : let g := named 1 0 in
  exists r u s' m', tree_runs_at g (hex_encode_b AVX2 Lower (0, 0) 3 (1, 3) 6 2 3) split_trees split_mem (r, u) s' m' /\
    tree_returned split_trees s' (placed g (of_result r)) u /\ tree_may_read s' (0, 0) 3 2 /\ tree_may_read s' (0, 0) 3 1 /\ tree_may_write s' (0, 3) 6 3 /\
    (forall i, i < 6 -> nth_error (m' 0) (3 + i) = nth_error (cells [52; 56; 54; 57; 50; 49]%Z) i).
Proof.
  intro g. assert (S : slice split_mem 0 0 [72; 105; 33]%Z).
  { split; [repeat constructor; unfold byte; lia|split; [cbv; lia|reflexivity]]. }
  destruct (C87_parts_hex_encode AVX2 Lower [72; 105; 33]%Z 6 split_mem split_trees 0 0 0 3 2 3 1 S) as (r & u & s' & m' & R & L & RT & MR & MW & _ & m2 & E & _ & C).
  - cbv. lia.
  - right. left. cbv. lia.
  - discriminate.
  - exact split_trees_ok.
  - cbn. lia.
  - cbn. lia.
  - intros i Hi. cbn in Hi. destruct i as [|[|[|i]]]; [| | |lia]; vm_compute; discriminate.
  - intros i Hi. destruct i as [|[|[|[|[|[|i]]]]]]; [| | | | | |lia]; vm_compute; discriminate.
  - exists r, u, s', m'. split; [exact R|]. split; [exact RT|].
    split; [apply MR; [cbn; lia|]; intros i Hi; cbn in Hi; destruct i as [|[|[|i]]]; [| | |lia]; vm_compute; discriminate|].
    split; [apply MR; [cbn; lia|]; intros i Hi; cbn in Hi; destruct i as [|[|[|i]]]; [| | |lia]; vm_compute; discriminate|].
    split; [exact MW|]. intros i Hi. rewrite C by exact Hi.
    change (length [72%Z; 105%Z; 33%Z]) with 3 in E.
    assert (E2 : match hex_encode AVX2 (0, 0) 3 (1, 3) 6 Lower (fun y => split_mem (named 1 0 y)) with Ret _ m3 => skipn 3 (m3 1) | _ => [] end
               = cells [52; 56; 54; 57; 50; 49]%Z) by (vm_compute; reflexivity).
    rewrite E in E2. rewrite <- E2. now rewrite nth_error_skipn.
Qed.
(** The byte behind the source is the first one of the destination: the pointer to the source may not read it, the one to the destination may. *)
Definition full_mem := Slices.mem_of [cells [72; 105; 33; 0; 0; 0; 0; 0; 0]%Z].
Definition reads_it (p : ptr) := match tree_run_at (named 1 0) (via2 0 2 1 3) (p_load p 1) split_trees full_mem with Some (l, _, _) => Some l | None => None end.
Example C87_parts_across : reads_it (0, 3) = None /\ reads_it (1, 3) = Some [0%Z] /\ reads_it (0, 2) = Some [33%Z] /\ reads_it (1, 2) = None.
Proof. repeat split. Qed.
Definition writes_it (p : ptr) := match tree_run_at (named 1 0) (via2 0 2 1 3) (p_store p [7%Z]) split_trees full_mem with Some (_, _, m) => Some (m 0) | None => None end.
Example C87_parts_write : writes_it (1, 3) = Some (cells [72; 105; 33; 7; 0; 0; 0; 0; 0]%Z) /\ writes_it (1, 2) = None /\ writes_it (0, 3) = None /\ writes_it (0, 2) = None.
Proof. repeat split. Qed.
(** and a new reference to the four bytes from the last one of the source on can be made from neither pointer *)
Definition makes_it (k : kind) (t : nat) (p : ptr) (n : nat) := match tperform (borrow_at (named 1 0) (Retag k false t p n)) split_trees with Some _ => true | None => false end.
Example C87_parts_retag : makes_it MutRef 3 (1, 3) 6 = true /\ makes_it SharedRef 2 (0, 0) 3 = true /\ makes_it MutRef 3 (1, 2) 4 = false /\
  makes_it SharedRef 2 (0, 2) 4 = false /\ makes_it SharedRef 0 (0, 2) 4 = true.
Proof. repeat split. Qed.
