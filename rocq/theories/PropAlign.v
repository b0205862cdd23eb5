(** Property theorems about alignment and the remaining vsimd helpers (C64, C65). *)
From Coq Require Import ZArith List Bool Lia ZifyNat.
From Verif Require Import Bytes Mem MemFacts Ints Slices Isa Simd Spec Unicode UnicodeFacts SwapFacts Align AlignFacts.
Import ListNotations.
Open Scope list_scope. Open Scope Z_scope. Open Scope m_scope.

(** C64: the typed reads and writes. A slice of u16, u32 or u64 is aligned at its start; then every [read()] and [write()] of the
    loops is aligned too, and the programs are the ones of Unicode.v, which C35, C36 and C37 are about: same result, same memory,
    for every position of the blocks in memory. *)
Theorem C64_is_utf32le_aligned : forall A en s src len m, aligned A src 4 = true ->
  is_utf32le_al A en s src len m = is_utf32le en s src len m.
Proof. exact utf32_al. Qed.
Print Assumptions C64_is_utf32le_aligned.
Theorem C64_swap_endianness_aligned : forall A en t s src len dst m, aligned A src (esize t) = true -> aligned A dst (esize t) = true ->
  swap_endianness_al A en t s src len dst m = swap_endianness en t s src len dst m.
Proof. exact swap_al. Qed.
Print Assumptions C64_swap_endianness_aligned.
(** The condition is needed: on a misaligned pointer the fallback is undefined on the first element. *)
Theorem C64_misaligned_is_undefined : forall A en t src len dst m, aligned A src (esize t) = false -> (0 < len)%nat ->
  (snd src + esize t * len <= List.length (m (fst src)))%nat -> bswap_fallback_al A en t src len dst m = UB.
Proof.
  intros A en t src len dst m H L R. unfold bswap_fallback_al, bind at 1. unfold padd at 1. rewrite (proj2 (Nat.leb_le _ _) R).
  unfold bind at 1. cbn [while_]. replace (plt (fst (src, dst)) (fst src, snd src + esize t * len)%nat) with true.
  - unfold bind, read_al. cbn [fst]. now rewrite H.
  - symmetry. unfold plt. cbn [fst snd]. apply Nat.ltb_lt. destruct t; cbn [esize]; lia.
Qed.
Print Assumptions C64_misaligned_is_undefined.

(** The vector loads and stores: unaligned ones are one access of the full width on every instruction set with vectors (in halves where
    there is no 256-bit access), the aligned ones are the same at aligned addresses, with and without debug assertions. *)
Theorem C64_v128_load : forall A dbg s p m, vector_isa s -> v128_load_unaligned s p m = load p 16 m /\
  (aligned A p 16 = true -> v128_load A dbg s p m = load p 16 m).
Proof. intros A dbg s p m H. split; [now rewrite v128_load_unaligned_eq|now apply v128_load_eq]. Qed.
Print Assumptions C64_v128_load.
Theorem C64_v256_load : forall A dbg s p m, vector_isa s -> v256_load_unaligned s p m = load p 32 m /\
  (aligned A p 32 = true -> v256_load A dbg s p m = load p 32 m).
Proof. intros A dbg s p m H. split; [now apply v256_load_unaligned_eq|now apply v256_load_eq]. Qed.
Print Assumptions C64_v256_load.
Theorem C64_v128_store : forall A dbg s p a m, vector_isa s -> v128_store_unaligned s p a m = store p a m /\
  (aligned A p 16 = true -> v128_store A dbg s p a m = store p a m).
Proof. intros A dbg s p a m H. split; [now rewrite v128_store_unaligned_eq|now apply v128_store_eq]. Qed.
Print Assumptions C64_v128_store.
Theorem C64_v256_store : forall A dbg s p a m, vector_isa s -> List.length a = 32%nat -> same_res (v256_store_unaligned s p a m) (store p a m) /\
  (aligned A p 32 = true -> same_res (v256_store A dbg s p a m) (store p a m)).
Proof. intros A dbg s p a m H L. split; [now apply v256_store_unaligned_eq|intro; now apply v256_store_eq]. Qed.
Print Assumptions C64_v256_store.
(** a misaligned [v128_load] is caught in debug builds on every instruction set *)
Theorem C64_debug_catches : forall A s p m, aligned A p 16 = false -> v128_load A true s p m = Panic.
Proof. intros A s p m H. unfold v128_load, bind, debug_assert_ptr_align. now rewrite H. Qed.
Print Assumptions C64_debug_catches.

(** Example: a block at address 4100, elements at 4104. *)
Definition at4100 : addresses := fun b => 4100.
Example C64_meets : aligned at4100 (0, 4)%nat 4 = true /\ aligned at4100 (0, 4)%nat 8 = true /\ aligned at4100 (0, 2)%nat 4 = false.
Proof. repeat split; reflexivity. Qed.
Definition two : mem := mem_of [cells [9; 9; 9; 9; 1; 2; 3; 4; 5; 6; 7; 8]; uninit 12].
Example C64_run : match swap_endianness_al at4100 LE U32 SSE41 (0, 4)%nat 2 (1, 4)%nat two with Ret _ m => m 1%nat | _ => [] end
  = uninit 4 ++ cells [4; 3; 2; 1; 8; 7; 6; 5].
Proof. vm_compute. reflexivity. Qed.
Example C64_run_misaligned : swap_endianness_al at4100 LE U32 SSE41 (0, 2)%nat 2 (1, 4)%nat two = UB.
Proof. vm_compute. reflexivity. Qed.

(** C65: [unroll] calls [f] on every element, once and in order, for every positive chunk size; chunk size 0 panics. *)
Theorem C65_unroll : forall T St (slice : list T) n (f : St -> T -> St) st,
  unroll slice n f st = if (n =? 0)%nat then None else Some (fold_left f slice st).
Proof.
  intros T St l n f st. unfold unroll. destruct (n =? 0)%nat; [reflexivity|].
  assert (E := chunks_concat n (List.length l) l). destruct (chunks_exact (List.length l) n l) as [c r]. cbn [fst snd] in E.
  rewrite fold_chunks, <- fold_left_app, E. reflexivity.
Qed.
Print Assumptions C65_unroll.
(** the model of [chunks_exact] meets its documentation: chunks of exactly [n] elements, a shorter remainder *)
Theorem C65_chunks_exact : forall T (l : list T) n, (0 < n)%nat ->
  concat (fst (chunks_exact (List.length l) n l)) ++ snd (chunks_exact (List.length l) n l) = l /\
  Forall (fun c => List.length c = n) (fst (chunks_exact (List.length l) n l)) /\
  (List.length (snd (chunks_exact (List.length l) n l)) < n)%nat.
Proof. intros T l n H. split; [apply chunks_concat|]. now apply chunks_sizes. Qed.
Print Assumptions C65_chunks_exact.
(** the conversions of vector.rs between vectors and their halves are inverse *)
Theorem C65_halves : forall a, List.length a = 32%nat -> from_v128x2 (to_v128x2 a) = a /\
  List.length (fst (to_v128x2 a)) = 16%nat /\ List.length (snd (to_v128x2 a)) = 16%nat.
Proof.
  intros a H. unfold from_v128x2, to_v128x2. cbn [fst snd]. rewrite firstn_skipn, firstn_length, skipn_length. repeat split; lia.
Qed.
Print Assumptions C65_halves.
Theorem C65_join : forall x y, List.length x = 16%nat -> to_v128x2 (from_v128x2 (x, y)) = (x, y) /\ to_v128x2 (vector_x2 x) = (x, x).
Proof.
  intros x y H. unfold from_v128x2, to_v128x2, vector_x2. cbn [fst snd].
  split; rewrite (firstn_app_exact x), (skipn_app_exact x) by exact H; reflexivity.
Qed.
Print Assumptions C65_join.
Theorem C65_join256 : forall x y, List.length x = 32%nat -> to_v256x2 (from_v256x2 (x, y)) = (x, y) /\ to_v256x2 (vector_x2 x) = (x, x).
Proof.
  intros x y H. unfold from_v256x2, to_v256x2, vector_x2. cbn [fst snd].
  split; rewrite (firstn_app_exact x), (skipn_app_exact x) by exact H; reflexivity.
Qed.
Print Assumptions C65_join256.
(** ... and keep every byte where it is *)
Theorem C65_vector_bytes : forall (a b : list Z) n, List.length a = n -> List.length b = n ->
  (forall i, nth_error (from_v128x2 (a, b)) i = if (i <? n)%nat then nth_error a i else nth_error b (i - n)%nat) /\
  (forall i, nth_error (from_v256x2 (a, b)) i = if (i <? n)%nat then nth_error a i else nth_error b (i - n)%nat) /\
  (forall i, (i < 2 * n)%nat -> nth_error (vector_x2 a) i = nth_error a (i mod n)%nat) /\
  (forall i, nth_error (fst (to_v64x2 a)) i = if (i <? 8)%nat then nth_error a i else None) /\
  (forall i, nth_error (snd (to_v64x2 a)) i = nth_error a (8 + i)) /\
  (forall i, nth_error (fst (to_v128x2 a)) i = if (i <? 16)%nat then nth_error a i else None) /\
  (forall i, nth_error (snd (to_v128x2 a)) i = nth_error a (16 + i)) /\
  (forall i, nth_error (fst (to_v256x2 a)) i = if (i <? 32)%nat then nth_error a i else None) /\
  (forall i, nth_error (snd (to_v256x2 a)) i = nth_error a (32 + i)).
Proof.
  intros a b n <- Lb.
  assert (J : forall (x y : list Z) i, nth_error (x ++ y) i = if (i <? List.length x)%nat then nth_error x i else nth_error y (i - List.length x)%nat).
  { intros x y i. destruct (Nat.ltb_spec i (List.length x)); [now apply nth_error_app1|now apply nth_error_app2]. }
  assert (F : forall k (x : list Z) i, nth_error (firstn k x) i = if (i <? k)%nat then nth_error x i else None).
  { induction k as [|k IH]; intros [|y x] [|i]; try reflexivity; cbn [firstn nth_error]; [now destruct (_ <? _)%nat|]. rewrite IH. reflexivity. }
  assert (S : forall k (x : list Z) i, nth_error (skipn k x) i = nth_error x (k + i)).
  { induction k as [|k IH]; intros [|y x] i; try reflexivity; cbn [skipn Nat.add nth_error]; [now destruct i|apply IH]. }
  repeat split; intros; cbn [from_v128x2 from_v256x2 fst snd to_v64x2 to_v128x2 to_v256x2]; try apply J; try apply F; try apply S.
  unfold vector_x2. rewrite J. destruct (Nat.ltb_spec i (List.length a)) as [L|L].
  - now rewrite Nat.mod_small.
  - f_equal. apply (Nat.mod_unique _ _ 1); lia.
Qed.
Print Assumptions C65_vector_bytes.
Theorem C65_to_u64 : forall b0 b1 b2 b3 b4 b5 b6 b7,
  v64_to_u64 LE [b0; b1; b2; b3; b4; b5; b6; b7] =
    b0 + 256 * b1 + 256 ^ 2 * b2 + 256 ^ 3 * b3 + 256 ^ 4 * b4 + 256 ^ 5 * b5 + 256 ^ 6 * b6 + 256 ^ 7 * b7 /\
  v64_to_u64 BE [b0; b1; b2; b3; b4; b5; b6; b7] =
    b7 + 256 * b6 + 256 ^ 2 * b5 + 256 ^ 3 * b4 + 256 ^ 4 * b3 + 256 ^ 5 * b2 + 256 ^ 6 * b1 + 256 ^ 7 * b0.
Proof. intros. unfold v64_to_u64, of_native. unfold of_le, of_be. cbn [rev app fold_left]. split; ring. Qed.
Print Assumptions C65_to_u64.
Example C65_run : unroll [1; 2; 3; 4; 5] 2 (fun st x => st ++ [x]) [] = Some [1; 2; 3; 4; 5] /\ unroll [1] 0 Z.add 0 = None /\
  chunks_exact 5 2 [1; 2; 3; 4; 5] = ([[1; 2]; [3; 4]], [5]).
Proof. repeat split; reflexivity. Qed.
