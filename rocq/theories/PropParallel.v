(** Property theorems for [par_encode] (C14, C15). [p] is the number of threads, [order] the order in which the jobs run,
    [s i] the implementation that the dispatcher picks for job [i]. *)
From Coq Require Import ZArith List Bool Lia String Permutation.
From Verif Require Import Bytes Mem MemFacts Slices Codec Isa Simd Spec Base64 Base64Ref Base64Api Parallel ParallelFacts.
Import ListNotations.
Open Scope list_scope. Open Scope nat_scope. Open Scope m_scope.

(** C14 *)
Theorem C14_par_encode : forall p order s cfg src, schedule order -> (forall i, b64_isa (s i)) -> bytes src ->
  encodes (b64_par_encode p order s cfg) src (b64_rfc cfg src).
Proof. exact par_encode_ok. Qed.
Print Assumptions C14_par_encode.
(** the parallel path alone, without the thresholds below which [par_encode] just calls [encode] *)
Theorem C14_parallel_path : forall p order s cfg src, schedule order -> (forall i, b64_isa (s i)) -> 0 < p -> bytes src ->
  encodes (b64_par_path p order s cfg) src (b64_rfc cfg src).
Proof. exact par_path_ok. Qed.
Print Assumptions C14_parallel_path.
(** whenever [par_encode] returns, it returns what [encode] returns and leaves the same bytes *)
Theorem C14_par_encode_as_encode : forall p order s s' cfg src, schedule order -> (forall i, b64_isa (s i)) -> b64_isa s' ->
  agree (b64_par_encode p order s cfg) (b64_encode s' cfg) src.
Proof.
  intros p order s s' cfg src HO Hs Hs' m1 m2 b o d e dlen r1 r2 m1' m2' S1 S2 R1 R2 SEP E1 E2.
  assert (B := proj1 S1). destruct (Nat.lt_ge_cases dlen (length (b64_rfc cfg src))) as [L|L].
  - rewrite (b64_encode_short s' cfg src m2 b o d e dlen S2 L) in E2. injection E2 as <- <-.
    unfold b64_par_encode in E1. destruct (b64_par_sequential p (length src)).
    + rewrite (b64_encode_short (s 0) cfg src m1 b o d e dlen S1 L) in E1. injection E1 as <- <-. split; [reflexivity|discriminate].
    + unfold b64_par_path in E1. cbn zeta in E1. rewrite b64_rfc_len in L by exact B.
      destruct (Nat.ltb_spec dlen (b64_encoded_length_unchecked (length src) cfg)); [discriminate E1|lia].
  - destruct (par_encode_ok p order s cfg src HO Hs B m1 b o d e dlen S1 R1 SEP L) as (n1 & F1 & A1 & _).
    destruct (b64_encode_ok s' cfg src Hs' m2 b o d e dlen S2 R2 SEP L) as (n2 & F2 & A2 & _).
    rewrite E1 in F1. rewrite E2 in F2. injection F1 as -> ->. injection F2 as -> ->. split; [reflexivity|].
    intros n x En Lx Hx. injection En as <-. now rewrite (bytes_at_inj _ _ _ _ _ Hx A1 Lx).
Qed.
Print Assumptions C14_par_encode_as_encode.
(** Jobs do not interfere. Job [i] succeeds in every memory in which its own chunk [x] of the source is readable and its
    own piece [y] of the destination is writable, whatever the rest of memory holds - in particular if everything else is
    uninitialised, when a read elsewhere would be UB, and a write elsewhere would be visible afterwards. Pieces of
    different jobs do not overlap and lie inside the part of the destination that is returned. So no interleaving of the
    jobs has a data race. *)
Theorem C14_jobs_do_not_interfere : forall s cfg src c i n, (forall i, b64_isa (s i)) -> bytes src -> 0 < c ->
  n = b64_encoded_length_unchecked (length src) cfg -> i * (c * 3) < length src ->
  let x := firstn (c * 3) (skipn (i * (c * 3)) src) in let y := b64_rfc cfg x in
  (forall m b o d e, slice m b (o + i * (c * 3)) x -> room m d (e + i * (c * 4)) (length y) ->
     separate b (o + i * (c * 3)) (length x) d (e + i * (c * 4)) (length y) ->
     exists m', b64_par_job s cfg (b, o) (length src) (d, e) c i m = Ret tt m' /\
       bytes_at m' d (e + i * (c * 4)) y /\ only_changed m d (e + i * (c * 4)) (length y) m') /\
  i * (c * 4) + length y <= n /\ length y <= c * 4.
Proof.
  intros s cfg src c i n Hs B C -> Hi x y.
  assert (Hc : i < chunk_count (length src) (c * 3)).
  { destruct (count_spec (length src) (c * 3) ltac:(lia)) as [C1 _]. apply Nat.nle_gt. intro G.
    apply (Nat.mul_le_mono_l _ _ (c * 3)) in G. lia. }
  destruct (piece_bounds cfg c src i _ B C eq_refl Hc) as (B1 & B2 & B3 & B4).
  split; [|split; [exact B4|exact B3]]. intros m b o d e. now apply job_ok.
Qed.
Print Assumptions C14_jobs_do_not_interfere.

(** C15: what happens with a short destination: on the parallel path a panic, not the documented Err. *)
Theorem C15_par_encode_short : forall p order s cfg src m b o d e dlen,
  slice m b o src -> dlen < length (b64_rfc cfg src) ->
  b64_par_encode p order s cfg (b, o) (length src) (d, e) dlen m =
    if b64_par_sequential p (length src) then Ret Err m else Panic.
Proof.
  intros p order s cfg src m b o d e dlen S L. unfold b64_par_encode. destruct (b64_par_sequential p (length src)).
  - now apply (b64_encode_short (s 0) cfg src).
  - unfold b64_par_path. cbn zeta. rewrite b64_rfc_len in L by apply S.
    destruct (Nat.ltb_spec dlen (b64_encoded_length_unchecked (length src) cfg)); [reflexivity|lia].
Qed.
Print Assumptions C15_par_encode_short.
Theorem C15_documented_error_refuted : exists p src, bytes src /\ forall order s cfg,
  ~ rejects_short (b64_par_encode p order s cfg) src (length (b64_rfc cfg src)).
Proof.
  exists 2, (repeat 0%Z (Z.to_nat 8192)). assert (B : bytes (repeat 0%Z (Z.to_nat 8192))).
  { apply Forall_forall. intros x Hx. apply repeat_spec in Hx. subst. unfold byte. lia. }
  split; [exact B|]. intros order s cfg H. set (src := repeat 0%Z (Z.to_nat 8192)) in *.
  assert (L : length src = Z.to_nat 8192) by apply repeat_length.
  assert (S : slice (mem_of [cells src]) 0 0 src) by now apply slice_whole.
  assert (N : 0 < length (b64_rfc cfg src)).
  { rewrite b64_rfc_len by exact B. rewrite L. assert (M := enc_mono_lt cfg (Z.to_nat 8192) 0). lia. }
  specialize (H _ 0 0 1 0 0 S N). rewrite (C15_par_encode_short 2 order s cfg src _ 0 0 1 0 0 S N), L in H.
  assert (Q : b64_par_sequential 2 (Z.to_nat 8192) = false) by (vm_compute; reflexivity). rewrite Q in H. discriminate H.
Qed.
Print Assumptions C15_documented_error_refuted.

(** Non-vacuity *)
Example schedule_rev : schedule (fun n => rev (seq 0 n)).
Proof. intro n. apply Permutation_sym, Permutation_rev. Qed.
Example schedule_id : schedule (seq 0).
Proof. intro n. apply Permutation_refl. Qed.
(** the parallel path is taken, with 4 jobs on 4 threads *)
Example par_taken : (b64_par_sequential 4 (Z.to_nat 16384), b64_par_jobs 4 (Z.to_nat 16384) (b64_encoded_length_unchecked (Z.to_nat 16384) STANDARD))
  = (false, 4).
Proof. vm_compute. reflexivity. Qed.
(** 14 bytes on 3 threads: chunks of 6, 6 and 2 bytes, the last one first, each with another implementation *)
Definition show_out (r : res (result (ptr * nat))) : option (ptr * nat * list cell) :=
  match r with Ret (Ok (p, n)) m => Some (p, n, m 1) | _ => None end.
Example C14_run : show_out (b64_par_path 3 (fun n => rev (seq 0 n)) (fun i => nth i [Fallback; AVX2; SSE41] Fallback) STANDARD
    (0, 0) 14 (1, 0) 21 (mem_of [cells (str "Hello, world!!"%string); uninit 21]))
  = Some ((1, 0), 20, cells (str "SGVsbG8sIHdvcmxkISE="%string) ++ uninit 1).
Proof. vm_compute. reflexivity. Qed.
Example C15_run : b64_par_path 3 (seq 0) (fun _ => Fallback) STANDARD (0, 0) 14 (1, 0) 19 (mem_of [cells (str "Hello, world!!"%string); uninit 19]) = Panic.
Proof. vm_compute. reflexivity. Qed.
