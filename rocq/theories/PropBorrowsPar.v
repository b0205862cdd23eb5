(** C84 for [par_encode] of base64-simd: it keeps to Rust's aliasing rules (Stacked Borrows, Borrows.v), wherever rayon splits
    the work and whichever order the jobs run in. BorrowsPar.v has the function with the references it makes. *)
From Coq Require Import ZArith List Bool Lia Permutation.
From Verif Require Import Bytes Mem MemFacts Slices Codec Conc ConcFacts Reify Isa Simd Spec Base64 Base64Ref Base64Api Parallel ParallelFacts
  Borrows BorrowsApi BorrowsFacts BorrowsLib BorrowsCalls BorrowsBridge PropBorrows BorrowsPar BorrowsParFacts.
Import ListNotations.
Open Scope nat_scope. Open Scope m_scope. Open Scope borrow_scope.

(** [P]: threads; [pl]: where rayon splits; [order]: the order of the jobs. When the destination is too short on the parallel
    path, the function panics (C15). *)
Theorem C84_base64_par_encode : forall P order pl s cfg src dlen, schedule order -> (forall i, b64_isa (s i)) ->
  (b64_par_sequential P (length src) = true \/ length (b64_rfc cfg src) <= dlen) ->
  borrows_into of_result (b64_par_encode_b P order pl s cfg) (b64_par_encode P order s cfg) src dlen.
Proof. exact par_encode_borrows. Qed.
Print Assumptions C84_base64_par_encode.

(** ** The hypotheses can be met *)
Lemma par_runs P pl cfg src N : bytes src -> length (b64_rfc cfg src) = N -> exists u s' m',
  runs (b64_par_encode_b P (fun n => rev (seq 0 n)) pl (fun _ => AVX2) cfg (0, 0) (length src) (1, 0) N 0 0) owner (mem_of [cells src; uninit N]) (Ok (1, 0, N), u) s' m' /\
  on_top s' (1, 0) N u.
Proof.
  intros B LE. assert (ISA : b64_isa AVX2) by (right; reflexivity). assert (SCH : schedule (fun n => rev (seq 0 n))) by (intro n; apply Permutation_sym, Permutation_rev).
  assert (S : slice (mem_of [cells src; uninit N]) 0 0 src) by now apply slice_whole.
  assert (RM : room (mem_of [cells src; uninit N]) 1 0 N). { unfold room, mem_of, uninit. cbn [nth]. rewrite repeat_length. lia. }
  assert (TOP : forall p n, on_top owner p n 0) by (intros p n i Hi; do 2 eexists; split; reflexivity).
  destruct (C84_base64_par_encode P _ pl (fun _ => AVX2) cfg src N SCH (fun _ => ISA) ltac:(right; lia) _ owner 0 0 1 0 0 0 S RM ltac:(discriminate) owner_ok
    ltac:(cbn; lia) ltac:(cbn; lia) ltac:(intros i Hi; discriminate) (TOP _ _)) as (r & u & s' & m' & R & E & _ & T & _).
  destruct (par_encode_ok P _ (fun _ => AVX2) cfg src SCH (fun _ => ISA) B _ 0 0 1 0 N S RM) as (m1 & E1 & _); [left; discriminate|lia|].
  rewrite E1 in E. injection E as <- <-. rewrite LE in *. exists u, s', m1. split; [exact R|exact (proj2 T)].
Qed.
(** the parallel path: 8192 bytes, two threads, two jobs, the second one first, one split *)
Definition par_src : list Z := repeat 0%Z (Z.to_nat 8192).
Example C84_par_case : exists N u s' m', runs (b64_par_encode_b 2 (fun n => rev (seq 0 n)) (Cut 1 Rest Rest) (fun _ => AVX2) STANDARD (0, 0) (length par_src) (1, 0) N 0 0) owner
    (mem_of [cells par_src; uninit N]) (Ok (1, 0, N), u) s' m' /\ on_top s' (1, 0) N u.
Proof.
  exists (length (b64_rfc STANDARD par_src)). apply (par_runs 2 (Cut 1 Rest Rest) STANDARD par_src); [|reflexivity].
  apply Forall_forall. intros x Hx. apply repeat_spec in Hx. subst. unfold byte. lia.
Qed.
Example C84_par_case_taken : (b64_par_sequential 2 (Z.to_nat 8192), b64_par_jobs 2 (Z.to_nat 8192) (b64_encoded_length_unchecked (Z.to_nat 8192) STANDARD)) = (false, 2).
Proof. vm_compute. reflexivity. Qed.

(** ** The parts, and a wrong way to make them *)
(** the borrows of a piece of code that does nothing else *)
Fixpoint borrow_only {A} (x : bcode A) (s : borrows) : option (A * borrows) :=
  match x with
  | Return a => Some (a, s)
  | Borrow y k => match perform y s with Some (t, s') => borrow_only (k t) s' | None => None end
  | Exec _ _ _ => None
  end.
(** each part's source is read and each part's destination written, in this order: chunks of 3 and 4 bytes *)
Fixpoint use_parts (tags : list (nat * nat)) (n l : nat) (order : list nat) (s : borrows) : bool :=
  match order with
  | [] => true
  | i :: rest =>
      match tread (Some (fst (nth i tags (0, 0)))) (0, i * 3) (chunk_len n 3 i) s with
      | None => false
      | Some s => match twrite (Some (snd (nth i tags (0, 0)))) (1, i * 4) (chunk_len l 4 i) s with
                  | None => false
                  | Some s => use_parts tags n l rest s
                  end
      end
  end.
Definition parts_usable (x : bcode (list (nat * nat))) (n l : nat) (order : list nat) : bool :=
  match borrow_only x owner with Some (tags, s) => use_parts tags n l order s | None => false end.
(** 8 bytes, as 3, 3 and 2: split nowhere, after the first chunk, after the second, after both, and past the end *)
Example C84_parts_usable : forallb (fun pl => forallb (parts_usable (producers_b pl 3 4 (0, 0) 8 (1, 0) 12 0 0) 8 12) [[0; 1; 2]; [2; 1; 0]; [1; 2; 0]; [2; 0; 1; 2; 0]])
  [Rest; Cut 1 Rest Rest; Cut 2 Rest Rest; Cut 1 Rest (Cut 1 Rest Rest); Cut 2 (Cut 1 Rest Rest) Rest; Cut 5 Rest Rest; Cut 0 Rest Rest] = true.
Proof. vm_compute. reflexivity. Qed.
(** [(&mut dst[..mid], &mut dst[mid..])]: the second reference is made through the whole slice, which ends the first *)
Definition split_naive (q : ptr) (mid k t : nat) : bcode (nat * nat) :=
  a <== fn (u <== mut_param q k t ;; reborrow_mut q mid u) ;;
  b <== fn (u <== mut_param q k t ;; reborrow_mut (after q mid) (k - mid) u) ;;
  Return (a, b).
Fixpoint producers_naive (pl : plan) (c3 c4 : nat) (p : ptr) (n : nat) (q : ptr) (k ts td : nat) : bcode (list (nat * nat)) :=
  match pl with
  | Rest => producers_b Rest c3 c4 p n q k ts td
  | Cut i l r =>
      let n1 := Nat.min (i * c3) n in
      let k1 := Nat.min (i * c4) k in
      a <== split_at_b p n1 n ts ;;
      b <== split_naive q k1 k td ;;
      x <== producers_naive l c3 c4 p n1 q k1 (fst a) (fst b) ;;
      y <== producers_naive r c3 c4 (after p n1) (n - n1) (after q k1) (k - k1) (snd a) (snd b) ;;
      Return (x ++ y)
  end.
Theorem C84_naive_split_refuted : exists n l order, forall pl, pl = Cut 1 Rest Rest \/ pl = Cut 2 Rest Rest ->
  parts_usable (producers_b pl 3 4 (0, 0) n (1, 0) l 0 0) n l order = true /\ parts_usable (producers_naive pl 3 4 (0, 0) n (1, 0) l 0 0) n l order = false.
Proof. exists 8, 12, [0; 1; 2]. intros pl [->| ->]; vm_compute; auto. Qed.
Print Assumptions C84_naive_split_refuted.
(** every job with the same reference to the whole destination: the first one ends when the second is made *)
Definition whole_each (l : nat) (t : nat) : bcode (list (nat * nat)) :=
  a <== reborrow_mut (1, 0) l t ;; b <== reborrow_mut (1, 0) l t ;; Return [(0, a); (0, b)].
Example C84_whole_unusable : (parts_usable (whole_each 8 0) 6 8 [1], parts_usable (whole_each 8 0) 6 8 [0]) = (true, false).
Proof. vm_compute. reflexivity. Qed.
