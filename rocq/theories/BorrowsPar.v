(** [par_encode] of base64-simd (Parallel.v) with the references it makes (Borrows.v): /repo/crates/base64-simd/src/parallel.rs.
    rayon (not in the repository) splits the two zipped producers as often as its scheduler likes, at any place between two
    chunks; a part that is not split further is gone through with the iterators [chunks] and [chunks_mut] of core.
    [plan] says where it splits. All parts are made before the first job runs, and a job runs as a whole; the order of
    the jobs is arbitrary. Without the borrows it is the function of Parallel.v. Definitions only. *)
From Coq Require Import ZArith List Bool.
From Verif Require Import Bytes Mem MemFacts Slices Isa Simd Base64 Parallel Conc Borrows BorrowsApi.
Import ListNotations.
Open Scope nat_scope. Open Scope m_scope. Open Scope borrow_scope.

Definition after (p : ptr) (j : nat) : ptr := (fst p, snd p + j).
(** ** The standard library *)
(** [<[T]>::split_at(&self, mid)]: [len], [as_ptr] and twice [from_raw_parts] *)
Definition split_at_b (p : ptr) (mid n t : nat) : bcode (nat * nat) :=
  fn (t <== shared_param p n t ;;
      slice_len p n t ;=;
      r <== as_ptr p n t ;;
      a <== fn (reborrow p mid r) ;;
      b <== fn (reborrow (after p mid) (n - mid) r) ;;
      Return (a, b)).
(** [<[T]>::split_at_mut(&mut self, mid)]: [len], [as_mut_ptr] and twice [from_raw_parts_mut] *)
Definition split_at_mut_b (q : ptr) (mid k t : nat) : bcode (nat * nat) :=
  fn (t <== mut_param q k t ;;
      u <== reborrow q k t ;; slice_len q k u ;=;
      r <== as_mut_ptr q k t ;;
      a <== fn (reborrow_mut q mid r) ;;
      b <== fn (reborrow_mut (after q mid) (k - mid) r) ;;
      Return (a, b)).
(** [core::slice::Chunks]: each chunk is split off the rest *)
Fixpoint chunks_b (j c : nat) (p : ptr) (n t : nat) : bcode (list nat) :=
  match j with
  | 0 => Return []
  | S j => ab <== split_at_b p (Nat.min c n) n t ;;
           l <== chunks_b j c (after p (Nat.min c n)) (n - Nat.min c n) (snd ab) ;;
           Return (fst ab :: l)
  end.
(** [core::slice::ChunksMut] has a raw pointer; each chunk is a [&mut] made from it *)
Fixpoint chunks_mut_b (j c : nat) (q : ptr) (k r : nat) : bcode (list nat) :=
  match j with
  | 0 => Return []
  | S j => a <== reborrow_mut q (Nat.min c k) r ;;
           l <== chunks_mut_b j c (after q (Nat.min c k)) (k - Nat.min c k) r ;;
           Return (a :: l)
  end.
(** [<[T]>::chunks_mut(&mut self, c)]: the cast of the parameter to a raw pointer *)
Definition chunks_mut_start (q : ptr) (k t : nat) : bcode nat := fn (u <== mut_param q k t ;; do_ (Retag RawMut false u q k)).

(** ** rayon *)
(** [Cut i l r]: the part is split after [i] chunks; [Rest]: it is gone through one chunk after the other *)
Inductive plan := Rest | Cut (i : nat) (l r : plan).
Fixpoint producers_b (pl : plan) (c3 c4 : nat) (p : ptr) (n : nat) (q : ptr) (k ts td : nat) : bcode (list (nat * nat)) :=
  match pl with
  | Rest =>
      let j := Nat.min (chunk_count n c3) (chunk_count k c4) in
      ts <== fn (shared_param p n ts) ;;
      td <== chunks_mut_start q k td ;;
      a <== chunks_b j c3 p n ts ;;
      b <== chunks_mut_b j c4 q k td ;;
      Return (combine a b)
  | Cut i l r =>
      let n1 := Nat.min (i * c3) n in
      let k1 := Nat.min (i * c4) k in
      a <== split_at_b p n1 n ts ;;
      b <== split_at_mut_b q k1 k td ;;
      x <== producers_b l c3 c4 p n1 q k1 (fst a) (fst b) ;;
      y <== producers_b r c3 c4 (after p n1) (n - n1) (after q k1) (k - k1) (snd a) (snd b) ;;
      Return (x ++ y)
  end.
(** parallel.rs:38-54: the closure; [ts] and [td] are the tags of the two chunks *)
Definition par_job_b (s : nat -> isa) (cfg : b64_config) (p : ptr) (n : nat) (q : ptr) (l chunks i ts td : nat) : bcode unit :=
  let sp := after p (chunk_off (chunks * 3) i) in
  let sn := chunk_len n (chunks * 3) i in
  let dp := after q (chunk_off (chunks * 4) i) in
  let dn := chunk_len l (chunks * 4) i in
  fn (ts <== shared_param sp sn ts ;;
      td <== mut_param dp dn td ;;
      slice_len sp sn ts ;=;
      ts <== as_ptr sp sn ts ;;
      td <== as_mut_ptr dp dn td ;;
      exec (via2 (fst p) ts (fst q) td) (b64_par_job s cfg p n q chunks i)).
Fixpoint run_jobs_b (job : nat -> bcode unit) (order : list nat) : bcode unit :=
  match order with
  | [] => Return tt
  | i :: rest => job i ;=; run_jobs_b job rest
  end.
(** parallel.rs:16 [par_encode] *)
Definition b64_par_encode_b (P : nat) (order : nat -> list nat) (pl : plan) (s : nat -> isa) (cfg : b64_config)
    (p : ptr) (n : nat) (q : ptr) (k ts td : nat) : bcode (result (ptr * nat) * nat) :=
  fn (ts <== shared_param p n ts ;;
      slice_len p n ts ;=; slice_len p n ts ;=;
      if b64_par_sequential P n then b64_encode_b (s 0) cfg p n q k ts td else
      slice_len p n ts ;=;
      let l := b64_encoded_length_unchecked n cfg in
      (* 24: [Out::into_uninit_slice] *)
      u <== slice_mut q k td ;;
      (* 25: [index_mut] *)
      v <== reborrow_mut q k u ;;
      w <== fn (v <== mut_param q k v ;; if k <? l then exec (fun _ => None) panic else reborrow_mut q l v) ;;
      let chunks := (n / 3 + P) / P in
      (* 29, 30: [par_chunks], [par_chunks_mut] *)
      ts <== fn (shared_param p n ts) ;;
      x <== reborrow_mut q l w ;; x <== fn (mut_param q l x) ;;
      if chunks =? 0 then exec (fun _ => None) panic else
      tags <== producers_b pl (chunks * 3) (chunks * 4) p n q l ts x ;;
      run_jobs_b (fun i => par_job_b s cfg p n q l chunks i (fst (nth i tags (0, 0))) (snd (nth i tags (0, 0))))
        (order (b64_par_jobs P n l)) ;=;
      (* 57-61 *)
      t <== reborrow q l w ;; slice_len q l t ;=;
      r <== as_mut_ptr q l w ;;
      u <== slice_mut q l r ;; give (q, l) u).
