(** Model of crates/base64-simd/src/parallel.rs ([par_encode], feature "parallel").

    rayon is modelled by what its documentation promises: [par_chunks] and [par_chunks_mut] split a slice like [chunks];
    [zip] pairs them by index and stops with the shorter one; [for_each] runs the closure exactly once for every index, in
    an order chosen by the scheduler, and returns when all are done. [order] is that order. Here a job is run as a whole; Conc.v and C69 interleave
    the single accesses of the jobs. Every job may run on another implementation [s i]
    (the dispatcher, Dispatch.v, is called once per job). *)
From Coq Require Import ZArith List Bool.
From Verif Require Import Bytes Mem Isa Base64.
Import ListNotations.

(** core::slice [chunks(k)] on a slice of length [len]: number of chunks, offset and length of the [i]-th one *)
Definition chunk_count (len k : nat) : nat := ((len + k - 1) / k)%nat.
Definition chunk_off (k i : nat) : nat := (i * k)%nat.
Definition chunk_len (len k i : nat) : nat := Nat.min k (len - i * k).

Fixpoint run_all (job : nat -> M unit) (order : list nat) : M unit :=
  match order with
  | [] => ret tt
  | i :: rest => job i ;;; run_all job rest
  end.

(** parallel.rs:33-55: the closure for chunk [i] *)
Definition b64_par_job (s : nat -> isa) (config : b64_config) (src : ptr) (slen : nat) (dst : ptr) (chunks i : nat) : M unit :=
  let len := chunk_len slen (chunks * 3) i in
  sp <- padd src (chunk_off (chunks * 3) i) ;;
  dp <- padd dst (chunk_off (chunks * 4) i) ;;
  if b64_padding (b64_extra_of config) then
    let no_pad := {| b64_kind_of := b64_kind_of config; b64_extra_of := NoPad |} in
    if (len mod 3 =? 0)%nat then b64_encode_impl (s i) sp len dp no_pad
    else b64_encode_impl (s i) sp len dp config
  else b64_encode_impl (s i) sp len dp config.

(** parallel.rs:23-63: the parallel path, [p] threads *)
Definition b64_par_jobs (p : nat) (slen encoded_len : nat) : nat :=
  let chunks := ((slen / 3 + p) / p)%nat in
  Nat.min (chunk_count slen (chunks * 3)) (chunk_count encoded_len (chunks * 4)).
Definition b64_par_path (p : nat) (order : nat -> list nat) (s : nat -> isa) (config : b64_config)
    (src : ptr) (slen : nat) (dst : ptr) (dlen : nat) : M (result (ptr * nat)) :=
  let encoded_len := b64_encoded_length_unchecked slen config in
  (* 25: [&mut dst[..encoded_len]] *)
  if (dlen <? encoded_len)%nat then panic else
  let chunks := ((slen / 3 + p) / p)%nat in
  (* rayon: [assert!(chunk_size != 0)] *)
  if (chunks =? 0)%nat then panic else
  run_all (b64_par_job s config src slen dst chunks) (order (b64_par_jobs p slen encoded_len)) ;;;
  ret (Ok (dst, encoded_len)).
(** parallel.rs:16 [par_encode]. [p * 4096] is a usize product in the code: no machine has 2^20 threads, let alone
    enough for it to overflow. *)
Definition b64_par_sequential (p slen : nat) : bool :=
  ((Z.of_nat slen <? Z.of_nat p * 4096)%Z || (p <? 2)%nat || (slen / 3 <? p)%nat)%bool.
Definition b64_par_encode (p : nat) (order : nat -> list nat) (s : nat -> isa) (config : b64_config)
    (src : ptr) (slen : nat) (dst : ptr) (dlen : nat) : M (result (ptr * nat)) :=
  if b64_par_sequential p slen then b64_encode (s 0%nat) config src slen dst dlen
  else b64_par_path p order s config src slen dst dlen.
