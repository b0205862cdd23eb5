(** Property theorems for forgiving-base64 decoding and the white space search (C11, C12 and parts of C07, C10, C45).
    [s1] ranges over the instruction sets of the white space search (all eight), [s2] over those of the decoder. *)
From Coq Require Import ZArith List Bool Lia String.
From Verif Require Import Bytes Mem Ints MemFacts Slices Codec Isa Simd Spec Base64 Base64Api Base64Ref Forgiving ForgivingFacts.
Import ListNotations.
Open Scope list_scope. Open Scope Z_scope. Open Scope m_scope.

(** C11: the WHATWG algorithm, for the slice and the in-place entry point. *)
Theorem C11_forgiving_decode : forall en s1 s2 src, b64_isa s2 ->
  decodes (forgiving_decode en s1 s2) src (List.length src) (whatwg_forgiving_decode src).
Proof. exact forgiving_decode_ok. Qed.
Print Assumptions C11_forgiving_decode.
Theorem C11_forgiving_decode_inplace : forall en s1 s2 data, b64_isa s2 ->
  decodes_inplace (forgiving_decode_inplace en s1 s2) data (List.length data) (whatwg_forgiving_decode data).
Proof. exact forgiving_decode_inplace_ok. Qed.
Print Assumptions C11_forgiving_decode_inplace.
(** removing white space in place: the other bytes, in order, and nothing outside the slice changes *)
Theorem C11_remove_whitespace_inplace : forall s m b o data, slice m b o data ->
  exists m', remove_ascii_whitespace_inplace s (b, o) (List.length data) m = Ret (List.length (strip_whitespace data)) m' /\
    bytes_at m' b o (strip_whitespace data) /\ only_changed m b o (List.length data) m'.
Proof.
  intros s m b o data [B H]. destruct (wp_inv _ _ _ (remove_inplace_ok s m b o data B H)) as (r & m' & E & -> & A & F).
  exists m'. auto.
Qed.
Print Assumptions C11_remove_whitespace_inplace.

(** C12: the search. [pos] is the first white space byte, or the length; memory is only read inside the slice. *)
Theorem C12_find_whitespace : forall s m b o data, slice m b o data ->
  exists pos, find_non_ascii_whitespace s (b, o) (List.length data) m = Ret pos m /\
    (pos <= List.length data)%nat /\
    (forall i, (i < pos)%nat -> ascii_whitespace (nth i data 0) = false) /\
    ((pos < List.length data)%nat -> ascii_whitespace (nth pos data 0) = true).
Proof.
  intros s m b o data [B H]. destruct (wp_inv _ _ _ (find_ok s m b o data B H)) as (r & m' & E & -> & ->).
  exists (find_ws data). split; [exact E|]. split; [apply find_ws_le|]. split; [|apply find_ws_nth].
  intros i Hi. pose proof (find_ws_le data) as L. pose proof (find_ws_firstn data) as F.
  destruct (ascii_whitespace (nth i data 0)) eqn:W; [|reflexivity]. exfalso.
  rewrite <- Bool.not_true_iff_false in F. apply F. apply existsb_exists. exists (nth i data 0). split; [|exact W].
  rewrite <- (firstn_skipn (find_ws data) data) at 1. rewrite app_nth1 by (rewrite firstn_length; lia).
  apply nth_In. rewrite firstn_length. lia.
Qed.
Print Assumptions C12_find_whitespace.

(** C10: a destination shorter than the source is reported, nothing is written. *)
Theorem C10_forgiving_short : forall en s1 s2 src, rejects_short (forgiving_decode en s1 s2) src (List.length src).
Proof. exact forgiving_decode_short. Qed.
Print Assumptions C10_forgiving_short.
(** C04: every pair of implementations agrees. *)
Theorem C04_forgiving_agree : forall en en' s1 s2 s1' s2' src, b64_isa s2 -> b64_isa s2' ->
  agree (forgiving_decode en s1 s2) (forgiving_decode en' s1' s2') src.
Proof. intros. eapply dec_agree; auto using forgiving_decode_ok, forgiving_decode_short. Qed.
Print Assumptions C04_forgiving_agree.
(** C45: the previous contents of the destination do not matter. *)
Theorem C45_forgiving_old_contents : forall en s1 s2 src, b64_isa s2 -> ignores_old (forgiving_decode en s1 s2) src.
Proof. intros. eapply dec_old; auto using forgiving_decode_ok, forgiving_decode_short. Qed.
Print Assumptions C45_forgiving_old_contents.

(** Concrete runs. *)
Definition show (r : res (result (ptr * nat))) (b : nat) : option (result nat * list cell) :=
  match r with Ret (Ok (_, n)) m => Some (Ok n, firstn n (m b)) | Ret Err m => Some (Err, []) | _ => None end.
Example ex_forgiving : show (forgiving_decode LE SSE2 SSSE3 (0, 0)%nat 11 (1, 0)%nat 11
    (mem_of [cells (str " Zm9v YmE= "); uninit 11])) 1 = Some (Ok 5%nat, cells (str "fooba")).
Proof. vm_compute. reflexivity. Qed.
Example ex_forgiving_long : show (forgiving_decode_inplace LE AVX2 AVX2 (0, 0)%nat 53
    (mem_of [cells (str "Zm9vYmFyYmF6cXV4Zm9vYmFyYmF6cXV4Zm9vYmFyYmF6cXV4 Zg==")])) 0
  = Some (Ok 37%nat, cells (str "foobarbazquxfoobarbazquxfoobarbazquxf")).
Proof. vm_compute. reflexivity. Qed.
Example ex_forgiving_bad : show (forgiving_decode LE NEON64 NEON64 (0, 0)%nat 5 (1, 0)%nat 5
    (mem_of [cells (str "Zm9*v"); uninit 5])) 1 = Some (Err, []).
Proof. vm_compute. reflexivity. Qed.
Example ex_forgiving_trailing_bits : show (forgiving_decode BE Fallback Fallback (0, 0)%nat 3 (1, 0)%nat 3
    (mem_of [cells (str "ZZZ"); uninit 3])) 1 = Some (Ok 2%nat, cells [101; 150]).
Proof. vm_compute. reflexivity. Qed.
Example ex_find : find_non_ascii_whitespace AVX2 (0, 0)%nat 36 (mem_of [cells (str "0123456789abcdef0123456789abcdef01 3")])
  = Ret 34%nat (mem_of [cells (str "0123456789abcdef0123456789abcdef01 3")]).
Proof. vm_compute. reflexivity. Qed.
