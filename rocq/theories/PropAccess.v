(** Property theorems about the addresses that the functions access (C76): they depend on the pointers and the lengths, and
    not on the bytes, except that a function may stop early when it fails. (The constant tables of the crates are not counted:
    Access.v.) *)
From Coq Require Import ZArith List Bool Lia String.
From Verif Require Import Bytes Mem MemFacts Slices Isa Ints Hex Base64 Base32 Uuid Unicode Forgiving Conc Reify Access AccessFacts AccessCodecs.
Import ListNotations.
Open Scope list_scope. Open Scope nat_scope. Open Scope m_scope.

(** C76 *)
(** The program whose accesses are counted is the function: it has the same outcome in every memory. *)
Theorem C76_programs : forall A (c : M A) p, follows c p -> forall m, run p m = c m.
Proof. intros A c p F m. now apply follows_imp. Qed.
Print Assumptions C76_programs.
(** hex: whatever the bytes are. Encoding makes the same accesses to the end, also when it fails (for a short destination). *)
Theorem C76_hex : forall s,
  (forall case src n dst k, fixed_pattern same_sizes (fun _ => True) (hex_encode s src n dst k case)) /\
  (forall src n dst k, fixed_pattern same_sizes succeeds (hex_decode s src n dst k)) /\
  (forall data n, fixed_pattern same_sizes succeeds (hex_decode_inplace s data n)) /\
  (forall data n, fixed_pattern same_sizes succeeds (hex_check s data n)).
Proof.
  intro s. refine (conj _ (conj _ (conj _ _))).
  - intros. apply (@fixed_alike _ (rel_any _) _ _ _ _ _ (@rei_hex_encode True (fst dst) s src n dst k case (fun _ => eq_refl))); [easy|apply alw_hex_encode].
  - intros. apply (fixed_alike succeeds _ (@rei_hex_decode True (fst dst) s src n dst k (fun _ => eq_refl))); [easy|apply alk_hex_decode].
  - intros. apply (fixed_alike succeeds _ (@rei_hex_decode_inplace True (fst data) s data n (fun _ => eq_refl))); [easy|apply alk_hex_decode_inplace].
  - intros. apply (fixed_alike succeeds _ (@rei_hex_check True (fun _ => True) s data n)); [easy|apply alk_hex_check].
Qed.
Print Assumptions C76_hex.
(** base64: encoding, and decoding without padding, whatever the bytes are; decoding with padding, as long as the two texts
    have the same padding *)
Theorem C76_base64 : forall en s cfg,
  (forall src n dst k, fixed_pattern same_sizes (fun _ => True) (b64_encode s cfg src n dst k)) /\
  (b64_extra_of cfg = NoPad ->
    (forall src n dst k, fixed_pattern same_sizes succeeds (b64_decode en s cfg src n dst k)) /\
    (forall data n, fixed_pattern same_sizes succeeds (b64_decode_inplace en s cfg data n)) /\
    (forall data n, fixed_pattern same_sizes succeeds (b64_check en s cfg data n))) /\
  (forall src n dst k, fixed_pattern (same_padding 2 src n) succeeds (b64_decode en s cfg src n dst k)) /\
  (forall data n, fixed_pattern (same_padding 2 data n) succeeds (b64_decode_inplace en s cfg data n)) /\
  (forall data n, fixed_pattern (same_padding 2 data n) succeeds (b64_check en s cfg data n)).
Proof.
  intros en s cfg. refine (conj _ (conj (fun E => conj _ (conj _ _)) (conj _ (conj _ _)))).
  - intros. apply (@fixed_alike _ (rel_any _) _ _ _ _ _ (@rei_b64_encode True (fst dst) s cfg src n dst k (fun _ => eq_refl))); [easy|apply alw_b64_encode].
  - intros. apply (fixed_comparable _ _ (@rei_b64_decode True (fst dst) en s cfg src n dst k (fun _ => eq_refl))). intros m m' S.
    destruct (dl_nopad cfg src n m m' E) as (r & R & R'). now apply cmp_b64_decode with (r := r).
  - intros. apply (fixed_comparable _ _ (@rei_b64_decode_inplace True (fst data) en s cfg data n (fun _ => eq_refl))). intros m m' S.
    destruct (dl_nopad cfg data n m m' E) as (r & R & R'). now apply cmp_b64_decode_inplace with (r := r).
  - intros. apply (fixed_comparable _ _ (@rei_b64_check True (fun _ => True) en s cfg data n)). intros m m' S.
    destruct (dl_nopad cfg data n m m' E) as (r & R & R'). now apply cmp_b64_check with (r := r).
  - intros. apply (fixed_comparable _ _ (@rei_b64_decode True (fst dst) en s cfg src n dst k (fun _ => eq_refl))). intros m m' S.
    destruct (dl_padding cfg src n m m' S) as (r & R & R'). apply cmp_b64_decode with (r := r); [apply S|assumption..].
  - intros. apply (fixed_comparable _ _ (@rei_b64_decode_inplace True (fst data) en s cfg data n (fun _ => eq_refl))). intros m m' S.
    destruct (dl_padding cfg data n m m' S) as (r & R & R'). apply cmp_b64_decode_inplace with (r := r); [apply S|assumption..].
  - intros. apply (fixed_comparable _ _ (@rei_b64_check True (fun _ => True) en s cfg data n)). intros m m' S.
    destruct (dl_padding cfg data n m m' S) as (r & R & R'). apply cmp_b64_check with (r := r); [apply S|assumption..].
Qed.
Print Assumptions C76_base64.
(** base32: the same *)
Theorem C76_base32 : forall t s cfg,
  (forall src n dst k, fixed_pattern same_sizes (fun _ => True) (b32_encode t s cfg src n dst k)) /\
  (b32_padding cfg = false ->
    (forall src n dst k, fixed_pattern same_sizes succeeds (b32_decode t s cfg src n dst k)) /\
    (forall data n, fixed_pattern same_sizes succeeds (b32_decode_inplace t s cfg data n)) /\
    (forall data n, fixed_pattern same_sizes succeeds (b32_check t s cfg data n))) /\
  (forall src n dst k, fixed_pattern (same_padding 6 src n) succeeds (b32_decode t s cfg src n dst k)) /\
  (forall data n, fixed_pattern (same_padding 6 data n) succeeds (b32_decode_inplace t s cfg data n)) /\
  (forall data n, fixed_pattern (same_padding 6 data n) succeeds (b32_check t s cfg data n)).
Proof.
  intros t s cfg. refine (conj _ (conj (fun E => conj _ (conj _ _)) (conj _ (conj _ _)))).
  - intros. apply (@fixed_alike _ (rel_any _) _ _ _ _ _ (@rei_b32_encode True (fst dst) t s cfg src n dst k (fun _ => eq_refl))); [easy|apply alw_b32_encode].
  - intros. apply (fixed_comparable _ _ (@rei_b32_decode True (fst dst) t s cfg src n dst k (fun _ => eq_refl))). intros m m' S.
    destruct (dl_nopad32 cfg src n m m' E) as (r & R & R'). now apply cmp_b32_decode with (r := r).
  - intros. apply (fixed_comparable _ _ (@rei_b32_decode_inplace True (fst data) t s cfg data n (fun _ => eq_refl))). intros m m' S.
    destruct (dl_nopad32 cfg data n m m' E) as (r & R & R'). now apply cmp_b32_decode_inplace with (r := r).
  - intros. apply (fixed_comparable _ _ (@rei_b32_check True (fun _ => True) t s cfg data n)). intros m m' S.
    destruct (dl_nopad32 cfg data n m m' E) as (r & R & R'). now apply cmp_b32_check with (r := r).
  - intros. apply (fixed_comparable _ _ (@rei_b32_decode True (fst dst) t s cfg src n dst k (fun _ => eq_refl))). intros m m' S.
    destruct (dl_padding32 cfg src n m m' S) as (r & R & R'). apply cmp_b32_decode with (r := r); [apply S|assumption..].
  - intros. apply (fixed_comparable _ _ (@rei_b32_decode_inplace True (fst data) t s cfg data n (fun _ => eq_refl))). intros m m' S.
    destruct (dl_padding32 cfg data n m m' S) as (r & R & R'). apply cmp_b32_decode_inplace with (r := r); [apply S|assumption..].
  - intros. apply (fixed_comparable _ _ (@rei_b32_check True (fun _ => True) t s cfg data n)). intros m m' S.
    destruct (dl_padding32 cfg data n m m' S) as (r & R & R'). apply cmp_b32_check with (r := r); [apply S|assumption..].
Qed.
Print Assumptions C76_base32.
(** uuid: parsing stops early only when it fails, formatting never does *)
Theorem C76_uuid : forall s s2,
  (forall src n dst, fixed_pattern same_sizes succeeds (uuid_parse s s2 src n dst)) /\
  (forall src n dst, fixed_pattern same_sizes succeeds (uuid_parse_simple s src n dst)) /\
  (forall src n dst, fixed_pattern same_sizes succeeds (uuid_parse_hyphenated s src n dst)) /\
  (forall case src dst, fixed_pattern same_sizes (fun _ => True) (uuid_format_simple s src dst case)) /\
  (forall case src dst, fixed_pattern same_sizes (fun _ => True) (uuid_format_hyphenated s src dst case)).
Proof.
  intros s s2. refine (conj _ (conj _ (conj _ (conj _ _)))).
  - intros. apply (fixed_alike succeeds _ (@rei_uuid_parse True (fst dst) s s2 src n dst (fun _ => eq_refl))); [easy|apply alk_uuid_parse].
  - intros. apply (fixed_alike succeeds _ (@rei_uuid_parse_simple True (fst dst) s src n dst (fun _ => eq_refl))); [easy|apply alk_uuid_parse_simple].
  - intros. apply (fixed_alike succeeds _ (@rei_uuid_parse_hyphenated True (fst dst) s src n dst (fun _ => eq_refl))); [easy|apply alk_uuid_parse_hyphenated].
  - intros. apply (fixed_alike _ _ (@rei_uuid_format_simple True (fst dst) s src dst case (fun _ => eq_refl))); [easy|apply alk_uuid_format_simple].
  - intros. apply (fixed_alike _ _ (@rei_uuid_format_hyphenated True (fst dst) s src dst case (fun _ => eq_refl))); [easy|apply alk_uuid_format_hyphenated].
Qed.
Print Assumptions C76_uuid.
(** The other functions: [is_ascii] and [from_ascii] read the same unless one of them answers no; the others never stop early. *)
Theorem C76_unicode : forall x64 en s,
  (forall src n, fixed_pattern same_sizes (fun r => r = true) (is_ascii x64 s src n)) /\
  (forall src n, fixed_pattern same_sizes (fun r => r <> None) (from_ascii x64 s src n)) /\
  (forall src n, fixed_pattern same_sizes (fun _ => True) (is_utf32le en s src n)) /\
  (forall t src n dst k, fixed_pattern same_sizes (fun _ => True) (swap_endianness_to en t s src n dst k)) /\
  (forall t data n, fixed_pattern same_sizes (fun _ => True) (swap_endianness_inplace en t s data n)).
Proof.
  intros x64 en s. refine (conj _ (conj _ (conj _ (conj _ _)))).
  - intros. apply (@fixed_alike _ rel_answer _ _ _ _ _ (@rei_uni_is_ascii True (fun _ => True) x64 s src n)); [intros a -> [=]|apply alk_uni_is_ascii].
  - intros. apply (fixed_alike _ _ (@rei_uni_from_ascii True (fun _ => True) x64 s src n)); [easy|apply alk_uni_from_ascii].
  - intros. apply (fixed_alike _ _ (@rei_uni_is_utf32le True (fun _ => True) en s src n)); [easy|apply alk_uni_is_utf32le].
  - intros. apply (fixed_alike _ _ (@rei_uni_swap_endianness_to True (fst dst) en t s src n dst k (fun _ => eq_refl))); [easy|apply alk_uni_swap_endianness_to].
  - intros. apply (fixed_alike _ _ (@rei_uni_swap_endianness_inplace True (fst data) en t s data n (fun _ => eq_refl))); [easy|apply alk_uni_swap_endianness_inplace].
Qed.
Print Assumptions C76_unicode.

(** ** What does depend on the data *)
(** The forgiving decoders look for white space first, and compact the text in place only from there on: two texts that are
    both decoded make different accesses. *)
Theorem C76_forgiving_refuted : exists p m m' r r' m1 m1',
  follows (forgiving_decode_inplace LE Fallback Fallback (0, 0) 5) p /\ same_sizes m m' /\
  forgiving_decode_inplace LE Fallback Fallback (0, 0) 5 m = Ret (Ok r) m1 /\
  forgiving_decode_inplace LE Fallback Fallback (0, 0) 5 m' = Ret (Ok r') m1' /\ r = r' /\
  ~ initial_part (trace p m) (trace p m') /\ ~ initial_part (trace p m') (trace p m).
Proof.
  set (R := @rei_forg_forgiving_decode_inplace True 0 LE Fallback Fallback (0, 0) 5 (fun _ => eq_refl)).
  set (m := mem_of [cells (str "aGk= "%string)]). set (m' := mem_of [cells (str " aGk="%string)]).
  assert (T : exists m1, forgiving_decode_inplace LE Fallback Fallback (0, 0) 5 m = Ret (Ok (0, 0, 2)) m1).
  { assert (K : match forgiving_decode_inplace LE Fallback Fallback (0, 0) 5 m with Ret r _ => Some r | _ => None end = Some (Ok (0, 0, 2)))
      by (vm_compute; reflexivity).
    destruct (forgiving_decode_inplace LE Fallback Fallback (0, 0) 5 m) as [r m1| | |]; try discriminate K. exists m1. injection K as ->. reflexivity. }
  assert (T' : exists m1, forgiving_decode_inplace LE Fallback Fallback (0, 0) 5 m' = Ret (Ok (0, 0, 2)) m1).
  { assert (K : match forgiving_decode_inplace LE Fallback Fallback (0, 0) 5 m' with Ret r _ => Some r | _ => None end = Some (Ok (0, 0, 2)))
      by (vm_compute; reflexivity).
    destruct (forgiving_decode_inplace LE Fallback Fallback (0, 0) 5 m') as [r m1| | |]; try discriminate K. exists m1. injection K as ->. reflexivity. }
  destruct T as [m1 T], T' as [m1' T']. exists (the_prog R), m, m', (0, 0, 2), (0, 0, 2), m1, m1'.
  refine (conj (reified_fol R) (conj _ (conj T (conj T' (conj eq_refl (conj _ _)))))).
  - intros [|[|b]]; reflexivity.
  - intros [u U]. assert (A : nth_error (trace (the_prog R) m) 1 = Some (Reads (0, 1) 1)) by (vm_compute; reflexivity).
    assert (A' : nth_error (trace (the_prog R) m') 1 = Some (Reads (0, 0) 1)) by (vm_compute; reflexivity).
    rewrite U, nth_error_app1 in A' by (apply nth_error_Some; rewrite A; discriminate). rewrite A in A'. discriminate A'.
  - intros [u U]. assert (A : nth_error (trace (the_prog R) m) 1 = Some (Reads (0, 1) 1)) by (vm_compute; reflexivity).
    assert (A' : nth_error (trace (the_prog R) m') 1 = Some (Reads (0, 0) 1)) by (vm_compute; reflexivity).
    rewrite U, nth_error_app1 in A by (apply nth_error_Some; rewrite A'; discriminate). rewrite A in A'. discriminate A'.
Qed.
Print Assumptions C76_forgiving_refuted.

(** ** Examples *)
Definition hex_enc_prog (s : isa) (n : nat) := the_prog (@rei_hex_encode True 1 s (0, 0) n (1, 0) (2 * n) Lower (fun _ => eq_refl)).
Example C76_example_scalar : let m := mem_of [cells (str "Hi"%string); uninit 4] in
  trace (hex_enc_prog Fallback 2) m = [Reads (0, 0) 1; Writes (1, 0); Writes (1, 1); Reads (0, 1) 1; Writes (1, 2); Writes (1, 3)].
Proof. vm_compute. reflexivity. Qed.
(** 18 bytes with SSSE3: one vector, then two bytes *)
Example C76_example_vector : let m := mem_of [cells (repeat 7%Z 18); uninit 36] in
  trace (hex_enc_prog SSSE3 18) m =
    [Reads (0, 0) 16; Writes (1, 0); Reads (0, 16) 1; Writes (1, 32); Writes (1, 33); Reads (0, 17) 1; Writes (1, 34); Writes (1, 35)].
Proof. vm_compute. reflexivity. Qed.
Definition b64_dec_prog (n k : nat) := the_prog (@rei_b64_decode True 1 LE Fallback
  {| b64_kind_of := Standard; b64_extra_of := Pad |} (0, 0) n (1, 0) k (fun _ => eq_refl)).
(** two texts with the same padding; a third one is wrong at its third character, and the decoder stops after the first group
    of four; a fourth one has other padding *)
Example C76_example_decode :
  let tr t := trace (b64_dec_prog 8 6) (mem_of [cells (str t); uninit 6]) in
  let head := [Reads (0, 7) 1; Reads (0, 6) 1; Reads (0, 0) 1; Reads (0, 1) 1; Reads (0, 2) 1; Reads (0, 3) 1;
               Writes (1, 0); Writes (1, 1); Writes (1, 2)] in
  tr "QUJDREU="%string = head ++ [Reads (0, 4) 3; Writes (1, 3); Writes (1, 4)] /\
  tr "////RE0="%string = head ++ [Reads (0, 4) 3; Writes (1, 3); Writes (1, 4)] /\
  tr "QU-DREU="%string = head /\
  tr "QUDDRA=="%string = head ++ [Reads (0, 4) 2; Writes (1, 3)].
Proof. vm_compute. refine (conj _ (conj _ (conj _ _))); reflexivity. Qed.
Example C76_example_padding :
  same_padding 2 (0, 0) 8 (mem_of [cells (str "QUJDREU="%string); uninit 6]) (mem_of [cells (str "////RE0="%string); uninit 6]).
Proof.
  split; [intros [|[|[|b]]]; reflexivity|]. exists (str "QUJDREU="%string), (str "////RE0="%string).
  refine (conj _ (conj _ (conj eq_refl (conj eq_refl _)))).
  - split; [cbn; lia|reflexivity].
  - split; [cbn; lia|reflexivity].
  - intros i Hi. do 6 (destruct i as [|i]; [lia|]). do 2 (destruct i as [|i]; [vm_compute; intuition discriminate|]). destruct i; reflexivity.
Qed.
