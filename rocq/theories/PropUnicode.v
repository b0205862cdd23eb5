(** Property theorems for unicode-simd and the vsimd functions under it (C34-C37, C42). *)
From Coq Require Import ZArith List Bool Lia String ZifyBool.
From Verif Require Import Bytes Mem Ints MemFacts Slices Isa Simd SimdFacts Spec Loops UnicodeSpec Unicode UnicodeFacts SwapFacts LaneFacts Utf32Facts.
Import ListNotations.
Open Scope list_scope. Open Scope Z_scope. Open Scope m_scope.

(** C34: is_ascii on every instruction set and both x86 code paths ([x64] selects the SSE2 one); the memory is
    only read, and only inside the slice. *)
Theorem C34_is_ascii : forall x64 s m b o data, slice m b o data ->
  exists r, is_ascii x64 s (b, o) (List.length data) m = Ret r m /\
    (r = true <-> forall c, In c data -> ascii_char c).
Proof.
  intros x64 s m b o data [B H]. destruct (wp_inv _ _ _ (is_ascii_ok x64 s m b o data B H)) as (r & m' & E & -> & ->).
  exists (ascii data). split; [exact E|]. unfold ascii, highbits. rewrite negb_true_iff, <- not_true_iff_false, existsb_exists. split.
  - intros N c Hc. assert (byte c) as Bc by exact (proj1 (Forall_forall _ _) B c Hc). unfold byte in Bc. unfold ascii_char. destruct (Z.leb_spec 128 c); [|lia].
    exfalso. apply N. exists c. split; [exact Hc|lia].
  - intros G (c & Hc & L). apply G in Hc. unfold ascii_char in Hc. lia.
Qed.
Print Assumptions C34_is_ascii.
Theorem C34_from_ascii : forall x64 s m b o data, slice m b o data ->
  exists r, from_ascii x64 s (b, o) (List.length data) m = Ret r m /\
    (r = Some ((b, o), List.length data) /\ (forall c, In c data -> ascii_char c) \/
     r = None /\ ~ (forall c, In c data -> ascii_char c)).
Proof.
  intros x64 s m b o data Hd. destruct (C34_is_ascii x64 s m b o data Hd) as (r & E & I).
  unfold from_ascii, bind. rewrite E. eexists. split; [reflexivity|]. destruct r; [left|right]; split; auto; [now apply I|].
  intro G. apply I in G. discriminate G.
Qed.
Print Assumptions C34_from_ascii.

(** C35: is_utf32le is true iff every element is a Unicode scalar value. *)
Theorem C35_is_utf32le : forall en s m b o xs, s = Fallback \/ (sse41p s /\ en = LE) -> Forall (uint 4) xs -> bytes_at m b o (arr en 4 xs) ->
  exists r, is_utf32le en s (b, o) (List.length xs) m = Ret r m /\ (r = true <-> forall x, In x xs -> scalar_value x).
Proof.
  intros en s m b o xs Hs F H. destruct (wp_inv _ _ _ (is_utf32le_ok en s m b o xs Hs F H)) as (r & m' & E & -> & ->).
  eexists. split; [exact E|]. rewrite forallb_forall. split; intros G x Hx; apply G in Hx; unfold scalarb, scalar_value in *; lia.
Qed.
Print Assumptions C35_is_utf32le.

(** C36: endianness swapping. *)
Definition swap_of_type (t : elem) : Z -> Z := match t with U16 => swap16 | U32 => swap32 | U64 => swap64 end.
Lemma map_swap t xs : Forall (uint (esize t)) xs -> map (swap_bytes (esize t)) xs = map (swap_of_type t) xs.
Proof.
  induction 1 as [|x xs Hx F IH]; [reflexivity|]. cbn [map]. rewrite IH. f_equal.
  destruct t; [apply swap_bytes_16|apply swap_bytes_32|apply swap_bytes_64]; exact Hx.
Qed.
Theorem C36_swap : forall en t s m b o d e xs dlen, swap_isa s -> Forall (uint (esize t)) xs ->
  bytes_at m b o (arr en (esize t) xs) -> room m d e (esize t * dlen) ->
  separate b o (esize t * List.length xs) d e (esize t * dlen) -> (List.length xs <= dlen)%nat ->
  exists m', swap_endianness_to en t s (b, o) (List.length xs) (d, e) dlen m = Ret ((d, e), List.length xs) m' /\
    bytes_at m' d e (arr en (esize t) (map (swap_of_type t) xs)) /\
    only_changed m d e (esize t * List.length xs) m'.
Proof.
  intros en t s m b o d e xs dlen Hs F H R S L. unfold room in R.
  destruct (wp_inv _ _ _ (swap_run en t s m b o xs d e Hs F H ltac:(rewrite arr_len; nia) ltac:(rewrite arr_len; unfold separate in S; nia)))
    as (r & m' & E & A & Fr). exists m'. unfold swap_endianness_to. rewrite (proj2 (Nat.leb_le _ _) L). cbn [negb].
  unfold bind. rewrite E. split; [reflexivity|]. rewrite <- map_swap by auto. now rewrite arr_len in Fr.
Qed.
Print Assumptions C36_swap.
(** the source keeps its contents *)
Theorem C36_swap_source : forall en t s m b o d e xs dlen, swap_isa s -> Forall (uint (esize t)) xs ->
  bytes_at m b o (arr en (esize t) xs) -> room m d e (esize t * dlen) ->
  separate b o (esize t * List.length xs) d e (esize t * dlen) -> (List.length xs <= dlen)%nat ->
  exists r m', swap_endianness_to en t s (b, o) (List.length xs) (d, e) dlen m = Ret r m' /\ bytes_at m' b o (arr en (esize t) xs).
Proof.
  intros en t s m b o d e xs dlen Hs F H R S L. destruct (C36_swap en t s m b o d e xs dlen Hs F H R S L) as (m' & E & _ & O).
  exists ((d, e), List.length xs), m'. split; [exact E|]. eapply Frame_bytes_at; [exact O|exact H|]. rewrite arr_len. unfold separate in S. nia.
Qed.
Print Assumptions C36_swap_source.
Theorem C36_swap_inplace : forall en t s m b o xs, swap_isa s -> Forall (uint (esize t)) xs ->
  bytes_at m b o (arr en (esize t) xs) ->
  exists m', swap_endianness_inplace en t s (b, o) (List.length xs) m = Ret tt m' /\
    bytes_at m' b o (arr en (esize t) (map (swap_of_type t) xs)) /\
    only_changed m b o (esize t * List.length xs) m'.
Proof.
  intros en t s m b o xs Hs F H. pose proof H as [L _].
  destruct (wp_inv _ _ _ (swap_run en t s m b o xs b o Hs F H L ltac:(lia))) as ([] & m' & E & A & Fr).
  exists m'. split; [exact E|]. rewrite <- map_swap by auto. now rewrite arr_len in Fr.
Qed.
Print Assumptions C36_swap_inplace.
(** swapping twice is the identity *)
Theorem C36_swap_twice : forall en t s s' m b o xs, swap_isa s -> swap_isa s' -> Forall (uint (esize t)) xs ->
  bytes_at m b o (arr en (esize t) xs) ->
  exists m' m'', swap_endianness_inplace en t s (b, o) (List.length xs) m = Ret tt m' /\
    swap_endianness_inplace en t s' (b, o) (List.length xs) m' = Ret tt m'' /\ bytes_at m'' b o (arr en (esize t) xs).
Proof.
  intros en t s s' m b o xs Hs Hs' F H. pose proof H as [L _].
  destruct (wp_inv _ _ _ (swap_run en t s m b o xs b o Hs F H L ltac:(lia))) as ([] & m' & E & A & Fr).
  set (ys := map (swap_bytes (esize t)) xs) in *.
  assert (Fy : Forall (uint (esize t)) ys) by (apply Forall_forall; intros y Hy; apply in_map_iff in Hy as (x & <- & _); apply swap_bytes_uint).
  pose proof A as [L' _].
  destruct (wp_inv _ _ _ (swap_run en t s' m' b o ys b o Hs' Fy A L' ltac:(lia))) as ([] & m'' & E' & A' & _).
  exists m', m''. split; [exact E|]. split; [unfold ys in E'; rewrite map_length in E'; exact E'|].
  replace (map (swap_bytes (esize t)) ys) with xs in A'; [exact A'|]. unfold ys. rewrite map_map. clear -F.
  induction F as [|x l Hx F IH]; [reflexivity|]. cbn [map]. rewrite <- IH. f_equal. symmetry. now apply swap_twice.
Qed.
Print Assumptions C36_swap_twice.
(** the only documented panic: a destination that is too short; nothing has been touched then *)
Theorem C36_swap_short : forall en t s src len dst dlen m, (dlen < len)%nat -> swap_endianness_to en t s src len dst dlen m = Panic.
Proof. intros. unfold swap_endianness_to. rewrite (proj2 (Nat.leb_gt _ _)) by lia. reflexivity. Qed.
Print Assumptions C36_swap_short.

(** C37: every slice of at least one vector panics on an SSSE3-only target (and on bare SSE2), although the
    destination is long enough. *)
Lemma bind_panic {A B} (c : M A) (k : A -> M B) m : wp c (fun a m' => k a m' = Panic) m -> bind c k m = Panic.
Proof. unfold wp, bind. destruct (c m); tauto. Qed.
Lemma bind_p {A B} (c : M A) (k : A -> M B) m : c m = Panic -> bind c k m = Panic.
Proof. unfold bind. now intros ->. Qed.
Theorem C37_swap_ssse3_panics : forall en t s m b o d e xs dlen, s = SSSE3 \/ s = SSE2 ->
  bytes_at m b o (arr en (esize t) xs) -> (32 <= esize t * List.length xs)%nat -> (List.length xs <= dlen)%nat ->
  swap_endianness_to en t s (b, o) (List.length xs) (d, e) dlen m = Panic /\
  swap_endianness_inplace en t s (b, o) (List.length xs) m = Panic.
Proof.
  intros en t s m b o d e xs dlen Hs H Lx L. unfold swap_endianness_to. rewrite (proj2 (Nat.leb_le _ _) L). cbn [negb].
  enough (E : forall q, bswap_simd en t s (b, o) (List.length xs) q m = Panic).
  { unfold swap_endianness_inplace, bind, swap_endianness. destruct Hs as [-> | ->]; now rewrite !E. }
  intro q. unfold bswap_simd. set (n := (List.length xs / LANES t * LANES t)%nat).
  assert (Hn : (LANES t <= n <= List.length xs)%nat).
  { unfold n. destruct t; cbn [LANES esize] in *.
    - assert (1 <= List.length xs / 16)%nat by (apply Nat.div_le_lower_bound; lia). assert (16 * (List.length xs / 16) <= List.length xs)%nat by (apply Nat.mul_div_le; lia). lia.
    - assert (1 <= List.length xs / 8)%nat by (apply Nat.div_le_lower_bound; lia). assert (8 * (List.length xs / 8) <= List.length xs)%nat by (apply Nat.mul_div_le; lia). lia.
    - assert (1 <= List.length xs / 4)%nat by (apply Nat.div_le_lower_bound; lia). assert (4 * (List.length xs / 4) <= List.length xs)%nat by (apply Nat.mul_div_le; lia). lia. }
  clearbody n. apply bind_panic. eapply wp_add0; [exact H|rewrite arr_len; nia|].
  assert (Hk : (0 < esize t /\ 0 < LANES t)%nat) by (destruct t; cbn; lia).
  apply bind_p. cbn [while_ fst snd]. replace (plt (b, o) (b, o + esize t * n)%nat) with true
    by (symmetry; unfold plt; cbn [fst snd]; apply Nat.ltb_lt; nia).
  apply bind_p. assert (W : exists x, load (b, o) 32 m = Ret x m).
  { destruct (split_at (arr en (esize t) xs) 32) as (x & r & E & Ex); [rewrite arr_len; lia|]. rewrite E in H. exists x.
    apply bytes_at_app in H as [H _]. destruct (wp_inv _ _ _ (wp_load_exact m b o x 32 (fun a m' => a = x /\ m' = m) H (eq_sym Ex) (conj eq_refl eq_refl))) as (? & ? & E' & -> & ->). exact E'. }
  destruct W as [x Ex]. unfold bind at 1. rewrite Ex. apply bind_p. destruct Hs as [-> | ->]; destruct t; reflexivity.
Qed.
Print Assumptions C37_swap_ssse3_panics.
(** a counterexample to the documentation ("Panics if the length of src is not less than or equal to dst") *)
Theorem C37_swap_never_panics_refuted :
  exists t s m b o d e xs dlen, Forall (uint (esize t)) xs /\ bytes_at m b o (arr LE (esize t) xs) /\
    room m d e (esize t * dlen) /\ separate b o (esize t * List.length xs) d e (esize t * dlen) /\ (List.length xs <= dlen)%nat /\
    swap_endianness_to LE t s (b, o) (List.length xs) (d, e) dlen m = Panic.
Proof.
  set (xs := repeat 4660 16). set (m := mem_of [cells (arr LE 2 xs); uninit 32]).
  assert (H : bytes_at m 0 0 (arr LE 2 xs)) by (apply slice_whole; [apply arr_bytes|reflexivity]).
  exists U16, SSSE3, m, 0%nat, 0%nat, 1%nat, 0%nat, xs, 16%nat.
  split; [apply Forall_rep; rewrite uint2; lia|]. split; [exact H|]. split; [apply Nat.leb_le; reflexivity|].
  split; [left; discriminate|]. split; [apply Nat.leb_le; reflexivity|].
  apply (C37_swap_ssse3_panics LE U16 SSSE3 m 0 0 1 0 xs 16); auto; apply Nat.leb_le; reflexivity.
Qed.
Print Assumptions C37_swap_never_panics_refuted.
(** companion: on every other target of the dispatcher (AVX2, NEON, WASM, portable) it returns *)
Theorem C37_swap_other_targets : forall en t s m b o d e xs dlen, s = AVX2 \/ s = NEON32 \/ s = NEON64 \/ s = WASM128 \/ s = Fallback ->
  Forall (uint (esize t)) xs -> bytes_at m b o (arr en (esize t) xs) ->
  room m d e (esize t * dlen) -> separate b o (esize t * List.length xs) d e (esize t * dlen) -> (List.length xs <= dlen)%nat ->
  exists r m', swap_endianness_to en t s (b, o) (List.length xs) (d, e) dlen m = Ret r m'.
Proof.
  intros en t s m b o d e xs dlen Hs F H R S L.
  assert (swap_isa s) as Hs' by (unfold swap_isa; decompose [or] Hs; subst; auto; right; reflexivity).
  destruct (C36_swap en t s m b o d e xs dlen Hs' F H R S L) as (m' & E & _). eauto.
Qed.
Print Assumptions C37_swap_other_targets.

(** C42: case conversion of a vector, lane by lane *)
Definition lower (c : Z) : Z := if (65 <=? c) && (c <=? 90) then c + 32 else c.
Definition upper (c : Z) : Z := if (97 <=? c) && (c <=? 122) then c - 32 else c.
Theorem C42_to_ascii_lowercase : forall w s x, simd s -> bytes x -> List.length x = vlen w -> to_ascii_lowercase w s x = Some (map lower x).
Proof. intros w s x Hs B L. apply convert_ok; auto. intros b Hb. apply Z.eqb_eq. revert b Hb. apply byte_sweep. vm_compute. reflexivity. Qed.
Print Assumptions C42_to_ascii_lowercase.
Theorem C42_to_ascii_uppercase : forall w s x, simd s -> bytes x -> List.length x = vlen w -> to_ascii_uppercase w s x = Some (map upper x).
Proof. intros w s x Hs B L. apply convert_ok; auto. intros b Hb. apply Z.eqb_eq. revert b Hb. apply byte_sweep. vm_compute. reflexivity. Qed.
Print Assumptions C42_to_ascii_uppercase.

(** Concrete runs. *)
Example ex_is_ascii : is_ascii true AVX2 (0, 0)%nat 34 (mem_of [cells (str "hello world, this is ASCII text...")])
  = Ret true (mem_of [cells (str "hello world, this is ASCII text...")]).
Proof. vm_compute. reflexivity. Qed.
Definition value {A} (r : res A) : option A := match r with Ret a _ => Some a | _ => None end.
Definition block {A} (r : res A) (b : nat) : option (list cell) := match r with Ret _ m => Some (m b) | _ => None end.
Example ex_not_ascii : value (is_ascii true SSE2 (0, 0)%nat 67 (mem_of [cells (repeat 65 66 ++ [128])])) = Some false.
Proof. vm_compute. reflexivity. Qed.
Example ex_not_ascii_wasm : value (from_ascii false WASM128 (0, 0)%nat 67 (mem_of [cells (repeat 65 9 ++ [200] ++ repeat 65 57)])) = Some None.
Proof. vm_compute. reflexivity. Qed.
Definition u32s := [65; 233; 8364; 128512; 55295; 57344; 1114111; 0; 10].
Example ex_utf32 : value (is_utf32le LE NEON64 (0, 0)%nat 9 (mem_of [cells (arr LE 4 u32s)])) = Some true.
Proof. vm_compute. reflexivity. Qed.
Example ex_utf32_surrogate : value (is_utf32le LE AVX2 (0, 0)%nat 9 (mem_of [cells (arr LE 4 (55296 :: tl u32s))])) = Some false.
Proof. vm_compute. reflexivity. Qed.
Example ex_utf32_big : value (is_utf32le LE SSE41 (0, 0)%nat 9 (mem_of [cells (arr LE 4 (tl u32s ++ [1114112]))])) = Some false.
Proof. vm_compute. reflexivity. Qed.
Definition u16s := map Z.of_nat (seq 250 17).
Example ex_swap16 : block (swap_endianness_to LE U16 AVX2 (0, 0)%nat 17 (1, 0)%nat 18 (mem_of [cells (arr LE 2 u16s); uninit 36])) 1
  = Some (cells (arr BE 2 u16s) ++ uninit 2).
Proof. vm_compute. reflexivity. Qed.
Example ex_swap32 : block (swap_endianness_inplace BE U32 Fallback (0, 0)%nat 9 (mem_of [cells (arr BE 4 u32s)])) 0 = Some (cells (arr LE 4 u32s)).
Proof. vm_compute. reflexivity. Qed.
Example ex_lower : to_ascii_lowercase W128 SSE2 (str "Hello [World] Z{") = Some (str "hello [world] z{").
Proof. vm_compute. reflexivity. Qed.
Example ex_upper : to_ascii_uppercase W256 NEON32 (str "Hello [World] Z{0123456789abcz`@") = Some (str "HELLO [WORLD] Z{0123456789ABCZ`@").
Proof. vm_compute. reflexivity. Qed.
