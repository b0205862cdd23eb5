(** Facts about byte swapping (vsimd/bswap.rs). *)
From Coq Require Import ZArith List Bool Lia ZifyNat.
From Verif Require Import Bytes Mem MemFacts Isa Simd SimdFacts Ints Loops UnicodeSpec Unicode UnicodeFacts.
Import ListNotations.
Open Scope Z_scope.
Open Scope m_scope.
Ltac Zify.zify_post_hook ::= Z.div_mod_to_equations.

Lemma le_bytes_len n x : length (le_bytes n x) = n.
Proof. revert x. induction n; intro x; cbn [le_bytes length]; auto. Qed.
Lemma le_bytes_bytes n x : bytes (le_bytes n x).
Proof. revert x. induction n; intro x; cbn [le_bytes]; constructor; [unfold byte; lia|auto]. apply IHn. Qed.
Lemma le_bytes_of_le l : bytes l -> le_bytes (length l) (of_le l) = l.
Proof.
  induction 1 as [|a l Ha B IH]; [reflexivity|]. cbn [length le_bytes]. rewrite of_le_cons. unfold byte in Ha.
  replace ((a + 256 * of_le l) mod 256) with a by lia. replace ((a + 256 * of_le l) / 256) with (of_le l) by lia. now rewrite IH.
Qed.
Lemma of_le_le_bytes n x : uint n x -> of_le (le_bytes n x) = x.
Proof.
  unfold uint. revert x. induction n as [|n IH]; intros x H; [cbn in *; lia|]. cbn [le_bytes]. rewrite of_le_cons.
  rewrite Nat2Z.inj_succ, Z.pow_succ_r in H by lia. rewrite IH by lia. lia.
Qed.
Lemma native_len en k x : length (native_bytes en k x) = k.
Proof. destruct en; cbn [native_bytes]; unfold be_bytes; rewrite ?rev_length; apply le_bytes_len. Qed.
Lemma bytes_rev l : bytes l -> bytes (rev l).
Proof. intro B. apply Forall_forall. intros x Hx. apply in_rev in Hx. now apply (proj1 (Forall_forall _ _) B). Qed.
Lemma native_bytes_bytes en k x : bytes (native_bytes en k x).
Proof. destruct en; cbn [native_bytes]; unfold be_bytes; [|apply bytes_rev]; apply le_bytes_bytes. Qed.
Lemma of_native_bytes en k x : uint k x -> of_native en (native_bytes en k x) = x.
Proof.
  intro H. destruct en; cbn [native_bytes of_native].
  - now apply of_le_le_bytes.
  - unfold be_bytes. change (of_be (rev (le_bytes k x))) with (of_le (le_bytes k x)). now apply of_le_le_bytes.
Qed.
Lemma native_swap en k x : native_bytes en k (swap_bytes k x) = rev (native_bytes en k x).
Proof.
  assert (E : le_bytes k (swap_bytes k x) = rev (le_bytes k x)).
  { unfold swap_bytes. rewrite <- (rev_involutive (le_bytes k x)) at 1. change (of_be (rev (rev (le_bytes k x)))) with (of_le (rev (le_bytes k x))).
    replace k with (length (rev (le_bytes k x))) at 1 by (rewrite rev_length; apply le_bytes_len).
    apply le_bytes_of_le, bytes_rev, le_bytes_bytes. }
  destruct en; cbn [native_bytes]; unfold be_bytes; now rewrite E.
Qed.
Lemma arr_app en k a b : arr en k (a ++ b) = arr en k a ++ arr en k b.
Proof. apply flat_map_app. Qed.
Lemma arr_len en k xs : length (arr en k xs) = (k * length xs)%nat.
Proof. induction xs as [|x xs IH]; cbn [arr flat_map length]; [lia|]. fold (arr en k xs). rewrite app_length, native_len, IH. lia. Qed.
Lemma arr_bytes en k xs : bytes (arr en k xs).
Proof. induction xs as [|x xs IH]; [constructor|]. apply bytes_app. split; [apply native_bytes_bytes|exact IH]. Qed.
(** the representation determines the integers *)
Lemma arr_inj en k xs ys : (0 < k)%nat -> Forall (uint k) xs -> Forall (uint k) ys -> arr en k xs = arr en k ys -> xs = ys.
Proof.
  intros Hk Fx. revert ys. induction Fx as [|x xs Hx Fx IH]; intros ys Fy E.
  - destruct ys as [|y ys]; [reflexivity|]. apply (f_equal (@length Z)) in E. rewrite !arr_len in E. cbn [length] in E. lia.
  - destruct ys as [|y ys]; [apply (f_equal (@length Z)) in E; rewrite !arr_len in E; cbn [length] in E; lia|].
    inversion Fy; subst. change (native_bytes en k x ++ arr en k xs = native_bytes en k y ++ arr en k ys) in E.
    assert (E1 : native_bytes en k x = native_bytes en k y).
    { rewrite <- (firstn_app_exact (native_bytes en k x) (arr en k xs) k) by apply native_len. rewrite E.
      apply firstn_app_exact, native_len. }
    f_equal; [rewrite <- (of_native_bytes en k x), <- (of_native_bytes en k y) by auto; now rewrite E1|].
    apply IH; auto. rewrite E1 in E. now apply app_inv_head in E.
Qed.

(** ** the vector instruction *)
Lemma rev_elems_arr en k xs : rev_elems (length xs) k (arr en k xs) = arr en k (map (swap_bytes k) xs).
Proof.
  induction xs as [|x xs IH]; [reflexivity|]. change (arr en k (x :: xs)) with (native_bytes en k x ++ arr en k xs).
  cbn [length rev_elems map]. rewrite firstn_app_exact, skipn_app_exact, IH by apply native_len.
  rewrite <- native_swap. reflexivity.
Qed.
Lemma swap_simd_rev t s a : sse41p s -> length a = 32%nat -> swap_simd t s a = Some (rev_elems (LANES t) (esize t) a).
Proof. intros Hs L. explode a. destruct s; try discriminate Hs; destruct t; reflexivity. Qed.
Lemma swap_simd_ok en t s xs : sse41p s -> length xs = LANES t ->
  swap_simd t s (arr en (esize t) xs) = Some (arr en (esize t) (map (swap_bytes (esize t)) xs)).
Proof.
  intros Hs L. rewrite swap_simd_rev, <- L, rev_elems_arr; auto. rewrite arr_len, L. destruct t; reflexivity.
Qed.

(** ** the loops *)
Section Swap.
  Context (en : endian) (t : elem) (m0 : mem) (bs so : nat) (xs : list Z) (bd d0 : nat).
  Notation k := (esize t).
  Notation A := (arr en (esize t)).
  Notation sw := (map (swap_bytes (esize t))).
  Notation N := (length (A xs)).
  Notation ppt := (pp bs so (A xs)).
  Notation qqt := (qq bd d0).
  Notation TSt := (TS m0 bs so (A xs) bd d0 N).
  Hypothesis HX : Forall (uint (esize t)) xs.
  Hypothesis alias : (bs <> bd \/ so + N <= d0 \/ d0 <= so)%nat.

  Definition St (zs ys : list Z) (m : mem) : Prop := xs = zs ++ ys /\ TSt (A (sw zs)) (A ys) m.

  Lemma blk_loop g fuel body a tail zs0 m (Q : ptr * ptr -> mem -> Prop) :
    (0 < g)%nat -> (length a mod g = 0)%nat -> (length a < g * fuel)%nat -> St zs0 (a ++ tail) m ->
    (forall zs x ys m, length x = g -> St zs (x ++ ys) m ->
       wp (body (ppt (A (x ++ ys)), qqt (A (sw zs))))
          (fun st m' => st = (ppt (A ys), qqt (A (sw (zs ++ x)))) /\ St (zs ++ x) ys m') m) ->
    (forall zs m, St zs tail m -> Q (ppt (A tail), qqt (A (sw zs))) m) ->
    wp (while_ fuel (fun st => plt (fst st) (ppt (A tail))) body (ppt (A (a ++ tail)), qqt (A (sw zs0)))) Q m.
  Proof.
    intros Hg Hm Hf HS Hb HQ. revert a zs0 m Hm Hf HS. induction fuel as [|f IH]; intros a zs0 m Hm Hf HS; [lia|].
    cbn [while_ fst]. assert (Ht : (0 < k)%nat) by (destruct t; cbn; lia).
    assert (LA : (length (A (a ++ tail)) <= N)%nat) by (destruct HS as [_ T]; now apply TS_suffix in T).
    rewrite plt_pp by (rewrite ?arr_len, ?app_length in *; nia).
    destruct (Nat.eqb_spec (length (A (a ++ tail))) (length (A tail))) as [E|NE]; cbn [negb].
    - rewrite !arr_len, app_length in E. assert (a = []) as -> by (destruct a; [reflexivity|cbn [length] in E; nia]).
      now apply wp_ret, HQ.
    - rewrite !arr_len, app_length in NE.
      assert (g <= length a)%nat. { apply Nat.mod_divide in Hm as [q Hq]; [|lia]. destruct q; nia. }
      destruct (split_at a g) as (x & a' & -> & Lx); [auto|]. rewrite <- app_assoc in *. apply wp_bind.
      eapply wp_mono; [now apply Hb|]. intros st m' (-> & HS'). apply IH; auto.
      + rewrite app_length, Lx in Hm. replace (g + length a')%nat with (length a' + 1 * g)%nat in Hm by lia. now rewrite Nat.mod_add in Hm by lia.
      + rewrite app_length in Hf. nia.
  Qed.

  (** one step: [n] bytes of input replaced by the swapped ones *)
  Lemma step_ok zs x ys m n (f : list Z -> M (list Z)) : n = length (A x) -> St zs (x ++ ys) m ->
    (forall m Q, (Q (A (sw x)) m : Prop) -> wp (f (A x)) Q m) ->
    wp (v <- load (ppt (A (x ++ ys))) n ;; y <- f v ;; store (qqt (A (sw zs))) y ;;;
        p <- padd (ppt (A (x ++ ys))) n ;; d <- padd (qqt (A (sw zs))) n ;; ret (p, d))
       (fun st m' => st = (ppt (A ys), qqt (A (sw (zs ++ x)))) /\ St (zs ++ x) ys m') m.
  Proof.
    intros -> [E T] Hf. rewrite !arr_app in *. assert (L := TS_suffix _ _ _ _ _ _ _ _ _ _ T).
    apply wp_bind. eapply wp_src_load; [exact T|reflexivity|]. apply wp_bind, Hf. apply TS_adv in T.
    assert (LN : N = (length (A (sw zs)) + length (A (sw x)) + length (A ys))%nat) by (rewrite E, !arr_len, !app_length, !map_length; lia).
    assert (Lx : length (A (sw x)) = length (A x)) by (rewrite !arr_len, map_length; reflexivity).
    apply wp_bind. eapply wp_dst_store; [exact T|lia|lia|]. intros m' T'.
    apply wp_bind. eapply wp_src_add; [exact T'|reflexivity| |exact L]. apply wp_bind.
    eapply wp_dst_add; [exact T'|exact Lx|]. apply wp_ret. rewrite map_app, arr_app. split; [reflexivity|].
    split; [now rewrite <- app_assoc|]. now rewrite map_app, arr_app.
  Qed.

  Lemma uint_in zs x ys : xs = zs ++ x :: ys -> uint k x.
  Proof. intro E. rewrite E in HX. apply Forall_app in HX as [_ H]. now inversion H. Qed.

  Lemma bswap_fallback_run zs ys m : St zs ys m ->
    wp (bswap_fallback en t (ppt (A ys)) (length ys) (qqt (A (sw zs)))) (fun _ m' => St xs [] m') m.
  Proof.
    intro HS. unfold bswap_fallback. apply wp_bind.
    eapply wp_src_end_all; [apply HS|apply arr_len|]. change (@nil Z) with (A []) at 1. apply wp_bind.
    replace (ppt (A ys)) with (ppt (A (ys ++ []))) by now rewrite app_nil_r.
    apply (blk_loop 1 _ _ ys []); [lia|apply Nat.mod_1_r|lia|now rewrite app_nil_r| |].
    - clear ys m HS zs. intros zs x ys m Lx HS. destruct x as [|x [|]]; try discriminate Lx. cbn [fst snd].
      eapply wp_mono; [apply (step_ok zs [x] ys m k (fun v => ret (native_bytes en k (swap_bytes k (of_native en v)))))|].
      + rewrite arr_len. cbn [length]. lia.
      + exact HS.
      + intros m' Q HQ. apply wp_ret. cbn [arr flat_map map] in *. rewrite app_nil_r in *.
        rewrite of_native_bytes; [exact HQ|]. destruct HS as [E _]. eapply uint_in. exact E.
      + auto.
    - intros zs' m' [E T]. apply wp_ret. rewrite app_nil_r in E. subst zs'. split; [now rewrite app_nil_r|exact T].
  Qed.

  Lemma bswap_simd_run s m : sse41p s -> St [] xs m ->
    wp (bswap_simd en t s (ppt (A xs)) (length xs) (qqt (A []))) (fun _ m' => St xs [] m') m.
  Proof.
    intros Hs HS. unfold bswap_simd. set (n := (length xs / LANES t * LANES t)%nat).
    assert (Lp : (0 < LANES t)%nat) by (destruct t; cbn; lia).
    assert (Ln : (n <= length xs)%nat) by (unfold n; rewrite Nat.mul_comm; apply Nat.mul_div_le; lia).
    destruct (split_at xs n Ln) as (a & tail & E & La).
    assert (Lt : length tail = (length xs mod LANES t)%nat).
    { assert (length xs = n + length tail)%nat by (rewrite E at 1; rewrite app_length; lia).
      rewrite Nat.mod_eq by lia. unfold n in *. lia. }
    assert (EA : ppt (A xs) = ppt (A (a ++ tail))) by now rewrite <- E.
    assert (EB : ppt (A xs) = ppt (A a ++ A tail)) by now rewrite <- arr_app, <- E.
    apply wp_bind. rewrite EB.
    eapply (wp_src_end m0 bs so (A xs) bd d0 N (A [])); [rewrite <- arr_app, <- E; apply HS|rewrite arr_len, La; reflexivity|].
    rewrite <- EB, EA. apply wp_bind. change (A []) with (A (sw [])).
    apply (blk_loop (LANES t) _ _ a tail []); auto.
    - rewrite La. unfold n. apply Nat.mod_mul. lia.
    - rewrite E, app_length. destruct t; cbn [LANES]; lia.
    - now rewrite <- E.
    - clear HS m. intros zs x ys m Lx HS. cbn [fst snd].
      assert (L32 : length (A x) = 32%nat) by (rewrite arr_len, Lx; destruct t; reflexivity).
      replace (k * LANES t)%nat with 32%nat by (destruct t; reflexivity).
      apply (step_ok zs x ys m 32 (fun v => lift (swap_simd t s v))); auto.
      intros m' Q HQ. rewrite swap_simd_ok by auto. now apply wp_ret.
    - intros zs m' HS'. rewrite <- Lt. now apply bswap_fallback_run.
  Qed.
End Swap.

Definition swap_isa (s : isa) : Prop := s = Fallback \/ sse41p s.
Lemma swap_run en t s m bs so xs bd d0 : swap_isa s -> Forall (uint (esize t)) xs ->
  bytes_at m bs so (arr en (esize t) xs) -> (d0 + length (arr en (esize t) xs) <= length (m bd))%nat ->
  (bs <> bd \/ so + length (arr en (esize t) xs) <= d0 \/ d0 <= so)%nat ->
  wp (swap_endianness en t s (bs, so) (length xs) (bd, d0))
   (fun _ m' => bytes_at m' bd d0 (arr en (esize t) (map (swap_bytes (esize t)) xs)) /\
                Frame m bd d0 (length (arr en (esize t) xs)) m') m.
Proof.
  intros Hs HX H R S.
  assert (HS : St en t m bs so xs bd d0 [] xs m) by (split; [reflexivity|now apply TS_init]).
  assert (W : wp (swap_endianness en t s (pp bs so (arr en (esize t) xs) (arr en (esize t) xs)) (length xs) (qq bd d0 (arr en (esize t) [])))
                 (fun _ m' => St en t m bs so xs bd d0 xs [] m') m).
  { assert (F := bswap_fallback_run en t m bs so xs bd d0 HX S [] xs m HS).
    assert (G := bswap_simd_run en t m bs so xs bd d0 HX S s m).
    destruct Hs as [->|Hs]; [exact F|specialize (G Hs HS)].
    destruct s; try discriminate Hs; exact G. }
  rewrite pp_total in W. change (arr en (esize t) []) with (@nil Z) in W. rewrite qq_nil in W.
  eapply wp_mono; [exact W|]. intros _ m' [_ T]. split; [now apply TS_out in T|now apply TS_frame in T].
Qed.

(** the arithmetic of [swap_bytes] *)
Lemma swap_of l x : bytes l -> x = of_le l -> swap_bytes (length l) x = of_le (rev l).
Proof. intros B ->. unfold swap_bytes. rewrite le_bytes_of_le by auto. unfold of_le. now rewrite rev_involutive. Qed.
Lemma div_mod_uniq x q r c : 0 <= r < c -> x = c * q + r -> x / c = q /\ x mod c = r.
Proof. intros H E. split; symmetry; [apply (Z.div_unique x c q r); auto|apply (Z.mod_unique x c q r); auto]. Qed.
Lemma swap16_of a b : byte a -> byte b -> swap16 (a + 256 * b) = b + 256 * a.
Proof. unfold byte, swap16. intros. destruct (div_mod_uniq (a + 256 * b) b a 256) as [-> ->]; lia. Qed.
Lemma swap32_of a b c d : byte a -> byte b -> byte c -> byte d ->
  swap32 (a + 256 * b + 65536 * c + 16777216 * d) = d + 256 * c + 65536 * b + 16777216 * a.
Proof.
  intros. unfold swap32.
  destruct (div_mod_uniq (a + 256 * b + 65536 * c + 16777216 * d) (c + 256 * d) (a + 256 * b) 65536) as [-> ->];
    [unfold byte in *; lia|lia|]. rewrite !swap16_of by auto. lia.
Qed.
Lemma uint_bytes k x : uint k x -> exists l, length l = k /\ bytes l /\ x = of_le l.
Proof. intro U. exists (le_bytes k x). split; [apply le_bytes_len|]. split; [apply le_bytes_bytes|]. symmetry. now apply of_le_le_bytes. Qed.
Lemma swap_bytes_16 x : uint 2 x -> swap_bytes 2 x = swap16 x.
Proof.
  intro U. apply uint_bytes in U as (l & L & B & ->). rewrite <- L at 1. rewrite (swap_of l) by auto.
  explode l. inv_bytes. cbn [rev app]. rewrite !of_le_cons. change (of_le []) with 0.
  rewrite !Z.mul_0_r, !Z.add_0_r. now rewrite swap16_of.
Qed.
Lemma swap_bytes_32 x : uint 4 x -> swap_bytes 4 x = swap32 x.
Proof.
  intro U. apply uint_bytes in U as (l & L & B & ->). rewrite <- L at 1. rewrite (swap_of l) by auto.
  explode l. inv_bytes. cbn [rev app]. rewrite !of_le_cons. change (of_le []) with 0.
  match goal with |- _ = swap32 ?e => match goal with |- context [rev] => fail 1 | |- (?d + 256 * (?c + 256 * (?b + 256 * (?a + _)))) = _ =>
    replace e with (a + 256 * b + 65536 * c + 16777216 * d) by lia; rewrite (swap32_of a b c d) by auto; lia end end.
Qed.
Lemma swap_bytes_64 x : uint 8 x -> swap_bytes 8 x = swap64 x.
Proof.
  intro U. apply uint_bytes in U as (l & L & B & ->). rewrite <- L at 1. rewrite (swap_of l) by auto.
  explode l. inv_bytes. cbn [rev app]. rewrite !of_le_cons. change (of_le []) with 0.
  match goal with |- ?h + 256 * (?g + 256 * (?f + 256 * (?e + 256 * (?d + 256 * (?c + 256 * (?b + 256 * (?a + _))))))) = swap64 ?x =>
    unfold swap64;
    destruct (div_mod_uniq x (e + 256 * f + 65536 * g + 16777216 * h) (a + 256 * b + 65536 * c + 16777216 * d) 4294967296) as [-> ->];
      [unfold byte in *; lia|lia|]; rewrite (swap32_of a b c d), (swap32_of e f g h) by auto; lia end.
Qed.
(** the byte order swapped twice is the original *)
Lemma swap_bytes_uint k x : uint k (swap_bytes k x).
Proof.
  unfold uint, swap_bytes. assert (G : forall l, bytes l -> 0 <= of_le l < 256 ^ Z.of_nat (length l)).
  { induction 1 as [|a l Ha B IH]; [cbn; lia|]. rewrite of_le_cons. cbn [length]. rewrite Nat2Z.inj_succ, Z.pow_succ_r by lia. unfold byte in Ha. lia. }
  assert (E : of_be (le_bytes k x) = of_le (rev (le_bytes k x))) by (unfold of_le; now rewrite rev_involutive).
  rewrite E. replace k with (length (rev (le_bytes k x))) at 3 by (rewrite rev_length; apply le_bytes_len).
  apply G, bytes_rev, le_bytes_bytes.
Qed.
Lemma swap_twice k x : uint k x -> swap_bytes k (swap_bytes k x) = x.
Proof.
  intro U. assert (E := native_swap LE k x). cbn [native_bytes] in E. unfold swap_bytes at 1. rewrite E.
  change (of_be (rev (le_bytes k x))) with (of_le (le_bytes k x)). now apply of_le_le_bytes.
Qed.
