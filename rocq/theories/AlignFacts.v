(** Facts about Align.v. *)
From Coq Require Import ZArith List Bool Lia ZifyNat ZifyBool.
From Verif Require Import Bytes Mem MemFacts Isa Simd SimdFacts Ints Slices Unicode Align.
Import ListNotations.
Open Scope Z_scope.
Open Scope m_scope.
Ltac Zify.zify_post_hook ::= Z.div_mod_to_equations.

(** ** Programs that agree on a pure invariant of the loop state *)
Lemma while_ext {S} (Inv : S -> Prop) cond (body1 body2 : S -> M S) :
  (forall st m, Inv st -> cond st = true -> body1 st m = body2 st m) ->
  (forall st m st' m', Inv st -> cond st = true -> body2 st m = Ret st' m' -> Inv st') ->
  forall fuel st m, Inv st -> while_ fuel cond body1 st m = while_ fuel cond body2 st m /\
    (forall st' m', while_ fuel cond body2 st m = Ret st' m' -> Inv st').
Proof.
  intros H1 H2 fuel. induction fuel as [|f IH]; intros st m HI; [split; [reflexivity|discriminate]|]. cbn [while_].
  destruct (cond st) eqn:C; [|split; [reflexivity|unfold ret; intros ? ? K; injection K as <- <-; exact HI]].
  unfold bind. rewrite H1 by auto. destruct (body2 st m) as [st' m'| | |] eqn:E; try (split; [reflexivity|discriminate]).
  apply IH. eapply H2; eauto.
Qed.
Lemma bind_ext {X Y} (c1 c2 : M X) (k1 k2 : X -> M Y) m : c1 m = c2 m -> (forall x m', c2 m = Ret x m' -> k1 x m' = k2 x m') ->
  bind c1 k1 m = bind c2 k2 m.
Proof. intros H K. unfold bind. rewrite H. destruct (c2 m); auto. Qed.
Lemma bind_inv {X Y} (c : M X) (k : X -> M Y) m y m' : bind c k m = Ret y m' -> exists x m1, c m = Ret x m1 /\ k x m1 = Ret y m'.
Proof. unfold bind. destruct (c m) as [x m1| | |]; try discriminate. eauto. Qed.
Lemma padd_inv p k m q m' : padd p k m = Ret q m' -> q = (fst p, snd p + k)%nat /\ m' = m.
Proof. unfold padd. destruct (_ <=? _)%nat; [|discriminate]. intro H. injection H as <- <-. auto. Qed.

(** ** Alignment *)
Lemma aligned_step A p n k : aligned A p n = true -> (k mod n = 0)%nat -> (n <> 0)%nat -> aligned A (fst p, snd p + k)%nat n = true.
Proof.
  unfold aligned, address. cbn [fst snd]. intros H Hk Hn. apply Z.eqb_eq in H. apply Z.eqb_eq.
  apply Nat.mod_divides in Hk as [c ->]; [|exact Hn].
  replace (A (fst p) + Z.of_nat (snd p + n * c)) with ((A (fst p) + Z.of_nat (snd p)) + Z.of_nat c * Z.of_nat n) by lia.
  rewrite Z_mod_plus_full. exact H.
Qed.
Lemma read_al_eq A n p k : aligned A p n = true -> read_al A n p k = load p k.
Proof. intros H. unfold read_al. now rewrite H. Qed.
Lemma write_al_eq A n p x : aligned A p n = true -> write_al A n p x = store p x.
Proof. intros H. unfold write_al. now rewrite H. Qed.
Lemma aligned_weaken A p n k : aligned A p (n * k) = true -> (n <> 0)%nat -> (k <> 0)%nat -> aligned A p n = true.
Proof.
  unfold aligned. intros H Hn Hk. apply Z.eqb_eq in H. apply Z.eqb_eq. apply Z.mod_divide in H; [|lia]. destruct H as [c Hc].
  rewrite Hc. replace (c * Z.of_nat (n * k)) with ((c * Z.of_nat k) * Z.of_nat n) by lia. apply Z_mod_mult.
Qed.

(** ** Loads and stores in halves *)
Lemma sequence_app (a b : list cell) : sequence (a ++ b) =
  match sequence a, sequence b with Some x, Some y => Some (x ++ y) | _, _ => None end.
Proof.
  induction a as [|[x|] a IH]; cbn [sequence app]; [now destruct (sequence b)| |reflexivity].
  rewrite IH. destruct (sequence a); [|reflexivity]. destruct (sequence b); reflexivity.
Qed.
Lemma skipn_sk {X} a b (l : list X) : skipn a (skipn b l) = skipn (b + a) l.
Proof. revert l. induction b as [|b IH]; intros l; [reflexivity|]. destruct l; [now rewrite !skipn_nil|]. apply IH. Qed.
Lemma firstn_split {X} j k (l : list X) : firstn (j + k) l = firstn j l ++ firstn k (skipn j l).
Proof.
  revert l. induction j as [|j IH]; intros l; [reflexivity|]. destruct l; [now rewrite skipn_nil, !firstn_nil|].
  cbn [Nat.add firstn skipn app]. now rewrite IH.
Qed.
Lemma load_split p j k m : load p (j + k) m = (x <- load p j ;; q <- padd p j ;; y <- load q k ;; ret (x ++ y)) m.
Proof.
  unfold bind, load, padd, ret. rewrite firstn_split, sequence_app, skipn_sk.
  set (c1 := firstn j (skipn (snd p) (m (fst p)))). set (c2 := firstn k (skipn (snd p + j) (m (fst p)))).
  destruct (Nat.leb_spec (snd p + (j + k)) (length (m (fst p)))) as [L|L];
    destruct (Nat.leb_spec (snd p + j) (length (m (fst p)))) as [L1|L1]; try lia; try reflexivity;
    (destruct (sequence c1) as [x|]; [|reflexivity]); rewrite (proj2 (Nat.leb_le _ _) L1); cbn [fst snd];
    destruct (Nat.leb_spec (snd p + j + k) (length (m (fst p)))) as [L2|L2]; try lia; fold c2; destruct (sequence c2); reflexivity.
Qed.
(** outcomes equal up to memories that agree everywhere *)
Definition same_res {X} (r1 r2 : res X) : Prop :=
  match r1, r2 with
  | Ret a m1, Ret b m2 => a = b /\ same_mem m1 m2
  | UB, UB | Panic, Panic | OutOfFuel, OutOfFuel => True
  | _, _ => False
  end.
Lemma splice_split (l : list cell) o a b : (o + length (a ++ b) <= length l)%nat -> splice l o (a ++ b) = splice (splice l o a) (o + length a) b.
Proof.
  intros L. rewrite app_length in L. unfold splice. rewrite app_length, map_app.
  assert (E0 : length (firstn o l) = o) by (rewrite firstn_length; lia). set (f := firstn o l) in *.
  assert (E1 : length (f ++ map Some a) = (o + length a)%nat) by (rewrite app_length, map_length, E0; reflexivity).
  set (g := f ++ map Some a) in *. rewrite (app_assoc f (map Some a)). fold g.
  assert (Ef : firstn (o + length a) (g ++ skipn (o + length a) l) = g) by (rewrite <- E1; apply firstn_app_exact; reflexivity).
  assert (Es : skipn (o + length a + length b) (g ++ skipn (o + length a) l) = skipn (o + (length a + length b)) l).
  { rewrite <- (skipn_sk (length b) (o + length a)), (skipn_app_exact g) by exact E1. rewrite skipn_sk, Nat.add_assoc. reflexivity. }
  rewrite Ef, Es.
  unfold g. rewrite <- !app_assoc. reflexivity.
Qed.
Lemma store_split p a b m : same_res (store p (a ++ b) m) ((store p a ;;; q <- padd p (length a) ;; store q b) m).
Proof.
  unfold bind, store, padd, ret. cbn [fst snd]. rewrite app_length.
  assert (LL : (snd p + length a <= length (m (fst p)) -> length (upd m (fst p) (splice (m (fst p)) (snd p) a) (fst p)) = length (m (fst p)))%nat).
  { intro L. unfold upd. rewrite Nat.eqb_refl. now apply splice_length. }
  destruct (Nat.leb_spec (snd p + (length a + length b)) (length (m (fst p)))) as [L|L];
    destruct (Nat.leb_spec (snd p + length a) (length (m (fst p)))) as [L1|L1]; try lia; try exact I.
  - rewrite LL by exact L1. rewrite (proj2 (Nat.leb_le _ _) L1). cbn [fst snd]. rewrite LL by exact L1.
    destruct (Nat.leb_spec (snd p + length a + length b) (length (m (fst p)))); [|lia]. split; [reflexivity|].
    intro b'. unfold upd. rewrite Nat.eqb_refl. destruct (b' =? fst p)%nat; [|reflexivity].
    symmetry. apply splice_split. rewrite app_length. lia.
  - rewrite LL by exact L1. rewrite (proj2 (Nat.leb_le _ _) L1). cbn [fst snd]. rewrite LL by exact L1.
    destruct (Nat.leb_spec (snd p + length a + length b) (length (m (fst p)))); [lia|exact I].
Qed.
Lemma same_res_refl {X} (r : res X) : same_res r r.
Proof. destruct r; cbn; auto. split; [reflexivity|]. intro. reflexivity. Qed.

(** instruction sets that have vectors at all *)
Definition vector_isa (s : isa) : Prop := s <> Fallback.
Lemma v128_load_unaligned_eq s p : vector_isa s -> v128_load_unaligned s p = load p 16.
Proof. intros H. destruct s; try reflexivity. now destruct H. Qed.
Lemma v128_store_unaligned_eq s p a : vector_isa s -> v128_store_unaligned s p a = store p a.
Proof. intros H. destruct s; try reflexivity. now destruct H. Qed.
Lemma v256_load_unaligned_eq s p m : vector_isa s -> v256_load_unaligned s p m = load p 32 m.
Proof.
  intros H. change 32%nat with (16 + 16)%nat. destruct s; try (now destruct H); try reflexivity;
    symmetry; apply load_split.
Qed.
Lemma v256_store_unaligned_eq s p a m : vector_isa s -> length a = 32%nat -> same_res (v256_store_unaligned s p a m) (store p a m).
Proof.
  intros H L. assert (G : same_res ((store p (firstn 16 a) ;;; q <- padd p 16 ;; store q (skipn 16 a)) m) (store p a m)).
  { replace (store p a m) with (store p (firstn 16 a ++ skipn 16 a) m) by (now rewrite firstn_skipn). assert (L1 : length (firstn 16 a) = 16%nat) by (rewrite firstn_length; lia).
    assert (S := store_split p (firstn 16 a) (skipn 16 a) m). rewrite L1 in S.
    destruct (store p (firstn 16 a ++ skipn 16 a) m) as [u1 m1| | |], ((store p (firstn 16 a) ;;; q <- padd p 16 ;; store q (skipn 16 a)) m) as [u2 m2| | |];
      cbn in *; auto. destruct S as [-> S]. split; [reflexivity|]. intro b. symmetry. apply S. }
  destruct s; try (now destruct H); try exact G; apply same_res_refl.
Qed.
Lemma dbg_ok A dbg p n m : aligned A p n = true -> debug_assert_ptr_align A dbg p n m = Ret tt m.
Proof. intros H. unfold debug_assert_ptr_align. rewrite H. now rewrite andb_false_r. Qed.
Lemma v128_load_eq A dbg s p m : vector_isa s -> aligned A p 16 = true -> v128_load A dbg s p m = load p 16 m.
Proof.
  intros H Al. unfold v128_load, bind. rewrite dbg_ok, read_al_eq by exact Al.
  destruct s; try (now destruct H); reflexivity.
Qed.
Lemma v128_store_eq A dbg s p a m : vector_isa s -> aligned A p 16 = true -> v128_store A dbg s p a m = store p a m.
Proof.
  intros H Al. unfold v128_store, bind. rewrite dbg_ok, write_al_eq by exact Al.
  destruct s; try (now destruct H); reflexivity.
Qed.
Lemma v256_load_eq A dbg s p m : vector_isa s -> aligned A p 32 = true -> v256_load A dbg s p m = load p 32 m.
Proof.
  intros H Al. assert (A16 : aligned A p 16 = true) by (apply (aligned_weaken A p 16 2); [exact Al|discriminate|discriminate]).
  assert (A16' : aligned A (fst p, snd p + 16)%nat 16 = true) by (apply aligned_step; [exact A16|reflexivity|discriminate]).
  assert (G : (x0 <- v128_load A dbg s p ;; q <- padd p 16 ;; x1 <- v128_load A dbg s q ;; ret (from_v128x2 (x0, x1))) m = load p 32 m).
  { change 32%nat with (16 + 16)%nat. rewrite load_split. apply bind_ext; [now apply v128_load_eq|]. intros x m1 _.
    apply bind_ext; [reflexivity|]. intros q m2 E. apply padd_inv in E as [-> ->]. apply bind_ext; [now apply v128_load_eq|]. reflexivity. }
  unfold v256_load, bind at 1. rewrite dbg_ok, read_al_eq by exact Al.
  destruct s; try (now destruct H); try exact G; reflexivity.
Qed.
Lemma v256_store_eq A dbg s p a m : vector_isa s -> aligned A p 32 = true -> length a = 32%nat -> same_res (v256_store A dbg s p a m) (store p a m).
Proof.
  intros H Al L. assert (A16 : aligned A p 16 = true) by (apply (aligned_weaken A p 16 2); [exact Al|discriminate|discriminate]).
  assert (A16' : aligned A (fst p, snd p + 16)%nat 16 = true) by (apply aligned_step; [exact A16|reflexivity|discriminate]).
  assert (G : (v128_store A dbg s p (fst (to_v128x2 a)) ;;; q <- padd p 16 ;; v128_store A dbg s q (snd (to_v128x2 a))) m =
    (v128_store_unaligned s p (fst (to_v128x2 a)) ;;; q <- padd p 16 ;; v128_store_unaligned s q (snd (to_v128x2 a))) m).
  { apply bind_ext; [rewrite v128_store_eq, v128_store_unaligned_eq by auto; reflexivity|]. intros x m1 _.
    apply bind_ext; [reflexivity|]. intros q m2 E. apply padd_inv in E as [-> ->]. now rewrite v128_store_eq, v128_store_unaligned_eq. }
  assert (U := v256_store_unaligned_eq s p a m H L).
  unfold v256_store, bind at 1. rewrite dbg_ok, write_al_eq by exact Al.
  destruct s; try (now destruct H); try apply same_res_refl; exact (eq_ind_r (fun r => same_res r (store p a m)) U G).
Qed.

(** ** The typed loops *)
Lemma utf32_fallback_al A en src len m : aligned A src 4 = true -> is_utf32le_fallback_al A en src len m = is_utf32le_fallback en src len m.
Proof.
  intros Al. unfold is_utf32le_fallback_al, is_utf32le_fallback. apply bind_ext; [reflexivity|]. intros e m1 _.
  apply bind_ext; [|reflexivity].
  apply (while_ext (fun st => aligned A (fst st) 4 = true)); [| |exact Al].
  - intros st m2 HA _. now rewrite read_al_eq.
  - intros st m2 st' m2' HA _ E. apply bind_inv in E as (l & m3 & _ & E). apply bind_inv in E as (q & m4 & Eq & E).
    apply padd_inv in Eq as [-> _]. unfold ret in E. injection E as <- _. cbn [fst].
    apply aligned_step; [exact HA|reflexivity|discriminate].
Qed.
Lemma utf32_al A en s src len m : aligned A src 4 = true -> is_utf32le_al A en s src len m = is_utf32le en s src len m.
Proof.
  intros Al. assert (G : vector_isa s -> is_utf32le_simd_al A en s src len m = is_utf32le_simd en s src len m).
  { intro Hs. unfold is_utf32le_simd_al, is_utf32le_simd. apply bind_ext; [reflexivity|]. intros y m1 _.
    apply bind_ext; [reflexivity|]. intros e m2 _.
    assert (W := while_ext (fun st : ptr * list Z => aligned A (fst st) 4 = true) (fun st => plt (fst st) e)
      (fun st => x <- v256_load_unaligned s (fst st) ;; y <- lift (utf32_step s (snd st) x) ;; p <- padd (fst st) 32 ;; ret (p, y))
      (fun st => x <- load (fst st) 32 ;; y <- lift (utf32_step s (snd st) x) ;; p <- padd (fst st) 32 ;; ret (p, y))).
    destruct (W ltac:(intros st m3 _ _; apply bind_ext; [now apply v256_load_unaligned_eq|reflexivity])
      ltac:(intros st m3 st' m3' HA _ E; apply bind_inv in E as (l & m4 & _ & E); apply bind_inv in E as (q & m5 & _ & E);
        apply bind_inv in E as (r & m6 & Eq & E); apply padd_inv in Eq as [-> _]; unfold ret in E; injection E as <- _; cbn [fst];
        apply aligned_step; [exact HA|reflexivity|discriminate]) (S len) (src, y) m2 Al) as [W1 W2].
    apply bind_ext; [exact W1|]. intros [p z] m3 E. apply W2 in E. cbn [fst] in E.
    apply bind_ext; [reflexivity|]. intros k m4 _. apply bind_ext; [reflexivity|]. intros c m5 _. apply bind_ext; [reflexivity|]. intros a m6 _.
    apply bind_ext; [now apply utf32_fallback_al|reflexivity]. }
  destruct s; try (apply G; discriminate). now apply utf32_fallback_al.
Qed.
Lemma bswap_fallback_al_eq A en t src len dst m : aligned A src (esize t) = true -> aligned A dst (esize t) = true ->
  bswap_fallback_al A en t src len dst m = bswap_fallback en t src len dst m.
Proof.
  intros A1 A2. unfold bswap_fallback_al, bswap_fallback. apply bind_ext; [reflexivity|]. intros e m1 _.
  apply bind_ext; [|reflexivity].
  apply (while_ext (fun st => aligned A (fst st) (esize t) = true /\ aligned A (snd st) (esize t) = true)); [| |split; [exact A1|exact A2]].
  - intros st m2 [H1 H2] _. rewrite read_al_eq by exact H1. apply bind_ext; [reflexivity|]. intros x m3 _. now rewrite write_al_eq.
  - intros st m2 st' m2' [H1 H2] _ E. apply bind_inv in E as (l & m3 & _ & E). apply bind_inv in E as (u & m4 & _ & E).
    apply bind_inv in E as (p & m5 & Ep & E). apply bind_inv in E as (d & m6 & Ed & E).
    apply padd_inv in Ep as [-> _]. apply padd_inv in Ed as [-> _]. unfold ret in E. injection E as <- _. cbn [fst snd].
    split; (apply aligned_step; [assumption|destruct t; reflexivity|destruct t; discriminate]).
Qed.
Lemma swap_al A en t s src len dst m : aligned A src (esize t) = true -> aligned A dst (esize t) = true ->
  swap_endianness_al A en t s src len dst m = swap_endianness en t s src len dst m.
Proof.
  intros A1 A2. assert (G : vector_isa s -> bswap_simd_al A en t s src len dst m = bswap_simd en t s src len dst m).
  { intro Hs. unfold bswap_simd_al, bswap_simd. apply bind_ext; [reflexivity|]. intros e m1 _.
    assert (W := while_ext (fun st => aligned A (fst st) (esize t) = true /\ aligned A (snd st) (esize t) = true) (fun st : ptr * ptr => plt (fst st) e)
      (fun st => x <- v256_load_unaligned s (fst st) ;; y <- lift (swap_simd t s x) ;; store (snd st) y ;;;
        p <- padd (fst st) (esize t * LANES t) ;; d <- padd (snd st) (esize t * LANES t) ;; ret (p, d))
      (fun st => x <- load (fst st) 32 ;; y <- lift (swap_simd t s x) ;; store (snd st) y ;;;
        p <- padd (fst st) (esize t * LANES t) ;; d <- padd (snd st) (esize t * LANES t) ;; ret (p, d))).
    destruct (W ltac:(intros st m3 _ _; apply bind_ext; [now apply v256_load_unaligned_eq|reflexivity])
      ltac:(intros st m3 st' m3' [H1 H2] _ E; apply bind_inv in E as (l & m4 & _ & E); apply bind_inv in E as (q & m5 & _ & E);
        apply bind_inv in E as (r & m6 & _ & E); apply bind_inv in E as (p & m7 & Ep & E); apply bind_inv in E as (d & m8 & Ed & E);
        apply padd_inv in Ep as [-> _]; apply padd_inv in Ed as [-> _]; unfold ret in E; injection E as <- _; cbn [fst snd];
        split; (apply aligned_step; [assumption|destruct t; reflexivity|destruct t; discriminate])) (S len) (src, dst) m1 (conj A1 A2)) as [W1 W2].
    apply bind_ext; [exact W1|]. intros [p d] m3 E. apply W2 in E as [E1 E2]. now apply bswap_fallback_al_eq. }
  destruct s; try (apply G; discriminate). now apply bswap_fallback_al_eq.
Qed.

(** ** [unroll] *)
Lemma chunks_concat {T} n fuel : forall l : list T, concat (fst (chunks_exact fuel n l)) ++ snd (chunks_exact fuel n l) = l.
Proof.
  induction fuel as [|f IH]; intros l; [reflexivity|]. cbn [chunks_exact].
  destruct (n <=? length l)%nat eqn:E; [|reflexivity]. specialize (IH (skipn n l)).
  destruct (chunks_exact f n (skipn n l)) as [c r]. cbn [fst snd concat] in *. rewrite <- app_assoc, IH. apply firstn_skipn.
Qed.
Lemma chunks_sizes {T} n fuel : (0 < n)%nat -> forall l : list T, (length l <= fuel)%nat ->
  Forall (fun c => length c = n) (fst (chunks_exact fuel n l)) /\ (length (snd (chunks_exact fuel n l)) < n)%nat.
Proof.
  intros Hn. induction fuel as [|f IH]; intros l L; cbn [chunks_exact]; [cbn; split; [constructor|lia]|].
  destruct (Nat.leb_spec n (length l)) as [Le|Lt]; [|cbn; split; [constructor|lia]].
  specialize (IH (skipn n l)). rewrite skipn_length in IH. destruct (chunks_exact f n (skipn n l)) as [c r]. cbn [fst snd] in *.
  destruct IH as [H1 H2]; [lia|]. split; [|exact H2]. constructor; [rewrite firstn_length; lia|exact H1].
Qed.
Lemma fold_chunks {T St} (f : St -> T -> St) c : forall st, fold_left (fun st chunk => fold_left f chunk st) c st = fold_left f (concat c) st.
Proof. induction c as [|x c IH]; intros st; [reflexivity|]. cbn [fold_left concat]. rewrite fold_left_app. apply IH. Qed.
