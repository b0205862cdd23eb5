(** The functions of BorrowsHeap.v under the tree rules; the lemmas match those of BorrowsHeapSteps.v and BorrowsHeapCalls.v. *)
From Coq Require Import ZArith List Bool Lia ZifyBool ZifyNat.
From Verif Require Import Bytes Mem MemFacts Slices Codec Conc ConcFacts Reify ConcApi ConcApiFacts Isa Simd Ints Hex Base64 Base32 Forgiving Heap HeapFacts Public
  Borrows BorrowsApi BorrowsFacts BorrowsLib BorrowsCalls BorrowsBridge BorrowsForgiving BorrowsHeap BorrowsHeapFacts BorrowsHeapSteps BorrowsHeapCalls
  TreeBorrows TreeFacts TreeCalls TreeHeap TreeHeapFacts.
Import ListNotations.
Open Scope nat_scope. Open Scope m_scope. Open Scope borrow_scope. Open Scope heap_scope.

(** while the call runs: [D] are the blocks that it allocates or changes; the parameter is [tfresh s0] *)
Definition thinv (s0 : trees) (p : ptr) (n ts : nat) (D : nat -> Prop) (s : trees) : Prop :=
  tree_ok s /\ tfresh s0 < tfresh s /\ ext s0 s /\ path s (tfresh s0) = tfresh s0 :: path s0 ts /\ calls s = [(tfresh s0, p, n)] :: calls s0 /\
  (forall b o, in_range (fst p) (snd p) n b o = false -> ~ D b -> perms s b o = perms s0 b o) /\
  readable s p n (tfresh s0) /\ (forall b o, cells_of p n b o -> perms s b o (tfresh s0) <> Some TActive) /\
  (forall t, t < tfresh s0 -> readable s0 p n t -> readable s p n t) /\
  (forall b o t, cells_of p n b o -> t < tfresh s0 -> perms s b o t = Some TActive -> perms s0 b o t = Some TActive).
Definition thpost (s0 : trees) (p : ptr) (n : nat) (D : nat -> Prop) (s : trees) : Prop :=
  tree_ok s /\ ext s0 s /\ calls s = calls s0 /\
  (forall b o, in_range (fst p) (snd p) n b o = false -> ~ D b -> perms s b o = perms s0 b o) /\
  (forall t, t < tfresh s0 -> readable s0 p n t -> readable s p n t) /\
  (forall b o t, cells_of p n b o -> t < tfresh s0 -> perms s b o t = Some TActive -> perms s0 b o t = Some TActive).
Definition off (p : ptr) (n b : nat) : Prop := n = 0 \/ fst p <> b.
Lemma off_apart p n b k : off p n b -> apart p n (b, 0) k.
Proof. intros [->|N]; [intros b' o H _; apply in_range_iff in H; lia|now apply apart_blocks]. Qed.
Lemma off_range p n b o : off p n b -> in_range (fst p) (snd p) n b o = false.
Proof. intro N. destruct (in_range _ _ _ _ _) eqn:E; [|reflexivity]. apply in_range_iff in E as [E Ho]. exfalso. destruct N; [lia|congruence]. Qed.
Lemma thinv_same s0 p n ts D s s' : tsame s s' -> tree_ok s' -> thinv s0 p n ts D s -> thinv s0 p n ts D s'.
Proof.
  intros (A & B & C & K') OK' (OK & L & E & P & K & EL & R & NA & KR & AC). split; [exact OK'|]. split; [lia|].
  split; [split; [lia|rewrite B; apply E]|]. split; [now rewrite B|]. split; [congruence|]. split; [intros b o H1 H2; rewrite A; auto|].
  assert (RR : forall u, readable s p n u -> readable s' p n u) by (intros u Ru b o Hb; unfold guarded; rewrite A, B, K'; now apply Ru).
  split; [auto|]. split; [intros b o Hb; rewrite A; auto|]. split; [auto|]. intros b o t. rewrite A. apply AC.
Qed.
Lemma thinv_ro s0 p n ts D t s s' : thinv s0 p n ts D s -> tree_ok s' -> ro_step p n t s s' -> thinv s0 p n ts D s'.
Proof.
  intros (OK & L & E & P & K & EL & R & NA & KR & AC) OK' ST. assert (ST' := ST). destruct ST as (E' & K' & EL' & C').
  split; [exact OK'|]. split; [destruct E'; lia|]. split; [exact (ext_trans _ _ _ E E')|]. split; [rewrite (proj2 E') by lia; exact P|]. split; [congruence|].
  split; [intros b o H1 H2; rewrite EL' by exact H1; now apply EL|]. split; [apply (readable_ro p n t s); auto|]. split; [|split].
  - intros b o Hb EA. apply (NA b o Hb). destruct (C' b o Hb) as [_ C2]. apply (C2 (tfresh s0)); [lia|exact EA].
  - intros u Lu Ru. apply (readable_ro p n t s); auto; lia.
  - intros b o u Hb Lu EA. apply AC; [exact Hb|exact Lu|]. destruct (C' b o Hb) as [_ C2]. apply (C2 u); [lia|exact EA].
Qed.
Lemma thinv_d s0 p n ts (D : nat -> Prop) b s s' : thinv s0 p n ts D s -> dstep b s s' -> D b -> off p n b -> thinv s0 p n ts D s'.
Proof.
  intros (OK & L & E & P & K & EL & R & NA & KR & AC) DS DB N. assert (CE : forall o b', cells_of p n b' o -> b' <> b) by (intros o b' Hb ->; rewrite (off_range p n b o N) in Hb; discriminate Hb). assert (DS' := DS). destruct DS as (OK' & E' & K' & EL').
  split; [exact OK'|]. split; [destruct E'; lia|]. split; [exact (ext_trans _ _ _ E E')|]. split; [rewrite (proj2 E') by lia; exact P|]. split; [congruence|].
  split; [intros b' o H1 H2; rewrite EL' by (intros ->; contradiction); now apply EL|]. split; [apply (readable_d b s s' p n); auto|]. split; [|split].
  - intros b' o Hb. rewrite EL' by exact (CE o b' Hb). now apply NA.
  - intros u Lu Ru. apply (readable_d b s s' p n); auto. lia.
  - intros b' o u Hb. rewrite EL' by exact (CE o b' Hb). now apply AC.
Qed.
Lemma wr_dstep s s' r j t : wr_step r j t s s' -> tree_ok s' -> dstep (fst r) s s'.
Proof.
  intros (F & P & K & EL & _) OK'. split; [exact OK'|]. split; [split; [lia|intros; now rewrite P]|]. split; [exact K|].
  intros b' o N. apply EL. unfold in_range. lia.
Qed.
Lemma ro_dstep s s' r j t : ro_step r j t s s' -> tree_ok s' -> dstep (fst r) s s'.
Proof. intros (E & K & EL & _) OK'. split; [exact OK'|]. split; [exact E|]. split; [exact K|]. intros b' o N. apply EL. unfold in_range. lia. Qed.
Lemma th_leave s0 p n ts D s : thinv s0 p n ts D s ->
  exists s', tperform Leave s = Some (0, s') /\ thpost s0 p n D s' /\ forall b k u, off p n b -> box_at s b k u -> box_at s' b k u.
Proof.
  intros (OK & L & E & P & K & EL & R & NA & KR & AC).
  destruct (leave_ro s (tfresh s0) p n (calls s0) OK K R NA) as (s' & EX & OK' & P' & F' & K' & EL' & A').
  exists s'. split; [exact EX|].
  assert (S' : ro_some p n (tfresh s0) s s') by (split; [split; [lia|intros; now rewrite P']|]; split; [exact EL'|exact A']).
  assert (G : incl (guarded s') (guarded s)) by (apply (guarded_leave _ _ [(tfresh s0, p, n)]); now rewrite K, K').
  split.
  - split; [exact OK'|]. split; [split; [lia|rewrite P'; apply E]|]. split; [exact K'|]. split; [intros b o H1 H2; rewrite EL' by exact H1; now apply EL|].
    split; [intros t Lt Rt; apply (readable_some p n (tfresh s0) s); auto; lia|]. intros b o t Hb Lt EA. apply AC; [exact Hb|exact Lt|]. destruct (A' b o Hb) as [_ C2]. apply (C2 t); [lia|exact EA].
  - intros b k u N B. apply (box_popped s s' [(tfresh s0, p, n)]); auto; [now rewrite K, K'|]. intro o. now apply EL', off_range.
Qed.

(** ** The source *)
Lemma th_start {A} p n ts (D : nat -> Prop) (body : nat -> hcode A) Q s m : tree_ok s -> ts < tfresh s -> tree_may_read s p n ts ->
  (forall u s1, (forall b k t, off p n b -> box_at s b k t -> box_at s1 b k t) -> thinv s p n ts D s1 -> can_read s1 p n u -> thgood (body u) (final Q) s1 m) ->
  thgood (hfn (hbind (lift (shared_param p n ts)) body)) Q s m.
Proof.
  intros OK L MR H. assert (R : readable s p n ts).
  { intros b o Hb. apply in_range_iff in Hb as [-> Ho]. replace o with (snd p + (o - snd p)) by lia. apply read_acc_rd, MR. lia. }
  apply thgood_fn. apply (thgood_lift (fun _ _ => True)); [nox|]. unfold shared_param. apply good_retag; [auto|exact OK|exact L|exact R|]. intros s1 C1.
  assert (R1 := child_readable _ _ _ _ _ _ _ (ok_enter _ OK) L (readable_enter _ _ _ _ R) C1). assert (C1' := C1).
  destruct C1 as (OK1 & F1 & E1 & P1 & K1 & EL1 & A1). change (tfresh (enter s)) with (tfresh s) in *. change (path (enter s) ts) with (path s ts) in *.
  change (calls (enter s)) with ([] :: calls s) in K1. cbv iota in K1. apply H; [|split; [exact OK1|]|split; [lia|exact R1]].
  - intros b k t N (Lt & W & C). split; [lia|]. split.
    + exact (child_writes_apart _ _ _ _ _ _ _ (b, 0) k t (ok_enter _ OK) Lt (off_apart _ _ _ _ N) C1' W).
    + intros o v Ho Hv. rewrite EL1 by (now apply off_range). change (perms (enter s)) with (perms s).
      destruct (child_guarded _ _ _ _ _ _ _ _ C1' Hv) as [[-> _]|Hv']; [|now apply C]. destruct OK as (_ & _ & O3). apply O3. cbn. lia.
  - split; [lia|]. split; [exact E1|]. split; [exact P1|]. split; [exact K1|]. split; [intros b o H1 _; now apply EL1|]. split; [exact R1|]. split; [|split].
    + intros b o Hb. destruct (A1 b o Hb) as [_ ->]. discriminate.
    + intros t Lt Rt. exact (child_keeps _ _ _ _ _ _ _ p n t (ok_enter _ OK) Lt (or_introl eq_refl) C1' Rt).
    + intros b o t Hb Lt EA. destruct (A1 b o Hb) as [[_ C2] _]. apply (C2 t); [exact Lt|exact EA].
Qed.
Lemma th_ro {A} s0 p n ts D (x : bcode nat) u (body : nat -> hcode A) Q s m : ro_op x p n u -> noexec x -> thinv s0 p n ts D s -> can_read s p n u ->
  (forall v s', (forall b k t, off p n b -> box_at s b k t -> box_at s' b k t) -> ext s s' -> thinv s0 p n ts D s' -> can_read s' p n u -> can_read s' p n v -> thgood (body v) Q s' m) ->
  thgood (hbind (lift x) body) Q s m.
Proof.
  intros HX NX I [L R] H. apply (thgood_lift (fun _ _ => True)); [exact NX|]. assert (OK : tree_ok s) by apply I. apply HX; [exact OK|now split|].
  intros v s' OK' ST R' _. apply H; auto.
  - intros b k t N. exact (box_ro_apart _ _ _ _ _ _ _ _ ST N).
  - apply ST.
  - exact (thinv_ro _ _ _ _ _ _ _ _ I OK' ST).
  - split; [destruct ST as ((A1 & _) & _); lia|]. now apply (readable_ro p n u s).
Qed.
(** the code of the model runs: it reads the source, and writes to a part of block [fst q] through [td] *)
Lemma th_exec {A X} s0 p n ts (D : nat -> Prop) q k K v td (c : M X) R (kk : X -> hcode A) Q s m : reified True (eq (fst q)) R c -> fst p <> fst q -> D (fst q) ->
  thinv s0 p n ts D s -> can_read s p n v -> box_at s (fst q) K td -> snd q + k <= K ->
  (exists y mm', c (only p n m) = Ret y mm' /\ only_changed (only p n m) (fst q) (snd q) k mm') ->
  (forall y m' s', c m = Ret y m' -> thinv s0 p n ts D s' -> ext s s' -> calls s' = calls s -> can_read s' p n v -> box_at s' (fst q) K td -> thgood (kk y) Q s' m') ->
  thgood (hbind (hexec (via2 (fst p) v (fst q) td) c) kk) Q s m.
Proof.
  intros [pr FO S] N DQ I0 RV B LK (y0 & mm' & E0 & FR) H. intros y m1 E. exists pr. assert (AP := apart_blocks p n q k N).
  set (I := fun s' => thinv s0 p n ts D s' /\ can_read s' p n v /\ box_at s' (fst q) K td /\ ext s s' /\ calls s' = calls s).
  assert (SUBK : forall b o, cells_of q k b o -> cells_of (fst q, 0) K b o) by (intros b o Hb; apply in_range_iff in Hb as [-> Hb]; apply in_range_iff; cbn; lia).
  assert (HD : forall b o, init mm' b o -> cells_of p n b o \/ cells_of q k b o).
  { intros b o Hi. destruct (frame_init _ _ _ _ _ _ _ FR Hi) as [C|C]; [left; exact (only_init _ _ _ _ _ C)|right; exact C]. }
  destruct (exec_ok R (eq (fst q)) (via2 (fst p) v (fst q) td) I pr (S Logic.I) s m (only p n m) y0 mm') as (s' & m' & ET & IE & _).
  - now rewrite (follows_imp _ _ FO).
  - apply only_less.
  - split; [exact I0|]. split; [exact RV|]. split; [exact B|]. split; [apply ext_refl|reflexivity].
  - apply serves_of.
    + intros s1 s2 SA OK2 (I1 & [L1 R1] & B1 & E1 & K1). split; [exact (thinv_same _ _ _ _ _ _ _ SA OK2 I1)|].
      split; [|split; [exact (box_same _ _ _ _ _ SA B1)|]]; destruct SA as (A1 & A2 & A3 & A4).
      * split; [lia|]. intros b o Hb. unfold guarded. rewrite A1, A2, A4. now apply R1.
      * split; [split; [destruct E1; lia|rewrite A2; apply E1]|congruence].
    + intros s1 [I1 _]. apply I1.
    + intros s1 r j (I1 & [L1 R1] & B1 & E1 & K1) Hj HI. assert (OK1 : tree_ok s1) by apply I1.
      destruct (either_block p n q k (init mm') r j N Hj HD HI) as [[EB SUB]|[EB SUB]]; rewrite EB.
      * exists v. rewrite via2_src. split; [reflexivity|]. split; [split; [exact L1|exact (readable_sub _ _ _ _ _ _ SUB R1)]|]. intros s2 OK2 S2.
        apply (ro_widen p n r j) in S2; [|exact SUB]. split; [exact (thinv_ro _ _ _ _ _ _ _ _ I1 OK2 S2)|].
        split; [split; [destruct S2 as ((A1 & _) & _); lia|now apply (readable_ro p n v s1)]|]. split; [exact (box_ro_apart _ _ _ _ _ _ _ _ S2 (or_intror N) B1)|].
        destruct S2 as (E2 & K2 & _). split; [exact (ext_trans _ _ _ E1 E2)|congruence].
      * exists td. rewrite via2_dst by exact N. split; [reflexivity|]. assert (W1 : writes s1 (fst q, 0) K td) by apply B1.
        split; [split; [apply B1|]|].
        { apply (readable_sub _ (fst q, 0) K); [intros b o Hb; apply SUBK, SUB, Hb|exact (writes_readable _ _ _ _ W1)]. }
        intros s2 OK2 S2. assert (DS := ro_dstep _ _ _ _ _ S2 OK2). rewrite EB in DS. split; [exact (thinv_d _ _ _ _ _ _ _ _ I1 DS DQ (or_intror N))|].
        split; [exact (can_read_d _ _ _ _ _ _ DS (or_intror N) (conj L1 R1))|]. split; [exact (box_ro_own _ _ _ _ _ _ _ OK1 S2 B1)|].
        destruct S2 as (E2 & K2 & _). split; [exact (ext_trans _ _ _ E1 E2)|congruence].
    + intros s1 r j (I1 & [L1 R1] & B1 & E1 & K1) Hj HP HI. assert (OK1 : tree_ok s1) by apply I1.
      destruct (either_block p n q k (init mm') r j N Hj HD HI) as [[EB SUB]|[EB SUB]]; [congruence|]. rewrite EB.
      exists td. rewrite via2_dst by exact N. split; [reflexivity|]. assert (W1 : writes s1 (fst q, 0) K td) by apply B1. split; [apply B1|].
      split; [apply (writes_sub _ (fst q, 0) K); [intros b o Hb; apply SUBK, SUB, Hb|exact W1]|].
      intros s2 OK2 S2. assert (DS := wr_dstep _ _ _ _ _ S2 OK2). rewrite EB in DS. split; [exact (thinv_d _ _ _ _ _ _ _ _ I1 DS DQ (or_intror N))|].
      split; [exact (can_read_d _ _ _ _ _ _ DS (or_intror N) (conj L1 R1))|]. split; [exact (box_wr _ _ _ _ _ _ _ S2 B1)|].
      destruct DS as (_ & E2 & K2 & _). split; [exact (ext_trans _ _ _ E1 E2)|congruence].
  - assert (ER := tree_run_run _ _ _ _ _ _ _ ET). rewrite (follows_imp _ _ FO), E in ER. injection ER as <- <-. exists s'. split; [exact FO|]. split; [exact ET|].
    destruct IE as (I1 & R1 & B1 & E1 & K1). apply H; auto.
Qed.
Lemma th_alloc {A} M n (kk : boxed * nat -> hcode A) Q s m : tree_ok s ->
  (forall u s', m (new_block M) = [] -> dstep (new_block M) s s' -> tfresh s <= u -> box_at s' (new_block M) n u ->
     thgood (kk ({| x_block := new_block M; x_len := n |}, u)) Q s' (upd m (new_block M) (repeat None n))) -> thgood (hbind (alloc_uninit_bytes_b M n) kk) Q s m.
Proof.
  intros OK H. apply thgood_bind. unfold alloc_uninit_bytes_b. apply thgood_fn. apply thgood_pure. intros y m1 E. split.
  { destruct (_ && _); [|discriminate E]. now injection E. }
  clear y m1 E. intros b m1 E. apply alloc_ret in E as (E0 & -> & ->). cbn [hbind fst snd].
  assert (OKE := ok_enter _ OK). apply (h_op (from_raw (at_start (new_block M)) n) (new_block M) n); [apply top_from_raw|now apply ok_tree_block|now apply block_box|].
  intros u s2 D2 U2 _ B2. cbn [thgood]. assert (D := dstep_trans _ _ _ _ (block_step _ _ n OKE) D2). destruct D as (OK2 & E2 & K2 & EL2).
  assert (KC : calls s2 = [] :: calls s) by exact K2. unfold final. rewrite (leave_plain s2 _ KC). apply H; auto.
  - split; [now apply ok_popped|]. split; [exact E2|]. split; [cbn; now rewrite KC|exact EL2].
  - change (tfresh (enter s)) with (tfresh s) in U2. lia.
  - apply (box_popped s2 _ []); auto. cbn. now rewrite KC.
Qed.
Lemma th_free {A} b n t (kk : unit -> hcode A) Q s m : n = length (m b) -> tree_ok s -> box_at s b n t ->
  (forall s', dstep b s s' -> thgood (kk tt) Q s' (upd m b [])) -> thgood (hbind (hfree b t) kk) Q s m.
Proof.
  intros -> OK B G. cbn [hfree hbind thgood]. eexists. split; [apply owns_release, box_owns, B|]. apply G. now apply released_step.
Qed.
(** ** The vector *)
Definition vec_at (s : trees) (m : mem) (v : vec) (t : nat) : Prop := box_at s (v_block v) (length (m (v_block v))) t.
Lemma th_grow {A} M s0 b o src n ts v k tv (kk : vec * nat -> hcode A) Q s m u : n = length src -> n <> 0 -> slice m b o src -> b <> v_block v ->
  v_len v <= length (m (v_block v)) -> thinv s0 (b, o) n ts (fun b' => b' = v_block v \/ b' = new_block M) s -> can_read s (b, o) n u -> vec_at s m v tv ->
  (forall w t s' m', thinv s0 (b, o) n ts (fun b' => b' = v_block v \/ b' = new_block M) s' -> can_read s' (b, o) n u ->
     slice m' b o src -> vec_at s' m' w t -> b <> v_block w -> room m' (v_block w) (v_len w) k -> v_block w = v_block v \/ v_block w = new_block M ->
     thgood (kk (w, t)) Q s' m') -> thgood (hbind (hgrow M v k tv) kk) Q s m.
Proof.
  intros EN NZ S N LV I R VO H. subst n. assert (OK : tree_ok s) by apply I. cbn [hgrow hbind thgood]. intros w m1 E.
  destruct (Nat.leb_spec (v_len v + k) (length (m (v_block v)))) as [L|L].
  - apply H; auto.
  - set (cap := length (m (v_block v))) in *. eexists. split; [apply owns_release, box_owns, VO|]. fold (released s (v_block v)).
    assert (D1 := released_step s (v_block v) OK). set (s1 := released s (v_block v)) in *. change (tfresh s) with (tfresh s1).
    unfold reserve_exact in E. fold cap in E. rewrite (proj2 (Nat.leb_gt _ _) L) in E. destruct (Z.ltb_spec (isize_limit M) (Z.of_nat (v_len v + k))) as [|LZ]; [discriminate E|].
    assert (LC := capacity_ge _ _ LZ). set (l := (m (v_block v) ++ repeat None (capacity M (v_len v + k) - cap))%list) in *.
    assert (LL : v_len v + k <= length l). { unfold l. rewrite app_length, repeat_length. fold cap. lia. }
    assert (K : (v_block w = v_block v \/ (v_block w = new_block M /\ m (new_block M) = [])) /\ v_len w = v_len v /\ m1 (v_block w) = l /\ forall b', b' <> v_block v -> b' <> v_block w -> m1 b' = m b').
    { destruct (Nat.eqb_spec (new_block M) (v_block v)) as [EN|NE].
      - injection E as <- <-. split; [now left|]. split; [reflexivity|]. split; [apply upd_same|]. intros b' H1 _. now apply upd_other.
      - destruct (m (new_block M)); [|discriminate E]. injection E as <- <-. split; [right; auto|]. split; [reflexivity|]. cbn [v_block]. split; [apply upd_same|].
        intros b' H1 H2. now rewrite !upd_other by assumption. }
    destruct K as (KB & KL & KM & KF). rewrite KM. assert (OK1 : tree_ok s1) by apply D1.
    assert (NW : b <> v_block w).
    { destruct KB as [->|[-> KB]]; [exact N|]. intros ->. now apply (slice_nonempty _ _ _ _ S NZ). }
    assert (D2 := block_step s1 (v_block w) (length l) OK1). set (s2 := tree_block s1 (v_block w) (length l)) in *.
    apply H.
    + apply (thinv_d s0 (b, o) _ ts _ (v_block w) s1 s2); [|exact D2| |right; exact NW].
      * apply (thinv_d s0 (b, o) _ ts _ (v_block v) s s1); [exact I|exact D1|now left|right; exact N].
      * cbv beta. destruct KB as [->|[-> _]]; auto.
    + apply (can_read_d (v_block w) s1); [exact D2|right; exact NW|]. apply (can_read_d (v_block v) s); [exact D1|right; exact N|exact R].
    + eapply slice_same; [exact S|]. auto.
    + unfold vec_at. rewrite KM. now apply block_box.
    + exact NW.
    + unfold room. rewrite KM, KL. exact LL.
    + destruct KB as [KB|[KB _]]; auto.
Qed.

(** ** Results *)
Definition tholder (A : Type) : Type := ptr -> nat -> trees -> A -> nat -> trees -> mem -> Prop.
Definition tnew_post {A} (H : tholder A) (M : machine) (s0 : trees) (p : ptr) (n : nat) : A * nat -> trees -> mem -> Prop := fun a s m =>
  thpost s0 p n (eq (new_block M)) s /\ H p n s0 (fst a) (snd a) s m.
Definition tgood_new {A} (H : tholder A) (M : machine) (x : ptr -> nat -> nat -> hcode (A * nat)) (src : list Z) : Prop :=
  forall m s b o ts, slice m b o src -> (Z.of_nat (length src) <= isize_limit M)%Z -> tree_ok s -> ts < tfresh s -> tree_may_read s (b, o) (length src) ts ->
    thgood (x (b, o) (length src) ts) (tnew_post H M s (b, o) (length src)) s m.
Definition towned (k : nat) (s0 : trees) (u : nat) (s : trees) (m : mem) : Prop := tfresh s0 <= u /\ tree_owns s k (length (m k)) u.
Definition tbox_held (M : machine) : tholder boxed := fun p n s0 b u s m => x_block b = new_block M /\ off p n (new_block M) /\
  tfresh s0 <= u /\ x_len b = length (m (x_block b)) /\ box_at s (x_block b) (x_len b) u.
Definition tvec_held : tholder vec := fun p n s0 v u s m => off p n (v_block v) /\ towned (v_block v) s0 u s m.
Definition tres_held {A} (H : tholder A) : tholder (result A) := fun p n s0 r u s m => match r with Ok a => H p n s0 a u s m | Err => True end.
Lemma readable_tmay s p n t : readable s p n t -> tree_may_read s p n t.
Proof. intros R i Hi. apply rd_read_acc, R, in_range_iff. lia. Qed.
Lemma tmay_readable s p n t : tree_may_read s p n t -> readable s p n t.
Proof. intros MR b o Hb. apply in_range_iff in Hb as [-> Ho]. replace o with (snd p + (o - snd p)) by lia. apply read_acc_rd, MR. lia. Qed.
Lemma tree_new_of {A} (ret : A -> option nat) (H : tholder A) M x f src : (forall p n ts, hannotates fst (x p n ts) (f p n)) ->
  (forall p n s0 a u s m k, H p n s0 a u s m -> ret a = Some k -> towned k s0 u s m) -> tgood_new H M x src -> tree_new ret M x f src.
Proof.
  intros HA HH HG m s b o ts S L OK LT MR r m' E.
  destruct (thgood_runs fst (x (b, o) (length src) ts) _ _ s m r m' (HA _ _ _) E (HG m s b o ts S L OK LT MR)) as ([r' u] & s' & RU & ER & (OK' & E' & K' & EL & RD & _) & T).
  cbn [fst snd] in *. subst r'. exists u, s'. split; [exact RU|]. split; [|split].
  - split; [exact OK'|]. split; [apply E'|]. split; [exact K'|]. split; [apply E'|]. intros b' o' H1 H2 _. apply EL; [exact H1|congruence].
  - intros t Lt Rt. apply readable_tmay, RD; [exact Lt|now apply tmay_readable].
  - destruct (ret r) as [k|] eqn:ER; [|exact Logic.I]. destruct (HH _ _ _ _ _ _ _ _ T ER) as [T1 T2]. split; [split; [exact T1|apply T2]|]. split; [exact T2|]. now apply owns_write.
Qed.
Definition tappend_post {A} (ret : A -> vec) (M : machine) (v : vec) (s0 : trees) (p : ptr) (n : nat) : A * nat -> trees -> mem -> Prop := fun a s m =>
  thpost s0 p n (fun b => b = v_block v \/ b = new_block M) s /\ vec_at s m (ret (fst a)) (snd a).
Definition tgood_append {A} (ret : A -> vec) (M : machine) (x : ptr -> nat -> vec -> nat -> nat -> hcode (A * nat)) (src : list Z) : Prop :=
  forall m s b o v ts tv, slice m b o src -> (Z.of_nat (length src) <= isize_limit M)%Z -> b <> v_block v -> v_len v <= length (m (v_block v)) ->
    tree_ok s -> ts < tfresh s -> tree_may_read s (b, o) (length src) ts -> vec_at s m v tv ->
    thgood (x (b, o) (length src) v ts tv) (tappend_post ret M v s (b, o) (length src)) s m.
Lemma tree_append_of {A} (ret : A -> vec) M x f src : (forall p n v ts tv, hannotates fst (x p n v ts tv) (f p n v)) -> tgood_append ret M x src -> tree_append ret M x f src.
Proof.
  intros HA HG m s b o v ts tv S L N LV OK LT MR VO r m' E.
  destruct (thgood_runs fst (x (b, o) (length src) v ts tv) _ _ s m r m' (HA _ _ _ _ _) E (HG m s b o v ts tv S L N LV OK LT MR (owns_box _ _ _ _ VO)))
    as ([r' u] & s' & RU & ER & (OK' & E' & K' & EL & RD & _) & T).
  cbn [fst snd] in *. subst r'. exists u, s'. split; [exact RU|]. split; [|split; [|exact (box_owns _ _ _ _ T)]].
  - split; [exact OK'|]. split; [apply E'|]. split; [exact K'|]. split; [apply E'|]. intros b' o' H1 H2 H3. apply EL; [exact H1|tauto].
  - intros t Lt Rt. apply readable_tmay, RD; [exact Lt|now apply tmay_readable].
Qed.
Lemma th_new_end {A} (H : tholder A) M s0 p n ts (a : A * nat) s m : thinv s0 p n ts (eq (new_block M)) s ->
  (forall s', (forall b k u, off p n b -> box_at s b k u -> box_at s' b k u) -> H p n s0 (fst a) (snd a) s' m) -> final (tnew_post H M s0 p n) a s m.
Proof. intros I T. destruct (th_leave _ _ _ _ _ _ I) as (s' & EX & P & B). unfold final. rewrite EX. split; [exact P|]. now apply T. Qed.
Lemma th_append_end {A} (ret : A -> vec) M v s0 p n ts (a : A * nat) s m : thinv s0 p n ts (fun b => b = v_block v \/ b = new_block M) s ->
  off p n (v_block (ret (fst a))) -> vec_at s m (ret (fst a)) (snd a) -> final (tappend_post ret M v s0 p n) a s m.
Proof. intros I N T. destruct (th_leave _ _ _ _ _ _ I) as (s' & EX & P & B). unfold final. rewrite EX. split; [exact P|]. now apply B. Qed.
Lemma th_empty {A} M (kk : boxed * nat -> hcode A) Q s m : tree_ok s ->
  (forall s', dstep (new_block M) s s' -> box_at s' (new_block M) 0 (tfresh s) ->
     thgood (kk ({| x_block := new_block M; x_len := 0 |}, tfresh s)) Q s' (upd m (new_block M) [])) -> thgood (hbind (box_empty_b M) kk) Q s m.
Proof.
  intros OK H. cbn [box_empty_b halloc hbind thgood fst snd]. intros b m1 E. apply alloc_ret in E as (_ & -> & ->). apply H; [now apply block_step|now apply block_box].
Qed.
Lemma th_assume {A} (b : boxed) u (kk : boxed * nat -> hcode A) Q s m : tree_ok s -> box_at s (x_block b) (x_len b) u ->
  (forall u' s', dstep (x_block b) s s' -> u <= u' -> box_at s' (x_block b) (x_len b) u' -> thgood (kk (b, u')) Q s' m) -> thgood (hbind (assume_init_b (b, u)) kk) Q s m.
Proof.
  intros OK HB H. apply thgood_bind. apply thgood_pure. intros y m1 E. apply assume_init_ret in E as [-> ->]. split; [reflexivity|]. cbn [fst snd].
  apply (h_op _ (x_block b) (x_len b)); [apply top_assume_init|exact OK|exact HB|]. intros u' s' D U _ B'. apply H; auto. lia.
Qed.
Lemma th_boxed_str {A} (b : boxed) u (kk : boxed * nat -> hcode A) Q s m : tree_ok s -> box_at s (x_block b) (x_len b) u ->
  (forall u' s', dstep (x_block b) s s' -> u <= u' -> box_at s' (x_block b) (x_len b) u' -> thgood (kk (b, u')) Q s' m) -> thgood (hbind (boxed_str_b (b, u)) kk) Q s m.
Proof.
  intros OK HB H. apply thgood_bind. apply thgood_pure. intros y m1 E. apply boxed_str_ret in E as [-> ->]. split; [reflexivity|]. cbn [fst snd].
  apply (h_op _ (x_block b) (x_len b)); [apply top_boxed_str|exact OK|exact HB|]. intros u' s' D U _ B'. apply H; auto. lia.
Qed.
(** the box may be used again after a write through a pointer made from it *)
Lemma box_back s s' b k t td X : tree_ok s -> tree_ok s' -> (forall x, In x X -> tfresh s <= x) -> ext s s' -> calls s' = calls s -> t < tfresh s ->
  path s' td = X ++ path s t -> box_at s' b k td -> box_at s' b k t.
Proof.
  intros OK OK' HX E K L P B. apply (box_up s' b k td t X); auto.
  - rewrite (proj2 E t L). exact P.
  - exact (unguarded s s' X OK K HX).
  - destruct E. lia.
Qed.

(** ** [encode_to_boxed_str] *)
Lemma tenc_box_good M L g R src t : (bytes src -> (Z.of_nat (length src) <= isize_limit M)%Z -> enc_len_ok M (L (length src)) (length t)) -> (bytes src -> enc_ok g src t) ->
  reifies R g -> tgood_new (tbox_held M) M (encode_to_boxed_str_b M L g) src.
Proof.
  intros HL HE HR m s b o ts S LS OK LT MR. set (n := length src) in *. set (p := (b, o)). unfold encode_to_boxed_str_b.
  apply (th_start p n ts (eq (new_block M))); auto. intros u s1 _ I1 R1.
  eapply th_ro; [apply ro_len|nox|exact I1|exact R1|]. intros _ s2 _ _ I2 R2 _. destruct (Nat.eqb_spec n 0) as [EZ|NZ].
  - apply hbind_ret, th_empty; [apply I2|]. intros s3 D3 B3. cbn [thgood]. assert (F2 : tfresh s < tfresh s2) by apply I2.
    apply (th_new_end _ M s p n ts); [exact (thinv_d _ _ _ _ _ _ _ _ I2 D3 eq_refl (or_introl EZ))|]. intros s4 BB. cbn [fst snd].
    split; [reflexivity|]. split; [now left|]. split; [lia|]. cbn [x_block x_len]. rewrite upd_same. split; [reflexivity|]. apply BB; [now left|exact B3].
  - eapply th_ro; [apply ro_len|nox|exact I2|exact R2|]. intros _ s3 _ _ I3 R3 _.
    apply thgood_pure. intros z m1 EZ. rewrite (HL (proj1 S) LS m) in EZ. injection EZ as <- <-. split; [reflexivity|].
    apply thgood_pure. intros [] m1 EA. split; [exact (assert_ret _ _ _ _ EA)|]. rewrite Nat2Z.id. clear m1 EA.
    apply th_alloc; [apply I3|]. intros t4 s4 E0 D4 T4 B4. cbn [fst snd x_block x_len].
    assert (NB : b <> new_block M) by (intros ->; now apply (slice_nonempty _ _ _ _ S NZ)). assert (OFF : off p n (new_block M)) by (right; exact NB).
    assert (S4 : slice (upd m (new_block M) (repeat None (length t))) b o src) by (eapply slice_same; [exact S|]; now apply upd_other).
    assert (RM : room (upd m (new_block M) (repeat None (length t))) (new_block M) 0 (length t)) by (unfold room; rewrite upd_same, repeat_length; lia).
    assert (I4 := thinv_d _ _ _ _ _ _ _ _ I3 D4 eq_refl OFF). assert (R4 := can_read_d _ _ _ _ _ _ D4 OFF R3). assert (F3 : tfresh s < tfresh s3) by apply I3.
    eapply th_ro; [apply ro_slice_parts|nox|exact I4|exact R4|]. intros v s5 BB5 _ I5 _ R5. assert (B5 := BB5 _ _ _ OFF B4).
    apply (h_op _ (new_block M) (length t)); [apply top_as_mut_ptr|apply I5|exact B5|]. intros td s6 D6 T6 (X & P6 & X6) B6.
    assert (I6 := thinv_d _ _ _ _ _ _ _ _ I5 D6 eq_refl OFF). assert (R6 := can_read_d _ _ _ _ _ _ D6 OFF R5).
    set (q := at_start (new_block M)). change (new_block M) with (fst q) at 1.
    eapply (th_exec s p n ts (eq (new_block M)) q (length t) (length t)); [apply HR|exact NB|reflexivity|exact I6|exact R6|exact B6|cbn; lia| |].
    + destruct (HE (proj1 S) _ b o (new_block M) 0 (only_slice _ _ _ _ S4) (only_room p n _ _ _ _ RM) (or_introl NB)) as (m' & EG & _ & FR). exists tt, m'. auto.
    + intros [] m7 s7 E7 I7 X7 K7 _ B7. change (fst q) with (new_block M) in B7.
      assert (B7' : box_at s7 (new_block M) (length t) t4).
      { destruct D6 as (_ & E6 & K6 & _). apply (box_back s5 s7 _ _ t4 td X); auto; [apply I5|apply I7|exact (ext_trans _ _ _ E6 X7)|congruence|apply B5|].
        rewrite (proj2 X7) by apply B6. exact P6. }
      destruct (HE (proj1 S) _ b o (new_block M) 0 S4 RM (or_introl NB)) as (m' & EG & _ & FR). change (g p n q) with (g (b, o) (length src) (new_block M, 0)) in E7.
      rewrite EG in E7. injection E7 as <-. assert (LM : length (m' (new_block M)) = length t).
      { destruct FR as (_ & -> & _). rewrite upd_same. apply repeat_length. }
      apply th_assume; [apply I7|exact B7'|]. intros u8 s8 D8 U8 B8. cbn [x_block x_len] in *.
      apply hbind_ret, th_boxed_str; [apply D8|exact B8|]. intros u9 s9 D9 U9 B9. cbn [thgood x_block x_len] in *.
      apply (th_new_end _ M s p n ts); [exact (thinv_d _ _ _ _ _ _ _ _ I7 (dstep_trans _ _ _ _ D8 D9) eq_refl OFF)|]. intros s10 BB. cbn [fst snd].
      split; [reflexivity|]. split; [exact OFF|]. split; [lia|]. cbn [x_block x_len]. split; [now rewrite LM|]. now apply BB.
Qed.

(** ** [encode_append_vec] *)
Lemma tenc_append_good M L g R src t : (bytes src -> (Z.of_nat (length src) <= isize_limit M)%Z -> enc_len_ok M (L (length src)) (length t)) -> (bytes src -> enc_ok g src t) ->
  reifies R g -> tgood_append (fun v => v) M (encode_append_vec_b M L g) src.
Proof.
  intros HL HE HR m s b o v ts tv S LS N LV OK LT MR VO. set (n := length src) in *. set (p := (b, o)). unfold encode_append_vec_b.
  set (D := fun b' => b' = v_block v \/ b' = new_block M). assert (OFF : off p n (v_block v)) by (right; exact N).
  apply (th_start p n ts D); auto. intros u s1 BB1 I1 R1. assert (V1 : vec_at s1 m v tv) by (now apply BB1).
  eapply th_ro; [apply ro_len|nox|exact I1|exact R1|]. intros _ s2 BB2 _ I2 R2 _. assert (V2 : vec_at s2 m v tv) by (now apply BB2).
  destruct (Nat.eqb_spec n 0) as [EZ|NZ].
  - cbn [thgood]. now apply (th_append_end _ M v s p n ts).
  - eapply th_ro; [apply ro_len|nox|exact I2|exact R2|]. intros _ s3 BB3 _ I3 R3 _. assert (V3 : vec_at s3 m v tv) by (now apply BB3).
    apply thgood_pure. intros z m1 EZ. rewrite (HL (proj1 S) LS m) in EZ. injection EZ as <- <-. split; [reflexivity|].
    apply thgood_pure. intros [] m1 EA. split; [exact (assert_ret _ _ _ _ EA)|]. rewrite Nat2Z.id. clear m1 EA.
    apply (th_grow M s b o src n ts v (length t) tv _ _ s3 m u); auto. intros w t4 s4 m4 I4 R4 S4 V4 NW RM HW. cbn [fst snd].
    assert (OFW : off p n (v_block w)) by (right; exact NW).
    eapply th_ro; [apply ro_slice_parts|nox|exact I4|exact R4|]. intros r s5 BB5 _ I5 _ R5. assert (V5 : vec_at s5 m4 w t4) by (now apply BB5).
    apply thgood_pure. intros dst m5 E5. apply padd_ret in E5 as [-> ->]. split; [reflexivity|]. cbn [fst snd]. rewrite Nat.add_0_l.
    set (q := (v_block w, v_len w)). change (v_block w) with (fst q) at 1.
    eapply (th_exec s p n ts D q (length t) (length (m4 (v_block w)))); [apply HR|exact NW|exact HW|exact I5|exact R5|exact V5|exact RM| |].
    + destruct (HE (proj1 S) _ b o (v_block w) (v_len w) (only_slice _ _ _ _ S4) (only_room p n _ _ _ _ RM) (or_introl NW)) as (m' & EG & _ & FR). exists tt, m'. auto.
    + intros [] m7 s7 E7 I7 _ _ _ B7. change (fst q) with (v_block w) in B7.
      destruct (HE (proj1 S) _ b o (v_block w) (v_len w) S4 RM (or_introl NW)) as (m' & EG & _ & FR). change (g p n q) with (g (b, o) (length src) (v_block w, v_len w)) in E7.
      rewrite EG in E7. injection E7 as <-. apply thgood_pure. intros w' m8 E8. apply set_len_ret in E8 as [-> ->]. split; [reflexivity|]. cbn [thgood].
      apply (th_append_end _ M v s p n ts); cbn [fst snd v_block]; [exact I7|exact OFW|]. unfold vec_at. cbn [v_block]. replace (length (m' (v_block w))) with (length (m4 (v_block w))); [exact B7|].
      symmetry. apply FR.
Qed.

(** ** [decode_to_boxed_bytes] *)
Definition tdl_ok (dlb : ptr -> nat -> nat -> bcode (result (nat * nat))) (dl : ptr -> nat -> M (result (nat * nat))) (src : list Z) : Prop :=
  forall m s b o u, slice m b o src -> length src <> 0 -> tree_ok s -> can_read s (b, o) (length src) u ->
    exists r s', tree_runs (dlb (b, o) (length src) u) s m r s' m /\ tree_ok s' /\ ro_step (b, o) (length src) u s s' /\ dl (b, o) (length src) m = Ret r m.
Lemma th_dl {A} dlb dl src s0 ts D b o u (kk : result (nat * nat) -> hcode A) Q s m : tdl_ok dlb dl src -> slice m b o src -> length src <> 0 ->
  thinv s0 (b, o) (length src) ts D s -> can_read s (b, o) (length src) u ->
  (forall r s', dl (b, o) (length src) m = Ret r m -> (forall b' k t, off (b, o) (length src) b' -> box_at s b' k t -> box_at s' b' k t) ->
     thinv s0 (b, o) (length src) ts D s' -> can_read s' (b, o) (length src) u -> thgood (kk r) Q s' m) -> thgood (hbind (lift (dlb (b, o) (length src) u)) kk) Q s m.
Proof.
  intros HD S NZ I [L R] H. assert (OK : tree_ok s) by apply I. destruct (HD m s b o u S NZ OK (conj L R)) as (r & s' & RU & OK' & ST & E).
  apply (thgood_lift_runs _ _ _ _ _ r s' m RU). apply H; auto.
  - intros b' k t N. exact (box_ro_apart _ _ _ _ _ _ _ _ ST N).
  - exact (thinv_ro _ _ _ _ _ _ _ _ I OK' ST).
  - split; [destruct ST as ((A1 & _) & _); lia|]. now apply (readable_ro (b, o) (length src) u s).
Qed.
Lemma tdec_box_good M dlb parts dl g R src k spec : tdl_ok dlb dl src -> dec_ok dl g src k spec ->
  (forall p n t, ro_op (parts p n t) p n t) -> (forall p n t, noexec (parts p n t)) -> reifies R g -> tgood_new (tres_held (tbox_held M)) M (decode_to_boxed_bytes_b M dlb parts g) src.
Proof.
  intros HD HC HP NP HR m s b o ts S LS OK LT MR. set (n := length src) in *. set (p := (b, o)). unfold decode_to_boxed_bytes_b.
  apply (th_start p n ts (eq (new_block M))); auto. intros u s1 _ I1 R1.
  eapply th_ro; [apply ro_len|nox|exact I1|exact R1|]. intros _ s2 _ _ I2 R2 _. destruct (Nat.eqb_spec n 0) as [EZ|NZ].
  - apply th_empty; [apply I2|]. intros s3 D3 B3. cbn [thgood]. assert (F2 : tfresh s < tfresh s2) by apply I2.
    apply (th_new_end _ M s p n ts); [exact (thinv_d _ _ _ _ _ _ _ _ I2 D3 eq_refl (or_introl EZ))|]. intros s4 BB. cbn [fst snd].
    split; [reflexivity|]. split; [now left|]. split; [lia|]. cbn [x_block x_len]. rewrite upd_same. split; [reflexivity|]. apply BB; [now left|exact B3].
  - apply (th_dl dlb dl src s ts (eq (new_block M)) b o u); auto. fold n p. intros r s3 ED _ I3 R3.
    destruct (HC m b o S NZ) as [(ED' & _ & _)|(n' & ED' & Hk & HG)]; fold n p in ED'; rewrite ED in ED'; injection ED' as ->.
    { cbn [thgood]. apply (th_new_end _ M s p n ts); [exact I3|]. intros. exact Logic.I. }
    cbn [fst snd]. apply th_alloc; [apply I3|]. intros t4 s4 E0 D4 T4 B4. cbn [fst snd x_block x_len].
    assert (NB : b <> new_block M) by (intros ->; now apply (slice_nonempty _ _ _ _ S NZ)). assert (OFF : off p n (new_block M)) by (right; exact NB).
    assert (S4 : slice (upd m (new_block M) (repeat None k)) b o src) by (eapply slice_same; [exact S|]; now apply upd_other).
    assert (RM : room (upd m (new_block M) (repeat None k)) (new_block M) 0 k) by (unfold room; rewrite upd_same, repeat_length; lia).
    assert (I4 := thinv_d _ _ _ _ _ _ _ _ I3 D4 eq_refl OFF). assert (R4 := can_read_d _ _ _ _ _ _ D4 OFF R3). assert (F3 : tfresh s < tfresh s3) by apply I3.
    apply (h_op _ (new_block M) k); [apply top_as_mut_ptr|apply I4|exact B4|]. intros td s5 D5 T5 (X & P5 & X5) B5.
    assert (I5 := thinv_d _ _ _ _ _ _ _ _ I4 D5 eq_refl OFF). assert (R5 := can_read_d _ _ _ _ _ _ D5 OFF R4).
    eapply th_ro; [apply HP|apply NP|exact I5|exact R5|]. intros v s6 BB6 E6 I6 _ R6. assert (B6 := BB6 _ _ _ OFF B5).
    set (q := at_start (new_block M)) in *. change (new_block M) with (fst q) at 1.
    eapply (th_exec s p n ts (eq (new_block M)) q k k); [apply HR|exact NB|reflexivity|exact I6|exact R6|exact B6|cbn; lia| |].
    + destruct (HG _ (new_block M) 0 (only_slice _ _ _ _ S4) (only_room p n _ _ _ _ RM) (or_introl NB)) as (r & m' & EG & FR & _). exists r, m'. auto.
    + intros r m7 s7 E7 I7 X7 K7 _ B7. change (fst q) with (new_block M) in B7.
      assert (B7' : box_at s7 (new_block M) k t4).
      { assert (KK : calls s7 = calls s4).
        { destruct I7 as (_ & _ & _ & _ & K7' & _). destruct I4 as (_ & _ & _ & _ & K4' & _). now rewrite K7', K4'. }
        assert (D5' := D5). destruct D5' as (_ & E5 & _ & _). apply (box_back s4 s7 _ _ t4 td X); auto; [apply I4|apply I7|exact (ext_trans _ _ _ (ext_trans _ _ _ E5 E6) X7)|apply B4|].
        rewrite (proj2 X7) by apply B6. rewrite (proj2 E6) by apply B5. exact P5. }
      destruct (HG _ (new_block M) 0 S4 RM (or_introl NB)) as (r' & m' & EG & FR & _). change (g p n' q) with (g (b, o) n' (new_block M, 0)) in E7.
      rewrite EG in E7. injection E7 as -> ->. assert (LM : length (m7 (new_block M)) = k).
      { destruct FR as (_ & -> & _). rewrite upd_same. apply repeat_length. }
      destruct r as [x|].
      * apply th_assume; [apply I7|exact B7'|]. intros u8 s8 D8 U8 B8. cbn [thgood x_block x_len] in *.
        apply (th_new_end _ M s p n ts); [exact (thinv_d _ _ _ _ _ _ _ _ I7 D8 eq_refl OFF)|]. intros s10 BB. cbn [fst snd].
        split; [reflexivity|]. split; [exact OFF|]. split; [lia|]. cbn [x_block x_len]. split; [now rewrite LM|]. now apply BB.
      * unfold drop_box_b. cbn [fst snd x_block]. apply (th_free _ k); [auto|apply I7|exact B7'|]. intros s8 D8. cbn [thgood].
        apply (th_new_end _ M s p n ts); [exact (thinv_d _ _ _ _ _ _ _ _ I7 D8 eq_refl OFF)|]. intros. exact Logic.I.
Qed.

(** ** [decode_append_vec] *)
Lemma tdec_append_good M dlb parts dl g R src k spec : tdl_ok dlb dl src -> dec_ok dl g src k spec ->
  (forall p n t, ro_op (parts p n t) p n t) -> (forall p n t, noexec (parts p n t)) -> reifies R g -> tgood_append snd M (decode_append_vec_b M dlb parts g) src.
Proof.
  intros HD HC HP NP HR m s b o v ts tv S LS N LV OK LT MR VO. set (n := length src) in *. set (p := (b, o)). unfold decode_append_vec_b.
  set (D := fun b' => b' = v_block v \/ b' = new_block M). assert (OFF : off p n (v_block v)) by (right; exact N).
  apply (th_start p n ts D); auto. intros u s1 BB1 I1 R1. assert (V1 : vec_at s1 m v tv) by (now apply BB1).
  eapply th_ro; [apply ro_len|nox|exact I1|exact R1|]. intros _ s2 BB2 _ I2 R2 _. assert (V2 : vec_at s2 m v tv) by (now apply BB2).
  destruct (Nat.eqb_spec n 0) as [EZ|NZ].
  - cbn [thgood]. now apply (th_append_end _ M v s p n ts).
  - apply (th_dl dlb dl src s ts D b o u); auto. fold n p. intros r s3 ED BB3 I3 R3. assert (V3 : vec_at s3 m v tv) by (now apply BB3).
    destruct (HC m b o S NZ) as [(ED' & _ & _)|(n' & ED' & Hk & HG)]; fold n p in ED'; rewrite ED in ED'; injection ED' as ->.
    { cbn [thgood]. now apply (th_append_end _ M v s p n ts). }
    cbn [fst snd]. apply (th_grow M s b o src n ts v k tv _ _ s3 m u); auto. intros w t4 s4 m4 I4 R4 S4 V4 NW RM HW. cbn [fst snd].
    assert (OFW : off p n (v_block w)) by (right; exact NW).
    apply thgood_pure. intros dst m5 E5. apply padd_ret in E5 as [-> ->]. split; [reflexivity|]. cbn [fst snd]. rewrite Nat.add_0_l.
    eapply th_ro; [apply HP|apply NP|exact I4|exact R4|]. intros r s5 BB5 _ I5 _ R5. assert (V5 : vec_at s5 m4 w t4) by (now apply BB5).
    set (q := (v_block w, v_len w)). change (v_block w) with (fst q) at 1.
    eapply (th_exec s p n ts D q k (length (m4 (v_block w)))); [apply HR|exact NW|exact HW|exact I5|exact R5|exact V5|exact RM| |].
    + destruct (HG _ (v_block w) (v_len w) (only_slice _ _ _ _ S4) (only_room p n _ _ _ _ RM) (or_introl NW)) as (r' & m' & EG & FR & _). exists r', m'. auto.
    + intros r' m7 s7 E7 I7 _ _ _ B7. change (fst q) with (v_block w) in B7.
      destruct (HG _ (v_block w) (v_len w) S4 RM (or_introl NW)) as (r'' & m' & EG & FR & _). change (g p n' q) with (g (b, o) n' (v_block w, v_len w)) in E7.
      rewrite EG in E7. injection E7 as -> ->.
      assert (V7 : box_at s7 (v_block w) (length (m7 (v_block w))) t4).
      { replace (length (m7 (v_block w))) with (length (m4 (v_block w))); [exact B7|]. symmetry. apply FR. }
      destruct r' as [x|].
      * apply thgood_pure. intros w' m8 E8. apply set_len_ret in E8 as [-> ->]. split; [reflexivity|]. cbn [thgood].
        now apply (th_append_end _ M v s p n ts).
      * cbn [thgood]. now apply (th_append_end _ M v s p n ts).
Qed.

(** ** [encode_to_string], [decode_to_vec] *)
Lemma thpost_d s0 p n b s s' : thpost s0 p n (eq b) s -> dstep b s s' -> off p n b -> thpost s0 p n (eq b) s'.
Proof.
  intros (OK & E & K & EL & R & AC) DS N. assert (DS' := DS). destruct DS as (OK' & E' & K' & EL'). split; [exact OK'|]. split; [exact (ext_trans _ _ _ E E')|]. split; [congruence|].
  split; [intros b' o H1 H2; rewrite EL' by congruence; auto|].
  split; [intros t Lt Rt; apply (readable_d b s s' p n); auto; destruct E; lia|]. intros b' o t Hb. rewrite EL'; [now apply AC|]. intros ->. rewrite (off_range p n b o N) in Hb. discriminate Hb.
Qed.
Lemma tto_vec_step {A} (x : ptr -> nat -> nat -> bcode nat) M p n s0 b u (kk : nat -> hcode A) Q s m : (forall q k, top q k (x q k)) ->
  thpost s0 p n (eq (new_block M)) s -> tbox_held M p n s0 b u s m ->
  (forall v s', thpost s0 p n (eq (new_block M)) s' -> tvec_held p n s0 (vec_of_box b) v s' m -> thgood (kk v) Q s' m) ->
  thgood (hbind (lift (x (at_start (x_block b)) (x_len b) u)) kk) Q s m.
Proof.
  intros HX I (EB & NB & U & L & B) H. apply (h_op (x (at_start (x_block b)) (x_len b)) (x_block b) (x_len b)); [apply HX|apply I|exact B|].
  intros v s' D V _ B'. apply H.
  - rewrite EB in D. exact (thpost_d _ _ _ _ _ _ I D NB).
  - split; [cbn [vec_of_box v_block]; now rewrite EB|]. split; [lia|]. cbn [vec_of_box v_block]. rewrite <- L. now apply box_owns.
Qed.
Lemma tto_string_good M x src : tgood_new (tbox_held M) M x src -> tgood_new tvec_held M (fun p n ts => to_string_b (x p n ts)) src.
Proof.
  intros HG m s b o ts S LS OK LT MR. unfold to_string_b. apply thgood_bind. refine (thgood_imp _ _ _ _ _ _ (HG m s b o ts S LS OK LT MR)).
  intros [bx u] s1 m1 [I H]. cbn [fst snd] in *. apply (tto_vec_step string_of_box_t M (b, o) (length src) s); auto; [intros; apply top_string_of_box|].
  intros v s2 I2 H2. now split.
Qed.
Lemma tto_vec_good M x src : tgood_new (tres_held (tbox_held M)) M x src -> tgood_new (tres_held tvec_held) M (fun p n ts => to_vec_b (x p n ts)) src.
Proof.
  intros HG m s b o ts S LS OK LT MR. unfold to_vec_b. apply thgood_bind. refine (thgood_imp _ _ _ _ _ _ (HG m s b o ts S LS OK LT MR)).
  intros [[bx|] u] s1 m1 [I H]; cbn [fst snd] in *.
  - apply (tto_vec_step vec_of_box_t M (b, o) (length src) s); auto; [intros; apply top_vec_of_box|]. intros v s2 I2 H2. now split.
  - now split.
Qed.
Lemma theld_box M p n s0 a u s m k : tbox_held M p n s0 a u s m -> Some (x_block a) = Some k -> towned k s0 u s m.
Proof. intros (_ & _ & U & L & B) E. injection E as <-. split; [exact U|]. rewrite <- L. now apply box_owns. Qed.
Lemma theld_vec p n s0 a u s m k : tvec_held p n s0 a u s m -> Some (v_block a) = Some k -> towned k s0 u s m.
Proof. intros [_ H] E. injection E as <-. exact H. Qed.
Lemma theld_res {A} (H : tholder A) (f : A -> nat) : (forall p n s0 a u s m k, H p n s0 a u s m -> Some (f a) = Some k -> towned k s0 u s m) ->
  forall p n s0 a u s m k, tres_held H p n s0 a u s m -> match a with Ok b => Some (f b) | Err => None end = Some k -> towned k s0 u s m.
Proof. intros HH p n s0 [a|] u s m k HA E; [exact (HH _ _ _ _ _ _ _ _ HA E)|discriminate]. Qed.

(** ** The decoded length *)
Lemma tgood_noexec {A} (F : nat -> nat -> Prop) (x : bcode A) Q m : noexec x -> forall s, tgood F x Q s m -> exists a s', tree_runs x s m a s' m /\ Q a s' m.
Proof.
  induction x as [a|y j IH|X v c0 j IH]; cbn [noexec tgood]; intros N s G; [|destruct (tperform y s) as [[t s1]|] eqn:E; [|contradiction]|contradiction].
  - exists a, s. split; [constructor|exact G].
  - destruct (IH t (N t) s1 G) as (a & s' & RU & H). exists a, s'. split; [|exact H]. econstructor; [exact E|exact RU].
Qed.
Lemma thex_dl_ok src : tdl_ok hex_dl_b hex_dl src.
Proof.
  intros m s b o u S NZ OK R. set (n := length src) in *. set (p := (b, o)).
  destruct (tgood_noexec (fun _ _ => True) (hex_dl_b p n u) (fun r s' mm => tree_ok s' /\ ro_step p n u s s' /\ hex_dl p n m = Ret r m) m) with (s := s) as (r & s' & H).
  - apply hex_dl_noexec.
  - unfold hex_dl_b, hex_dl. apply tgood_bind. apply ro_len; [exact OK|exact R|]. intros v s1 OK1 ST1 R1 _. destruct (negb _).
    + cbn [tgood]. auto.
    + assert (L1 : can_read s1 p n u). { destruct R as [L R]. split; [destruct ST1 as ((A1 & _) & _); lia|]. now apply (readable_ro p n u s). }
      apply tgood_bind. apply ro_len; [exact OK1|exact L1|]. intros v2 s2 OK2 ST2 _ _. cbn [tgood]. split; [exact OK2|]. split; [|reflexivity].
      apply (ro_trans p n u u s s1 s2); auto. destruct ST1 as (E1 & _). rewrite (proj2 E1) by apply R. apply incl_refl.
  - exists r, s'. exact H.
Qed.
Lemma texec_dl_ok dlb (dl : ptr -> nat -> M (result (nat * nat))) R src :
  (forall p n t, dlb p n t = fn (u <== shared_param p n t ;; v <== (slice_len p n u ;=; slice_len p n u ;=; Return u) ;; exec (via1 (fst p) v) (dl p n))) ->
  (forall p n, reified True (fun _ => False) R (dl p n)) -> (forall p n t, annotates (fun a => a) (dlb p n t) (dl p n)) ->
  (forall m b o, slice m b o src -> length src <> 0 -> exists r, dl (b, o) (length src) m = Ret r m) -> tdl_ok dlb dl src.
Proof.
  intros HS HR HA HT m s b o u S NZ OK RD. set (n := length src) in *. set (p := (b, o)).
  destruct (HT _ b o (only_slice m b o src S) NZ) as (r & E). fold n p in E.
  destruct (tgood_runs (fun b' o' => cells_of p n b' o') (fun a => a) (dlb p n u) (fun _ s' _ => tree_ok s' /\ ro_step p n u s s') (dl p n) s m (only p n m) r (only p n m))
    as (a & s' & m' & RU & -> & (OK' & ST) & _).
  - apply HA.
  - exact E.
  - intros b' o' Hi. exact (only_init _ _ _ _ _ Hi).
  - apply only_less.
  - rewrite HS. apply (good_reader _ p n u (fun u => slice_len p n u ;=; slice_len p n u ;=; Return u) (dl p n) R); auto.
    + intro. apply ro_lens.
    + intros b' o' Hi. exact (only_init _ _ _ _ _ Hi).
  - assert (EC := tree_runs_code (fun a => a) _ _ _ _ _ _ RU _ (HA _ _ _)). destruct (HT m b o S NZ) as (r' & E'). fold n p in E'. rewrite E' in EC. injection EC as -> <-.
    exists r, s'. split; [exact RU|]. split; [exact OK'|]. split; [exact ST|exact E'].
Qed.
