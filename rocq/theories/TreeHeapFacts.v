(** Facts about TreeHeap.v; the lemmas match those of BorrowsHeapFacts.v and BorrowsHeapSteps.v. *)
From Coq Require Import ZArith List Bool Lia ZifyBool ZifyNat.
From Verif Require Import Bytes Mem MemFacts Slices Codec Conc ConcFacts Reify ConcApi ConcApiFacts Ints Heap HeapFacts
  Borrows BorrowsApi BorrowsFacts BorrowsLib BorrowsCalls BorrowsBridge BorrowsForgiving BorrowsHeap BorrowsHeapFacts BorrowsHeapSteps BorrowsHeapCalls
  TreeBorrows TreeFacts TreeCalls TreeHeap.
Import ListNotations.
Open Scope nat_scope. Open Scope m_scope. Open Scope borrow_scope. Open Scope heap_scope.

(** ** What has to be allowed for the steps that the code of the model makes *)
Fixpoint thgood {A} (x : hcode A) (Q : A -> trees -> mem -> Prop) (s : trees) (m : mem) : Prop :=
  match x with
  | HReturn a => Q a s m
  | HBorrow y k => match tperform y s with Some (t, s') => thgood (k t) Q s' m | None => False end
  | HExec v c k => forall y m1, c m = Ret y m1 -> exists p s1, follows c p /\ tree_run v p s m = Some (y, s1, m1) /\ thgood (k y) Q s1 m1
  | HPure c k => forall y m1, c m = Ret y m1 -> m1 = m /\ thgood (k y) Q s m
  | HAlloc M n k => forall b m1, alloc M n m = Ret b m1 -> thgood (k b (tfresh s)) Q (tree_block s b n) m1
  | HGrow M v n t k => forall w m1, reserve_exact M v n m = Ret w m1 ->
      if v_len v + n <=? length (m (v_block v)) then thgood (k v t) Q s m
      else exists s1, tree_release s (v_block v) (length (m (v_block v))) t = Some s1 /\
             thgood (k w (tfresh s1)) Q (tree_block s1 (v_block w) (length (m1 (v_block w)))) m1
  | HFree b t k => exists s1, tree_release s b (length (m b)) t = Some s1 /\ thgood k Q s1 (upd m b [])
  end.
Lemma thgood_runs {A B} (f : A -> B) (x : hcode A) Q : forall c s m r m', hannotates f x c -> c m = Ret r m' -> thgood x Q s m ->
  exists a s', tree_hruns x s m a s' m' /\ f a = r /\ Q a s' m'.
Proof.
  induction x as [a|y k IH|X v c0 k IH|X c0 k IH|M n k IH|M v n t k IH|b t k IH]; cbn [hannotates thgood]; intros c s m r m' HA E G.
  - rewrite HA in E. injection E as <- <-. exists a, s. split; [constructor|]. auto.
  - destruct (tperform y s) as [[t s1]|] eqn:EP; [|contradiction]. destruct (IH t c s1 m r m' (HA t) E G) as (a & s' & R & H).
    exists a, s'. split; [|exact H]. exact (thruns_borrow _ _ _ _ _ _ _ _ _ _ EP R).
  - destruct HA as (g & HC & HA). rewrite HC in E. unfold bind in E. destruct (c0 m) as [y m1| | |] eqn:E0; try discriminate E.
    destruct (G y m1 eq_refl) as (p & s1 & FO & ET & G'). destruct (IH y (g y) s1 m1 r m' (HA y) E G') as (a & s' & R & H).
    exists a, s'. split; [|exact H]. exact (thruns_exec _ _ _ _ _ _ _ _ _ _ _ _ _ _ FO ET R).
  - destruct HA as (g & HC & HA). rewrite HC in E. unfold bind in E. destruct (c0 m) as [y m1| | |] eqn:E0; try discriminate E.
    destruct (G y m1 eq_refl) as (-> & G'). destruct (IH y (g y) s m r m' (HA y) E G') as (a & s' & R & H).
    exists a, s'. split; [|exact H]. exact (thruns_pure _ _ _ _ _ _ _ _ _ _ E0 R).
  - destruct HA as (g & HC & HA). rewrite HC in E. unfold bind in E. destruct (alloc M n m) as [b m1| | |] eqn:E0; try discriminate E.
    destruct (IH b (tfresh s) (g b) _ m1 r m' (HA _ _) E (G b m1 eq_refl)) as (a & s' & R & H).
    exists a, s'. split; [|exact H]. exact (thruns_alloc _ _ _ _ _ _ _ _ _ _ _ E0 R).
  - destruct HA as (g & HC & HA). rewrite HC in E. unfold bind in E. destruct (reserve_exact M v n m) as [w m1| | |] eqn:E0; try discriminate E.
    specialize (G w m1 eq_refl). destruct (Nat.leb_spec (v_len v + n) (length (m (v_block v)))) as [L|L].
    + assert (K : w = v /\ m1 = m). { unfold reserve_exact in E0. rewrite (proj2 (Nat.leb_le _ _) L) in E0. now injection E0 as <- <-. }
      destruct K as [-> ->]. destruct (IH v t (g v) s m r m' (HA _ _) E G) as (a & s' & R & H). exists a, s'. split; [|exact H].
      exact (thruns_stay _ _ _ _ _ _ _ _ _ _ _ L R).
    + destruct G as (s1 & ER & G). destruct (IH w (tfresh s1) (g w) _ m1 r m' (HA _ _) E G) as (a & s' & R & H). exists a, s'. split; [|exact H].
      exact (thruns_move _ _ _ _ _ _ _ _ _ _ _ _ _ _ L E0 ER R).
  - destruct HA as (c' & HC & HA). rewrite HC in E. unfold bind, free in E. destruct G as (s1 & ER & G).
    destruct (IH c' s1 _ r m' HA E G) as (a & s' & R & H). exists a, s'. split; [|exact H]. exact (thruns_free _ _ _ _ _ _ _ _ _ _ _ ER eq_refl R).
Qed.
Lemma thgood_bind {A B} (x : hcode A) (g : A -> hcode B) Q : forall s m, thgood x (fun a s' m' => thgood (g a) Q s' m') s m -> thgood (hbind x g) Q s m.
Proof.
  induction x as [a|y k IH|X v c0 k IH|X c0 k IH|M n k IH|M v n t k IH|b t k IH]; cbn [hbind thgood]; intros s m G.
  - exact G.
  - destruct (tperform y s) as [[t s1]|]; [now apply IH|exact G].
  - intros y m1 E. destruct (G y m1 E) as (p & s1 & FO & ET & G'). exists p, s1. split; [exact FO|]. split; [exact ET|]. now apply IH.
  - intros y m1 E. destruct (G y m1 E) as (EM & G'). split; [exact EM|]. now apply IH.
  - intros b m1 E. now apply IH, G.
  - intros w m1 E. specialize (G w m1 E). destruct (_ <=? _); [now apply IH|]. destruct G as (s1 & ER & G). exists s1. split; [exact ER|]. now apply IH.
  - destruct G as (s1 & ER & G). exists s1. split; [exact ER|]. now apply IH.
Qed.
Lemma thgood_imp {A} (x : hcode A) (Q Q' : A -> trees -> mem -> Prop) : (forall a s m, Q a s m -> Q' a s m) -> forall s m, thgood x Q s m -> thgood x Q' s m.
Proof.
  intro H. induction x as [a|y k IH|X v c0 k IH|X c0 k IH|M n k IH|M v n t k IH|b t k IH]; cbn [thgood]; intros s m G.
  - auto.
  - destruct (tperform y s) as [[t s1]|]; [now apply IH|exact G].
  - intros y m1 E. destruct (G y m1 E) as (p & s1 & FO & ET & G'). exists p, s1. split; [exact FO|]. split; [exact ET|]. now apply IH.
  - intros y m1 E. destruct (G y m1 E) as (EM & G'). split; [exact EM|]. now apply IH.
  - intros b m1 E. now apply IH, G.
  - intros w m1 E. specialize (G w m1 E). destruct (_ <=? _); [now apply IH|]. destruct G as (s1 & ER & G). exists s1. split; [exact ER|]. now apply IH.
  - destruct G as (s1 & ER & G). exists s1. split; [exact ER|]. now apply IH.
Qed.
Lemma hbind_ret {A} (x : hcode A) Q : forall s m, thgood (hbind x (fun a => HReturn a)) Q s m -> thgood x Q s m.
Proof.
  induction x as [a|y k IH|X v c0 k IH|X c0 k IH|M n k IH|M v n t k IH|b t k IH]; cbn [hbind thgood]; intros s m G.
  - exact G.
  - destruct (tperform y s) as [[t s1]|]; [now apply IH|exact G].
  - intros y m1 E. destruct (G y m1 E) as (p & s1 & FO & ET & G'). exists p, s1. split; [exact FO|]. split; [exact ET|]. now apply IH.
  - intros y m1 E. destruct (G y m1 E) as (EM & G'). split; [exact EM|]. now apply IH.
  - intros b m1 E. now apply IH, G.
  - intros w m1 E. specialize (G w m1 E). destruct (_ <=? _); [now apply IH|]. destruct G as (s1 & ER & G). exists s1. split; [exact ER|]. now apply IH.
  - destruct G as (s1 & ER & G). exists s1. split; [exact ER|]. now apply IH.
Qed.
Lemma thgood_lift {A B} (F : nat -> nat -> Prop) (x : bcode A) (k : A -> hcode B) Q m : noexec x -> forall s,
  tgood F x (fun a s' _ => thgood (k a) Q s' m) s m -> thgood (hbind (lift x) k) Q s m.
Proof.
  induction x as [a|y j IH|X v c0 j IH]; cbn [noexec lift hbind tgood thgood]; intros N s G; [exact G| |contradiction].
  destruct (tperform y s) as [[t s1]|]; [|exact G]. now apply IH.
Qed.
Lemma thgood_lift_runs {A B} (x : bcode A) (k : A -> hcode B) Q s m a s1 m1 : tree_runs x s m a s1 m1 -> thgood (k a) Q s1 m1 -> thgood (hbind (lift x) k) Q s m.
Proof.
  induction 1 as [A a s m|A x j s m t s1 a s' m' E R IH|A X v c j p s m y s1 m1 a s' m' FO ET R IH]; cbn [lift hbind thgood]; intro G.
  - exact G.
  - rewrite E. now apply IH.
  - intros y' m1' E. assert (ER := tree_run_run _ _ _ _ _ _ _ ET). rewrite (follows_imp _ _ FO), E in ER. injection ER as -> ->. exists p, s1. auto.
Qed.
Lemma thgood_fn {A} (body : hcode A) Q s m : thgood body (final Q) (enter s) m -> thgood (hfn body) Q s m.
Proof.
  intro H. unfold hfn. cbn [thgood tperform]. apply thgood_bind. revert H. apply thgood_imp. intros a s1 m1 H. cbn [thgood]. unfold final in H.
  destruct (tperform Leave s1) as [[t s2]|]; exact H.
Qed.
Lemma thgood_pure {X B} (c : M X) (k : X -> hcode B) Q s m : (forall y m1, c m = Ret y m1 -> m1 = m /\ thgood (k y) Q s m) -> thgood (hbind (hpure c) k) Q s m.
Proof. exact (fun H => H). Qed.

(** ** Memory that has an owner *)
Definition clear (s : trees) (b n : nat) : Prop := forall o u, o < n -> In u (guarded s) -> perms s b o u = None.
Definition box_at (s : trees) (b n u : nat) : Prop := u < tfresh s /\ writes s (b, 0) n u /\ clear s b n.
Lemma box_owns s b n u : box_at s b n u -> tree_owns s b n u.
Proof.
  intros (L & W & C). split; [exact L|]. intros i Hi. unfold tree_may_free. assert (WI : wr (guarded s) (path s u) (perms s b i)) by (apply W, in_range_iff; cbn; lia).
  destruct (write_acc_ok _ _ none_of _ WI) as (st & -> & _). apply forallb_forall. intros v Hv. now rewrite (C i v Hi Hv).
Qed.
Lemma owns_box s b n u : tree_owns s b n u -> box_at s b n u.
Proof.
  intros [L H]. split; [exact L|]. assert (K : forall i, i < n -> wr (guarded s) (path s u) (perms s b i) /\ forall v, In v (guarded s) -> perms s b i v = None).
  { intros i Hi. specialize (H i Hi). unfold tree_may_free in H. destruct (write_acc _ _ _ _) eqn:E; [|discriminate H].
    split; [apply write_acc_wr; congruence|]. rewrite forallb_forall in H. intros v Hv. specialize (H v Hv). now destruct (perms s b i v). }
  split.
  - intros b' o Hb. apply in_range_iff in Hb as [-> Hb]. cbn [fst snd] in *. apply K. lia.
  - intros o v Ho Hv. now apply K.
Qed.
Lemma owns_write s b n u : tree_owns s b n u -> tree_may_write s (b, 0) n u.
Proof. intros H i Hi. destruct (owns_box _ _ _ _ H) as (_ & W & _). apply wr_write_acc, W, in_range_iff. cbn. lia. Qed.
Lemma owns_release s b n u : tree_owns s b n u ->
  tree_release s b n u = Some {| perms := fun b' o => if b' =? b then fun _ => None else perms s b' o; path := path s; tfresh := tfresh s; calls := calls s |}.
Proof.
  intros [L H]. unfold tree_release. rewrite (proj2 (Nat.ltb_lt _ _) L). replace (forallb _ (seq 0 n)) with true; [reflexivity|].
  symmetry. apply forallb_forall. intros i Hi. apply in_seq in Hi. apply H. lia.
Qed.
(** only the permissions in block [b] have changed *)
Definition dstep (b : nat) (s s' : trees) : Prop := tree_ok s' /\ ext s s' /\ calls s' = calls s /\ forall b' o, b' <> b -> perms s' b' o = perms s b' o.
Lemma dstep_trans b s1 s2 s3 : dstep b s1 s2 -> dstep b s2 s3 -> dstep b s1 s3.
Proof. intros (A & B & C & D) (A' & B' & C' & D'). split; [exact A'|]. split; [exact (ext_trans _ _ _ B B')|]. split; [congruence|]. intros. now rewrite D', D. Qed.
Lemma readable_d b s s' p n t : dstep b s s' -> n = 0 \/ fst p <> b -> t < tfresh s -> readable s p n t -> readable s' p n t.
Proof.
  intros (OK & E & K & D) N L R b' o H. rewrite (guarded_calls _ _ K), (proj2 E) by exact L. assert (H' := H). apply in_range_iff in H' as [-> Ho].
  rewrite D by (destruct N; [lia|assumption]). now apply R.
Qed.
Lemma can_read_d b s s' p n t : dstep b s s' -> n = 0 \/ fst p <> b -> can_read s p n t -> can_read s' p n t.
Proof. intros D N [L R]. split; [destruct D as (_ & [E _] & _); lia|]. exact (readable_d _ _ _ _ _ _ D N L R). Qed.
Lemma box_same s s' b n u : tsame s s' -> box_at s b n u -> box_at s' b n u.
Proof.
  intros (A & B & C & D) (L & W & K). split; [lia|]. split.
  - intros b' o H. unfold guarded. rewrite A, B, D. now apply W.
  - intros o v Ho Hv. rewrite A. apply K; [exact Ho|]. unfold guarded in *. now rewrite <- D.
Qed.
Lemma box_ro_apart s s' p n t b k u : ro_step p n t s s' -> n = 0 \/ fst p <> b -> box_at s b k u -> box_at s' b k u.
Proof.
  intros (E & K & EL & _) N (L & W & C). assert (OUT : forall o, perms s' b o = perms s b o).
  { intro o. apply EL. destruct (in_range (fst p) (snd p) n b o) eqn:EI; [|reflexivity]. apply in_range_iff in EI as [EB Ho]. exfalso. destruct N; [lia|congruence]. }
  split; [destruct E; lia|]. split.
  - intros b' o H. assert (H' := H). apply in_range_iff in H' as [-> _]. cbn [fst] in *. rewrite OUT, (guarded_calls _ _ K), (proj2 E) by exact L. now apply W.
  - intros o v Ho Hv. rewrite OUT. apply C; [exact Ho|]. now rewrite <- (guarded_calls _ _ K).
Qed.
Lemma box_ro_own s s' r j b k u : tree_ok s -> ro_step r j u s s' -> box_at s b k u -> box_at s' b k u.
Proof.
  intros OK ST (L & W & C). assert (ST' := ST). destruct ST as (E & K & EL & A). split; [destruct E; lia|]. split.
  - apply (writes_ro r j u s); auto. now apply ok_self.
  - intros o v Ho Hv. rewrite (guarded_calls _ _ K) in Hv. specialize (C o v Ho Hv). destruct (in_range (fst r) (snd r) j b o) eqn:EI; [|now rewrite EL].
    destruct (A b o EI) as [_ A2]. destruct (A2 v (ok_guarded _ _ OK Hv)) as (_ & _ & A3). now apply A3.
Qed.
Lemma box_wr s s' r j b k u : wr_step r j u s s' -> box_at s b k u -> box_at s' b k u.
Proof.
  intros ST (L & W & C). assert (ST' := ST). destruct ST as (F & P & K & EL & A). split; [lia|]. split; [exact (writes_wr _ _ _ _ _ _ _ ST' W)|].
  intros o v Ho Hv. rewrite (guarded_calls _ _ K) in Hv. specialize (C o v Ho Hv). destruct (in_range (fst r) (snd r) j b o) eqn:EI; [|now rewrite EL].
  destruct (A b o EI) as [_ A2]. rewrite A2; [now rewrite C|]. intro Iv.
  assert (WI : wr (guarded s) (path s u) (perms s b o)) by (apply W, in_range_iff; cbn; lia). destruct WI as [W1 _]. specialize (W1 v Iv). rewrite C in W1. discriminate W1.
Qed.
Lemma box_up s b n u t X : tree_ok s -> path s u = X ++ path s t -> (forall x, In x X -> ~ In x (guarded s)) -> t < tfresh s -> box_at s b n u -> box_at s b n t.
Proof. intros OK P NX L (_ & W & C). split; [exact L|]. split; [|exact C]. intros b' o H. apply (wr_up _ X); [exact NX|]. rewrite <- P. now apply W. Qed.
Lemma box_popped s s' fr b n u : path s' = path s -> tfresh s' = tfresh s -> calls s = fr :: calls s' -> (forall o, perms s' b o = perms s b o) -> box_at s b n u -> box_at s' b n u.
Proof.
  intros P F K EL (L & W & C). assert (G := guarded_leave s s' fr K). split; [lia|]. split.
  - intros b' o H. assert (H' := H). apply in_range_iff in H' as [-> _]. cbn [fst] in *. rewrite EL, P. apply (wr_less (guarded s)); [exact G|]. now apply W.
  - intros o v Ho Hv. rewrite EL. apply C; auto.
Qed.

(** ** Allocations *)
Lemma ok_tree_block s b n : tree_ok s -> tree_ok (tree_block s b n).
Proof.
  intro OK. assert (OK' := OK). destruct OK as (O1 & O2 & O3). split; [|split]; cbn [tree_block tfresh path perms].
  - intros t Lt. destruct (Nat.eqb_spec t (tfresh s)) as [->|N].
    + split; [now left|]. intros u [<-|[]]. rewrite Nat.eqb_refl. split; [lia|]. split; [apply incl_refl|]. intros v [<-|[]]. left. rewrite Nat.eqb_refl. now left.
    + assert (Ht : t < tfresh s) by lia. split; [now apply ok_self|]. intros u Hu. assert (u < tfresh s) by exact (ok_path _ _ _ OK' Ht Hu).
      rewrite (proj2 (Nat.eqb_neq u _)) by lia. split; [lia|]. split; [exact (ok_incl _ _ _ OK' Ht Hu)|]. intros v Hv.
      assert (v < tfresh s) by exact (ok_path _ _ _ OK' Ht Hv). rewrite (proj2 (Nat.eqb_neq v _)) by lia. exact (ok_linear _ _ _ _ OK' Ht Hu Hv).
  - intros u Hu. specialize (O2 u Hu). lia.
  - intros b' o u Hu. destruct (b' =? b); [|apply O3; lia]. rewrite (proj2 (Nat.eqb_neq u _)) by lia. reflexivity.
Qed.
Lemma block_step s b n : tree_ok s -> dstep b s (tree_block s b n).
Proof.
  intro OK. split; [now apply ok_tree_block|]. split; [|split; [reflexivity|]].
  - split; [cbn; lia|]. intros t Lt. cbn. now rewrite (proj2 (Nat.eqb_neq _ _)) by lia.
  - intros b' o N. cbn. now rewrite (proj2 (Nat.eqb_neq _ _) N).
Qed.
Lemma block_box s b n : tree_ok s -> box_at (tree_block s b n) b n (tfresh s).
Proof.
  intro OK. assert (NG : forall u, In u (guarded (tree_block s b n)) -> u <> tfresh s) by (intros u Hu; assert (u < tfresh s) by exact (ok_guarded s u OK Hu); lia).
  split; [cbn; lia|]. split.
  - intros b' o H. apply in_range_iff in H as [-> Ho]. cbn [fst snd] in *. cbn [tree_block path perms]. rewrite !Nat.eqb_refl. split.
    + intros u [<-|[]]. rewrite Nat.eqb_refl, (proj2 (Nat.ltb_lt _ _)) by lia. reflexivity.
    + intros u Hu _. rewrite (proj2 (Nat.eqb_neq u _)) by now apply NG. reflexivity.
  - intros o u Ho Hu. cbn [tree_block perms]. rewrite Nat.eqb_refl, (proj2 (Nat.eqb_neq u _)) by now apply NG. reflexivity.
Qed.
Definition released (s : trees) (b : nat) : trees := {| perms := fun b' o => if b' =? b then fun _ => None else perms s b' o; path := path s; tfresh := tfresh s; calls := calls s |}.
Lemma released_step s b : tree_ok s -> dstep b s (released s b).
Proof.
  intros (O1 & O2 & O3). split; [|split; [split; auto|split; [reflexivity|]]].
  - split; [exact O1|]. split; [exact O2|]. cbn. intros b' o u Hu. destruct (b' =? b); [reflexivity|now apply O3].
  - intros b' o N. cbn. now rewrite (proj2 (Nat.eqb_neq _ _) N).
Qed.

(** ** Chains of pointers to a box *)
Definition step_of (p : ptr) (n t u : nat) (s s' : trees) : Prop :=
  tree_ok s' /\ ext s s' /\ calls s' = calls s /\ elsewhere p n s s' /\
  (forall b o v, cells_of p n b o -> v < tfresh s -> perms s b o v = None -> perms s' b o v = None) /\
  t <= u < tfresh s' /\ (exists X, path s' u = X ++ path s t /\ forall x, In x X -> tfresh s <= x) /\ writes s' p n u.
Definition top (p : ptr) (n : nat) (x : nat -> bcode nat) : Prop := (forall t, noexec (x t)) /\
  forall (F : nat -> nat -> Prop) (Q : nat -> trees -> mem -> Prop) s mm t, tree_ok s -> t < tfresh s -> writes s p n t ->
    (forall u s', step_of p n t u s s' -> Q u s' mm) -> tgood F (x t) Q s mm.
Lemma unguarded s s' X : tree_ok s -> calls s' = calls s -> (forall x, In x X -> tfresh s <= x) -> forall x : nat, In x X -> ~ In x (guarded s').
Proof. intros OK K H x Hx Hg. rewrite (guarded_calls _ _ K) in Hg. apply (ok_guarded _ _ OK) in Hg. specialize (H x Hx). lia. Qed.
Lemma top_raw p n : top p n (fun t => do_ (Retag RawMut false t p n)).
Proof.
  split; [nox|]. intros F Q s mm t OK L W H. unfold do_. cbn [tgood tperform]. apply H. split; [exact OK|]. split; [apply ext_refl|]. split; [reflexivity|].
  split; [now intros b o _|]. split; [auto|]. split; [lia|]. split; [|exact W]. exists []. split; [reflexivity|]. intros x [].
Qed.
Lemma top_reborrow_mut p n : top p n (reborrow_mut p n).
Proof.
  split; [nox|]. intros F Q s mm t OK L W H. unfold reborrow_mut. apply good_retag; [auto|exact OK|exact L|exact (writes_readable _ _ _ _ W)|]. intros s1 C1.
  assert (W1 := child_writes _ _ _ _ _ _ OK L W C1). destruct C1 as (OK1 & F1 & E1 & P1 & K1 & EL1 & A1). apply H. split; [exact OK1|]. split; [exact E1|].
  split; [rewrite K1; now destruct (calls s)|]. split; [exact EL1|]. split; [|split; [lia|split; [|exact W1]]].
  - intros b o v Hb Lv EN. destruct (A1 b o Hb) as [[_ A2] _]. destruct (A2 v Lv) as (_ & _ & A3). now apply A3.
  - exists [tfresh s]. split; [exact P1|]. intros x [<-|[]]. lia.
Qed.
Lemma step_trans p n t u v s s1 s2 : tree_ok s -> t < tfresh s -> step_of p n t u s s1 -> step_of p n u v s1 s2 -> step_of p n t v s s2.
Proof.
  intros OK L (A1 & A2 & A3 & A4 & A5 & A6 & (X & A7 & A8) & A9) (B1 & B2 & B3 & B4 & B5 & B6 & (Y & B7 & B8) & B9).
  split; [exact B1|]. split; [exact (ext_trans _ _ _ A2 B2)|]. split; [congruence|]. split; [intros b o H; now rewrite B4, A4|].
  assert (tfresh s <= tfresh s1) by apply A2. split; [intros b o w Hb Lw EN; apply B5; [exact Hb|lia|now apply A5]|]. split; [lia|]. split; [|exact B9].
  exists (Y ++ X). split; [now rewrite B7, A7, app_assoc|]. intros x Hx. apply in_app_or in Hx as [Hx|Hx]; [specialize (B8 x Hx); lia|auto].
Qed.
Lemma top_seq p n x y : top p n x -> top p n y -> top p n (fun t => r <== x t ;; y r).
Proof.
  intros [NX HX] [NY HY]. split; [intro; now apply noexec_bind|]. intros F Q s mm t OK L W H. apply tgood_bind. apply HX; auto. intros u s1 S1.
  assert (S1' := S1). destruct S1 as (A1 & _ & _ & _ & _ & A6 & _ & A9). apply HY; auto; [lia|]. intros v s2 S2. apply H. exact (step_trans _ _ _ _ _ _ _ _ OK L S1' S2).
Qed.
Lemma top_fn p n x : top p n x -> top p n (fun t => fn (x t)).
Proof.
  intros [NX HX]. split; [intro; now apply noexec_fn|]. intros F Q s mm t OK L W H. apply good_fn. apply HX; [exact OK|exact L|exact W|].
  intros u s1 (A1 & A2 & A3 & A4 & A5 & A6 & A7 & A9). unfold final. rewrite (leave_plain s1 (calls s) A3). apply H.
  split; [now apply ok_popped|]. split; [exact A2|]. split; [cbn; now rewrite A3|]. split; [exact A4|]. split; [exact A5|]. split; [exact A6|]. split; [exact A7|].
  intros b o Hb. apply (wr_less (guarded s1)); [intros v; apply guarded_popped|]. now apply A9.
Qed.
Lemma top_param p n x : top p n x -> top p n (fun t => fn (u <== mut_param p n t ;; x u)).
Proof.
  intros [NX HX]. split; [intro; apply noexec_fn, noexec_bind; [nox|exact NX]|]. intros F Q s mm t OK L W H.
  apply good_fn, tgood_bind. unfold mut_param. apply good_retag; [auto|exact OK|exact L|exact (writes_readable _ _ _ _ W)|]. intros s1 C1.
  assert (W1 := child_writes _ _ _ _ _ _ (ok_enter _ OK) L (writes_enter _ _ _ _ W) C1).
  destruct C1 as (OK1 & F1 & E1 & P1 & K1 & EL1 & A1). change (tfresh (enter s)) with (tfresh s) in *. change (path (enter s) t) with (path s t) in *.
  change (calls (enter s)) with ([] :: calls s) in K1. cbv iota in K1. apply HX; [exact OK1|lia|exact W1|].
  intros u s2 (OK2 & E2 & K2 & EL2 & N2 & U2 & (X & P2 & X2) & W2). assert (NX2 := unguarded _ _ X OK1 K2 X2). assert (LC : tfresh s < tfresh s2) by (destruct E2; lia).
  assert (PC : path s2 (tfresh s) = tfresh s :: path s t) by (rewrite (proj2 E2) by lia; exact P1).
  assert (WC : writes s2 p n (tfresh s)).
  { intros b o Hb. apply (wr_up _ X); [exact NX2|]. rewrite (proj2 E2) by lia. rewrite <- P2. now apply W2. }
  assert (KC : calls s2 = [(tfresh s, p, n)] :: calls s) by congruence.
  destruct (leave_rw s2 (tfresh s) p n (calls s) OK2 KC WC) as (s3 & EX & OK3 & P3 & F3 & K3 & EL3 & X3). unfold final. rewrite EX. apply H.
  assert (IC : In (tfresh s) (path s2 u)) by (rewrite P2, P1; apply in_or_app; right; now left).
  split; [exact OK3|]. split; [split; [destruct E1, E2; cbn in *; lia|]|].
  { intros v Lv. rewrite P3, (proj2 E2) by (destruct E1; cbn in *; lia). now apply (proj2 E1). }
  split; [exact K3|]. split; [intros b o Hb; rewrite EL3, EL2 by exact Hb; now apply EL1|]. split; [|split; [lia|split]].
  - intros b o v Hb Lv EN. destruct (X3 b o Hb) as (_ & _ & _ & X4). apply X4.
    + apply N2; [exact Hb|lia|]. destruct (A1 b o Hb) as [[_ A2] _]. destruct (A2 v Lv) as (_ & _ & A3). now apply A3.
    + rewrite PC. intros [<-|Iv]; [lia|]. destruct (W b o Hb) as [Wv _]. specialize (Wv v Iv). rewrite EN in Wv. discriminate Wv.
  - exists (X ++ [tfresh s]). split; [rewrite P3, P2, P1, <- app_assoc; reflexivity|]. intros y Hy. apply in_app_or in Hy as [Hy|[<-|[]]]; [specialize (X2 y Hy); lia|lia].
  - apply (exited_writes s2 s3 (tfresh s) p n p n); auto; [lia|]. apply (guarded_leave _ _ [(tfresh s, p, n)]). now rewrite KC, K3.
Qed.
Lemma top_ro_then p n (pre : nat -> bcode nat) x : (forall t, noexec (pre t)) -> (forall t, ro_op (pre t) p n t) -> top p n x -> top p n (fun t => pre t ;=; x t).
Proof.
  intros NP HP [NX HX]. split; [intro; now apply noexec_bind|]. intros F Q s mm t OK L W H. apply tgood_bind.
  apply HP; [exact OK|split; [exact L|exact (writes_readable _ _ _ _ W)]|]. intros v s1 OK1 ST _ _. assert (W1 : writes s1 p n t) by (apply (writes_ro p n t s); auto; now apply ok_self).
  destruct ST as (E1 & K1 & EL1 & A1). apply HX; [exact OK1|destruct E1; lia|exact W1|]. intros u s2 (B1 & B2 & B3 & B4 & B5 & B6 & (Y & B7 & B8) & B9). apply H.
  split; [exact B1|]. split; [exact (ext_trans _ _ _ E1 B2)|]. split; [congruence|]. split; [intros b o Hb; now rewrite B4, EL1|].
  assert (tfresh s <= tfresh s1) by apply E1. split; [|split; [lia|split; [|exact B9]]].
  - intros b o w Hb Lw EN. apply B5; [exact Hb|lia|]. destruct (A1 b o Hb) as [_ A2]. destruct (A2 w Lw) as (_ & _ & A3). now apply A3.
  - exists Y. split; [rewrite B7, (proj2 E1) by exact L; reflexivity|]. intros x0 Hx. specialize (B8 x0 Hx). lia.
Qed.
Lemma ro_chain x (y : nat -> bcode nat) p n t : ro_op x p n t -> (forall u, ro_op (y u) p n u) -> ro_op (bbind x y) p n t.
Proof.
  intros HX HY F Q s mm OK R H. apply tgood_bind. apply HX; [exact OK|exact R|]. intros u s1 OK1 S1 R1 I1. apply HY; auto.
  intros v s2 OK2 S2 R2 I2. apply H; auto.
  - apply (ro_trans _ _ _ u s s1 s2); auto. rewrite <- (proj2 (proj1 S1)) by apply R. apply (ok_incl _ _ _ OK1); [apply R1|exact I1].
  - apply (ok_incl _ _ _ OK2 (proj1 R2) I2). rewrite (proj2 (proj1 S2)) by apply R1. exact I1.
Qed.
Lemma top_as_mut_ptr p n : top p n (as_mut_ptr p n).
Proof. apply (top_seq p n (reborrow_mut p n) (fun t => fn (u <== mut_param p n t ;; do_ (Retag RawMut false u p n)))); [apply top_reborrow_mut|apply top_param, top_raw]. Qed.
Lemma top_into_raw p n : top p n (into_raw p n).
Proof. apply top_param. apply top_seq; [apply top_reborrow_mut|apply top_raw]. Qed.
Lemma top_from_raw p n : top p n (from_raw p n). Proof. apply top_fn, top_reborrow_mut. Qed.
Lemma top_from_utf8 p n : top p n (from_utf8_unchecked_mut p n).
Proof. apply top_param. apply top_seq; [apply top_raw|apply top_reborrow_mut]. Qed.
Lemma top_vec_of_box p n : top p n (vec_of_box_t p n). Proof. apply top_param, top_into_raw. Qed.
Lemma top_into_boxed_bytes p n : top p n (into_boxed_bytes_t p n).
Proof. apply top_param. apply top_seq; [apply top_into_raw|apply top_from_raw]. Qed.
Lemma top_string_of_box p n : top p n (string_of_box_t p n).
Proof. apply top_param. apply top_seq; [apply top_into_boxed_bytes|apply top_vec_of_box]. Qed.
Lemma top_boxed_str p n : top p n (boxed_str_t p n).
Proof.
  apply top_param. apply (top_seq p n (into_raw p n) (fun r => u <== reborrow_mut p n r ;; w <== from_utf8_unchecked_mut p n u ;;
    r <== do_ (Retag RawMut false w p n) ;; from_raw p n r)); [apply top_into_raw|].
  apply (top_seq p n (reborrow_mut p n) (fun u => w <== from_utf8_unchecked_mut p n u ;; r <== do_ (Retag RawMut false w p n) ;; from_raw p n r)); [apply top_reborrow_mut|].
  apply (top_seq p n (from_utf8_unchecked_mut p n) (fun w => r <== do_ (Retag RawMut false w p n) ;; from_raw p n r)); [apply top_from_utf8|].
  apply (top_seq p n (fun w => do_ (Retag RawMut false w p n)) (from_raw p n)); [apply top_raw|apply top_from_raw].
Qed.
Lemma top_assume_init p n : top p n (assume_init_t p n).
Proof.
  apply top_param. assert (H := top_ro_then p n (fun t => u <== reborrow p n t ;; slice_len p n u) (fun t => r <== into_raw p n t ;; from_raw p n r)). apply H; clear H.
  - nox.
  - intro t. apply ro_chain; [apply ro_reborrow|]. intro u. apply ro_len.
  - apply top_seq; [apply top_into_raw|apply top_from_raw].
Qed.
(** on a box *)
Lemma step_box b n t u s s' : tree_ok s -> box_at s b n t -> step_of (b, 0) n t u s s' -> dstep b s s' /\ box_at s' b n u.
Proof.
  intros OK (L & W & C) (A1 & A2 & A3 & A4 & A5 & A6 & A7 & A9). split.
  - split; [exact A1|]. split; [exact A2|]. split; [exact A3|]. intros b' o N. apply A4. cbn. unfold in_range. lia.
  - split; [lia|]. split; [exact A9|]. intros o v Ho Hv. rewrite (guarded_calls _ _ A3) in Hv. apply A5; [apply in_range_iff; cbn; lia|exact (ok_guarded _ _ OK Hv)|auto].
Qed.
Lemma h_op {A} x b n t (kk : nat -> hcode A) Q s m : top (at_start b) n x -> tree_ok s -> box_at s b n t ->
  (forall u s', dstep b s s' -> t <= u < tfresh s' -> (exists X, path s' u = X ++ path s t /\ forall x, In x X -> tfresh s <= x) -> box_at s' b n u -> thgood (kk u) Q s' m) ->
  thgood (hbind (lift (x t)) kk) Q s m.
Proof.
  intros [NX HX] OK B H. apply (thgood_lift (fun _ _ => True)); [apply NX|]. apply HX; [exact OK|apply B|apply B|]. intros u s' S.
  destruct (step_box _ _ _ _ _ _ OK B S) as [D B']. destruct S as (_ & _ & _ & _ & _ & U & X & _). now apply H.
Qed.
