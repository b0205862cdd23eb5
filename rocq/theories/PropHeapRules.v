(** C86, C88: what the rules for allocations guarantee for every program: once a block is freed, no pointer from before may be used
    there again, also if the block is allocated once more; and what a parameter of a running function points to is not freed. For
    both models of Rust's aliasing rules (BorrowsHeap.v, TreeHeap.v); PropBorrowsRules.v and PropTreeRules.v have programs without
    allocations. *)
From Coq Require Import ZArith List Bool Lia.
From Verif Require Import Bytes Mem MemFacts Slices Codec Conc ConcFacts Reify Heap HeapFacts Borrows BorrowsApi BorrowsFacts BorrowsHeap PropBorrowsRules PropBorrows PropBorrowsHeap
  TreeBorrows TreeFacts TreePartsFacts TreeHeap TreeHeapForgiving PropTree PropTreeHeap.
Import ListNotations.
Open Scope nat_scope. Open Scope m_scope. Open Scope borrow_scope. Open Scope heap_scope.

(** ** Stacked Borrows *)
Section Items.
Variables (b o u : nat) (Q : item -> Prop).
Hypothesis disable_Q : forall i, Q i -> Q (disable i).
Lemma items_block s b0 n : u < fresh s -> items_are u Q (stacks s b o) -> items_are u Q (stacks (fresh_block s b0 n) b o).
Proof.
  intros U H. cbn [fresh_block stacks]. destruct (b =? b0); [|exact H]. destruct (o <? n); repeat constructor. cbn. lia.
Qed.
Lemma items_release s b0 n t s1 : release s b0 n t = Some s1 -> fresh s1 = fresh s /\ (items_are u Q (stacks s b o) -> items_are u Q (stacks s1 b o)).
Proof.
  unfold release. destruct (forallb _ _); [|discriminate]. intro E. injection E as <-. split; [reflexivity|]. cbn [stacks]. intro H. destruct (b =? b0); [constructor|exact H].
Qed.
Lemma items_hruns {A} (x : hcode A) s m a s' m' : hruns x s m a s' m' -> u < fresh s -> items_are u Q (stacks s b o) -> items_are u Q (stacks s' b o).
Proof.
  assert (K := fun s st st' F (_ : false = true -> In 0 (active s)) => items_step u Q disable_Q s st st' F).
  induction 1 as [A a s m|A y k s m t s1 a s' m' E _ IH|A X v c k p s m y s1 m1 a s' m' F E _ IH|A X c k s m y a s' m' E _ IH|A M n k s m b0 m1 a s' m' E _ IH
    |A M v n t k s m a s' m' E _ IH|A M v n t k s m w m1 s1 a s' m' L E F _ IH|A b0 t k s m s1 m1 a s' m' F E _ IH]; intros U H; auto.
  - assert (V : sinv b o 0 (S u) (items_are u Q) false 0 s) by (constructor; [exact U|discriminate|exact H]).
    assert (V1 := sinv_perform b o 0 (S u) (items_are u Q) false K y 0 s t s1 V E ltac:(discriminate)). apply IH; [exact (sinv_old _ _ _ _ _ _ _ _ V1)|exact (sinv_stack _ _ _ _ _ _ _ _ V1)].
  - assert (V : sinv b o 0 (S u) (items_are u Q) false 0 s) by (constructor; [exact U|discriminate|exact H]).
    destruct (sinv_run b o 0 (S u) (items_are u Q) false K false ltac:(discriminate) v p 0 s m y s1 m1 V E) as [V1 _]. apply IH; [exact (sinv_old _ _ _ _ _ _ _ _ V1)|exact (sinv_stack _ _ _ _ _ _ _ _ V1)].
  - apply IH; [cbn; lia|now apply items_block].
  - destruct (items_release _ _ _ _ _ F) as [F1 F2]. apply IH; [cbn; lia|apply items_block; [lia|auto]].
  - destruct (items_release _ _ _ _ _ F) as [F1 F2]. apply IH; [lia|auto].
Qed.
End Items.
(** [C84_no_write_for_ever] and [C84_removed_for_ever] for programs that allocate *)
Theorem C86_no_write_for_ever : forall A (x : hcode A) s m a s' m' b o u, hruns x s m a s' m' -> u < fresh s ->
  (forall i, In i (stacks s b o) -> i_tag i = u -> i_perm i = SharedRO \/ i_perm i = Disabled) -> ~ may_write s' (b, o) 1 u.
Proof.
  intros A x s m a s' m' b o u R U E.
  assert (K := items_hruns b o u spent_item (fun i H => eq_ind_r spent_item H (spent_disable i H)) _ _ _ _ _ _ R U ltac:(apply Forall_forall; exact E)).
  intro H. specialize (H 0 Nat.lt_0_1). cbn [fst snd] in H. rewrite Nat.add_0_r in H. apply H. unfold write_at. destruct (locate true u _) as [[[a1 g] r1]|] eqn:EL; [|reflexivity]. exfalso.
  apply locate_split in EL as [ES G]. rewrite ES in K. apply Forall_app in K as [_ K]. apply Forall_cons_iff in K as [K _].
  assert (T : i_tag g = u) by (unfold grants in G; lia). rewrite (spent_grants u g (K T)) in G. discriminate G.
Qed.
Print Assumptions C86_no_write_for_ever.
Theorem C86_removed_for_ever : forall A (x : hcode A) s m a s' m' b o u, hruns x s m a s' m' -> u < fresh s ->
  (forall i, In i (stacks s b o) -> i_tag i = u -> i_perm i = Disabled) -> ~ may_read s' (b, o) 1 u /\ ~ may_write s' (b, o) 1 u.
Proof.
  intros A x s m a s' m' b o u R U E.
  assert (K := items_hruns b o u (fun i => i_perm i = Disabled) (fun i H => eq_ind_r (fun j => i_perm j = Disabled) H (spent_disable i (or_intror H))) _ _ _ _ _ _ R U ltac:(apply Forall_forall; exact E)).
  assert (X : forall w, locate w u (stacks s' b o) = None).
  { intro w. destruct (locate w u _) as [[[a1 g] r1]|] eqn:EL; [|reflexivity]. exfalso. apply locate_split in EL as [ES G]. rewrite ES in K. apply Forall_app in K as [_ K]. apply Forall_cons_iff in K as [K _].
    unfold grants in G. rewrite (K ltac:(lia)), andb_false_r in G. discriminate G. }
  unfold may_read, may_write. split; intro H; specialize (H 0 Nat.lt_0_1); cbn [fst snd] in H; rewrite Nat.add_0_r in H; apply H; unfold read_at, write_at; now rewrite X.
Qed.
Print Assumptions C86_removed_for_ever.
(** No pointer from before may be used after the block is freed. *)
Theorem C86_freed_for_ever : forall A (k : hcode A) b t0 s m a s' m', hruns (HFree b t0 k) s m a s' m' ->
  forall t o, t < fresh s -> ~ may_read s' (b, o) 1 t /\ ~ may_write s' (b, o) 1 t.
Proof.
  intros A k b t0 s m a s' m' R t o L. apply hruns_inv in R. cbv beta iota in R. destruct R as (s1 & m1 & F & _ & R).
  unfold release in F. destruct (forallb _ _); [|discriminate F]. injection F as <-. apply (C86_removed_for_ever _ _ _ _ _ _ _ b o t R L). cbn [stacks]. rewrite Nat.eqb_refl. intros i [].
Qed.
Print Assumptions C86_freed_for_ever.
(** Block 1 is freed and allocated again: the new tag may use it, the old one may not. *)
Definition again : hcode nat := HFree 1 0 (HAlloc M64 2 (fun _ t => HReturn t)).
Definition mB : mem := fun b => if b =? 1 then [Some 7; Some 8]%Z else [].
Example C86_freed_case : exists s' m', hruns again owner mB 1 s' m' /\ may_read owner (1, 0) 2 0 /\ may_write s' (1, 0) 2 1 /\ ~ may_read s' (1, 0) 1 0 /\ ~ may_write s' (1, 1) 1 0.
Proof.
  assert (R : exists s' m', hruns again owner mB 1 s' m' /\ may_write s' (1, 0) 2 1).
  { eexists. eexists. split.
    - eapply hruns_free; [reflexivity|reflexivity|]. eapply hruns_alloc; [reflexivity|]. constructor.
    - intros i Hi. destruct i as [|[|i]]; [discriminate|discriminate|lia]. }
  destruct R as (s' & m' & R & W). exists s', m'. split; [exact R|]. split; [intros i Hi; discriminate|]. split; [exact W|]. split; apply (C86_freed_for_ever _ _ _ _ _ _ _ _ _ R); cbn; lia.
Qed.

(** ** Tree Borrows *)
Definition same_paths (s s' : trees) : Prop := tfresh s <= tfresh s' /\ forall t, t < tfresh s -> path s' t = path s t.
Lemma paths_refl s : same_paths s s. Proof. split; auto. Qed.
Lemma paths_trans s s1 s2 : same_paths s s1 -> same_paths s1 s2 -> same_paths s s2.
Proof. intros [L1 P1] [L2 P2]. split; [lia|]. intros t L. rewrite P2 by lia. auto. Qed.
Lemma paths_exits l : forall s s', exits l s = Some s' -> same_paths s s'.
Proof.
  induction l as [|[[c q] n] l IH]; intros s s' E; cbn [exits] in E; [injection E as <-; apply paths_refl|]. unfold tput in E. destruct (tacross _ q n _) as [st|]; [|discriminate E].
  apply (IH _ _ E).
Qed.
Lemma paths_perform x s t s' : tperform x s = Some (t, s') -> same_paths s s'.
Proof.
  intro E. destruct x as [| |k param v q n]; cbn [tperform] in E.
  - injection E as <- <-. split; auto.
  - destruct (calls s) as [|fr r]; [discriminate E|]. destruct (exits fr s) as [s1|] eqn:EX; [|discriminate E]. injection E as <- <-. exact (paths_exits _ _ _ EX).
  - destruct k; cbn [tperform] in E; try (injection E as _ <-; apply paths_refl); (destruct (tacross _ q n _) as [st|]; [|discriminate E]); injection E as _ <-; split; cbn [tfresh path]; try lia;
      intros w L; destruct (Nat.eqb_spec w (tfresh s)); [lia|reflexivity|lia|reflexivity].
Qed.
Lemma paths_run {A} v (p : prog A) : forall s m a s' m', tree_run v p s m = Some (a, s', m') -> same_paths s s'.
Proof.
  induction p as [a0|f|b0 k IH|q n k IH|q xs k IH]; intros s m a s' m' E; cbn [tree_run] in E.
  - injection E as _ <- _. apply paths_refl.
  - discriminate E.
  - exact (IH _ _ _ _ _ _ E).
  - unfold tree_read, tput in E. destruct (tacross _ q n _) as [st|]; [|discriminate E]. destruct (load q n m) as [l m1| | |]; try discriminate E. exact (IH _ _ _ _ _ _ E).
  - unfold tree_write, tput in E. destruct (tacross _ q _ _) as [st|]; [|discriminate E]. destruct (store q xs m) as [y m1| | |]; try discriminate E. exact (IH _ _ _ _ _ E).
Qed.
Lemma paths_block s b n : same_paths s (tree_block s b n).
Proof. split; cbn [tree_block tfresh path]; [lia|]. intros t L. destruct (Nat.eqb_spec t (tfresh s)); [lia|reflexivity]. Qed.
Lemma release_inv s b n t s1 : tree_release s b n t = Some s1 -> same_paths s s1 /\ forall b' o u, perms s1 b' o u = if b' =? b then None else perms s b' o u.
Proof. unfold tree_release. destruct (_ && _); [|discriminate]. intro E. injection E as <-. split; [split; auto|]. intros b' o u. cbn [perms]. now destruct (b' =? b). Qed.
Section Perms.
Variables (b o u : nat) (K : option tperm -> Prop).
Hypothesis none : K None.
Hypothesis keep : forall s st st', u < tfresh s -> PropTreeRules.cell_step s st st' -> K (st u) -> K (st' u).
Notation pinv := (PropTreeRules.inv b o u K false).
Lemma keep' : forall s st st', u < tfresh s -> (false = true -> In u (guarded s)) -> PropTreeRules.cell_step s st st' -> K (st u) -> K (st' u).
Proof. eauto. Qed.
Lemma perms_block s b0 n : u < tfresh s -> K (perms s b o u) -> K (perms (tree_block s b0 n) b o u).
Proof. intros U H. cbn [tree_block perms]. destruct (b =? b0); [|exact H]. destruct (Nat.eqb_spec u (tfresh s)); [lia|exact none]. Qed.
Lemma perms_release s b0 n t s1 : tree_release s b0 n t = Some s1 -> K (perms s b o u) -> K (perms s1 b o u).
Proof. intros E H. destruct (release_inv _ _ _ _ _ E) as [_ P]. rewrite P. now destruct (b =? b0). Qed.
Lemma perms_hruns {A} (x : hcode A) s m a s' m' : tree_hruns x s m a s' m' -> u < tfresh s -> K (perms s b o u) -> K (perms s' b o u) /\ same_paths s s'.
Proof.
  induction 1 as [A a s m|A y k s m t s1 a s' m' E _ IH|A X v c k p s m y s1 m1 a s' m' F E _ IH|A X c k s m y a s' m' E _ IH|A M n k s m b0 m1 a s' m' E _ IH
    |A M v n t k s m a s' m' E _ IH|A M v n t k s m w m1 s1 a s' m' L E F _ IH|A b0 t k s m s1 m1 a s' m' F E _ IH]; intros U H; auto using paths_refl.
  - assert (V : pinv 0 s) by (constructor; [exact U|discriminate|exact H]).
    assert (V1 := PropTreeRules.inv_perform b o u K false keep' y 0 s t s1 V E ltac:(discriminate)). destruct IH as [H1 P1]; [apply V1|apply V1|].
    split; [exact H1|]. exact (paths_trans _ _ _ (paths_perform _ _ _ _ E) P1).
  - assert (V : pinv 0 s) by (constructor; [exact U|discriminate|exact H]).
    destruct (PropTreeRules.inv_run b o u K false keep' false ltac:(discriminate) v p 0 s m y s1 m1 V E) as [V1 _]. destruct IH as [H1 P1]; [apply V1|apply V1|].
    split; [exact H1|]. exact (paths_trans _ _ _ (paths_run _ _ _ _ _ _ _ E) P1).
  - destruct IH as [H1 P1]; [cbn; lia|now apply perms_block|]. split; [exact H1|]. exact (paths_trans _ _ _ (paths_block _ _ _) P1).
  - destruct (release_inv _ _ _ _ _ F) as [P0 _]. assert (P2 := paths_block s1 (v_block w) (length (m1 (v_block w)))). destruct P0 as [L0 P0]. destruct IH as [H1 P1].
    + cbn. lia.
    + apply perms_block; [lia|]. exact (perms_release _ _ _ _ _ F H).
    + split; [exact H1|]. exact (paths_trans _ _ _ (conj L0 P0) (paths_trans _ _ _ P2 P1)).
  - destruct (release_inv _ _ _ _ _ F) as [[L0 P0] _]. destruct IH as [H1 P1]; [lia|exact (perms_release _ _ _ _ _ F H)|]. split; [exact H1|]. exact (paths_trans _ _ _ (conj L0 P0) P1).
Qed.
End Perms.
(** [C87_frozen_for_ever] and [C87_disabled_for_ever] for programs that allocate; no permission at all is not got back either *)
Theorem C88_frozen_for_ever : forall A (x : hcode A) s m a s' m' b o u, tree_hruns x s m a s' m' -> u < tfresh s ->
  perms s b o u = Some TFrozen -> forall t, In u (path s' t) -> ~ tree_may_write s' (b, o) 1 t.
Proof.
  intros A x s m a s' m' b o u R U F t I.
  destruct (perms_hruns b o u (fun p => p = None \/ PropTreeRules.spent p) (or_introl eq_refl)
    (fun s st st' L E H => match H with or_introl H => or_introl (none_step s st st' u L E H) | or_intror H => or_intror (PropTreeRules.spent_step s st st' u L E H) end)
    _ _ _ _ _ _ R U (or_intror (or_introl F))) as [K _].
  intro H. specialize (H 0 Nat.lt_0_1). cbn [fst snd] in H. rewrite Nat.add_0_r in H. apply H. destruct (write_acc _ _ _ _) as [st'|] eqn:E; [|reflexivity]. exfalso.
  destruct (PropTreeRules.write_acc_inv _ _ _ _ _ u E) as [H1 _]. destruct (H1 I) as [W _]. destruct K as [K|[K|K]]; rewrite K in W; discriminate W.
Qed.
Print Assumptions C88_frozen_for_ever.
Theorem C88_disabled_for_ever : forall A (x : hcode A) s m a s' m' b o u, tree_hruns x s m a s' m' -> u < tfresh s ->
  perms s b o u = Some TDisabled \/ perms s b o u = None -> forall t, In u (path s' t) -> ~ tree_may_read s' (b, o) 1 t /\ ~ tree_may_write s' (b, o) 1 t.
Proof.
  intros A x s m a s' m' b o u R U F t I.
  destruct (perms_hruns b o u (fun p => p = Some TDisabled \/ p = None) (or_intror eq_refl)
    (fun s st st' L E H => match H with or_introl H => or_introl (PropTreeRules.disabled_step s st st' u L E H) | or_intror H => or_intror (none_step s st st' u L E H) end)
    _ _ _ _ _ _ R U F) as [K _].
  split; intro H; specialize (H 0 Nat.lt_0_1); cbn [fst snd] in H; rewrite Nat.add_0_r in H; apply H.
  - destruct (read_acc _ _ _ _) as [st'|] eqn:E; [|reflexivity]. exfalso. destruct (PropTreeRules.read_acc_inv _ _ _ _ _ u E) as [H1 _]. destruct (H1 I) as [W _]. destruct K as [K|K]; rewrite K in W; discriminate W.
  - destruct (write_acc _ _ _ _) as [st'|] eqn:E; [|reflexivity]. exfalso. destruct (PropTreeRules.write_acc_inv _ _ _ _ _ u E) as [H1 _]. destruct (H1 I) as [W _]. destruct K as [K|K]; rewrite K in W; discriminate W.
Qed.
Print Assumptions C88_disabled_for_ever.
(** [t] and, with [In u (path s' t)], every pointer made from one of before *)
Theorem C88_freed_for_ever : forall A (k : hcode A) b t0 s m a s' m', tree_hruns (HFree b t0 k) s m a s' m' -> tree_ok s ->
  forall u o, u < tfresh s -> ~ tree_may_read s' (b, o) 1 u /\ ~ tree_may_write s' (b, o) 1 u /\
  forall t, In u (path s' t) -> ~ tree_may_read s' (b, o) 1 t /\ ~ tree_may_write s' (b, o) 1 t.
Proof.
  intros A k b t0 s m a s' m' R OK u o L. apply thruns_inv in R. cbv beta iota in R. destruct R as (s1 & m1 & F & _ & R).
  destruct (release_inv _ _ _ _ _ F) as [[L0 P0] P]. assert (N : perms s1 b o u = None) by (rewrite P, Nat.eqb_refl; reflexivity).
  destruct (perms_hruns b o u (fun _ => True) I (fun _ _ _ _ _ _ => I) _ _ _ _ _ _ R ltac:(lia) I) as [_ [L1 P1]].
  assert (X := C88_disabled_for_ever _ _ _ _ _ _ _ b o u R ltac:(lia) (or_intror N)).
  assert (S : In u (path s' u)) by (rewrite P1, P0 by lia; now apply ok_self). destruct (X u S) as [X1 X2]. auto.
Qed.
Print Assumptions C88_freed_for_ever.
Example C88_freed_case : exists s' m', tree_hruns again towner mB 1 s' m' /\ tree_may_write towner (1, 0) 2 0 /\ tree_may_write s' (1, 0) 2 1 /\ ~ tree_may_read s' (1, 0) 1 0 /\ ~ tree_may_write s' (1, 1) 1 0.
Proof.
  assert (R : exists s' m', tree_hruns again towner mB 1 s' m' /\ tree_may_write s' (1, 0) 2 1).
  { eexists. eexists. split.
    - eapply thruns_free; [reflexivity|reflexivity|]. eapply thruns_alloc; [reflexivity|]. constructor.
    - intros i Hi. destruct i as [|[|i]]; [discriminate|discriminate|lia]. }
  destruct R as (s' & m' & R & W). exists s', m'. split; [exact R|]. split; [intros i Hi; destruct i as [|[|i]]; [discriminate|discriminate|lia]|]. split; [exact W|].
  destruct (C88_freed_for_ever _ _ _ _ _ _ _ _ _ R towner_ok 0 0 ltac:(cbn; lia)) as [H1 _]. destruct (C88_freed_for_ever _ _ _ _ _ _ _ _ _ R towner_ok 0 1 ltac:(cbn; lia)) as (_ & H2 & _). auto.
Qed.

(** ** Parameters
    As [C84_shared_param_constant] and the like, with allocation and freeing: [x] does not leave the call, [o] is a byte of the block. *)
Fixpoint hstays {A} (d : nat) (x : hcode A) : Prop :=
  match x with
  | HReturn _ => True
  | HBorrow Enter k => forall t, hstays (S d) (k t)
  | HBorrow Leave k => match d with 0 => False | S d' => forall t, hstays d' (k t) end
  | HBorrow (Retag _ _ _ _ _) k => forall t, hstays d (k t)
  | HExec _ _ k | HPure _ k => forall y, hstays d (k y)
  | HAlloc _ _ k => forall b t, hstays d (k b t)
  | HGrow _ _ _ _ k => forall v t, hstays d (k v t)
  | HFree _ _ k => hstays d k
  end.
Lemma hstays_borrow {A} d x (k : nat -> hcode A) : hstays d (HBorrow x k) -> (x = Leave -> d <> 0) /\ forall t, hstays (depth_after x d) (k t).
Proof. intro S. destruct x; cbn [hstays depth_after] in *; [split; [discriminate|exact S]| |split; [discriminate|exact S]]. destruct d; [contradiction|]. split; [discriminate|exact S]. Qed.
Lemma alloc_other M n m b0 m1 b o : alloc M n m = Ret b0 m1 -> o < length (m b) -> b <> b0 /\ m1 b = m b.
Proof.
  unfold alloc. destruct (m (new_block M)) eqn:E; [|discriminate]. intros H L. injection H as <- <-. assert (N : b <> new_block M) by (intros ->; rewrite E in L; cbn in L; lia).
  split; [exact N|now rewrite upd_other].
Qed.
Lemma reserve_other M v n m w m1 b o : length (m (v_block v)) < v_len v + n -> reserve_exact M v n m = Ret w m1 -> o < length (m b) -> b <> v_block v -> b <> v_block w /\ m1 b = m b.
Proof.
  intros C E L N. unfold reserve_exact in E. destruct (Nat.leb_spec (v_len v + n) (length (m (v_block v)))); [lia|]. destruct (isize_limit M <? _)%Z; [discriminate E|].
  destruct (Nat.eqb_spec (new_block M) (v_block v)).
  - injection E as <- <-. split; [exact N|now rewrite upd_other].
  - destruct (m (new_block M)) eqn:EB; [|discriminate E]. injection E as <- <-. cbn [v_block]. assert (N1 : b <> new_block M) by (intros ->; rewrite EB in L; cbn in L; lia).
    split; [exact N1|]. now rewrite !upd_other.
Qed.
Lemma free_other b0 m u m1 b : free b0 m = Ret u m1 -> b <> b0 -> m1 b = m b.
Proof. unfold free. intros E N. injection E as _ <-. now rewrite upd_other. Qed.
Lemma store_length q xs m u m1 b : store q xs m = Ret u m1 -> length (m1 b) = length (m b).
Proof. intro E. apply store_ret in E as (L & ->). unfold upd. destruct (Nat.eqb_spec b (fst q)) as [->|]; [now apply splice_length|reflexivity]. Qed.
Lemma trun_length {A} v (p : prog A) b : forall s m a s' m', trun v p s m = Some (a, s', m') -> length (m' b) = length (m b).
Proof.
  induction p as [a0|f|b0 k IH|q n k IH|q xs k IH]; intros s m a s' m' E; cbn [trun] in E.
  - injection E as _ _ <-. reflexivity.
  - discriminate E.
  - exact (IH _ _ _ _ _ _ E).
  - destruct (tread _ q n s) as [s1|]; [|discriminate E]. destruct (load q n m) as [l m1| | |] eqn:EL; try discriminate E. apply load_ret in EL as (-> & _ & _). exact (IH _ _ _ _ _ _ E).
  - destruct (twrite _ q _ s) as [s1|]; [|discriminate E]. destruct (store q xs m) as [y m1| | |] eqn:EL; try discriminate E. rewrite <- (store_length _ _ _ _ _ b EL). exact (IH _ _ _ _ _ E).
Qed.
Lemma tree_run_length {A} v (p : prog A) b : forall s m a s' m', tree_run v p s m = Some (a, s', m') -> length (m' b) = length (m b).
Proof.
  induction p as [a0|f|b0 k IH|q n k IH|q xs k IH]; intros s m a s' m' E; cbn [tree_run] in E.
  - injection E as _ _ <-. reflexivity.
  - discriminate E.
  - exact (IH _ _ _ _ _ _ E).
  - destruct (tree_read _ q n s) as [s1|]; [|discriminate E]. destruct (load q n m) as [l m1| | |] eqn:EL; try discriminate E. apply load_ret in EL as (-> & _ & _). exact (IH _ _ _ _ _ _ E).
  - destruct (tree_write _ q _ s) as [s1|]; [|discriminate E]. destruct (store q xs m) as [y m1| | |] eqn:EL; try discriminate E. rewrite <- (store_length _ _ _ _ _ b EL). exact (IH _ _ _ _ _ E).
Qed.

(** *** Stacked Borrows *)
Section StackHeap.
Variables (b o c N : nat) (K : stack -> Prop).
Hypothesis keep : forall s st st', N <= fresh s -> (true = true -> In c (active s)) -> stack_step s st st' -> K st -> K st'.
Hypothesis shielded : forall st, K st -> exists it, In it st /\ i_call it = Some c.
Variable still : bool.
Hypothesis no_write : forall s st t, still = true -> (true = true -> In c (active s)) -> K st -> write_at (active s) t st = None.
Lemma release_other s b0 n t s1 d : sinv b o c N K true d s -> release s b0 n t = Some s1 -> (b0 = b -> o < n) -> b <> b0 /\ sinv b o c N K true d s1.
Proof.
  intros V E L. unfold release in E. destruct (forallb _ _) eqn:F; [|discriminate E]. injection E as <-. assert (D : b <> b0).
  { intros <-. rewrite forallb_forall in F. specialize (F o ltac:(apply in_seq; specialize (L eq_refl); lia)). unfold may_free in F. destruct (locate _ _ _); [|discriminate F].
    destruct (shielded _ (sinv_stack _ _ _ _ _ _ _ _ V)) as (it & I & C). assert (X : existsb (protected (active s)) (stacks s b o) = true).
    { apply existsb_exists. exists it. split; [exact I|]. exact (protected_in _ _ _ C (sinv_active _ _ _ _ _ _ _ _ V eq_refl)). }
    rewrite X in F. discriminate F. }
  split; [exact D|]. destruct V as [V1 V2 V3]. constructor; [exact V1|exact V2|]. cbn [stacks]. destruct (Nat.eqb_spec b b0); [contradiction|exact V3].
Qed.
Lemma block_other s b0 n d : sinv b o c N K true d s -> b <> b0 -> sinv b o c N K true d (fresh_block s b0 n).
Proof. intros [V1 V2 V3] D. constructor; [cbn; lia|exact V2|]. cbn [fresh_block stacks]. destruct (Nat.eqb_spec b b0); [contradiction|exact V3]. Qed.
Lemma sinv_hruns {A} (x : hcode A) s m a s' m' : hruns x s m a s' m' -> forall d, hstays d x -> sinv b o c N K true d s -> o < length (m b) ->
  exists d', sinv b o c N K true d' s' /\ o < length (m' b) /\ (still = true -> nth_error (m' b) o = nth_error (m b) o).
Proof.
  induction 1 as [A a s m|A y k s m t s1 a s' m' E _ IH|A X v c0 k p s m y s1 m1 a s' m' F E _ IH|A X c0 k s m y a s' m' E _ IH|A M n k s m b0 m1 a s' m' E _ IH
    |A M v n t k s m a s' m' E _ IH|A M v n t k s m w m1 s1 a s' m' LE E F _ IH|A b0 t k s m s1 m1 a s' m' F E _ IH]; intros d S V L.
  - eauto.
  - apply hstays_borrow in S as [S0 S]. apply (IH _ (S t)); [|exact L]. apply (sinv_perform b o c N K true keep _ _ _ _ _ V E). auto.
  - destruct (sinv_run b o c N K true keep still no_write v p d _ _ _ _ _ V E) as [V1 M1]. assert (LN := trun_length _ _ b _ _ _ _ _ E).
    destruct (IH d (S y) V1 ltac:(lia)) as (d' & V2 & L2 & M2). exists d'. split; [exact V2|]. split; [exact L2|]. intro T. rewrite (M2 T). auto.
  - exact (IH d (S y) V L).
  - destruct (alloc_other _ _ _ _ _ _ _ E L) as [D EM]. destruct (IH d (S b0 (fresh s)) (block_other _ _ _ _ V D) ltac:(now rewrite EM)) as (d' & V2 & L2 & M2). rewrite EM in M2. eauto.
  - exact (IH d (S v t) V L).
  - destruct (release_other _ _ _ _ _ _ V F ltac:(intros ->; exact L)) as [D V1]. destruct (reserve_other _ _ _ _ _ _ _ _ LE E L D) as [D1 EM].
    destruct (IH d (S w (fresh s1)) (block_other _ _ _ _ V1 D1) ltac:(now rewrite EM)) as (d' & V2 & L2 & M2). rewrite EM in M2. eauto.
  - destruct (release_other _ _ _ _ _ _ V F ltac:(intros ->; exact L)) as [D V1]. assert (EM := free_other _ _ _ _ _ E D).
    destruct (IH d S V1 ltac:(now rewrite EM)) as (d' & V2 & L2 & M2). rewrite EM in M2. eauto.
Qed.
End StackHeap.
(** A byte behind a parameter of type [&] is not freed and does not change while the function runs. *)
Theorem C86_shared_param_constant : forall A (x : hcode A) d s m a s' m' b o c u r,
  hruns x s m a s' m' -> call_at c d s -> hstays d x -> o < length (m b) -> stacks s b o = {| i_perm := SharedRO; i_tag := u; i_call := Some c |} :: r ->
  o < length (m' b) /\ nth_error (m' b) o = nth_error (m b) o /\ forall t, ~ may_write s' (b, o) 1 t.
Proof.
  intros A x d s m a s' m' b o c u r R CA N L E.
  destruct (sinv_hruns b o c 0 (sealed c u) (fun s st st' _ G => sealed_step c u s st st' (G eq_refl))
    (fun st '(ex_intro _ X (ex_intro _ it (ex_intro _ B (conj E1 (conj _ (conj _ (conj _ C))))))) => ex_intro _ it (conj (eq_ind_r (In it) (in_elt it X B) E1) C)) true
    (fun s1 st t _ G K => sealed_write _ _ _ _ t K (G eq_refl)) _ _ _ _ _ _ R d N) as (d' & V & L2 & M); [|exact L|].
  - constructor; [lia|intros _; exact CA|]. rewrite E. eexists [], _, r. cbn. auto.
  - split; [exact L2|]. split; [now apply M|]. intros t H. specialize (H 0 Nat.lt_0_1). cbn [fst snd] in H. rewrite Nat.add_0_r in H. apply H.
    exact (sealed_write _ _ _ _ t (sinv_stack _ _ _ _ _ _ _ _ V) (sinv_active _ _ _ _ _ _ _ _ V eq_refl)).
Qed.
Print Assumptions C86_shared_param_constant.
(** One behind a parameter of type [&mut] is not freed, and older pointers may not access it. *)
Theorem C86_mut_param_exclusive : forall A (x : hcode A) d s m a s' m' b o c u r,
  hruns x s m a s' m' -> call_at c d s -> hstays d x -> o < length (m b) -> stacks s b o = {| i_perm := Unique; i_tag := u; i_call := Some c |} :: r ->
  o < length (m' b) /\ forall t, t < fresh s -> t <> u -> ~ may_read s' (b, o) 1 t /\ ~ may_write s' (b, o) 1 t.
Proof.
  intros A x d s m a s' m' b o c u r R CA N L E.
  destruct (sinv_hruns b o c (fresh s) (owned c u (fresh s)) (fun s0 st st' F G => owned_step c u (fresh s) s0 st st' (G eq_refl) F)
    (fun st '(ex_intro _ X (ex_intro _ it (ex_intro _ B (conj E1 (conj _ (conj _ (conj _ C))))))) => ex_intro _ it (conj (eq_ind_r (In it) (in_elt it X B) E1) C)) false
    ltac:(discriminate) _ _ _ _ _ _ R d N) as (d' & V & L2 & _); [|exact L|].
  - constructor; [lia|intros _; exact CA|]. rewrite E. eexists [], _, r. cbn. auto.
  - split; [exact L2|]. intros t Ht Du. destruct (owned_excludes _ _ _ _ _ t (sinv_active _ _ _ _ _ _ _ _ V eq_refl) (sinv_stack _ _ _ _ _ _ _ _ V) Ht Du) as [H1 H2].
    split; intro H; specialize (H 0 Nat.lt_0_1); cbn [fst snd] in H; rewrite Nat.add_0_r in H; contradiction.
Qed.
Print Assumptions C86_mut_param_exclusive.

(** *** Tree Borrows *)
Section TreeHeapRuns.
Variables (b o u : nat) (k0 : tperm).
Notation K := (fun p => p = Some k0).
Notation tinv := (PropTreeRules.inv b o u K true).
Hypothesis keep : forall s st st', u < tfresh s -> (true = true -> In u (guarded s)) -> PropTreeRules.cell_step s st st' -> st u = Some k0 -> st' u = Some k0.
Variable still : bool.
Hypothesis no_write : forall s st t, still = true -> (true = true -> In u (guarded s)) -> st u = Some k0 -> write_acc (guarded s) (path s t) none_of st = None.
Lemma tree_release_other s b0 n t s1 d : tinv d s -> tree_release s b0 n t = Some s1 -> (b0 = b -> o < n) -> b <> b0 /\ tinv d s1.
Proof.
  intros V E L. unfold tree_release in E. destruct (_ && _) eqn:F; [|discriminate E]. injection E as <-. apply andb_true_iff in F as [_ F]. assert (G := PropTreeRules.inv_guarded _ _ _ _ _ _ _ V eq_refl).
  destruct V as [V1 V2 V3]. assert (D : b <> b0).
  { intros <-. rewrite forallb_forall in F. specialize (F o ltac:(apply in_seq; specialize (L eq_refl); lia)). unfold tree_may_free in F. destruct (write_acc _ _ _ _); [|discriminate F].
    rewrite forallb_forall in F. specialize (F u G). cbv beta in V3. rewrite V3 in F. discriminate F. }
  split; [exact D|]. constructor; [exact V1|exact V2|]. cbn [perms]. destruct (Nat.eqb_spec b b0); [contradiction|exact V3].
Qed.
Lemma tree_block_other s b0 n d : tinv d s -> b <> b0 -> tinv d (tree_block s b0 n).
Proof. intros [V1 V2 V3] D. constructor; [cbn; lia|exact V2|]. cbn [tree_block perms]. destruct (Nat.eqb_spec b b0); [contradiction|exact V3]. Qed.
Lemma tinv_hruns {A} (x : hcode A) s m a s' m' : tree_hruns x s m a s' m' -> forall d, hstays d x -> tinv d s -> o < length (m b) ->
  exists d', tinv d' s' /\ o < length (m' b) /\ (still = true -> nth_error (m' b) o = nth_error (m b) o).
Proof.
  induction 1 as [A a s m|A y k s m t s1 a s' m' E _ IH|A X v c0 k p s m y s1 m1 a s' m' F E _ IH|A X c0 k s m y a s' m' E _ IH|A M n k s m b0 m1 a s' m' E _ IH
    |A M v n t k s m a s' m' E _ IH|A M v n t k s m w m1 s1 a s' m' LE E F _ IH|A b0 t k s m s1 m1 a s' m' F E _ IH]; intros d S V L.
  - eauto.
  - apply hstays_borrow in S as [S0 S]. apply (IH _ (S t)); [|exact L]. apply (PropTreeRules.inv_perform b o u K true keep _ _ _ _ _ V E). auto.
  - destruct (PropTreeRules.inv_run b o u K true keep still no_write v p d _ _ _ _ _ V E) as [V1 M1]. assert (LN := tree_run_length _ _ b _ _ _ _ _ E).
    destruct (IH d (S y) V1 ltac:(lia)) as (d' & V2 & L2 & M2). exists d'. split; [exact V2|]. split; [exact L2|]. intro T. rewrite (M2 T). auto.
  - exact (IH d (S y) V L).
  - destruct (alloc_other _ _ _ _ _ _ _ E L) as [D EM]. destruct (IH d (S b0 (tfresh s)) (tree_block_other _ _ _ _ V D) ltac:(now rewrite EM)) as (d' & V2 & L2 & M2). rewrite EM in M2. eauto.
  - exact (IH d (S v t) V L).
  - destruct (tree_release_other _ _ _ _ _ _ V F ltac:(intros ->; exact L)) as [D V1]. destruct (reserve_other _ _ _ _ _ _ _ _ LE E L D) as [D1 EM].
    destruct (IH d (S w (tfresh s1)) (tree_block_other _ _ _ _ V1 D1) ltac:(now rewrite EM)) as (d' & V2 & L2 & M2). rewrite EM in M2. eauto.
  - destruct (tree_release_other _ _ _ _ _ _ V F ltac:(intros ->; exact L)) as [D V1]. assert (EM := free_other _ _ _ _ _ E D).
    destruct (IH d S V1 ltac:(now rewrite EM)) as (d' & V2 & L2 & M2). rewrite EM in M2. eauto.
Qed.
End TreeHeapRuns.
Theorem C88_shared_param_constant : forall A (x : hcode A) d s m a s' m' b o u,
  tree_hruns x s m a s' m' -> tree_ok s -> PropTreeRules.param_at u d s -> hstays d x -> o < length (m b) -> perms s b o u = Some TFrozen ->
  o < length (m' b) /\ nth_error (m' b) o = nth_error (m b) o /\ perms s' b o u = Some TFrozen.
Proof.
  intros A x d s m a s' m' b o u R OK PA N L F.
  destruct (tinv_hruns b o u TFrozen (fun s st st' U G => PropTreeRules.frozen_step s st st' u U (G eq_refl)) true) with (2 := R) (d := d) as (d' & V & L2 & M).
  - intros s1 st t _ G K. specialize (G eq_refl). destruct (write_acc _ _ _ st) as [st'|] eqn:E; [|reflexivity]. exfalso. destruct (PropTreeRules.write_acc_inv _ _ _ _ _ u E) as [H1 H2].
    destruct (in_dec Nat.eq_dec u (path s1 t)) as [I|I].
    + destruct (H1 I) as [W _]. rewrite K in W. discriminate W.
    + destruct (H2 I) as [[S _]|(_ & _ & W)]; [discriminate S|]. specialize (W G). rewrite K in W. discriminate W.
  - exact N.
  - constructor; [apply OK; exact (PropTreeRules.param_guarded u d s PA)|intros _; exact PA|exact F].
  - exact L.
  - split; [exact L2|]. split; [now apply M|apply V].
Qed.
Print Assumptions C88_shared_param_constant.
(** [&mut], after a write through the parameter: other pointers may not access the byte *)
Theorem C88_mut_param_exclusive : forall A (x : hcode A) d s m a s' m' b o u,
  tree_hruns x s m a s' m' -> tree_ok s -> PropTreeRules.param_at u d s -> hstays d x -> o < length (m b) -> perms s b o u = Some TActive ->
  o < length (m' b) /\ perms s' b o u = Some TActive /\ forall t, ~ In u (path s' t) -> ~ tree_may_read s' (b, o) 1 t /\ ~ tree_may_write s' (b, o) 1 t.
Proof.
  intros A x d s m a s' m' b o u R OK PA N L F.
  destruct (tinv_hruns b o u TActive (fun s st st' U G => PropTreeRules.active_step s st st' u U (G eq_refl)) false) with (2 := R) (d := d) as (d' & V & L2 & _).
  - discriminate.
  - exact N.
  - constructor; [apply OK; exact (PropTreeRules.param_guarded u d s PA)|intros _; exact PA|exact F].
  - exact L.
  - assert (G := PropTreeRules.inv_guarded _ _ _ _ _ _ _ V eq_refl). assert (K := PropTreeRules.inv_perm _ _ _ _ _ _ _ V). cbv beta in K. split; [exact L2|]. split; [exact K|].
    intros t NI. split; intro H; specialize (H 0 Nat.lt_0_1); cbn [fst snd] in H; rewrite Nat.add_0_r in H; apply H.
    + destruct (read_acc _ _ _ _) as [st'|] eqn:E; [|reflexivity]. exfalso. destruct (PropTreeRules.read_acc_inv _ _ _ _ _ u E) as [_ H2]. destruct (H2 NI) as [[S _]|(_ & _ & W)]; [discriminate S|]. specialize (W G). rewrite K in W. discriminate W.
    + destruct (write_acc _ _ _ _) as [st'|] eqn:E; [|reflexivity]. exfalso. destruct (PropTreeRules.write_acc_inv _ _ _ _ _ u E) as [_ H2]. destruct (H2 NI) as [[S _]|(_ & _ & W)]; [discriminate S|]. specialize (W G). rewrite K in W. discriminate W.
Qed.
Print Assumptions C88_mut_param_exclusive.
(** Inside a call with a parameter that points to block 0, block 1 is allocated and freed again; block 0 may not be freed, not even by
    its owner, and may be after the call. *)
Definition scratch : hcode unit := HAlloc M64 2 (fun b t => HFree b t (HReturn tt)).
Definition one_byte : mem := fun b => if b =? 0 then [Some 5%Z] else [].
Example C86_param_case :
  (exists s' m', hruns scratch (in_frame SharedRO) one_byte tt s' m' /\ nth_error (m' 0) 0 = Some (Some 5%Z) /\ ~ may_write s' (0, 0) 1 0) /\
  (exists s' m', hruns scratch (in_frame Unique) one_byte tt s' m' /\ 0 < length (m' 0) /\ ~ may_read s' (0, 0) 1 0) /\
  release (in_frame SharedRO) 0 1 0 = None /\ release (in_frame Unique) 0 1 0 = None /\ release (after_frame SharedRO) 0 1 0 <> None.
Proof.
  assert (R : forall k, exists s' m', hruns scratch (in_frame k) one_byte tt s' m').
  { intro k. do 2 eexists. eapply hruns_alloc; [reflexivity|]. eapply hruns_free; [reflexivity|reflexivity|constructor]. }
  assert (C : forall k, call_at 1 0 (in_frame k)) by (intro k; exists [], []; split; reflexivity).
  split; [|split].
  - destruct (R SharedRO) as (s' & m' & H). exists s', m'. split; [exact H|].
    destruct (C86_shared_param_constant _ _ 0 _ _ _ _ _ 0 0 1 2 _ H (C _) (fun _ _ => I) ltac:(cbn; lia) eq_refl) as (_ & M & W). split; [rewrite M; reflexivity|apply W].
  - destruct (R Unique) as (s' & m' & H). exists s', m'. split; [exact H|].
    destruct (C86_mut_param_exclusive _ _ 0 _ _ _ _ _ 0 0 1 2 _ H (C _) (fun _ _ => I) ltac:(cbn; lia) eq_refl) as (L & W). split; [exact L|]. apply W; [cbn; lia|lia].
  - split; [reflexivity|]. split; [reflexivity|]. discriminate.
Qed.
Example C88_param_case :
  (exists s' m', tree_hruns scratch (PropTreeRules.in_call TFrozen) one_byte tt s' m' /\ nth_error (m' 0) 0 = Some (Some 5%Z) /\ perms s' 0 0 1 = Some TFrozen) /\
  (exists s' m', tree_hruns scratch (PropTreeRules.in_call TActive) one_byte tt s' m' /\ 0 < length (m' 0) /\ ~ tree_may_read s' (0, 0) 1 0) /\
  tree_release (PropTreeRules.in_call TFrozen) 0 1 0 = None /\ tree_release (PropTreeRules.in_call TActive) 0 1 0 = None /\ tree_release (PropTreeRules.after_call TFrozen) 0 1 0 <> None.
Proof.
  assert (R : forall k, exists s' m', tree_hruns scratch (PropTreeRules.in_call k) one_byte tt s' m' /\ path s' 0 = [0]).
  { intro k. do 2 eexists. split; [eapply thruns_alloc; [reflexivity|]; eapply thruns_free; [reflexivity|reflexivity|constructor]|reflexivity]. }
  split; [|split].
  - destruct (R TFrozen) as (s' & m' & H & _). exists s', m'. split; [exact H|].
    destruct (C88_shared_param_constant _ _ 0 _ _ _ _ _ 0 0 1 H (PropTreeRules.in_call_ok _) (PropTreeRules.in_call_param _) (fun _ _ => I) ltac:(cbn; lia) eq_refl) as (_ & M & W).
    split; [rewrite M; reflexivity|exact W].
  - destruct (R TActive) as (s' & m' & H & P). exists s', m'. split; [exact H|].
    destruct (C88_mut_param_exclusive _ _ 0 _ _ _ _ _ 0 0 1 H (PropTreeRules.in_call_ok _) (PropTreeRules.in_call_param _) (fun _ _ => I) ltac:(cbn; lia) eq_refl) as (L & _ & W).
    split; [exact L|]. apply W. rewrite P. intros [X|[]]. discriminate X.
  - split; [reflexivity|]. split; [reflexivity|]. discriminate.
Qed.
(** The parameter of the call is [SharedRO] or [Frozen]; tag 1 is in no stack *)
Example C86_for_ever_case : exists s' m', hruns scratch (in_frame SharedRO) one_byte tt s' m' /\ ~ may_write s' (0, 0) 1 2 /\ ~ may_read s' (0, 0) 1 1 /\ may_read s' (0, 0) 1 2.
Proof.
  assert (R : exists s' m', hruns scratch (in_frame SharedRO) one_byte tt s' m' /\ may_read s' (0, 0) 1 2).
  { do 2 eexists. split; [eapply hruns_alloc; [reflexivity|]; eapply hruns_free; [reflexivity|reflexivity|constructor]|]. intros i Hi. assert (i = 0) as -> by lia. discriminate. }
  destruct R as (s' & m' & R & W). exists s', m'. split; [exact R|]. split; [|split; [|exact W]].
  - apply (C86_no_write_for_ever _ _ _ _ _ _ _ _ _ _ R); [cbn; lia|]. intros i [<-|[<-|[]]] T; [now left|discriminate T].
  - apply (C86_removed_for_ever _ _ _ _ _ _ _ _ _ _ R); [cbn; lia|]. intros i [<-|[<-|[]]] T; discriminate T.
Qed.
Example C88_for_ever_case : (exists s' m', tree_hruns scratch (PropTreeRules.after_call TFrozen) one_byte tt s' m' /\ ~ tree_may_write s' (0, 0) 1 1 /\ tree_may_read s' (0, 0) 1 1) /\
  exists s' m', tree_hruns scratch (PropTreeRules.after_call TDisabled) one_byte tt s' m' /\ ~ tree_may_read s' (0, 0) 1 1 /\ tree_may_read s' (0, 0) 1 0.
Proof.
  assert (R : forall k, exists s' m', tree_hruns scratch (PropTreeRules.after_call k) one_byte tt s' m' /\ path s' 1 = [1; 0] /\ (k = TFrozen -> tree_may_read s' (0, 0) 1 1) /\ tree_may_read s' (0, 0) 1 0).
  { intro k. do 2 eexists. split; [eapply thruns_alloc; [reflexivity|]; eapply thruns_free; [reflexivity|reflexivity|constructor]|]. split; [reflexivity|].
    split; [intros ->|]; intros i Hi; assert (i = 0) as -> by lia; discriminate. }
  split.
  - destruct (R TFrozen) as (s' & m' & H & P & W & _). exists s', m'. split; [exact H|]. split; [|auto].
    apply (C88_frozen_for_ever _ _ _ _ _ _ _ 0 0 1 H ltac:(cbn; lia) eq_refl). rewrite P. now left.
  - destruct (R TDisabled) as (s' & m' & H & P & _ & W). exists s', m'. split; [exact H|]. split; [|exact W].
    apply (C88_disabled_for_ever _ _ _ _ _ _ _ 0 0 1 H ltac:(cbn; lia) (or_introl eq_refl)). rewrite P. now left.
Qed.
