(** C87, continued: what the rules of TreeBorrows.v give, for every program. A byte behind a parameter of type [&] does not change
    while the function runs; a byte that was written through a parameter of type [&mut] is not accessed through other pointers until
    the function returns; a reference that has lost a permission does not get it back. *)
From Coq Require Import ZArith List Bool Lia ZifyBool ZifyNat.
From Verif Require Import Bytes Mem MemFacts Slices Codec Conc ConcFacts Isa Simd Hex Borrows BorrowsApi BorrowsFacts TreeBorrows TreePartsFacts PropBorrows PropTree.
Import ListNotations.
Open Scope nat_scope. Open Scope m_scope. Open Scope borrow_scope.

Lemma mem_of_true u l : mem_of u l = true <-> In u l.
Proof. unfold mem_of. rewrite existsb_exists. split; [intros (x & H & E); apply Nat.eqb_eq in E as ->; exact H|intro H; exists u; split; [exact H|apply Nat.eqb_refl]]. Qed.
Lemma mem_of_false u l : mem_of u l = false <-> ~ In u l.
Proof. rewrite <- mem_of_true. now destruct (mem_of u l). Qed.

(** ** One byte: what may happen to its permissions in one step *)
Inductive cell_step (s : trees) (st : cell) : cell -> Prop :=
| cs_none : cell_step s st st
| cs_read t st' : read_acc (guarded s) (path s t) none_of st = Some st' -> cell_step s st st'
| cs_write t st' : write_acc (guarded s) (path s t) none_of st = Some st' -> cell_step s st st'
| cs_exit c st' : exit_acc (guarded s) (path s) c st = Some st' -> cell_step s st st'
| cs_make t x st' : read_acc (guarded s) (path s t) none_of st = Some st' ->
    cell_step s st (fun v => if v =? tfresh s then Some (fresh_perm x) else st' v).

Lemma read_acc_inv pl pt sk st st' u : read_acc pl pt sk st = Some st' ->
  (In u pt -> alive (st u) = true /\ st' u = st u) /\
  (~ In u pt -> (sk u = true /\ st' u = st u) \/ (sk u = false /\ st' u = foreign_read (mem_of u pl) (st u) /\ (In u pl -> is_active (st u) = false))).
Proof.
  unfold read_acc. destruct (forallb _ pt && forallb _ pl) eqn:E; [|discriminate]. intro H. injection H as <-. apply andb_true_iff in E as [E1 E2].
  rewrite forallb_forall in E1, E2. split; intro H; [apply mem_of_true in H as M|apply mem_of_false in H as M]; rewrite M; cbn [orb].
  - split; [now apply E1|reflexivity].
  - destruct (sk u) eqn:ES; [now left|]. right. split; [reflexivity|]. split; [reflexivity|]. intro I. specialize (E2 u I). rewrite M, ES in E2. cbn in E2. now destruct (is_active (st u)).
Qed.
Lemma write_acc_inv pl pt sk st st' u : write_acc pl pt sk st = Some st' ->
  (In u pt -> writable (mem_of u pl) (st u) = true /\ st' u = Some TActive) /\
  (~ In u pt -> (sk u = true /\ st' u = st u) \/ (sk u = false /\ st' u = foreign_write (st u) /\ (In u pl -> alive (st u) = false))).
Proof.
  unfold write_acc. destruct (forallb _ pt && forallb _ pl) eqn:E; [|discriminate]. intro H. injection H as <-. apply andb_true_iff in E as [E1 E2].
  rewrite forallb_forall in E1, E2. split; intro H; [apply mem_of_true in H as M|apply mem_of_false in H as M]; rewrite M; cbn [orb].
  - split; [now apply E1|reflexivity].
  - destruct (sk u) eqn:ES; [now left|]. right. split; [reflexivity|]. split; [reflexivity|]. intro I. specialize (E2 u I). rewrite M, ES in E2. cbn in E2. now destruct (alive (st u)).
Qed.
Lemma exit_acc_inv pl pth c st st' : exit_acc pl pth c st = Some st' ->
  st' = st \/ exists sk, read_acc pl (pth c) sk st = Some st' \/ write_acc pl (pth c) sk st = Some st'.
Proof. unfold exit_acc. destruct (st c) as [[]|]; intro H; try (right; eexists; eauto; fail). left. now injection H. Qed.

(** what stays *)
Definition spent (x : option tperm) : Prop := x = Some TFrozen \/ x = Some TDisabled.
Lemma spent_read pl pt sk st st' u : read_acc pl pt sk st = Some st' -> spent (st u) -> spent (st' u).
Proof.
  intros E K. destruct (read_acc_inv _ _ _ _ _ u E) as [H1 H2]. destruct (in_dec Nat.eq_dec u pt) as [I|I].
  - destruct (H1 I) as [_ ->]. exact K.
  - destruct (H2 I) as [[_ ->]|(_ & -> & _)]; [exact K|]. unfold spent. destruct K as [-> | ->]; cbn; auto.
Qed.
Lemma spent_write pl pt sk st st' u : write_acc pl pt sk st = Some st' -> spent (st u) -> spent (st' u).
Proof.
  intros E K. destruct (write_acc_inv _ _ _ _ _ u E) as [H1 H2]. destruct (in_dec Nat.eq_dec u pt) as [I|I].
  - destruct (H1 I) as [W _]. exfalso. destruct K as [K|K]; rewrite K in W; discriminate W.
  - destruct (H2 I) as [[_ ->]|(_ & -> & _)]; [exact K|]. unfold spent. destruct K as [-> | ->]; cbn; auto.
Qed.
Lemma spent_step s st st' u : u < tfresh s -> cell_step s st st' -> spent (st u) -> spent (st' u).
Proof.
  intros U E K. destruct E as [|t st' E|t st' E|c st' E|t x st' E]; eauto using spent_read, spent_write.
  - destruct (exit_acc_inv _ _ _ _ _ E) as [-> |(sk & [E1|E1])]; eauto using spent_read, spent_write.
  - destruct (Nat.eqb_spec u (tfresh s)); [lia|]. eauto using spent_read.
Qed.
Lemma disabled_step s st st' u : u < tfresh s -> cell_step s st st' -> st u = Some TDisabled -> st' u = Some TDisabled.
Proof.
  intros U E K. destruct E as [|t st' E|t st' E|c st' E|t x st' E]; eauto using disabled_read, disabled_write.
  - destruct (exit_acc_inv _ _ _ _ _ E) as [-> |(sk & [E1|E1])]; eauto using disabled_read, disabled_write.
  - destruct (Nat.eqb_spec u (tfresh s)); [lia|]. eauto using disabled_read.
Qed.
Lemma frozen_read pl pt sk st st' u : read_acc pl pt sk st = Some st' -> st u = Some TFrozen -> st' u = Some TFrozen.
Proof.
  intros E K. destruct (read_acc_inv _ _ _ _ _ u E) as [H1 H2]. destruct (in_dec Nat.eq_dec u pt) as [I|I].
  - destruct (H1 I) as [_ ->]. exact K.
  - destruct (H2 I) as [[_ ->]|(_ & -> & _)]; [exact K|]. now rewrite K.
Qed.
Lemma frozen_write pl pt sk st st' u : In u pl -> write_acc pl pt sk st = Some st' -> st u = Some TFrozen -> st' u = Some TFrozen.
Proof.
  intros G E K. destruct (write_acc_inv _ _ _ _ _ u E) as [H1 H2]. destruct (in_dec Nat.eq_dec u pt) as [I|I].
  - destruct (H1 I) as [W _]. rewrite K in W. discriminate W.
  - destruct (H2 I) as [[_ ->]|(_ & _ & N)]; [exact K|]. specialize (N G). rewrite K in N. discriminate N.
Qed.
Lemma frozen_step s st st' u : u < tfresh s -> In u (guarded s) -> cell_step s st st' -> st u = Some TFrozen -> st' u = Some TFrozen.
Proof.
  intros U G E K. destruct E as [|t st' E|t st' E|c st' E|t x st' E]; eauto using frozen_read, frozen_write.
  - destruct (exit_acc_inv _ _ _ _ _ E) as [-> |(sk & [E1|E1])]; eauto using frozen_read, frozen_write.
  - destruct (Nat.eqb_spec u (tfresh s)); [lia|]. eauto using frozen_read.
Qed.
Lemma active_read pl pt sk st st' u : In u pl -> read_acc pl pt sk st = Some st' -> st u = Some TActive -> st' u = Some TActive.
Proof.
  intros G E K. destruct (read_acc_inv _ _ _ _ _ u E) as [H1 H2]. destruct (in_dec Nat.eq_dec u pt) as [I|I].
  - destruct (H1 I) as [_ ->]. exact K.
  - destruct (H2 I) as [[_ ->]|(_ & _ & N)]; [exact K|]. specialize (N G). rewrite K in N. discriminate N.
Qed.
Lemma active_write pl pt sk st st' u : In u pl -> write_acc pl pt sk st = Some st' -> st u = Some TActive -> st' u = Some TActive.
Proof.
  intros G E K. destruct (write_acc_inv _ _ _ _ _ u E) as [H1 H2]. destruct (in_dec Nat.eq_dec u pt) as [I|I].
  - destruct (H1 I) as [_ ->]. reflexivity.
  - destruct (H2 I) as [[_ ->]|(_ & _ & N)]; [exact K|]. specialize (N G). rewrite K in N. discriminate N.
Qed.
Lemma active_step s st st' u : u < tfresh s -> In u (guarded s) -> cell_step s st st' -> st u = Some TActive -> st' u = Some TActive.
Proof.
  intros U G E K. destruct E as [|t st' E|t st' E|c st' E|t x st' E]; eauto using active_read, active_write.
  - destruct (exit_acc_inv _ _ _ _ _ E) as [-> |(sk & [E1|E1])]; eauto using active_read, active_write.
  - destruct (Nat.eqb_spec u (tfresh s)); [lia|]. eauto using active_read.
Qed.

Lemma conflict_read pl pt sk st st' u : read_acc pl pt sk st = Some st' -> st u = Some (TReserved true) -> st' u = Some (TReserved true).
Proof.
  intros E K. destruct (read_acc_inv _ _ _ _ _ u E) as [H1 H2]. destruct (in_dec Nat.eq_dec u pt) as [I|I].
  - destruct (H1 I) as [_ ->]. exact K.
  - destruct (H2 I) as [[_ ->]|(_ & -> & _)]; [exact K|]. now rewrite K.
Qed.
Lemma conflict_write pl pt sk st st' u : In u pl -> write_acc pl pt sk st = Some st' -> st u = Some (TReserved true) -> st' u = Some (TReserved true).
Proof.
  intros G E K. destruct (write_acc_inv _ _ _ _ _ u E) as [H1 H2]. destruct (in_dec Nat.eq_dec u pt) as [I|I].
  - destruct (H1 I) as [W _]. apply mem_of_true in G. rewrite K, G in W. discriminate W.
  - destruct (H2 I) as [[_ ->]|(_ & _ & N)]; [exact K|]. specialize (N G). rewrite K in N. discriminate N.
Qed.
Lemma conflict_step s st st' u : u < tfresh s -> In u (guarded s) -> cell_step s st st' -> st u = Some (TReserved true) -> st' u = Some (TReserved true).
Proof.
  intros U G E K. destruct E as [|t st' E|t st' E|c st' E|t x st' E]; eauto using conflict_read, conflict_write.
  - destruct (exit_acc_inv _ _ _ _ _ E) as [-> |(sk & [E1|E1])]; eauto using conflict_read, conflict_write.
  - destruct (Nat.eqb_spec u (tfresh s)); [lia|]. eauto using conflict_read.
Qed.

(** ** Programs *)
(** [x] does not leave the call that is [d] levels below the innermost one *)
Fixpoint stays {A} (d : nat) (x : bcode A) : Prop :=
  match x with
  | Return _ => True
  | Borrow Enter k => forall t, stays (S d) (k t)
  | Borrow Leave k => match d with 0 => False | S d' => forall t, stays d' (k t) end
  | Borrow (Retag _ _ _ _ _) k => forall t, stays d (k t)
  | Exec _ _ k => forall y, stays d (k y)
  end.
Section Runs.
Variables (b o u : nat) (K : option tperm -> Prop).
(** [u] is a parameter of the call [d] levels below the innermost one *)
Definition param_at (d : nat) (s : trees) : Prop := exists L fr B, calls s = L ++ fr :: B /\ length L = d /\ In u (map (fun x => fst (fst x)) fr).
(** with [held] only states in which [u] is protected are looked at *)
Variable held : bool.
Definition holds (d : nat) (s : trees) : Prop := held = true -> param_at d s.
Lemma param_guarded d s : param_at d s -> In u (guarded s).
Proof.
  intros (L & fr & B & E & _ & I). unfold guarded. rewrite E, concat_app, map_app. apply in_or_app. right. cbn [concat]. rewrite map_app. apply in_or_app. now left.
Qed.
Hypothesis keep : forall s st st', u < tfresh s -> (held = true -> In u (guarded s)) -> cell_step s st st' -> K (st u) -> K (st' u).
Record inv (d : nat) (s : trees) : Prop := { inv_old : u < tfresh s; inv_held : holds d s; inv_perm : K (perms s b o u) }.
Lemma inv_guarded d s : inv d s -> held = true -> In u (guarded s). Proof. intros V H. exact (param_guarded d s (inv_held _ _ V H)). Qed.

Lemma inv_across d s q n f st : inv d s -> tacross (perms s) q n f = Some st -> (forall c c', f c = Some c' -> cell_step s c c') -> K (st b o u).
Proof.
  intros V E F. destruct (tacross_get _ _ _ _ _ b o E) as [[_ ->]|[_ EF]]; [apply V|]. apply F in EF.
  exact (keep s _ _ (inv_old _ _ V) (inv_guarded _ _ V) EF (inv_perm _ _ V)).
Qed.
Lemma tvia_some s f t c c' : tvia s f t c = Some c' -> exists t, f t c = Some c'.
Proof. destruct t as [t|]; [|discriminate]. unfold tvia. destruct (t <? tfresh s); [eauto|discriminate]. Qed.
Lemma inv_exits l d : forall s s', inv d s -> exits l s = Some s' -> inv d s' /\ calls s' = calls s.
Proof.
  induction l as [|[[c q] n] l IH]; intros s s' V E; cbn [exits] in E; [injection E as <-; auto|]. unfold tput in E. destruct (tacross _ q n _) as [st|] eqn:EA; [|discriminate E].
  refine (IH _ _ _ E). constructor; [apply V|apply V|]. cbn [perms]. refine (inv_across d s _ _ _ _ V EA _). intros. now apply cs_exit with c.
Qed.
Lemma inv_perform x d s t s' : inv d s -> tperform x s = Some (t, s') ->
  (held = true -> x = Leave -> d <> 0) -> inv (depth_after x d) s'.
Proof.
  intros V E D. destruct x as [| |k param v q n].
  - cbn [tperform] in E. injection E as <- <-. destruct V as [V1 V2 V3]. constructor; auto. intro H. destruct (V2 H) as (L & fr & B & EC & EL & I).
    exists ([] :: L), fr, B. cbn [calls]. rewrite EC. cbn [app length depth_after]. auto.
  - cbn [tperform] in E. destruct (calls s) as [|fr0 r] eqn:EC; [discriminate E|]. destruct (exits fr0 s) as [s1|] eqn:EX; [|discriminate E]. injection E as <- <-.
    destruct (inv_exits _ _ _ _ V EX) as [V1 C1]. constructor; [apply V1| |apply V1]. intro H. destruct (inv_held _ _ V1 H) as (L & fr & B & EC1 & EL & I).
    specialize (D H eq_refl). destruct L as [|fr1 L]; [now rewrite <- EL in D|]. rewrite C1, EC in EC1. injection EC1 as _ ->. exists L, fr, B. cbn [calls depth_after]. cbn [length] in EL. subst d. auto.
  - assert (Ref : forall k, match tacross (perms s) q n (fun st => match tvia s (fun t => read_acc (guarded s) (path s t) none_of) (Some v) st with
          | Some st' => Some (fun w => if w =? tfresh s then Some (fresh_perm k) else st' w) | None => None end) with
        | Some st => Some (tfresh s, {| perms := st; path := fun w => if w =? tfresh s then tfresh s :: path s v else path s w; tfresh := S (tfresh s);
            calls := match calls s with fr :: r => (if param then (tfresh s, q, n) :: fr else fr) :: r | [] => [] end |})
        | None => None end = Some (t, s') -> inv d s').
    { clear E D k. intros k E. destruct (tacross _ q n _) as [st|] eqn:EA; [|discriminate E]. injection E as <- <-. assert (U := inv_old _ _ V). constructor; cbn [tfresh perms].
      - lia.
      - intro H. destruct (inv_held _ _ V H) as (L & fr & B & EC & EL & I). unfold param_at. cbn [calls]. rewrite EC. destruct L as [|fr1 L]; cbn [app].
        + exists [], (if param then (tfresh s, q, n) :: fr else fr), B. split; [reflexivity|]. split; [exact EL|]. destruct param; [now right|exact I].
        + exists ((if param then (tfresh s, q, n) :: fr1 else fr1) :: L), fr, B. auto.
      - refine (inv_across d s _ _ _ _ V EA _). intros c c' Ec. destruct (tvia _ _ _ c) as [c1|] eqn:EV; [|discriminate Ec]. injection Ec as <-. apply tvia_some in EV as [w EV]. now apply cs_make with w. }
    cbn [depth_after]. destruct k; cbn [tperform] in E; first [exact (Ref MutRef E)|exact (Ref SharedRef E)|injection E as _ <-; exact V].
Qed.
(** with [still] the byte is not written *)
Variable still : bool.
Hypothesis no_write : forall s st t, still = true -> (held = true -> In u (guarded s)) -> K (st u) -> write_acc (guarded s) (path s t) none_of st = None.
Lemma inv_run {A} v (p : prog A) d : forall s m a s' m', inv d s -> tree_run v p s m = Some (a, s', m') -> inv d s' /\ (still = true -> nth_error (m' b) o = nth_error (m b) o).
Proof.
  induction p as [a0|f|b0 k IH|q n k IH|q xs k IH]; intros s m a s' m' V E; cbn [tree_run] in E.
  - injection E as _ <- <-. auto.
  - discriminate E.
  - exact (IH _ _ _ _ _ _ V E).
  - unfold tree_read, tput in E. destruct (tacross _ q n _) as [st|] eqn:EA; [|discriminate E]. destruct (load q n m) as [l m1| | |] eqn:EL; try discriminate E.
    apply load_ret in EL as (-> & _ & _). refine (IH _ _ _ _ _ _ _ E). constructor; [apply V|apply V|]. cbn [perms]. refine (inv_across d s _ _ _ _ V EA _).
    intros c c' Ec. apply tvia_some in Ec as [t Ec]. now apply cs_read with t.
  - unfold tree_write, tput in E. destruct (tacross _ q _ _) as [st|] eqn:EA; [|discriminate E]. destruct (store q xs m) as [y m1| | |] eqn:EL; try discriminate E.
    apply store_ret in EL as (L & ->). match type of E with tree_run _ _ ?s1 _ = _ => assert (V0 : inv d s1) end.
    { constructor; [apply V|apply V|]. cbn [perms]. refine (inv_across d s _ _ _ _ V EA _). intros c c' Ec. apply tvia_some in Ec as [t Ec]. now apply cs_write with t. }
    destruct (IH _ _ _ _ _ V0 E) as [V1 M1]. split; [exact V1|]. intro S. rewrite (M1 S). unfold upd. destruct (Nat.eqb_spec b (fst q)) as [EB|]; [|reflexivity]. rewrite EB, splice_nth by exact L.
    destruct ((snd q <=? o) && (o <? snd q + length xs)) eqn:R; [|reflexivity]. exfalso. apply tacross_inv in EA as [EA _]. specialize (EA (o - snd q) ltac:(lia)).
    replace (snd q + (o - snd q)) with o in EA by lia. rewrite <- EB in EA. apply tvia_some in EA as [t EA]. rewrite (no_write s _ t S (inv_guarded _ _ V) (inv_perm _ _ V)) in EA. discriminate EA.
Qed.
Lemma inv_runs {A} (x : bcode A) s m a s' m' : tree_runs x s m a s' m' -> forall d, (held = true -> stays d x) -> inv d s ->
  exists d', inv d' s' /\ (still = true -> nth_error (m' b) o = nth_error (m b) o).
Proof.
  induction 1 as [A a s m|A x k s m t s1 a s' m' E _ IH|A X v c k p s m y s1 m1 a s' m' HF E _ IH]; intros d N V.
  - exists d. auto.
  - apply (IH (depth_after x d)).
    + intro H. specialize (N H). destruct x; cbn [stays depth_after] in *; [apply N| |apply N]. destruct d; [contradiction|apply N].
    + apply (inv_perform _ _ _ _ _ V E). intros H -> ->. exact (N H).
  - destruct (inv_run _ _ _ _ _ _ _ _ V E) as [V1 M1]. destruct (IH d (fun H => N H y) V1) as (d' & V2 & M2). exists d'. split; [exact V2|].
    intro S. rewrite (M2 S). now apply M1.
Qed.
End Runs.

(** A byte behind a parameter of type [&] does not change while the function runs: [u] is the parameter of a call that [x] does not leave. *)
Theorem C87_shared_param_constant : forall A (x : bcode A) d s m a s' m' b o u,
  tree_runs x s m a s' m' -> tree_ok s -> param_at u d s -> stays d x -> perms s b o u = Some TFrozen ->
  nth_error (m' b) o = nth_error (m b) o /\ perms s' b o u = Some TFrozen.
Proof.
  intros A x d s m a s' m' b o u R OK PA N F.
  destruct (inv_runs b o u (fun p => p = Some TFrozen) true (fun s st st' U G => frozen_step s st st' u U (G eq_refl)) true) with (2 := R) (d := d) as (d' & V & M).
  - intros s1 st t _ G K. specialize (G eq_refl). destruct (write_acc _ _ _ st) as [st'|] eqn:E; [|reflexivity]. exfalso. destruct (write_acc_inv _ _ _ _ _ u E) as [H1 H2].
    destruct (in_dec Nat.eq_dec u (path s1 t)) as [I|I].
    + destruct (H1 I) as [W _]. rewrite K in W. discriminate W.
    + destruct (H2 I) as [[S _]|(_ & _ & W)]; [discriminate S|]. specialize (W G). rewrite K in W. discriminate W.
  - intros _. exact N.
  - constructor; [apply OK; exact (param_guarded u d s PA)|intros _; exact PA|exact F].
  - split; [now apply M|apply V].
Qed.
Print Assumptions C87_shared_param_constant.
(** A byte that was written through a parameter of type [&mut]: whatever [x] does without leaving the call, pointers that are not
    made from the parameter may then neither read nor write the byte. *)
Theorem C87_mut_param_exclusive : forall A (x : bcode A) d s m a s' m' b o u,
  tree_runs x s m a s' m' -> tree_ok s -> param_at u d s -> stays d x -> perms s b o u = Some TActive ->
  perms s' b o u = Some TActive /\ forall t, ~ In u (path s' t) -> ~ tree_may_read s' (b, o) 1 t /\ ~ tree_may_write s' (b, o) 1 t.
Proof.
  intros A x d s m a s' m' b o u R OK PA N F.
  destruct (inv_runs b o u (fun p => p = Some TActive) true (fun s st st' U G => active_step s st st' u U (G eq_refl)) false) with (2 := R) (d := d) as (d' & V & _).
  - discriminate.
  - intros _. exact N.
  - constructor; [apply OK; exact (param_guarded u d s PA)|intros _; exact PA|exact F].
  - assert (G := param_guarded u d' s' (inv_held _ _ _ _ _ _ _ V eq_refl)). assert (K := inv_perm _ _ _ _ _ _ _ V). cbv beta in K. split; [exact K|]. intros t NI. split; intro H; specialize (H 0 Nat.lt_0_1); cbn [fst snd] in H; rewrite Nat.add_0_r in H; apply H.
    + destruct (read_acc _ _ _ _) as [st'|] eqn:E; [|reflexivity]. exfalso. destruct (read_acc_inv _ _ _ _ _ u E) as [_ H2]. destruct (H2 NI) as [[S _]|(_ & _ & W)]; [discriminate S|]. specialize (W G). rewrite K in W. discriminate W.
    + destruct (write_acc _ _ _ _) as [st'|] eqn:E; [|reflexivity]. exfalso. destruct (write_acc_inv _ _ _ _ _ u E) as [_ H2]. destruct (H2 NI) as [[S _]|(_ & _ & W)]; [discriminate S|]. specialize (W G). rewrite K in W. discriminate W.
Qed.
Print Assumptions C87_mut_param_exclusive.
(** A byte behind a parameter of type [&mut] that has not been written: once it is read through a pointer that is not made from the
    parameter, it does not change before the function returns. *)
Theorem C87_mut_param_conflict : forall A (x : bcode A) d s m a s1 s' m' b o u t c,
  tree_ok s -> param_at u d s -> perms s b o u = Some (TReserved c) -> ~ In u (path s t) -> tree_read (Some t) (b, o) 1 s = Some s1 ->
  tree_runs x s1 m a s' m' -> stays d x ->
  nth_error (m' b) o = nth_error (m b) o /\ forall w, ~ tree_may_write s' (b, o) 1 w.
Proof.
  intros A x d s m a s1 s' m' b o u t c OK PA F NI RD R N. assert (G := param_guarded u d s PA). assert (U : u < tfresh s) by now apply OK.
  unfold tree_read, tput in RD. destruct (tacross _ _ _ _) as [st|] eqn:EA; [|discriminate RD]. injection RD as <-. apply tacross_inv in EA as [EA _].
  specialize (EA 0 Nat.lt_0_1). cbn [fst snd] in EA. rewrite Nat.add_0_r in EA. unfold tvia in EA. destruct (t <? tfresh s); [|discriminate EA].
  destruct (read_acc_inv _ _ _ _ _ u EA) as [_ H2]. destruct (H2 NI) as [[S _]|(_ & K & _)]; [discriminate S|]. apply mem_of_true in G as GM. rewrite F, GM in K. cbn [foreign_read] in K. rewrite orb_true_r in K.
  assert (NW : forall s2 st2 w, In u (guarded s2) -> st2 u = Some (TReserved true) -> write_acc (guarded s2) (path s2 w) none_of st2 = None).
  { intros s2 st2 w G2 K2. destruct (write_acc _ _ _ st2) as [st'|] eqn:E; [|reflexivity]. exfalso. destruct (write_acc_inv _ _ _ _ _ u E) as [H1 H3].
    destruct (in_dec Nat.eq_dec u (path s2 w)) as [I|I].
    - destruct (H1 I) as [W _]. apply mem_of_true in G2. rewrite K2, G2 in W. discriminate W.
    - destruct (H3 I) as [[S _]|(_ & _ & W)]; [discriminate S|]. specialize (W G2). rewrite K2 in W. discriminate W. }
  destruct (inv_runs b o u (fun p => p = Some (TReserved true)) true (fun s st st' U G => conflict_step s st st' u U (G eq_refl)) true) with (2 := R) (d := d) as (d' & V & M).
  - intros s2 st2 w _ G2 K2. exact (NW s2 st2 w (G2 eq_refl) K2).
  - intros _. exact N.
  - constructor; [exact U|intros _; exact PA|exact K].
  - split; [now apply M|]. intros w H. specialize (H 0 Nat.lt_0_1). cbn [fst snd] in H. rewrite Nat.add_0_r in H. apply H. apply NW; [|apply V].
    exact (param_guarded u d' s' (inv_held _ _ _ _ _ _ _ V eq_refl)).
Qed.
Print Assumptions C87_mut_param_conflict.
(** Once frozen, a byte is never written again through the reference or what is made from it; once disabled, it is not read either. *)
Theorem C87_frozen_for_ever : forall A (x : bcode A) s m a s' m' b o u, tree_runs x s m a s' m' -> u < tfresh s -> perms s b o u = Some TFrozen ->
  forall t, In u (path s' t) -> ~ tree_may_write s' (b, o) 1 t.
Proof.
  intros A x s m a s' m' b o u R U F t I H. destruct (inv_runs b o u spent false (fun s st st' U _ => spent_step s st st' u U) false) with (2 := R) (d := 0) as (d' & V & _).
  - discriminate.
  - discriminate.
  - constructor; [exact U|discriminate|now left].
  - specialize (H 0 Nat.lt_0_1). cbn [fst snd] in H. rewrite Nat.add_0_r in H. apply H. destruct (write_acc _ _ _ _) as [st'|] eqn:E; [|reflexivity]. exfalso.
    destruct (write_acc_inv _ _ _ _ _ u E) as [H1 _]. destruct (H1 I) as [W _]. destruct (inv_perm _ _ _ _ _ _ _ V) as [K|K]; rewrite K in W; discriminate W.
Qed.
Print Assumptions C87_frozen_for_ever.
Theorem C87_disabled_for_ever : forall A (x : bcode A) s m a s' m' b o u, tree_runs x s m a s' m' -> u < tfresh s -> perms s b o u = Some TDisabled ->
  forall t, In u (path s' t) -> ~ tree_may_read s' (b, o) 1 t /\ ~ tree_may_write s' (b, o) 1 t.
Proof.
  intros A x s m a s' m' b o u R U F t I. destruct (inv_runs b o u (fun p => p = Some TDisabled) false (fun s st st' U _ => disabled_step s st st' u U) false) with (2 := R) (d := 0) as (d' & V & _).
  - discriminate.
  - discriminate.
  - constructor; [exact U|discriminate|exact F].
  - assert (K := inv_perm _ _ _ _ _ _ _ V). cbv beta in K. split; intro H; specialize (H 0 Nat.lt_0_1); cbn [fst snd] in H; rewrite Nat.add_0_r in H; apply H.
    + destruct (read_acc _ _ _ _) as [st'|] eqn:E; [|reflexivity]. exfalso. destruct (read_acc_inv _ _ _ _ _ u E) as [H1 _]. destruct (H1 I) as [W _]. rewrite K in W. discriminate W.
    + destruct (write_acc _ _ _ _) as [st'|] eqn:E; [|reflexivity]. exfalso. destruct (write_acc_inv _ _ _ _ _ u E) as [H1 _]. destruct (H1 I) as [W _]. rewrite K in W. discriminate W.
Qed.
Print Assumptions C87_disabled_for_ever.

(** A read through a pointer that is not made from a reference takes the permission to write from the reference, once it has been
    written through; a write takes every permission. *)
Theorem C87_foreign_access : forall A (x : bcode A) s m a s1 s' m' b o u t,
  u < tfresh s -> ~ In u (path s t) -> tree_runs x s1 m a s' m' ->
  (perms s b o u = Some TActive -> tree_read (Some t) (b, o) 1 s = Some s1 -> forall w, In u (path s' w) -> ~ tree_may_write s' (b, o) 1 w) /\
  (perms s b o u <> None -> tree_write (Some t) (b, o) 1 s = Some s1 -> forall w, In u (path s' w) -> ~ tree_may_read s' (b, o) 1 w /\ ~ tree_may_write s' (b, o) 1 w).
Proof.
  intros A x s m a s1 s' m' b o u t U NI R. split; intros F E; unfold tree_read, tree_write, tput in E; (destruct (tacross _ _ _ _) as [st|] eqn:EA; [|discriminate E]); injection E as <-;
    apply tacross_inv in EA as [EA _]; specialize (EA 0 Nat.lt_0_1); cbn [fst snd] in EA; rewrite Nat.add_0_r in EA; unfold tvia in EA; (destruct (t <? tfresh s); [|discriminate EA]).
  - destruct (read_acc_inv _ _ _ _ _ u EA) as [_ H2]. destruct (H2 NI) as [[S _]|(_ & K & _)]; [discriminate S|]. rewrite F in K. exact (C87_frozen_for_ever _ _ _ _ _ _ _ b o u R U K).
  - destruct (write_acc_inv _ _ _ _ _ u EA) as [_ H2]. destruct (H2 NI) as [[S _]|(_ & K & _)]; [discriminate S|].
    assert (K' : st b o u = Some TDisabled) by (rewrite K; destruct (perms s b o u) as [[]|]; [reflexivity..|now destruct F]). exact (C87_disabled_for_ever _ _ _ _ _ _ _ b o u R U K').
Qed.
Print Assumptions C87_foreign_access.

(** ** Whole calls: whatever a function does after it got a parameter of type [&], the bytes are the same when it returns. *)
Lemma tree_runs_bind {A B} (x : bcode A) (f : A -> bcode B) : forall s m a s' m', tree_runs (bbind x f) s m a s' m' ->
  exists a1 s1 m1, tree_runs x s m a1 s1 m1 /\ tree_runs (f a1) s1 m1 a s' m'.
Proof.
  induction x as [a0|y k IH|X v c k IH]; intros s m a s' m' R; cbn [bbind] in R.
  - exists a0, s, m. split; [constructor|exact R].
  - apply tree_runs_inv in R. cbv beta iota in R. destruct R as (t & s1 & E & R). destruct (IH _ _ _ _ _ _ R) as (a1 & s2 & m2 & R1 & R2). exists a1, s2, m2. split; [econstructor; eauto|exact R2].
  - apply tree_runs_inv in R. cbv beta iota in R. destruct R as (p & y & s1 & m1 & HF & E & R). destruct (IH _ _ _ _ _ _ R) as (a1 & s2 & m2 & R1 & R2).
    exists a1, s2, m2. split; [econstructor; eauto|exact R2].
Qed.
Theorem C87_shared_param_call : forall A (body : nat -> bcode A) p n t s m a s' m',
  tree_runs (fn (u <== shared_param p n t ;; body u)) s m a s' m' -> (forall u, stays 0 (body u)) ->
  forall i, i < n -> nth_error (m' (fst p)) (snd p + i) = nth_error (m (fst p)) (snd p + i).
Proof.
  intros A body p n t s m a s' m' R N i Hi. unfold fn, shared_param, do_ in R. cbn [bbind] in R.
  apply tree_runs_inv in R. cbv beta iota in R. destruct R as (t0 & s1 & E & R). cbn [tperform] in E. injection E as _ <-.
  apply tree_runs_inv in R. cbv beta iota in R. destruct R as (u & s2 & E & R). cbn [tperform perms tfresh path calls] in E.
  destruct (tacross _ p n _) as [st|] eqn:EA; [|discriminate E]. injection E as <- <-.
  apply tree_runs_bind in R as (a1 & s3 & m3 & R & RL). apply tree_runs_inv in RL. cbv beta iota in RL. destruct RL as (t1 & s4 & _ & RL).
  apply tree_runs_inv in RL. cbv beta iota in RL. destruct RL as (_ & _ & <-).
  assert (F : st (fst p) (snd p + i) (tfresh s) = Some TFrozen).
  { apply tacross_inv in EA as [EA _]. specialize (EA i Hi). cbv beta in EA. destruct (tvia _ _ _ _) as [c|]; [|discriminate EA]. injection EA as EA. rewrite <- EA. now rewrite Nat.eqb_refl. }
  destruct (inv_runs (fst p) (snd p + i) (tfresh s) (fun q => q = Some TFrozen) true (fun s st st' U G => frozen_step s st st' _ U (G eq_refl)) true) with (2 := R) (d := 0) as (d' & V & M).
  - intros s5 st5 v _ G K. specialize (G eq_refl). destruct (write_acc _ _ _ st5) as [st'|] eqn:E; [|reflexivity]. exfalso. destruct (write_acc_inv _ _ _ _ _ (tfresh s) E) as [H1 H2].
    destruct (in_dec Nat.eq_dec (tfresh s) (path s5 v)) as [I|I].
    + destruct (H1 I) as [W _]. rewrite K in W. discriminate W.
    + destruct (H2 I) as [[S _]|(_ & _ & W)]; [discriminate S|]. specialize (W G). rewrite K in W. discriminate W.
  - intros _. apply N.
  - constructor; [cbn; lia| |exact F]. intros _. exists [], [(tfresh s, p, n)], (calls s). cbn. auto.
  - now apply M.
Qed.
Print Assumptions C87_shared_param_call.

(** ** Examples *)
(** Tag 1 is a parameter of the innermost call, a reference to the byte of allocation 0; [k] is its permission. *)
Definition in_call (k : tperm) : trees :=
  {| perms := fun b o u => match u with 0 => Some TActive | 1 => if (b =? 0) && (o =? 0) then Some k else None | _ => None end;
     path := fun u => match u with 0 => [0] | 1 => [1; 0] | _ => [] end; tfresh := 2; calls := [[(1, (0, 0), 1)]] |}.
Lemma in_call_ok k : tree_ok (in_call k).
Proof.
  split; [|split].
  - intros t Ht. cbn [tfresh in_call] in Ht. destruct t as [|[|t]]; [| |lia]; cbn [path in_call In tfresh]; (split; [now left|]);
      intros u Hu; repeat (destruct Hu as [<-|Hu]; [cbn [path]; split; [lia|]; split; [intros w Hw; cbn [In] in *; tauto|]; intros w Hw; cbn [In] in *;
        repeat (destruct Hw as [<-|Hw]; [cbn [path In]; tauto|]); destruct Hw|]); destruct Hu.
  - intros u Hu. cbn in *. lia.
  - intros b o u Hu. cbn [tfresh in_call perms] in *. destruct u as [|[|u]]; try lia. reflexivity.
Qed.
Lemma in_call_param k : param_at 1 0 (in_call k).
Proof. exists [], [(1, (0, 0), 1)], []. cbn. auto. Qed.
Definition two_bytes : mem := fun b => [Some (if b =? 0 then 5%Z else 6%Z)].
(** a write through the owner, to the other allocation *)
Definition writes_at (b : nat) : bcode unit := exec (via1 b 0) (store (b, 0) [7%Z]).
Lemma follows_store q xs : follows (store q xs) (p_store q xs).
Proof. constructor. Qed.
Definition next (r : option (unit * trees * mem)) : trees * mem := match r with Some (_, s, m) => (s, m) | None => (in_call TFrozen, two_bytes) end.
Lemma writes_at_runs k : let r := next (tree_run (via1 1 0) (p_store (1, 0) [7%Z]) (in_call k) two_bytes) in
  tree_runs (writes_at 1) (in_call k) two_bytes tt (fst r) (snd r).
Proof. intro r. unfold writes_at, exec. eapply (truns_exec _ _ _ _ _ _ _ _ tt (fst r) (snd r)); [apply follows_store|reflexivity|constructor]. Qed.
Example C87_shared_param_case : exists s' m', tree_runs (writes_at 1) (in_call TFrozen) two_bytes tt s' m' /\ m' 1 = [Some 7%Z] /\
  nth_error (m' 0) 0 = nth_error (two_bytes 0) 0 /\ perms s' 0 0 1 = Some TFrozen.
Proof.
  assert (R := writes_at_runs TFrozen). do 2 eexists. split; [exact R|]. split; [reflexivity|].
  apply (C87_shared_param_constant _ _ 0 _ _ _ _ _ 0 0 1 R (in_call_ok _) (in_call_param _)); [exact (fun _ => I)|reflexivity].
Qed.
Example C87_mut_param_case : exists s' m', tree_runs (writes_at 1) (in_call TActive) two_bytes tt s' m' /\ m' 1 = [Some 7%Z] /\
  ~ tree_may_read s' (0, 0) 1 0 /\ tree_may_write s' (0, 0) 1 1.
Proof.
  assert (R := writes_at_runs TActive). do 2 eexists. split; [exact R|]. split; [reflexivity|]. split.
  - apply (C87_mut_param_exclusive _ _ 0 _ _ _ _ _ 0 0 1 R (in_call_ok _) (in_call_param _)); [exact (fun _ => I)|reflexivity|]. cbn. intros [H|[]]. discriminate H.
  - intros i Hi. assert (i = 0) as -> by lia. vm_compute. discriminate.
Qed.
Example C87_mut_conflict_case : exists s1 s' m', tree_read (Some 0) (0, 0) 1 (in_call (TReserved false)) = Some s1 /\ tree_runs (writes_at 1) s1 two_bytes tt s' m' /\
  m' 1 = [Some 7%Z] /\ ~ tree_may_write s' (0, 0) 1 1 /\ tree_may_write (in_call (TReserved false)) (0, 0) 1 1.
Proof.
  assert (E : exists s1, tree_read (Some 0) (0, 0) 1 (in_call (TReserved false)) = Some s1 /\ exists s' m', tree_run (via1 1 0) (p_store (1, 0) [7%Z]) s1 two_bytes = Some (tt, s', m') /\ m' 1 = [Some 7%Z]).
  { eexists. split; [reflexivity|]. do 2 eexists. split; [reflexivity|reflexivity]. }
  destruct E as (s1 & E1 & s' & m' & E2 & M). exists s1, s', m'. split; [exact E1|].
  assert (R : tree_runs (writes_at 1) s1 two_bytes tt s' m') by (eapply truns_exec; [apply follows_store|exact E2|constructor]).
  split; [exact R|]. split; [exact M|]. split.
  - refine (proj2 (C87_mut_param_conflict _ _ 0 _ _ _ _ _ _ 0 0 1 0 false (in_call_ok _) (in_call_param _) eq_refl _ E1 R (fun _ => I)) 1). cbn. intros [H|[]]. discriminate H.
  - intros i Hi. assert (i = 0) as -> by lia. vm_compute. discriminate.
Qed.
(** Without the call, or after it, the byte may be written. *)
Example C87_shared_param_needs_call :
  match tree_run (via1 0 0) (p_store (0, 0) [7%Z]) {| perms := perms (in_call TFrozen); path := path (in_call TFrozen); tfresh := 2; calls := [] |} two_bytes with
  | Some (_, s', m') => m' 0 = [Some 7%Z] /\ perms s' 0 0 1 = Some TDisabled | None => False end /\
  tree_run (via1 0 0) (p_store (0, 0) [7%Z]) (in_call TFrozen) two_bytes = None /\ tree_run (via1 0 1) (p_store (0, 0) [7%Z]) (in_call TFrozen) two_bytes = None.
Proof. repeat split. Qed.
(** [C87_foreign_access]: after the call the owner may access the byte *)
Definition after_call (k : tperm) : trees := {| perms := perms (in_call k); path := path (in_call k); tfresh := 2; calls := [] |}.
Example C87_foreign_case : (exists s1 s' m', tree_read (Some 0) (0, 0) 1 (after_call TActive) = Some s1 /\ tree_runs (writes_at 1) s1 two_bytes tt s' m' /\
    tree_may_write (after_call TActive) (0, 0) 1 1 /\ ~ tree_may_write s' (0, 0) 1 1) /\
  exists s1 s' m', tree_write (Some 0) (0, 0) 1 (after_call TFrozen) = Some s1 /\ tree_runs (writes_at 1) s1 two_bytes tt s' m' /\
    tree_may_read (after_call TFrozen) (0, 0) 1 1 /\ ~ tree_may_read s' (0, 0) 1 1.
Proof.
  split.
  - assert (E : exists s1, tree_read (Some 0) (0, 0) 1 (after_call TActive) = Some s1 /\ exists s' m', tree_run (via1 1 0) (p_store (1, 0) [7%Z]) s1 two_bytes = Some (tt, s', m') /\ path s' 1 = [1; 0]).
    { eexists. split; [reflexivity|]. do 2 eexists. split; reflexivity. }
    destruct E as (s1 & E1 & s' & m' & E2 & P). exists s1, s', m'. split; [exact E1|].
    assert (R : tree_runs (writes_at 1) s1 two_bytes tt s' m') by (eapply truns_exec; [apply follows_store|exact E2|constructor]).
    split; [exact R|]. split; [intros i Hi; assert (i = 0) as -> by lia; vm_compute; discriminate|].
    refine (proj1 (C87_foreign_access _ _ (after_call TActive) _ _ _ _ _ 0 0 1 0 _ _ R) eq_refl E1 1 _); [cbn; lia|cbn; lia|rewrite P; now left].
  - assert (E : exists s1, tree_write (Some 0) (0, 0) 1 (after_call TFrozen) = Some s1 /\ exists s' m', tree_run (via1 1 0) (p_store (1, 0) [7%Z]) s1 two_bytes = Some (tt, s', m') /\ path s' 1 = [1; 0]).
    { eexists. split; [reflexivity|]. do 2 eexists. split; reflexivity. }
    destruct E as (s1 & E1 & s' & m' & E2 & P). exists s1, s', m'. split; [exact E1|].
    assert (R : tree_runs (writes_at 1) s1 two_bytes tt s' m') by (eapply truns_exec; [apply follows_store|exact E2|constructor]).
    split; [exact R|]. split; [intros i Hi; assert (i = 0) as -> by lia; vm_compute; discriminate|].
    refine (proj1 (proj2 (C87_foreign_access _ _ (after_call TFrozen) _ _ _ _ _ 0 0 1 0 _ _ R) _ E1 1 _)); [cbn; lia|cbn; lia|discriminate|rewrite P; now left].
Qed.
(** [C87_shared_param_call]: the run of [C87_into_case] *)
Example C87_shared_call_case : exists r u s' m', tree_runs (hex_decode_b Fallback (0, 0) 2 (1, 0) 1 0 0) towner m41_1 (r, u) s' m' /\ m' 1 = [Some 65%Z] /\
  forall i, i < 2 -> nth_error (m' 0) i = nth_error (m41_1 0) i.
Proof.
  destruct C87_into_case as (r & u & s' & m' & R & _ & M & _). exists r, u, s', m'. split; [exact R|]. split; [exact M|]. unfold hex_decode_b in R.
  intros i Hi. apply (C87_shared_param_call _ _ _ _ _ _ _ _ _ _ R); [|exact Hi]. intro v. cbn. repeat (let y := fresh in intro y; match type of y with result _ => destruct y; cbn | _ => idtac end); exact I.
Qed.
