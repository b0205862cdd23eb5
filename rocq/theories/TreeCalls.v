(** Calls under the rules of TreeBorrows.v: what their steps need and what they leave. The lemmas match those of BorrowsLib.v and
    BorrowsCalls.v. *)
From Coq Require Import ZArith List Bool Lia ZifyBool ZifyNat.
From Verif Require Import Bytes Mem MemFacts Slices Codec Conc ConcFacts Reify ConcApi ConcApiFacts Borrows BorrowsApi BorrowsFacts TreeBorrows TreeFacts.
Import ListNotations.
Open Scope nat_scope. Open Scope m_scope. Open Scope borrow_scope.

Definition can_read (s : trees) (p : ptr) (n t : nat) : Prop := t < tfresh s /\ readable s p n t.
(** as [ro_step], while calls are entered and left *)
Definition ro_some (p : ptr) (n t : nat) (s s' : trees) : Prop :=
  ext s s' /\ elsewhere p n s s' /\ forall b o, cells_of p n b o -> ro_cell (tfresh s) (path s t) (perms s b o) (perms s' b o).
Lemma some_step p n t s s' : ro_some p n t s s' -> calls s' = calls s -> ro_step p n t s s'.
Proof. intros (A & B & C) E. repeat split; auto; try apply A; try apply C; assumption. Qed.
Lemma step_some p n t s s' : ro_step p n t s s' -> ro_some p n t s s'. Proof. intros (A & _ & B & C). split; auto. Qed.
Lemma some_trans p n t u s1 s2 s3 : ro_some p n t s1 s2 -> ro_some p n u s2 s3 -> incl (path s1 t) (path s2 u) -> ro_some p n t s1 s3.
Proof.
  intros (A & C & D) (A' & C' & D') I. split; [exact (ext_trans _ _ _ A A')|]. split; [intros b o H; now rewrite C', C|].
  intros b o H. destruct (D b o H) as [D1 D2], (D' b o H) as [D1' D2']. split.
  - intros x Hx. rewrite D1' by now apply I. now apply D1.
  - intros x Hx. apply (weak_trans _ (perms s2 b o x)); [now apply D2|]. apply D2'. destruct A. lia.
Qed.
Lemma readable_some p n t s s' q k u : tree_ok s -> ro_some p n t s s' -> incl (guarded s') (guarded s) -> u < tfresh s -> readable s q k u -> readable s' q k u.
Proof.
  intros OK (A & C & D) G L R b o H. rewrite (proj2 A) by exact L. apply (rd_less (guarded s)); [exact G|]. destruct (in_range (fst p) (snd p) n b o) eqn:E.
  - apply (rd_ro (tfresh s) (path s t) _ _ (perms s b o)); [now apply D|intros x; now apply ok_guarded|intros x; now apply ok_path|now apply R].
  - rewrite C by exact E. now apply R.
Qed.
Lemma writes_outside s s' p n q k u : (forall b o, cells_of p n b o -> cells_of q k b o -> False) -> elsewhere p n s s' -> incl (guarded s') (guarded s) ->
  path s' u = path s u -> writes s q k u -> writes s' q k u.
Proof.
  intros N E G P W b o H. rewrite P. apply (wr_less (guarded s)); [exact G|]. rewrite E; [now apply W|].
  destruct (in_range (fst p) (snd p) n b o) eqn:EI; [destruct (N b o EI H)|reflexivity].
Qed.
Lemma child_some x param t p n s s' : child x param t p n s s' -> ro_some p n t s s'.
Proof. intros (_ & _ & E & _ & _ & EL & A). split; [exact E|]. split; [exact EL|]. intros b o H. apply A. exact H. Qed.
Lemma guarded_enter s : guarded (enter s) = guarded s. Proof. reflexivity. Qed.
Lemma readable_enter s p n t : readable s p n t -> readable (enter s) p n t. Proof. intro H. exact H. Qed.
Lemma writes_enter s p n t : writes s p n t -> writes (enter s) p n t. Proof. intro H. exact H. Qed.
Lemma guarded_leave s s' fr : calls s = fr :: calls s' -> incl (guarded s') (guarded s).
Proof. unfold guarded. intros -> u Hu. cbn [concat]. rewrite map_app. apply in_or_app. now right. Qed.

Definition final {A} (Q : A -> trees -> mem -> Prop) : A -> trees -> mem -> Prop :=
  fun a s mm => match tperform Leave s with Some (_, s') => Q a s' mm | None => False end.
Lemma good_fn (F : nat -> nat -> Prop) {A} (body : bcode A) (Q : A -> trees -> mem -> Prop) s mm :
  tgood F body (final Q) (enter s) mm -> tgood F (fn body) Q s mm.
Proof. intro H. unfold fn. cbn [tgood tperform]. apply tgood_bind. exact H. Qed.
Lemma good_retag (F : nat -> nat -> Prop) x (param : bool) t p n (Q : nat -> trees -> mem -> Prop) s mm : x = MutRef \/ x = SharedRef -> tree_ok s ->
  t < tfresh s -> readable s p n t -> (forall s', child x param t p n s s' -> Q (tfresh s) s' mm) -> tgood F (do_ (Retag x param t p n)) Q s mm.
Proof.
  intros K OK L R H. unfold do_. cbn [tgood]. destruct (retag_ok x param t p n s K OK L R) as (s' & -> & C). cbn [tgood]. now apply H.
Qed.

(** ** Methods that only read *)
Definition ro_op (x : bcode nat) (p : ptr) (n t : nat) : Prop := forall (F : nat -> nat -> Prop) (Q : nat -> trees -> mem -> Prop) s mm, tree_ok s -> can_read s p n t ->
  (forall u s', tree_ok s' -> ro_step p n t s s' -> can_read s' p n u -> In t (path s' u) -> Q u s' mm) -> tgood F x Q s mm.
Lemma ro_return p n t : ro_op (Return t) p n t.
Proof. intros F Q s mm OK R H. cbn [tgood]. apply H; auto; [apply ro_refl|]. apply ok_self; [exact OK|apply R]. Qed.
Lemma ro_raw t p n : ro_op (do_ (Retag RawConst false t p n)) p n t.
Proof. intros F Q s mm OK R H. unfold do_. cbn [tgood tperform]. apply H; auto; [apply ro_refl|]. apply ok_self; [exact OK|apply R]. Qed.
Lemma ro_reborrow t p n : ro_op (reborrow p n t) p n t.
Proof.
  intros F Q s mm OK [L R] H. unfold reborrow. apply good_retag; auto. intros s' C. assert (C' := C). destruct C as (OK' & F' & E & P & C & EL & A). apply H.
  - exact OK'.
  - apply some_step; [exact (child_some _ _ _ _ _ _ _ C')|]. rewrite C. destruct (calls s); reflexivity.
  - split; [lia|]. exact (child_readable _ _ _ _ _ _ _ OK L R C').
  - rewrite P. right. now apply ok_self.
Qed.
Lemma ro_fn (body : nat -> bcode nat) p n t : (forall u, ro_op (body u) p n u) -> ro_op (fn (bbind (shared_param p n t) body)) p n t.
Proof.
  intros HB F Q s mm OK [L R] H. apply good_fn, tgood_bind. unfold shared_param. apply good_retag; [auto|exact OK|exact L|exact R|]. intros s1 C1.
  assert (S1 := child_some _ _ _ _ _ _ _ C1). assert (R1 := child_readable _ _ _ _ _ _ _ (ok_enter _ OK) L (readable_enter _ _ _ _ R) C1).
  destruct C1 as (OK1 & F1 & E1 & P1 & K1 & EL1 & A1). change (tfresh (enter s)) with (tfresh s) in *. change (path (enter s) t) with (path s t) in *.
  change (calls (enter s)) with ([] :: calls s) in K1. cbv iota in K1.
  apply HB; [exact OK1|split; [lia|exact R1]|]. intros u s2 OK2 S2 [L2 R2] I2. assert (S2' := S2). destruct S2 as (E2 & K2 & EL2 & A2). rewrite K1 in K2.
  assert (SC : In (tfresh s) (path s1 (tfresh s))) by (rewrite P1; now left).
  assert (RC : readable s2 p n (tfresh s)) by (apply (readable_ro p n (tfresh s) s1); [exact OK1|exact S2'|lia|exact R1]).
  destruct (leave_ro s2 (tfresh s) p n (calls s) OK2 K2 RC) as (s3 & EL & OK3 & P3 & F3 & K3 & EL3 & A3).
  { intros b o Hb. destruct (A2 b o Hb) as [A2' _]. rewrite A2' by exact SC. destruct (A1 b o Hb) as [_ ->]. discriminate. }
  unfold final. rewrite EL.
  assert (S3 : ro_some p n (tfresh s) s2 s3).
  { split; [split; [lia|intros; now rewrite P3]|]. split; [exact EL3|exact A3]. }
  assert (G3 : incl (guarded s3) (guarded s2)) by (apply (guarded_leave _ _ [(tfresh s, p, n)]); now rewrite K2, K3).
  assert (PT : path s1 t = path s t) by (apply (proj2 E1); exact L).
  apply H.
  - exact OK3.
  - apply some_step; [|exact K3]. apply (some_trans p n t (tfresh s) s s1 s3 S1).
    + apply (some_trans p n (tfresh s) (tfresh s) s1 s2 s3); [exact (step_some _ _ _ _ _ S2')|exact S3|]. rewrite (proj2 E2) by lia. apply incl_refl.
    + rewrite P1. apply incl_tl, incl_refl.
  - split; [lia|]. exact (readable_some _ _ _ _ _ _ _ _ OK2 S3 G3 L2 R2).
  - rewrite P3. apply (ok_incl _ _ _ OK2 L2 I2). rewrite (proj2 E2), P1 by lia. right. now apply ok_self.
Qed.
Lemma ro_len p n t : ro_op (slice_len p n t) p n t.
Proof. exact (ro_fn (fun u => Return u) p n t (ro_return p n)). Qed.
Lemma ro_as_ptr p n t : ro_op (as_ptr p n t) p n t.
Proof. apply ro_fn. intro u. apply ro_raw. Qed.
Lemma ro_seq x (y : nat -> bcode nat) p n t : ro_op x p n t -> (forall u, ro_op (y u) p n t) -> ro_op (bbind x y) p n t.
Proof.
  intros HX HY F Q s mm OK [L R] H. apply tgood_bind. apply HX; [exact OK|now split|]. intros u s1 OK1 S1 R1 _. assert (S1' := S1). destruct S1 as (E1 & _).
  apply HY; [exact OK1|split; [destruct E1; lia|now apply (readable_ro p n t s)]|].
  intros v s2 OK2 S2 R2 I2. apply H; auto. apply (ro_trans p n t t s s1 s2); auto. rewrite (proj2 E1) by exact L. apply incl_refl.
Qed.
Lemma ro_slice_parts p n t : ro_op (slice_parts p n t) p n t.
Proof. apply ro_fn. intro u. apply ro_seq; [apply ro_len|]. intros _. apply ro_as_ptr. Qed.
(** [is_empty] and [len], then code that reads through the parameter *)
Lemma ro_lens p n u : ro_op (slice_len p n u ;=; slice_len p n u ;=; Return u) p n u.
Proof. apply ro_seq; [apply ro_len|]. intros _. apply ro_seq; [apply ro_len|]. intros _. apply ro_return. Qed.

(** ** Pieces of code *)
Definition tsame (s s' : trees) : Prop := (forall b o, perms s' b o = perms s b o) /\ path s' = path s /\ tfresh s' = tfresh s /\ calls s' = calls s.
Lemma none_read t q s : exists s', tree_read t q 0 s = Some s' /\ tsame s s'.
Proof.
  unfold tree_read, tacross. cbn [seq forallb tput]. eexists. split; [reflexivity|]. repeat split. intros b o. cbn. unfold in_range.
  destruct (_ && _) eqn:E; [exfalso; lia|reflexivity].
Qed.
Lemma none_write t q s : exists s', tree_write t q 0 s = Some s' /\ tsame s s'.
Proof.
  unfold tree_write, tacross. cbn [seq forallb tput]. eexists. split; [reflexivity|]. repeat split. intros b o. cbn. unfold in_range.
  destruct (_ && _) eqn:E; [exfalso; lia|reflexivity].
Qed.
Lemma ok_same s s' : tsame s s' -> tree_ok s -> tree_ok s'.
Proof.
  intros (A & B & C & D) (O1 & O2 & O3). unfold tree_ok, guarded. rewrite B, C, D. split; [exact O1|]. split; [exact O2|]. intros b o u Hu. rewrite A. now apply O3.
Qed.
(** to show that all accesses are allowed while [I] holds *)
Lemma serves_of (v : view) (P : nat -> Prop) (D : nat -> nat -> Prop) (I : trees -> Prop) : (forall s s', tsame s s' -> tree_ok s' -> I s -> I s') -> (forall s, I s -> tree_ok s) ->
  (forall s q n, I s -> 0 < n -> (forall i, i < n -> D (fst q) (snd q + i)) -> exists t, v (fst q) = Some t /\ can_read s q n t /\
     forall s', tree_ok s' -> ro_step q n t s s' -> I s') ->
  (forall s q n, I s -> 0 < n -> P (fst q) -> (forall i, i < n -> D (fst q) (snd q + i)) -> exists t, v (fst q) = Some t /\ t < tfresh s /\ writes s q n t /\
     forall s', tree_ok s' -> wr_step q n t s s' -> I s') -> serves v P D I.
Proof.
  intros HS HO HR HW. split.
  - intros s q n Is HD. destruct (Nat.eq_dec n 0) as [->|N].
    + destruct (none_read (v (fst q)) q s) as (s' & E & S). exists s'. split; [exact E|]. apply (HS s); auto. apply (ok_same s); auto.
    + destruct (HR s q n Is ltac:(lia) HD) as (t & -> & [L R] & K). destruct (acc_read s q n t (HO s Is) L R) as (s' & E & S & OK'). eauto.
  - intros s q n Is HP HD. destruct (Nat.eq_dec n 0) as [->|N].
    + destruct (none_write (v (fst q)) q s) as (s' & E & S). exists s'. split; [exact E|]. apply (HS s); auto. apply (ok_same s); auto.
    + destruct (HW s q n Is ltac:(lia) HP HD) as (t & -> & L & R & K). destruct (acc_write s q n t (HO s Is) L R) as (s' & E & S & OK'). eauto.
Qed.
Lemma good_exec (F : nat -> nat -> Prop) {X} v (c : M X) (P : nat -> Prop) (R : X -> Prop) (Q : X -> trees -> mem -> Prop) (I : trees -> Prop) s mm : reified True P R c -> I s ->
  (forall y mm', c mm = Ret y mm' -> ((forall b o, init mm' b o -> F b o) -> serves v P (init mm') I) /\ forall s', I s' -> Q y s' mm') ->
  tgood F (exec v c) Q s mm.
Proof.
  intros [p HF HS] I0 H. unfold exec. cbn [tgood]. exists P, p. split; [exact HF|]. split.
  - apply (si_mono P R any); [now apply HS|]. intros a _. exact Logic.I.
  - intros y mm' E. destruct (H y mm' E) as [V HQ]. exists I. split; [exact I0|]. split; [|exact HQ]. intro HF'. exists mm, mm'. split; [apply less_refl|]. auto.
Qed.
Lemma in_cells q n p k : (forall i, i < n -> cells_of p k (fst q) (snd q + i)) -> forall b o, cells_of q n b o -> cells_of p k b o.
Proof.
  intros H b o Hb. apply in_range_iff in Hb as [-> Hb]. specialize (H (o - snd q) ltac:(lia)). now replace (snd q + (o - snd q)) with o in H by lia.
Qed.
Lemma readable_sub s p n q k t : (forall b o, cells_of q k b o -> cells_of p n b o) -> readable s p n t -> readable s q k t.
Proof. intros I R b o H. apply R. now apply I. Qed.
Lemma writes_sub s p n q k t : (forall b o, cells_of q k b o -> cells_of p n b o) -> writes s p n t -> writes s q k t.
Proof. intros I R b o H. apply R. now apply I. Qed.
(** code that only reads what [t] may read *)
Lemma good_exec_ro (F : nat -> nat -> Prop) {X} p n t (c : M X) (R : X -> Prop) (Q : X -> trees -> mem -> Prop) s mm : reified True (fun _ => False) R c ->
  (forall b o, init mm b o -> cells_of p n b o) -> tree_ok s -> can_read s p n t ->
  (forall y s', c mm = Ret y mm -> tree_ok s' -> ro_step p n t s s' -> can_read s' p n t -> Q y s' mm) -> tgood F (exec (via1 (fst p) t) c) Q s mm.
Proof.
  intros HR HG OK [L RD] H. assert (HM : forall y mm', c mm = Ret y mm' -> mm' = mm).
  { intros y mm' E. destruct HR as [pr HF HS]. apply (stores_none R pr (HS Logic.I) mm y mm'). now rewrite (follows_imp _ _ HF). }
  assert (ST : forall s', ro_step p n t s s' -> path s' t = path s t) by (intros s' (E & _); now apply (proj2 E)).
  apply (good_exec F _ c (fun _ => False) R Q (fun s' => tree_ok s' /\ ro_step p n t s s' /\ can_read s' p n t)); [exact HR| |].
  - split; [exact OK|]. split; [apply ro_refl|now split].
  - intros y mm' E. assert (EM := HM y mm' E). subst mm'. split; [|intros s' (A & B & C); now apply H]. intros _.
    apply serves_of.
    + intros s1 s2 (A & B & C & D) OK2 (OK1 & S1 & [L1 R1]). split; [exact OK2|]. split; [|split; [lia|]].
      * destruct S1 as (E1 & K1 & EL1 & C1). split; [split; [destruct E1; lia|rewrite B; apply E1]|]. split; [congruence|]. split; [intros b o Hb; now rewrite A, EL1|].
        intros b o Hb. rewrite A. now apply C1.
      * intros b o Hb. unfold guarded. rewrite A, B, D. now apply R1.
    + tauto.
    + intros s1 q k (OK1 & S1 & [L1 R1]) Hk HD. assert (SUB : forall b o, cells_of q k b o -> cells_of p n b o) by (apply in_cells; intros i Hi; apply HG, HD, Hi).
      assert (EB : fst q = fst p). { specialize (HD 0 Hk). apply HG, in_range_iff in HD. apply HD. }
      exists t. unfold via1. rewrite EB, Nat.eqb_refl. split; [reflexivity|]. split; [split; [exact L1|exact (readable_sub _ _ _ _ _ _ SUB R1)]|].
      intros s2 OK2 S2. apply (ro_widen p n q k) in S2; [|exact SUB]. split; [exact OK2|]. split.
      * apply (ro_trans p n t t s s1 s2); auto. rewrite (ST s1 S1). apply incl_refl.
      * split; [destruct S2 as ((A & _) & _); lia|]. now apply (readable_ro p n t s1).
    + intros s1 q k _ _ [].
Qed.
Lemma good_reader {X} (F : nat -> nat -> Prop) p n t (pre : nat -> bcode nat) (c : M X) (R : X -> Prop) (Q : X -> trees -> mem -> Prop) s mm :
  (forall u, ro_op (pre u) p n u) -> reified True (fun _ => False) R c -> tree_ok s -> can_read s p n t ->
  (forall b o, init mm b o -> cells_of p n b o) ->
  (forall y s', tree_ok s' -> ro_step p n t s s' -> c mm = Ret y mm -> Q y s' mm) ->
  tgood F (fn (u <== shared_param p n t ;; v <== pre u ;; exec (via1 (fst p) v) c)) Q s mm.
Proof.
  intros HP HR OK [L RD] HG H. apply good_fn, tgood_bind. unfold shared_param. apply good_retag; [auto|exact OK|exact L|exact RD|]. intros s1 C1.
  assert (S1 := child_some _ _ _ _ _ _ _ C1). assert (R1 := child_readable _ _ _ _ _ _ _ (ok_enter _ OK) L (readable_enter _ _ _ _ RD) C1).
  destruct C1 as (OK1 & F1 & E1 & P1 & K1 & EL1 & A1). change (tfresh (enter s)) with (tfresh s) in *. change (path (enter s) t) with (path s t) in *.
  change (calls (enter s)) with ([] :: calls s) in K1. cbv iota in K1.
  apply tgood_bind. apply HP; [exact OK1|split; [lia|exact R1]|]. intros u s2 OK2 S2 R2 I2. apply (good_exec_ro F p n u c R); auto.
  intros y s3 EC OK3 S3 _. assert (S23 : ro_step p n (tfresh s) s1 s3).
  { apply (ro_trans p n (tfresh s) u s1 s2 s3); auto. destruct S2 as (E2 & _). rewrite <- (proj2 E2) by lia. apply (ok_incl _ _ _ OK2); [apply R2|exact I2]. }
  clear S2 R2 I2 S3 OK2. assert (S2' := S23). destruct S23 as (E2 & K2 & EL2 & A2). rewrite K1 in K2.
  assert (SC : In (tfresh s) (path s1 (tfresh s))) by (rewrite P1; now left).
  assert (RC : readable s3 p n (tfresh s)) by (apply (readable_ro p n (tfresh s) s1); [exact OK1|exact S2'|lia|exact R1]).
  destruct (leave_ro s3 (tfresh s) p n (calls s) OK3 K2 RC) as (s4 & EL & OK4 & P4 & F4 & K4 & EL4 & A4).
  { intros b o Hb. destruct (A2 b o Hb) as [A2' _]. rewrite A2' by exact SC. destruct (A1 b o Hb) as [_ ->]. discriminate. }
  unfold final. rewrite EL. apply H; [exact OK4| |exact EC]. apply some_step; [|exact K4]. apply (some_trans p n t (tfresh s) s s1 s4 S1).
  - apply (some_trans p n (tfresh s) (tfresh s) s1 s3 s4); [exact (step_some _ _ _ _ _ S2')| |rewrite (proj2 E2) by lia; apply incl_refl].
    split; [split; [lia|intros; now rewrite P4]|]. split; [exact EL4|exact A4].
  - rewrite P1. apply incl_tl, incl_refl.
Qed.

(** ** From a source into a destination *)
Definition apart (p : ptr) (n : nat) (q : ptr) (k : nat) : Prop := forall b o, cells_of p n b o -> cells_of q k b o -> False.
Lemma apart_blocks p n q k : fst p <> fst q -> apart p n q k.
Proof. intros N b o H1 H2. apply in_range_iff in H1 as [-> _]. apply in_range_iff in H2 as [E _]. contradiction. Qed.
Lemma apart_none p n q : apart p n q 0.
Proof. intros b o _ H. apply in_range_iff in H. lia. Qed.
(** while the call runs; the parameter is [tfresh s0] *)
Definition src_inv (s0 : trees) (p : ptr) (n : nat) (q : ptr) (k ts td : nat) (s : trees) : Prop :=
  tree_ok s /\ tfresh s0 < tfresh s /\ ext s0 s /\ path s (tfresh s0) = tfresh s0 :: path s0 ts /\ calls s = [(tfresh s0, p, n)] :: calls s0 /\
  (forall b o, in_range (fst p) (snd p) n b o = false -> in_range (fst q) (snd q) k b o = false -> perms s b o = perms s0 b o) /\
  readable s p n (tfresh s0) /\ (forall b o u, cells_of p n b o -> u <= tfresh s0 -> perms s b o u = Some TActive -> u < tfresh s0 /\ perms s0 b o u = Some TActive) /\
  (forall t, t < tfresh s0 -> readable s0 p n t -> readable s p n t) /\ writes s q k td.
Definition into_post (s s' : trees) (p : ptr) (n : nat) (q : ptr) (k td : nat) (slice : option (ptr * nat)) (u : nat) : Prop :=
  tree_ok s' /\ ext s s' /\ calls s' = calls s /\
  ((forall b o, in_range (fst p) (snd p) n b o = false -> in_range (fst q) (snd q) k b o = false -> perms s' b o = perms s b o) /\
   forall b o u, cells_of p n b o -> u < tfresh s -> perms s' b o u = Some TActive -> perms s b o u = Some TActive) /\
  (forall t, t < tfresh s -> readable s p n t -> readable s' p n t) /\ writes s' q k td /\
  match slice with Some (q', k') => tfresh s <= u < tfresh s' /\ writes s' q' k' u /\ forall b o, cells_of q' k' b o -> cells_of q k b o | None => True end.
(** the parameter is [tfresh s] *)
Lemma into_param {A} (F : nat -> nat -> Prop) p n ts q k td (body : nat -> bcode A) Q s mm : tree_ok s -> can_read s p n ts -> td < tfresh s /\ apart p n q k -> writes s q k td ->
  (forall s1, src_inv s p n q k ts td s1 -> can_read s1 p n (tfresh s) -> tfresh s < tfresh s1 -> tgood F (body (tfresh s)) (final Q) s1 mm) ->
  tgood F (fn (bbind (shared_param p n ts) body)) Q s mm.
Proof.
  intros OK [L R] [LD AP] WD H. apply good_fn, tgood_bind. unfold shared_param. apply good_retag; [auto|exact OK|exact L|exact R|]. intros s1 C1.
  assert (R1 := child_readable _ _ _ _ _ _ _ (ok_enter _ OK) L (readable_enter _ _ _ _ R) C1). assert (C1' := C1).
  destruct C1 as (OK1 & F1 & E1 & P1 & K1 & EL1 & A1). change (tfresh (enter s)) with (tfresh s) in *. change (path (enter s) ts) with (path s ts) in *.
  change (calls (enter s)) with ([] :: calls s) in K1. cbv iota in K1. apply H; [|split; [lia|exact R1]|lia].
  split; [exact OK1|]. split; [lia|]. split; [exact E1|]. split; [exact P1|]. split; [exact K1|]. split; [intros b o H1 _; now apply EL1|]. split; [exact R1|].
  split; [|split].
  - intros b o u Hb Hu EA. destruct (A1 b o Hb) as [[_ WK] EF]. destruct (Nat.eq_dec u (tfresh s)) as [->|NU]; [rewrite EF in EA; discriminate EA|].
    split; [lia|]. apply (WK u); [lia|exact EA].
  - intros t Lt Rt. apply (child_keeps _ _ _ _ _ _ _ p n t (ok_enter _ OK) Lt (or_introl eq_refl) C1' Rt).
  - exact (child_writes_apart _ _ _ _ _ _ _ q k td (ok_enter _ OK) LD AP C1' WD).
Qed.
Lemma into_start {A} (F : nat -> nat -> Prop) p n ts q k td (body : nat -> bcode A) Q s mm : tree_ok s -> can_read s p n ts -> td < tfresh s /\ apart p n q k -> writes s q k td ->
  (forall u s1, src_inv s p n q k ts td s1 -> can_read s1 p n u -> u < tfresh s1 -> tgood F (body u) (final Q) s1 mm) ->
  tgood F (fn (bbind (shared_param p n ts) body)) Q s mm.
Proof. intros OK R LA WD H. apply (into_param F p n ts q k td); auto. Qed.
Lemma src_ro' s0 p n q k ts td t s s' : apart p n q k -> td < tfresh s0 -> src_inv s0 p n q k ts td s -> tree_ok s' -> ro_step p n t s s' -> src_inv s0 p n q k ts td s'.
Proof.
  intros AP LD (OK & L & E & P & K & EL & R & NA & KR & W) OK' ST. assert (ST' := ST). destruct ST as (E' & K' & EL' & C').
  split; [exact OK'|]. split; [destruct E'; lia|]. split; [exact (ext_trans _ _ _ E E')|]. split; [rewrite (proj2 E') by lia; exact P|]. split; [congruence|].
  split; [intros b o H1 H2; rewrite EL' by exact H1; now apply EL|]. split; [apply (readable_ro p n t s); auto|]. split; [|split].
  - intros b o u Hb Hu EA. apply (NA b o u Hb Hu). destruct (C' b o Hb) as [_ D]. apply (D u); [lia|exact EA].
  - intros u Lu Ru. apply (readable_ro p n t s); auto; lia.
  - apply (writes_apart p n t s); auto. destruct E. lia.
Qed.
Lemma src_same s0 p n q k ts td s s' : src_inv s0 p n q k ts td s -> tsame s s' -> tree_ok s' -> src_inv s0 p n q k ts td s'.
Proof.
  intros (OK & L & E & P & K & EL & R & NA & KR & W) (A & B & C & D) OK'. split; [exact OK'|]. split; [lia|].
  split; [split; [lia|rewrite B; apply E]|]. split; [now rewrite B|]. split; [congruence|]. split; [intros b o H1 H2; rewrite A; auto|].
  assert (RR : forall u, readable s p n u -> readable s' p n u) by (intros u Ru b o Hb; unfold guarded; rewrite A, B, D; now apply Ru).
  split; [auto|]. split; [intros b o u Hb; rewrite A; auto|]. split; [auto|]. intros b o Hb. unfold guarded. rewrite A, B, D. now apply W.
Qed.
Lemma into_ro {A} (F : nat -> nat -> Prop) s0 p n q k ts td (x : bcode nat) u (body : nat -> bcode A) Q s mm : ro_op x p n u -> src_inv s0 p n q k ts td s -> td < tfresh s0 /\ apart p n q k ->
  can_read s p n u -> u < tfresh s ->
  (forall v s', src_inv s0 p n q k ts td s' -> can_read s' p n u -> u < tfresh s' -> can_read s' p n v -> v < tfresh s' -> tgood F (body v) Q s' mm) ->
  tgood F (bbind x body) Q s mm.
Proof.
  intros HX I [LD AP] [L R] _ H. apply tgood_bind. apply HX; [apply I|now split|]. intros v s' OK' ST R' _.
  assert (R2 : can_read s' p n u). { split; [destruct ST as ((E & _) & _); lia|]. apply (readable_ro p n u s); auto. apply I. }
  apply H; auto; [|apply R2|apply R']. exact (src_ro' _ _ _ _ _ _ _ _ _ _ AP LD I OK' ST).
Qed.
Lemma via2_src b t b' t' : via2 b t b' t' b = Some t. Proof. unfold via2. now rewrite Nat.eqb_refl. Qed.
Lemma via2_dst b t b' t' : b <> b' -> via2 b t b' t' b' = Some t'.
Proof. intro N. unfold via2. rewrite Nat.eqb_refl. now rewrite (proj2 (Nat.eqb_neq _ _)) by congruence. Qed.
Lemma either_block p n q k (D : nat -> nat -> Prop) r j : fst p <> fst q -> 0 < j -> (forall b o, D b o -> cells_of p n b o \/ cells_of q k b o) ->
  (forall i, i < j -> D (fst r) (snd r + i)) ->
  fst r = fst p /\ (forall b o, cells_of r j b o -> cells_of p n b o) \/ fst r = fst q /\ (forall b o, cells_of r j b o -> cells_of q k b o).
Proof.
  intros N Hj HD H. assert (H0 := HD _ _ (H 0 Hj)). destruct H0 as [H0|H0]; apply in_range_iff in H0 as [EB _]; [left|right]; (split; [exact EB|]); apply in_cells; intros i Hi;
    destruct (HD _ _ (H i Hi)) as [G|G]; auto; exfalso; apply in_range_iff in G as [E _]; congruence.
Qed.
Lemma src_write s0 p n q k ts td s s' r j : apart p n q k -> fst p <> fst q -> (forall b o, cells_of r j b o -> cells_of q k b o) -> src_inv s0 p n q k ts td s ->
  tree_ok s' -> wr_step r j td s s' -> src_inv s0 p n q k ts td s'.
Proof.
  intros AP N SUB (OK & L & E & P & K & EL & R & NA & KR & W) OK' ST. assert (ST' := ST). destruct ST as (F' & P' & K' & EL' & C').
  assert (OUT : forall b o, cells_of p n b o -> perms s' b o = perms s b o).
  { intros b o Hb. apply EL'. destruct (in_range (fst r) (snd r) j b o) eqn:ER; [|reflexivity]. destruct (AP b o Hb (SUB b o ER)). }
  assert (RR : forall u, readable s p n u -> readable s' p n u) by (intros u Ru b o Hb; unfold guarded; rewrite OUT, P', K' by exact Hb; now apply Ru).
  split; [exact OK'|]. split; [lia|]. split; [split; [lia|rewrite P'; apply E]|]. split; [now rewrite P'|]. split; [congruence|]. split; [|split; [auto|split; [|split; [auto|]]]].
  - intros b o H1 H2. rewrite EL'; [now apply EL|]. destruct (in_range (fst r) (snd r) j b o) eqn:ER; [|reflexivity]. apply SUB in ER. congruence.
  - intros b o u Hb. rewrite OUT by exact Hb. now apply NA.
  - exact (writes_wr _ _ _ _ _ _ _ ST' W).
Qed.
Lemma src_read_dst s0 p n q k ts td s s' : apart p n q k -> td < tfresh s0 -> src_inv s0 p n q k ts td s -> tree_ok s' -> ro_step q k td s s' -> src_inv s0 p n q k ts td s'.
Proof.
  intros AP LD (OK1 & Lf & E1 & P & K & EL & RD & NA & KR & W1) OK2 S2'. assert (LT : td < tfresh s) by lia. assert (S2 := S2'). destruct S2 as (E' & K' & EL' & C').
  assert (OUT : forall b o, cells_of p n b o -> perms s' b o = perms s b o).
  { intros b o Hb. apply EL'. destruct (in_range (fst q) (snd q) k b o) eqn:ER; [|reflexivity]. destruct (AP b o Hb ER). }
  assert (RR : forall u, u < tfresh s -> readable s p n u -> readable s' p n u) by (intros u Lu; now apply (readable_ro q k td s)).
  split; [exact OK2|]. split; [destruct E'; lia|]. split; [exact (ext_trans _ _ _ E1 E')|]. split; [rewrite (proj2 E') by lia; exact P|]. split; [congruence|].
  split; [intros b o H1 H2; rewrite EL' by exact H2; now apply EL|]. split; [auto|]. split; [intros b o u Hb; rewrite OUT by exact Hb; now apply NA|].
  split; [intros u Lu Ru; apply RR; [lia|auto]|]. apply (writes_ro q k td s); auto. now apply ok_self.
Qed.
Lemma into_exec_keeps {A X} (F : nat -> nat -> Prop) s0 p n q k ts td v (c : M X) (R : X -> Prop) (body : X -> bcode A) Q s mm :
  reified True (eq (fst q)) R c -> src_inv s0 p n q k ts td s -> can_read s p n v -> fst p <> fst q -> td < tfresh s0 /\ apart p n q k ->
  (forall b o, F b o -> cells_of p n b o \/ cells_of q k b o) ->
  (forall y mm' s', src_inv s0 p n q k ts td s' -> can_read s' p n v -> c mm = Ret y mm' -> tgood F (body y) Q s' mm') ->
  tgood F (bbind (exec (via2 (fst p) v (fst q) td) c) body) Q s mm.
Proof.
  intros HR I RV N [LD AP] HF H. apply tgood_bind. apply (good_exec F _ c (eq (fst q)) R _ (fun s' => src_inv s0 p n q k ts td s' /\ can_read s' p n v)); [exact HR|now split|].
  intros y mm' E. split; [|intros s' [I' R']; now apply H]. intro HF'.
  assert (HD : forall b o, init mm' b o -> cells_of p n b o \/ cells_of q k b o) by (intros b o Hi; apply HF, HF', Hi).
  apply serves_of.
  - intros s1 s2 S OK2 [I1 [L1 R1]]. split; [exact (src_same _ _ _ _ _ _ _ _ _ I1 S OK2)|]. destruct S as (A1 & B1 & C1 & D1). split; [lia|].
    intros b o Hb. unfold guarded. rewrite A1, B1, D1. now apply R1.
  - intros s1 [I1 _]. apply I1.
  - intros s1 r j [I1 [L1 R1]] Hj HI. assert (I1' := I1). destruct I1 as (OK1 & Lf & E1 & _ & _ & _ & _ & _ & _ & W1).
    destruct (either_block p n q k (init mm') r j N Hj HD HI) as [[EB SUB]|[EB SUB]]; rewrite EB.
    + exists v. rewrite via2_src. split; [reflexivity|]. split; [split; [exact L1|exact (readable_sub _ _ _ _ _ _ SUB R1)]|]. intros s2 OK2 S2.
      apply (ro_widen p n r j) in S2; [|exact SUB]. split; [exact (src_ro' _ _ _ _ _ _ _ _ _ _ AP LD I1' OK2 S2)|].
      split; [destruct S2 as ((A1 & _) & _); lia|]. now apply (readable_ro p n v s1).
    + exists td. rewrite via2_dst by exact N. split; [reflexivity|]. assert (LT : td < tfresh s1) by lia.
      split; [split; [exact LT|exact (readable_sub _ _ _ _ _ _ SUB (writes_readable _ _ _ _ W1))]|]. intros s2 OK2 S2.
      apply (ro_widen q k r j) in S2; [|exact SUB]. split; [exact (src_read_dst _ _ _ _ _ _ _ _ _ AP LD I1' OK2 S2)|].
      split; [destruct S2 as ((A1 & _) & _); lia|]. now apply (readable_ro q k td s1).
  - intros s1 r j [I1 [L1 R1]] Hj HP HI. assert (I1' := I1). destruct I1 as (OK1 & Lf & E1 & _ & _ & _ & _ & _ & _ & W1).
    destruct (either_block p n q k (init mm') r j N Hj HD HI) as [[EB SUB]|[EB SUB]]; [congruence|]. rewrite EB.
    exists td. rewrite via2_dst by exact N. split; [reflexivity|]. split; [lia|]. split; [exact (writes_sub _ _ _ _ _ _ SUB W1)|]. intros s2 OK2 S2.
    split; [exact (src_write _ _ _ _ _ _ _ _ _ _ _ AP N SUB I1' OK2 S2)|]. destruct S2 as (F2 & P2 & K2 & EL2 & _). split; [lia|]. intros b o Hb. unfold guarded.
    rewrite P2, K2, EL2; [now apply R1|]. destruct (in_range (fst r) (snd r) j b o) eqn:ER; [|reflexivity]. destruct (AP b o Hb (SUB b o ER)).
Qed.
Lemma into_exec {A X} (F : nat -> nat -> Prop) s0 p n q k ts td v (c : M X) (R : X -> Prop) (body : X -> bcode A) Q s mm :
  reified True (eq (fst q)) R c -> src_inv s0 p n q k ts td s -> can_read s p n v -> fst p <> fst q -> td < tfresh s0 /\ apart p n q k ->
  (forall b o, F b o -> cells_of p n b o \/ cells_of q k b o) ->
  (forall y mm' s', src_inv s0 p n q k ts td s' -> c mm = Ret y mm' -> tgood F (body y) Q s' mm') ->
  tgood F (bbind (exec (via2 (fst p) v (fst q) td) c) body) Q s mm.
Proof. intros HR I RV N LA HF H. eapply into_exec_keeps; eauto. Qed.
Lemma into_read {A X} (F : nat -> nat -> Prop) s0 p n q k ts td v (c : M X) (R : X -> Prop) (body : X -> bcode A) Q s mm :
  reified True (fun _ => False) R c -> src_inv s0 p n q k ts td s -> can_read s p n v -> (forall b o, init mm b o -> cells_of p n b o) -> td < tfresh s0 /\ apart p n q k ->
  (forall y s', src_inv s0 p n q k ts td s' -> (forall u, can_read s p n u -> can_read s' p n u) -> c mm = Ret y mm -> tgood F (body y) Q s' mm) -> tgood F (bbind (exec (via1 (fst p) v) c) body) Q s mm.
Proof.
  intros HR I RV HG [LD AP] H. apply tgood_bind. apply (good_exec_ro F p n v c R); [exact HR|exact HG|apply I|exact RV|]. intros y s' E OK' ST _. apply H; [|intros u [L Ru]|exact E].
  - exact (src_ro' _ _ _ _ _ _ _ _ _ _ AP LD I OK' ST).
  - split; [destruct ST as ((A1 & _) & _); lia|]. apply (readable_ro p n v s); auto. apply I.
Qed.
Lemma into_leave s0 p n q k ts td s : apart p n q k -> td < tfresh s0 -> src_inv s0 p n q k ts td s ->
  exists s', tperform Leave s = Some (0, s') /\ into_post s0 s' p n q k td None 0 /\ (forall r j u, apart p n r j -> u < tfresh s -> writes s r j u -> writes s' r j u) /\ tfresh s' = tfresh s.
Proof.
  intros AP LD (OK & L & E & P & K & EL & R & NA & KR & W).
  destruct (leave_ro s (tfresh s0) p n (calls s0) OK K R) as (s' & EX & OK' & P' & F' & K' & EL' & A').
  { intros b o Hb EA. apply NA in EA; [lia|exact Hb|lia]. }
  exists s'. split; [exact EX|].
  assert (S' : ro_some p n (tfresh s0) s s') by (split; [split; [lia|intros; now rewrite P']|]; split; [exact EL'|exact A']).
  assert (G : incl (guarded s') (guarded s)) by (apply (guarded_leave _ _ [(tfresh s0, p, n)]); now rewrite K, K').
  assert (WW : forall r j u, apart p n r j -> u < tfresh s -> writes s r j u -> writes s' r j u).
  { intros r j u AR Lu Wu. apply (writes_outside s s' p n); auto. now rewrite P'. }
  split; [|split; [exact WW|exact F']]. split; [exact OK'|]. split; [split; [lia|rewrite P'; apply E]|]. split; [exact K'|].
  split; [split; [intros b o H1 H2; rewrite EL' by exact H1; now apply EL|]|].
  { intros b o u Hb Hu EA. apply (NA b o u Hb ltac:(lia)). destruct (A' b o Hb) as [_ D]. apply (D u); [lia|exact EA]. }
  split; [|split; [apply WW; auto; lia|exact Logic.I]].
  intros t Lt Rt. apply (readable_some p n (tfresh s0) s); auto. lia.
Qed.
Lemma into_fail {A} (F : nat -> nat -> Prop) s0 p n q k ts td (a : A) (Q : A -> trees -> mem -> Prop) s mm : td < tfresh s0 /\ apart p n q k -> src_inv s0 p n q k ts td s ->
  (forall s', into_post s0 s' p n q k td None 0 -> Q a s' mm) -> tgood F (Return a) (final Q) s mm.
Proof. intros [LD AP] I H. cbn [tgood]. unfold final. destruct (into_leave _ _ _ _ _ _ _ _ AP LD I) as (s' & -> & P & _). now apply H. Qed.
(** a reference made of the destination, or part of it *)
Lemma child_src_of s0 p n q k ts td s s' l v : apart p n q k -> td < tfresh s0 -> l <= k -> src_inv s0 p n q k ts td s -> v < tfresh s -> In td (path s v) ->
  child MutRef false v q l s s' -> src_inv s0 p n q k ts td s'.
Proof.
  intros AP LD LE (OK & L & E & P & K & EL & R & NA & KR & W) LV IV C. assert (C' := C). destruct C as (OK' & F' & E' & P' & K' & EL' & A').
  assert (SUB : forall b o, cells_of q l b o -> cells_of q k b o) by (intros b o Hb; apply in_range_iff in Hb; apply in_range_iff; lia).
  assert (RR : forall u, u < tfresh s -> readable s p n u -> readable s' p n u) by (intros u Lu Ru; exact (child_keeps _ _ _ _ _ _ _ _ _ _ OK Lu (or_intror eq_refl) C' Ru)).
  split; [exact OK'|]. split; [lia|]. split; [exact (ext_trans _ _ _ E E')|]. split; [rewrite (proj2 E') by lia; exact P|]. split; [rewrite K', K; reflexivity|].
  split; [|split; [auto|split; [|split]]].
  - intros b o H1 H2. rewrite EL'; [now apply EL|]. destruct (in_range (fst q) (snd q) l b o) eqn:ER; [|reflexivity]. apply SUB in ER. congruence.
  - intros b o u Hb. rewrite EL'; [now apply NA|]. destruct (in_range (fst q) (snd q) l b o) eqn:ER; [|reflexivity]. destruct (AP b o Hb (SUB b o ER)).
  - intros t Lt Rt. apply RR; [lia|auto].
  - exact (child_writes_old _ _ _ _ _ _ _ _ _ OK LV IV C' W).
Qed.
Lemma child_src s0 p n q k ts td s s' l : apart p n q k -> td < tfresh s0 -> l <= k -> src_inv s0 p n q k ts td s -> child MutRef false td q l s s' -> src_inv s0 p n q k ts td s'.
Proof.
  intros AP LD LE I. assert (LT : td < tfresh s) by (destruct I as (_ & L & _); lia). apply (child_src_of _ _ _ _ _ _ _ _ _ _ _ AP LD LE I LT). now apply ok_self; [apply I|].
Qed.
Lemma good_slice_mut (F : nat -> nat -> Prop) p n t (Q : nat -> trees -> mem -> Prop) s mm : tree_ok s -> t < tfresh s -> writes s p n t -> calls s <> [] ->
  (forall s', child MutRef false t p n s s' -> Q (tfresh s) s' mm) -> tgood F (slice_mut p n t) Q s mm.
Proof.
  intros OK L W NE H. unfold slice_mut. do 2 apply good_fn. unfold reborrow_mut. apply good_retag; [auto|exact OK|exact L|exact (writes_readable _ _ _ _ W)|].
  intros s1 (OK1 & F1 & E1 & P1 & K1 & EL1 & A1). change (tfresh (enter (enter s))) with (tfresh s) in *. change (calls (enter (enter s))) with ([] :: [] :: calls s) in K1.
  cbv iota in K1. unfold final. rewrite (leave_plain s1 _ K1).
  assert (K2 : calls (popped s1) = [] :: calls s) by (unfold popped; cbn; now rewrite K1). rewrite (leave_plain _ _ K2). apply H.
  split; [now do 2 apply ok_popped|]. split; [exact F1|]. split; [exact E1|]. split; [exact P1|]. split; [|split; [exact EL1|exact A1]].
  cbn. rewrite K1. cbn. destruct (calls s); [contradiction|reflexivity].
Qed.
Lemma into_give_gen {A} (F : nat -> nat -> Prop) s0 p n q k ts td l (x : bcode nat) (f : nat -> A) (Q : A -> trees -> mem -> Prop) s mm :
  (forall (Q : nat -> trees -> mem -> Prop), (forall s', child MutRef false td q l s s' -> Q (tfresh s) s' mm) -> tgood F x Q s mm) ->
  td < tfresh s0 /\ apart p n q k -> src_inv s0 p n q k ts td s -> l <= k ->
  (forall u s', into_post s0 s' p n q k td (Some (q, l)) u -> Q (f u) s' mm) ->
  tgood F (bbind x (fun u => Return (f u))) (final Q) s mm.
Proof.
  intros HX [LD AP] I L H. apply tgood_bind. apply HX. intros s1 C1. cbn [tgood]. unfold final.
  assert (I1 := child_src _ _ _ _ _ _ _ _ _ _ AP LD L I C1). destruct (into_leave _ _ _ _ _ _ _ _ AP LD I1) as (s2 & -> & P & WW & F2).
  destruct I as (OK & LF & E & _ & _ & _ & _ & _ & _ & W).
  assert (SUB : forall b o, cells_of q l b o -> cells_of q k b o) by (intros b o Hb; apply in_range_iff in Hb; apply in_range_iff; lia).
  assert (LD' : td < tfresh s) by lia. assert (W1 := child_writes _ _ _ _ _ _ OK LD' (writes_sub _ _ _ _ _ _ SUB W) C1). destruct C1 as (_ & F1 & _).
  apply H. destruct P as (P1 & P2 & P3 & P4 & P5 & P6 & _). do 6 (split; [assumption|]). split; [lia|]. split; [|exact SUB].
  apply WW; [intros b o H1 H2; exact (AP b o H1 (SUB b o H2))|lia|exact W1].
Qed.
Lemma src_calls s0 p n q k ts td s : src_inv s0 p n q k ts td s -> calls s <> []. Proof. intros (_ & _ & _ & _ & -> & _). discriminate. Qed.
Lemma into_give {A} (F : nat -> nat -> Prop) s0 p n q k ts td l (f : nat -> A) (Q : A -> trees -> mem -> Prop) s mm :
  td < tfresh s0 /\ apart p n q k -> src_inv s0 p n q k ts td s -> l <= k ->
  (forall u s', into_post s0 s' p n q k td (Some (q, l)) u -> Q (f u) s' mm) ->
  tgood F (bbind (slice_mut q l td) (fun u => Return (f u))) (final Q) s mm.
Proof.
  intros LA I L H. apply (into_give_gen F s0 p n q k ts td l); auto. intros Q' HQ. assert (NE := src_calls _ _ _ _ _ _ _ _ I).
  destruct I as (OK & LF & E & _ & _ & _ & _ & _ & _ & W). apply good_slice_mut; auto; [lia|].
  apply (writes_sub _ q k); [|exact W]. intros b o Hb. apply in_range_iff in Hb; apply in_range_iff; lia.
Qed.
Lemma into_give_array {A} (F : nat -> nat -> Prop) s0 p n q k ts td l (f : nat -> A) (Q : A -> trees -> mem -> Prop) s mm :
  td < tfresh s0 /\ apart p n q k -> src_inv s0 p n q k ts td s -> l <= k ->
  (forall u s', into_post s0 s' p n q k td (Some (q, l)) u -> Q (f u) s' mm) ->
  tgood F (bbind (reborrow_mut q l td) (fun u => Return (f u))) (final Q) s mm.
Proof.
  intros LA I L H. apply (into_give_gen F s0 p n q k ts td l); auto. intros Q' HQ.
  destruct I as (OK & LF & E & _ & _ & _ & _ & _ & _ & W). unfold reborrow_mut. apply good_retag; auto; [lia|]. apply writes_readable.
  apply (writes_sub _ q k); [|exact W]. intros b o Hb. apply in_range_iff in Hb; apply in_range_iff; lia.
Qed.
Lemma into_reader {A X} (F : nat -> nat -> Prop) s0 p n q k ts td u (pre : nat -> bcode nat) (c : M X) (R : X -> Prop) (body : X -> bcode A) Q s mm :
  (forall u, ro_op (pre u) p n u) -> reified True (fun _ => False) R c -> src_inv s0 p n q k ts td s -> td < tfresh s0 /\ apart p n q k -> can_read s p n u -> u < tfresh s ->
  (forall b o, init mm b o -> cells_of p n b o) ->
  (forall y s', src_inv s0 p n q k ts td s' -> can_read s' p n u -> u < tfresh s' -> c mm = Ret y mm -> tgood F (body y) Q s' mm) ->
  tgood F (bbind (fn (u <== shared_param p n u ;; v <== pre u ;; exec (via1 (fst p) v) c)) body) Q s mm.
Proof.
  intros HP HR I [LD AP] RU LU HG H. apply tgood_bind. apply (good_reader F p n u pre c R); auto; [apply I|]. intros y s' OK' ST E.
  assert (R2 : can_read s' p n u). { split; [destruct ST as ((E1 & _) & _); lia|]. apply (readable_ro p n u s); auto; [apply I|apply RU]. }
  apply H; auto; [|apply R2]. exact (src_ro' _ _ _ _ _ _ _ _ _ _ AP LD I OK' ST).
Qed.

(** ** In place *)
Definition own_inv (s0 : trees) (p : ptr) (n t g : nat) (s : trees) : Prop :=
  tree_ok s /\ g = tfresh s0 /\ tfresh s0 < tfresh s /\ ext s0 s /\ path s g = g :: path s0 t /\ calls s = [(g, p, n)] :: calls s0 /\ elsewhere p n s0 s /\ writes s p n g.
(** a pointer made from the parameter, through references that are not protected *)
Definition raw_inv (s0 : trees) (p : ptr) (n t r : nat) (s : trees) : Prop :=
  exists g, own_inv s0 p n t g s /\ tfresh s0 <= r < tfresh s /\ (exists X, path s r = X ++ path s g /\ forall x, In x X -> ~ In x (guarded s)) /\ writes s p n r.
Definition inplace_post (s s' : trees) (p : ptr) (n t : nat) (slice : option (ptr * nat)) (u : nat) : Prop :=
  tree_ok s' /\ ext s s' /\ calls s' = calls s /\ elsewhere p n s s' /\ writes s' p n t /\
  match slice with Some (q, k) => tfresh s <= u < tfresh s' /\ writes s' q k u /\ In t (path s' u) /\ forall b o, cells_of q k b o -> cells_of p n b o | None => True end.
Definition own_read (s : trees) (p : ptr) (n g u : nat) : Prop := can_read s p n u /\ In g (path s u).
Lemma own_readable s0 p n t g s : own_inv s0 p n t g s -> own_read s p n g g.
Proof.
  intros (OK & -> & L & _ & P & _ & _ & W). split; [split; [exact L|now apply writes_readable]|]. rewrite P. now left.
Qed.
Lemma own_fresh s0 p n t g s : own_inv s0 p n t g s -> g < tfresh s. Proof. intros (_ & -> & L & _). exact L. Qed.
Lemma inplace_start {A} (F : nat -> nat -> Prop) p n t (body : nat -> bcode A) Q s mm : tree_ok s -> t < tfresh s /\ writes s p n t ->
  (forall g s1, own_inv s p n t g s1 -> tgood F (body g) (final Q) s1 mm) ->
  tgood F (fn (bbind (mut_param p n t) body)) Q s mm.
Proof.
  intros OK [L W] H. apply good_fn, tgood_bind. unfold mut_param. apply good_retag; [auto|exact OK|exact L|exact (writes_readable _ _ _ _ W)|]. intros s1 C1.
  assert (W1 := child_writes _ _ _ _ _ _ (ok_enter _ OK) L (writes_enter _ _ _ _ W) C1).
  destruct C1 as (OK1 & F1 & E1 & P1 & K1 & EL1 & A1). change (tfresh (enter s)) with (tfresh s) in *. change (path (enter s) t) with (path s t) in *.
  change (calls (enter s)) with ([] :: calls s) in K1. cbv iota in K1. apply H. split; [exact OK1|]. split; [reflexivity|]. split; [lia|]. repeat split; auto; try apply E1; apply W1; assumption.
Qed.
Lemma own_ro s0 p n t g u s s' : own_inv s0 p n t g s -> u < tfresh s -> In g (path s u) -> tree_ok s' -> ro_step p n u s s' -> own_inv s0 p n t g s'.
Proof.
  intros (OK & EG & L & E & P & K & EL & W) LU IU OK' ST. assert (ST' := ST). destruct ST as (E' & K' & EL' & C').
  split; [exact OK'|]. split; [exact EG|]. split; [destruct E'; lia|]. split; [exact (ext_trans _ _ _ E E')|]. split; [rewrite (proj2 E') by lia; exact P|]. split; [congruence|].
  split; [intros b o H; rewrite EL' by exact H; now apply EL|]. now apply (writes_ro p n u s).
Qed.
Lemma inplace_ro {A} (F : nat -> nat -> Prop) s0 p n t g (x : bcode nat) u (body : nat -> bcode A) Q s mm : ro_op x p n u -> own_inv s0 p n t g s ->
  own_read s p n g u -> u < tfresh s ->
  (forall v s', own_inv s0 p n t g s' -> own_read s' p n g u -> u < tfresh s' -> own_read s' p n g v -> v < tfresh s' -> tgood F (body v) Q s' mm) ->
  tgood F (bbind x body) Q s mm.
Proof.
  intros HX I [[L R] IU] _ H. apply tgood_bind. apply HX; [apply I|now split|]. intros v s' OK' ST R' IV. assert (E' := proj1 ST).
  assert (R2 : own_read s' p n g u).
  { split; [split; [destruct E'; lia|]|]. { apply (readable_ro p n u s); auto. apply I. } now rewrite (proj2 E'). }
  apply H; auto; [exact (own_ro _ _ _ _ _ _ _ _ I L IU OK' ST)|apply R2| |apply R'].
  split; [exact R'|]. apply (ok_incl _ _ _ OK' (proj1 R') IV). apply R2.
Qed.
Lemma inplace_reader {A X} (F : nat -> nat -> Prop) s0 p n t g u (pre : nat -> bcode nat) (c : M X) (R : X -> Prop) (body : X -> bcode A) Q s mm :
  (forall u, ro_op (pre u) p n u) -> reified True (fun _ => False) R c -> own_inv s0 p n t g s -> own_read s p n g u -> u < tfresh s ->
  (forall b o, init mm b o -> cells_of p n b o) ->
  (forall y s', own_inv s0 p n t g s' -> c mm = Ret y mm -> tgood F (body y) Q s' mm) ->
  tgood F (bbind (fn (u <== shared_param p n u ;; v <== pre u ;; exec (via1 (fst p) v) c)) body) Q s mm.
Proof.
  intros HP HR I [RU IU] LU HG H. apply tgood_bind. apply (good_reader F p n u pre c R); auto; [apply I|]. intros y s' OK' ST E. apply H; auto.
  exact (own_ro _ _ _ _ _ _ _ _ I LU IU OK' ST).
Qed.
Lemma own_child s0 p n t g s s' u l x : own_inv s0 p n t g s -> u < tfresh s -> In g (path s u) -> l <= n -> child x false u p l s s' -> own_inv s0 p n t g s'.
Proof.
  intros (OK & EG & L & E & P & K & EL & W) LU IU LE C. assert (C' := C). destruct C as (OK' & F' & E' & P' & K' & EL' & A').
  split; [exact OK'|]. split; [exact EG|]. split; [lia|]. split; [exact (ext_trans _ _ _ E E')|]. split; [rewrite (proj2 E') by lia; exact P|]. split; [rewrite K', K; reflexivity|].
  split; [|exact (child_writes_old _ _ _ _ _ _ _ _ _ OK LU IU C' W)].
  intros b o H. rewrite EL'; [now apply EL|]. revert H. unfold in_range. lia.
Qed.
Lemma inplace_raw {A} (F : nat -> nat -> Prop) s0 p n t g (body : nat -> bcode A) Q s mm : own_inv s0 p n t g s ->
  (forall r s', raw_inv s0 p n t r s' -> tgood F (body r) Q s' mm) -> tgood F (bbind (as_mut_ptr p n g) body) Q s mm.
Proof.
  intros I H. apply tgood_bind. unfold as_mut_ptr. apply tgood_bind. unfold reborrow_mut. assert (OK : tree_ok s) by apply I. assert (LG := own_fresh _ _ _ _ _ _ I).
  assert (IG : In g (path s g)) by now apply ok_self.
  assert (W : writes s p n g) by apply I. apply good_retag; [auto|exact OK|exact LG|exact (writes_readable _ _ _ _ W)|]. intros s1 C1.
  assert (I1 := own_child _ _ _ _ _ _ _ _ _ _ I LG IG (le_n n) C1). assert (W1 := child_writes _ _ _ _ _ _ OK LG W C1).
  destruct C1 as (OK1 & F1 & E1 & P1 & K1 & EL1 & A1). set (r1 := tfresh s) in *.
  apply good_fn, tgood_bind. unfold mut_param. apply good_retag; [auto|exact OK1|cbn; lia|exact (writes_readable _ _ _ _ W1)|]. intros s2 C2.
  assert (L1 : r1 < tfresh (enter s1)) by (cbn; lia).
  assert (W2 := child_writes _ _ _ _ _ _ (ok_enter _ OK1) L1 (writes_enter _ _ _ _ W1) C2).
  destruct C2 as (OK2 & F2 & E2 & P2 & K2 & EL2 & A2). change (tfresh (enter s1)) with (tfresh s1) in *. change (path (enter s1)) with (path s1) in *. change (calls (enter s1)) with ([] :: calls s1) in *.
  cbv iota in K2. unfold do_. cbn [tgood tperform]. unfold final.
  destruct (leave_rw s2 (tfresh s1) p n (calls s1) OK2 K2 W2) as (s3 & EX & OK3 & P3 & F3 & K3 & EL3 & X3). rewrite EX.
  assert (PC : path s2 (tfresh s1) = tfresh s1 :: r1 :: path s g) by (rewrite P2, P1; reflexivity).
  assert (PG : path s2 g = path s g). { rewrite (proj2 E2) by (cbn; lia). cbn [path enter]. apply (proj2 E1). lia. }
  assert (W3 : writes s3 p n (tfresh s1)).
  { apply (exited_writes s2 s3 (tfresh s1) p n p n); auto; [lia|rewrite PC; now left|]. apply (guarded_leave _ _ [(tfresh s1, p, n)]). now rewrite K2, K3. }
  assert (NX : forall x, In x [tfresh s1; r1] -> ~ In x (guarded s3)).
  { intros x Hx Hg. unfold guarded in Hg. rewrite K3, K1 in Hg. assert (Hg' : In x (guarded s)). { unfold guarded. destruct (calls s); exact Hg. }
    apply (ok_guarded _ _ OK) in Hg'. destruct Hx as [<-|[<-|[]]]; lia. }
  apply H. exists g. destruct I as (_ & EG & L & E & P & K & EL & _).
  assert (X : path s3 (tfresh s1) = [tfresh s1; r1] ++ path s3 g) by (rewrite P3, PC, PG; reflexivity).
  split; [|split; [lia|split; [now exists [tfresh s1; r1]|exact W3]]].
  split; [exact OK3|]. split; [exact EG|]. split; [lia|].
  split; [apply (ext_trans _ s); [exact E|]; split; [lia|intros u Hu; rewrite P3, (proj2 E2) by (cbn; lia); now apply (proj2 E1)]|].
  split; [rewrite P3, PG; exact P|]. split; [rewrite K3, K1, K; reflexivity|]. split.
  - intros b o Hb. rewrite EL3, EL2 by exact Hb. cbn. rewrite EL1 by exact Hb. now apply EL.
  - intros b o Hb. apply (wr_up _ [tfresh s1; r1]); [exact NX|]. rewrite <- X. now apply W3.
Qed.
Lemma raw_same s0 p n t r s s' : raw_inv s0 p n t r s -> tsame s s' -> tree_ok s' -> raw_inv s0 p n t r s'.
Proof.
  intros (g & (OK & EG & L & E & P & K & EL & W) & LR & (X & PX & NX) & WR) (A & B & C & D) OK'. exists g.
  assert (WW : forall u, writes s p n u -> writes s' p n u) by (intros u Wu b o Hb; unfold guarded; rewrite A, B, D; now apply Wu).
  split; [|split; [lia|split; [exists X; unfold guarded; rewrite B, D; split; auto|auto]]].
  split; [exact OK'|]. split; [exact EG|]. split; [lia|]. split; [split; [lia|rewrite B; apply E]|]. split; [now rewrite B|]. split; [congruence|].
  split; [intros b o Hb; rewrite A; now apply EL|auto].
Qed.
Lemma raw_in s0 p n t r s : raw_inv s0 p n t r s -> exists g, own_inv s0 p n t g s /\ In g (path s r) /\ r < tfresh s /\ writes s p n r.
Proof.
  intros (g & I & LR & (X & PX & NX) & WR). exists g. split; [exact I|]. split; [|split; [lia|exact WR]]. rewrite PX. apply in_or_app. right.
  apply ok_self; [apply I|exact (own_fresh _ _ _ _ _ _ I)].
Qed.
Lemma inplace_exec {A X} (F : nat -> nat -> Prop) s0 p n t r (c : M X) (R : X -> Prop) (body : X -> bcode A) Q s mm :
  reified True (eq (fst p)) R c -> raw_inv s0 p n t r s -> (forall b o, F b o -> cells_of p n b o) ->
  (forall y mm' s', raw_inv s0 p n t r s' -> c mm = Ret y mm' -> tgood F (body y) Q s' mm') -> tgood F (bbind (exec (via1 (fst p) r) c) body) Q s mm.
Proof.
  intros HR I HF H. apply tgood_bind. apply (good_exec F _ c (eq (fst p)) R _ (raw_inv s0 p n t r)); [exact HR|exact I|].
  intros y mm' E. split; [|intros s' I'; now apply H]. intro HF'.
  assert (HD : forall q k, 0 < k -> (forall i, i < k -> init mm' (fst q) (snd q + i)) -> fst q = fst p /\ forall b o, cells_of q k b o -> cells_of p n b o).
  { intros q k Hk HI. split; [|apply in_cells; intros i Hi; apply HF, HF', HI, Hi]. specialize (HI 0 Hk). apply HF', HF, in_range_iff in HI. apply HI. }
  apply serves_of.
  - intros s1 s2 S OK2 I1. exact (raw_same _ _ _ _ _ _ _ I1 S OK2).
  - intros s1 (g & I1 & _). apply I1.
  - intros s1 q k I1 Hk HI. destruct (HD q k Hk HI) as [EB SUB]. exists r. unfold via1. rewrite EB, Nat.eqb_refl. split; [reflexivity|].
    destruct (raw_in _ _ _ _ _ _ I1) as (g & OI & IR & LR & WR).
    split; [split; [exact LR|exact (readable_sub _ _ _ _ _ _ SUB (writes_readable _ _ _ _ WR))]|]. intros s2 OK2 S2. apply (ro_widen p n q k) in S2; [|exact SUB].
    destruct I1 as (g1 & OI1 & LR1 & (Y & PY & NY) & _). exists g1. assert (OK1 : tree_ok s1) by apply OI1. assert (LG := own_fresh _ _ _ _ _ _ OI1).
    assert (IG : In g1 (path s1 r)) by (rewrite PY; apply in_or_app; right; now apply ok_self).
    split; [exact (own_ro _ _ _ _ _ _ _ _ OI1 LR IG OK2 S2)|]. assert (S2' := S2). destruct S2 as (E2 & K2 & _).
    split; [destruct E2; lia|]. split; [exists Y; rewrite !(proj2 E2), (guarded_calls _ _ K2) by lia; now split|]. apply (writes_ro p n r s1); auto. now apply ok_self.
  - intros s1 q k I1 Hk _ HI. destruct (HD q k Hk HI) as [EB SUB]. exists r. unfold via1. rewrite EB, Nat.eqb_refl. split; [reflexivity|].
    destruct I1 as (g1 & OI1 & LR1 & (Y & PY & NY) & WR). split; [lia|]. split; [exact (writes_sub _ _ _ _ _ _ SUB WR)|]. intros s2 OK2 S2.
    assert (W2 := writes_wr _ _ _ _ _ p n S2 WR). destruct S2 as (F2 & P2 & K2 & EL2 & _). exists g1. rewrite P2, F2.
    assert (NY2 : forall x, In x Y -> ~ In x (guarded s2)) by (intros x Hx; rewrite (guarded_calls _ _ K2); now apply NY).
    split; [|split; [lia|split; [exists Y; now split|exact W2]]].
    destruct OI1 as (OK1 & EG & L & E1 & P & K & EL & _). split; [exact OK2|]. split; [exact EG|]. split; [lia|]. split; [split; [lia|rewrite P2; apply E1]|].
    split; [now rewrite P2|]. split; [congruence|]. split.
    + intros b o Hb. rewrite EL2; [now apply EL|]. destruct (in_range (fst q) (snd q) k b o) eqn:ER; [|reflexivity]. apply SUB in ER. congruence.
    + intros b o Hb. apply (wr_up _ Y); [exact NY2|]. specialize (W2 b o Hb). rewrite P2 in W2 |- *. rewrite <- PY. exact W2.
Qed.
Lemma own_leave s0 p n t g s : tree_ok s0 -> t < tfresh s0 -> own_inv s0 p n t g s -> exists s', tperform Leave s = Some (0, s') /\ inplace_post s0 s' p n t None 0 /\
  (forall r j u, u < tfresh s -> In g (path s u) -> writes s r j u -> writes s' r j u) /\ tfresh s' = tfresh s /\ path s' = path s.
Proof.
  intros OK0 LT I. assert (LG := own_fresh _ _ _ _ _ _ I). destruct I as (OK & EG & L & E & P & K & EL & W).
  destruct (leave_rw s g p n (calls s0) OK K W) as (s' & EX & OK' & P' & F' & K' & EL' & X'). exists s'. split; [exact EX|].
  assert (G : incl (guarded s') (guarded s)) by (apply (guarded_leave _ _ [(g, p, n)]); now rewrite K, K').
  assert (WW : forall r j u, u < tfresh s -> In g (path s u) -> writes s r j u -> writes s' r j u).
  { intros r j u Lu Iu Wu. exact (exited_writes s s' g p n r j u OK Lu Iu P' G EL' X' Wu). }
  split; [|split; [exact WW|split; [exact F'|exact P']]]. split; [exact OK'|]. split; [split; [lia|rewrite P'; apply E]|]. split; [exact K'|].
  split; [intros b o H; rewrite EL' by exact H; now apply EL|]. split; [|exact Logic.I].
  assert (WG : writes s' p n g) by (apply WW; auto; now apply ok_self).
  intros b o Hb. specialize (WG b o Hb). rewrite P', P in WG. rewrite P', (proj2 E) by exact LT. apply (wr_up _ [g]); [|exact WG].
  intros x [<-|[]] Hg. unfold guarded in Hg. rewrite K' in Hg. apply (ok_guarded s0) in Hg; [lia|exact OK0].
Qed.
Lemma own_fail {A} (F : nat -> nat -> Prop) s0 p n t g (a : A) (Q : A -> trees -> mem -> Prop) s mm : tree_ok s0 -> t < tfresh s0 /\ writes s0 p n t -> own_inv s0 p n t g s ->
  (forall s', inplace_post s0 s' p n t None 0 -> Q a s' mm) -> tgood F (Return a) (final Q) s mm.
Proof. intros OK0 [LT _] I H. cbn [tgood]. unfold final. destruct (own_leave _ _ _ _ _ _ OK0 LT I) as (s' & -> & P & _). now apply H. Qed.
Lemma raw_fail {A} (F : nat -> nat -> Prop) s0 p n t r (a : A) (Q : A -> trees -> mem -> Prop) s mm : tree_ok s0 -> t < tfresh s0 /\ writes s0 p n t -> raw_inv s0 p n t r s ->
  (forall s', inplace_post s0 s' p n t None 0 -> Q a s' mm) -> tgood F (Return a) (final Q) s mm.
Proof. intros OK0 LT (g & I & _) H. exact (own_fail F s0 p n t g a Q s mm OK0 LT I H). Qed.
Lemma raw_give {A} (F : nat -> nat -> Prop) s0 p n t r l (f : nat -> A) (Q : A -> trees -> mem -> Prop) s mm : tree_ok s0 -> t < tfresh s0 /\ writes s0 p n t -> raw_inv s0 p n t r s -> l <= n ->
  (forall u s', inplace_post s0 s' p n t (Some (p, l)) u -> Q (f u) s' mm) ->
  tgood F (bbind (slice_mut p l r) (fun u => Return (f u))) (final Q) s mm.
Proof.
  intros OK0 [LT _] I LE H. apply tgood_bind. destruct (raw_in _ _ _ _ _ _ I) as (g & OI & IG & LR & WR). clear I. assert (OK : tree_ok s) by apply OI.
  assert (SUB : forall b o, cells_of p l b o -> cells_of p n b o) by (intros b o Hb; apply in_range_iff in Hb; apply in_range_iff; lia).
  assert (WL := writes_sub _ _ _ _ _ _ SUB WR).
  apply good_slice_mut; [exact OK|exact LR|exact WL| |].
  { destruct OI as (_ & _ & _ & _ & _ & -> & _). discriminate. }
  intros s1 C1. assert (I1 := own_child _ _ _ _ _ _ _ _ _ _ OI LR IG LE C1). assert (W1 := child_writes _ _ _ _ _ _ OK LR WL C1).
  destruct C1 as (_ & F1 & _ & P1 & _). cbn [tgood]. unfold final. destruct (own_leave _ _ _ _ _ _ OK0 LT I1) as (s2 & -> & P & WW & F2 & PS). apply H.
  destruct P as (Q1 & Q2 & Q3 & Q4 & Q5 & _). split; [exact Q1|]. split; [exact Q2|]. split; [exact Q3|]. split; [exact Q4|]. split; [exact Q5|].
  split; [destruct OI as (_ & _ & LF & _); lia|]. split; [apply WW; [lia|rewrite P1; now right|exact W1]|].
  split; [|exact SUB]. rewrite PS, P1. right. apply (ok_incl _ _ _ OK LR IG). destruct OI as (_ & _ & _ & _ & -> & _). right. now apply ok_self.
Qed.
