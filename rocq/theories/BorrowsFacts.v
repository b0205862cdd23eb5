(** Facts about Borrows.v *)
From Coq Require Import ZArith List Bool Lia ZifyBool ZifyNat.
From Verif Require Import Bytes Mem MemFacts Slices Codec Conc ConcFacts Reify ConcApi ConcApiFacts Borrows.
Import ListNotations.
Open Scope nat_scope. Open Scope m_scope. Open Scope borrow_scope.

(** ** One byte *)
(** [t] may read, and that changes nothing *)
Definition reads (t : nat) (s : stack) : Prop :=
  exists above g below, s = above ++ g :: below /\ grants false t g = true /\
    Forall (fun i => grants false t i = false /\ is_unique i = false) above.
(** [t] may write, and that changes nothing *)
Definition wtop (t : nat) (s : stack) : Prop := exists g r, s = g :: r /\ grants true t g = true.

Lemma locate_app w t above g below : Forall (fun i => grants w t i = false) above -> grants w t g = true ->
  locate w t (above ++ g :: below) = Some (above, g, below).
Proof.
  intros H G. induction H as [|i r Hi _ IH]; cbn [app locate]; [now rewrite G|]. now rewrite Hi, IH.
Qed.
Lemma locate_some w t s above g below : locate w t s = Some (above, g, below) ->
  s = above ++ g :: below /\ grants w t g = true /\ Forall (fun i => grants w t i = false) above.
Proof.
  revert above. induction s as [|i s IH]; intros above E; [discriminate E|]. cbn [locate] in E. destruct (grants w t i) eqn:G.
  - injection E as <- <- <-. repeat split; auto.
  - destruct (locate w t s) as [[[a g'] b']|]; [|discriminate E]. injection E as <- <- <-.
    destruct (IH a eq_refl) as (-> & G' & F). repeat split; auto.
Qed.
Lemma disable_id l : Forall (fun i => is_unique i = false) l -> map disable l = l.
Proof. induction 1 as [|i l H _ IH]; [reflexivity|]. cbn [map]. rewrite IH. unfold disable. now rewrite H. Qed.
Lemma reads_stable act t s : reads t s -> read_at act t s = Some s.
Proof.
  intros (above & g & below & -> & G & F). unfold read_at.
  rewrite (locate_app false t above g below); [|apply Forall_forall; intros i Hi; exact (proj1 (proj1 (Forall_forall _ _) F i Hi))|exact G].
  rewrite disable_id by (apply Forall_forall; intros i Hi; exact (proj2 (proj1 (Forall_forall _ _) F i Hi))).
  replace (existsb _ above) with false; [reflexivity|]. symmetry. induction F as [|i r [_ U] _ IH]; [reflexivity|].
  cbn [existsb]. now rewrite U, IH.
Qed.
Lemma read_reads act t s s' : read_at act t s = Some s' -> reads t s'.
Proof.
  unfold read_at. destruct (locate false t s) as [[[above g] below]|] eqn:E; [|discriminate]. apply locate_some in E as (-> & G & F).
  destruct (existsb _ above); [discriminate|]. intro H. injection H as <-. exists (map disable above), g, below.
  split; [reflexivity|]. split; [exact G|]. apply Forall_forall. intros i Hi. apply in_map_iff in Hi as (j & <- & Hj).
  assert (Gj := proj1 (Forall_forall _ _) F j Hj). unfold disable. destruct (is_unique j) eqn:U; [|auto].
  unfold grants, is_unique. cbn. now rewrite andb_false_r.
Qed.
Lemma wtop_reads t s : wtop t s -> reads t s.
Proof.
  intros (g & r & -> & G). exists [], g, r. split; [reflexivity|]. split; [|constructor]. revert G. unfold grants.
  destruct (i_tag g =? t), (i_perm g); auto.
Qed.
Lemma wtop_stable act t s : wtop t s -> write_at act t s = Some s.
Proof.
  intros (g & r & -> & G). unfold write_at. cbn [locate]. rewrite G. unfold split_above. now destruct (is_shared_rw g).
Qed.
Lemma reads_app t x s : Forall (fun i => i_perm i = SharedRO /\ i_tag i <> t) x -> reads t s -> reads t (x ++ s).
Proof.
  intros H (above & g & below & -> & G & F). exists (x ++ above), g, below. rewrite app_assoc. split; [reflexivity|]. split; [exact G|].
  apply Forall_app. split; [|exact F]. apply Forall_forall. intros i Hi. destruct (proj1 (Forall_forall _ _) H i Hi) as [P T].
  unfold grants, is_unique. rewrite P. split; [|reflexivity]. now rewrite (proj2 (Nat.eqb_neq _ _) T).
Qed.
Lemma reads_top t s call : reads t ({| i_perm := SharedRO; i_tag := t; i_call := call |} :: s).
Proof.
  exists [], {| i_perm := SharedRO; i_tag := t; i_call := call |}, s. split; [reflexivity|]. unfold grants. cbn. rewrite Nat.eqb_refl. auto.
Qed.

(** ** The same stacks everywhere *)
Definition same (s s' : borrows) : Prop :=
  (forall b o, stacks s' b o = stacks s b o) /\ fresh s' = fresh s /\ active s' = active s.
Lemma same_refl s : same s s. Proof. repeat split. Qed.
Lemma same_sym s s' : same s s' -> same s' s. Proof. intros (A & B & C). repeat split; auto. Qed.
Lemma same_trans s1 s2 s3 : same s1 s2 -> same s2 s3 -> same s1 s3.
Proof. intros (A & B & C) (A' & B' & C'). split; [|split]; [intros b o; now rewrite A', A|congruence|congruence]. Qed.

Lemma in_range_iff b o n b' o' : in_range b o n b' o' = true <-> b' = b /\ o <= o' < o + n.
Proof. unfold in_range. lia. Qed.
Lemma across_ok st q n f (h : nat -> stack) : (forall i, i < n -> f (st (fst q) (snd q + i)) = Some (h i)) ->
  exists st', across st q n f = Some st' /\ (forall i, i < n -> st' (fst q) (snd q + i) = h i) /\
    (forall b o, in_range (fst q) (snd q) n b o = false -> st' b o = st b o).
Proof.
  intro H. unfold across. replace (forallb _ (seq 0 n)) with true.
  - eexists. split; [reflexivity|]. split.
    + intros i Hi. cbv beta. rewrite (proj2 (in_range_iff _ _ _ _ _)) by lia. now rewrite H.
    + intros b o E. cbv beta. now rewrite E.
  - symmetry. apply forallb_forall. intros i Hi. apply in_seq in Hi. now rewrite H by lia.
Qed.
Lemma across_some st q n f st' : across st q n f = Some st' ->
  (forall i, i < n -> f (st (fst q) (snd q + i)) = Some (st' (fst q) (snd q + i))) /\
  (forall b o, in_range (fst q) (snd q) n b o = false -> st' b o = st b o).
Proof.
  unfold across. destruct (forallb _ _) eqn:E; [|discriminate]. intro H. injection H as <-. rewrite forallb_forall in E. split.
  - intros i Hi. rewrite (proj2 (in_range_iff _ _ _ _ _)) by lia. specialize (E i ltac:(apply in_seq; lia)).
    destruct (f (st (fst q) (snd q + i))); [reflexivity|discriminate E].
  - intros b o Hr. now rewrite Hr.
Qed.
Lemma across_same st1 st2 q n f st' : (forall b o, st2 b o = st1 b o) -> across st1 q n f = Some st' ->
  exists st'', across st2 q n f = Some st'' /\ forall b o, st'' b o = st' b o.
Proof.
  intros H E. apply across_some in E as [E1 E2]. destruct (across_ok st2 q n f (fun i => st' (fst q) (snd q + i))) as (st'' & A & B & C).
  - intros i Hi. rewrite H. now apply E1.
  - exists st''. split; [exact A|]. intros b o. destruct (in_range (fst q) (snd q) n b o) eqn:R.
    + apply in_range_iff in R as [-> R]. replace o with (snd q + (o - snd q)) by lia. apply B. lia.
    + now rewrite C, E2, H.
Qed.
Lemma perform_same x s1 s2 t s1' : same s1 s2 -> perform x s1 = Some (t, s1') -> exists s2', perform x s2 = Some (t, s2') /\ same s1' s2'.
Proof.
  intros (HS & HF & HA) E. destruct x as [| |k param u q n]; cbn [perform] in *; rewrite ?HF, ?HA.
  - injection E as <- <-. eexists. split; [reflexivity|]. repeat split; cbn; congruence || auto.
  - destruct (active s1); [discriminate E|]. injection E as <- <-. eexists. split; [reflexivity|]. repeat split; auto.
  - destruct (across (stacks s1) q n _) as [st|] eqn:EA; [|discriminate E]. injection E as <- <-.
    destruct (across_same _ (stacks s2) _ _ _ _ HS EA) as (st' & -> & Hst). eexists. split; [reflexivity|]. repeat split; auto.
Qed.
Lemma put_stable s q n f : (forall i, i < n -> f (stacks s (fst q) (snd q + i)) = Some (stacks s (fst q) (snd q + i))) ->
  exists s', put s (across (stacks s) q n f) = Some s' /\ same s s'.
Proof.
  intro H. destruct (across_ok (stacks s) q n f _ H) as (st & -> & A & B). eexists. split; [reflexivity|]. repeat split. cbn.
  intros b o. destruct (in_range (fst q) (snd q) n b o) eqn:R; [|now apply B]. apply in_range_iff in R as [-> R].
  replace o with (snd q + (o - snd q)) by lia. apply A. lia.
Qed.

(** ** A piece of code, with part of memory forgotten *)
(** [mm] is [m] with some cells forgotten *)
Definition less (m mm : mem) : Prop :=
  forall b, length (mm b) = length (m b) /\ forall o x, nth_error (mm b) o = Some (Some x) -> nth_error (m b) o = Some (Some x).
Definition init (m : mem) (b o : nat) : Prop := exists x, nth_error (m b) o = Some (Some x).
Lemma less_refl m : less m m. Proof. intro b. auto. Qed.
Lemma less_load q n m mm l mm' : less m mm -> load q n mm = Ret l mm' -> load q n m = Ret l m /\ mm' = mm /\ forall i, i < n -> init mm (fst q) (snd q + i).
Proof.
  intros HL E. apply load_ret in E as (-> & L & E). destruct (HL (fst q)) as [HN HC].
  assert (HI : forall i, i < n -> init mm (fst q) (snd q + i)).
  { intros i Hi. destruct (sequence_some _ _ i E) as [y Hy]. { rewrite firstn_length, skipn_length. lia. }
    exists y. rewrite nth_error_firstn, nth_error_skipn in Hy. destruct (i <? n); [exact Hy|discriminate Hy]. }
  split; [|split; [reflexivity|exact HI]]. unfold load. destruct (Nat.leb_spec (snd q + n) (length (m (fst q)))); [|lia].
  rewrite (sequence_ext _ (firstn n (skipn (snd q) (m (fst q)))) _ E); [reflexivity| |].
  - rewrite !firstn_length, !skipn_length. lia.
  - intros i y. rewrite !nth_error_firstn, !nth_error_skipn. destruct (i <? n); [|easy]. apply HC.
Qed.
Lemma less_store q xs m mm u mm' : less m mm -> store q xs mm = Ret u mm' -> exists m', store q xs m = Ret tt m' /\ less m' mm'.
Proof.
  intros HL E. apply store_ret in E as [L ->]. destruct (HL (fst q)) as [HN HC].
  exists (upd m (fst q) (splice (m (fst q)) (snd q) xs)). split.
  - unfold store. destruct (Nat.leb_spec (snd q + length xs) (length (m (fst q)))); [reflexivity|lia].
  - intro b. unfold upd. destruct (Nat.eqb_spec b (fst q)) as [->|]; [|apply HL]. rewrite !splice_length by lia. split; [exact HN|].
    intros o x. rewrite !splice_nth by lia. destruct ((snd q <=? o) && (o <? snd q + length xs)); [auto|apply HC].
Qed.
Lemma run_init {A} (p : prog A) : forall m a m', run p m = Ret a m' -> forall b o, init m b o -> init m' b o.
Proof.
  intros m a m' E b o [x Hx]. destruct (run_solo_all _ _ _ _ E) as [k S]. exact (solo_init _ _ _ _ _ _ S b o x Hx).
Qed.
Lemma stores_none {A} (Q : A -> Prop) (p : prog A) : stores_in (fun _ => False) Q p -> forall m a m', run p m = Ret a m' -> m' = m.
Proof.
  induction p as [a0|f|b k IH|q n k IH|q xs k IH]; cbn [stores_in run]; intros S m a m' E.
  - now injection E.
  - destruct f; discriminate E.
  - exact (IH _ (S _) _ _ _ E).
  - unfold bind in E. destruct (load q n m) as [l m0| | |] eqn:EL; try discriminate E. apply load_ret in EL as (-> & _).
    exact (IH _ (S _) _ _ _ E).
  - destruct S as [[] _].
Qed.
(** what a view must offer for a byte: [P] holds of the allocations that may be written *)
Definition offers (v : view) (P : nat -> Prop) (s : borrows) (b o : nat) : Prop :=
  exists t, v b = Some t /\ reads t (stacks s b o) /\ (P b -> wtop t (stacks s b o)).
Lemma offers_same v P s s' b o : same s s' -> offers v P s b o -> offers v P s' b o.
Proof. intros (H & _) (t & E & R & W). exists t. rewrite H. auto. Qed.
Lemma exec_ok {A} (Q : A -> Prop) P v (p : prog A) : stores_in P Q p -> forall s m mm y mm', run p mm = Ret y mm' -> less m mm ->
  (forall b o, init mm' b o -> offers v P s b o) -> exists s' m', trun v p s m = Some (y, s', m') /\ same s s' /\ less m' mm'.
Proof.
  induction p as [a0|f|b k IH|q n k IH|q xs k IH]; cbn [stores_in]; intros S s m mm y mm' E HL HV.
  - cbn [run] in E. injection E as <- <-. exists s, m. split; [reflexivity|]. split; [apply same_refl|exact HL].
  - destruct f; discriminate E.
  - cbn [run trun] in *. rewrite (proj1 (HL b)) in E. exact (IH _ (S _) s m mm y mm' E HL HV).
  - cbn [run trun] in *. unfold bind in E. destruct (load q n mm) as [l m0| | |] eqn:EL; try discriminate E.
    destruct (less_load _ _ _ _ _ _ HL EL) as (EL' & -> & HI).
    assert (RI := run_init _ _ _ _ E).
    destruct (put_stable s q n (via (read_at (active s)) (v (fst q)))) as (s1 & E1 & SA).
    { intros i Hi. destruct (HV _ _ (RI _ _ (HI i Hi))) as (t & -> & R & _). now apply reads_stable. }
    unfold tread. rewrite E1, EL'. destruct (IH l (S l) s1 m mm y mm' E HL) as (s' & m' & ET & SA' & HL').
    { intros b o Ho. apply (offers_same _ _ s); auto. }
    exists s', m'. split; [exact ET|]. split; [exact (same_trans _ _ _ SA SA')|exact HL'].
  - cbn [run trun] in *. unfold bind in E. destruct (store q xs mm) as [u m0| | |] eqn:EL; try discriminate E.
    destruct (less_store _ _ _ _ _ _ HL EL) as (m2 & EL' & HL2). destruct S as [HP S].
    assert (RI := run_init _ _ _ _ E).
    destruct (put_stable s q (length xs) (via (write_at (active s)) (v (fst q)))) as (s1 & E1 & SA).
    { intros i Hi. destruct (HV (fst q) (snd q + i)) as (t & -> & _ & W).
      - apply RI. assert (EN : next (Store q xs (Done tt)) mm = Some (Done tt, m0)) by (cbn [next]; now rewrite EL).
        apply (next_written _ _ _ _ EN). split; [reflexivity|lia].
      - apply wtop_stable. now apply W. }
    unfold twrite. rewrite E1, EL'. destruct (IH S s1 m2 m0 y mm' E HL2) as (s' & m' & ET & SA' & HL').
    { intros b o Ho. apply (offers_same _ _ s); auto. }
    exists s', m'. split; [exact ET|]. split; [exact (same_trans _ _ _ SA SA')|exact HL'].
Qed.

Lemma less_trans m1 m2 m3 : less m1 m2 -> less m2 m3 -> less m1 m3.
Proof. intros A B b. destruct (A b) as [A1 A2], (B b) as [B1 B2]. split; [congruence|]. intros o x H. now apply A2, B2. Qed.
Lemma run_less {A} (p : prog A) : forall m mm y mm', less m mm -> run p mm = Ret y mm' -> exists m', run p m = Ret y m' /\ less m' mm'.
Proof.
  induction p as [a0|f|b k IH|q n k IH|q xs k IH]; cbn [run]; intros m mm y mm' HL E.
  - injection E as <- <-. eauto.
  - destruct f; discriminate E.
  - rewrite (proj1 (HL b)) in E. exact (IH _ _ _ _ _ HL E).
  - unfold bind in *. destruct (load q n mm) as [l m0| | |] eqn:EL; try discriminate E. destruct (less_load _ _ _ _ _ _ HL EL) as (-> & -> & _).
    exact (IH _ _ _ _ _ HL E).
  - unfold bind in *. destruct (store q xs mm) as [u m0| | |] eqn:EL; try discriminate E. destruct (less_store _ _ _ _ _ _ HL EL) as (m2 & -> & HL2).
    exact (IH _ _ _ _ HL2 E).
Qed.
Lemma trun_run {A} v (p : prog A) : forall s m y s' m', trun v p s m = Some (y, s', m') -> run p m = Ret y m'.
Proof.
  induction p as [a0|f|b k IH|q n k IH|q xs k IH]; cbn [trun run]; intros s m y s' m' E.
  - injection E as <- <- <-. reflexivity.
  - discriminate E.
  - exact (IH _ _ _ _ _ _ E).
  - destruct (tread _ _ _ _); [|discriminate E]. unfold bind. destruct (load q n m); try discriminate E. exact (IH _ _ _ _ _ _ E).
  - destruct (twrite _ _ _ _); [|discriminate E]. unfold bind. destruct (store q xs m) as [u m0| | |]; try discriminate E. exact (IH _ _ _ _ _ E).
Qed.

(** ** Functions *)
(** The borrows of [x] and its accesses are allowed, in memory [mm] where only the cells are initialised that it may
    read, if at the end only cells in [F] are; and then [Q]. *)
Fixpoint good (F : nat -> nat -> Prop) {A} (x : bcode A) (Q : A -> borrows -> mem -> Prop) (s : borrows) (mm : mem) : Prop :=
  match x with
  | Return a => Q a s mm
  | Borrow y k => match perform y s with Some (t, s') => good F (k t) Q s' mm | None => False end
  | Exec v c k => exists P p, follows c p /\ stores_in P any p /\ forall y mm', c mm = Ret y mm' ->
      ((forall b o, init mm' b o -> F b o) ->
         exists mm0 mm0', less mm mm0 /\ c mm0 = Ret y mm0' /\ forall b o, init mm0' b o -> offers v P s b o) /\ good F (k y) Q s mm'
  end.
Lemma good_mono (F : nat -> nat -> Prop) {A B} (f : A -> B) (x : bcode A) (Q : A -> borrows -> mem -> Prop) : forall c s mm r mmf, annotates f x c ->
  c mm = Ret r mmf -> good F x Q s mm -> forall b o, init mm b o -> init mmf b o.
Proof.
  induction x as [a|y k IH|X v c0 k IH]; cbn [annotates good]; intros c s mm r mmf HA E G b o Hi.
  - rewrite HA in E. now injection E as _ <-.
  - destruct (perform y s) as [[t s']|]; [|contradiction]. exact (IH t c s' mm r mmf (HA t) E G b o Hi).
  - destruct HA as (g & HC & HA). destruct G as (P & p & HF & HS & G). rewrite HC in E. unfold bind in E.
    destruct (c0 mm) as [y mm1| | |] eqn:E0; try discriminate E. destruct (G y mm1 eq_refl) as [_ G'].
    apply (IH y (g y) s mm1 r mmf (HA y) E G'). apply (run_init p mm y); [|exact Hi]. now rewrite (follows_imp _ _ HF).
Qed.
Lemma good_runs (F : nat -> nat -> Prop) {A B} (f : A -> B) (x : bcode A) (Q : A -> borrows -> mem -> Prop) :
  (forall a s s' mm, same s s' -> Q a s mm -> Q a s' mm) ->
  forall c s s2 m mm r mmf, annotates f x c -> c mm = Ret r mmf -> (forall b o, init mmf b o -> F b o) -> less m mm ->
  good F x Q s mm -> same s s2 -> exists a s' m', runs x s2 m a s' m' /\ f a = r /\ Q a s' mmf /\ less m' mmf.
Proof.
  intro HQ. induction x as [a|y k IH|X v c0 k IH]; cbn [annotates good]; intros c s s2 m mm r mmf HA E HF HL G SA.
  - rewrite HA in E. injection E as <- <-. exists a, s2, m. split; [constructor|]. split; [reflexivity|]. split; [now apply (HQ a s)|exact HL].
  - destruct (perform y s) as [[t s']|] eqn:EP; [|contradiction]. destruct (perform_same _ _ _ _ _ SA EP) as (s2' & EP' & SA').
    destruct (IH t c s' s2' m mm r mmf (HA t) E HF HL G SA') as (a & s3 & m' & R & H). exists a, s3, m'. split; [|exact H].
    exact (runs_borrow _ _ _ _ _ _ _ _ _ _ EP' R).
  - destruct HA as (g & HC & HA). destruct G as (P & p & FO & HS & G). rewrite HC in E. unfold bind in E.
    destruct (c0 mm) as [y mm1| | |] eqn:E0; try discriminate E. destruct (G y mm1 eq_refl) as [V G'].
    assert (HF1 : forall b o, init mm1 b o -> F b o).
    { intros b o Hi. apply HF. exact (good_mono F f (k y) Q (g y) s mm1 r mmf (HA y) E G' b o Hi). }
    destruct (V HF1) as (mm0 & mm0' & L0 & E0' & V0).
    destruct (exec_ok _ P v p HS s2 m mm0 y mm0') as (s3 & m1 & ET & SA3 & _).
    { now rewrite (follows_imp _ _ FO). } { exact (less_trans _ _ _ HL L0). } { intros b o Hi. apply (offers_same _ _ s); [exact SA|]. now apply V0. }
    assert (HL1 : less m1 mm1).
    { rewrite <- (follows_imp _ _ FO) in E0. destruct (run_less p _ _ _ _ HL E0) as (m1' & E1 & HL1).
      rewrite (trun_run _ _ _ _ _ _ _ ET) in E1. injection E1 as ->. exact HL1. }
    destruct (IH y (g y) s s3 m1 mm1 r mmf (HA y) E HF HL1 G' (same_trans _ _ _ SA SA3)) as (a & s4 & m' & R & H).
    exists a, s4, m'. split; [|exact H]. exact (runs_exec _ _ _ _ _ _ _ _ _ _ _ _ _ _ FO ET R).
Qed.
Lemma runs_code {A B} (f : A -> B) (x : bcode A) s m a s' m' : runs x s m a s' m' -> forall c, annotates f x c -> c m = Ret (f a) m'.
Proof.
  induction 1 as [A a s m|A x k s m t s1 a s' m' E R IH|A X v c k p s m y s1 m1 a s' m' FO ET R IH]; cbn [annotates]; intros c0 HA.
  - apply HA.
  - now apply (IH f).
  - destruct HA as (g & HC & HA). rewrite HC. unfold bind. rewrite <- (follows_imp _ _ FO), (trun_run _ _ _ _ _ _ _ ET). now apply (IH f).
Qed.
Lemma good_bind (F : nat -> nat -> Prop) {A B} (x : bcode A) (g : A -> bcode B) Q : forall s mm,
  good F (bbind x g) Q s mm <-> good F x (fun a s' mm' => good F (g a) Q s' mm') s mm.
Proof.
  induction x as [a|y k IH|X v c0 k IH]; cbn [bbind good]; intros s mm; [tauto| |].
  - destruct (perform y s) as [[t s']|]; [apply IH|tauto].
  - split; intros (P & p & FO & HS & G); exists P, p; (split; [exact FO|]; split; [exact HS|]); intros y mm' E; destruct (G y mm' E) as [V G'];
      (split; [exact V|]); now apply IH.
Qed.
Lemma good_imp (F : nat -> nat -> Prop) {A} (x : bcode A) (Q Q' : A -> borrows -> mem -> Prop) : (forall a s mm, Q a s mm -> Q' a s mm) -> forall s mm, good F x Q s mm -> good F x Q' s mm.
Proof.
  intro H. induction x as [a|y k IH|X v c0 k IH]; cbn [good]; intros s mm G; [auto| |].
  - destruct (perform y s) as [[t s']|]; [now apply IH|exact G].
  - destruct G as (P & p & FO & HS & G). exists P, p. split; [exact FO|]. split; [exact HS|]. intros y mm' E. destruct (G y mm' E) as [V G'].
    split; [exact V|]. now apply IH.
Qed.
Lemma runs_bind {A B} (x : bcode A) (g : A -> bcode B) s m a s1 m1 b s2 m2 : runs x s m a s1 m1 -> runs (g a) s1 m1 b s2 m2 ->
  runs (bbind x g) s m b s2 m2.
Proof.
  induction 1 as [A a s m|A x k s m t s1 a s' m' E R IH|A X v c k p s m y s1 m1 a s' m' FO ET R IH]; cbn [bbind]; intro H; [exact H| |].
  - exact (runs_borrow _ _ _ _ _ _ _ _ _ _ E (IH _ H)).
  - exact (runs_exec _ _ _ _ _ _ _ _ _ _ _ _ _ _ FO ET (IH _ H)).
Qed.
(** It is enough to look at the part of memory that [x] may access. *)
Lemma good_local (F F' : nat -> nat -> Prop) {A B} (f : A -> B) (x : bcode A) (Q Q' : A -> borrows -> mem -> Prop) :
  (forall a s mm0 mm, less mm mm0 -> Q a s mm0 -> Q' a s mm) ->
  forall c s mm mm0 r mmf, annotates f x c -> c mm0 = Ret r mmf -> (forall b o, init mmf b o -> F b o) -> less mm mm0 ->
  good F x Q s mm0 -> good F' x Q' s mm.
Proof.
  intro HQ. induction x as [a|y k IH|X v c0 k IH]; cbn [annotates good]; intros c s mm mm0 r mmf HA E HF HL G.
  - now apply (HQ a s mm0).
  - destruct (perform y s) as [[t s']|]; [|contradiction]. exact (IH t c s' mm mm0 r mmf (HA t) E HF HL G).
  - destruct HA as (g & HC & HA). destruct G as (P & p & FO & HS & G). exists P, p. split; [exact FO|]. split; [exact HS|].
    rewrite HC in E. unfold bind in E. destruct (c0 mm0) as [y mm1| | |] eqn:E0; try discriminate E. destruct (G y mm1 eq_refl) as [V G'].
    assert (E0' := E0). rewrite <- (follows_imp _ _ FO) in E0'. destruct (run_less p _ _ _ _ HL E0') as (m1 & E1 & HL1).
    rewrite (follows_imp _ _ FO) in E1. intros y' mm' E2. rewrite E1 in E2. injection E2 as <- <-. split.
    + intros _. destruct V as (m2 & m2' & L2 & R2 & O2).
      { intros b o Hi. apply HF. exact (good_mono F f (k y) Q (g y) s mm1 r mmf (HA y) E G' b o Hi). }
      exists m2, m2'. split; [exact (less_trans _ _ _ HL L2)|]. auto.
    + exact (IH y (g y) s m1 mm1 r mmf (HA y) E HF HL1 G').
Qed.
