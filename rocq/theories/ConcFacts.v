(** Threads whose writes stay away from what other threads access cannot be told apart from threads that run alone. *)
From Coq Require Import ZArith List Bool Lia.
From Verif Require Import Bytes Mem MemFacts Slices Conc.
Import ListNotations.
Open Scope nat_scope. Open Scope m_scope.

(** [solo W k p m a m1]: alone in [m], [p] ends after [k] accesses with [a] and memory [m1], writing only cells in [W]. *)
Inductive solo {A} (W : nat -> nat -> bool) : nat -> prog A -> mem -> A -> mem -> Prop :=
| solo_done a m : solo W 0 (Done a) m a m
| solo_next k p m p' m' a m1 : next p m = Some (p', m') -> (forall b o, next_writes p b o -> W b o = true) ->
    solo W k p' m' a m1 -> solo W (S k) p m a m1.
(** [mm] is [m] with the cells outside [F] forgotten *)
Definition masked (F : nat -> nat -> bool) (m mm : mem) : Prop :=
  forall b, length (mm b) = length (m b) /\
    forall o, o < length (m b) -> nth_error (mm b) o = if F b o then nth_error (m b) o else Some None.
Definition mask (F : nat -> nat -> bool) (m : mem) : mem :=
  fun b => map (fun o => if F b o then nth o (m b) None else None) (seq 0 (length (m b))).

Lemma mask_masked F m : masked F m (mask F m).
Proof.
  intro b. unfold mask. split; [now rewrite map_length, seq_length|]. intros o Ho.
  rewrite nth_error_map. rewrite (nth_error_nth' _ 0) by now rewrite seq_length. cbn [option_map]. rewrite seq_nth by exact Ho.
  cbn [Nat.add]. destruct (F b o); [|reflexivity]. symmetry; now apply nth_error_nth'.
Qed.
Lemma sequence_ext (l l' : list cell) x : sequence l = Some x -> length l' = length l ->
  (forall i y, nth_error l i = Some (Some y) -> nth_error l' i = Some (Some y)) -> sequence l' = Some x.
Proof.
  revert l' x. induction l as [|[c|] l IH]; intros [|c' l'] x E L H; try discriminate L; try discriminate E; [exact E|].
  cbn [sequence] in *. assert (C := H 0 c eq_refl). cbn in C. injection C as ->.
  destruct (sequence l) as [t|] eqn:ET; [|discriminate E]. rewrite (IH l' t eq_refl); [exact E|now injection L|].
  intros i y Hi. exact (H (S i) y Hi).
Qed.
Lemma sequence_some (l : list cell) x i : sequence l = Some x -> i < length l -> exists y, nth_error l i = Some (Some y).
Proof.
  revert x i. induction l as [|[c|] l IH]; intros x i E L; [cbn in L; lia| |discriminate E].
  destruct i as [|i]; [now exists c|]. cbn [sequence] in E. destruct (sequence l) as [t|]; [|discriminate E].
  apply (IH t i eq_refl). cbn in L. lia.
Qed.

(** ** One access of one thread *)
Lemma load_ret q n m l m' : load q n m = Ret l m' ->
  m' = m /\ snd q + n <= length (m (fst q)) /\ sequence (firstn n (skipn (snd q) (m (fst q)))) = Some l.
Proof.
  unfold load. destruct (Nat.leb_spec (snd q + n) (length (m (fst q)))); [|discriminate].
  destruct (sequence _) eqn:E; [|discriminate]. intro H1. injection H1 as -> ->. auto.
Qed.
Lemma store_ret q xs m u m' : store q xs m = Ret u m' ->
  snd q + length xs <= length (m (fst q)) /\ m' = upd m (fst q) (splice (m (fst q)) (snd q) xs).
Proof. unfold store. destruct (Nat.leb_spec (snd q + length xs) (length (m (fst q)))); [|discriminate]. intro H1. now injection H1 as _ <-. Qed.

(** the cells that an access does not write stay as they are *)
Lemma next_frame {A} (p : prog A) m p' m' : next p m = Some (p', m') ->
  (forall b, length (m' b) = length (m b)) /\ (forall b o, ~ next_writes p b o -> nth_error (m' b) o = nth_error (m b) o).
Proof.
  destruct p as [a|f|b k|q n k|q xs k]; cbn [next next_writes]; intro H; try discriminate H.
  - injection H as <- <-. auto.
  - destruct (load q n m) eqn:E; try discriminate H. injection H as <- <-. auto.
  - destruct (store q xs m) eqn:E; try discriminate H. injection H as <- <-. apply store_ret in E as [L ->]. split.
    + intro b. unfold upd. destruct (Nat.eqb_spec b (fst q)) as [->|]; [now apply splice_length|reflexivity].
    + intros b o N. unfold upd. destruct (Nat.eqb_spec b (fst q)) as [->|]; [|reflexivity]. rewrite splice_nth by exact L.
      destruct (Nat.leb_spec (snd q) o), (Nat.ltb_spec o (snd q + length xs)); cbn [andb]; auto. exfalso. apply N. auto.
Qed.
(** an access that succeeds with part of memory forgotten is an access to the rest of it *)
Lemma next_masked {A} F (p : prog A) m mm p' mm' : masked F m mm -> next p mm = Some (p', mm') ->
  (forall b o, next_writes p b o -> F b o = true) ->
  (forall b o, next_reads p b o -> F b o = true) /\ exists m', next p m = Some (p', m') /\ masked F m' mm'.
Proof.
  intros HM. destruct p as [a|f|b k|q n k|q xs k]; cbn [next next_writes next_reads]; intros H HW; try discriminate H.
  - injection H as <- <-. split; [easy|]. exists m. split; [|exact HM]. now rewrite (proj1 (HM b)).
  - destruct (load q n mm) as [l m0| | |] eqn:E; try discriminate H. injection H as <- <-. apply load_ret in E as (-> & L & E).
    destruct (HM (fst q)) as [HL HN].
    assert (HI : forall i, i < n -> exists y, nth_error (mm (fst q)) (snd q + i) = Some (Some y)).
    { intros i Hi. destruct (sequence_some _ _ i E) as [y Hy]. { rewrite firstn_length, skipn_length. lia. }
      exists y. rewrite nth_error_firstn, nth_error_skipn in Hy. destruct (i <? n); [exact Hy|discriminate Hy]. }
    assert (HF : forall i, i < n -> F (fst q) (snd q + i) = true).
    { intros i Hi. destruct (HI i Hi) as [y Hy]. rewrite HN in Hy by lia. destruct (F (fst q) (snd q + i)); [reflexivity|discriminate Hy]. }
    split. { intros b o [-> Ho]. replace o with (snd q + (o - snd q)) by lia. apply HF. lia. }
    exists m. split; [|exact HM]. unfold load. destruct (Nat.leb_spec (snd q + n) (length (m (fst q)))); [|lia].
    rewrite (sequence_ext _ (firstn n (skipn (snd q) (m (fst q)))) _ E); [reflexivity| |].
    + rewrite !firstn_length, !skipn_length. lia.
    + intros i y. rewrite !nth_error_firstn, !nth_error_skipn. destruct (Nat.ltb_spec i n); [|easy].
      rewrite HN by lia. now rewrite HF by lia.
  - destruct (store q xs mm) as [u m0| | |] eqn:E; try discriminate H. injection H as <- <-. apply store_ret in E as (L & ->).
    split; [easy|]. destruct (HM (fst q)) as [HL HN].
    exists (upd m (fst q) (splice (m (fst q)) (snd q) xs)). split.
    + unfold store. destruct (Nat.leb_spec (snd q + length xs) (length (m (fst q)))); [reflexivity|lia].
    + intro b. unfold upd. destruct (Nat.eqb_spec b (fst q)) as [->|]; [|apply HM]. rewrite !splice_length by lia. split; [exact HL|].
      intros o Ho. rewrite !splice_nth by lia.
      destruct (Nat.leb_spec (snd q) o), (Nat.ltb_spec o (snd q + length xs)); cbn [andb]; try (now apply HN).
      rewrite HW by (split; [reflexivity|lia]). reflexivity.
Qed.
(** accesses of others outside [F] cannot be seen *)
Lemma masked_other F m m' mm (P : nat -> nat -> Prop) : masked F m mm -> (forall b, length (m' b) = length (m b)) ->
  (forall b o, ~ P b o -> nth_error (m' b) o = nth_error (m b) o) -> (forall b o, P b o -> F b o = false) -> masked F m' mm.
Proof.
  intros HM HL HN HP b. destruct (HM b) as [L N]. rewrite HL. split; [exact L|]. intros o Ho. rewrite N by exact Ho.
  destruct (F b o) eqn:E; [|reflexivity]. symmetry. apply HN. intro H. apply HP in H. congruence.
Qed.

(** ** All threads *)
Fixpoint total (n : nat) (f : nat -> nat) : nat := match n with 0 => 0 | S n => total n f + f n end.
Lemma total_dec n f g i : i < n -> f i = S (g i) -> (forall j, j <> i -> f j = g j) -> total n f = S (total n g).
Proof.
  intros Hi Ei Ej. induction n as [|n IH]; [lia|]. cbn [total]. destruct (Nat.eq_dec i n) as [<-|N].
  - rewrite Ei. assert (H : total i f = total i g); [|lia]. clear Hi IH.
    assert (G : forall j, j < i -> f j = g j) by (intros j Hj; apply Ej; lia). clear Ej Ei.
    induction i as [|i IH]; [reflexivity|]. cbn [total]. rewrite G by lia. f_equal. apply IH. intros j Hj. apply G. lia.
  - rewrite IH by lia. rewrite (Ej n) by auto. reflexivity.
Qed.
Lemma total_zero n f : (forall i, i < n -> f i = 0) -> total n f = 0.
Proof. induction n as [|n IH]; intro H; [reflexivity|]. cbn [total]. rewrite H by lia. rewrite IH; auto. Qed.
Lemma total_none n f : total n f = 0 -> forall i, i < n -> f i = 0.
Proof.
  induction n as [|n IH]; intros H i Hi; [lia|]. cbn [total] in H. destruct (Nat.eq_dec i n) as [->|]; [lia|]. apply IH; lia.
Qed.

Record separated (n : nat) (F W : nat -> nat -> nat -> bool) : Prop := {
  sep_incl : forall i b o, i < n -> W i b o = true -> F i b o = true;
  sep_other : forall i j b o, i < n -> j < n -> i <> j -> W i b o = true -> F j b o = false }.

(** after some steps, each thread still has to do the rest of what it would have done alone *)
Definition on_course (n : nat) (F W : nat -> nat -> nat -> bool) (m1 : nat -> mem) (m0 : mem) (left : nat) (ps : threads) (m : mem) : Prop :=
  exists (cs : nat -> nat) (mms : nat -> mem),
    (forall i, i < n -> masked (F i) m (mms i) /\ solo (W i) (cs i) (ps i) (mms i) tt (m1 i)) /\
    (forall b, length (m b) = length (m0 b)) /\
    (forall b o, (forall i, i < n -> W i b o = false) -> nth_error (m b) o = nth_error (m0 b) o) /\
    total n cs = left.

Lemma on_course_step n F W m1 m0 left ps m i p m' : separated n F W -> on_course n F W m1 m0 left ps m ->
  i < n -> next (ps i) m = Some (p, m') -> exists left', left = S left' /\ on_course n F W m1 m0 left' (set_thread ps i p) m'.
Proof.
  intros SEP (cs & mms & HS & HL & HO & HT) Hi HN. destruct (HS i Hi) as [HM SO].
  destruct (next_frame _ _ _ _ HN) as [FL FN].
  inversion SO as [a mm Ec Ep Em Ea Ea'|k q mm q' mm' a mm1 E1 E2 E3 Ek Eq Emm Ea Em1].
  { rewrite <- Ep in HN. discriminate HN. }
  subst. assert (HW : forall b o, next_writes (ps i) b o -> F i b o = true) by (intros b o H; apply (sep_incl _ _ _ SEP); auto).
  destruct (next_masked _ _ _ _ _ _ HM E1 HW) as [_ (m'' & E' & HM')]. rewrite HN in E'. injection E' as <- <-.
  exists (total n (fun j => if Nat.eqb j i then k else cs j)).
  split. { apply total_dec with (i := i); [exact Hi|now rewrite Nat.eqb_refl|]. intros j Hj. now rewrite (proj2 (Nat.eqb_neq j i)). }
  exists (fun j => if Nat.eqb j i then k else cs j), (fun j => if Nat.eqb j i then mm' else mms j).
  split; [|split; [|split; [|reflexivity]]].
  - intros j Hj. unfold set_thread. destruct (Nat.eqb_spec j i) as [->|N]; [now split|]. destruct (HS j Hj) as [HMj SOj].
    split; [|exact SOj]. apply (masked_other _ _ _ _ (next_writes (ps i)) HMj FL FN).
    intros b o H. apply E2 in H. apply (sep_other _ _ _ SEP i j); auto.
  - intro b. now rewrite FL.
  - intros b o H. rewrite <- HO by exact H. apply FN. intro HWr. apply E2 in HWr. rewrite H in HWr by exact Hi. discriminate HWr.
Qed.
Lemma on_course_steps n F W m1 m0 N k ps m ps' m' : separated n F W -> on_course n F W m1 m0 N ps m ->
  steps n k ps m ps' m' -> exists left, N = k + left /\ on_course n F W m1 m0 left ps' m'.
Proof.
  intros SEP HC ST. induction ST as [ps m|k ps m ps1 m' i p m'' ST IH Hi HN]; [now exists N|].
  destruct (IH HC) as (left & E & HC'). destruct (on_course_step _ _ _ _ _ _ _ _ _ _ _ SEP HC' Hi HN) as (l' & -> & HC'').
  exists l'. split; [lia|exact HC''].
Qed.

(** In the end each thread's part of memory is what the thread would have left there alone. *)
Definition final (n : nat) (F W : nat -> nat -> nat -> bool) (m1 : nat -> mem) (m m' : mem) : Prop :=
  (forall b, length (m' b) = length (m b)) /\
  (forall i b o, i < n -> F i b o = true -> nth_error (m' b) o = nth_error (m1 i b) o) /\
  (forall b o, (forall i, i < n -> W i b o = false) -> nth_error (m' b) o = nth_error (m b) o).
Lemma solo_length {A} W k (p : prog A) m a m1 : solo W k p m a m1 -> forall b, length (m1 b) = length (m b).
Proof. induction 1 as [|k p m p' m' a m1 E _ _ IH]; intro b; [reflexivity|]. rewrite IH. apply (next_frame _ _ _ _ E). Qed.

Theorem interleave n F W m1 ps m : separated n F W ->
  (forall i, i < n -> exists k mm, masked (F i) m mm /\ solo (W i) k (ps i) mm tt (m1 i)) ->
  undisturbed n ps m (final n F W m1 m).
Proof.
  intros SEP HS.
  assert (HC : exists N, on_course n F W m1 m N ps m).
  { assert (G : forall n', n' <= n -> exists cs mms, forall i, i < n' -> masked (F i) m (mms i) /\ solo (W i) (cs i) (ps i) (mms i) tt (m1 i)).
    { induction n' as [|n' IH]; intro L; [exists (fun _ => 0), (fun _ => m); lia|].
      destruct (IH ltac:(lia)) as (cs & mms & H). destruct (HS n' ltac:(lia)) as (k & mm & H1 & H2).
      exists (fun j => if Nat.eqb j n' then k else cs j), (fun j => if Nat.eqb j n' then mm else mms j).
      intros i Hi. destruct (Nat.eqb_spec i n') as [->|]; [now split|]. apply H. lia. }
    destruct (G n (le_n n)) as (cs & mms & H). exists (total n cs), cs, mms. auto. }
  destruct HC as [N HC]. exists N. intros k ps' m' ST.
  destruct (on_course_steps _ _ _ _ _ _ _ _ _ _ _ SEP HC ST) as (left & -> & cs & mms & HS' & HL & HO & HT).
  assert (ACC : forall i, i < n -> (forall b o, next_writes (ps' i) b o -> W i b o = true) /\ (forall b o, next_reads (ps' i) b o -> F i b o = true) /\
                 (ps' i = Done tt /\ cs i = 0 \/ cs i <> 0 /\ exists s, next (ps' i) m' = Some s)).
  { intros i Hi. destruct (HS' i Hi) as [HM SO].
    inversion SO as [a mm Ec Ep Em Ea Ea'|k' q mm q' mm' a mm1 E1 E2 E3 Ek Eq Emm Ea Em1].
    - cbn [next_writes next_reads]. split; [easy|]. split; [easy|]. left. now destruct a.
    - assert (HW : forall b o, next_writes (ps' i) b o -> F i b o = true) by (intros b o H; apply (sep_incl _ _ _ SEP); auto).
      destruct (next_masked _ _ _ _ _ _ HM E1 HW) as [HR (m'' & E' & HM')]. split; [exact E2|]. split; [exact HR|]. right. split; [lia|]. eauto. }
  split; [lia|]. split; [|split; [|split]].
  - intros (i & j & b & o & Hi & Hj & Nij & HW & HA). apply (ACC i Hi) in HW.
    assert (FJ := sep_other _ _ _ SEP i j b o Hi Hj Nij HW). destruct HA as [HA|HA].
    + apply (ACC j Hj) in HA. congruence.
    + apply (ACC j Hj) in HA. apply (sep_incl _ _ _ SEP) in HA; auto. congruence.
  - intros (i & Hi & ND & NN). destruct (ACC i Hi) as (_ & _ & [[D _]|[_ [s D]]]); congruence.
  - rewrite <- HT. split.
    + intro AD. rewrite total_zero; [lia|]. intros i Hi. destruct (ACC i Hi) as (_ & _ & [[_ D]|[_ [s D]]]); [exact D|].
      rewrite AD in D by exact Hi. discriminate D.
    + intros E i Hi. assert (Z : total n cs = 0) by lia. assert (Zi := total_none _ _ Z i Hi).
      destruct (ACC i Hi) as (_ & _ & [[D _]|[D _]]); [exact D|contradiction].
  - intro AD. split; [exact HL|]. split; [|exact HO]. intros i b o Hi HF. destruct (HS' i Hi) as [HM SO]. rewrite AD in SO by exact Hi.
    inversion SO as [a mm Ec Ep Em Ea Ea'|k' q mm q' mm' a mm1 E1 E2 E3 Ek Eq Emm Ea Em1]; [|discriminate E1].
    subst. destruct (HM b) as [L G]. destruct (Nat.lt_ge_cases o (length (m' b))) as [Lo|Lo].
    + rewrite G by exact Lo. now rewrite HF.
    + rewrite !(proj2 (nth_error_None _ _)); [reflexivity|rewrite L; exact Lo|exact Lo].
Qed.

(** ** From [run] to [solo]: a program that ends alone, with everything outside [F] forgotten at the beginning and at the
    end, did not write outside [F] *)
Lemma next_init {A} (p : prog A) m p' m' : next p m = Some (p', m') ->
  forall b o x, nth_error (m b) o = Some (Some x) -> exists y, nth_error (m' b) o = Some (Some y).
Proof.
  destruct p as [a|f|b k|q n k|q xs k]; cbn [next]; intro H; try discriminate H.
  - injection H as <- <-. eauto.
  - destruct (load q n m) eqn:E; try discriminate H. injection H as <- <-. eauto.
  - destruct (store q xs m) eqn:E; try discriminate H. injection H as <- <-. apply store_ret in E as [L ->].
    intros b o x Hx. unfold upd. destruct (Nat.eqb_spec b (fst q)) as [->|]; [|eauto]. rewrite splice_nth by exact L.
    destruct (Nat.leb_spec (snd q) o), (Nat.ltb_spec o (snd q + length xs)); cbn [andb]; eauto.
    destruct (nth_error xs (o - snd q)) eqn:E; [eauto|]. apply nth_error_None in E. lia.
Qed.
Lemma next_run {A} (p : prog A) m a m1 : run p m = Ret a m1 ->
  (p = Done a /\ m1 = m) \/ exists p' m', next p m = Some (p', m') /\ run p' m' = Ret a m1.
Proof.
  destruct p as [a0|f|b k|q n k|q xs k]; cbn [run next]; intro H.
  - injection H as -> ->. auto.
  - destruct f; discriminate H.
  - right. eauto.
  - unfold bind in H. destruct (load q n m) as [l m0| | |] eqn:E; try discriminate H. apply load_ret in E as (-> & _). right. eauto.
  - unfold bind in H. destruct (store q xs m) as [l m0| | |] eqn:E; try discriminate H. right. eauto.
Qed.
Lemma next_written {A} (p : prog A) m p' m' : next p m = Some (p', m') ->
  forall b o, next_writes p b o -> exists y, nth_error (m' b) o = Some (Some y).
Proof.
  destruct p as [a|f|b k|q n k|q xs k]; cbn [next next_writes]; intros H c o HW; try contradiction.
  destruct (store q xs m) eqn:E; try discriminate H. injection H as <- <-. apply store_ret in E as [L ->]. destruct HW as [-> Ho].
  unfold upd. rewrite Nat.eqb_refl, splice_nth by exact L. destruct (Nat.leb_spec (snd q) o), (Nat.ltb_spec o (snd q + length xs)); try lia. cbn [andb].
  destruct (nth_error xs (o - snd q)) eqn:E; [eauto|]. apply nth_error_None in E. lia.
Qed.
Lemma solo_init {A} W k (p : prog A) m a m1 : solo W k p m a m1 ->
  forall b o x, nth_error (m b) o = Some (Some x) -> exists y, nth_error (m1 b) o = Some (Some y).
Proof.
  induction 1 as [|k p m p' m' a m1 E _ _ IH]; intros b o x Hx; [eauto|].
  destruct (next_init _ _ _ _ E b o x Hx) as [y Hy]. eauto.
Qed.
Lemma run_solo_all {A} (p : prog A) : forall m a m1, run p m = Ret a m1 -> exists k, solo (fun _ _ => true) k p m a m1.
Proof.
  induction p as [a0|f|b k IH|q n k IH|q xs k IH]; intros m a m1 H; apply next_run in H as [[E ->]|(p' & m' & E & R)];
    try (rewrite E; exists 0; constructor); try (cbn [next] in E; discriminate E); try discriminate E.
  - assert (E0 := E). cbn [next] in E. injection E as <- <-. destruct (IH _ _ _ _ R) as [j SO]. exists (S j). now apply (solo_next _ _ _ _ _ _ _ _ E0).
  - assert (E0 := E). cbn [next] in E. destruct (load q n m); try discriminate E. injection E as <- <-.
    destruct (IH _ _ _ _ R) as [j SO]. exists (S j). now apply (solo_next _ _ _ _ _ _ _ _ E0).
  - assert (E0 := E). cbn [next] in E. destruct (store q xs m); try discriminate E. injection E as <- <-.
    destruct (IH _ _ _ R) as [j SO]. exists (S j). now apply (solo_next _ _ _ _ _ _ _ _ E0).
Qed.
Lemma solo_narrow {A} k (p : prog A) m a m1 (W : nat -> nat -> bool) : solo (fun _ _ => true) k p m a m1 ->
  (forall b o x, nth_error (m1 b) o = Some (Some x) -> W b o = true) -> solo W k p m a m1.
Proof.
  induction 1 as [|k p m p' m' a m1 E _ S IH]; intro H; [constructor|]. apply (solo_next _ _ _ _ _ _ _ _ E); [|now apply IH].
  intros b o HW. destruct (next_written _ _ _ _ E b o HW) as [y Hy]. destruct (solo_init _ _ _ _ _ _ S b o y Hy) as [z Hz]. eauto.
Qed.
