(** From two allocations (PropBorrows.v) to two parts of one *)
From Coq Require Import ZArith List Bool Lia ZifyBool ZifyNat.
From Verif Require Import Bytes Mem MemFacts Slices Codec Conc ConcFacts Borrows BorrowsApi BorrowsFacts Rename BorrowsParts.
Import ListNotations.
Open Scope nat_scope. Open Scope m_scope. Open Scope borrow_scope.

Lemma trun_fresh {A} v (p : prog A) : forall s m a s' m', trun v p s m = Some (a, s', m') -> fresh s' = fresh s.
Proof.
  induction p as [a0|f|b k IH|q n k IH|q xs k IH]; intros s m a s' m' E; cbn [trun] in E.
  - now injection E as _ <- _.
  - discriminate E.
  - exact (IH _ _ _ _ _ _ E).
  - unfold tread, put in E. destruct (across _ q n _); [|discriminate E]. destruct (load q n m); try discriminate E. exact (IH _ _ _ _ _ _ E).
  - unfold twrite, put in E. destruct (across _ q _ _); [|discriminate E]. destruct (store q xs m); try discriminate E. exact (IH _ _ _ _ _ E).
Qed.
Lemma runs_fresh {A} (x : bcode A) s m a s' m' : runs x s m a s' m' -> fresh s <= fresh s'.
Proof.
  induction 1 as [A a s m|A x k s m t s1 a s' m' E _ IH|A X v c k p s m y s1 m1 a s' m' HF E _ IH]; [lia| |].
  - assert (fresh s <= fresh s1); [|lia]. destruct x as [| |w param u q n]; cbn [perform] in E.
    + injection E as _ <-. cbn. lia.
    + destruct (active s); [discriminate E|]. injection E as _ <-. cbn. lia.
    + destruct (across _ q n _); [|discriminate E]. injection E as _ <-. cbn. lia.
  - apply trun_fresh in E. lia.
Qed.

Section Parts.
Variable g : nat -> nat.
(** the cells that belong to the slices, by name *)
Variable area : nat -> nat -> bool.
Variables (s0 : borrows) (m0 : mem).
Hypothesis apart_areas : forall x y i, area x i = true -> area y i = true -> g x = g y -> x = y.

Record parts (sl : borrows) (ml : mem) (sr : borrows) (mr : mem) : Prop := {
  pt_fresh : fresh sr = fresh sl;
  pt_active : active sr = active sl;
  pt_stack : forall x i, area x i = true -> stacks sr (g x) i = stacks sl x i;
  pt_empty : forall x i, area x i = false -> stacks sl x i = [];
  pt_len : forall x, length (mr (g x)) = length (ml x);
  pt_cell : forall x i, area x i = true -> nth_error (mr (g x)) i = nth_error (ml x) i;
  pt_stack_out : forall y i, (forall x, g x = y -> area x i = false) -> stacks sr y i = stacks s0 y i;
  pt_cell_out : forall y i, (forall x, g x = y -> area x i = false) -> nth_error (mr y) i = nth_error (m0 y) i }.

Lemma across_parts sl ml sr mr q n f st : parts sl ml sr mr -> f [] = None -> across (stacks sl) q n f = Some st ->
  (forall i, i < n -> area (fst q) (snd q + i) = true) /\
  exists st', across (stacks sr) (place g q) n f = Some st' /\
    (forall x i, area x i = true -> st' (g x) i = st x i) /\ (forall x i, area x i = false -> st x i = []) /\
    (forall y i, (forall x, g x = y -> area x i = false) -> st' y i = stacks s0 y i).
Proof.
  intros P N E. apply across_some in E as [E1 E2].
  assert (A : forall i, i < n -> area (fst q) (snd q + i) = true).
  { intros i Hi. destruct (area (fst q) (snd q + i)) eqn:EA; [reflexivity|]. specialize (E1 i Hi). rewrite (pt_empty _ _ _ _ P _ _ EA), N in E1. discriminate E1. }
  split; [exact A|]. destruct (across_ok (stacks sr) (place g q) n f (fun i => st (fst q) (snd q + i))) as (st' & F1 & F2 & F3).
  { intros i Hi. cbn [place fst snd]. rewrite (pt_stack _ _ _ _ P) by now apply A. now apply E1. }
  exists st'. cbn [place fst snd] in *. split; [exact F1|]. split; [|split].
  - intros x i Hx. destruct (in_range (g (fst q)) (snd q) n (g x) i) eqn:R.
    + apply in_range_iff in R as [EG R]. assert (x = fst q) as ->.
      { apply (apart_areas _ _ i); auto. replace i with (snd q + (i - snd q)) by lia. apply A. lia. }
      replace i with (snd q + (i - snd q)) by lia. apply F2. lia.
    + rewrite F3 by exact R. rewrite (pt_stack _ _ _ _ P) by exact Hx. symmetry. apply E2. revert R. unfold in_range.
      destruct (Nat.eqb_spec x (fst q)) as [->|]; [now rewrite Nat.eqb_refl|reflexivity].
  - intros x i Hx. rewrite E2; [now apply (pt_empty _ _ _ _ P)|]. destruct (in_range (fst q) (snd q) n x i) eqn:R; [|reflexivity].
    apply in_range_iff in R as [-> R]. specialize (A (i - snd q) ltac:(lia)). replace (snd q + (i - snd q)) with i in A by lia. congruence.
  - intros y i Hy. rewrite F3; [now apply (pt_stack_out _ _ _ _ P)|]. destruct (in_range (g (fst q)) (snd q) n y i) eqn:R; [|reflexivity].
    apply in_range_iff in R as [-> R]. specialize (A (i - snd q) ltac:(lia)). replace (snd q + (i - snd q)) with i in A by lia.
    rewrite (Hy (fst q) eq_refl) in A. discriminate A.
Qed.
Lemma via_read_nil act t : via (read_at act) t [] = None. Proof. now destruct t. Qed.
Lemma via_write_nil act t : via (write_at act) t [] = None. Proof. now destruct t. Qed.
Lemma retag_nil act k c t u : retag_at act k c t u [] = None. Proof. now destruct k. Qed.
Lemma perform_parts x sl ml sr mr t sl1 : parts sl ml sr mr -> perform x sl = Some (t, sl1) ->
  exists sr1, perform (borrow_at g x) sr = Some (t, sr1) /\ parts sl1 ml sr1 mr.
Proof.
  intros P E. destruct x as [| |k param u q n]; cbn [perform borrow_at] in *.
  - injection E as <- <-. rewrite (pt_fresh _ _ _ _ P). eexists. split; [reflexivity|]. destruct P. constructor; cbn; auto. congruence.
  - rewrite (pt_active _ _ _ _ P). destruct (active sl); [discriminate E|]. injection E as <- <-. eexists. split; [reflexivity|].
    destruct P. constructor; cbn; auto.
  - rewrite (pt_fresh _ _ _ _ P), (pt_active _ _ _ _ P). destruct (across _ q n _) as [st|] eqn:EA; [|discriminate E]. injection E as <- <-.
    destruct (across_parts _ _ _ _ _ _ _ _ P (retag_nil _ _ _ _ _) EA) as (_ & st' & F & G1 & G2 & G3). rewrite F. eexists. split; [reflexivity|].
    destruct P. constructor; cbn; auto. 
Qed.
Lemma trun_parts {A} v (p : prog A) : forall sl ml sr mr a sl1 ml1, parts sl ml sr mr -> trun v p sl ml = Some (a, sl1, ml1) ->
  exists sr1 mr1, trun_at g v p sr mr = Some (a, sr1, mr1) /\ parts sl1 ml1 sr1 mr1.
Proof.
  induction p as [a0|f|b k IH|q n k IH|q xs k IH]; intros sl ml sr mr a sl1 ml1 P E; cbn [trun trun_at] in *.
  - injection E as <- <- <-. eauto.
  - discriminate E.
  - rewrite (pt_len _ _ _ _ P). eauto.
  - unfold tread, put in *. destruct (across _ q n _) as [st|] eqn:EA; [|discriminate E].
    destruct (load q n ml) as [l m1| | |] eqn:EL; try discriminate E. rewrite (pt_active _ _ _ _ P).
    destruct (across_parts _ _ _ _ _ _ _ _ P (via_read_nil _ _) EA) as (AR & st' & F & G1 & G2 & G3). rewrite F.
    apply load_ret in EL as (-> & L & EL).
    assert (ER : load (place g q) n mr = Ret l mr).
    { unfold load. cbn [place fst snd]. rewrite (pt_len _ _ _ _ P). destruct (Nat.leb_spec (snd q + n) (length (ml (fst q)))); [|lia].
      rewrite (sequence_ext _ (firstn n (skipn (snd q) (mr (g (fst q))))) _ EL); [reflexivity| |].
      - rewrite !firstn_length, !skipn_length, (pt_len _ _ _ _ P). lia.
      - intros i y. rewrite !nth_error_firstn, !nth_error_skipn. destruct (Nat.ltb_spec i n) as [Hi|]; [|easy].
        rewrite (pt_cell _ _ _ _ P) by now apply AR. auto. }
    rewrite ER. refine (IH l _ _ _ _ _ _ _ _ E). destruct P. constructor; cbn; auto.
  - unfold twrite, put in *. destruct (across _ q _ _) as [st|] eqn:EA; [|discriminate E].
    destruct (store q xs ml) as [u m1| | |] eqn:EL; try discriminate E. rewrite (pt_active _ _ _ _ P).
    destruct (across_parts _ _ _ _ _ _ _ _ P (via_write_nil _ _) EA) as (AR & st' & F & G1 & G2 & G3). rewrite F.
    apply store_ret in EL as [L ->].
    assert (ER : store (place g q) xs mr = Ret tt (upd mr (g (fst q)) (splice (mr (g (fst q))) (snd q) xs))).
    { unfold store. cbn [place fst snd]. rewrite (pt_len _ _ _ _ P). destruct (Nat.leb_spec (snd q + length xs) (length (ml (fst q)))); [reflexivity|lia]. }
    rewrite ER. assert (LR := pt_len _ _ _ _ P (fst q)). refine (IH _ _ _ _ _ _ _ _ E). constructor; cbn.
    + apply P.
    + reflexivity.
    + exact G1.
    + exact G2.
    + intro x. unfold upd. destruct (Nat.eqb_spec x (fst q)) as [->|N].
      * rewrite Nat.eqb_refl, !splice_length by lia. exact LR.
      * destruct (Nat.eqb_spec (g x) (g (fst q))) as [EG|]; [rewrite splice_length by lia; rewrite <- EG|]; apply P.
    + intros x i Hx. unfold upd. destruct (Nat.eqb_spec x (fst q)) as [->|N].
      * rewrite Nat.eqb_refl, !splice_nth by lia. destruct (_ && _); [reflexivity|now apply P].
      * destruct (Nat.eqb_spec (g x) (g (fst q))) as [EG|]; [|now apply P]. rewrite splice_nth by lia.
        destruct (Nat.leb_spec (snd q) i), (Nat.ltb_spec i (snd q + length xs)); cbn [andb]; try (rewrite <- EG; now apply P).
        exfalso. apply N, (apart_areas _ _ i); auto. replace i with (snd q + (i - snd q)) by lia. apply AR. lia.
    + exact G3.
    + intros y i Hy. unfold upd. destruct (Nat.eqb_spec y (g (fst q))) as [->|]; [|now apply P]. rewrite splice_nth by lia.
      destruct (Nat.leb_spec (snd q) i), (Nat.ltb_spec i (snd q + length xs)); cbn [andb]; try (now apply P).
      exfalso. specialize (AR (i - snd q) ltac:(lia)). replace (snd q + (i - snd q)) with i in AR by lia. rewrite (Hy (fst q) eq_refl) in AR. discriminate AR.
Qed.
Lemma runs_parts {A} (x : bcode A) sl ml a sl1 ml1 : runs x sl ml a sl1 ml1 -> forall sr mr, parts sl ml sr mr ->
  exists sr1 mr1, runs_at g x sr mr a sr1 mr1 /\ parts sl1 ml1 sr1 mr1.
Proof.
  induction 1 as [A a s m|A x k s m t s1 a s' m' E _ IH|A X v c k p s m y s1 m1 a s' m' HF E _ IH]; intros sr mr P.
  - exists sr, mr. split; [constructor|exact P].
  - destruct (perform_parts _ _ _ _ _ _ _ P E) as (sr1 & E1 & P1). destruct (IH _ _ P1) as (sr2 & mr2 & R & P2).
    exists sr2, mr2. split; [econstructor; eauto|exact P2].
  - destruct (trun_parts _ _ _ _ _ _ _ _ _ P E) as (sr1 & mr1 & E1 & P1). destruct (IH _ _ P1) as (sr2 & mr2 & R & P2).
    exists sr2, mr2. split; [econstructor; eauto|exact P2].
Qed.
End Parts.

Theorem parts_of_into {A} (ret : A -> option (ptr * nat)) x f src dlen : borrows_into ret x f src dlen -> borrows_parts ret x f src dlen.
Proof.
  intros H m s b o d e ts td D SL RM SEP ND OK LS LD MR OT g. set (n := length src) in *.
  assert (gb : g b = b) by (unfold g, named; now apply Nat.eqb_neq in ND as ->).
  assert (gD : g D = d) by (unfold g, named; now rewrite Nat.eqb_refl).
  set (area := fun x i => in_range b o n x i || in_range D e dlen x i).
  set (sl := {| stacks := fun x i => if area x i then stacks s (g x) i else []; fresh := fresh s; active := active s |}).
  set (ml := fun y => m (g y)).
  assert (AB : forall i, i < n -> area b (o + i) = true) by (intros i Hi; unfold area, in_range; lia).
  assert (AD : forall i, i < dlen -> area D (e + i) = true) by (intros i Hi; unfold area, in_range; lia).
  assert (AC : forall x i, area x i = true -> (x = b /\ o <= i < o + n) \/ (x = D /\ e <= i < e + dlen)) by (intros y i; unfold area, in_range; lia).
  assert (AA : forall x y i, area x i = true -> area y i = true -> g x = g y -> x = y).
  { intros u v i Hu Hv EG. apply AC in Hu, Hv. destruct Hu as [[-> Hu]|[-> Hu]], Hv as [[-> Hv]|[-> Hv]]; auto; exfalso;
      rewrite gb, gD in EG; destruct SEP as [N|SEP]; try (apply N; congruence); lia. }
  assert (P : parts g area s m sl ml s m).
  { constructor; cbn; auto.
    - intros u i ->. reflexivity.
    - intros u i ->. reflexivity. }
  destruct (H ml sl b o D e ts td) as (r & u & sl1 & ml1 & RU & E & (OK1 & AC1 & OUT1) & RT & MR1 & MW1); auto.
  - destruct SL as [B S]. split; [exact B|]. unfold bytes_at, ml in *. now rewrite gb.
  - unfold room, ml in *. now rewrite gD.
  - split; [apply OK|]. cbn [stacks sl fresh]. intros y i j. destruct (area y i); [apply OK|contradiction].
  - intros i Hi. cbn [stacks active sl fst snd]. rewrite AB, gb by exact Hi. now apply MR.
  - intros i Hi. cbn [stacks active sl fst snd]. rewrite AD, gD by exact Hi. now apply OT.
  - destruct (runs_parts g area s m AA _ _ _ _ _ _ RU _ _ P) as (s' & m' & RR & P1).
    assert (OUT : forall y i, in_range b o n y i = false -> in_range d e dlen y i = false -> forall z, g z = y -> area z i = false).
    { intros y i H1 H2 z Hz. destruct (area z i) eqn:EA; [|reflexivity]. exfalso. apply AC in EA as [[-> EA]|[-> EA]]; [rewrite gb in Hz|rewrite gD in Hz]; subst y.
      - revert H1. unfold in_range. lia.
      - revert H2. unfold in_range. lia. }
    exists r, u, s', m'. split; [exact RR|]. split; [|split; [|split; [|split; [|split]]]].
    + split; [|split; [|]].
      * destruct OK1 as [K1 K2]. split; [rewrite (pt_active _ _ _ _ _ _ _ _ P1), (pt_fresh _ _ _ _ _ _ _ _ P1); exact K1|].
        assert (FL : fresh s <= fresh s') by (rewrite (pt_fresh _ _ _ _ _ _ _ _ P1); exact (runs_fresh _ _ _ _ _ _ RU)).
        intros y i j Hj. rewrite (pt_fresh _ _ _ _ _ _ _ _ P1) in *. destruct (in_range b o n y i) eqn:R1; [|destruct (in_range d e dlen y i) eqn:R2].
        -- apply in_range_iff in R1 as [-> R1]. rewrite <- gb, (pt_stack _ _ _ _ _ _ _ _ P1) in Hj by (unfold area, in_range; lia). now apply K2 in Hj.
        -- apply in_range_iff in R2 as [-> R2]. rewrite <- gD, (pt_stack _ _ _ _ _ _ _ _ P1) in Hj by (unfold area, in_range; lia). now apply K2 in Hj.
        -- rewrite (pt_stack_out _ _ _ _ _ _ _ _ P1) in Hj by (now apply OUT). apply OK in Hj as [J1 J2]. split; [lia|]. intros c Hc. specialize (J2 c Hc). lia.
      * rewrite (pt_active _ _ _ _ _ _ _ _ P1). exact AC1.
      * cbn [fst snd]. intros y i R1 R2. apply (pt_stack_out _ _ _ _ _ _ _ _ P1). now apply OUT.
    + destruct (ret r) as [[q k]|]; [|exact I]. destruct RT as [L T]. split; [exact L|]. intros i Hi. destruct (T i Hi) as (it & rest & ES & G).
      exists it, rest. split; [|exact G]. cbn [place fst snd]. rewrite (pt_stack _ _ _ _ _ _ _ _ P1); [exact ES|].
      destruct (area (fst q) (snd q + i)) eqn:EA; [reflexivity|]. rewrite (pt_empty _ _ _ _ _ _ _ _ P1 _ _ EA) in ES. discriminate ES.
    + intros i Hi. specialize (MR1 i Hi). cbn [fst snd] in *. rewrite (pt_active _ _ _ _ _ _ _ _ P1).
      rewrite <- gb at 1. now rewrite (pt_stack _ _ _ _ _ _ _ _ P1) by now apply AB.
    + intros i Hi. specialize (MW1 i Hi). cbn [fst snd] in *. rewrite (pt_active _ _ _ _ _ _ _ _ P1).
      rewrite <- gD at 1. now rewrite (pt_stack _ _ _ _ _ _ _ _ P1) by now apply AD.
    + intros y i R1 R2. apply (pt_cell_out _ _ _ _ _ _ _ _ P1). now apply OUT.
    + exists ml1. split; [exact E|]. split; intros i Hi.
      * rewrite <- gb at 1. now apply (pt_cell _ _ _ _ _ _ _ _ P1), AB.
      * rewrite <- gD at 1. now apply (pt_cell _ _ _ _ _ _ _ _ P1), AD.
Qed.
