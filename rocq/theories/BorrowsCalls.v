(** Calls: from their steps to what the caller relies on *)
From Coq Require Import ZArith List Bool Lia ZifyBool ZifyNat.
From Verif Require Import Bytes Mem MemFacts Slices Codec Conc ConcFacts Reify ConcApi ConcApiFacts Isa Simd Ints Hex Base64 Base32 Uuid Unicode
  Forgiving Borrows BorrowsApi BorrowsFacts BorrowsLib.
Import ListNotations.
Open Scope nat_scope. Open Scope m_scope. Open Scope borrow_scope.

(** ** [state_ok] *)
Definition from (s s' : stack) : Prop := forall i, In i s' -> exists j, In j s /\ i_tag i = i_tag j /\ i_call i = i_call j.
Lemma from_refl s : from s s. Proof. intros i H. eauto. Qed.
Lemma from_read act t s s' : read_at act t s = Some s' -> from s s'.
Proof.
  unfold read_at. destruct (locate false t s) as [[[above g] below]|] eqn:E; [|discriminate]. apply locate_some in E as (-> & _).
  destruct (existsb _ above); [discriminate|]. intro H. injection H as <-. intros i Hi. apply in_app_or in Hi as [Hi|Hi].
  - apply in_map_iff in Hi as (j & <- & Hj). exists j. split; [apply in_or_app; auto|]. unfold disable. now destruct (is_unique j).
  - exists i. split; [apply in_or_app; auto|auto].
Qed.
Lemma split_rw_in above p k : split_rw above = (p, k) -> above = p ++ k.
Proof.
  revert p k. induction above as [|i r IH]; cbn [split_rw]; intros p k E; [now injection E as <- <-|].
  destruct (split_rw r) as [p' k']. specialize (IH p' k' eq_refl). subst r. destruct p' as [|x p'].
  - destruct (is_shared_rw i); injection E as <- <-; reflexivity.
  - injection E as <- <-. reflexivity.
Qed.
Lemma split_above_in g above p k : split_above g above = (p, k) -> above = p ++ k.
Proof. unfold split_above. destruct (is_shared_rw g); [apply split_rw_in|]. intro E. injection E as <- <-. now rewrite app_nil_r. Qed.
Lemma from_write act t s s' : write_at act t s = Some s' -> from s s'.
Proof.
  unfold write_at. destruct (locate true t s) as [[[above g] below]|] eqn:E; [|discriminate]. apply locate_some in E as (-> & _).
  destruct (split_above g above) as [p k] eqn:ES. apply split_above_in in ES. subst above. destruct (existsb _ p); [discriminate|].
  intro H. injection H as <-. intros i Hi. exists i. split; [|auto]. rewrite !in_app_iff in *. tauto.
Qed.
Lemma from_retag act x call t new s s' : retag_at act x call t new s = Some s' ->
  forall i, In i s' -> (i_tag i = new /\ i_call i = call) \/ exists j, In j s /\ i_tag i = i_tag j /\ i_call i = i_call j.
Proof.
  destruct x; cbn [retag_at].
  - destruct (write_at act t s) as [r|] eqn:E; [|discriminate]. intro H. injection H as <-. intros i [<-|Hi]; [auto|]. right. now apply (from_write _ _ _ _ E).
  - destruct (read_at act t s) as [r|] eqn:E; [|discriminate]. intro H. injection H as <-. intros i [<-|Hi]; [auto|]. right. now apply (from_read _ _ _ _ E).
  - destruct (locate true t s) as [[[above g] below]|] eqn:E; [|discriminate]. apply locate_some in E as (-> & _).
    destruct (split_above g above) as [p k] eqn:ES. apply split_above_in in ES. subst above. intro H. injection H as <-.
    intros i Hi. rewrite in_app_iff in Hi. cbn [In] in Hi. rewrite in_app_iff in Hi. cbn [In] in Hi. destruct Hi as [Hi|[<-|Hi]]; [|auto|]; right; exists i;
      (split; [|auto]); rewrite !in_app_iff; cbn [In]; tauto.
  - destruct (read_at act t s) as [r|] eqn:E; [|discriminate]. intro H. injection H as <-. intros i [<-|Hi]; [auto|]. right. now apply (from_read _ _ _ _ E).
Qed.
Lemma put_ok s q n f s' : (forall a r, f a = Some r -> from a r) -> state_ok s -> put s (across (stacks s) q n f) = Some s' -> state_ok s'.
Proof.
  intros HF [A B] E. unfold put in E. destruct (across (stacks s) q n f) as [st|] eqn:EA; [|discriminate E]. injection E as <-.
  apply across_some in EA as [E1 E2]. split; [exact A|]. cbn. intros b o i Hi. destruct (in_range (fst q) (snd q) n b o) eqn:R.
  - apply in_range_iff in R as [-> R]. specialize (E1 (o - snd q) ltac:(lia)). replace (snd q + (o - snd q)) with o in E1 by lia.
    destruct (HF _ _ E1 i Hi) as (j & Hj & -> & ->). exact (B _ _ _ Hj).
  - rewrite E2 in Hi by exact R. exact (B _ _ _ Hi).
Qed.
Lemma perform_ok x s t s' : state_ok s -> perform x s = Some (t, s') -> state_ok s'.
Proof.
  intros [A B] E. destruct x as [| |k param u q n]; cbn [perform] in E.
  - injection E as <- <-. split; cbn.
    + intros c [<-|H]; [lia|]. apply A in H. lia.
    + intros b o i Hi. destruct (B b o i Hi) as [T C]. split; [lia|]. intros c Hc. apply C in Hc. lia.
  - destruct (active s) as [|c r]; [discriminate E|]. injection E as <- <-. split; cbn; [intros c' H; apply A; now right|exact B].
  - destruct (across (stacks s) q n _) as [st|] eqn:EA; [|discriminate E]. injection E as <- <-. apply across_some in EA as [E1 E2]. split; cbn.
    + intros c H. apply A in H. lia.
    + intros b o i Hi. assert (Old : forall j, In j (stacks s b o) -> i_tag i = i_tag j -> i_call i = i_call j -> i_tag i < S (fresh s) /\ (forall c, i_call i = Some c -> c < S (fresh s))).
      { intros j Hj -> ->. destruct (B b o j Hj) as [T C]. split; [lia|]. intros c Hc. apply C in Hc. lia. }
      destruct (in_range (fst q) (snd q) n b o) eqn:R.
      * apply in_range_iff in R as [-> R]. specialize (E1 (o - snd q) ltac:(lia)). replace (snd q + (o - snd q)) with o in E1 by lia.
        destruct (from_retag _ _ _ _ _ _ _ E1 i Hi) as [[-> ->]|(j & Hj & T & C)]; [|exact (Old j Hj T C)]. split; [lia|].
        destruct param; [|discriminate]. intros c Hc. destruct (active s) as [|c' r]; [discriminate Hc|]. injection Hc as ->.
        specialize (A c (or_introl eq_refl)). lia.
      * rewrite E2 in Hi by exact R. exact (Old i Hi eq_refl eq_refl).
Qed.
Lemma trun_ok {A} v (p : prog A) : forall s m y s' m', state_ok s -> trun v p s m = Some (y, s', m') -> state_ok s'.
Proof.
  induction p as [a0|f|b k IH|q n k IH|q xs k IH]; cbn [trun]; intros s m y s' m' HS E.
  - now injection E as _ <- _.
  - discriminate E.
  - exact (IH _ _ _ _ _ _ HS E).
  - destruct (tread _ _ _ _) as [s1|] eqn:ET; [|discriminate E]. destruct (load q n m); try discriminate E. apply (IH _ _ _ _ _ _) in E; [exact E|].
    refine (put_ok _ _ _ _ _ _ HS ET). intros a0 r0. destruct (v (fst q)); [apply from_read|discriminate].
  - destruct (twrite _ _ _ _) as [s1|] eqn:ET; [|discriminate E]. destruct (store q xs m); try discriminate E. apply (IH _ _ _ _ _) in E; [exact E|].
    refine (put_ok _ _ _ _ _ _ HS ET). intros a0 r0. destruct (v (fst q)); [apply from_write|discriminate].
Qed.
Lemma runs_ok {A} (x : bcode A) s m a s' m' : runs x s m a s' m' -> state_ok s -> state_ok s'.
Proof.
  induction 1 as [A a s m|A x k s m t s1 a s' m' E R IH|A X v c k p s m y s1 m1 a s' m' FO ET R IH]; intro H; [exact H| |].
  - apply IH. exact (perform_ok _ _ _ _ H E).
  - apply IH. exact (trun_ok _ _ _ _ _ _ _ H ET).
Qed.
Lemma ok_wf s : state_ok s -> wf s. Proof. intros [H _]. exact H. Qed.

(** ** A call begins *)
Lemma protected_enter s b o i : state_ok s -> In i (stacks s b o) -> protected (fresh s :: active s) i = protected (active s) i.
Proof.
  intros [_ H] Hi. unfold protected. destruct (i_call i) as [c|] eqn:E; [|reflexivity]. cbn [existsb].
  destruct (H b o i Hi) as [_ C]. specialize (C c E). now rewrite (proj2 (Nat.eqb_neq _ _)) by lia.
Qed.
Lemma existsb_ext {A} (f g : A -> bool) l : (forall x, In x l -> f x = g x) -> existsb f l = existsb g l.
Proof. induction l as [|x l IH]; intro H; [reflexivity|]. cbn [existsb]. rewrite (H x (or_introl eq_refl)), IH; [reflexivity|]. intros y Hy. apply H. now right. Qed.
Lemma read_enter s b o t : state_ok s -> read_at (fresh s :: active s) t (stacks s b o) = read_at (active s) t (stacks s b o).
Proof.
  intro H. unfold read_at. destruct (locate false t (stacks s b o)) as [[[above g] below]|] eqn:E; [|reflexivity]. apply locate_some in E as (E & _).
  rewrite (existsb_ext _ (fun i => is_unique i && protected (active s) i) above); [reflexivity|]. intros i Hi.
  rewrite (protected_enter s b o i H); [reflexivity|]. rewrite E. apply in_or_app. auto.
Qed.
Lemma write_enter s b o t : state_ok s -> write_at (fresh s :: active s) t (stacks s b o) = write_at (active s) t (stacks s b o).
Proof.
  intro H. unfold write_at. destruct (locate true t (stacks s b o)) as [[[above g] below]|] eqn:E; [|reflexivity]. apply locate_some in E as (E & _).
  destruct (split_above g above) as [p k] eqn:ES. apply split_above_in in ES. subst above.
  rewrite (existsb_ext _ (protected (active s)) p); [reflexivity|]. intros i Hi.
  rewrite (protected_enter s b o i H); [reflexivity|]. rewrite E, !in_app_iff. auto.
Qed.

(** ** From a source into a destination *)
Definition added (s : borrows) (X : stack) : Prop := Forall (fun x => fresh s <= i_tag x /\ protected (active s) x = false) X.
Definition readable_in (s : borrows) (p : ptr) (n t : nat) : Prop :=
  forall i, i < n -> exists h, read_at (fresh s :: active s) t (stacks s (fst p) (snd p + i)) = Some h.
Lemma readable_in_of s p n t : readable s p n t -> readable_in s p n t.
Proof. intros H i Hi. eexists. apply reads_stable. now apply H. Qed.
(** pointers that could read without changing anything still can *)
Definition keeps (s0 : borrows) (p : ptr) (n ts : nat) (s : borrows) : Prop :=
  readable s0 p n ts -> forall t, t < fresh s0 -> readable s0 p n t -> readable s p n t.
(** while the call runs *)
Definition src_inv (s0 : borrows) (p : ptr) (n ts : nat) (s : borrows) : Prop :=
  wf s /\ fresh s0 < fresh s /\ active s = fresh s0 :: active s0 /\ elsewhere p n s0 s /\ readable s p n ts /\ keeps s0 p n ts s.
Definition into_post (s s' : borrows) (p : ptr) (n : nat) (q : ptr) (k ts : nat) (slice : option (ptr * nat)) (u : nat) : Prop :=
  wf s' /\ fresh s <= fresh s' /\ active s' = active s /\
  (forall b o, in_range (fst p) (snd p) n b o = false -> in_range (fst q) (snd q) k b o = false -> stacks s' b o = stacks s b o) /\
  readable s' p n ts /\ keeps s p n ts s' /\
  (forall i, i < k -> exists X, stacks s' (fst q) (snd q + i) = X ++ stacks s (fst q) (snd q + i) /\ added s X) /\
  returned s s' slice u.
Definition final {A} (Q : A -> borrows -> mem -> Prop) : A -> borrows -> mem -> Prop := fun a s mm => active s <> [] /\ Q a (leave s) mm.

Lemma into_start {A} (F : nat -> nat -> Prop) p n ts (body : nat -> bcode A) Q s mm : wf s -> ts < fresh s -> readable_in s p n ts ->
  (forall u s1, src_inv s p n ts s1 -> readable s1 p n u -> u < fresh s1 -> good F (body u) (final Q) s1 mm) ->
  good F (fn (bbind (shared_param p n ts) body)) Q s mm.
Proof.
  intros W L R H. apply good_fn, good_bind. unfold shared_param.
  set (h := fun i => match read_at (fresh s :: active s) ts (stacks s (fst p) (snd p + i)) with Some x => x | None => [] end).
  assert (Hh : forall i, i < n -> read_at (fresh s :: active s) ts (stacks s (fst p) (snd p + i)) = Some (h i)).
  { intros i Hi. destruct (R i Hi) as [x Hx]. unfold h. now rewrite Hx. }
  apply (good_shared_gen F SharedRef true ts p n h); [auto|exact Hh|]. intros s1 F1 A1 E1 C1. cbn [fresh active enter hd_error] in *. apply H.
  - split; [|split; [|split; [|split; [|split]]]].
    + intros c Hc. rewrite A1 in Hc. destruct Hc as [<-|Hc]; [lia|]. apply W in Hc. lia.
    + lia.
    + exact A1.
    + intros b o Hr. now rewrite E1.
    + intros i Hi. rewrite C1 by exact Hi. apply (reads_app ts [_]).
      * constructor; [|constructor]. cbn. split; [reflexivity|lia].
      * exact (read_reads _ _ _ _ (Hh i Hi)).
    + intros RS t LT RT i Hi. rewrite C1 by exact Hi. specialize (Hh i Hi). rewrite (reads_stable _ _ _ (RS i Hi)) in Hh. injection Hh as <-.
      apply (reads_app t [_]); [|now apply RT]. constructor; [|constructor]. cbn. split; [reflexivity|lia].
  - intros i Hi. rewrite C1 by exact Hi. apply reads_top.
  - lia.
Qed.
Lemma src_ro s0 p n ts s s' : src_inv s0 p n ts s -> ts < fresh s0 -> wf s' -> ro_step p n s s' -> src_inv s0 p n ts s'.
Proof.
  intros (W & L & A & E & R & K) LT W' ST. assert (ST' := ST). destruct ST as (F' & A' & E' & C'). split; [exact W'|]. split; [lia|]. split; [congruence|].
  split; [intros b o Hr; now rewrite E', E|]. split; [apply (readable_ro p n s); [exact ST'|lia|exact R]|].
  intros RS t Lt RT. apply (readable_ro p n s); [exact ST'|lia|]. now apply K.
Qed.
Lemma into_ro {A} (F : nat -> nat -> Prop) s0 p n ts (x : bcode nat) u (body : nat -> bcode A) Q s mm : ro_op x p n u -> src_inv s0 p n ts s -> ts < fresh s0 ->
  readable s p n u -> u < fresh s ->
  (forall v s', src_inv s0 p n ts s' -> readable s' p n u -> u < fresh s' -> readable s' p n v -> v < fresh s' -> good F (body v) Q s' mm) ->
  good F (bbind x body) Q s mm.
Proof.
  intros HX I LT R L H. apply good_bind. apply HX; [apply I|exact L|exact R|]. intros v s' W' ST L' R'. apply H; auto.
  - exact (src_ro _ _ _ _ _ _ I LT W' ST).
  - exact (readable_ro _ _ _ _ _ ST L R).
  - destruct ST as (A1 & _). lia.
Qed.
Lemma via2_src b t b' t' : via2 b t b' t' b = Some t. Proof. unfold via2. now rewrite Nat.eqb_refl. Qed.
Lemma via2_dst b t b' t' : b <> b' -> via2 b t b' t' b' = Some t'.
Proof. intro N. unfold via2. rewrite Nat.eqb_refl. now rewrite (proj2 (Nat.eqb_neq _ _)) by congruence. Qed.
Definition cells_of (p : ptr) (n : nat) (b o : nat) : Prop := in_range (fst p) (snd p) n b o = true.
Lemma not_in_range_block b o n b' o' : b' <> b -> in_range b o n b' o' = false.
Proof. unfold in_range. lia. Qed.
Lemma src_dst s0 p n ts s (q : ptr) o : src_inv s0 p n ts s -> fst p <> fst q -> stacks s (fst q) o = stacks s0 (fst q) o.
Proof. intros (_ & _ & _ & E & _) N. apply E. apply not_in_range_block. congruence. Qed.
Lemma into_exec {A X} (F : nat -> nat -> Prop) s0 p n q k ts td v (c : M X) (R : X -> Prop) (body : X -> bcode A) Q s mm :
  reified True (eq (fst q)) R c -> src_inv s0 p n ts s -> readable s p n v -> fst p <> fst q -> on_top s0 q k td ->
  (forall b o, F b o -> cells_of p n b o \/ cells_of q k b o) ->
  (forall y mm', c mm = Ret y mm' -> good F (body y) Q s mm') -> good F (bbind (exec (via2 (fst p) v (fst q) td) c) body) Q s mm.
Proof.
  intros HR I RV N T HF H. apply good_bind. apply (good_exec_rw F _ c (fst q) R); [exact HR| |exact H]. intros b o Hb. destruct (HF b o Hb) as [C|C].
  - apply in_range_iff in C as [-> C]. exists v. rewrite via2_src. split; [reflexivity|]. split; [|congruence].
    replace o with (snd p + (o - snd p)) by lia. apply RV. lia.
  - apply in_range_iff in C as [-> C]. exists td. rewrite via2_dst by exact N. split; [reflexivity|].
    assert (W : wtop td (stacks s (fst q) o)).
    { rewrite (src_dst _ _ _ _ _ _ _ I N). replace o with (snd q + (o - snd q)) by lia. apply T. lia. }
    split; [now apply wtop_reads|auto].
Qed.
(** code that only reads the source *)
Lemma into_read {A X} (F : nat -> nat -> Prop) s0 p n ts v (c : M X) (R : X -> Prop) (body : X -> bcode A) Q s mm :
  reified True (fun _ => False) R c -> src_inv s0 p n ts s -> readable s p n v -> (forall b o, init mm b o -> cells_of p n b o) ->
  (forall y, c mm = Ret y mm -> good F (body y) Q s mm) -> good F (bbind (exec (via1 (fst p) v) c) body) Q s mm.
Proof.
  intros HR I RV HG H. apply good_bind. apply (good_exec_ro F (cells_of p n) _ c R); [exact HR|exact HG| |exact H]. intros b o C.
  apply in_range_iff in C as [-> C]. exists v. unfold via1. rewrite Nat.eqb_refl. split; [reflexivity|]. replace o with (snd p + (o - snd p)) by lia. apply RV. lia.
Qed.
Lemma into_fail {A} (F : nat -> nat -> Prop) s0 p n q k ts (a : A) (Q : A -> borrows -> mem -> Prop) s mm : wf s0 -> src_inv s0 p n ts s -> fst p <> fst q ->
  (forall s', into_post s0 s' p n q k ts None 0 -> Q a s' mm) -> good F (Return a) (final Q) s mm.
Proof.
  intros W0 I N H. cbn [good]. assert (I' := I). destruct I as (W & L & A1 & E & R & K). split; [rewrite A1; discriminate|]. apply H.
  split; [exact (wf_leave s0 s (fresh s0) W0 ltac:(lia) A1)|]. split; [cbn; lia|]. split; [cbn; now rewrite A1|]. split; [intros b o H1 _; now apply E|].
  split; [exact R|]. split; [exact K|]. split; [|exact Logic.I]. intros i Hi. exists []. cbn. split; [exact (src_dst _ _ _ _ _ _ _ I' N)|constructor].
Qed.
Lemma into_give_gen {A} (F : nat -> nat -> Prop) s0 p n q k ts l (x : bcode nat) (f : nat -> A) (Q : A -> borrows -> mem -> Prop) s mm :
  (forall (Q : nat -> borrows -> mem -> Prop), (forall u s', wf s' -> fresh s <= u < fresh s' -> active s' = active s -> elsewhere q l s s' ->
     (forall i, i < l -> stacks s' (fst q) (snd q + i) = {| i_perm := Unique; i_tag := u; i_call := None |} :: stacks s (fst q) (snd q + i)) ->
     Q u s' mm) -> good F x Q s mm) ->
  wf s0 -> src_inv s0 p n ts s -> fst p <> fst q -> l <= k ->
  (forall u s', into_post s0 s' p n q k ts (Some (q, l)) u -> Q (f u) s' mm) ->
  good F (bbind x (fun u => Return (f u))) (final Q) s mm.
Proof.
  intros HX W0 I N L H. apply good_bind. apply HX. intros u s1 W1 [U1 U2] A1 E1 C1. cbn [good]. assert (I' := I). destruct I as (W & LF & A0 & E & R & K).
  split; [rewrite A1, A0; discriminate|]. apply H.
  assert (SD := fun o => src_dst _ _ _ _ _ q o I' N).
  split; [apply (wf_leave s0 s1 (fresh s0) W0); [lia|congruence]|]. split; [cbn; lia|]. split; [cbn; now rewrite A1, A0|]. split; [|split; [|split; [|split]]].
  - intros b o H1 H2. cbn. rewrite E1; [now apply E|]. revert H2. unfold in_range. lia.
  - intros i Hi. cbn. rewrite E1; [now apply R|]. now apply not_in_range_block.
  - intros RS t Lt RT i Hi. cbn. rewrite E1; [now apply (K RS t Lt RT)|]. now apply not_in_range_block.
  - intros i Hi. cbn. destruct (Nat.ltb_spec i l).
    + rewrite C1, SD by assumption. exists [{| i_perm := Unique; i_tag := u; i_call := None |}]. split; [reflexivity|]. constructor; [|constructor]. cbn. split; [lia|reflexivity].
    + rewrite E1 by (unfold in_range; lia). rewrite SD. exists []. split; [reflexivity|constructor].
  - cbn. split; [lia|]. intros i Hi. cbn. rewrite C1 by exact Hi. do 2 eexists. split; [reflexivity|]. unfold grants. cbn. now rewrite Nat.eqb_refl.
Qed.
Lemma on_top_less s p n t k : on_top s p n t -> k <= n -> on_top s p k t.
Proof. intros H L i Hi. apply H. lia. Qed.
Lemma on_top_src s0 p n ts s q k td : src_inv s0 p n ts s -> fst p <> fst q -> on_top s0 q k td -> on_top s q k td.
Proof. intros I N T i Hi. rewrite (src_dst _ _ _ _ _ _ _ I N). now apply T. Qed.
Lemma into_give {A} (F : nat -> nat -> Prop) s0 p n q k ts td l (f : nat -> A) (Q : A -> borrows -> mem -> Prop) s mm :
  wf s0 -> src_inv s0 p n ts s -> fst p <> fst q -> on_top s0 q k td -> l <= k ->
  (forall u s', into_post s0 s' p n q k ts (Some (q, l)) u -> Q (f u) s' mm) ->
  good F (bbind (slice_mut q l td) (fun u => Return (f u))) (final Q) s mm.
Proof.
  intros W0 I N T L H. apply (into_give_gen F s0 p n q k ts l); auto. intros Q' HQ. apply good_slice_mut; [apply I| |exact HQ].
  apply (on_top_less _ _ k); [|exact L]. exact (on_top_src _ _ _ _ _ _ _ _ I N T).
Qed.
Lemma into_give_array {A} (F : nat -> nat -> Prop) s0 p n q k ts td l (f : nat -> A) (Q : A -> borrows -> mem -> Prop) s mm :
  wf s0 -> src_inv s0 p n ts s -> fst p <> fst q -> on_top s0 q k td -> l <= k ->
  (forall u s', into_post s0 s' p n q k ts (Some (q, l)) u -> Q (f u) s' mm) ->
  good F (bbind (reborrow_mut q l td) (fun u => Return (f u))) (final Q) s mm.
Proof.
  intros W0 I N T L H. apply (into_give_gen F s0 p n q k ts l); auto. intros Q' HQ. unfold reborrow_mut. apply good_from_top.
  - apply (on_top_less _ _ k); [|exact L]. exact (on_top_src _ _ _ _ _ _ _ _ I N T).
  - intros s1 F1 A1 E1 C1. apply HQ; auto; [|lia]. intros c Hc. rewrite A1 in Hc. destruct I as (W & _). apply W in Hc. lia.
Qed.
(** [decoded_length] and the like: a function that only reads *)
Lemma good_reader {X} (F : nat -> nat -> Prop) p n t (pre : nat -> bcode nat) (c : M X) (R : X -> Prop) (Q : X -> borrows -> mem -> Prop) s mm :
  (forall u, ro_op (pre u) p n u) -> reified True (fun _ => False) R c -> wf s -> t < fresh s -> readable s p n t ->
  (forall b o, init mm b o -> cells_of p n b o) ->
  (forall y s', wf s' -> ro_step p n s s' -> c mm = Ret y mm -> Q y s' mm) ->
  good F (fn (u <== shared_param p n t ;; v <== pre u ;; exec (via1 (fst p) v) c)) Q s mm.
Proof.
  intros HP HR W L RD HG H. set (x := fn (u <== shared_param p n t ;; pre u)).
  assert (G : good F x (fun v s' mm' => mm' = mm /\ wf s' /\ ro_step p n s s' /\ readable s' p n v) s mm).
  { apply (ro_fn pre p n t HP); auto. }
  unfold x, fn in G. unfold fn. cbn [good perform] in *. rewrite !good_bind in *. eapply good_imp; [|exact G]. clear G. cbv beta. intros u s1 mm1 G.
  rewrite ?good_bind in *. eapply good_imp; [|exact G]. clear G. cbv beta. intros v s2 mm2 G. rewrite ?good_bind. cbn [good perform] in *.
  destruct (active s2) as [|c0 r] eqn:EA; [contradiction|]. destruct G as (-> & W' & ST & RV).
  apply (good_exec_ro F (cells_of p n) _ c R); [exact HR|exact HG| |].
  - intros b o C. apply in_range_iff in C as [-> C]. exists v. unfold via1. rewrite Nat.eqb_refl. split; [reflexivity|].
    replace o with (snd p + (o - snd p)) by lia. apply RV. lia.
  - intros y E. cbn [good perform]. rewrite EA. now apply H.
Qed.

(** ** In place *)
Definition writable_in (s : borrows) (p : ptr) (n t : nat) (base : nat -> stack) : Prop :=
  forall i, i < n -> write_at (fresh s :: active s) t (stacks s (fst p) (snd p + i)) = Some (base i).
Definition own_inv (s0 : borrows) (p : ptr) (n : nat) (base : nat -> stack) (g : item) (s : borrows) : Prop :=
  wf s /\ fresh s0 < fresh s /\ active s = fresh s0 :: active s0 /\ elsewhere p n s0 s /\ above s p n g base /\ readable s p n (i_tag g) /\
  fresh s0 <= i_tag g < fresh s /\ i_perm g = Unique /\ i_call g = Some (fresh s0).
Definition raw_inv (s0 : borrows) (p : ptr) (n : nat) (base : nat -> stack) (r : nat) (s : borrows) : Prop :=
  wf s /\ fresh s0 < fresh s /\ active s = fresh s0 :: active s0 /\ elsewhere p n s0 s /\ fresh s0 <= r < fresh s /\
  exists Y, added s0 Y /\ forall i, i < n -> stacks s (fst p) (snd p + i) = {| i_perm := SharedRW; i_tag := r; i_call := None |} :: Y ++ base i.
Definition inplace_post (s s' : borrows) (p : ptr) (n : nat) (base : nat -> stack) (slice : option (ptr * nat)) (u : nat) : Prop :=
  wf s' /\ fresh s <= fresh s' /\ active s' = active s /\ elsewhere p n s s' /\
  (forall i, i < n -> exists X, stacks s' (fst p) (snd p + i) = X ++ base i /\ added s X) /\ returned s s' slice u.
Lemma inplace_start {A} (F : nat -> nat -> Prop) p n t base (body : nat -> bcode A) Q s mm : wf s -> writable_in s p n t base ->
  (forall g s1, own_inv s p n base g s1 -> good F (body (i_tag g)) (final Q) s1 mm) ->
  good F (fn (bbind (mut_param p n t) body)) Q s mm.
Proof.
  intros W R H. apply good_fn, good_bind. unfold mut_param. apply (good_mut_gen F true p n t base); [exact R|].
  intros s1 F1 A1 E1 C1. cbn [fresh active enter hd_error] in *.
  apply (H {| i_perm := Unique; i_tag := S (fresh s); i_call := Some (fresh s) |}).
  split; [|split; [lia|split; [exact A1|split; [|split; [|split]]]]].
  - intros c Hc. rewrite A1 in Hc. destruct Hc as [<-|Hc]; [lia|]. apply W in Hc. lia.
  - intros b o Hr. now rewrite E1.
  - intros i Hi. exists []. cbn. rewrite C1 by exact Hi. split; [reflexivity|constructor].
  - intros i Hi. rewrite C1 by exact Hi. apply wtop_reads. do 2 eexists. split; [reflexivity|]. unfold grants. cbn. now rewrite Nat.eqb_refl.
  - cbn. repeat split; lia.
Qed.
Lemma own_ro s0 p n base g s s' : own_inv s0 p n base g s -> wf s' -> ro_step p n s s' -> own_inv s0 p n base g s'.
Proof.
  intros (W & L & A & E & AB & R & T & U & C) W' ST. assert (ST' := ST). destruct ST as (F' & A' & E' & C'). split; [exact W'|]. split; [lia|].
  split; [congruence|]. split; [intros b o Hr; now rewrite E', E|]. split; [apply (above_ro p n s); auto; lia|].
  split; [apply (readable_ro p n s); auto; lia|]. split; [lia|auto].
Qed.
(** [len] and other methods that only read *)
Lemma inplace_ro {A} (F : nat -> nat -> Prop) s0 p n base g (x : bcode nat) u (body : nat -> bcode A) Q s mm : ro_op x p n u -> own_inv s0 p n base g s ->
  readable s p n u -> u < fresh s ->
  (forall v s', own_inv s0 p n base g s' -> readable s' p n u -> u < fresh s' -> readable s' p n v -> v < fresh s' -> good F (body v) Q s' mm) ->
  good F (bbind x body) Q s mm.
Proof.
  intros HX I R L H. apply good_bind. apply HX; [apply I|exact L|exact R|]. intros v s' W' ST L' R'. apply H; auto.
  - exact (own_ro _ _ _ _ _ _ _ I W' ST).
  - exact (readable_ro _ _ _ _ _ ST L R).
  - destruct ST as (A1 & _). lia.
Qed.
Lemma unprotected_added s0 s X : active s = fresh s0 :: active s0 -> fresh s0 <= fresh s ->
  Forall (fun x => fresh s <= i_tag x /\ protected (active s) x = false) X -> added s0 X.
Proof.
  intros A L H. apply Forall_forall. intros x Hx. destruct (proj1 (Forall_forall _ _) H x Hx) as [T P]. split; [lia|]. rewrite A in P.
  exact (unprotected_less _ _ _ P).
Qed.
Lemma own_added s0 p n base g s : wf s0 -> own_inv s0 p n base g s -> added s0 [g].
Proof.
  intros W (_ & _ & _ & _ & _ & _ & T & _ & C). constructor; [|constructor]. split; [lia|]. apply (unprotected_call s0 g (fresh s0)); auto.
Qed.
Lemma inplace_raw {A} (F : nat -> nat -> Prop) s0 p n base g (body : nat -> bcode A) Q s mm : wf s0 -> own_inv s0 p n base g s ->
  (forall r s', raw_inv s0 p n base r s' -> good F (body r) Q s' mm) -> good F (bbind (as_mut_ptr p n (i_tag g)) body) Q s mm.
Proof.
  intros W0 I H. apply good_bind. assert (AG := own_added _ _ _ _ _ _ W0 I). destruct I as (W & L & A1 & E & AB & R & T & U & C).
  apply (good_as_mut_ptr F p n g base); [exact W|exact U|exact AB|].
  intros r X s' W' RL A' E' HX C'. apply H. split; [exact W'|]. split; [lia|]. split; [congruence|]. split; [intros b o Hr; now rewrite E', E|].
  split; [lia|]. exists (X ++ [g]). split.
  - apply Forall_app. split; [|exact AG]. apply (unprotected_added s0 s); auto. lia.
  - intros i Hi. rewrite C' by exact Hi. now rewrite <- app_assoc.
Qed.
Lemma raw_top s0 p n base r s : raw_inv s0 p n base r s -> on_top s p n r.
Proof.
  intros (_ & _ & _ & _ & _ & Y & _ & C) i Hi. rewrite C by exact Hi. do 2 eexists. split; [reflexivity|]. unfold grants. cbn. now rewrite Nat.eqb_refl.
Qed.
Lemma inplace_exec {A X} (F : nat -> nat -> Prop) s0 p n base r (c : M X) (R : X -> Prop) (body : X -> bcode A) Q s mm :
  reified True (eq (fst p)) R c -> raw_inv s0 p n base r s -> (forall b o, F b o -> cells_of p n b o) ->
  (forall y mm', c mm = Ret y mm' -> good F (body y) Q s mm') -> good F (bbind (exec (via1 (fst p) r) c) body) Q s mm.
Proof.
  intros HR I HF H. apply good_bind. apply (good_exec_rw F _ c (fst p) R); [exact HR| |exact H]. intros b o Hb. apply HF, in_range_iff in Hb as [-> C].
  exists r. unfold via1. rewrite Nat.eqb_refl. split; [reflexivity|]. assert (W : wtop r (stacks s (fst p) o)).
  { replace o with (snd p + (o - snd p)) by lia. apply (raw_top _ _ _ _ _ _ I). lia. }
  split; [now apply wtop_reads|auto].
Qed.
Lemma raw_fail {A} (F : nat -> nat -> Prop) s0 p n base r (a : A) (Q : A -> borrows -> mem -> Prop) s mm : wf s0 -> raw_inv s0 p n base r s ->
  (forall s', inplace_post s0 s' p n base None 0 -> Q a s' mm) -> good F (Return a) (final Q) s mm.
Proof.
  intros W0 (W & L & A1 & E & RL & Y & HY & C) H. cbn [good]. split; [rewrite A1; discriminate|]. apply H.
  split; [apply (wf_leave s0 s (fresh s0) W0); [lia|exact A1]|]. split; [cbn; lia|]. split; [cbn; now rewrite A1|]. split; [exact E|]. split; [|exact Logic.I].
  intros i Hi. cbn. rewrite C by exact Hi. eexists (_ :: Y). split; [reflexivity|]. constructor; [|exact HY]. cbn. split; [lia|reflexivity].
Qed.
Lemma own_fail {A} (F : nat -> nat -> Prop) s0 p n base g (a : A) (Q : A -> borrows -> mem -> Prop) s mm : wf s0 -> own_inv s0 p n base g s ->
  (forall s', inplace_post s0 s' p n base None 0 -> Q a s' mm) -> good F (Return a) (final Q) s mm.
Proof.
  intros W0 I H. assert (AG := own_added _ _ _ _ _ _ W0 I). destruct I as (W & L & A1 & E & AB & R & T & U & C).
  cbn [good]. split; [rewrite A1; discriminate|]. apply H.
  split; [apply (wf_leave s0 s (fresh s0) W0); [lia|exact A1]|]. split; [cbn; lia|]. split; [cbn; now rewrite A1|]. split; [exact E|]. split; [|exact Logic.I].
  intros i Hi. cbn. destruct (AB i Hi) as (X & -> & HX). exists (X ++ [g]). rewrite <- app_assoc. split; [reflexivity|]. apply Forall_app. split; [|exact AG].
  apply Forall_forall. intros x Hx. destruct (proj1 (Forall_forall _ _) HX x Hx) as [TX P]. split; [lia|]. rewrite A1 in P. exact (unprotected_less _ _ _ P).
Qed.
Lemma raw_give {A} (F : nat -> nat -> Prop) s0 p n base r l (f : nat -> A) (Q : A -> borrows -> mem -> Prop) s mm : wf s0 -> raw_inv s0 p n base r s -> l <= n ->
  (forall u s', inplace_post s0 s' p n base (Some (p, l)) u -> Q (f u) s' mm) ->
  good F (bbind (slice_mut p l r) (fun u => Return (f u))) (final Q) s mm.
Proof.
  intros W0 I LE H. apply good_bind. assert (I' := I). destruct I as (W & L & A1 & E & RL & Y & HY & C). apply good_slice_mut; [exact W| |].
  { apply (on_top_less _ _ n); [|exact LE]. exact (raw_top _ _ _ _ _ _ I'). }
  intros u s1 W1 U1 A2 E2 C2. cbn [good]. split; [rewrite A2, A1; discriminate|]. apply H.
  split; [apply (wf_leave s0 s1 (fresh s0) W0); [lia|congruence]|]. split; [cbn; lia|]. split; [cbn; now rewrite A2, A1|]. split; [|split].
  - intros b o Hr. cbn. rewrite E2; [now apply E|]. revert Hr. unfold in_range. lia.
  - intros i Hi. cbn. destruct (Nat.ltb_spec i l).
    + rewrite C2, C by assumption. eexists (_ :: _ :: Y). split; [reflexivity|]. constructor; [|constructor; [|exact HY]]; cbn; split; auto; lia.
    + rewrite E2, C by (unfold in_range; lia). eexists (_ :: Y). split; [reflexivity|]. constructor; [|exact HY]; cbn; split; auto; lia.
  - cbn. split; [lia|]. intros i Hi. cbn. rewrite C2 by exact Hi. do 2 eexists. split; [reflexivity|]. unfold grants. cbn. now rewrite Nat.eqb_refl.
Qed.
