(** Facts about BorrowsHeap.v *)
From Coq Require Import ZArith List Bool Lia ZifyBool ZifyNat.
From Verif Require Import Bytes Mem MemFacts Slices Codec Conc ConcFacts Reify ConcApi ConcApiFacts Isa Simd Ints Hex Base64 Base32 Forgiving Heap HeapFacts Public
  Borrows BorrowsApi BorrowsFacts BorrowsLib BorrowsCalls BorrowsBridge BorrowsForgiving BorrowsHeap.
Import ListNotations.
Open Scope nat_scope. Open Scope m_scope. Open Scope borrow_scope. Open Scope heap_scope.

(** ** What has to be allowed for the steps that the code of the model makes *)
Fixpoint hgood {A} (x : hcode A) (Q : A -> borrows -> mem -> Prop) (s : borrows) (m : mem) : Prop :=
  match x with
  | HReturn a => Q a s m
  | HBorrow y k => match perform y s with Some (t, s') => hgood (k t) Q s' m | None => False end
  | HExec v c k => forall y m1, c m = Ret y m1 -> exists p s1, follows c p /\ trun v p s m = Some (y, s1, m1) /\ hgood (k y) Q s1 m1
  | HPure c k => forall y m1, c m = Ret y m1 -> m1 = m /\ hgood (k y) Q s m
  | HAlloc M n k => forall b m1, alloc M n m = Ret b m1 -> hgood (k b (fresh s)) Q (fresh_block s b n) m1
  | HGrow M v n t k => forall w m1, reserve_exact M v n m = Ret w m1 ->
      if v_len v + n <=? length (m (v_block v)) then hgood (k v t) Q s m
      else exists s1, release s (v_block v) (length (m (v_block v))) t = Some s1 /\
             hgood (k w (fresh s1)) Q (fresh_block s1 (v_block w) (length (m1 (v_block w)))) m1
  | HFree b t k => exists s1, release s b (length (m b)) t = Some s1 /\ hgood k Q s1 (upd m b [])
  end.
Lemma hgood_runs {A B} (f : A -> B) (x : hcode A) Q : forall c s m r m', hannotates f x c -> c m = Ret r m' -> hgood x Q s m ->
  exists a s', hruns x s m a s' m' /\ f a = r /\ Q a s' m'.
Proof.
  induction x as [a|y k IH|X v c0 k IH|X c0 k IH|M n k IH|M v n t k IH|b t k IH]; cbn [hannotates hgood]; intros c s m r m' HA E G.
  - rewrite HA in E. injection E as <- <-. exists a, s. split; [constructor|]. auto.
  - destruct (perform y s) as [[t s1]|] eqn:EP; [|contradiction]. destruct (IH t c s1 m r m' (HA t) E G) as (a & s' & R & H).
    exists a, s'. split; [|exact H]. exact (hruns_borrow _ _ _ _ _ _ _ _ _ _ EP R).
  - destruct HA as (g & HC & HA). rewrite HC in E. unfold bind in E. destruct (c0 m) as [y m1| | |] eqn:E0; try discriminate E.
    destruct (G y m1 eq_refl) as (p & s1 & FO & ET & G'). destruct (IH y (g y) s1 m1 r m' (HA y) E G') as (a & s' & R & H).
    exists a, s'. split; [|exact H]. exact (hruns_exec _ _ _ _ _ _ _ _ _ _ _ _ _ _ FO ET R).
  - destruct HA as (g & HC & HA). rewrite HC in E. unfold bind in E. destruct (c0 m) as [y m1| | |] eqn:E0; try discriminate E.
    destruct (G y m1 eq_refl) as (-> & G'). destruct (IH y (g y) s m r m' (HA y) E G') as (a & s' & R & H).
    exists a, s'. split; [|exact H]. exact (hruns_pure _ _ _ _ _ _ _ _ _ _ E0 R).
  - destruct HA as (g & HC & HA). rewrite HC in E. unfold bind in E. destruct (alloc M n m) as [b m1| | |] eqn:E0; try discriminate E.
    destruct (IH b (fresh s) (g b) _ m1 r m' (HA _ _) E (G b m1 eq_refl)) as (a & s' & R & H).
    exists a, s'. split; [|exact H]. exact (hruns_alloc _ _ _ _ _ _ _ _ _ _ _ E0 R).
  - destruct HA as (g & HC & HA). rewrite HC in E. unfold bind in E. destruct (reserve_exact M v n m) as [w m1| | |] eqn:E0; try discriminate E.
    specialize (G w m1 eq_refl). destruct (Nat.leb_spec (v_len v + n) (length (m (v_block v)))) as [L|L].
    + assert (K : w = v /\ m1 = m). { unfold reserve_exact in E0. rewrite (proj2 (Nat.leb_le _ _) L) in E0. now injection E0 as <- <-. }
      destruct K as [-> ->]. destruct (IH v t (g v) s m r m' (HA _ _) E G) as (a & s' & R & H). exists a, s'. split; [|exact H].
      exact (hruns_stay _ _ _ _ _ _ _ _ _ _ _ L R).
    + destruct G as (s1 & ER & G). destruct (IH w (fresh s1) (g w) _ m1 r m' (HA _ _) E G) as (a & s' & R & H). exists a, s'. split; [|exact H].
      exact (hruns_move _ _ _ _ _ _ _ _ _ _ _ _ _ _ L E0 ER R).
  - destruct HA as (c' & HC & HA). rewrite HC in E. unfold bind, free in E. destruct G as (s1 & ER & G).
    destruct (IH c' s1 _ r m' HA E G) as (a & s' & R & H). exists a, s'. split; [|exact H]. exact (hruns_free _ _ _ _ _ _ _ _ _ _ _ ER eq_refl R).
Qed.
Lemma hgood_bind {A B} (x : hcode A) (g : A -> hcode B) Q : forall s m, hgood x (fun a s' m' => hgood (g a) Q s' m') s m -> hgood (hbind x g) Q s m.
Proof.
  induction x as [a|y k IH|X v c0 k IH|X c0 k IH|M n k IH|M v n t k IH|b t k IH]; cbn [hbind hgood]; intros s m G.
  - exact G.
  - destruct (perform y s) as [[t s1]|]; [now apply IH|exact G].
  - intros y m1 E. destruct (G y m1 E) as (p & s1 & FO & ET & G'). exists p, s1. split; [exact FO|]. split; [exact ET|]. now apply IH.
  - intros y m1 E. destruct (G y m1 E) as (EM & G'). split; [exact EM|]. now apply IH.
  - intros b m1 E. now apply IH, G.
  - intros w m1 E. specialize (G w m1 E). destruct (_ <=? _); [now apply IH|]. destruct G as (s1 & ER & G). exists s1. split; [exact ER|]. now apply IH.
  - destruct G as (s1 & ER & G). exists s1. split; [exact ER|]. now apply IH.
Qed.
Lemma hgood_imp {A} (x : hcode A) (Q Q' : A -> borrows -> mem -> Prop) : (forall a s m, Q a s m -> Q' a s m) -> forall s m, hgood x Q s m -> hgood x Q' s m.
Proof.
  intro H. induction x as [a|y k IH|X v c0 k IH|X c0 k IH|M n k IH|M v n t k IH|b t k IH]; cbn [hgood]; intros s m G.
  - auto.
  - destruct (perform y s) as [[t s1]|]; [now apply IH|exact G].
  - intros y m1 E. destruct (G y m1 E) as (p & s1 & FO & ET & G'). exists p, s1. split; [exact FO|]. split; [exact ET|]. now apply IH.
  - intros y m1 E. destruct (G y m1 E) as (EM & G'). split; [exact EM|]. now apply IH.
  - intros b m1 E. now apply IH, G.
  - intros w m1 E. specialize (G w m1 E). destruct (_ <=? _); [now apply IH|]. destruct G as (s1 & ER & G). exists s1. split; [exact ER|]. now apply IH.
  - destruct G as (s1 & ER & G). exists s1. split; [exact ER|]. now apply IH.
Qed.
(** functions that make borrows and nothing else *)
Fixpoint noexec {A} (x : bcode A) : Prop :=
  match x with Return _ => True | Borrow _ k => forall t, noexec (k t) | Exec _ _ _ => False end.
Lemma hgood_lift {A B} (F : nat -> nat -> Prop) (x : bcode A) (k : A -> hcode B) Q m : noexec x -> forall s,
  good F x (fun a s' _ => hgood (k a) Q s' m) s m -> hgood (hbind (lift x) k) Q s m.
Proof.
  induction x as [a|y j IH|X v c0 j IH]; cbn [noexec lift hbind good hgood]; intros N s G; [exact G| |contradiction].
  destruct (perform y s) as [[t s1]|]; [|exact G]. now apply IH.
Qed.
Lemma hgood_lift_runs {A B} (x : bcode A) (k : A -> hcode B) Q s m a s1 m1 : runs x s m a s1 m1 -> hgood (k a) Q s1 m1 -> hgood (hbind (lift x) k) Q s m.
Proof.
  induction 1 as [A a s m|A x j s m t s1 a s' m' E R IH|A X v c j p s m y s1 m1 a s' m' FO ET R IH]; cbn [lift hbind hgood]; intro G.
  - exact G.
  - rewrite E. now apply IH.
  - intros y' m1' E. assert (ER := trun_run _ _ _ _ _ _ _ ET). rewrite (follows_imp _ _ FO), E in ER. injection ER as -> ->. exists p, s1. auto.
Qed.
Lemma hgood_fn {A} (body : hcode A) Q s m : hgood body (fun a s1 m1 => active s1 <> [] /\ Q a (leave s1) m1) (enter s) m -> hgood (hfn body) Q s m.
Proof.
  intro H. unfold hfn. cbn [hgood perform]. apply hgood_bind. revert H. apply hgood_imp. intros a s1 m1 [N H]. cbn [hgood perform].
  unfold leave in H. destruct (active s1); [contradiction|exact H].
Qed.
Lemma hgood_pure {X B} (c : M X) (k : X -> hcode B) Q s m : (forall y m1, c m = Ret y m1 -> m1 = m /\ hgood (k y) Q s m) -> hgood (hbind (hpure c) k) Q s m.
Proof. exact (fun H => H). Qed.
Lemma hruns_ok {A} (x : hcode A) s m a s' m' : hruns x s m a s' m' -> state_ok s -> state_ok s'.
Proof.
  assert (FB : forall s b n, state_ok s -> state_ok (fresh_block s b n)).
  { intros s0 b n [H1 H2]. split; cbn [fresh_block stacks fresh active].
    - intros c Hc. apply H1 in Hc. lia.
    - intros b' o i Hi. destruct (b' =? b).
      + destruct (o <? n); [|contradiction]. destruct Hi as [<-|[]]. cbn. split; [lia|discriminate].
      + destruct (H2 b' o i Hi) as [T C]. split; [lia|]. intros c Hc. apply C in Hc. lia. }
  assert (RL : forall s b n t s1, release s b n t = Some s1 -> state_ok s -> state_ok s1).
  { intros s0 b n t s1 E [H1 H2]. unfold release in E. destruct (forallb _ _); [|discriminate E]. injection E as <-. split; [exact H1|].
    cbn. intros b' o i Hi. destruct (b' =? b); [contradiction|]. exact (H2 _ _ _ Hi). }
  induction 1 as [A a s m|A x k s m t s1 a s' m' E R IH|A X v c k p s m y s1 m1 a s' m' FO ET R IH|A X c k s m y a s' m' E R IH|A M n k s m b m1 a s' m' E R IH
    |A M v n t k s m a s' m' L R IH|A M v n t k s m w m1 s1 a s' m' L E ER R IH|A b t k s m s1 m1 a s' m' ER E R IH]; intro OK.
  - exact OK.
  - apply IH. exact (perform_ok _ _ _ _ OK E).
  - apply IH. exact (trun_ok _ _ _ _ _ _ _ OK ET).
  - now apply IH.
  - apply IH, FB, OK.
  - now apply IH.
  - apply IH, FB. exact (RL _ _ _ _ _ ER OK).
  - apply IH. exact (RL _ _ _ _ _ ER OK).
Qed.

(** ** Annotations *)
Lemma hannotates_ext {A B} (f : A -> B) (x : hcode A) : forall c c', (forall m, c' m = c m) -> hannotates f x c -> hannotates f x c'.
Proof.
  induction x as [a|y k IH|X v c0 k IH|X c0 k IH|M n k IH|M v n t k IH|b t k IH]; cbn [hannotates]; intros c c' E H.
  - intro m. now rewrite E.
  - intro t. exact (IH t c c' E (H t)).
  - destruct H as (g & HC & H). exists g. split; [intro m; now rewrite E|exact H].
  - destruct H as (g & HC & H). exists g. split; [intro m; now rewrite E|exact H].
  - destruct H as (g & HC & H). exists g. split; [intro m; now rewrite E|exact H].
  - destruct H as (g & HC & H). exists g. split; [intro m; now rewrite E|exact H].
  - destruct H as (g & HC & H). exists g. split; [intro m; now rewrite E|exact H].
Qed.
Lemma bind_assoc_eq {A B C} (c : M A) (g : A -> M B) (k : B -> M C) m : bind (bind c g) k m = bind c (fun a => bind (g a) k) m.
Proof. unfold bind. now destruct (c m). Qed.
Lemma bind_eq {A B} (c c' : M A) (k : A -> M B) m : c m = c' m -> bind c k m = bind c' k m.
Proof. unfold bind. now intros ->. Qed.
Lemma hannotates_bind {A B C D} (f : A -> B) (x : hcode A) (g : A -> hcode C) (h : C -> D) : forall c (k : B -> M D), hannotates f x c ->
  (forall a, hannotates h (g a) (k (f a))) -> hannotates h (hbind x g) (bind c k).
Proof.
  induction x as [a|y j IH|X v c0 j IH|X c0 j IH|M n j IH|M v n t j IH|b t j IH]; cbn [hannotates hbind]; intros c k HA HG.
  - apply (hannotates_ext _ _ (k (f a))); [|apply HG]. intro m. unfold bind. now rewrite HA.
  - intro t. now apply IH.
  - destruct HA as (g0 & HC & HA). exists (fun y => bind (g0 y) k). split; [|intro y; now apply IH]. intro m. rewrite (bind_eq _ _ _ _ (HC m)). apply bind_assoc_eq.
  - destruct HA as (g0 & HC & HA). exists (fun y => bind (g0 y) k). split; [|intro y; now apply IH]. intro m. rewrite (bind_eq _ _ _ _ (HC m)). apply bind_assoc_eq.
  - destruct HA as (g0 & HC & HA). exists (fun y => bind (g0 y) k). split; [|intros; now apply IH]. intro m. rewrite (bind_eq _ _ _ _ (HC m)). apply bind_assoc_eq.
  - destruct HA as (g0 & HC & HA). exists (fun y => bind (g0 y) k). split; [|intros; now apply IH]. intro m. rewrite (bind_eq _ _ _ _ (HC m)). apply bind_assoc_eq.
  - destruct HA as (c' & HC & HA). exists (bind c' k). split; [|now apply IH]. intro m. rewrite (bind_eq _ _ _ _ (HC m)). apply bind_assoc_eq.
Qed.
Lemma hannotates_fn {A B} (f : A -> B) (x : hcode A) c : hannotates f x c -> hannotates f (hfn x) c.
Proof.
  intro H. unfold hfn. cbn [hannotates]. intros _. apply (hannotates_ext _ _ (bind c (fun y => ret y))); [apply bind_ret_eq|].
  apply (hannotates_bind f); [exact H|]. intro a. cbn [hannotates]. now intros.
Qed.
Lemma hannotates_lift {A B} (f : A -> B) (x : bcode A) : forall c, annotates f x c -> hannotates f (lift x) c.
Proof.
  induction x as [a|y j IH|X v c0 j IH]; cbn [annotates lift hannotates]; intros c H; auto. destruct H as (g & HC & H). exists g. auto.
Qed.
Lemma hannotates_borrow {A B C} (f : B -> C) (x : bcode A) (g : A -> hcode B) c : noexec x -> (forall a, hannotates f (g a) c) -> hannotates f (hbind (lift x) g) c.
Proof. intros N H. induction x as [a|y j IH|X v c0 j IH]; cbn [noexec lift hbind hannotates] in *; [apply H|intro t; now apply IH|contradiction]. Qed.
Lemma hannotates_pure {X B C} (f : B -> C) (c : M X) (k : X -> M C) (g : X -> hcode B) : (forall y, hannotates f (g y) (k y)) -> hannotates f (hbind (hpure c) g) (bind c k).
Proof. intro H. exists k. auto. Qed.
Lemma hannotates_exec {X B C} (f : B -> C) v (c : M X) (k : X -> M C) (g : X -> hcode B) : (forall y, hannotates f (g y) (k y)) -> hannotates f (hbind (hexec v c) g) (bind c k).
Proof. intro H. exists k. auto. Qed.
Ltac nox := cbv [fn do_ shared_param mut_param reborrow reborrow_mut slice_len as_ptr as_mut_ptr slice_parts slice_mut into_raw from_raw from_utf8_unchecked_mut
    vec_of_box_t into_boxed_bytes_t string_of_box_t assume_init_t boxed_str_t hex_dl_b];
  cbn [bbind noexec]; intros; try exact I.

(** ** One byte *)
Lemma locate_in w t g st : In g st -> grants w t g = true -> locate w t st <> None.
Proof.
  induction st as [|i st IH]; intros H G; [contradiction|]. cbn [locate]. destruct (grants w t i) eqn:E; [discriminate|].
  destruct H as [->|H]; [congruence|]. specialize (IH H G). destruct (locate w t st) as [[[? ?] ?]|]; [discriminate|contradiction].
Qed.
Definition free_of (act : list nat) (st : stack) : Prop := Forall (fun x => protected act x = false) st.
Lemma may_free_in act t g st : In g st -> grants true t g = true -> free_of act st -> may_free act t st = true.
Proof.
  intros H G F. unfold may_free. destruct (locate true t st) eqn:E; [|now apply (locate_in true t g st) in E]. now rewrite (unprotected_all _ _ F).
Qed.
Lemma may_free_write act t st : may_free act t st = true -> write_at act t st <> None.
Proof.
  unfold may_free, write_at. destruct (locate true t st) as [[[a g] b]|] eqn:E; [|discriminate]. apply locate_some in E as (-> & _).
  destruct (split_above g a) as [p k] eqn:ES. apply split_above_in in ES. subst a. rewrite !existsb_app. destruct (existsb (protected act) p); discriminate.
Qed.
Lemma owns_write s b n t : owns s b n t -> may_write s (b, 0) n t.
Proof. intros H i Hi. cbn [fst snd]. rewrite Nat.add_0_l. now apply may_free_write, H. Qed.
Lemma owns_release s b n t : owns s b n t ->
  release s b n t = Some {| stacks := fun b' o => if b' =? b then [] else stacks s b' o; fresh := fresh s; active := active s |}.
Proof.
  intro H. unfold release. replace (forallb _ (seq 0 n)) with true; [reflexivity|]. symmetry. apply forallb_forall. intros i Hi. apply in_seq in Hi. apply H. lia.
Qed.

(** ** Chains of pointers to a box *)
Lemma good_ok (F : nat -> nat -> Prop) {A} (x : bcode A) (Q : A -> borrows -> mem -> Prop) mm : noexec x -> forall s, state_ok s ->
  good F x (fun a s' mm' => state_ok s' -> Q a s' mm') s mm -> good F x Q s mm.
Proof.
  induction x as [a|y j IH|X v c0 j IH]; cbn [noexec good]; intros N s OK G; [auto| |contradiction].
  destruct (perform y s) as [[t s1]|] eqn:E; [|exact G]. apply IH; auto. exact (perform_ok _ _ _ _ OK E).
Qed.
Lemma noexec_bind {A B} (x : bcode A) (k : A -> bcode B) : noexec x -> (forall a, noexec (k a)) -> noexec (bbind x k).
Proof. intros N H. induction x as [a|y j IH|X v c0 j IH]; cbn [noexec bbind] in *; [apply H|intro t; now apply IH|contradiction]. Qed.
Lemma noexec_fn {A} (x : bcode A) : noexec x -> noexec (fn x).
Proof. intro N. unfold fn. cbn [noexec]. intros _. apply noexec_bind; [exact N|]. intro a. cbn [noexec]. auto. Qed.
Lemma ok_enter s : state_ok s -> state_ok (enter s).
Proof. intro OK. exact (perform_ok Enter s (fresh s) (enter s) OK eq_refl). Qed.
Definition new_item (P : perm) (u : nat) : item := {| i_perm := P; i_tag := u; i_call := None |}.
Definition op_post (P : perm) (p : ptr) (n : nat) (g : item) (base : nat -> stack) (s : borrows) (Q : nat -> borrows -> mem -> Prop) (mm : mem) : Prop :=
  forall u Y s', wf s' -> fresh s <= u < fresh s' -> active s' = active s -> elsewhere p n s s' -> added s Y ->
    (forall i, i < n -> stacks s' (fst p) (snd p + i) = new_item P u :: Y ++ g :: base i) -> Q u s' mm.
(** from a unique pointer with anything above that may go *)
Definition op (P : perm) (p : ptr) (n : nat) (x : nat -> bcode nat) : Prop := (forall t, noexec (x t)) /\
  forall (F : nat -> nat -> Prop) (Q : nat -> borrows -> mem -> Prop) g base s mm,
  i_perm g = Unique -> i_tag g < fresh s -> state_ok s -> above s p n g base -> op_post P p n g base s Q mm -> good F (x (i_tag g)) Q s mm.
(** from a pointer that is on top *)
Definition op_top (P0 P : perm) (p : ptr) (n : nat) (x : nat -> bcode nat) : Prop := (forall t, noexec (x t)) /\
  forall (F : nat -> nat -> Prop) (Q : nat -> borrows -> mem -> Prop) g base s mm,
  i_perm g = P0 -> i_tag g < fresh s -> state_ok s -> (forall i, i < n -> stacks s (fst p) (snd p + i) = g :: base i) -> op_post P p n g base s Q mm -> good F (x (i_tag g)) Q s mm.
Lemma op_weak P p n x : op P p n x -> op_top Unique P p n x.
Proof.
  intros [N H]. split; [exact N|]. intros F Q g base s mm U L W C HQ. apply (H F Q g base); auto. intros i Hi. exists []. rewrite C by exact Hi.
  split; [reflexivity|constructor].
Qed.
Lemma post_next P P' p n g base s s1 Q mm u Y : fresh s <= u < fresh s1 -> active s1 = active s -> elsewhere p n s s1 -> added s Y ->
  op_post P' p n g base s Q mm -> op_post P' p n (new_item P u) (fun i => Y ++ g :: base i) s1 Q mm.
Proof.
  intros [U1 U2] A1 E1 HY HQ v Z s2 W2 [V1 V2] A2 E2 HZ C2. apply (HQ v (Z ++ new_item P u :: Y)); auto; [lia|congruence| | |].
  - intros b o H. now rewrite E2, E1.
  - apply Forall_app. split.
    + refine (Forall_impl _ _ HZ). intros x [T C]. split; [lia|]. now rewrite A1 in C.
    + constructor; [|exact HY]. split; [cbn; lia|reflexivity].
  - intros i Hi. rewrite C2 by exact Hi. now rewrite <- app_assoc.
Qed.
Lemma op_seq P P' p n x y : op P p n x -> op_top P P' p n y -> op P' p n (fun t => r <== x t ;; y r).
Proof.
  intros [NX HX] [NY HY]. split; [intro; now apply noexec_bind|]. intros F Q g base s mm U L W HA HQ. apply good_bind, good_ok; [apply NX|exact W|].
  apply (HX F _ g base); auto. intros u Y s1 W1 U1 A1 E1 HY1 C1 OK1.
  apply (HY F Q (new_item P u) (fun i => Y ++ g :: base i)); auto; [cbn; lia|]. eapply post_next; eassumption.
Qed.
Lemma top_seq P0 P P' p n x y : op_top P0 P p n x -> op_top P P' p n y -> op_top P0 P' p n (fun t => r <== x t ;; y r).
Proof.
  intros [NX HX] [NY HY]. split; [intro; now apply noexec_bind|]. intros F Q g base s mm U L W HA HQ. apply good_bind, good_ok; [apply NX|exact W|].
  apply (HX F _ g base); auto. intros u Y s1 W1 U1 A1 E1 HY1 C1 OK1.
  apply (HY F Q (new_item P u) (fun i => Y ++ g :: base i)); auto; [cbn; lia|]. eapply post_next; eassumption.
Qed.
Lemma fn_post P p n g base s Q mm : wf s -> op_post P p n g base s Q mm -> op_post P p n g base (enter s) (fun a s1 mm1 => active s1 <> [] /\ Q a (leave s1) mm1) mm.
Proof.
  intros W HQ u Y s1 W1 [U1 U2] A1 E1 HY C1. cbn [fresh active enter] in *. split; [rewrite A1; discriminate|]. apply (HQ u Y).
  - apply (wf_leave s s1 (fresh s)); [exact W|lia|exact A1].
  - cbn. lia.
  - cbn. now rewrite A1.
  - exact E1.
  - refine (Forall_impl _ _ HY). intros x0 [T C]. cbn in T, C. split; [lia|]. exact (unprotected_less _ _ _ C).
  - exact C1.
Qed.
Lemma top_fn P0 P p n x : op_top P0 P p n x -> op_top P0 P p n (fun t => fn (x t)).
Proof.
  intros [NX HX]. split; [intro; now apply noexec_fn|]. intros F Q g base s mm U L W HA HQ. apply good_fn.
  apply (HX F _ g base); auto; [cbn; lia|now apply ok_enter|]. apply fn_post; [now apply ok_wf|exact HQ].
Qed.
Lemma above_enter s p n g base : state_ok s -> above s p n g base -> above (enter s) p n g base.
Proof.
  intros OK HA i Hi. destruct (HA i Hi) as (X & EX & HX). exists X. split; [exact EX|]. apply Forall_forall. intros x Hx.
  destruct (proj1 (Forall_forall _ _) HX x Hx) as [T C]. split; [exact T|]. cbn [active enter].
  rewrite (protected_enter s (fst p) (snd p + i) x OK); [exact C|]. rewrite EX. apply in_or_app. auto.
Qed.
Lemma fn_param P p n x : op_top Unique P p n x -> op P p n (fun t => fn (u <== mut_param p n t ;; x u)).
Proof.
  intros [NX HX]. split; [intro; apply noexec_fn, noexec_bind; [nox|exact NX]|]. intros F Q g base s mm U L OK HA HQ.
  apply good_fn, good_bind, good_ok; [nox|now apply ok_enter|].
  unfold mut_param. apply (good_mut F true p n g base); [exact U|now apply above_enter|]. intros s1 F1 A1 E1 C1 OK1. cbn [fresh active enter hd_error] in *.
  set (g1 := {| i_perm := Unique; i_tag := S (fresh s); i_call := Some (fresh s) |}) in *. change (S (fresh s)) with (i_tag g1).
  apply (HX F _ g1 (fun i => g :: base i)); auto; [cbn; lia|].
  intros u Y s2 W2 [U1 U2] A2 E2 HY C2. split; [rewrite A2, A1; discriminate|]. apply (HQ u (Y ++ [g1])).
  - apply (wf_leave s s2 (fresh s)); [now apply ok_wf|lia|congruence].
  - cbn. lia.
  - cbn. now rewrite A2, A1.
  - intros b o H. cbn. rewrite E2, E1 by exact H. reflexivity.
  - apply Forall_app. split.
    + refine (Forall_impl _ _ HY). intros x0 [T C]. split; [lia|]. rewrite A1 in C. exact (unprotected_less _ _ _ C).
    + constructor; [|constructor]. split; [cbn; lia|]. apply (unprotected_call s g1 (fresh s)); [now apply ok_wf|lia|reflexivity].
  - intros i Hi. cbn. rewrite C2 by exact Hi. now rewrite <- app_assoc.
Qed.
Lemma op_reborrow_mut p n : op Unique p n (reborrow_mut p n).
Proof.
  split; [nox|]. intros F Q g base s mm U L OK HA HQ. unfold reborrow_mut. apply (good_mut F false p n g base); [exact U|exact HA|]. intros s1 F1 A1 E1 C1.
  apply (HQ (fresh s) []); auto; [|lia|constructor]. intros c Hc. rewrite A1 in Hc. apply (ok_wf _ OK) in Hc. lia.
Qed.
Lemma top_reborrow_mut P p n : P = Unique \/ P = SharedRW -> op_top P Unique p n (reborrow_mut p n).
Proof.
  intro HP. split; [nox|]. intros F Q g base s mm U L OK HA HQ. unfold reborrow_mut. apply good_from_top.
  - intros i Hi. rewrite HA by exact Hi. do 2 eexists. split; [reflexivity|]. unfold grants. rewrite U, Nat.eqb_refl. destruct HP as [-> | ->]; reflexivity.
  - intros s1 F1 A1 E1 C1. apply (HQ (fresh s) []); auto; [|lia|constructor|].
    + intros c Hc. rewrite A1 in Hc. apply (ok_wf _ OK) in Hc. lia.
    + intros i Hi. rewrite C1, HA by exact Hi. reflexivity.
Qed.
Lemma top_raw p n : op_top Unique SharedRW p n (fun t => do_ (Retag RawMut false t p n)).
Proof.
  split; [nox|]. intros F Q g base s mm U L OK HA HQ. apply (good_raw F p n g base); [exact U|exact HA|]. intros s1 F1 A1 E1 C1.
  apply (HQ (fresh s) []); auto; [|lia|constructor]. intros c Hc. rewrite A1 in Hc. apply (ok_wf _ OK) in Hc. lia.
Qed.
Lemma op_as_mut_ptr p n : op SharedRW p n (as_mut_ptr p n).
Proof.
  split; [nox|]. intros F Q g base s mm U L OK HA HQ. apply (good_as_mut_ptr F p n g base); [now apply ok_wf|exact U|exact HA|].
  intros r X s' W' L' A' E' HX C'. now apply (HQ r X).
Qed.
Lemma op_into_raw p n : op SharedRW p n (into_raw p n).
Proof. apply fn_param. apply (top_seq Unique Unique SharedRW); [apply op_weak, op_reborrow_mut|apply top_raw]. Qed.
Lemma top_from_raw p n : op_top SharedRW Unique p n (from_raw p n).
Proof. apply top_fn, top_reborrow_mut. auto. Qed.
Lemma op_from_utf8 p n : op Unique p n (from_utf8_unchecked_mut p n).
Proof. apply fn_param. apply (top_seq Unique SharedRW Unique); [apply top_raw|]. apply top_reborrow_mut. auto. Qed.
Lemma op_vec_of_box p n : op SharedRW p n (vec_of_box_t p n).
Proof. apply fn_param, op_weak, op_into_raw. Qed.
Lemma op_into_boxed_bytes p n : op Unique p n (into_boxed_bytes_t p n).
Proof. apply fn_param, op_weak. apply (op_seq SharedRW); [apply op_into_raw|apply top_from_raw]. Qed.
Lemma op_string_of_box p n : op SharedRW p n (string_of_box_t p n).
Proof. apply fn_param, op_weak. apply (op_seq Unique); [apply op_into_boxed_bytes|apply op_weak, op_vec_of_box]. Qed.
Lemma op_boxed_str p n : op Unique p n (boxed_str_t p n).
Proof.
  apply fn_param, op_weak. apply (op_seq SharedRW _ _ _ (into_raw p n) (fun r => u <== reborrow_mut p n r ;; w <== from_utf8_unchecked_mut p n u ;;
    r <== do_ (Retag RawMut false w p n) ;; from_raw p n r)); [apply op_into_raw|].
  apply (top_seq SharedRW Unique _ _ _ (reborrow_mut p n) (fun u => w <== from_utf8_unchecked_mut p n u ;; r <== do_ (Retag RawMut false w p n) ;; from_raw p n r)).
  { apply top_reborrow_mut. auto. }
  apply op_weak. apply (op_seq Unique _ _ _ (from_utf8_unchecked_mut p n) (fun w => r <== do_ (Retag RawMut false w p n) ;; from_raw p n r)); [apply op_from_utf8|].
  apply (top_seq Unique SharedRW); [apply top_raw|apply top_from_raw].
Qed.
Lemma ro_then P p n (pre : nat -> bcode nat) x : (forall t, noexec (pre t)) -> (forall t, ro_op (pre t) p n t) -> op P p n x -> op_top Unique P p n (fun t => pre t ;=; x t).
Proof.
  intros NP HP [NX HX]. split; [intro; now apply noexec_bind|]. intros F Q g base s mm U L OK HA HQ. apply good_bind, good_ok; [apply NP|exact OK|].
  apply HP; [now apply ok_wf|exact L| |].
  - intros i Hi. rewrite HA by exact Hi. apply wtop_reads. do 2 eexists. split; [reflexivity|]. unfold grants. now rewrite U, Nat.eqb_refl.
  - intros v s1 W1 ST L1 R1 OK1. assert (ST' := ST). destruct ST as (F1 & A1 & E1 & _).
    apply (HX F Q g base); auto; [lia| |].
    + apply (above_ro _ _ s); [exact ST'|exact L|]. intros i Hi. exists []. rewrite HA by exact Hi. split; [reflexivity|constructor].
    + intros u Y s2 W2 [U1 U2] A2 E2 HY C2. apply (HQ u Y); auto; [lia|congruence| |].
      * intros b o H. now rewrite E2, E1.
      * refine (Forall_impl _ _ HY). intros x0 [T C]. split; [lia|]. now rewrite A1 in C.
Qed.
Lemma ro_chain x (y : nat -> bcode nat) p n t : ro_op x p n t -> (forall u, ro_op (y u) p n u) -> ro_op (bbind x y) p n t.
Proof.
  intros HX HY F Q s mm W L R H. apply good_bind. apply HX; [exact W|exact L|exact R|]. intros u s1 W1 S1 L1 R1. apply HY; auto.
  intros v s2 W2 S2 L2 R2. apply H; auto. now apply (ro_trans _ _ _ s1).
Qed.
Lemma op_assume_init p n : op Unique p n (assume_init_t p n).
Proof.
  apply fn_param. assert (H := ro_then Unique p n (fun t => u <== reborrow p n t ;; slice_len p n u) (fun t => r <== into_raw p n t ;; from_raw p n r)).
  apply H; clear H.
  - nox.
  - intro t. apply ro_chain; [apply ro_reborrow|]. intro u. apply ro_len.
  - apply (op_seq SharedRW); [apply op_into_raw|apply top_from_raw].
Qed.
