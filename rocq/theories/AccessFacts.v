(** Facts about the addresses that the functions access (Access.v), for the programs of Reify.v. Lemmas only. *)
From Coq Require Import ZArith List Bool Lia.
From Verif Require Import Bytes Mem MemFacts Slices Isa Simd Alsw Ints Conc ConcFacts ConcBase64Facts Reify Access.
From Verif Require Hex Base64 Base32 Uuid Unicode Forgiving.
Import ListNotations.
Open Scope nat_scope. Open Scope m_scope.

(** ** Values that may differ between two runs.
    [rel]: pointers and lengths are the same in both runs, bytes and vectors need not be. [stop]: a value with which a
    function ends early. *)
Class Rel (A : Type) := { rel : A -> A -> Prop; stop : A -> Prop }.
#[export] Instance rel_nat : Rel nat := {| rel := eq; stop _ := False |}.
#[export] Instance rel_unit : Rel unit := {| rel _ _ := True; stop _ := False |}.
#[export] Instance rel_Z : Rel Z := {| rel _ _ := True; stop _ := False |}.
#[export] Instance rel_list A : Rel (list A) := {| rel _ _ := True; stop _ := False |}.
#[export] Instance rel_bool : Rel bool := {| rel _ _ := True; stop _ := False |}.
(** ... for functions that return [false] as soon as they can *)
Definition rel_answer : Rel bool := {| rel _ _ := True; stop b := b = false |}.
#[export] Instance rel_prod A B (RA : Rel A) (RB : Rel B) : Rel (A * B) :=
  {| rel x y := rel (fst x) (fst y) /\ rel (snd x) (snd y); stop _ := False |}.
#[export] Instance rel_ptr : Rel ptr := {| rel := eq; stop _ := False |}.
(** ... for lengths that depend on the padding *)
Definition rel_any A : Rel A := {| rel _ _ := True; stop _ := False |}.
#[export] Instance rel_result A (RA : Rel A) : Rel (result A) :=
  {| rel x y := match x, y with Ok a, Ok b => rel a b | _, _ => False end; stop x := x = Err |}.
#[export] Instance rel_option A (RA : Rel A) : Rel (option A) :=
  {| rel x y := match x, y with Some a, Some b => rel a b | _, _ => False end; stop x := x = None |}.

(** The two programs access the same addresses, until one of them stops. *)
Inductive alike {A} {RA : Rel A} : prog A -> prog A -> Prop :=
| alike_done a b : rel a b -> alike (Done a) (Done b)
| alike_fail_l x p : alike (Fail x) p
| alike_fail_r x p : alike p (Fail x)
| alike_stop_l a p : stop a -> alike (Done a) p
| alike_stop_r a p : stop a -> alike p (Done a)
| alike_size b k k' : (forall n, alike (k n) (k' n)) -> alike (Size b k) (Size b k')
| alike_load q n k k' : (forall l l', alike (k l) (k' l')) -> alike (Load q n k) (Load q n k')
| alike_store q xs xs' k k' : alike k k' -> alike (Store q xs k) (Store q xs' k').

Lemma store_sizes q xs m m' : store q xs m = Ret tt m' -> same_sizes m m'.
Proof.
  unfold store. destruct (_ <=? _) eqn:E; [|discriminate]. intros [= <-] b. apply Nat.leb_le in E.
  destruct (Nat.eq_dec b (fst q)) as [->|N]; [rewrite upd_same|now rewrite upd_other]. symmetry. now apply splice_length.
Qed.
Lemma alike_trace {A} {RA : Rel A} (p p' : prog A) : alike p p' -> forall m m', same_sizes m m' ->
  (initial_part (trace p m) (trace p' m') \/ initial_part (trace p' m') (trace p m)) /\
  forall a a' m1 m1', run p m = Ret a m1 -> run p' m' = Ret a' m1' -> ~ stop a -> ~ stop a' -> trace p m = trace p' m' /\ rel a a' /\ same_sizes m1 m1'.
Proof.
  induction 1 as [a b R|x p|x p|a p S|a p S|b k k' _ IH|q n k k' _ IH|q xs xs' k k' _ IH]; intros m m' E; cbn [trace].
  - split; [left; exists []; reflexivity|]. intros ? ? ? ? [= <- <-] [= <- <-] _ _. auto.
  - split; [left; eexists; reflexivity|]. destruct x; discriminate.
  - split; [right; eexists; reflexivity|]. destruct x; discriminate.
  - split; [left; eexists; reflexivity|]. now intros ? ? ? ? [= <- <-] _ N.
  - split; [right; eexists; reflexivity|]. now intros ? ? ? ? _ [= <- <-] _ N.
  - cbn [run]. rewrite (E b). now apply IH.
  - cbn [run]. unfold bind. destruct (load q n m) as [l m2| | |] eqn:L.
    2-4: (split; [left; eexists; reflexivity|discriminate]).
    destruct (load q n m') as [l' m2'| | |] eqn:L'.
    2-4: (split; [right; eexists; reflexivity|discriminate]).
    assert (m2 = m) as -> by (unfold load in L; destruct (_ <=? _); [|easy]; destruct (sequence _); [|easy]; congruence).
    assert (m2' = m') as -> by (unfold load in L'; destruct (_ <=? _); [|easy]; destruct (sequence _); [|easy]; congruence).
    destruct (IH l l' m m' E) as [[[u U]|[u U]] F]; (split; [|intros a a' m1 m1' R1 R2 S1 S2; destruct (F a a' m1 m1' R1 R2 S1 S2) as (-> & G); auto]).
    + left. exists u. cbn. now rewrite U.
    + right. exists u. cbn. now rewrite U.
  - cbn [run]. unfold bind. destruct (store q xs m) as [l m2| | |] eqn:L.
    2-4: (split; [left; eexists; reflexivity|discriminate]).
    destruct (store q xs' m') as [l' m2'| | |] eqn:L'.
    2-4: (split; [right; eexists; reflexivity|discriminate]).
    assert (E' : same_sizes m2 m2').
    { intro b. destruct l, l'. transitivity (length (m b)); [symmetry; exact (store_sizes _ _ _ _ L b)|].
      transitivity (length (m' b)); [apply E|exact (store_sizes _ _ _ _ L' b)]. }
    destruct (IH m2 m2' E') as [[[u U]|[u U]] F]; (split; [|intros a a' m1 m1' R1 R2 S1 S2; destruct (F a a' m1 m1' R1 R2 S1 S2) as (-> & G); auto]).
    + left. exists u. cbn. now rewrite U.
    + right. exists u. cbn. now rewrite U.
Qed.

(** ** How programs are put together *)
Definition stops {A} {RA : Rel A} (p : prog A) : Prop := match p with Done a => stop a | Fail _ => True | _ => False end.
Lemma stops_l {A} {RA : Rel A} (p p' : prog A) : stops p -> alike p p'.
Proof. destruct p; cbn [stops]; intro H; try easy; now constructor. Qed.
Lemma stops_r {A} {RA : Rel A} (p p' : prog A) : stops p' -> alike p p'.
Proof. destruct p'; cbn [stops]; intro H; try easy; now constructor. Qed.
Lemma alk_bind {A B} {RA : Rel A} {RB : Rel B} (p p' : prog A) (f f' : A -> prog B) :
  alike p p' -> (forall a a', rel a a' -> alike (f a) (f' a')) -> (forall a, stop a -> stops (f a) /\ stops (f' a)) ->
  alike (pbind p f) (pbind p' f').
Proof.
  intros H K S. induction H as [a b R|x p|x p|a p T|a p T|b k k' _ IH|q n k k' _ IH|q xs xs' k k' _ IH]; cbn [pbind].
  - now apply K.
  - constructor.
  - constructor.
  - apply stops_l, S, T.
  - apply stops_r, S, T.
  - now constructor.
  - now constructor.
  - now constructor.
Qed.
Lemma alk_answer (p p' : prog bool) : alike p p' -> @alike bool rel_answer p p'.
Proof. induction 1; now constructor. Qed.
(** with another relation between the results *)
Lemma alk_bind_with {A B} (RA : Rel A) {RB : Rel B} (p p' : prog A) (f f' : A -> prog B) :
  @alike A RA p p' -> (forall a a', rel a a' -> alike (f a) (f' a')) -> (forall a, stop a -> stops (f a) /\ stops (f' a)) ->
  alike (pbind p f) (pbind p' f').
Proof. apply alk_bind. Qed.
Section Combine.
Context {H H' : Prop} {P P' : nat -> Prop}.
Lemma alk_rei_bind {A B} {RA : Rel A} {RB : Rel B} {Q Q' : A -> Prop} {S S' : B -> Prop} {c c' : M A} {f f' : A -> M B}
  (r : reified H P Q c) (r' : reified H' P' Q' c') (K : forall a, reified (H /\ Q a) P S (f a)) (K' : forall a, reified (H' /\ Q' a) P' S' (f' a)) :
  alike (the_prog r) (the_prog r') -> (forall a a', rel a a' -> alike (the_prog (K a)) (the_prog (K' a'))) ->
  (forall a, stop a -> stops (the_prog (K a)) /\ stops (the_prog (K' a))) ->
  alike (the_prog (rei_bind Q S c f r K)) (the_prog (rei_bind Q' S' c' f' r' K')).
Proof. exact (alk_bind _ _ _ _). Qed.
Lemma alk_rei_try {A B} {RA : Rel A} {RB : Rel B} {Q Q' : A -> Prop} {S S' : B -> Prop} {c c' : M (result A)} {f f' : A -> M (result B)}
  (r : reified H P (ok Q) c) (r' : reified H' P' (ok Q') c') (K : forall a, reified (H /\ Q a) P (ok S) (f a)) (K' : forall a, reified (H' /\ Q' a) P' (ok S') (f' a)) :
  alike (the_prog r) (the_prog r') -> (forall a a', rel a a' -> alike (the_prog (K a)) (the_prog (K' a'))) ->
  alike (the_prog (rei_try Q S c f r K)) (the_prog (rei_try Q' S' c' f' r' K')).
Proof.
  intros L M. apply alk_bind; [exact L| |].
  - intros [a|] [a'|] E; try easy. now apply M.
  - intros a E. cbn in E. subst a. split; exact eq_refl.
Qed.
Lemma alk_rei_mono {A} {RA : Rel A} {Q Q' R R' : A -> Prop} {c c' : M A} k k' (r : reified H P Q c) (r' : reified H' P' Q' c') :
  alike (the_prog r) (the_prog r') -> alike (the_prog (rei_mono Q R c k r)) (the_prog (rei_mono Q' R' c' k' r')).
Proof. exact (fun h => h). Qed.
Lemma alk_rei_any {A} {RA : Rel A} {Q Q' : A -> Prop} {c c' : M A} (r : reified H P Q c) (r' : reified H' P' Q' c') :
  alike (the_prog r) (the_prog r') -> alike (the_prog (rei_any Q c r)) (the_prog (rei_any Q' c' r')).
Proof. exact (fun h => h). Qed.
Lemma alk_rei_lift {A} {RA : Rel A} (o o' : option A) : (forall a a', o = Some a -> o' = Some a' -> alike (Done a) (Done a')) ->
  alike (the_prog (@rei_lift H P A o)) (the_prog (@rei_lift H' P' A o')).
Proof. intro K. destruct o, o'; cbn; [now apply K|apply alike_fail_r|apply alike_fail_l|apply alike_fail_l]. Qed.
Lemma alk_rei_padd p k : alike (the_prog (@rei_padd H P p k)) (the_prog (@rei_padd H' P' p k)).
Proof. cbn. constructor. intro n. destruct (_ <=? _); constructor. exact eq_refl. Qed.
Lemma alk_rei_psub p k : alike (the_prog (@rei_psub H P p k)) (the_prog (@rei_psub H' P' p k)).
Proof. cbn. unfold p_psub. destruct (_ <=? _); constructor. exact eq_refl. Qed.
Lemma alk_rei_load p n : alike (the_prog (@rei_load H P p n)) (the_prog (@rei_load H' P' p n)).
Proof. cbn. constructor. intros. constructor. exact I. Qed.
Lemma alk_rei_store p xs xs' K K' : alike (the_prog (@rei_store H P p xs K)) (the_prog (@rei_store H' P' p xs' K')).
Proof. cbn. constructor. constructor. exact I. Qed.
Lemma alk_rei_table t i t' i' : alike (the_prog (@rei_table H P t i)) (the_prog (@rei_table H' P' t' i')).
Proof.
  unfold rei_table, table_get. destruct (i <? 0)%Z; [constructor|]. destruct (nth_error t _); [|constructor].
  destruct (i' <? 0)%Z; [constructor|]. destruct (nth_error t' _); constructor. exact I.
Qed.
Lemma alk_rei_offset p q : alike (the_prog (@rei_offset H P p q)) (the_prog (@rei_offset H' P' p q)).
Proof. unfold rei_offset, offset_from. destruct (_ && _)%bool; constructor. exact eq_refl. Qed.
Lemma alk_rei_psub_len n k : alike (the_prog (@rei_psub_len H P n k)) (the_prog (@rei_psub_len H' P' n k)).
Proof. unfold rei_psub_len, psub_len. destruct (_ <=? _); constructor. exact eq_refl. Qed.
Lemma alk_while {S} {RS : Rel S} fuel cond cond' (b b' : S -> prog S) s s' : (forall s, ~ stop s) ->
  (forall s s', rel s s' -> cond s = cond' s' /\ alike (b s) (b' s')) -> rel s s' -> alike (p_while fuel cond b s) (p_while fuel cond' b' s').
Proof.
  intros N K. revert s s'. induction fuel as [|f IH]; intros s s' R; cbn [p_while]; [constructor|].
  destruct (K s s' R) as [-> B]. destruct (cond' s'); [|now constructor]. apply alk_bind; [exact B|exact IH|]. intros a T. now destruct (N a).
Qed.
Lemma alk_while_res {S} {RS : Rel S} fuel cond cond' (b b' : S -> prog (result S)) s s' :
  (forall s s', rel s s' -> cond s = cond' s' /\ alike (b s) (b' s')) -> rel s s' -> alike (p_while_res fuel cond b s) (p_while_res fuel cond' b' s').
Proof.
  intros K. revert s s'. induction fuel as [|f IH]; intros s s' R; cbn [p_while_res]; [constructor|].
  destruct (K s s' R) as [-> B]. destruct (cond' s'); [|now constructor]. apply alk_bind; [exact B| |].
  - intros [a|] [a'|] E; try easy. now apply IH.
  - intros a E. cbn in E. subst a. split; exact eq_refl.
Qed.
Lemma alk_for {S} {RS : Rel S} n : forall i (b b' : nat -> S -> prog S) s s', (forall s, ~ stop s) ->
  (forall i s s', rel s s' -> alike (b i s) (b' i s')) -> rel s s' -> alike (p_for n i b s) (p_for n i b' s').
Proof.
  induction n as [|n IH]; intros i b b' s s' N K R; cbn [p_for]; [now constructor|]. apply alk_bind; [now apply K| |].
  - intros. now apply IH.
  - intros a T. now destruct (N a).
Qed.
Lemma alk_rei_read p i : alike (the_prog (@rei_read H P p i)) (the_prog (@rei_read H' P' p i)).
Proof.
  unfold rei_read. cbn. constructor. intro n. destruct (_ <=? _); cbn; [|constructor]. constructor. intros l l'.
  destruct l as [|x [|y l]]; cbn; [constructor| |constructor]. destruct l' as [|x' [|y' l']]; cbn; [constructor| |constructor]. now constructor.
Qed.
Lemma alk_rei_write p i x x' K K' : alike (the_prog (@rei_write H P p i x K)) (the_prog (@rei_write H' P' p i x' K')).
Proof. unfold rei_write. cbn. constructor. intro n. destruct (_ <=? _); cbn; constructor. constructor. exact I. Qed.
End Combine.

(** ** A tactic that follows the structure of the programs *)
Ltac unrel R a b :=
  lazymatch type of R with
  | @rel _ (rel_prod _ _ _ _) _ _ =>
      let R1 := fresh "R" in let R2 := fresh "R" in
      let a1 := fresh "a" in let a2 := fresh "a" in let b1 := fresh "b" in let b2 := fresh "b" in
      destruct a as [a1 a2], b as [b1 b2]; destruct R as [R1 R2]; cbn [fst snd] in R1, R2; unrel R1 a1 b1; unrel R2 a2 b2
  | @rel _ rel_ptr _ _ => cbn [rel rel_ptr] in R; subst b
  | @rel _ rel_nat _ _ => cbn [rel rel_nat] in R; subst b
  | @rel _ (rel_result _ _) _ _ =>
      let a1 := fresh "a" in let b1 := fresh "b" in
      destruct a as [a1|], b as [b1|]; cbn [rel rel_result] in R; [unrel R a1 b1|destruct R|destruct R|destruct R]
  | @rel _ (rel_option _ _) _ _ =>
      let a1 := fresh "a" in let b1 := fresh "b" in
      destruct a as [a1|], b as [b1|]; cbn [rel rel_option] in R; [unrel R a1 b1|destruct R|destruct R|destruct R]
  | _ => clear R
  end.
Ltac alk_intro := let a := fresh "a" in let b := fresh "b" in let R := fresh "R" in intros a b R; unrel R a b.
Ltac alk_nostop := let a := fresh "a" in let T := fresh "T" in intros a T; exact T.
Ltac alk_stop := let a := fresh "a" in let T := fresh "T" in intros a T; cbn [stop rel_nat rel_unit rel_Z rel_list rel_bool rel_answer rel_any rel_prod rel_ptr rel_result rel_option] in T;
  first [destruct T; fail | subst a; split; cbn; first [exact eq_refl | exact I]].
Ltac alk_rel := cbn [rel rel_nat rel_unit rel_Z rel_list rel_bool rel_answer rel_any rel_prod rel_ptr rel_result rel_option fst snd];
  repeat match goal with |- _ /\ _ => split end; first [exact eq_refl | exact I].
Ltac alk_done := first
  [ apply alike_done; alk_rel | apply alike_stop_l; exact eq_refl | apply alike_stop_r; exact eq_refl
  | match goal with
    | |- alike (Done ?a) (Done ?b) =>
        match a with
        | context [match ?x with _ => _ end] => destruct x
        | _ => is_var a; match type of a with result _ => destruct a | option _ => destruct a end
        end
    | |- alike (Done ?a) (Done ?b) =>
        match b with
        | context [match ?x with _ => _ end] => destruct x
        | _ => is_var b; match type of b with result _ => destruct b | option _ => destruct b end
        end
    end; alk_done ].
Ltac alk_named := solve [auto 1 with alk nocore].
Ltac alk1 := cbv beta;
  lazymatch goal with
  | |- alike (the_prog ?r) (the_prog ?r') =>
    lazymatch r' with rei_ub _ => apply alike_fail_r | rei_panic _ => apply alike_fail_r | _ =>
    lazymatch r with
    | rei_ret _ ?a _ => lazymatch r' with
        | rei_ret _ ?b _ => lazymatch goal with |- @alike ?A ?R _ _ => change (@alike A R (Done a) (Done b)) end; alk_done
        | match ?x with _ => _ end => destruct x
        | _ => apply alike_stop_l; exact eq_refl
        end
    | rei_ub _ => apply alike_fail_l
    | rei_panic _ => apply alike_fail_l
    | rei_lift _ => apply alk_rei_lift; intros ? ? _ _; alk_done
    | rei_load _ _ => apply alk_rei_load
    | rei_read _ _ => apply alk_rei_read
    | rei_table _ _ => apply alk_rei_table
    | rei_offset _ _ => apply alk_rei_offset
    | rei_psub_len _ _ => apply alk_rei_psub_len
    | rei_padd _ _ => apply alk_rei_padd
    | rei_psub _ _ => apply alk_rei_psub
    | rei_store _ _ _ => apply alk_rei_store
    | rei_write _ _ _ _ => apply alk_rei_write
    | rei_any _ _ _ => apply alk_rei_any
    | rei_mono _ _ _ _ _ => apply alk_rei_mono
    | rei_bind _ _ _ _ _ _ => lazymatch r' with
        | rei_bind _ _ _ _ _ _ => apply alk_rei_bind; [ | alk_intro | alk_stop]
        | match ?x with _ => _ end => destruct x
        | _ => apply alike_stop_r; exact eq_refl
        end
    | rei_try _ _ _ _ _ _ => apply alk_rei_try; [ | alk_intro]
    | rei_while _ _ _ _ _ _ _ => apply alk_while; [alk_nostop | alk_intro; split; [reflexivity|] | alk_rel]
    | rei_while_res _ _ _ _ _ _ _ => apply alk_while_res; [alk_intro; split; [reflexivity|] | alk_rel]
    | rei_for _ _ _ _ _ _ _ => apply alk_for; [alk_nostop | intro; alk_intro | alk_rel]
    | match ?x with _ => _ end => first [progress cbn [fst snd] | destruct x]
    | (match ?x with _ => _ end) _ => destruct x
    | (match ?x with _ => _ end) _ _ => destruct x
    | _ => lazymatch r' with
        | match ?x with _ => _ end => destruct x
        | rei_ret _ _ _ => apply alike_stop_r; exact eq_refl
        | _ => first [alk_named | apply alk_answer; alk_named]
        end
    end end
  end.
