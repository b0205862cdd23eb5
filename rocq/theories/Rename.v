(** The same function on pointers into other allocations. [g] gives each allocation another one, and may give the same one to two
    of them: then a function that worked on two allocations works on two parts of one. The programs of Reify.v make the same
    accesses up to [g]. Relations and lemmas about how programs are put together; the functions are in RenameCodecs.v, what follows is in RenameFacts.v. *)
From Coq Require Import ZArith List Bool Lia.
From Verif Require Import Bytes Mem MemFacts Slices Isa Simd Alsw Ints Conc ConcFacts ConcBase64Facts Reify.
From Verif Require Hex Base64 Base32 Uuid Unicode Forgiving.
Import ListNotations.
Open Scope nat_scope. Open Scope m_scope.

Definition place (g : nat -> nat) (p : ptr) : ptr := (g (fst p), snd p).
(** Values of the two runs: pointers differ by [g], everything else is the same. *)
Class Mov (g : nat -> nat) (A : Type) := mov : A -> A -> Prop.
#[export] Typeclasses Opaque ptr.
#[export] Instance mov_nat g : Mov g nat := eq.
#[export] Instance mov_unit g : Mov g unit := eq.
#[export] Instance mov_Z g : Mov g Z := eq.
#[export] Instance mov_bool g : Mov g bool := eq.
#[export] Instance mov_list g A : Mov g (list A) := eq.
#[export] Instance mov_ptr g : Mov g ptr := fun p p' => p' = place g p.
#[export] Instance mov_prod g A B (RA : Mov g A) (RB : Mov g B) : Mov g (A * B) := fun x y => mov (fst x) (fst y) /\ mov (snd x) (snd y).
#[export] Instance mov_result g A (RA : Mov g A) : Mov g (result A) := fun x y => match x, y with Ok a, Ok b => mov a b | Err, Err => True | _, _ => False end.
#[export] Instance mov_option g A (RA : Mov g A) : Mov g (option A) := fun x y => match x, y with Some a, Some b => mov a b | None, None => True | _, _ => False end.

(** The second program makes the accesses of the first, up to [g], unless the first fails. *)
Inductive moved (g : nat -> nat) {A} {RA : Mov g A} : prog A -> prog A -> Prop :=
| moved_done a b : mov a b -> moved g (Done a) (Done b)
| moved_fail x p : moved g (Fail x) p
| moved_size b k k' : (forall n, moved g (k n) (k' n)) -> moved g (Size b k) (Size (g b) k')
| moved_load q n k k' : (forall l, moved g (k l) (k' l)) -> moved g (Load q n k) (Load (place g q) n k')
| moved_store q xs k k' : moved g k k' -> moved g (Store q xs k) (Store (place g q) xs k').

(** ** How programs are put together *)
Lemma mvd_bind {g A B} {RA : Mov g A} {RB : Mov g B} (p p' : prog A) (f f' : A -> prog B) :
  moved g p p' -> (forall a a', mov a a' -> moved g (f a) (f' a')) -> moved g (pbind p f) (pbind p' f').
Proof.
  intros H K. induction H as [a b R|x p|b k k' _ IH|q n k k' _ IH|q xs k k' _ IH]; cbn [pbind]; try now constructor. now apply K.
Qed.
Section Combine.
Context {g : nat -> nat} {H H' : Prop} {P P' : nat -> Prop}.
Lemma mvd_rei_bind {A B} {RA : Mov g A} {RB : Mov g B} {Q Q' : A -> Prop} {S S' : B -> Prop} {c c' : M A} {f f' : A -> M B}
  (r : reified H P Q c) (r' : reified H' P' Q' c') (K : forall a, reified (H /\ Q a) P S (f a)) (K' : forall a, reified (H' /\ Q' a) P' S' (f' a)) :
  moved g (the_prog r) (the_prog r') -> (forall a a', mov a a' -> moved g (the_prog (K a)) (the_prog (K' a'))) ->
  moved g (the_prog (rei_bind Q S c f r K)) (the_prog (rei_bind Q' S' c' f' r' K')).
Proof. exact (mvd_bind _ _ _ _). Qed.
Lemma mvd_rei_try {A B} {RA : Mov g A} {RB : Mov g B} {Q Q' : A -> Prop} {S S' : B -> Prop} {c c' : M (result A)} {f f' : A -> M (result B)}
  (r : reified H P (ok Q) c) (r' : reified H' P' (ok Q') c') (K : forall a, reified (H /\ Q a) P (ok S) (f a)) (K' : forall a, reified (H' /\ Q' a) P' (ok S') (f' a)) :
  moved g (the_prog r) (the_prog r') -> (forall a a', mov a a' -> moved g (the_prog (K a)) (the_prog (K' a'))) ->
  moved g (the_prog (rei_try Q S c f r K)) (the_prog (rei_try Q' S' c' f' r' K')).
Proof.
  intros L M. apply mvd_bind; [exact L|]. intros [a|] [a'|] E; try easy; [now apply M|]. constructor. exact I.
Qed.
Lemma mvd_rei_mono {A} {RA : Mov g A} {Q Q' R R' : A -> Prop} {c c' : M A} k k' (r : reified H P Q c) (r' : reified H' P' Q' c') :
  moved g (the_prog r) (the_prog r') -> moved g (the_prog (rei_mono Q R c k r)) (the_prog (rei_mono Q' R' c' k' r')).
Proof. exact (fun h => h). Qed.
Lemma mvd_rei_weaken {A} {RA : Mov g A} {Q Q' R R' : A -> Prop} {c c' : M A} k k' (r : reified H P Q c) (r' : reified H' P' Q' c') :
  moved g (the_prog r) (the_prog r') -> moved g (the_prog (rei_weaken Q R c k r)) (the_prog (rei_weaken Q' R' c' k' r')).
Proof. exact (fun h => h). Qed.
Lemma mvd_rei_any {A} {RA : Mov g A} {Q Q' : A -> Prop} {c c' : M A} (r : reified H P Q c) (r' : reified H' P' Q' c') :
  moved g (the_prog r) (the_prog r') -> moved g (the_prog (rei_any Q c r)) (the_prog (rei_any Q' c' r')).
Proof. exact (fun h => h). Qed.
Lemma mvd_rei_lift {A} {RA : Mov g A} (o : option A) : (forall a, mov a a) -> moved g (the_prog (@rei_lift H P A o)) (the_prog (@rei_lift H' P' A o)).
Proof. intro K. destruct o; cbn; constructor. apply K. Qed.
Lemma mvd_rei_padd (p : ptr) k : @moved g ptr (mov_ptr g) (the_prog (@rei_padd H P p k)) (the_prog (@rei_padd H' P' (place g p) k)).
Proof. cbn. apply moved_size. intro n. destruct (_ <=? _); constructor. exact eq_refl. Qed.
Lemma mvd_rei_psub (p : ptr) k : @moved g ptr (mov_ptr g) (the_prog (@rei_psub H P p k)) (the_prog (@rei_psub H' P' (place g p) k)).
Proof. cbn. unfold p_psub. cbn [place fst snd]. destruct (_ <=? _); constructor. exact eq_refl. Qed.
Lemma mvd_rei_load (p : ptr) n : moved g (the_prog (@rei_load H P p n)) (the_prog (@rei_load H' P' (place g p) n)).
Proof. cbn. apply moved_load. intros. constructor. exact eq_refl. Qed.
Lemma mvd_rei_store (p : ptr) xs K K' : moved g (the_prog (@rei_store H P p xs K)) (the_prog (@rei_store H' P' (place g p) xs K')).
Proof. cbn. apply moved_store. constructor. exact eq_refl. Qed.
Lemma mvd_rei_table t i : moved g (the_prog (@rei_table H P t i)) (the_prog (@rei_table H' P' t i)).
Proof. unfold rei_table, table_get. destruct (i <? 0)%Z; [constructor|]. destruct (nth_error t _); constructor. exact eq_refl. Qed.
Lemma mvd_rei_offset (p q : ptr) : moved g (the_prog (@rei_offset H P p q)) (the_prog (@rei_offset H' P' (place g p) (place g q))).
Proof.
  unfold rei_offset, offset_from. destruct (andb _ _) eqn:E; [|constructor]. apply andb_true_iff in E as [E1 E2]. apply Nat.eqb_eq in E1.
  cbn [place fst snd]. rewrite E1, Nat.eqb_refl, E2. constructor. exact eq_refl.
Qed.
Lemma mvd_rei_psub_len n k : moved g (the_prog (@rei_psub_len H P n k)) (the_prog (@rei_psub_len H' P' n k)).
Proof. unfold rei_psub_len, psub_len. destruct (_ <=? _); constructor. exact eq_refl. Qed.
Lemma mvd_while {S} {RS : Mov g S} fuel cond cond' (b b' : S -> prog S) s s' :
  (forall s s', mov s s' -> cond s = cond' s' /\ moved g (b s) (b' s')) -> mov s s' -> moved g (p_while fuel cond b s) (p_while fuel cond' b' s').
Proof.
  intros K. revert s s'. induction fuel as [|f IH]; intros s s' R; cbn [p_while]; [constructor|].
  destruct (K s s' R) as [-> B]. destruct (cond' s'); [|now constructor]. apply mvd_bind; [exact B|exact IH].
Qed.
Lemma mvd_while_res {S} {RS : Mov g S} fuel cond cond' (b b' : S -> prog (result S)) s s' :
  (forall s s', mov s s' -> cond s = cond' s' /\ moved g (b s) (b' s')) -> mov s s' -> moved g (p_while_res fuel cond b s) (p_while_res fuel cond' b' s').
Proof.
  intros K. revert s s'. induction fuel as [|f IH]; intros s s' R; cbn [p_while_res]; [constructor|].
  destruct (K s s' R) as [-> B]. destruct (cond' s'); [|now constructor]. apply mvd_bind; [exact B|].
  intros [a|] [a'|] E; try easy; [now apply IH|]. constructor. exact I.
Qed.
Lemma mvd_while_break {S} {RS : Mov g S} fuel cond cond' (b b' : S -> prog (S * bool)) s s' :
  (forall s s', mov s s' -> cond s = cond' s' /\ moved g (b s) (b' s')) -> mov s s' -> moved g (p_while_break fuel cond b s) (p_while_break fuel cond' b' s').
Proof.
  intros K. revert s s'. induction fuel as [|f IH]; intros s s' R; cbn [p_while_break]; [constructor|].
  destruct (K s s' R) as [-> B]. destruct (cond' s'); [|now constructor]. apply mvd_bind; [exact B|].
  intros [a x] [a' x'] [E1 E2]. cbn [fst snd] in *. hnf in E2. subst x'. destruct x; [now constructor|now apply IH].
Qed.
Lemma mvd_for {S} {RS : Mov g S} n : forall i (b b' : nat -> S -> prog S) s s',
  (forall i s s', mov s s' -> moved g (b i s) (b' i s')) -> mov s s' -> moved g (p_for n i b s) (p_for n i b' s').
Proof.
  induction n as [|n IH]; intros i b b' s s' K R; cbn [p_for]; [now constructor|]. apply mvd_bind; [now apply K|]. intros. now apply IH.
Qed.
Lemma mvd_rei_read (p : ptr) i : moved g (the_prog (@rei_read H P p i)) (the_prog (@rei_read H' P' (place g p) i)).
Proof.
  cbn. apply moved_size. intro n. destruct (_ <=? _); cbn; [|constructor]. apply (moved_load g (fst p, snd p + i)). intro l.
  destruct l as [|x [|y l]]; cbn; constructor. exact eq_refl.
Qed.
Lemma mvd_rei_write (p : ptr) i x K K' : moved g (the_prog (@rei_write H P p i x K)) (the_prog (@rei_write H' P' (place g p) i x K')).
Proof. cbn. apply moved_size. intro n. destruct (_ <=? _); cbn; [|constructor]. apply (moved_store g (fst p, snd p + i)). constructor. exact eq_refl. Qed.
End Combine.

(** ** A tactic that follows the structure of the programs *)
Ltac unmov R a b :=
  lazymatch type of R with
  | @mov _ _ (mov_prod _ _ _ _ _) _ _ =>
      let R1 := fresh "R" in let R2 := fresh "R" in
      let a1 := fresh "a" in let a2 := fresh "a" in let b1 := fresh "b" in let b2 := fresh "b" in
      destruct a as [a1 a2], b as [b1 b2]; destruct R as [R1 R2]; cbn [fst snd] in R1, R2; unmov R1 a1 b1; unmov R2 a2 b2
  | @mov ?g _ (mov_result _ ?A ?RA) _ _ =>
      let a1 := fresh "a" in let b1 := fresh "b" in
      destruct a as [a1|], b as [b1|]; [change (@mov g A RA a1 b1) in R; unmov R a1 b1|destruct R|destruct R|clear R]
  | @mov ?g _ (mov_option _ ?A ?RA) _ _ =>
      let a1 := fresh "a" in let b1 := fresh "b" in
      destruct a as [a1|], b as [b1|]; [change (@mov g A RA a1 b1) in R; unmov R a1 b1|destruct R|destruct R|clear R]
  | _ => let T := type of b in hnf in R; subst b
  end.
Ltac mvd_intro := let a := fresh "a" in let b := fresh "b" in let R := fresh "R" in intros a b R; unmov R a b.
Ltac mvd_rel := lazymatch goal with
  | |- @mov _ _ (mov_prod _ _ _ _ _) _ _ => split; cbn [fst snd]; mvd_rel
  | |- @mov _ _ (mov_result _ _ _) (Ok _) _ => red; red; mvd_rel
  | |- @mov _ _ (mov_option _ _ _) (Some _) _ => red; red; mvd_rel
  | |- @mov _ _ (mov_result _ _ _) _ _ => cbn [fst snd place]; lazymatch goal with |- @mov _ _ _ ?a _ => first [exact I | is_var a; destruct a; mvd_rel
      | match a with context [match ?x with _ => _ end] => destruct x; mvd_rel end] end
  | |- @mov _ _ (mov_option _ _ _) _ _ => cbn [fst snd place]; lazymatch goal with |- @mov _ _ _ ?a _ => first [exact I | is_var a; destruct a; mvd_rel
      | match a with context [match ?x with _ => _ end] => destruct x; mvd_rel end] end
  | |- _ => exact eq_refl
  end.
Ltac mvd_named := solve [auto 1 with mvd nocore].
Ltac mvd1 := cbv beta;
  lazymatch goal with
  | |- moved _ (the_prog ?r) (the_prog ?r') =>
    lazymatch r with
    | rei_ret _ ?a _ => lazymatch r' with rei_ret _ ?b _ => lazymatch goal with |- @moved ?g ?A ?R _ _ => change (@moved g A R (Done a) (Done b)) end end;
        apply moved_done; mvd_rel
    | rei_ub _ => apply moved_fail
    | rei_panic _ => apply moved_fail
    | rei_lift _ => apply mvd_rei_lift; intro; mvd_rel
    | rei_load _ _ => apply mvd_rei_load
    | rei_read _ _ => apply mvd_rei_read
    | rei_table _ _ => apply mvd_rei_table
    | rei_offset _ _ => apply mvd_rei_offset
    | rei_psub_len _ _ => apply mvd_rei_psub_len
    | rei_padd _ _ => apply mvd_rei_padd
    | rei_psub _ _ => apply mvd_rei_psub
    | rei_store _ _ _ => apply mvd_rei_store
    | rei_write _ _ _ _ => apply mvd_rei_write
    | rei_any _ _ _ => apply mvd_rei_any
    | rei_mono _ _ _ _ _ => apply mvd_rei_mono
    | rei_weaken _ _ _ _ _ => apply mvd_rei_weaken
    | rei_bind _ _ _ _ (rei_padd _ _) _ => apply (mvd_rei_bind (RA := mov_ptr _)); [apply mvd_rei_padd | mvd_intro]
    | rei_bind _ _ _ _ (rei_psub _ _) _ => apply (mvd_rei_bind (RA := mov_ptr _)); [apply mvd_rei_psub | mvd_intro]
    | rei_bind _ _ _ _ _ _ => apply mvd_rei_bind; [ | mvd_intro]
    | rei_try _ _ _ _ _ _ => apply mvd_rei_try; [ | mvd_intro]
    | rei_while _ _ _ _ _ _ _ => apply mvd_while; [mvd_intro; split; [reflexivity|] | mvd_rel]
    | rei_while_res _ _ _ _ _ _ _ => apply mvd_while_res; [mvd_intro; split; [reflexivity|] | mvd_rel]
    | rei_while_break _ _ _ _ _ => apply mvd_while_break; [mvd_intro; split; [reflexivity|] | mvd_rel]
    | rei_for _ _ _ _ _ _ _ => apply mvd_for; [intro; mvd_intro | mvd_rel]
    | match ?x with _ => _ end => first
        [ progress cbn [fst snd]
        | lazymatch r' with match ?y with _ => _ end => tryif constr_eq x y then fail else change y with x end; destruct x
        | destruct x ]
    | (match ?x with _ => _ end) _ => destruct x
    | (match ?x with _ => _ end) _ _ => destruct x
    | _ => mvd_named
    end
  end.
