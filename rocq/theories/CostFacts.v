(** How many memory accesses the programs of Reify.v make. Lemmas only.
    [costs N a b p]: at most [a * (N + 1) + b] accesses, in whatever memory the program [p] starts; lengths in its result are at most [N]. *)
From Coq Require Import ZArith List Bool Lia ZifyBool ZifyNat.
From Verif Require Import Bytes Mem MemFacts Slices Isa Simd Alsw Ints Conc ConcFacts ConcBase64Facts Reify Access AccessFacts AccessCodecs.
From Verif Require Hex Base64 Base32 Uuid Unicode Forgiving.
Import ListNotations.
Open Scope nat_scope. Open Scope m_scope.

Class Size (A : Type) := size : A -> nat.
#[export] Instance size_nat : Size nat := fun n => n.
#[export] Instance size_unit : Size unit := fun _ => 0.
#[export] Instance size_Z : Size Z := fun _ => 0.
#[export] Instance size_list A : Size (list A) := fun _ => 0.
#[export] Instance size_bool : Size bool := fun _ => 0.
#[export] Instance size_prod A B (SA : Size A) (SB : Size B) : Size (A * B) := fun x => Nat.max (size (fst x)) (size (snd x)).
#[export] Instance size_ptr : Size ptr := fun _ => 0.
#[export] Instance size_result A (SA : Size A) : Size (result A) := fun r => match r with Ok a => size a | Err => 0 end.
#[export] Instance size_option A (SA : Size A) : Size (option A) := fun r => match r with Some a => size a | None => 0 end.
(** ... for results that nothing is known about *)
Definition size_any A : Size A := fun _ => 0.
(** ... when only the first of two lengths matters *)
Definition size_fst : Size (nat * nat) := fun x => fst x.

Definition costs {A} {SA : Size A} (N a b : nat) (p : prog A) : Prop :=
  forall m, length (trace p m) <= a * S N + b /\ forall r m1, run p m = Ret r m1 -> size r <= N.
Lemma co_done {A} {SA : Size A} N (r : A) : size r <= N -> costs N 0 0 (Done r).
Proof. intros S m. split; [apply Nat.le_0_l|]. now intros r' m1 [= <- <-]. Qed.
Lemma co_fail {A} {SA : Size A} N x : costs N 0 0 (@Fail A x).
Proof. intro m. split; [apply Nat.le_0_l|]. now destruct x. Qed.
Lemma co_weak {A} {SA : Size A} N a b a' b' (p : prog A) : costs N a b p -> a <= a' -> b <= b' -> costs N a' b' p.
Proof. intros K L L' m. destruct (K m) as [C R]. split; [|exact R]. nia. Qed.
Lemma co_max_l {A} {SA : Size A} N a b a' b' (p : prog A) : costs N a b p -> costs N (Nat.max a a') (Nat.max b b') p.
Proof. intro K. apply (co_weak _ _ _ _ _ _ K); lia. Qed.
Lemma co_max_r {A} {SA : Size A} N a b a' b' (p : prog A) : costs N a' b' p -> costs N (Nat.max a a') (Nat.max b b') p.
Proof. intro K. apply (co_weak _ _ _ _ _ _ K); lia. Qed.
Lemma trace_stuck {A B} (p : prog A) (f : A -> prog B) : forall m, (forall a m1, run p m <> Ret a m1) -> trace (pbind p f) m = trace p m.
Proof.
  induction p as [a|x|b k IH|q n k IH|q xs k IH]; intros m; cbn [pbind run trace].
  - intro K. now destruct (K a m).
  - reflexivity.
  - apply IH.
  - unfold bind. destruct (load q n m) as [l m2| | |] eqn:L; try reflexivity. intro K. f_equal.
    assert (m2 = m) as -> by (unfold load in L; destruct (_ <=? _); [|easy]; destruct (sequence _); [|easy]; congruence). now apply IH.
  - unfold bind. destruct (store q xs m) as [l m2| | |] eqn:L; try reflexivity. intro K. f_equal. now apply IH.
Qed.
Lemma co_bind {A B} {SA : Size A} {SB : Size B} N a b a' b' (p : prog A) (f : A -> prog B) :
  costs N a b p -> (forall x, size x <= N -> costs N a' b' (f x)) -> costs N (a + a') (b + b') (pbind p f).
Proof.
  intros K L m. destruct (K m) as [C R]. rewrite run_bind. unfold bind. destruct (run p m) as [x m1| | |] eqn:E.
  - rewrite (trace_bind p f x m m1 E), app_length. destruct (L x (R x m1 eq_refl) m1) as [C' R']. split; [|exact R']. nia.
  - rewrite trace_stuck by (intros; congruence). split; [nia|]. discriminate.
  - rewrite trace_stuck by (intros; congruence). split; [nia|]. discriminate.
  - rewrite trace_stuck by (intros; congruence). split; [nia|]. discriminate.
Qed.

Section Combine.
Context {H : Prop} {P : nat -> Prop} {N : nat}.
Lemma co_rei_bind {A B} {SA : Size A} {SB : Size B} {Q : A -> Prop} {R : B -> Prop} {c : M A} {f : A -> M B}
  (r : reified H P Q c) (K : forall a, reified (H /\ Q a) P R (f a)) a b a' b' :
  costs N a b (the_prog r) -> (forall x, size x <= N -> costs N a' b' (the_prog (K x))) -> costs N (a + a') (b + b') (the_prog (rei_bind Q R c f r K)).
Proof. apply co_bind. Qed.
Lemma co_rei_try {A B} {SA : Size A} {SB : Size (result B)} {Q : A -> Prop} {R : B -> Prop} {c : M (result A)} {f : A -> M (result B)}
  (r : reified H P (ok Q) c) (K : forall a, reified (H /\ Q a) P (ok R) (f a)) a b a' b' : size (@Err B) <= N ->
  costs N a b (the_prog r) -> (forall x, size x <= N -> costs N a' b' (the_prog (K x))) -> costs N (a + a') (b + b') (the_prog (rei_try Q R c f r K)).
Proof.
  intros E C L. apply co_bind; [exact C|]. intros [x|] Sx; [now apply L|]. apply (co_weak _ 0 0); [|lia|lia]. now apply co_done.
Qed.
Lemma co_rei_mono {A} {SA : Size A} {Q R : A -> Prop} {c : M A} k (r : reified H P Q c) a b :
  costs N a b (the_prog r) -> costs N a b (the_prog (rei_mono Q R c k r)).
Proof. exact (fun h => h). Qed.
Lemma co_rei_weaken {A} {SA : Size A} {Q R : A -> Prop} {c : M A} k (r : reified H P Q c) a b :
  costs N a b (the_prog r) -> costs N a b (the_prog (rei_weaken Q R c k r)).
Proof. exact (fun h => h). Qed.
Lemma co_rei_any {A} {SA : Size A} {Q : A -> Prop} {c : M A} (r : reified H P Q c) a b :
  costs N a b (the_prog r) -> costs N a b (the_prog (rei_any Q c r)).
Proof. exact (fun h => h). Qed.
Lemma co_rei_ret {A} {SA : Size A} (Q : A -> Prop) (x : A) k : size x <= N -> costs N 0 0 (the_prog (@rei_ret H P A Q x k)).
Proof. apply co_done. Qed.
Lemma co_rei_ub {A} {SA : Size A} (Q : A -> Prop) : costs N 0 0 (the_prog (@rei_ub H P A Q)).
Proof. apply co_fail. Qed.
Lemma co_rei_panic {A} {SA : Size A} (Q : A -> Prop) : costs N 0 0 (the_prog (@rei_panic H P A Q)).
Proof. apply co_fail. Qed.
Lemma co_rei_lift {A} {SA : Size A} (o : option A) : (forall x : A, size x <= N) -> costs N 0 0 (the_prog (@rei_lift H P A o)).
Proof. intro K. destruct o; cbn; [apply co_done, K|apply co_fail]. Qed.
Lemma co_rei_padd p k : costs N 0 0 (the_prog (@rei_padd H P p k)).
Proof. intro m. cbn. destruct (_ <=? _); cbn; split; try lia; [|discriminate]. intros r m1 [= <- <-]. apply Nat.le_0_l. Qed.
Lemma co_rei_psub p k : costs N 0 0 (the_prog (@rei_psub H P p k)).
Proof. cbn. unfold p_psub. destruct (_ <=? _); [apply co_done, Nat.le_0_l|apply co_fail]. Qed.
Lemma co_rei_load p n : costs N 0 1 (the_prog (@rei_load H P p n)).
Proof. intro m. cbn. unfold bind. destruct (load p n m); cbn; split; try lia; try discriminate. intros. apply Nat.le_0_l. Qed.
Lemma co_rei_store p xs K : costs N 0 1 (the_prog (@rei_store H P p xs K)).
Proof. intro m. cbn. unfold bind. destruct (store p xs m); cbn; split; try lia; try discriminate. intros. apply Nat.le_0_l. Qed.
Lemma co_rei_table t i : costs N 0 0 (the_prog (@rei_table H P t i)).
Proof. unfold rei_table, table_get. destruct (i <? 0)%Z; [apply co_fail|]. destruct (nth_error t _); [apply co_done, Nat.le_0_l|apply co_fail]. Qed.
Lemma co_rei_offset p q : @costs nat (size_any nat) N 0 0 (the_prog (@rei_offset H P p q)).
Proof. unfold rei_offset, offset_from. destruct (_ && _)%bool; [apply co_done, Nat.le_0_l|apply co_fail]. Qed.
Lemma co_rei_psub_len n k : n <= N -> costs N 0 0 (the_prog (@rei_psub_len H P n k)).
Proof. intro L. unfold rei_psub_len, psub_len. destruct (_ <=? _); [apply co_done; unfold size, size_nat; lia|apply co_fail]. Qed.
Lemma co_rei_read p i : costs N 0 1 (the_prog (@rei_read H P p i)).
Proof.
  unfold rei_read. apply (co_bind N 0 0 0 1); [apply co_rei_padd|]. intros q _. apply (co_bind N 0 1 0 0); [apply co_rei_load|].
  intros [|x [|y l]] _; [apply co_fail|apply co_done, Nat.le_0_l|apply co_fail].
Qed.
Lemma co_rei_write p i x K : costs N 0 1 (the_prog (@rei_write H P p i x K)).
Proof. unfold rei_write. apply (co_bind N 0 0 0 1); [apply co_rei_padd|]. intros q _ m. cbn. unfold bind. destruct (store q [x] m); cbn; split; try lia; try discriminate. intros. apply Nat.le_0_l. Qed.
End Combine.
Lemma co_while {N} {S} {SS : Size S} fuel cond (b : S -> prog S) s k : fuel <= Datatypes.S N ->
  (forall s, size s <= N -> costs N 0 k (b s)) -> size s <= N -> costs N k 0 (p_while fuel cond b s).
Proof.
  intros L K I. assert (G : forall m, length (trace (p_while fuel cond b s) m) <= k * fuel /\ forall r m1, run (p_while fuel cond b s) m = Ret r m1 -> size r <= N).
  { clear L. revert s I. induction fuel as [|f IH]; intros s I m; cbn [p_while]; [split; [apply Nat.le_0_l|discriminate]|].
    destruct (cond s); [|split; [apply Nat.le_0_l|intros r m1 [= <- <-]; exact I]]. destruct (K s I m) as [C R]. rewrite run_bind. unfold bind.
    destruct (run (b s) m) as [x m1| | |] eqn:E; try (rewrite trace_stuck by (intros; congruence); split; [nia|discriminate]).
    rewrite (trace_bind _ _ x m m1 E), app_length. destruct (IH x (R x m1 eq_refl) m1) as [C' R']. split; [nia|exact R']. }
  intro m. destruct (G m) as [C R]. split; [nia|exact R].
Qed.
Lemma co_while_res {N} {S} {SS : Size S} fuel cond (b : S -> prog (result S)) s k : fuel <= Datatypes.S N ->
  (forall s, size s <= N -> costs N 0 k (b s)) -> size s <= N -> costs N k 0 (p_while_res fuel cond b s).
Proof.
  intros L K I. assert (G : forall m, length (trace (p_while_res fuel cond b s) m) <= k * fuel /\ forall r m1, run (p_while_res fuel cond b s) m = Ret r m1 -> size r <= N).
  { clear L. revert s I. induction fuel as [|f IH]; intros s I m; cbn [p_while_res]; [split; [apply Nat.le_0_l|discriminate]|].
    destruct (cond s); [|split; [apply Nat.le_0_l|intros r m1 [= <- <-]; exact I]]. destruct (K s I m) as [C R]. rewrite run_bind. unfold bind.
    destruct (run (b s) m) as [x m1| | |] eqn:E; try (rewrite trace_stuck by (intros; congruence); split; [nia|discriminate]).
    rewrite (trace_bind _ _ x m m1 E), app_length. destruct x as [x|].
    - destruct (IH x (R _ m1 eq_refl) m1) as [C' R']. split; [nia|exact R'].
    - cbn [trace length run]. split; [nia|]. intros r m2 [= <- <-]. apply Nat.le_0_l. }
  intro m. destruct (G m) as [C R]. split; [nia|exact R].
Qed.
Lemma co_while_break {N} {S} {SS : Size S} fuel cond (b : S -> prog (S * bool)) s k : fuel <= Datatypes.S N ->
  (forall s, size s <= N -> costs N 0 k (b s)) -> size s <= N -> costs N k 0 (p_while_break fuel cond b s).
Proof.
  intros L K I. assert (G : forall m, length (trace (p_while_break fuel cond b s) m) <= k * fuel /\ forall r m1, run (p_while_break fuel cond b s) m = Ret r m1 -> size r <= N).
  { clear L. revert s I. induction fuel as [|f IH]; intros s I m; cbn [p_while_break]; [split; [apply Nat.le_0_l|discriminate]|].
    destruct (cond s); [|split; [apply Nat.le_0_l|intros r m1 [= <- <-]; exact I]]. destruct (K s I m) as [C R]. rewrite run_bind. unfold bind.
    destruct (run (b s) m) as [x m1| | |] eqn:E; try (rewrite trace_stuck by (intros; congruence); split; [nia|discriminate]).
    rewrite (trace_bind _ _ x m m1 E), app_length. specialize (R x m1 eq_refl). destruct x as [x []]; cbn [fst snd]; unfold size, size_prod in R; cbn [fst snd] in R.
    - cbn [trace length run]. split; [nia|]. intros r m2 [= <- <-]. lia.
    - destruct (IH x ltac:(lia) m1) as [C' R']. split; [nia|exact R']. }
  intro m. destruct (G m) as [C R]. split; [nia|exact R].
Qed.
Lemma co_for {N} {S} {SS : Size S} n n' : forall i (b : nat -> S -> prog S) s k, n <= n' ->
  (forall i s, size s <= N -> costs N 0 k (b i s)) -> size s <= N -> costs N 0 (n' * k) (p_for n i b s).
Proof.
  intros i b s k L K I. assert (G : costs N 0 (n * k) (p_for n i b s)).
  { clear L. revert i s I. induction n as [|n IH]; intros i s I; cbn [p_for]; [now apply co_done|]. apply (co_bind N 0 k 0 (n * k)); [now apply K|].
    intros. now apply IH. }
  apply (co_weak _ _ _ _ _ _ G); [lia|nia].
Qed.

Lemma co_while_known {N} {S} {SS : Size S} fuel cond (b : S -> prog S) s k :
  (forall s, size s <= N -> costs N 0 k (b s)) -> size s <= N -> costs N 0 (fuel * k) (p_while fuel cond b s).
Proof.
  intros K. revert s. induction fuel as [|f IH]; intros s I; cbn [p_while]; [apply co_fail|].
  destruct (cond s); [|apply (co_weak _ 0 0); [now apply co_done|lia|lia]]. apply (co_bind N 0 k 0 (f * k)); [now apply K|exact IH].
Qed.
Lemma co_assert {H : Prop} {P : nat -> Prop} {N} {B} {SB : Size B} (R : B -> Prop) (b : bool) (f : unit -> M B) (K : forall x, reified (H /\ any x) P R (f x)) a' b' :
  (b = true -> costs N a' b' (the_prog (K tt))) -> costs N a' b' (the_prog (rei_bind any R (Forgiving.debug_assert b) f (rei_forg_debug_assert b) K)).
Proof. intro C. destruct b; [exact (C eq_refl)|]. apply (co_weak _ 0 0); [apply co_fail|lia|lia]. Qed.
Lemma co_minus {H : Prop} {P : nat -> Prop} {N} {B} {SB : Size B} (R : B -> Prop) n k (f : nat -> M B) (K : forall x, reified (H /\ any x) P R (f x)) a' b' :
  (k <= n -> costs N a' b' (the_prog (K (n - k)))) -> costs N a' b' (the_prog (rei_bind any R (psub_len n k) f (rei_psub_len n k) K)).
Proof.
  intro C. cbn [rei_bind the_prog]. unfold rei_psub_len, psub_len. destruct (k <=? n) eqn:E; [exact (C (proj1 (Nat.leb_le k n) E))|].
  apply (co_weak _ 0 0); [apply co_fail|lia|lia].
Qed.
Lemma co_body {A} {SA : Size A} N a k (p : prog A) : costs N a k p -> a = 0 -> costs N 0 k p.
Proof. now intros C ->. Qed.
Lemma co_rei_for_known {H : Prop} {P : nat -> Prop} {N} {S} {SS : Size S} (J : S -> Prop) n i (body : nat -> S -> M S)
  (K : forall i s, reified (H /\ J s) P J (body i s)) s j k :
  (forall i s, size s <= N -> costs N 0 k (the_prog (K i s))) -> size s <= N -> costs N 0 (n * k) (the_prog (rei_for J n i body K s j)).
Proof. intros C I. now apply co_for. Qed.
Lemma co_rei_for_upto {H : Prop} {P : nat -> Prop} {N} {S} {SS : Size S} (J : S -> Prop) n i (body : nat -> S -> M S)
  (K : forall i s, reified (H /\ J s) P J (body i s)) s j k : n <= 8 ->
  (forall i s, size s <= N -> costs N 0 k (the_prog (K i s))) -> size s <= N -> costs N 0 (8 * k) (the_prog (rei_for J n i body K s j)).
Proof. intros L C I. now apply co_for. Qed.

Lemma size_pair {A B} {SA : Size A} {SB : Size B} N (x : A) (y : B) : size (x, y) <= N -> size x <= N /\ size y <= N.
Proof. unfold size_prod, size. cbn [fst snd]. lia. Qed.

(** ** A tactic that follows the structure of the programs *)
Ltac unsz x Sx :=
  lazymatch type of Sx with
  | @size _ (size_prod _ _ ?SA ?SB) _ <= ?N =>
      let x1 := fresh "x" in let x2 := fresh "x" in let S1 := fresh "Sx" in let S2 := fresh "Sx" in
      destruct x as [x1 x2]; apply size_pair in Sx; destruct Sx as [S1 S2];
      unsz x1 S1; unsz x2 S2
  | @size _ size_fst _ <= _ => let x1 := fresh "x" in let x2 := fresh "x" in destruct x as [x1 x2]; unfold size, size_fst in Sx; cbn [fst] in Sx
  | @size _ size_nat _ <= _ => unfold size, size_nat in Sx
  | @size _ (size_result _ _) _ <= _ => idtac
  | @size _ (size_option _ _) _ <= _ => idtac
  | _ => clear Sx
  end.
Ltac co_intro := let x := fresh "x" in let Sx := fresh "Sx" in intros x Sx; unsz x Sx.
Ltac co_sz := intros; unfold size_prod, size_result, size_option, size_fst, size_nat, size_unit, size_Z, size_list, size_bool, size_ptr, size_any, size in *; cbn [fst snd] in *;
  first [apply Nat.le_0_l | assumption | lia
  | match goal with |- context [match ?x with _ => _ end] => destruct x; co_sz end ].
Ltac co_peel := lazymatch goal with |- costs _ (Nat.max _ _) _ _ => apply co_max_r; co_peel | _ => idtac end.
Ltac co_cases x := destruct x; [co_peel; eapply co_max_l .. | co_peel].
Ltac co_named := solve [auto 1 with cos nocore].
Ltac co_num n := lazymatch n with O => idtac | S ?m => co_num m end.
Ltac co1 := cbv beta;
  lazymatch goal with
  | |- costs ?N _ _ (the_prog ?r) =>
    lazymatch r with
    | rei_ret _ ?a _ => apply co_rei_ret; co_sz
    | rei_ub _ => apply co_rei_ub
    | rei_panic _ => apply co_rei_panic
    | rei_lift _ => apply co_rei_lift; co_sz
    | rei_load _ _ => apply co_rei_load
    | rei_read _ _ => apply co_rei_read
    | rei_table _ _ => apply co_rei_table
    | rei_offset _ _ => apply co_rei_offset
    | rei_psub_len _ _ => apply co_rei_psub_len; lia
    | rei_padd _ _ => apply co_rei_padd
    | rei_psub _ _ => apply co_rei_psub
    | rei_store _ _ _ => apply co_rei_store
    | rei_write _ _ _ _ => apply co_rei_write
    | rei_any _ _ _ => apply co_rei_any
    | rei_weaken _ _ _ _ _ => apply co_rei_weaken
    | rei_mono _ _ _ _ _ => apply co_rei_mono
    | rei_bind _ _ _ _ (rei_offset _ _) _ => eapply (@co_rei_bind _ _ _ _ _ (size_any nat)); [ | co_intro]
    | rei_bind _ _ _ _ (rei_forg_debug_assert _) _ => eapply co_assert; intro
    | rei_bind _ _ _ _ (rei_psub_len _ _) _ => eapply co_minus; intro
    | rei_bind _ _ _ _ (rei_forg_find_non_ascii_whitespace_short _ _) _ => eapply (@co_rei_bind _ _ _ _ _ (size_any nat)); [ | co_intro]
    | rei_bind _ _ _ _ (rei_forg_find_non_ascii_whitespace _ _ _) _ => eapply (@co_rei_bind _ _ _ _ _ (size_any nat)); [ | co_intro]
    | rei_bind _ _ _ _ (rei_forg_remove_ascii_whitespace_fallback _ _ _ _) _ => eapply (@co_rei_bind _ _ _ _ _ (size_any nat)); [ | co_intro]
    | rei_bind _ _ _ _ (rei_b64_count_pad _ _) _ => eapply (@co_rei_bind _ _ _ _ _ (size_any nat)); [ | co_intro]
    | rei_bind _ _ _ _ _ _ => eapply co_rei_bind; [ | co_intro]
    | rei_try _ _ _ _ (rei_b64_decoded_length _ _ _) _ => eapply (@co_rei_try _ _ _ _ _ size_fst); [apply Nat.le_0_l | | co_intro]
    | rei_try _ _ _ _ (rei_b32_decoded_length _ _ _) _ => eapply (@co_rei_try _ _ _ _ _ size_fst); [apply Nat.le_0_l | | co_intro]
    | rei_try _ _ _ _ _ _ => eapply co_rei_try; [apply Nat.le_0_l | | co_intro]
    | rei_while _ _ _ _ _ _ _ => eapply co_while; [lia | co_intro; eapply co_body | co_sz]
    | rei_while_res _ _ _ _ _ _ _ => eapply co_while_res; [lia | co_intro; eapply co_body | co_sz]
    | rei_while_break _ _ _ _ _ => eapply co_while_break; [lia | co_intro; eapply co_body | co_sz]
    | rei_for _ ?n _ _ _ _ _ => tryif co_num n
        then (eapply co_rei_for_known; [intro; co_intro; eapply co_body | co_sz])
        else (eapply co_rei_for_upto; [lia | intro; co_intro; eapply co_body | co_sz])
    | match ?x with _ => _ end => first [progress cbn [fst snd] | co_cases x]
    | (match ?x with _ => _ end) _ => co_cases x
    | (match ?x with _ => _ end) _ _ => co_cases x
    | _ => co_named
    end
  end.
Ltac co := repeat co1; try reflexivity.
Ltac co_start := let a := fresh "ca" in let b := fresh "cb" in evar (a : nat); evar (b : nat); intros; apply (co_weak _ a b); subst a b.
Ltac co_end := apply Nat.leb_le; vm_compute; reflexivity.
