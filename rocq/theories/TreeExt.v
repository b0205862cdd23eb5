(** [from_ascii] of unicode-simd (BorrowsExt.v) under the rules of TreeBorrows.v *)
From Coq Require Import ZArith List Bool Lia ZifyBool ZifyNat.
From Verif Require Import Bytes Mem MemFacts Slices Codec Conc ConcFacts Reify ConcApi ConcApiFacts Isa Simd Unicode PropUnicode
  Borrows BorrowsApi BorrowsFacts BorrowsBridge BorrowsExt BorrowsExtFacts TreeBorrows TreeFacts TreeCalls TreeBridge.
Import ListNotations.
Open Scope nat_scope. Open Scope m_scope. Open Scope borrow_scope.

(** [f(&src)] returns a reference, if any, that may be read through, as may the pointers to the source *)
Definition tree_view {A} (ret : A -> option (ptr * nat)) (x : ptr -> nat -> nat -> bcode (A * nat)) (f : ptr -> nat -> M A) (src : list Z) : Prop :=
  forall m s b o t, slice m b o src -> tree_ok s -> t < tfresh s -> tree_may_read s (b, o) (length src) t ->
    exists r u s', tree_runs (x (b, o) (length src) t) s m (r, u) s' m /\ f (b, o) (length src) m = Ret r m /\
      tree_leaves s s' (b, o) (length src) (b, o) (length src) /\
      (forall t, t < tfresh s -> tree_may_read s (b, o) (length src) t -> tree_may_read s' (b, o) (length src) t) /\
      match ret r with Some (q, k) => tfresh s <= u < tfresh s' /\ tree_may_read s' q k u | None => True end.

Lemma ro_from_utf8 p n t : ro_op (from_utf8_unchecked p n t) p n t.
Proof. unfold from_utf8_unchecked. apply (ro_fn (fun u => Return u)). intro u. apply ro_return. Qed.
(** what the returned reference may do after the call *)
Lemma into_leave_read s0 p n q k ts td s : apart p n q k -> td < tfresh s0 -> src_inv s0 p n q k ts td s ->
  exists s', tperform Leave s = Some (0, s') /\ into_post s0 s' p n q k td None 0 /\ tfresh s' = tfresh s /\ forall u, can_read s p n u -> readable s' p n u.
Proof.
  intros AP LD I. destruct (into_leave _ _ _ _ _ _ _ _ AP LD I) as (s' & EX & P & _ & F'). exists s'. split; [exact EX|]. split; [exact P|]. split; [exact F'|].
  destruct I as (OK & L & E & PP & K & EL & R & NA & KR & W).
  destruct (leave_ro s (tfresh s0) p n (calls s0) OK K R) as (s1 & EX1 & OK' & P' & _ & K' & EL' & A').
  { intros b o Hb EA. apply NA in EA; [lia|exact Hb|lia]. }
  rewrite EX in EX1. injection EX1 as <-. intros u [Lu Ru]. apply (readable_some p n (tfresh s0) s); auto.
  - split; [split; [lia|intros; now rewrite P']|]. split; [exact EL'|exact A'].
  - apply (guarded_leave _ _ [(tfresh s0, p, n)]). now rewrite K, K'.
Qed.
Lemma from_ascii_tgood x64 v n (F : nat -> nat -> Prop) p t (Q : option (ptr * nat) * nat -> trees -> mem -> Prop) s mm : (forall b o, init mm b o -> cells_of p n b o) ->
  tree_ok s -> t < tfresh s -> readable s p n t ->
  (forall r u s', into_post s s' p n p 0 t None 0 -> match r with Some (q, k) => tfresh s <= u < tfresh s' /\ readable s' q k u | None => True end -> Q (r, u) s' mm) ->
  tgood F (from_ascii_b x64 v p n t) Q s mm.
Proof.
  intros HI OK LT RD H. assert (LA : t < tfresh s /\ apart p n p 0) by (split; [exact LT|apply apart_none]). unfold from_ascii_b.
  apply (into_param F p n t p 0 t); auto; [now split|intros b o Hb; apply in_range_iff in Hb; lia|]. intros s1 I1 R1 L1.
  eapply (into_ro F s p n p 0 t t); [apply ro_reborrow|exact I1|exact LA|exact R1|exact L1|]. intros u2 s2 I2 R2 L2 R2' L2'. unfold is_ascii_b.
  eapply (into_reader F s p n p 0 t t u2 (slice_parts p n)); [intro; apply ro_slice_parts|apply rei_uni_is_ascii|exact I2|exact LA|exact R2'|exact L2'|exact HI|].
  intros y s3 I3 _ _ _. assert (R3 : can_read s3 p n (tfresh s)) by (destruct I3 as (_ & L3 & _ & _ & _ & _ & R3 & _); now split). destruct y.
  - apply tgood_bind. apply ro_from_utf8; [apply I3|exact R3|]. intros u s4 OK4 ST4 R4 IN4. assert (I4 := src_ro' _ _ _ _ _ _ _ _ _ _ (proj2 LA) LT I3 OK4 ST4).
    cbn [tgood]. unfold final. destruct (into_leave_read _ _ _ _ _ _ _ _ (proj2 LA) LT I4) as (s5 & -> & P & F5 & RR). apply H; [exact P|]. split; [|now apply RR].
    split; [|rewrite F5; apply R4]. destruct (le_lt_dec (tfresh s) u) as [|LU]; [assumption|exfalso]. destruct I4 as (_ & _ & E4 & _). rewrite (proj2 E4) in IN4 by exact LU.
    assert (B := ok_path _ _ _ OK LU IN4). lia.
  - apply (into_fail F s p n p 0 t t); auto.
Qed.
Lemma from_ascii_trees x64 v src : tree_view (fun r => r) (from_ascii_b x64 v) (from_ascii x64 v) src.
Proof.
  intros m s b o t S OK LT MR. set (n := length src) in *. set (mm := only (b, o) n m).
  destruct (C34_from_ascii x64 v mm b o src (only_slice _ _ _ _ S)) as (r & E & _). fold n in E.
  destruct (C34_from_ascii x64 v m b o src S) as (r0 & E0 & _). fold n in E0.
  destruct (tgood_runs (fun b' o' => cells_of (b, o) n b' o') fst (from_ascii_b x64 v (b, o) n t) (fun a s' _ => into_post s s' (b, o) n (b, o) 0 t None 0 /\
    match fst a with Some (q, k) => tfresh s <= snd a < tfresh s' /\ readable s' q k (snd a) | None => True end)) with
    (c := from_ascii x64 v (b, o) n) (s := s) (m := m) (mm := mm) (r := r) (mmf := mm) as ([r' u] & s' & m' & RU & Er & P & _).
  - apply from_ascii_ann.
  - exact E.
  - intros b' o' Hi. exact (only_init _ _ _ _ _ Hi).
  - apply only_less.
  - apply from_ascii_tgood; auto.
    + intros b' o' Hi. exact (only_init _ _ _ _ _ Hi).
    + now apply may_read_iff.
  - cbn [fst snd] in *. subst r'. assert (EC := tree_runs_code fst _ _ _ _ _ _ RU _ (from_ascii_ann _ _ _ _ _)). cbn [fst] in EC. rewrite E0 in EC. injection EC as -> <-.
    destruct P as [(P1 & P2 & P3 & P4 & P5 & _) RT]. exists r, u, s'. split; [exact RU|]. split; [exact E0|]. split; [|split].
    + split; [exact P1|]. split; [apply P2|]. split; [exact P3|]. split; [apply P2|]. intros b' o' H1 _. apply (proj1 P4); [exact H1|]. unfold in_range. lia.
    + intros w Lw Rw. apply may_read_iff, P5; [exact Lw|]. now apply may_read_iff.
    + destruct r as [[q k]|]; [|exact Logic.I]. split; [apply RT|]. now apply may_read_iff.
Qed.
