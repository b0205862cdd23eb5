(** The steps of the functions of BorrowsHeap.v *)
From Coq Require Import ZArith List Bool Lia ZifyBool ZifyNat.
From Verif Require Import Bytes Mem MemFacts Slices Codec Conc ConcFacts Reify ConcApi ConcApiFacts Isa Simd Ints Hex Base64 Base32 Forgiving Heap HeapFacts Public
  Borrows BorrowsApi BorrowsFacts BorrowsLib BorrowsCalls BorrowsBridge BorrowsForgiving BorrowsHeap BorrowsHeapFacts.
Import ListNotations.
Open Scope nat_scope. Open Scope m_scope. Open Scope borrow_scope. Open Scope heap_scope.

(** while the call runs: [D] are the blocks that it allocates or changes *)
Definition hinv (s0 : borrows) (p : ptr) (n ts : nat) (D : nat -> Prop) (s : borrows) : Prop :=
  state_ok s /\ fresh s0 < fresh s /\ active s = fresh s0 :: active s0 /\
  (forall b o, in_range (fst p) (snd p) n b o = false -> ~ D b -> stacks s b o = stacks s0 b o) /\ readable s p n ts /\ keeps s0 p n ts s.
Definition hpost (s0 : borrows) (p : ptr) (n ts : nat) (D : nat -> Prop) (s : borrows) : Prop :=
  state_ok s /\ fresh s0 <= fresh s /\ active s = active s0 /\
  (forall b o, in_range (fst p) (snd p) n b o = false -> ~ D b -> stacks s b o = stacks s0 b o) /\ readable s p n ts /\ keeps s0 p n ts s.
Definition hfinal {A} (Q : A -> borrows -> mem -> Prop) : A -> borrows -> mem -> Prop := fun a s m => active s <> [] /\ Q a (leave s) m.
Lemma hinv_post s0 p n ts D s : hinv s0 p n ts D s -> active s <> [] /\ hpost s0 p n ts D (leave s).
Proof.
  intros (OK & L & A & E & R & K). split; [rewrite A; discriminate|]. split; [|split; [cbn; lia|split; [cbn; now rewrite A|split; [exact E|split; [exact R|exact K]]]]].
  assert (EP : perform Leave s = Some (0, leave s)) by (cbn [perform]; unfold leave; now rewrite A). exact (perform_ok _ _ _ _ OK EP).
Qed.
Lemma ok_same s s' : same s s' -> state_ok s -> state_ok s'.
Proof.
  intros (HS & HF & HA) [H1 H2]. split; [intros c Hc; rewrite HA in Hc; rewrite HF; auto|]. intros b o i Hi. rewrite HS in Hi. rewrite HF. exact (H2 b o i Hi).
Qed.
Lemma hinv_same s0 p n ts D s s' : same s s' -> hinv s0 p n ts D s -> hinv s0 p n ts D s'.
Proof.
  intros SA (OK & L & A & E & R & K). split; [exact (ok_same _ _ SA OK)|]. destruct SA as (HS & HF & HA). split; [lia|]. split; [congruence|]. split; [|split].
  - intros b o H1 H2. rewrite HS. auto.
  - intros i Hi. rewrite HS. auto.
  - intros RS t LT RT i Hi. rewrite HS. now apply (K RS t LT RT).
Qed.
Lemma hinv_step s0 p n ts (D : nat -> Prop) s s' : hinv s0 p n ts D s -> state_ok s' -> fresh s <= fresh s' -> active s' = active s ->
  (forall b' o, stacks s' b' o = stacks s b' o \/ (D b' /\ (n = 0 \/ fst p <> b'))) -> hinv s0 p n ts D s'.
Proof.
  intros (OK & L & A & E & R & K) OK' L' A' E'. split; [exact OK'|]. split; [lia|]. split; [congruence|]. split; [|split].
  - intros b' o H1 H2. destruct (E' b' o) as [->|[C _]]; [auto|contradiction].
  - intros i Hi. destruct (E' (fst p) (snd p + i)) as [->|[_ [C|C]]]; [auto|lia|now elim C].
  - intros RS t LT RT i Hi. destruct (E' (fst p) (snd p + i)) as [->|[_ [C|C]]]; [now apply (K RS t LT RT)|lia|now elim C].
Qed.
Lemma hinv_dst s0 p n ts (D : nat -> Prop) s s' b : hinv s0 p n ts D s -> state_ok s' -> fresh s <= fresh s' -> active s' = active s ->
  (forall b' o, b' <> b -> stacks s' b' o = stacks s b' o) -> D b -> n = 0 \/ fst p <> b -> hinv s0 p n ts D s'.
Proof.
  intros I OK' L' A' E' HD N. apply (hinv_step s0 p n ts D s); auto. intros b' o. destruct (Nat.eq_dec b' b) as [->|NB]; auto.
Qed.
Lemma hgood_ok {A} (x : hcode A) (Q : A -> borrows -> mem -> Prop) : forall s m, state_ok s -> hgood x (fun a s' m' => state_ok s' -> Q a s' m') s m -> hgood x Q s m.
Proof.
  assert (FB : forall s b n, state_ok s -> state_ok (fresh_block s b n)).
  { intros s0 b n OK. exact (hruns_ok (HAlloc {| pointer_bits := 0; overflow_checks := true; new_block := b; spare := 0 |} n (fun _ _ => HReturn tt)) s0 (fun _ => [])
      tt _ _ (hruns_alloc _ _ _ _ s0 (fun _ => []) _ _ _ _ _ eq_refl (hruns_return _ _ _ _)) OK). }
  assert (RL : forall s b n t s1, release s b n t = Some s1 -> state_ok s -> state_ok s1).
  { intros s0 b n t s1 E OK. refine (hruns_ok (HFree b t (HReturn tt)) s0 (fun _ => repeat None n) tt _ _ _ OK).
    apply (hruns_free _ _ _ _ s0 (fun _ => repeat None n) s1 (upd (fun _ => repeat None n) b [])) with (3 := hruns_return _ _ _ _); [now rewrite repeat_length|reflexivity]. }
  induction x as [a|y k IH|X v c0 k IH|X c0 k IH|M n k IH|M v n t k IH|b t k IH]; cbn [hgood]; intros s m OK G.
  - auto.
  - destruct (perform y s) as [[t s1]|] eqn:E; [|exact G]. apply IH; [exact (perform_ok _ _ _ _ OK E)|exact G].
  - intros y m1 E. destruct (G y m1 E) as (p & s1 & FO & ET & G'). exists p, s1. split; [exact FO|]. split; [exact ET|].
    apply IH; [exact (trun_ok _ _ _ _ _ _ _ OK ET)|exact G'].
  - intros y m1 E. destruct (G y m1 E) as (EM & G'). split; [exact EM|]. now apply IH.
  - intros b m1 E. apply IH; [now apply FB|now apply G].
  - intros w m1 E. specialize (G w m1 E). destruct (_ <=? _); [now apply IH|]. destruct G as (s1 & ER & G). exists s1. split; [exact ER|].
    apply IH; [|exact G]. apply FB. exact (RL _ _ _ _ _ ER OK).
  - destruct G as (s1 & ER & G). exists s1. split; [exact ER|]. apply IH; [|exact G]. exact (RL _ _ _ _ _ ER OK).
Qed.
Lemma ok_fresh_block s b n : state_ok s -> state_ok (fresh_block s b n).
Proof.
  intros [H1 H2]. split; cbn [fresh_block stacks fresh active].
  - intros c Hc. apply H1 in Hc. lia.
  - intros b' o i Hi. destruct (b' =? b).
    + destruct (o <? n); [|contradiction]. destruct Hi as [<-|[]]. cbn. split; [lia|discriminate].
    + destruct (H2 b' o i Hi) as [T C]. split; [lia|]. intros c Hc. apply C in Hc. lia.
Qed.
Lemma ok_released s b : state_ok s -> state_ok {| stacks := fun b' o => if b' =? b then [] else stacks s b' o; fresh := fresh s; active := active s |}.
Proof. intros [H1 H2]. split; [exact H1|]. cbn [stacks fresh]. intros b' o i Hi. destruct (b' =? b); [contradiction|]. exact (H2 _ _ _ Hi). Qed.

(** ** The source *)
Lemma h_start {A} p n ts (D : nat -> Prop) (body : nat -> hcode A) Q s m : state_ok s -> ts < fresh s -> may_read s p n ts ->
  (forall u s1, elsewhere p n s s1 -> hinv s p n ts D s1 -> readable s1 p n u -> u < fresh s1 -> hgood (body u) (hfinal Q) s1 m) ->
  hgood (hfn (hbind (lift (shared_param p n ts)) body)) Q s m.
Proof.
  intros OK L R H. apply hgood_fn. apply (hgood_lift (fun _ _ => True)); [nox|]. apply good_ok; [nox|now apply ok_enter|]. unfold shared_param.
  set (h := fun i => match read_at (fresh s :: active s) ts (stacks s (fst p) (snd p + i)) with Some x => x | None => [] end).
  assert (Hh : forall i, i < n -> read_at (fresh s :: active s) ts (stacks s (fst p) (snd p + i)) = Some (h i)).
  { intros i Hi. specialize (R i Hi). unfold h. rewrite <- (read_enter s) in R by exact OK. destruct (read_at _ _ _); [reflexivity|contradiction]. }
  apply (good_shared_gen _ SharedRef true ts p n h); [auto|exact Hh|]. intros s1 F1 A1 E1 C1 OK1. cbn [fresh active enter hd_error] in *. apply H.
  - exact E1.
  - split; [exact OK1|]. split; [lia|]. split; [exact A1|]. split; [intros b o H1 _; now rewrite E1|].
    split.
    + intros i Hi. rewrite C1 by exact Hi. apply (reads_app ts [_]).
      * constructor; [|constructor]. cbn. split; [reflexivity|lia].
      * exact (read_reads _ _ _ _ (Hh i Hi)).
    + intros RS t LT RT i Hi. rewrite C1 by exact Hi. specialize (Hh i Hi). rewrite (reads_stable _ _ _ (RS i Hi)) in Hh. injection Hh as <-.
      apply (reads_app t [_]); [|now apply RT]. constructor; [|constructor]. cbn. split; [reflexivity|lia].
  - intros i Hi. rewrite C1 by exact Hi. apply reads_top.
  - lia.
Qed.
Lemma hinv_ro s0 p n ts D s s' : hinv s0 p n ts D s -> ts < fresh s0 -> state_ok s' -> ro_step p n s s' -> hinv s0 p n ts D s'.
Proof.
  intros (OK & L & A & E & R & K) LT OK' ST. assert (ST' := ST). destruct ST as (F' & A' & E' & C'). split; [exact OK'|]. split; [lia|]. split; [congruence|].
  split; [intros b o H1 H2; rewrite E' by exact H1; auto|]. split; [apply (readable_ro p n s); [exact ST'|lia|exact R]|].
  intros RS t Lt RT. apply (readable_ro p n s); [exact ST'|lia|]. now apply K.
Qed.
Lemma h_ro {A} s0 p n ts D (x : bcode nat) u (body : nat -> hcode A) Q s m : ro_op x p n u -> noexec x -> hinv s0 p n ts D s -> ts < fresh s0 ->
  readable s p n u -> u < fresh s ->
  (forall v s', ro_step p n s s' -> hinv s0 p n ts D s' -> readable s' p n u -> u < fresh s' -> readable s' p n v -> v < fresh s' -> hgood (body v) Q s' m) ->
  hgood (hbind (lift x) body) Q s m.
Proof.
  intros HX NX I LT R L H. apply (hgood_lift (fun _ _ => True)); [exact NX|]. apply good_ok; [exact NX|apply I|]. apply HX; [apply ok_wf, I|exact L|exact R|].
  intros v s' W' ST L' R' OK'. apply H; auto.
  - exact (hinv_ro _ _ _ _ _ _ _ I LT OK' ST).
  - exact (readable_ro _ _ _ _ _ ST L R).
  - destruct ST as (A1 & _). lia.
Qed.
Lemma h_exec {A X} p n q k v td (c : M X) R (kk : X -> hcode A) Q s m : reified True (eq (fst q)) R c -> fst p <> fst q -> readable s p n v -> on_top s q k td ->
  (exists y mm', c (only p n m) = Ret y mm' /\ only_changed (only p n m) (fst q) (snd q) k mm') ->
  (forall y m' s', c m = Ret y m' -> same s s' -> hgood (kk y) Q s' m') -> hgood (hbind (hexec (via2 (fst p) v (fst q) td) c) kk) Q s m.
Proof.
  intros [pr FO S] N RV T (y0 & mm' & E0 & FR) H. intros y m1 E. exists pr.
  destruct (exec_ok R (eq (fst q)) (via2 (fst p) v (fst q) td) pr (S I) s m (only p n m) y0 mm') as (s' & m' & ET & SA & _).
  - now rewrite (follows_imp _ _ FO).
  - apply only_less.
  - intros b o Hi. destruct (frame_init _ _ _ _ _ _ _ FR Hi) as [C|C].
    + apply only_init, in_range_iff in C as [-> C]. exists v. rewrite via2_src. split; [reflexivity|]. split; [|congruence].
      replace o with (snd p + (o - snd p)) by lia. apply RV. lia.
    + apply in_range_iff in C as [-> C]. cbn [fst snd] in *. exists td. rewrite via2_dst by exact N. split; [reflexivity|].
      assert (W : wtop td (stacks s (fst q) o)). { replace o with (snd q + (o - snd q)) by lia. apply T. lia. }
      split; [now apply wtop_reads|auto].
  - assert (ER := trun_run _ _ _ _ _ _ _ ET). rewrite (follows_imp _ _ FO), E in ER. injection ER as <- <-. exists s'. split; [exact FO|]. split; [exact ET|].
    apply H; auto.
Qed.

(** ** The box *)
Definition boxed_at (s : borrows) (b n u : nat) : Prop :=
  u < fresh s /\ exists g base, i_perm g = Unique /\ i_tag g = u /\ above s (b, 0) n g base /\ forall i, i < n -> free_of (active s) (g :: base i).
Definition holds (P : perm) (s : borrows) (b n u : nat) : Prop :=
  u < fresh s /\ forall i, i < n -> exists r, stacks s b i = new_item P u :: r /\ free_of (active s) r.
Lemma holds_boxed s b n u : holds Unique s b n u -> boxed_at s b n u.
Proof.
  intros [L H]. split; [exact L|]. exists (new_item Unique u), (fun i => tl (stacks s b i)). split; [reflexivity|]. split; [reflexivity|]. split.
  - intros i Hi. destruct (H i Hi) as (r & E & F). exists []. cbn [fst snd app]. rewrite Nat.add_0_l, E. split; [reflexivity|constructor].
  - intros i Hi. destruct (H i Hi) as (r & E & F). rewrite E. constructor; [reflexivity|exact F].
Qed.
Lemma boxed_owns s b n u : boxed_at s b n u -> owns s b n u.
Proof.
  intros (L & g & base & U & T & HA & HF) i Hi. destruct (HA i Hi) as (X & E & HX). cbn [fst snd] in E. rewrite Nat.add_0_l in E. rewrite E.
  apply (may_free_in _ _ g); [apply in_or_app; right; now left|unfold grants; now rewrite U, T, Nat.eqb_refl|]. apply Forall_app. split; [|now apply HF].
  refine (Forall_impl _ _ HX). now intros x [_ C].
Qed.
Lemma grants_new P u : P = Unique \/ P = SharedRW -> grants true u (new_item P u) = true.
Proof. intros [-> | ->]; unfold grants; cbn; now rewrite Nat.eqb_refl. Qed.
Lemma holds_owns P s b n u : P = Unique \/ P = SharedRW -> holds P s b n u -> owns s b n u.
Proof.
  intros HP [_ H] i Hi. destruct (H i Hi) as (r & -> & F). apply (may_free_in _ _ (new_item P u)); [now left|now apply grants_new|].
  constructor; [reflexivity|exact F].
Qed.
Lemma holds_top P s b n u : P = Unique \/ P = SharedRW -> holds P s b n u -> on_top s (b, 0) n u.
Proof. intros HP [_ H] i Hi. cbn [fst snd]. rewrite Nat.add_0_l. destruct (H i Hi) as (r & E & _). exists (new_item P u), r. split; [exact E|now apply grants_new]. Qed.
Lemma boxed_other s s' b n u : fresh s <= fresh s' -> active s' = active s -> (forall o, stacks s' b o = stacks s b o) -> boxed_at s b n u -> boxed_at s' b n u.
Proof.
  intros L A E (LU & g & base & U & T & HA & HF). split; [lia|]. exists g, base. split; [exact U|]. split; [exact T|]. rewrite A. split; [|exact HF].
  intros i Hi. destruct (HA i Hi) as (X & EX & HX). exists X. rewrite E, A. auto.
Qed.
Lemma boxed_same s s' b n u : same s s' -> boxed_at s b n u -> boxed_at s' b n u.
Proof. intros (HS & HF & HA). apply boxed_other; [lia|exact HA|]. auto. Qed.
Lemma on_top_other s s' q k t : (forall o, stacks s' (fst q) o = stacks s (fst q) o) -> on_top s q k t -> on_top s' q k t.
Proof. intros E T i Hi. rewrite E. now apply T. Qed.
Lemma owns_other s s' b n u : active s' = active s -> (forall o, stacks s' b o = stacks s b o) -> owns s b n u -> owns s' b n u.
Proof. intros A E H i Hi. rewrite A, E. now apply H. Qed.
Lemma owns_leave s c act b n u : active s = c :: act -> owns s b n u -> owns (leave s) b n u.
Proof.
  intros A H i Hi. specialize (H i Hi). cbn [leave stacks active]. rewrite A in *. cbn [tl]. unfold may_free in *. destruct (locate true u (stacks s b i)); [|exact H].
  apply negb_true_iff. apply negb_true_iff in H. apply unprotected_all. apply Forall_forall. intros x Hx. apply (unprotected_less act c).
  destruct (protected (c :: act) x) eqn:E; [|reflexivity]. assert (existsb (protected (c :: act)) (stacks s b i) = true) by (apply existsb_exists; eauto). congruence.
Qed.
Lemma owns_start s s1 b n u : state_ok s -> active s1 = fresh s :: active s -> (forall o, stacks s1 b o = stacks s b o) -> owns s b n u -> owns s1 b n u.
Proof.
  intros OK A E H i Hi. specialize (H i Hi). rewrite A, E. unfold may_free in *. destruct (locate true u (stacks s b i)); [|exact H].
  apply negb_true_iff. apply negb_true_iff in H. apply unprotected_all, Forall_forall. intros x Hx. rewrite (protected_enter s b i x OK Hx).
  destruct (protected (active s) x) eqn:EX; [|reflexivity]. assert (existsb (protected (active s)) (stacks s b i) = true) by (apply existsb_exists; eauto). congruence.
Qed.
Lemma h_op {A} P x b n t (kk : nat -> hcode A) Q s m : P = Unique \/ P = SharedRW -> op P (at_start b) n x -> state_ok s -> boxed_at s b n t ->
  (forall u s', state_ok s' -> fresh s <= u < fresh s' -> active s' = active s -> (forall b' o, b' <> b -> stacks s' b' o = stacks s b' o) ->
     holds P s' b n u -> boxed_at s' b n t -> hgood (kk u) Q s' m) -> hgood (hbind (lift (x t)) kk) Q s m.
Proof.
  intros HP [NX HX] OK (L & g & base & U & <- & HA & HF) H. apply (hgood_lift (fun _ _ => True)); [apply NX|]. apply good_ok; [apply NX|exact OK|].
  apply (HX (fun _ _ => True) _ g base); auto. intros u Y s' W' U' A' E' HY C' OK'. cbn [at_start fst snd] in *. apply H; auto.
  - intros b' o N. apply E'. cbn [at_start fst]. now apply not_in_range_block.
  - split; [lia|]. intros i Hi. rewrite <- (Nat.add_0_l i), C' by exact Hi. eexists. split; [reflexivity|]. rewrite A'. apply Forall_app. split; [|now apply HF].
    refine (Forall_impl _ _ HY). now intros x0 [_ C].
  - split; [lia|]. exists g, base. split; [exact U|]. split; [reflexivity|]. rewrite A'. split; [|exact HF]. intros i Hi. cbn [fst snd]. rewrite C' by exact Hi.
    exists (new_item P u :: Y). split; [reflexivity|]. rewrite A'. constructor; [cbn; split; [lia|reflexivity]|]. refine (Forall_impl _ _ HY). intros x0 [T C]. split; [lia|exact C].
Qed.
Lemma alloc_ret M n m b m1 : alloc M n m = Ret b m1 -> m (new_block M) = [] /\ b = new_block M /\ m1 = upd m (new_block M) (repeat None n).
Proof. unfold alloc. destruct (m (new_block M)); [|discriminate]. intro E. injection E as <- <-. auto. Qed.
Lemma h_alloc {A} M n (kk : boxed * nat -> hcode A) Q s m : state_ok s ->
  (forall u s', m (new_block M) = [] -> state_ok s' -> fresh s <= u < fresh s' -> active s' = active s ->
     (forall b' o, b' <> new_block M -> stacks s' b' o = stacks s b' o) -> boxed_at s' (new_block M) n u ->
     hgood (kk ({| x_block := new_block M; x_len := n |}, u)) Q s' (upd m (new_block M) (repeat None n))) -> hgood (hbind (alloc_uninit_bytes_b M n) kk) Q s m.
Proof.
  intros OK H. apply hgood_bind. unfold alloc_uninit_bytes_b. apply hgood_fn. apply hgood_pure. intros y m1 E. split.
  { destruct (_ && _); [|discriminate E]. now injection E. }
  clear y m1 E. intros b m1 E. apply alloc_ret in E as (E0 & -> & ->). cbn [hbind fst snd].
  set (s1 := fresh_block (enter s) (new_block M) n). assert (OK1 : state_ok s1) by (apply ok_fresh_block, ok_enter, OK).
  apply (hgood_lift (fun _ _ => True)); [nox|]. apply good_ok; [nox|exact OK1|].
  set (g := new_item SharedRW (fresh (enter s))). change (fresh (enter s)) with (i_tag g).
  destruct (top_from_raw (at_start (new_block M)) n) as [_ HT]. apply (HT _ _ g (fun _ => [])); [reflexivity|cbn; lia|exact OK1| |].
  - intros i Hi. unfold s1. cbn [fresh_block stacks at_start fst snd]. rewrite Nat.eqb_refl, Nat.add_0_l, (proj2 (Nat.ltb_lt _ _) Hi). reflexivity.
  - intros u Y s2 W2 [U1 U2] A2 E2 HY C2 OK2. cbn [hgood]. cbn [s1 fresh_block fresh active enter] in *. split; [rewrite A2; discriminate|].
    assert (EP : perform Leave s2 = Some (0, leave s2)) by (cbn [perform]; unfold leave; now rewrite A2). apply H; auto.
    + exact (perform_ok _ _ _ _ OK2 EP).
    + cbn. lia.
    + cbn. now rewrite A2.
    + intros b' o N. cbn [leave stacks]. rewrite E2 by (now apply not_in_range_block). unfold s1. cbn [fresh_block stacks].
      now rewrite (proj2 (Nat.eqb_neq _ _) N).
    + apply holds_boxed. split; [cbn; lia|]. intros i Hi. cbn [leave stacks active]. rewrite A2. cbn [tl].
      specialize (C2 i Hi). cbn [at_start fst snd] in C2. rewrite Nat.add_0_l in C2. rewrite C2. eexists. split; [reflexivity|].
      apply Forall_app. split; [|constructor; [reflexivity|constructor]]. refine (Forall_impl _ _ HY). intros x0 [_ C]. exact (unprotected_less _ _ _ C).
Qed.
Lemma h_free {A} b n t (kk : unit -> hcode A) Q s m : n = length (m b) -> owns s b n t ->
  (hgood (kk tt) Q {| stacks := fun b' o => if b' =? b then [] else stacks s b' o; fresh := fresh s; active := active s |} (upd m b [])) ->
  hgood (hbind (hfree b t) kk) Q s m.
Proof. intros -> H G. cbn [hfree hbind hgood]. eexists. split; [now apply owns_release|exact G]. Qed.

(** ** The vector *)
Lemma capacity_ge M n : (Z.of_nat n <= isize_limit M)%Z -> n <= capacity M n.
Proof. unfold capacity. lia. Qed.
Lemma h_grow {A} M v k tv (kk : vec * nat -> hcode A) Q s m : state_ok s -> tv < fresh s -> v_len v <= length (m (v_block v)) -> vec_owned s m v tv ->
  (forall w t s' m', state_ok s' -> fresh s <= fresh s' -> t < fresh s' -> active s' = active s -> vec_owned s' m' w t -> v_len w = v_len v ->
     v_len v + k <= length (m' (v_block w)) -> (m (new_block M) <> [] /\ new_block M <> v_block v -> v_block w = v_block v) -> (v_block w = v_block v \/ v_block w = new_block M) ->
     (forall b' o, b' <> v_block v -> b' <> v_block w -> stacks s' b' o = stacks s b' o) ->
     (forall b', b' <> v_block v -> b' <> v_block w -> m' b' = m b') -> hgood (kk (w, t)) Q s' m') -> hgood (hbind (hgrow M v k tv) kk) Q s m.
Proof.
  intros OK LT LV [HO HT] H. cbn [hgrow hbind hgood]. intros w m1 E. destruct (Nat.leb_spec (v_len v + k) (length (m (v_block v)))) as [L|L].
  - apply H; auto. now split.
  - set (cap := length (m (v_block v))) in *. eexists. split; [now apply owns_release|]. cbn [fresh].
    set (s1 := {| stacks := fun b' o => if b' =? v_block v then [] else stacks s b' o; fresh := fresh s; active := active s |}).
    assert (OK1 : state_ok s1) by (now apply ok_released).
    unfold reserve_exact in E. fold cap in E. rewrite (proj2 (Nat.leb_gt _ _) L) in E. destruct (Z.ltb_spec (isize_limit M) (Z.of_nat (v_len v + k))) as [|LZ]; [discriminate E|].
    assert (LC := capacity_ge _ _ LZ). set (l := (m (v_block v) ++ repeat None (capacity M (v_len v + k) - cap))%list) in *.
    assert (LL : v_len v + k <= length l). { unfold l. rewrite app_length, repeat_length. fold cap. lia. }
    assert (K : (v_block w = v_block v \/ (v_block w = new_block M /\ m (new_block M) = [])) /\ v_len w = v_len v /\ m1 (v_block w) = l /\ forall b', b' <> v_block v -> b' <> v_block w -> m1 b' = m b').
    { destruct (Nat.eqb_spec (new_block M) (v_block v)) as [EN|NE].
      - injection E as <- <-. split; [now left|]. split; [reflexivity|]. split; [apply upd_same|]. intros b' H1 _. now apply upd_other.
      - destruct (m (new_block M)); [|discriminate E]. injection E as <- <-. split; [right; auto|]. split; [reflexivity|]. cbn [v_block]. split; [apply upd_same|].
        intros b' H1 H2. now rewrite !upd_other by assumption. }
    destruct K as (KB & KL & KM & KF). rewrite KM. set (s2 := fresh_block s1 (v_block w) (length l)).
    assert (OK2 : state_ok s2) by (now apply ok_fresh_block).
    apply H; auto.
    + cbn. lia.
    + split.
      * intros i Hi. rewrite KM in Hi. unfold s2. cbn [fresh_block stacks active]. rewrite Nat.eqb_refl, (proj2 (Nat.ltb_lt _ _) Hi).
        apply (may_free_in _ _ (new_item SharedRW (fresh s))); [now left|apply grants_new; auto|]. constructor; [reflexivity|constructor].
      * intros i Hi. rewrite KM in Hi. cbn [fst snd]. unfold s2. cbn [fresh_block stacks]. rewrite Nat.eqb_refl. rewrite (proj2 (Nat.ltb_lt _ _)) by lia.
        exists (new_item SharedRW (fresh s)), []. split; [reflexivity|]. apply grants_new. auto.
    + now rewrite KM.
    + intros [N1 N2]. destruct KB as [KB|[KB KB']]; [exact KB|contradiction].
    + destruct KB as [KB|[KB _]]; auto.
    + intros b' o H1 H2. unfold s2. cbn [fresh_block stacks]. rewrite (proj2 (Nat.eqb_neq _ _) H2). unfold s1. cbn [stacks]. now rewrite (proj2 (Nat.eqb_neq _ _) H1).
Qed.
