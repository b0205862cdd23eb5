(** The borrows that the public functions are made of: what they need and what they leave. *)
From Coq Require Import ZArith List Bool Lia ZifyBool ZifyNat.
From Verif Require Import Bytes Mem MemFacts Slices Codec Conc ConcFacts Reify ConcApi ConcApiFacts Isa Simd Ints Hex Base64 Base32 Uuid Unicode
  Forgiving Borrows BorrowsApi BorrowsFacts.
Import ListNotations.
Open Scope nat_scope. Open Scope m_scope. Open Scope borrow_scope.

Definition wf (s : borrows) : Prop := forall c, In c (active s) -> c < fresh s.
(** [t] may read the bytes *)
Definition readable (s : borrows) (p : ptr) (n t : nat) : Prop := forall i, i < n -> reads t (stacks s (fst p) (snd p + i)).
Definition elsewhere (p : ptr) (n : nat) (s s' : borrows) : Prop :=
  forall b o, in_range (fst p) (snd p) n b o = false -> stacks s' b o = stacks s b o.
(** items of pointers that may only read have been added, for calls that are over *)
Definition ro_step (p : ptr) (n : nat) (s s' : borrows) : Prop :=
  fresh s <= fresh s' /\ active s' = active s /\ elsewhere p n s s' /\
  forall i, i < n -> exists X, stacks s' (fst p) (snd p + i) = X ++ stacks s (fst p) (snd p + i) /\
    Forall (fun x => i_perm x = SharedRO /\ fresh s <= i_tag x /\ protected (active s) x = false) X.
Definition ro_op (x : bcode nat) (p : ptr) (n t : nat) : Prop := forall (F : nat -> nat -> Prop) (Q : nat -> borrows -> mem -> Prop) s mm, wf s -> t < fresh s -> readable s p n t ->
  (forall u s', wf s' -> ro_step p n s s' -> u < fresh s' -> readable s' p n u -> Q u s' mm) -> good F x Q s mm.

Lemma wf_same s st f : wf s -> fresh s <= f -> wf {| stacks := st; fresh := f; active := active s |}.
Proof. intros W L c Hc. cbn in *. apply W in Hc. lia. Qed.
Lemma unprotected_fresh s t p : wf s -> fresh s <= t -> protected (active s) {| i_perm := p; i_tag := t; i_call := None |} = false.
Proof. reflexivity. Qed.
Lemma unprotected_call s x c : wf s -> fresh s <= c -> i_call x = Some c -> protected (active s) x = false.
Proof.
  intros W L E. unfold protected. rewrite E. destruct (existsb (Nat.eqb c) (active s)) eqn:EX; [|reflexivity].
  apply existsb_exists in EX as (y & Hy & Ey). apply Nat.eqb_eq in Ey. subst y. apply W in Hy. lia.
Qed.
Lemma unprotected_less act c x : protected (c :: act) x = false -> protected act x = false.
Proof. unfold protected. destruct (i_call x); [|reflexivity]. cbn [existsb]. now intros [_ H]%orb_false_iff. Qed.
Lemma readable_ro p n s s' t : ro_step p n s s' -> t < fresh s -> readable s p n t -> readable s' p n t.
Proof.
  intros (_ & _ & _ & H) L R i Hi. destruct (H i Hi) as (X & -> & HX). apply reads_app; [|now apply R].
  apply Forall_forall. intros x Hx. destruct (proj1 (Forall_forall _ _) HX x Hx) as (A & B & _). split; [exact A|lia].
Qed.
Lemma ro_trans p n s1 s2 s3 : ro_step p n s1 s2 -> ro_step p n s2 s3 -> ro_step p n s1 s3.
Proof.
  intros (A & B & C & D) (A' & B' & C' & D'). split; [lia|]. split; [congruence|]. split.
  - intros b o H. now rewrite C', C.
  - intros i Hi. destruct (D i Hi) as (X & E & HX), (D' i Hi) as (X' & E' & HX'). exists (X' ++ X). rewrite E', E, app_assoc. split; [reflexivity|].
    apply Forall_app. split; [|exact HX]. apply Forall_forall. intros x Hx. destruct (proj1 (Forall_forall _ _) HX' x Hx) as (P1 & P2 & P3).
    rewrite B in P3. repeat split; auto. lia.
Qed.

Lemma good_shared_gen (F : nat -> nat -> Prop) x (param : bool) t p n (h : nat -> stack) (Q : nat -> borrows -> mem -> Prop) s mm :
  x = SharedRef \/ x = RawConst -> (forall i, i < n -> read_at (active s) t (stacks s (fst p) (snd p + i)) = Some (h i)) ->
  (forall s', fresh s' = S (fresh s) -> active s' = active s -> elsewhere p n s s' ->
     (forall i, i < n -> stacks s' (fst p) (snd p + i) =
        {| i_perm := SharedRO; i_tag := fresh s; i_call := if param then hd_error (active s) else None |} :: h i) ->
     Q (fresh s) s' mm) -> good F (do_ (Retag x param t p n)) Q s mm.
Proof.
  intros K R H. unfold do_. cbn [good perform].
  set (it := {| i_perm := SharedRO; i_tag := fresh s; i_call := if param then hd_error (active s) else None |}) in *.
  destruct (across_ok (stacks s) p n (retag_at (active s) x (if param then hd_error (active s) else None) t (fresh s))
              (fun i => it :: h i)) as (st & -> & A & B).
  - intros i Hi. destruct K as [-> | ->]; cbn [retag_at]; now rewrite R.
  - apply H; auto.
Qed.
Lemma good_shared (F : nat -> nat -> Prop) x (param : bool) t p n (Q : nat -> borrows -> mem -> Prop) s mm : x = SharedRef \/ x = RawConst -> readable s p n t ->
  (forall s', fresh s' = S (fresh s) -> active s' = active s -> elsewhere p n s s' ->
     (forall i, i < n -> stacks s' (fst p) (snd p + i) =
        {| i_perm := SharedRO; i_tag := fresh s; i_call := if param then hd_error (active s) else None |} :: stacks s (fst p) (snd p + i)) ->
     Q (fresh s) s' mm) -> good F (do_ (Retag x param t p n)) Q s mm.
Proof. intros K R. apply good_shared_gen; [exact K|]. intros i Hi. now apply reads_stable, R. Qed.
Lemma ro_raw t p n : ro_op (do_ (Retag RawConst false t p n)) p n t.
Proof.
  intros F Q s mm W L R H. apply good_shared; [auto|exact R|]. intros s' EF EA EE EC. apply H.
  - intros c Hc. rewrite EA in Hc. apply W in Hc. lia.
  - split; [lia|]. split; [exact EA|]. split; [exact EE|]. intros i Hi. rewrite EC by exact Hi. eexists [_]. split; [reflexivity|].
    constructor; [|constructor]. cbn. auto.
  - lia.
  - intros i Hi. rewrite EC by exact Hi. apply reads_top.
Qed.
Lemma ro_reborrow t p n : ro_op (reborrow p n t) p n t.
Proof.
  intros F Q s mm W L R H. unfold reborrow. apply good_shared; [auto|exact R|]. intros s' EF EA EE EC. apply H.
  - intros c Hc. rewrite EA in Hc. apply W in Hc. lia.
  - split; [lia|]. split; [exact EA|]. split; [exact EE|]. intros i Hi. rewrite EC by exact Hi. eexists [_]. split; [reflexivity|].
    constructor; [|constructor]. cbn. auto.
  - lia.
  - intros i Hi. rewrite EC by exact Hi. apply reads_top.
Qed.
Definition enter (s : borrows) : borrows := {| stacks := stacks s; fresh := S (fresh s); active := fresh s :: active s |}.
Definition leave (s : borrows) : borrows := {| stacks := stacks s; fresh := fresh s; active := tl (active s) |}.
Lemma good_fn (F : nat -> nat -> Prop) {A} (body : bcode A) (Q : A -> borrows -> mem -> Prop) s mm :
  good F body (fun a s1 mm1 => active s1 <> [] /\ Q a (leave s1) mm1) (enter s) mm -> good F (fn body) Q s mm.
Proof.
  intro H. unfold fn. cbn [good perform]. apply good_bind. revert H. apply good_imp. intros a s1 mm1 [N H]. cbn [good perform].
  unfold leave in H. destruct (active s1); [contradiction|exact H].
Qed.
Lemma wf_enter s : wf s -> wf (enter s).
Proof. intros W c [<-|H]; cbn; [lia|]. apply W in H. lia. Qed.
Lemma wf_leave s0 s c : wf s0 -> fresh s0 <= fresh s -> active s = c :: active s0 -> wf (leave s).
Proof. intros W L E c' H. cbn in *. rewrite E in H. cbn in H. apply W in H. lia. Qed.
Lemma ro_fn (body : nat -> bcode nat) p n t : (forall u, ro_op (body u) p n u) -> ro_op (fn (bbind (shared_param p n t) body)) p n t.
Proof.
  intros HB F Q s mm W L R H. apply good_fn, good_bind. unfold shared_param. apply good_shared; [auto|exact R|].
  intros s1 EF EA EE EC. cbn [fresh active enter hd_error] in *.
  apply HB; [| lia | |].
  { intros c Hc. rewrite EA in Hc. destruct Hc as [<-|Hc]; [lia|]. apply W in Hc. lia. }
  { intros i Hi. rewrite EC by exact Hi. apply reads_top. }
  intros u s2 W2 (F2 & A2 & E2 & C2) L2 R2. split; [rewrite A2, EA; discriminate|]. apply H.
  - apply (wf_leave s s2 (fresh s)); [exact W|lia|now rewrite A2].
  - split; [cbn; lia|]. split; [cbn; rewrite A2, EA; reflexivity|]. split.
    + intros b o Hr. cbn. rewrite E2, EE by exact Hr. reflexivity.
    + intros i Hi. cbn. destruct (C2 i Hi) as (X & -> & HX). rewrite EC by exact Hi. eexists (X ++ [_]). rewrite <- app_assoc. split; [reflexivity|].
      apply Forall_app. split; [|constructor; [|constructor]].
      * apply Forall_forall. intros x Hx. destruct (proj1 (Forall_forall _ _) HX x Hx) as (P1 & P2 & P3). split; [exact P1|]. split; [lia|].
        rewrite EA in P3. exact (unprotected_less _ _ _ P3).
      * split; [reflexivity|]. split; [cbn; lia|]. apply (unprotected_call s _ (fresh s)); [exact W|lia|reflexivity].
  - cbn. exact L2.
  - intros i Hi. cbn. now apply R2.
Qed.
Lemma ro_return p n t : ro_op (Return t) p n t.
Proof.
  intros F Q s mm W L R H. apply H; auto. split; [lia|]. split; [reflexivity|]. split; [now intros b o _|]. intros i Hi. exists []. split; [reflexivity|constructor].
Qed.
Lemma ro_len p n t : ro_op (slice_len p n t) p n t.
Proof. exact (ro_fn (fun u => Return u) p n t (ro_return p n)). Qed.
Lemma ro_as_ptr p n t : ro_op (as_ptr p n t) p n t.
Proof. apply ro_fn. intro u. apply ro_raw. Qed.
Lemma ro_seq x (y : nat -> bcode nat) p n t : ro_op x p n t -> (forall u, ro_op (y u) p n t) -> ro_op (bbind x y) p n t.
Proof.
  intros HX HY F Q s mm W L R H. apply good_bind. apply HX; [exact W|exact L|exact R|]. intros u s1 W1 S1 L1 R1.
  apply HY; [exact W1| |now apply (readable_ro p n s)|].
  - destruct S1 as (A & _). lia.
  - intros v s2 W2 S2 L2 R2. apply H; auto. now apply (ro_trans _ _ _ s1).
Qed.
Lemma ro_slice_parts p n t : ro_op (slice_parts p n t) p n t.
Proof. apply ro_fn. intro u. apply ro_seq; [apply ro_len|]. intros _. apply ro_as_ptr. Qed.

(** ** Pointers that may write *)
(** above the item [g] there is nothing that the caller may count on *)
Definition above (s : borrows) (p : ptr) (n : nat) (g : item) (base : nat -> stack) : Prop :=
  forall i, i < n -> exists X, stacks s (fst p) (snd p + i) = X ++ g :: base i /\
    Forall (fun x => i_tag g < i_tag x /\ protected (active s) x = false) X.
Lemma above_ro p n s s' g base : ro_step p n s s' -> i_tag g < fresh s -> above s p n g base -> above s' p n g base.
Proof.
  intros (A & B & C & D) L H i Hi. destruct (D i Hi) as (X & -> & HX), (H i Hi) as (Y & -> & HY). exists (X ++ Y). rewrite app_assoc. split; [reflexivity|].
  rewrite B. apply Forall_app. split; [|exact HY]. apply Forall_forall. intros x Hx. destruct (proj1 (Forall_forall _ _) HX x Hx) as (P1 & P2 & P3).
  split; [lia|exact P3].
Qed.
Lemma write_above act g X below : i_perm g = Unique -> Forall (fun x => i_tag g < i_tag x /\ protected act x = false) X ->
  write_at act (i_tag g) (X ++ g :: below) = Some (g :: below).
Proof.
  intros U HX. unfold write_at. rewrite (locate_app true (i_tag g) X g below).
  - unfold split_above, is_shared_rw. rewrite U. replace (existsb (protected act) X) with false; [reflexivity|].
    induction HX as [|x X [_ Px] _ IH]; [reflexivity|]. cbn [existsb]. now rewrite Px, <- IH.
  - apply Forall_forall. intros x Hx. destruct (proj1 (Forall_forall _ _) HX x Hx) as [T _]. unfold grants.
    now rewrite (proj2 (Nat.eqb_neq _ _)) by lia.
  - unfold grants. now rewrite U, Nat.eqb_refl.
Qed.
Lemma good_mut_gen (F : nat -> nat -> Prop) (param : bool) p n t (h : nat -> stack) (Q : nat -> borrows -> mem -> Prop) s mm :
  (forall i, i < n -> write_at (active s) t (stacks s (fst p) (snd p + i)) = Some (h i)) ->
  (forall s', fresh s' = S (fresh s) -> active s' = active s -> elsewhere p n s s' ->
     (forall i, i < n -> stacks s' (fst p) (snd p + i) =
        {| i_perm := Unique; i_tag := fresh s; i_call := if param then hd_error (active s) else None |} :: h i) ->
     Q (fresh s) s' mm) -> good F (do_ (Retag MutRef param t p n)) Q s mm.
Proof.
  intros HA H. unfold do_. cbn [good perform].
  set (it := {| i_perm := Unique; i_tag := fresh s; i_call := if param then hd_error (active s) else None |}) in *.
  destruct (across_ok (stacks s) p n (retag_at (active s) MutRef (if param then hd_error (active s) else None) t (fresh s))
              (fun i => it :: h i)) as (st & -> & A & B).
  - intros i Hi. cbn [retag_at]. now rewrite HA.
  - apply H; auto.
Qed.
Lemma good_mut (F : nat -> nat -> Prop) (param : bool) p n g base (Q : nat -> borrows -> mem -> Prop) s mm : i_perm g = Unique -> above s p n g base ->
  (forall s', fresh s' = S (fresh s) -> active s' = active s -> elsewhere p n s s' ->
     (forall i, i < n -> stacks s' (fst p) (snd p + i) =
        {| i_perm := Unique; i_tag := fresh s; i_call := if param then hd_error (active s) else None |} :: g :: base i) ->
     Q (fresh s) s' mm) -> good F (do_ (Retag MutRef param (i_tag g) p n)) Q s mm.
Proof.
  intros U HA. apply (good_mut_gen F param p n (i_tag g) (fun i => g :: base i)). intros i Hi. destruct (HA i Hi) as (X & -> & HX). now apply write_above.
Qed.
(** a raw pointer from a reference that is on top *)
Lemma good_raw (F : nat -> nat -> Prop) p n g base (Q : nat -> borrows -> mem -> Prop) s mm : i_perm g = Unique -> (forall i, i < n -> stacks s (fst p) (snd p + i) = g :: base i) ->
  (forall s', fresh s' = S (fresh s) -> active s' = active s -> elsewhere p n s s' ->
     (forall i, i < n -> stacks s' (fst p) (snd p + i) = {| i_perm := SharedRW; i_tag := fresh s; i_call := None |} :: g :: base i) ->
     Q (fresh s) s' mm) -> good F (do_ (Retag RawMut false (i_tag g) p n)) Q s mm.
Proof.
  intros U HA H. unfold do_. cbn [good perform].
  destruct (across_ok (stacks s) p n (retag_at (active s) RawMut None (i_tag g) (fresh s))
              (fun i => {| i_perm := SharedRW; i_tag := fresh s; i_call := None |} :: g :: base i)) as (st & -> & A & B).
  - intros i Hi. rewrite HA by exact Hi. cbn [retag_at locate]. unfold grants. rewrite U, Nat.eqb_refl. cbn [andb]. cbv iota beta. unfold split_above, is_shared_rw.
    rewrite U. reflexivity.
  - apply H; auto.
Qed.
(** a reference from a pointer that is on top *)
Lemma good_from_top (F : nat -> nat -> Prop) (param : bool) p n t (Q : nat -> borrows -> mem -> Prop) s mm : on_top s p n t ->
  (forall s', fresh s' = S (fresh s) -> active s' = active s -> elsewhere p n s s' ->
     (forall i, i < n -> stacks s' (fst p) (snd p + i) =
        {| i_perm := Unique; i_tag := fresh s; i_call := if param then hd_error (active s) else None |} :: stacks s (fst p) (snd p + i)) ->
     Q (fresh s) s' mm) -> good F (do_ (Retag MutRef param t p n)) Q s mm.
Proof. intros HA. apply good_mut_gen. intros i Hi. apply wtop_stable. exact (HA i Hi). Qed.
Lemma good_as_mut_ptr (F : nat -> nat -> Prop) p n g base (Q : nat -> borrows -> mem -> Prop) s mm : wf s -> i_perm g = Unique -> above s p n g base ->
  (forall r X s', wf s' -> fresh s <= r < fresh s' -> active s' = active s -> elsewhere p n s s' ->
     Forall (fun x => fresh s <= i_tag x /\ protected (active s) x = false) X ->
     (forall i, i < n -> stacks s' (fst p) (snd p + i) = {| i_perm := SharedRW; i_tag := r; i_call := None |} :: X ++ g :: base i) ->
     Q r s' mm) -> good F (as_mut_ptr p n (i_tag g)) Q s mm.
Proof.
  intros W U HA H. unfold as_mut_ptr. apply good_bind. unfold reborrow_mut. apply (good_mut F false p n g base); [exact U|exact HA|].
  intros s1 F1 A1 E1 C1. set (g1 := {| i_perm := Unique; i_tag := fresh s; i_call := None |}) in *.
  apply good_fn, good_bind. unfold mut_param. change (fresh s) with (i_tag g1).
  apply (good_mut F true p n g1 (fun i => g :: base i)); [reflexivity| |].
  { intros i Hi. exists []. cbn. rewrite C1 by exact Hi. split; [reflexivity|constructor]. }
  intros s2 F2 A2 E2 C2. cbn [fresh active enter hd_error] in *. set (g2 := {| i_perm := Unique; i_tag := S (fresh s1); i_call := Some (fresh s1) |}) in *.
  change (S (fresh s1)) with (i_tag g2). apply (good_raw F p n g2 (fun i => g1 :: g :: base i)); [reflexivity|exact C2|].
  intros s3 F3 A3 E3 C3. split; [rewrite A3, A2; discriminate|].
  apply (H (fresh s2) [g2; g1]).
  - intros c Hc. cbn in Hc. rewrite A3, A2 in Hc. cbn in Hc. rewrite A1 in Hc. apply W in Hc. cbn. lia.
  - cbn. lia.
  - cbn. rewrite A3, A2. exact A1.
  - intros b o Hr. cbn. rewrite E3, E2 by exact Hr. cbn. now apply E1.
  - constructor; [|constructor; [|constructor]]; (split; [cbn; lia|]); [|reflexivity].
    apply (unprotected_call s g2 (fresh s1)); [exact W|lia|reflexivity].
  - intros i Hi. cbn. now rewrite C3.
Qed.
Lemma good_slice_mut (F : nat -> nat -> Prop) p n t (Q : nat -> borrows -> mem -> Prop) s mm : wf s -> on_top s p n t ->
  (forall u s', wf s' -> fresh s <= u < fresh s' -> active s' = active s -> elsewhere p n s s' ->
     (forall i, i < n -> stacks s' (fst p) (snd p + i) = {| i_perm := Unique; i_tag := u; i_call := None |} :: stacks s (fst p) (snd p + i)) ->
     Q u s' mm) -> good F (slice_mut p n t) Q s mm.
Proof.
  intros W HA H. unfold slice_mut. do 2 apply good_fn. unfold reborrow_mut. apply good_from_top; [exact HA|].
  intros s1 F1 A1 E1 C1. cbn [fresh active enter] in *. split; [rewrite A1; discriminate|]. split; [cbn; rewrite A1; discriminate|]. apply H.
  - intros c Hc. cbn in Hc. rewrite A1 in Hc. cbn in Hc. apply W in Hc. cbn. lia.
  - cbn. lia.
  - cbn. now rewrite A1.
  - intros b o Hr. cbn. rewrite E1 by exact Hr. reflexivity.
  - exact C1.
Qed.

(** ** Pieces of code *)
Lemma good_exec (F : nat -> nat -> Prop) {X} v (c : M X) (P : nat -> Prop) (R : X -> Prop) (Q : X -> borrows -> mem -> Prop) s mm : reified True P R c ->
  (forall y mm', c mm = Ret y mm' -> ((forall b o, init mm' b o -> F b o) -> forall b o, init mm' b o -> offers v P s b o) /\ Q y s mm') ->
  good F (exec v c) Q s mm.
Proof.
  intros [p HF HS] H. unfold exec. cbn [good]. exists P, p. split; [exact HF|]. split.
  - apply (si_mono P R any); [now apply HS|]. intros a _. exact I.
  - intros y mm' E. destruct (H y mm' E) as [V HQ]. split; [|exact HQ]. intro HF'. exists mm, mm'. split; [apply less_refl|]. auto.
Qed.
(** code that only reads, while only cells in [G] are initialised *)
Lemma good_exec_ro (F : nat -> nat -> Prop) (G : nat -> nat -> Prop) {X} v (c : M X) (R : X -> Prop) (Q : X -> borrows -> mem -> Prop) s mm : reified True (fun _ => False) R c ->
  (forall b o, init mm b o -> G b o) -> (forall b o, G b o -> exists t, v b = Some t /\ reads t (stacks s b o)) ->
  (forall y, c mm = Ret y mm -> Q y s mm) -> good F (exec v c) Q s mm.
Proof.
  intros HR HG HV H. assert (HM : forall y mm', c mm = Ret y mm' -> mm' = mm).
  { intros y mm' E. destruct HR as [p HF HS]. apply (stores_none R p (HS I) mm y mm'). now rewrite (follows_imp _ _ HF). }
  apply (good_exec F v c (fun _ => False) R); [exact HR|]. intros y mm' E. assert (EM := HM y mm' E). subst mm'. split; [|now apply H].
  intros _ b o Hi. destruct (HV b o (HG b o Hi)) as (t & Et & Rt). exists t. split; [exact Et|]. split; [exact Rt|contradiction].
Qed.
Lemma good_exec_rw (F : nat -> nat -> Prop) {X} v (c : M X) d (R : X -> Prop) (Q : X -> borrows -> mem -> Prop) s mm : reified True (eq d) R c ->
  (forall b o, F b o -> offers v (eq d) s b o) -> (forall y mm', c mm = Ret y mm' -> Q y s mm') -> good F (exec v c) Q s mm.
Proof.
  intros HR HV H. apply (good_exec F v c (eq d) R); [exact HR|]. intros y mm' E. split; [|now apply H]. intros HF b o Hi. apply HV. now apply HF.
Qed.
(** code that accesses nothing *)
Lemma good_exec_pure (F : nat -> nat -> Prop) {X} v (c : M X) (Q : X -> borrows -> mem -> Prop) s mm : reified True (fun _ => False) any c ->
  (forall m m0 y m', c m = Ret y m' -> c m0 = Ret y m0) -> (forall y, c mm = Ret y mm -> Q y s mm) -> good F (exec v c) Q s mm.
Proof.
  intros [p HF HS] HP H. unfold exec. cbn [good]. exists (fun _ => False), p. split; [exact HF|]. split; [now apply HS|].
  intros y mm' E. assert (EM := HP _ mm _ _ E). rewrite E in EM. injection EM as ->. split; [|now apply H]. intros _.
  exists (fun b => map (fun _ => None) (mm b)), (fun b => map (fun _ => None) (mm b)). split; [|split].
  - intro b. split; [apply map_length|]. intros o x Hx. apply nth_error_In, in_map_iff in Hx as (? & [=] & _).
  - exact (HP _ _ _ _ E).
  - intros b o [x Hx]. apply nth_error_In, in_map_iff in Hx as (? & [=] & _).
Qed.
