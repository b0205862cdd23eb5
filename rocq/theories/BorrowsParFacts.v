(** The borrows of [par_encode] *)
From Coq Require Import ZArith List Bool Lia ZifyBool ZifyNat Permutation.
From Verif Require Import Bytes Mem MemFacts Slices Codec Conc ConcFacts Reify ConcApi ConcApiFacts Isa Simd Ints Spec Base64 Base64Ref Base64Api Parallel ParallelFacts
  Borrows BorrowsApi BorrowsFacts BorrowsLib BorrowsCalls BorrowsBridge BorrowsBase64 BorrowsUuid BorrowsForgiving BorrowsHeapFacts BorrowsPar.
Import ListNotations.
Open Scope nat_scope. Open Scope m_scope. Open Scope borrow_scope.

(** ** States *)
Lemma good_states (F : nat -> nat -> Prop) {A} (x : bcode A) (Q : A -> borrows -> mem -> Prop) : forall s mm, state_ok s ->
  good F x (fun a s' mm' => state_ok s' -> Q a s' mm') s mm -> good F x Q s mm.
Proof.
  induction x as [a|y j IH|X v c0 j IH]; cbn [good]; intros s mm OK G; [auto| |].
  - destruct (perform y s) as [[t s1]|] eqn:E; [|exact G]. apply IH; auto. exact (perform_ok _ _ _ _ OK E).
  - destruct G as (P & p & FO & HS & G). exists P, p. split; [exact FO|]. split; [exact HS|]. intros y mm' E. destruct (G y mm' E) as [V G']. auto.
Qed.
Lemma ro_call x p n t : ro_op x p n t -> ro_op (fn x) p n t.
Proof.
  intros HX F Q s mm W L R H. apply good_fn. apply HX; [now apply wf_enter|cbn; lia|exact R|]. intros u s1 W1 (F1 & A1 & E1 & C1) L1 R1.
  split; [rewrite A1; discriminate|]. cbn [fresh active enter stacks] in *. apply H.
  - apply (wf_leave s s1 (fresh s)); [exact W|lia|exact A1].
  - split; [cbn; lia|]. split; [cbn; now rewrite A1|]. split; [exact E1|]. intros i Hi. cbn. destruct (C1 i Hi) as (X & -> & HX'). exists X. split; [reflexivity|].
    apply Forall_forall. intros x0 Hx. destruct (proj1 (Forall_forall _ _) HX' x0 Hx) as (P1 & P2 & P3). split; [exact P1|]. split; [cbn in P2; lia|].
    exact (unprotected_less _ _ _ P3).
  - exact L1.
  - exact R1.
Qed.
(** items with read permission have been added to the source; the destination has changed *)
Definition two (p : ptr) (n : nat) (q : ptr) (k : nat) (s s' : borrows) : Prop :=
  fresh s <= fresh s' /\ active s' = active s /\
  (forall b o, in_range (fst p) (snd p) n b o = false -> in_range (fst q) (snd q) k b o = false -> stacks s' b o = stacks s b o) /\
  forall i, i < n -> exists X, stacks s' (fst p) (snd p + i) = X ++ stacks s (fst p) (snd p + i) /\
    Forall (fun x => i_perm x = SharedRO /\ fresh s <= i_tag x /\ protected (active s) x = false) X.
Lemma two_ro p n q k s s' : ro_step p n s s' -> two p n q k s s'.
Proof. intros (A & B & C & D). split; [exact A|]. split; [exact B|]. split; [intros; now apply C|exact D]. Qed.
Lemma two_mut p n q k s s' : fst p <> fst q -> fresh s <= fresh s' -> active s' = active s -> elsewhere q k s s' -> two p n q k s s'.
Proof.
  intros N A B C. split; [exact A|]. split; [exact B|]. split; [intros; now apply C|]. intros i Hi. exists []. split; [|constructor]. apply C. now apply not_in_range_block.
Qed.
Lemma two_refl p n q k s : two p n q k s s.
Proof. split; [lia|]. split; [reflexivity|]. split; [auto|]. intros i Hi. exists []. split; [reflexivity|constructor]. Qed.
Lemma two_trans p n q k s1 s2 s3 : two p n q k s1 s2 -> two p n q k s2 s3 -> two p n q k s1 s3.
Proof.
  intros (A & B & C & D) (A' & B' & C' & D'). split; [lia|]. split; [congruence|]. split.
  - intros b o H H'. now rewrite C', C.
  - intros i Hi. destruct (D i Hi) as (X & E & HX), (D' i Hi) as (X' & E' & HX'). exists (X' ++ X). rewrite E', E, app_assoc. split; [reflexivity|].
    apply Forall_app. split; [|exact HX]. apply Forall_forall. intros x Hx. destruct (proj1 (Forall_forall _ _) HX' x Hx) as (P1 & P2 & P3).
    rewrite B in P3. repeat split; auto. lia.
Qed.
Lemma two_sub p n q k j n' e k' s s' : fst p <> fst q -> two (after p j) n' (after q e) k' s s' -> j + n' <= n -> e + k' <= k -> two p n q k s s'.
Proof.
  intros NB (A & B & C & D) L L'. split; [exact A|]. split; [exact B|]. cbn [after fst snd] in *. split.
  - intros b o H H'. apply C; [revert H|revert H']; unfold in_range; lia.
  - intros i Hi. destruct (Nat.ltb_spec i j) as [G|G]; [|destruct (Nat.ltb_spec i (j + n')) as [G'|G']].
    + exists []. split; [|constructor]. apply C; unfold in_range; lia.
    + destruct (D (i - j) ltac:(lia)) as (X & EX & HX). replace (snd p + j + (i - j)) with (snd p + i) in EX by lia. eauto.
    + exists []. split; [|constructor]. apply C; unfold in_range; lia.
Qed.
Lemma readable_two p n q k s s' t j n' : two p n q k s s' -> t < fresh s -> j + n' <= n -> readable s (after p j) n' t -> readable s' (after p j) n' t.
Proof.
  intros (_ & _ & _ & H) L LE R i Hi. cbn [after fst snd]. specialize (R i Hi). cbn [after fst snd] in R. rewrite <- Nat.add_assoc in *.
  destruct (H (j + i) ltac:(lia)) as (X & -> & HX). apply reads_app; [|exact R].
  apply Forall_forall. intros x Hx. destruct (proj1 (Forall_forall _ _) HX x Hx) as (A & B & _). split; [exact A|lia].
Qed.
Lemma after_0 p : after p 0 = p. Proof. destruct p. unfold after. cbn. now rewrite Nat.add_0_r. Qed.
Lemma after_after p i j : after (after p i) j = after p (i + j). Proof. unfold after. cbn. now rewrite Nat.add_assoc. Qed.

(** ** References to parts of the destination *)
Definition shift (j : nat) (base : nat -> stack) : nat -> stack := fun i => base (j + i).
Definition over (act : list nat) (g : item) (Y : stack) : Prop := Forall (fun y => i_tag g < i_tag y /\ protected act y = false) Y.
(** [d] was made from [g], and may be used *)
Definition hold (q : ptr) (k : nat) (g : item) (base : nat -> stack) (d : item) (s : borrows) : Prop :=
  i_perm d = Unique /\ i_tag g < i_tag d < fresh s /\ protected (active s) d = false /\
  exists bs, above s q k d bs /\ forall i, i < k -> exists Y, bs i = Y ++ g :: base i /\ over (active s) g Y.
Lemma hold_above q k g base d s : hold q k g base d s -> above s q k g base.
Proof.
  intros (U & L & PD & bs & AB & HB) i Hi. destruct (AB i Hi) as (X & E & HX), (HB i Hi) as (Y & EY & HY). exists (X ++ d :: Y). rewrite E, EY, <- app_assoc. split; [reflexivity|].
  apply Forall_app. split; [|constructor; [split; [lia|exact PD]|exact HY]]. apply Forall_forall. intros x Hx. destruct (proj1 (Forall_forall _ _) HX x Hx). split; [lia|assumption].
Qed.
Lemma hold_same q k g base d s s' : hold q k g base d s -> fresh s <= fresh s' -> active s' = active s ->
  (forall i, i < k -> stacks s' (fst q) (snd q + i) = stacks s (fst q) (snd q + i)) -> hold q k g base d s'.
Proof.
  intros (U & L & PD & bs & AB & HB) F A E. split; [exact U|]. split; [lia|]. rewrite A. split; [exact PD|]. exists bs. split; [|exact HB].
  intros i Hi. rewrite E, A by exact Hi. now apply AB.
Qed.
Lemma hold_make q k g base d s : i_perm d = Unique -> i_tag g < i_tag d < fresh s -> protected (active s) d = false ->
  (forall i, i < k -> exists Y, stacks s (fst q) (snd q + i) = d :: Y ++ g :: base i /\ over (active s) g Y) -> hold q k g base d s.
Proof.
  intros U L PD H. split; [exact U|]. split; [exact L|]. split; [exact PD|]. exists (fun i => tl (stacks s (fst q) (snd q + i))). split.
  - intros i Hi. exists []. destruct (H i Hi) as (Y & -> & _). split; [reflexivity|constructor].
  - intros i Hi. destruct (H i Hi) as (Y & -> & HY). exists Y. split; [reflexivity|exact HY].
Qed.
Lemma above_join s q k a g base : a <= k -> above s q a g base -> above s (after q a) (k - a) g (shift a base) -> above s q k g base.
Proof.
  intros L H1 H2 i Hi. destruct (Nat.ltb_spec i a) as [G|G]; [now apply H1|]. destruct (H2 (i - a) ltac:(lia)) as (X & E & HX). unfold shift in E. cbn [after fst snd] in E.
  rewrite <- Nat.add_assoc in E. replace (a + (i - a)) with i in E by lia. eauto.
Qed.
Lemma above_same s s' q k g base : above s q k g base -> active s' = active s -> (forall i, i < k -> stacks s' (fst q) (snd q + i) = stacks s (fst q) (snd q + i)) -> above s' q k g base.
Proof. intros H A E i Hi. rewrite E, A by exact Hi. now apply H. Qed.

(** [from_raw_parts_mut] *)
Lemma good_from_raw (F : nat -> nat -> Prop) p n t (Q : nat -> borrows -> mem -> Prop) s mm : wf s -> on_top s p n t ->
  (forall u s', wf s' -> fresh s <= u < fresh s' -> active s' = active s -> elsewhere p n s s' ->
     (forall i, i < n -> stacks s' (fst p) (snd p + i) = {| i_perm := Unique; i_tag := u; i_call := None |} :: stacks s (fst p) (snd p + i)) ->
     Q u s' mm) -> good F (fn (reborrow_mut p n t)) Q s mm.
Proof.
  intros W HA H. apply good_fn. unfold reborrow_mut. apply good_from_top; [exact HA|].
  intros s1 F1 A1 E1 C1. cbn [fresh active enter] in *. split; [rewrite A1; discriminate|]. apply H.
  - intros c Hc. cbn in Hc. rewrite A1 in Hc. cbn in Hc. apply W in Hc. cbn. lia.
  - cbn. lia.
  - cbn. now rewrite A1.
  - intros b o Hr. cbn. rewrite E1 by exact Hr. reflexivity.
  - exact C1.
Qed.
Definition item_of (u : nat) : item := {| i_perm := Unique; i_tag := u; i_call := None |}.
Lemma hold_writable q k g base d s : state_ok s -> hold q k g base d s -> exists bs, writable_in s q k (i_tag d) (fun i => d :: bs i) /\
  forall i, i < k -> exists Y, bs i = Y ++ g :: base i /\ over (active s) g Y.
Proof.
  intros OK (U & L & PD & bs & AB & HB). exists bs. split; [|exact HB]. intros i Hi. rewrite write_enter by exact OK. destruct (AB i Hi) as (X & -> & HX).
  now apply write_above.
Qed.
Lemma added_over s g Y : added s Y -> i_tag g < fresh s -> over (active s) g Y.
Proof. intros H L. apply Forall_forall. intros x Hx. destruct (proj1 (Forall_forall _ _) H x Hx). split; [lia|assumption]. Qed.
Lemma good_split_mut (F : nat -> nat -> Prop) q k mid g base d (Q : nat * nat -> borrows -> mem -> Prop) s mm : state_ok s -> hold q k g base d s -> mid <= k ->
  (forall a b s', fresh s <= fresh s' -> active s' = active s -> elsewhere q k s s' -> hold q mid g base a s' -> hold (after q mid) (k - mid) g (shift mid base) b s' ->
     Q (i_tag a, i_tag b) s' mm) -> good F (split_at_mut_b q mid k (i_tag d)) Q s mm.
Proof.
  intros OK HH LM H. assert (W := ok_wf _ OK). destruct (hold_writable _ _ _ _ _ _ OK HH) as (bs & WI & HB). assert (HD := HH). destruct HD as (U & LT & PD & _).
  unfold split_at_mut_b. apply (inplace_start F q k (i_tag d) (fun i => d :: bs i)); [exact W|exact WI|]. intros g1 s1 I1. pro. pro.
  apply (inplace_raw F s q k (fun i => d :: bs i) g1); [exact W|assumption|]. intros r s2 I2. assert (T := raw_top _ _ _ _ _ _ I2). destruct I2 as (W2 & L2 & A2 & E2 & R2 & Y & HY & C2).
  apply good_bind, good_from_raw; [exact W2|exact (on_top_less _ _ _ _ _ T LM)|]. intros a s3 W3 LA A3 E3 C3.
  apply good_bind, good_from_raw; [exact W3| |].
  { intros i Hi. cbn [after fst snd]. rewrite E3 by (unfold in_range; lia). rewrite <- Nat.add_assoc. apply T. lia. }
  intros b s4 W4 LB A4 E4 C4. cbn [good]. split; [rewrite A4, A3, A2; discriminate|].
  assert (AE : active (leave s4) = active s) by (cbn; now rewrite A4, A3, A2).
  assert (OV : forall i, i < k -> exists Z, {| i_perm := SharedRW; i_tag := r; i_call := None |} :: Y ++ d :: bs i = Z ++ g :: base i /\ over (active s) g Z).
  { intros i Hi. destruct (HB i Hi) as (Z & EZ & HZ). exists ({| i_perm := SharedRW; i_tag := r; i_call := None |} :: Y ++ d :: Z). rewrite EZ. cbn [app]. rewrite <- app_assoc. split; [reflexivity|].
    constructor; [cbn; split; [lia|reflexivity]|]. apply Forall_app. split; [apply added_over; [exact HY|lia]|]. constructor; [split; [lia|exact PD]|exact HZ]. }
  apply (H (item_of a) (item_of b)).
  - cbn. lia.
  - exact AE.
  - intros b' o' Hr. cbn. rewrite E4, E3, E2; [reflexivity|exact Hr| |]; revert Hr; unfold in_range; cbn [after fst snd]; lia.
  - apply hold_make; [reflexivity|cbn; lia|reflexivity|]. rewrite AE. intros i Hi. cbn [leave stacks]. rewrite E4 by (unfold in_range; cbn [after fst snd]; lia).
    rewrite C3, C2 by lia. destruct (OV i ltac:(lia)) as (Z & -> & HZ). exists Z. split; [reflexivity|exact HZ].
  - apply hold_make; [reflexivity|cbn; lia|reflexivity|]. rewrite AE. intros i Hi. cbn [leave stacks]. rewrite C4 by exact Hi. cbn [after fst snd].
    rewrite E3 by (unfold in_range; lia). rewrite <- Nat.add_assoc, C2 by lia. destruct (OV (mid + i) ltac:(lia)) as (Z & -> & HZ). exists Z. split; [reflexivity|exact HZ].
Qed.
(** [chunks_mut] *)
Definition raw_over (q : ptr) (k : nat) (g : item) (base : nat -> stack) (r : nat) (s : borrows) : Prop :=
  i_tag g < r < fresh s /\
  forall i, i < k -> exists Y, stacks s (fst q) (snd q + i) = {| i_perm := SharedRW; i_tag := r; i_call := None |} :: Y ++ g :: base i /\ over (active s) g Y.
Lemma good_chunks_mut_start (F : nat -> nat -> Prop) q k g base d (Q : nat -> borrows -> mem -> Prop) s mm : state_ok s -> hold q k g base d s ->
  (forall r s', fresh s <= fresh s' -> active s' = active s -> elsewhere q k s s' -> raw_over q k g base r s' -> Q r s' mm) ->
  good F (chunks_mut_start q k (i_tag d)) Q s mm.
Proof.
  intros OK HH H. assert (W := ok_wf _ OK). destruct (hold_writable _ _ _ _ _ _ OK HH) as (bs & WI & HB). assert (HD := HH). destruct HD as (U & LT & PD & _).
  unfold chunks_mut_start. apply good_fn, good_bind. unfold mut_param. apply (good_mut_gen F true q k (i_tag d) (fun i => d :: bs i)); [exact WI|].
  intros s1 F1 A1 E1 C1. cbn [fresh active enter hd_error] in *. set (g1 := {| i_perm := Unique; i_tag := S (fresh s); i_call := Some (fresh s) |}) in *.
  change (S (fresh s)) with (i_tag g1). apply (good_raw F q k g1 (fun i => d :: bs i)); [reflexivity|exact C1|]. intros s2 F2 A2 E2 C2.
  split; [rewrite A2, A1; discriminate|]. assert (AE : active (leave s2) = active s) by (cbn; now rewrite A2, A1). apply H.
  - cbn. lia.
  - exact AE.
  - intros b o Hr. cbn. rewrite E2, E1 by exact Hr. reflexivity.
  - split; [cbn; lia|]. intros i Hi. cbn [leave stacks]. rewrite C2 by exact Hi. destruct (HB i Hi) as (Z & EZ & HZ). exists (g1 :: d :: Z). rewrite EZ. cbn [app]. split; [reflexivity|].
    rewrite AE. constructor; [|constructor; [split; [lia|exact PD]|exact HZ]]. split; [cbn; lia|]. apply (unprotected_call s g1 (fresh s)); [exact W|lia|reflexivity].
Qed.
Lemma raw_on_top q k g base r s : raw_over q k g base r s -> on_top s q k r.
Proof. intros [_ H] i Hi. destruct (H i Hi) as (Y & -> & _). do 2 eexists. split; [reflexivity|]. unfold grants. cbn. now rewrite Nat.eqb_refl. Qed.
Lemma chunk_len_0 k c : chunk_len k c 0 = Nat.min c k. Proof. unfold chunk_len. now rewrite Nat.mul_0_l, Nat.sub_0_r. Qed.
Lemma chunk_rest k c i : c <= k -> chunk_len (k - c) c i = chunk_len k c (S i). Proof. intro L. unfold chunk_len. rewrite Nat.mul_succ_l. f_equal. lia. Qed.
Lemma chunk_none c i : chunk_len 0 c i = 0. Proof. unfold chunk_len. lia. Qed.
Lemma chunk_none' k c i : k < c -> chunk_len k c (S i) = 0. Proof. intro L. unfold chunk_len. rewrite Nat.mul_succ_l. lia. Qed.
Lemma good_chunks_mut (F : nat -> nat -> Prop) c g r : forall j q k base (Q : list nat -> borrows -> mem -> Prop) s mm, wf s -> raw_over q k g base r s ->
  (forall l s', fresh s <= fresh s' -> active s' = active s -> elsewhere q k s s' -> above s' q k g base -> length l = j ->
     (forall i, i < j -> exists d, i_tag d = nth i l 0 /\ hold (after q (i * c)) (chunk_len k c i) g (shift (i * c) base) d s') -> Q l s' mm) ->
  good F (chunks_mut_b j c q k r) Q s mm.
Proof.
  induction j as [|j IH]; intros q k base Q s mm W HR H; cbn [chunks_mut_b].
  { cbn [good]. apply H; auto; [now intros b o _| |lia]. destruct HR as [LR HR]. intros i Hi. destruct (HR i Hi) as (Y & -> & HY). eexists (_ :: Y). split; [reflexivity|].
    constructor; [|exact HY]. cbn. split; [lia|reflexivity]. }
  set (a := Nat.min c k). apply good_bind. unfold reborrow_mut. apply good_from_top; [exact (on_top_less _ _ _ _ _ (raw_on_top _ _ _ _ _ _ HR) (Nat.le_min_r c k))|].
  intros s1 F1 A1 E1 C1. fold a in E1, C1. destruct HR as [LR HR]. assert (LA : a <= k) by apply Nat.le_min_r. apply good_bind. apply IH with (base := shift a base).
  - intros x Hx. rewrite A1 in Hx. apply W in Hx. lia.
  - split; [lia|]. intros i Hi. cbn [after fst snd]. rewrite E1 by (unfold in_range; lia). rewrite A1, <- Nat.add_assoc. apply HR. lia.
  - intros l s2 F2 A2 E2 AB2 LL HL. cbn [good].
    assert (HD : hold q a g base (item_of (fresh s)) s2).
    { apply hold_make; [reflexivity|cbn; lia|reflexivity|]. intros i Hi. rewrite E2 by (unfold in_range; cbn [after fst snd]; lia). rewrite C1 by exact Hi.
      destruct (HR i ltac:(lia)) as (Y & -> & HY). eexists (_ :: Y). split; [reflexivity|]. rewrite A2, A1. constructor; [|exact HY]. cbn. split; [lia|reflexivity]. }
    apply H.
    + lia.
    + congruence.
    + intros b o Hr. rewrite E2, E1; [reflexivity| |]; revert Hr; unfold in_range; cbn [after fst snd]; lia.
    + apply (above_join s2 q k a); [exact LA|exact (hold_above _ _ _ _ _ _ HD)|exact AB2].
    + cbn [length]. now rewrite LL.
    + intros [|i] Hi; cbn [nth].
      * exists (item_of (fresh s)). split; [reflexivity|]. rewrite Nat.mul_0_l, after_0, chunk_len_0. exact HD.
      * destruct (HL i ltac:(lia)) as (d & Ed & Hd). exists d. split; [exact Ed|]. rewrite after_after in Hd. destruct (Nat.le_gt_cases c k) as [G|G].
        -- replace a with c in * by lia. rewrite chunk_rest in Hd by exact G. rewrite Nat.mul_succ_l, (Nat.add_comm (i * c) c).
           destruct Hd as (B1 & B2 & B3 & bs & B4 & B5). split; [exact B1|]. split; [exact B2|]. split; [exact B3|]. exists bs. split; [exact B4|]. intros x Hx.
           destruct (B5 x Hx) as (Y & EY & HY). exists Y. split; [|exact HY]. rewrite EY. unfold shift. now rewrite Nat.add_assoc.
        -- rewrite chunk_none' by exact G. destruct Hd as (B1 & B2 & B3 & _). split; [exact B1|]. split; [exact B2|]. split; [exact B3|]. exists (fun _ => []). split; intros x Hx; lia.
Qed.

(** ** The source *)
Lemma good_split_at (F : nat -> nat -> Prop) p mid n t (Q : nat * nat -> borrows -> mem -> Prop) s mm : wf s -> t < fresh s -> readable s p n t -> mid <= n ->
  (forall a b s', wf s' -> ro_step p n s s' -> a < fresh s' -> b < fresh s' -> readable s' p mid a -> readable s' (after p mid) (n - mid) b -> Q (a, b) s' mm) ->
  good F (split_at_b p mid n t) Q s mm.
Proof.
  intros W L R LM H. unfold split_at_b. apply good_ro_call; [exact W|exact L|exact R|]. intros u s1 W1 R1 L1.
  apply good_bind. apply ro_len; [exact W1|exact L1|exact R1|]. intros v s2 W2 S2 L2 _. assert (R2 := readable_ro _ _ _ _ _ S2 L1 R1).
  apply good_bind. apply ro_as_ptr; [exact W2|destruct S2 as (A & _); lia|exact R2|]. intros r s3 W3 S3 L3 R3.
  apply good_bind. apply (ro_call _ p mid r (ro_reborrow r p mid)); [exact W3|exact L3|intros i Hi; apply R3; lia|]. intros a s4 W4 S4 L4 R4.
  assert (R4' : readable s4 (after p mid) (n - mid) r).
  { intros i Hi. destruct S4 as (_ & _ & C & _). cbn [after fst snd]. rewrite C by (unfold in_range; lia). rewrite <- Nat.add_assoc. apply R3. lia. }
  apply good_bind. apply (ro_call _ (after p mid) (n - mid) r (ro_reborrow r _ _)); [exact W4|destruct S4 as (A & _); lia|exact R4'|]. intros b s5 W5 S5 L5 R5.
  cbn [good]. assert (S4' := ro_sub p n 0 mid s3 s4). unfold after in *. rewrite Nat.add_0_r, <- surjective_pairing in S4'. specialize (S4' S4 LM).
  assert (S5' := ro_sub p n mid (n - mid) s4 s5 S5 ltac:(lia)).
  split; [exact W5|]. split; [exact (ro_trans _ _ _ _ _ (ro_trans _ _ _ _ _ (ro_trans _ _ _ _ _ S2 S3) S4') S5')|]. intros WL SL. apply H; [exact WL|exact SL| |exact L5| |exact R5].
  - cbn. destruct S5 as (A & _). lia.
  - intros i Hi. cbn [leave stacks]. destruct S5 as (_ & _ & C & _). rewrite C by (unfold in_range; cbn [fst snd]; lia). now apply R4.
Qed.
Lemma good_chunks (F : nat -> nat -> Prop) c : forall j p n t (Q : list nat -> borrows -> mem -> Prop) s mm, wf s -> t < fresh s -> readable s p n t ->
  (forall l s', wf s' -> ro_step p n s s' -> length l = j ->
     (forall i, i < j -> nth i l 0 < fresh s' /\ readable s' (after p (i * c)) (chunk_len n c i) (nth i l 0)) -> Q l s' mm) ->
  good F (chunks_b j c p n t) Q s mm.
Proof.
  induction j as [|j IH]; intros p n t Q s mm W L R H; cbn [chunks_b].
  { cbn [good]. apply H; auto; [|lia]. split; [lia|]. split; [reflexivity|]. split; [now intros b o _|]. intros i Hi. exists []. split; [reflexivity|constructor]. }
  set (a := Nat.min c n). assert (LA : a <= n) by apply Nat.le_min_r. apply good_bind. apply good_split_at; [exact W|exact L|exact R|exact LA|]. intros u v s1 W1 S1 L1 L1' R1 R1'. cbn [fst snd].
  apply good_bind. apply IH; [exact W1|exact L1'|exact R1'|]. intros l s2 W2 S2 LL HL. cbn [good].
  assert (S2' := ro_sub p n a (n - a) s1 s2 S2 ltac:(lia)). apply H; [exact W2|exact (ro_trans _ _ _ _ _ S1 S2')|cbn [length]; now rewrite LL|].
  intros [|i] Hi; cbn [nth].
  - split; [destruct S2 as (A & _); lia|]. rewrite Nat.mul_0_l, after_0, chunk_len_0. fold a. intros i Hi'. destruct S2 as (_ & _ & C & _).
    rewrite C by (unfold in_range; cbn [after fst snd]; lia). now apply R1.
  - destruct (HL i ltac:(lia)) as [B1 B2]. split; [exact B1|]. rewrite after_after in B2. destruct (Nat.le_gt_cases c n) as [G|G].
    + replace a with c in * by lia. rewrite chunk_rest in B2 by exact G. now rewrite Nat.mul_succ_l, (Nat.add_comm (i * c) c).
    + rewrite chunk_none' by exact G. intros x Hx. lia.
Qed.

(** ** Counting chunks *)
Lemma count_le n c i : 0 < c -> n <= i * c -> chunk_count n c <= i.
Proof. intros C L. destruct (count_spec n c C) as [_ H]. destruct (Nat.le_gt_cases (chunk_count n c) i) as [G|G]; [exact G|]. specialize (H i G). lia. Qed.
Lemma count_ge n c i : 0 < c -> i * c <= n -> i <= chunk_count n c.
Proof. intros C L. destruct (count_spec n c C) as [H _]. apply (Nat.mul_le_mono_pos_l _ _ c); lia. Qed.
Lemma count_mul c i : 0 < c -> chunk_count (i * c) c = i.
Proof. intro C. apply Nat.le_antisymm; [apply count_le|apply count_ge]; auto. Qed.
Lemma count_sub n c i : 0 < c -> i * c <= n -> chunk_count (n - i * c) c = chunk_count n c - i.
Proof.
  intros C L. destruct (count_spec n c C) as [H1 H2]. apply count_uniq; [exact C| |].
  - rewrite Nat.mul_sub_distr_l. lia.
  - intros j Hj. specialize (H2 (j + i) ltac:(lia)). rewrite Nat.mul_add_distr_l in H2. lia.
Qed.
Lemma count_pos n c j : 0 < c -> j < chunk_count n c -> c * j < n.
Proof. intros C. apply count_spec. exact C. Qed.
Lemma count_0 c : 0 < c -> chunk_count 0 c = 0.
Proof. intro C. assert (H := count_le 0 c 0 C). lia. Qed.
Lemma len_left n c i j : 0 < c -> j < chunk_count (Nat.min (i * c) n) c -> chunk_len (Nat.min (i * c) n) c j = chunk_len n c j.
Proof.
  intros C H. apply count_pos in H; [|exact C]. unfold chunk_len. assert (J : j < i).
  { destruct (Nat.lt_ge_cases j i) as [G|G]; [exact G|]. assert (c * i <= c * j) by (now apply Nat.mul_le_mono_l). lia. }
  assert (c * S j <= c * i) by (apply Nat.mul_le_mono_l; lia). lia.
Qed.
Lemma len_right n c i j : chunk_len (n - i * c) c j = chunk_len n c (i + j).
Proof. unfold chunk_len. rewrite Nat.mul_add_distr_r. f_equal. lia. Qed.
Lemma len_fits n c i : chunk_len n c i = 0 \/ i * c + chunk_len n c i <= n.
Proof. unfold chunk_len. lia. Qed.
Lemma cut_counts n k c3 c4 i : 0 < c3 -> 0 < c4 ->
  let n1 := Nat.min (i * c3) n in let k1 := Nat.min (i * c4) k in
  let l := Nat.min (chunk_count n1 c3) (chunk_count k1 c4) in let r := Nat.min (chunk_count (n - n1) c3) (chunk_count (k - k1) c4) in
  l + r = Nat.min (chunk_count n c3) (chunk_count k c4) /\ (0 < r -> n1 = i * c3 /\ k1 = i * c4 /\ l = i).
Proof.
  intros C3 C4 n1 k1 l r. destruct (Nat.le_gt_cases (i * c3) n) as [G|G], (Nat.le_gt_cases (i * c4) k) as [G'|G'].
  - assert (E1 : n1 = i * c3) by lia. assert (E2 : k1 = i * c4) by lia. assert (EL : l = i) by (unfold l; rewrite E1, E2, !count_mul by assumption; lia).
    split; [|auto]. unfold r. rewrite EL, E1, E2, !count_sub by assumption. assert (A := count_ge n c3 i C3 G). assert (B := count_ge k c4 i C4 G'). lia.
  - assert (E1 : n1 = i * c3) by lia. assert (E2 : k1 = k) by lia. assert (ER : r = 0) by (unfold r; rewrite E2, Nat.sub_diag, (count_0 c4 C4); lia).
    split; [|lia]. unfold l. rewrite ER, E1, E2, count_mul by assumption. assert (A := count_ge n c3 i C3 G). assert (B := count_le k c4 i C4 ltac:(lia)). lia.
  - assert (E1 : n1 = n) by lia. assert (E2 : k1 = i * c4) by lia. assert (ER : r = 0) by (unfold r; rewrite E1, Nat.sub_diag, (count_0 c3 C3); lia).
    split; [|lia]. unfold l. rewrite ER, E1, E2, count_mul by assumption. assert (A := count_le n c3 i C3 ltac:(lia)). assert (B := count_ge k c4 i C4 G'). lia.
  - assert (E1 : n1 = n) by lia. assert (E2 : k1 = k) by lia. assert (ER : r = 0) by (unfold r; rewrite E1, Nat.sub_diag, (count_0 c3 C3); lia).
    split; [|lia]. unfold l. rewrite ER, E1, E2. lia.
Qed.

(** ** The producers *)
Definition tag_ok (p : ptr) (n : nat) (q : ptr) (k c3 c4 : nat) (g : item) (base : nat -> stack) (s : borrows) (i : nat) (t : nat * nat) : Prop :=
  fst t < fresh s /\ readable s (after p (i * c3)) (chunk_len n c3 i) (fst t) /\
  exists d, i_tag d = snd t /\ hold (after q (i * c4)) (chunk_len k c4 i) g (shift (i * c4) base) d s.
Lemma hold_0 q g base d s : hold q 0 g base d s <-> i_perm d = Unique /\ i_tag g < i_tag d < fresh s /\ protected (active s) d = false.
Proof. split; [intros (A & B & C & _); auto|]. intros (A & B & C). split; [exact A|]. split; [exact B|]. split; [exact C|]. exists (fun _ => []). split; intros i Hi; lia. Qed.
Lemma hold_shift q k g base base' d s : hold q k g base d s -> (forall i, i < k -> base' i = base i) -> hold q k g base' d s.
Proof.
  intros (A & B & C & bs & D & E) H. split; [exact A|]. split; [exact B|]. split; [exact C|]. exists bs. split; [exact D|]. intros i Hi. rewrite H by exact Hi. now apply E.
Qed.
(** changes elsewhere *)
Lemma tag_apart p n q k c3 c4 g base i t s s' : tag_ok p n q k c3 c4 g base s i t -> fresh s <= fresh s' -> active s' = active s ->
  (forall x, x < n -> stacks s' (fst p) (snd p + x) = stacks s (fst p) (snd p + x)) ->
  (forall x, x < k -> stacks s' (fst q) (snd q + x) = stacks s (fst q) (snd q + x)) -> tag_ok p n q k c3 c4 g base s' i t.
Proof.
  intros (A & B & d & E & D) F AC HP HQ. split; [lia|]. split.
  - intros x Hx. specialize (B x Hx). cbn [after fst snd] in *. rewrite <- Nat.add_assoc in *. rewrite HP; [exact B|]. destruct (len_fits n c3 i); lia.
  - exists d. split; [exact E|]. apply (hold_same _ _ _ _ _ s); auto. intros x Hx. cbn [after fst snd]. rewrite <- Nat.add_assoc. apply HQ. destruct (len_fits k c4 i); lia.
Qed.
Lemma elsewhere_apart p n (q : ptr) s s' x : ro_step p n s s' -> fst p <> fst q -> stacks s' (fst q) x = stacks s (fst q) x.
Proof. intros (_ & _ & E & _) N. apply E. apply not_in_range_block. congruence. Qed.
Lemma producers_good (F : nat -> nat -> Prop) c3 c4 g : 0 < c3 -> 0 < c4 -> forall pl p n q k ts d base (Q : list (nat * nat) -> borrows -> mem -> Prop) s mm,
  fst p <> fst q -> state_ok s -> ts < fresh s -> readable s p n ts -> hold q k g base d s ->
  (forall tags s', state_ok s' -> two p n q k s s' -> above s' q k g base -> length tags = Nat.min (chunk_count n c3) (chunk_count k c4) ->
     (forall i, i < length tags -> tag_ok p n q k c3 c4 g base s' i (nth i tags (0, 0))) -> Q tags s' mm) ->
  good F (producers_b pl c3 c4 p n q k ts (i_tag d)) Q s mm.
Proof.
  intros C3 C4. induction pl as [|i l IHl r IHr]; intros p n q k ts d base Q s mm N OK LT R HD H; cbn [producers_b].
  - set (j := Nat.min (chunk_count n c3) (chunk_count k c4)).
    apply good_bind, good_states; [exact OK|]. apply (ro_len p n ts); [now apply ok_wf|exact LT|exact R|]. intros u s1 W1 S1 L1 R1 OK1.
    assert (HD1 : hold q k g base d s1).
    { apply (hold_same _ _ _ _ _ s); [exact HD|apply S1|apply S1|]. intros x Hx. exact (elsewhere_apart _ _ _ _ _ _ S1 N). }
    apply good_bind, good_states; [exact OK1|]. apply (good_chunks_mut_start F q k g base d); [exact OK1|exact HD1|]. intros rr s2 F2 A2 E2 RO2 OK2.
    assert (T2 := two_mut p n q k s1 s2 N F2 A2 E2).
    apply good_bind, good_states; [exact OK2|]. apply good_chunks; [now apply ok_wf|lia| |].
    { assert (X := readable_two p n q k s1 s2 u 0 n T2 L1 ltac:(lia)). rewrite after_0 in X. exact (X R1). }
    intros a s3 W3 S3 LA HA OK3. apply good_bind, good_states; [exact OK3|]. apply (good_chunks_mut F c4 g rr) with (base := base); [exact W3| |].
    { destruct RO2 as [B1 B2]. split; [destruct S3 as (X & _); lia|]. intros x Hx. rewrite (elsewhere_apart _ _ _ _ _ _ S3 N). replace (active s3) with (active s2) by (symmetry; apply S3). now apply B2. }
    intros b s4 F4 A4 E4 AB4 LB HB OK4. cbn [good]. assert (T4 := two_mut p n q k s3 s4 N F4 A4 E4). apply H.
    + exact OK4.
    + apply (two_trans _ _ _ _ _ s3); [|exact T4]. apply (two_trans _ _ _ _ _ s2); [|now apply two_ro]. apply (two_trans _ _ _ _ _ s1); [now apply two_ro|exact T2].
    + exact AB4.
    + rewrite combine_length, LA, LB. lia.
    + rewrite combine_length, LA, LB, Nat.min_id. intros x Hx. rewrite combine_nth by congruence. cbn [fst snd]. destruct (HA x Hx) as [B1 B2]. split; [cbn [fst]; lia|]. split; [|exact (HB x Hx)].
      cbn [fst]. destruct (len_fits n c3 x) as [Z|Z]; [rewrite Z; intros y Hy; lia|]. exact (readable_two p n q k s3 s4 _ _ _ T4 B1 Z B2).
  - destruct (cut_counts n k c3 c4 i C3 C4) as [CC CR]. set (n1 := Nat.min (i * c3) n) in *. set (k1 := Nat.min (i * c4) k) in *. cbv zeta in CC, CR.
    assert (LN : n1 <= n) by lia. assert (LK : k1 <= k) by lia.
    apply good_bind, good_states; [exact OK|]. apply good_split_at; [now apply ok_wf|exact LT|exact R|exact LN|]. intros a b s1 W1 S1 La Lb Ra Rb OK1.
    assert (HD1 : hold q k g base d s1).
    { apply (hold_same _ _ _ _ _ s); [exact HD|apply S1|apply S1|]. intros x Hx. exact (elsewhere_apart _ _ _ _ _ _ S1 N). }
    apply good_bind, good_states; [exact OK1|]. apply (good_split_mut F q k k1 g base d); [exact OK1|exact HD1|exact LK|]. intros da db s2 F2 A2 E2 Hda Hdb OK2. cbn [fst snd].
    assert (T2 := two_mut p n q k s1 s2 N F2 A2 E2).
    assert (Ra2 : readable s2 p n1 a). { assert (X := readable_two p n q k s1 s2 a 0 n1 T2 La ltac:(lia)). rewrite after_0 in X. exact (X Ra). }
    assert (Rb2 := readable_two p n q k s1 s2 b n1 (n - n1) T2 Lb ltac:(lia) Rb).
    apply good_bind. apply (IHl p n1 q k1 a da base); [exact N|exact OK2|lia|exact Ra2|exact Hda|]. intros x s3 OK3 T3 AB3 LX HX.
    assert (P3 : forall y, n1 <= y -> stacks s3 (fst p) (snd p + y) = stacks s2 (fst p) (snd p + y)).
    { intros y Hy. destruct T3 as (_ & _ & E & _). apply E; unfold in_range; lia. }
    assert (Q3 : forall y, k1 <= y -> stacks s3 (fst q) (snd q + y) = stacks s2 (fst q) (snd q + y)).
    { intros y Hy. destruct T3 as (_ & _ & E & _). apply E; unfold in_range; lia. }
    assert (F3 : fresh s2 <= fresh s3 /\ active s3 = active s2) by (split; apply T3). destruct F3 as [F3 A3].
    apply good_bind. apply (IHr (after p n1) (n - n1) (after q k1) (k - k1) b db (shift k1 base)).
    { exact N. } { exact OK3. } { lia. }
    { intros y Hy. cbn [after fst snd]. rewrite <- Nat.add_assoc, P3, Nat.add_assoc by lia. now apply Rb2. }
    { apply (hold_same _ _ _ _ _ s2); auto. intros y Hy. cbn [after fst snd]. rewrite <- Nat.add_assoc. apply Q3. lia. }
    intros y s4 OK4 T4 AB4 LY HY. cbn [good].
    assert (F4 : fresh s3 <= fresh s4 /\ active s4 = active s3) by (split; apply T4). destruct F4 as [F4 A4].
    assert (P4 : forall z, z < n1 -> stacks s4 (fst p) (snd p + z) = stacks s3 (fst p) (snd p + z)).
    { intros z Hz. destruct T4 as (_ & _ & E & _). apply E; unfold in_range; cbn [after fst snd]; lia. }
    assert (Q4 : forall z, z < k1 -> stacks s4 (fst q) (snd q + z) = stacks s3 (fst q) (snd q + z)).
    { intros z Hz. destruct T4 as (_ & _ & E & _). apply E; unfold in_range; cbn [after fst snd]; lia. }
    assert (T3' : two p n q k s2 s3). { apply (two_sub p n q k 0 n1 0 k1); [exact N| |lia|lia]. now rewrite !after_0. }
    assert (T4' := two_sub p n q k n1 (n - n1) k1 (k - k1) s3 s4 N T4 ltac:(lia) ltac:(lia)).
    apply H.
    + exact OK4.
    + apply (two_trans _ _ _ _ _ s3); [|exact T4']. apply (two_trans _ _ _ _ _ s2); [|exact T3']. apply (two_trans _ _ _ _ _ s1); [now apply two_ro|exact T2].
    + apply (above_join s4 q k k1); [exact LK| |exact AB4]. apply (above_same s3); auto.
    + rewrite app_length, LX, LY. exact CC.
    + intros z Hz. rewrite app_length in Hz. destruct (Nat.lt_ge_cases z (length x)) as [G|G].
      * rewrite app_nth1 by exact G. assert (TK := tag_apart _ _ _ _ _ _ _ _ _ _ _ s4 (HX z G) F4 A4 P4 Q4). rewrite LX in G.
        destruct TK as (B1 & B2 & d' & B3 & B4). unfold n1, k1 in B2, B4. rewrite len_left in B2 by (try exact C3; fold n1; lia). rewrite len_left in B4 by (try exact C4; fold k1; lia).
        split; [exact B1|]. split; [exact B2|]. exists d'. auto.
      * rewrite app_nth2 by exact G. destruct (HY (z - length x) ltac:(lia)) as (B1 & B2 & d' & B3 & B4). destruct (CR ltac:(lia)) as (EN & EK & EI). rewrite <- LX in EI.
        rewrite after_after in B2, B4. rewrite EN in B2. rewrite EK in B4. rewrite len_right, EI in B2. rewrite len_right, EI in B4.
        replace (i + (z - i)) with z in * by lia. rewrite <- Nat.mul_add_distr_r in B2, B4. replace (i + (z - i)) with z in * by lia. rewrite EI in B1, B3 |- *.
        split; [exact B1|]. split; [exact B2|]. exists d'. split; [exact B3|]. apply (hold_shift _ _ _ _ _ _ _ B4). intros w Hw. unfold shift. f_equal.
        rewrite Nat.add_assoc, <- Nat.mul_add_distr_r. f_equal. f_equal. lia.
Qed.

(** ** One job *)
Lemma good_exec_part {X} (F : nat -> nat -> Prop) p n q k v t (c : Mem.M X) (R : X -> Prop) (Q : X -> borrows -> mem -> Prop) s mm y0 m0 :
  reified True (eq (fst q)) R c -> readable s p n v -> fst p <> fst q -> on_top s q k t ->
  c (only p n mm) = Ret y0 m0 -> (forall b o, init m0 b o -> cells_of p n b o \/ cells_of q k b o) ->
  (forall y mm', c mm = Ret y mm' -> Q y s mm') -> good F (exec (via2 (fst p) v (fst q) t) c) Q s mm.
Proof.
  intros [pr FO HS] RV N T E HI H. unfold exec. cbn [good]. exists (eq (fst q)), pr. split; [exact FO|]. split.
  { apply (si_mono (eq (fst q)) R any); [now apply HS|]. intros a _. exact Logic.I. }
  intros y mm' E1. split; [|now apply H]. intros _.
  assert (E' := E). rewrite <- (follows_imp _ _ FO) in E'. destruct (run_less pr _ _ _ _ (only_less p n mm) E') as (m1 & E2 & _).
  rewrite (follows_imp _ _ FO) in E2. rewrite E1 in E2. injection E2 as <- <-.
  exists (only p n mm), m0. split; [apply only_less|]. split; [exact E|]. intros b o Hb. destruct (HI b o Hb) as [C|C].
  - apply in_range_iff in C as [-> C]. exists v. rewrite via2_src. split; [reflexivity|]. split; [|congruence].
    replace o with (snd p + (o - snd p)) by lia. apply RV. lia.
  - apply in_range_iff in C as [-> C]. exists t. rewrite via2_dst by exact N. split; [reflexivity|].
    assert (W : wtop t (stacks s (fst q) o)) by (replace o with (snd q + (o - snd q)) by lia; apply T; lia).
    split; [now apply wtop_reads|auto].
Qed.
Lemma rei_par_job s cfg p n q c i : reified True (eq (fst q)) any (b64_par_job s cfg p n q c i).
Proof.
  unfold b64_par_job. cbv zeta. apply (rei_bind _ _ _ _ (rei_padd p _)); intro sp. apply (rei_bind _ _ _ _ (rei_padd q _)); intro dp.
  destruct (b64_padding _); [destruct (_ =? 0)|]; apply rei_b64_encode_impl; intros [_ H]; now symmetry.
Qed.
Lemma room_part m d e k j k' : room m d e k -> j + k' <= k -> room m d (e + j) k'.
Proof. unfold room. lia. Qed.
Lemma call_over s x : wf s -> i_call x = Some (fresh s) -> protected (active s) x = false.
Proof.
  intros W E. unfold protected. rewrite E. apply not_true_is_false. intro H. apply existsb_exists in H as (c & Hc & Ec). apply Nat.eqb_eq in Ec. subst c. apply W in Hc. lia.
Qed.
Lemma par_job_good (F : nat -> nat -> Prop) s cfg src p q l c g base i t (Q : unit -> borrows -> mem -> Prop) st mm :
  (forall i, b64_isa (s i)) -> bytes src -> 0 < c -> i < chunk_count (length src) (c * 3) -> fst p <> fst q -> state_ok st ->
  l = b64_encoded_length_unchecked (length src) cfg ->
  slice mm (fst p) (snd p) src -> room mm (fst q) (snd q) l -> tag_ok p (length src) q l (c * 3) (c * 4) g base st i t ->
  (forall s' mm', state_ok s' -> two (after p (i * (c * 3))) (chunk_len (length src) (c * 3) i) (after q (i * (c * 4))) (chunk_len l (c * 4) i) st s' ->
     tag_ok p (length src) q l (c * 3) (c * 4) g base s' i t -> slice mm' (fst p) (snd p) src -> room mm' (fst q) (snd q) l -> Q tt s' mm') ->
  good F (par_job_b s cfg p (length src) q l c i (fst t) (snd t)) Q st mm.
Proof.
  intros HS B C Hi N OK EL SL RM (LT & R & d & ED & HD) H. unfold par_job_b. cbv zeta. unfold chunk_off.
  set (sp := after p (i * (c * 3))) in *. set (sn := chunk_len (length src) (c * 3) i) in *. set (dp := after q (i * (c * 4))) in *. set (dn := chunk_len l (c * 4) i) in *.
  assert (N' : fst sp <> fst dp) by exact N. assert (W := ok_wf _ OK). apply good_states; [exact OK|].
  apply good_fn, good_bind. unfold shared_param. apply good_shared; [auto|exact R|]. intros s1 F1 A1 E1 C1. cbn [fresh active enter stacks hd_error] in *.
  apply good_bind. unfold mut_param. rewrite <- ED. assert (HD' := HD). destruct HD as (U & LD & PD & bs & AB & HB).
  apply (good_mut F true dp dn d bs); [exact U| |].
  { intros x Hx. rewrite E1 by (apply not_in_range_block; intro Z; now apply N'). cbn [stacks enter]. destruct (AB x Hx) as (X & EX & HX). exists X. split; [exact EX|].
    apply Forall_forall. intros y Hy. destruct (proj1 (Forall_forall _ _) HX y Hy) as [Z1 Z2]. split; [exact Z1|]. rewrite A1, (protected_enter st (fst dp) (snd dp + x)); auto.
    rewrite EX. apply in_or_app. now left. }
  intros s2 F2 A2 E2 C2. rewrite A1 in A2, C2. cbn [hd_error] in C2. set (g2 := {| i_perm := Unique; i_tag := fresh s1; i_call := Some (fresh st) |}) in *.
  assert (W2 : wf s2). { intros z Hz. rewrite A2 in Hz. destruct Hz as [<-|Hz]; [lia|]. apply W in Hz. lia. }
  assert (R2 : readable s2 sp sn (S (fresh st))).
  { intros x Hx. rewrite E2 by (apply not_in_range_block; exact N'). rewrite C1 by exact Hx. apply reads_top. }
  apply good_bind. apply (ro_len sp sn); [exact W2|lia|exact R2|]. intros u3 s3 W3 S3 L3 _. assert (R3 : readable s3 sp sn (S (fresh st))) by (apply (readable_ro sp sn s2); [exact S3|lia|exact R2]).
  assert (F3 : fresh s2 <= fresh s3) by apply S3.
  apply good_bind. apply (ro_as_ptr sp sn); [exact W3|lia|exact R3|]. intros v s4 W4 S4 L4 R4. assert (F4 : fresh s3 <= fresh s4) by apply S4.
  assert (A4 : active s4 = fresh st :: active st). { rewrite <- A2. destruct S3 as (_ & Z & _), S4 as (_ & Z' & _). congruence. }
  assert (C4 : forall x, x < dn -> stacks s4 (fst dp) (snd dp + x) = g2 :: d :: bs x).
  { intros x Hx. rewrite (elsewhere_apart _ _ _ _ _ _ S4 N'), (elsewhere_apart _ _ _ _ _ _ S3 N'). now apply C2. }
  apply good_bind. change (fresh s1) with (i_tag g2). apply (good_as_mut_ptr F dp dn g2 (fun x => d :: bs x)); [exact W4|reflexivity| |].
  { intros x Hx. exists []. rewrite C4 by exact Hx. split; [reflexivity|constructor]. }
  intros r X s5 W5 L5 A5 E5 HX C5. rewrite A4 in HX, A5.
  destruct (piece_bounds cfg c src i _ B C eq_refl Hi) as (B1 & B2 & B3 & B4). rewrite <- EL in B4.
  assert (LS : length (chunk c src i) = sn) by (unfold sn; apply chunk_length). rewrite LS in B1.
  assert (LL : length (b64_rfc cfg (chunk c src i)) <= dn) by (unfold dn, chunk_len; lia).
  assert (SC := slice_chunk mm (fst p) (snd p) src c i SL ltac:(lia)). assert (RC := room_part _ _ _ _ (i * (c * 4)) _ RM B4).
  destruct p as [pb po], q as [qb qo]. cbn [fst snd] in *.
  assert (SO := only_slice _ _ _ _ SC). rewrite LS in SO.
  destruct (job_ok s cfg c src i (only sp sn mm) pb po qb qo HS C B Hi SO (only_room _ _ _ _ _ _ RC) (or_introl N)) as (m0 & E0 & _ & FR0).
  destruct (job_ok s cfg c src i mm pb po qb qo HS C B Hi SC RC (or_introl N)) as (m1 & EJ & _ & FR1).
  eapply (good_exec_part F sp sn dp dn v r); [apply (rei_par_job s cfg (pb, po) (length src) (qb, qo) c i)| |exact N|intros x Hx; rewrite C5 by exact Hx; do 2 eexists; split; [reflexivity|]|exact E0| |].
  { intros x Hx. rewrite E5 by (apply not_in_range_block; exact N'). now apply R4. }
  { unfold grants. cbn. now rewrite Nat.eqb_refl. }
  { intros b o Hb. destruct (frame_init _ _ _ _ _ _ _ FR0 Hb) as [Hb'|Hb']; [left; exact (only_init _ _ _ _ _ Hb')|right].
    revert Hb'. unfold cells_of, in_range, dp. cbn [after fst snd]. lia. }
  intros [] mm' E'. rewrite EJ in E'. injection E' as <-. split; [rewrite A5; discriminate|]. intros OK'.
  assert (AE : active (leave s5) = active st) by (cbn; now rewrite A5).
  assert (HX' : Forall (fun x => fresh s4 <= i_tag x /\ protected (active st) x = false) X).
  { apply Forall_forall. intros x Hx. destruct (proj1 (Forall_forall _ _) HX x Hx) as [Z1 Z2]. split; [exact Z1|]. exact (unprotected_less _ _ _ Z2). }
  assert (T : two sp sn dp dn st (leave s5)).
  { split; [cbn; lia|]. split; [exact AE|]. split.
    - intros b o H1 H2. cbn. rewrite E5 by exact H2. destruct S4 as (_ & _ & Z4 & _), S3 as (_ & _ & Z3 & _). rewrite Z4, Z3, E2, E1 by assumption. reflexivity.
    - intros x Hx. change (stacks (leave s5) (fst sp) (snd sp + x)) with (stacks s5 (fst sp) (snd sp + x)). rewrite E5 by (apply not_in_range_block; exact N'). destruct S4 as (_ & _ & _ & Z4), S3 as (_ & AZ & _ & Z3).
      destruct (Z4 x Hx) as (X4 & -> & H4), (Z3 x Hx) as (X3 & -> & H3). rewrite E2 by (apply not_in_range_block; exact N'). rewrite C1 by exact Hx.
      exists (X4 ++ X3 ++ [{| i_perm := SharedRO; i_tag := S (fresh st); i_call := Some (fresh st) |}]). split; [now rewrite <- !app_assoc|].
      rewrite A2 in AZ. rewrite AZ in H4. rewrite A2 in H3.
      apply Forall_app. split; [|apply Forall_app; split].
      + apply Forall_forall. intros y Hy. destruct (proj1 (Forall_forall _ _) H4 y Hy) as (P1 & P2 & P3). split; [exact P1|]. split; [lia|exact (unprotected_less _ _ _ P3)].
      + apply Forall_forall. intros y Hy. destruct (proj1 (Forall_forall _ _) H3 y Hy) as (P1 & P2 & P3). split; [exact P1|]. split; [lia|exact (unprotected_less _ _ _ P3)].
      + constructor; [|constructor]. cbn [i_perm i_tag]. split; [reflexivity|]. split; [lia|]. now apply call_over. }
  apply H; [exact OK'|exact T| | |].
  - split; [cbn; lia|]. split.
    + assert (Z := readable_two sp sn dp dn st (leave s5) (fst t) 0 sn T LT ltac:(lia)). rewrite after_0 in Z. exact (Z R).
    + exists d. split; [exact ED|]. split; [exact U|]. split; [cbn; lia|]. rewrite AE. split; [exact PD|]. exists bs. split; [|exact HB]. intros x Hx. rewrite AE. cbn [stacks leave].
      exists ({| i_perm := SharedRW; i_tag := r; i_call := None |} :: X ++ [g2]). fold dp. rewrite C5 by exact Hx. cbn [app]. rewrite <- app_assoc. split; [reflexivity|].
      constructor; [cbn [i_tag]; split; [lia|reflexivity]|]. apply Forall_app. split.
      * apply Forall_forall. intros y Hy. destruct (proj1 (Forall_forall _ _) HX' y Hy). split; [lia|assumption].
      * constructor; [|constructor]. cbn [g2 i_tag]. split; [lia|]. now apply call_over.
  - eapply only_changed_src; [exact SL|left; exact N|apply le_n|exact FR1].
  - destruct FR1 as (_ & FR1 & _). unfold room in *. now rewrite FR1.
Qed.

(** ** All jobs *)
Definition par_inv (p : ptr) (src : list Z) (q : ptr) (l c : nat) (g : item) (base : nat -> stack) (tags : list (nat * nat)) (st : borrows) (mm : mem) : Prop :=
  state_ok st /\ above st q l g base /\ (forall i, i < length tags -> tag_ok p (length src) q l (c * 3) (c * 4) g base st i (nth i tags (0, 0))) /\
  slice mm (fst p) (snd p) src /\ room mm (fst q) (snd q) l.
Lemma chunks_apart c i j x y : i <> j -> x < c -> y < c -> i * c + x <> j * c + y.
Proof. intros N X Y. destruct (Nat.lt_ge_cases i j) as [G|G]; [assert (S i * c <= j * c)|assert (S j * c <= i * c)]; try (apply Nat.mul_le_mono_r; lia); lia. Qed.
Lemma tag_other p n q l c3 c4 g base st s' i j t : fst p <> fst q -> i <> j ->
  two (after p (i * c3)) (chunk_len n c3 i) (after q (i * c4)) (chunk_len l c4 i) st s' ->
  tag_ok p n q l c3 c4 g base st j t -> tag_ok p n q l c3 c4 g base s' j t.
Proof.
  intros N NE T (A & B & d & E & D). assert (T' := T). destruct T' as (F & AC & EE & _). split; [lia|]. split.
  - destruct (len_fits n c3 j) as [Z|Z]; [rewrite Z; intros x Hx; lia|]. intros x Hx. specialize (B x Hx). cbn [after fst snd] in *.
    destruct (Nat.ltb_spec (chunk_len n c3 i) 1) as [G|G].
    { rewrite EE; [exact B|unfold in_range; lia|apply not_in_range_block; auto]. }
    rewrite EE; [exact B| |apply not_in_range_block; auto]. unfold in_range. cbn [after fst snd]. rewrite Nat.eqb_refl.
    assert (X := fun y H => chunks_apart c3 i j y x NE H ltac:(unfold chunk_len in Hx; lia)).
    destruct (Nat.leb_spec (snd p + i * c3) (snd p + j * c3 + x)) as [G1|G1]; [|reflexivity].
    destruct (Nat.ltb_spec (snd p + j * c3 + x) (snd p + i * c3 + chunk_len n c3 i)) as [G2|G2]; [|reflexivity].
    exfalso. apply (X (j * c3 + x - i * c3)); [unfold chunk_len in G2; lia|lia].
  - exists d. split; [exact E|]. apply (hold_same _ _ _ _ _ st); auto. intros x Hx. cbn [after fst snd].
    apply EE; [apply not_in_range_block; auto|]. unfold in_range. cbn [after fst snd]. rewrite Nat.eqb_refl.
    assert (X := fun y H => chunks_apart c4 i j y x NE H ltac:(unfold chunk_len in Hx; lia)).
    destruct (Nat.leb_spec (snd q + i * c4) (snd q + j * c4 + x)) as [G1|G1]; [|reflexivity].
    destruct (Nat.ltb_spec (snd q + j * c4 + x) (snd q + i * c4 + chunk_len l c4 i)) as [G2|G2]; [|reflexivity].
    exfalso. apply (X (j * c4 + x - i * c4)); [unfold chunk_len in G2; lia|lia].
Qed.
Lemma two_chunk p n q l c3 c4 i s s' : fst p <> fst q -> two (after p (i * c3)) (chunk_len n c3 i) (after q (i * c4)) (chunk_len l c4 i) s s' -> two p n q l s s'.
Proof.
  intros N T. destruct (len_fits n c3 i) as [Z|Z], (len_fits l c4 i) as [Z'|Z']; rewrite ?Z, ?Z' in T.
  - apply (two_sub p n q l 0 0 0 0); [exact N| |lia|lia]. destruct T as (A & B & C & D). split; [exact A|]. split; [exact B|]. split; [|intros x Hx; lia].
    intros b o _ _. apply C; unfold in_range; lia.
  - apply (two_sub p n q l 0 0 (i * c4) (chunk_len l c4 i)); [exact N| |lia|exact Z']. destruct T as (A & B & C & D). split; [exact A|]. split; [exact B|]. split; [|intros x Hx; lia].
    intros b o _ H. apply C; [unfold in_range; lia|exact H].
  - apply (two_sub p n q l (i * c3) (chunk_len n c3 i) 0 0); [exact N| |exact Z|lia]. destruct T as (A & B & C & D). split; [exact A|]. split; [exact B|]. split; [|exact D].
    intros b o H _. apply C; [exact H|unfold in_range; lia].
  - exact (two_sub p n q l _ _ _ _ s s' N T Z Z').
Qed.
Lemma run_jobs_good (F : nat -> nat -> Prop) s cfg src p q l c g base tags :
  (forall i, b64_isa (s i)) -> bytes src -> 0 < c -> fst p <> fst q -> l = b64_encoded_length_unchecked (length src) cfg ->
  length tags <= chunk_count (length src) (c * 3) ->
  forall order (Q : unit -> borrows -> mem -> Prop) st mm, (forall i, In i order -> i < length tags) -> par_inv p src q l c g base tags st mm ->
  (forall s' mm', two p (length src) q l st s' -> par_inv p src q l c g base tags s' mm' -> Q tt s' mm') ->
  good F (run_jobs_b (fun i => par_job_b s cfg p (length src) q l c i (fst (nth i tags (0, 0))) (snd (nth i tags (0, 0)))) order) Q st mm.
Proof.
  intros HS B C N EL LC. induction order as [|i order IH]; intros Q st mm HO I H; cbn [run_jobs_b].
  - cbn [good]. apply H; [apply two_refl|exact I].
  - destruct I as (OK & AB & TK & SL & RM). assert (Hi := HO i (or_introl eq_refl)). apply good_bind.
    apply (par_job_good F s cfg src p q l c g base); auto; [lia|]. intros s1 m1 OK1 T1 TK1 SL1 RM1. assert (T1' := two_chunk _ _ _ _ _ _ _ _ _ N T1).
    apply IH.
    + intros j Hj. apply HO. now right.
    + split; [exact OK1|]. split; [|split; [|now split]].
      * intros x Hx. destruct T1 as (_ & A1 & E1 & _). destruct TK1 as (_ & _ & d & _ & HD). apply hold_above in HD.
        destruct (in_range (fst q) (snd q + i * (c * 4)) (chunk_len l (c * 4) i) (fst q) (snd q + x)) eqn:IR.
        -- apply in_range_iff in IR as [_ IR]. destruct (HD (x - i * (c * 4)) ltac:(lia)) as (X & EX & HX). cbn [after fst snd] in EX. unfold shift in EX.
           replace (snd q + i * (c * 4) + (x - i * (c * 4))) with (snd q + x) in EX by lia. replace (i * (c * 4) + (x - i * (c * 4))) with x in EX by lia. eauto.
        -- rewrite E1, A1; [now apply AB|apply not_in_range_block; auto|exact IR].
      * intros j Hj. destruct (Nat.eq_dec i j) as [<-|NE]; [exact TK1|]. exact (tag_other _ _ _ _ _ _ _ _ _ _ _ _ _ N NE T1 (TK j Hj)).
    + intros s' mm' T' I'. apply H; [|exact I']. exact (two_trans _ _ _ _ _ _ _ T1' T').
Qed.

(** ** The function *)
Lemma read_above act g X below : i_perm g = Unique -> Forall (fun x => i_tag g < i_tag x /\ protected act x = false) X ->
  read_at act (i_tag g) (X ++ g :: below) = Some (map disable X ++ g :: below).
Proof.
  intros U HX. unfold read_at. rewrite (locate_app false (i_tag g) X g below).
  - replace (existsb _ X) with false; [reflexivity|]. induction HX as [|x X [_ Px] _ IH]; [reflexivity|]. cbn [existsb]. now rewrite Px, andb_false_r, <- IH.
  - apply Forall_forall. intros x Hx. destruct (proj1 (Forall_forall _ _) HX x Hx) as [T _]. unfold grants. now rewrite (proj2 (Nat.eqb_neq _ _)) by lia.
  - unfold grants. now rewrite U, Nat.eqb_refl.
Qed.
Lemma disable_same x : i_tag (disable x) = i_tag x /\ i_call (disable x) = i_call x.
Proof. unfold disable. destruct (is_unique x); auto. Qed.
(** a shared reference made from [g] *)
Lemma good_share (F : nat -> nat -> Prop) q k g base (Q : nat -> borrows -> mem -> Prop) s mm : wf s -> i_perm g = Unique -> i_tag g < fresh s -> above s q k g base ->
  (forall u s', wf s' -> fresh s <= fresh s' -> active s' = active s -> elsewhere q k s s' -> above s' q k g base -> u < fresh s' -> readable s' q k u -> Q u s' mm) ->
  good F (reborrow q k (i_tag g)) Q s mm.
Proof.
  intros W U L AB H. unfold reborrow.
  set (h := fun i => match read_at (active s) (i_tag g) (stacks s (fst q) (snd q + i)) with Some x => x | None => [] end).
  assert (Hh : forall i, i < k -> exists X, read_at (active s) (i_tag g) (stacks s (fst q) (snd q + i)) = Some (h i) /\ h i = X ++ g :: base i /\
     Forall (fun x => i_tag g < i_tag x /\ protected (active s) x = false) X).
  { intros i Hi. destruct (AB i Hi) as (X & E & HX). exists (map disable X). unfold h. rewrite E, read_above by assumption. split; [reflexivity|]. split; [reflexivity|].
    apply Forall_forall. intros y [x [<- Hx]]%in_map_iff. destruct (proj1 (Forall_forall _ _) HX x Hx). destruct (disable_same x) as [-> EC]. split; [assumption|].
    unfold protected. rewrite EC. assumption. }
  apply (good_shared_gen F SharedRef false (i_tag g) q k h); [auto|intros i Hi; now destruct (Hh i Hi) as (X & E & _)|]. intros s1 F1 A1 E1 C1. apply H.
  - intros c Hc. rewrite A1 in Hc. apply W in Hc. lia.
  - lia.
  - exact A1.
  - exact E1.
  - intros i Hi. destruct (Hh i Hi) as (X & _ & E & HX). rewrite A1, C1, E by exact Hi. eexists (_ :: X). split; [reflexivity|]. constructor; [cbn; split; [lia|reflexivity]|exact HX].
  - lia.
  - intros i Hi. rewrite C1 by exact Hi. apply reads_top.
Qed.
Lemma into_start_ok {A} (F : nat -> nat -> Prop) p n ts (body : nat -> bcode A) Q s mm : state_ok s -> ts < fresh s -> readable_in s p n ts ->
  (forall u s1, state_ok s1 -> src_inv s p n ts s1 -> readable s1 p n u -> u < fresh s1 -> good F (body u) (final Q) s1 mm) ->
  good F (fn (bbind (shared_param p n ts) body)) Q s mm.
Proof.
  intros OK L R H. assert (W := ok_wf _ OK). apply good_fn, good_bind, good_states; [now apply ok_enter|].
  unfold shared_param.
  set (h := fun i => match read_at (fresh s :: active s) ts (stacks s (fst p) (snd p + i)) with Some x => x | None => [] end).
  assert (Hh : forall i, i < n -> read_at (fresh s :: active s) ts (stacks s (fst p) (snd p + i)) = Some (h i)).
  { intros i Hi. destruct (R i Hi) as [x Hx]. unfold h. now rewrite Hx. }
  apply (good_shared_gen F SharedRef true ts p n h); [auto|exact Hh|]. intros s1 F1 A1 E1 C1 OK1. cbn [fresh active enter hd_error] in *. apply H.
  - exact OK1.
  - split; [|split; [|split; [|split; [|split]]]].
    + now apply ok_wf.
    + lia.
    + exact A1.
    + intros b o Hr. now rewrite E1.
    + intros i Hi. rewrite C1 by exact Hi. apply (reads_app ts [_]).
      * constructor; [|constructor]. cbn. split; [reflexivity|lia].
      * exact (read_reads _ _ _ _ (Hh i Hi)).
    + intros RS t LT RT i Hi. rewrite C1 by exact Hi. specialize (Hh i Hi). rewrite (reads_stable _ _ _ (RS i Hi)) in Hh. injection Hh as <-.
      apply (reads_app t [_]); [|now apply RT]. constructor; [|constructor]. cbn. split; [reflexivity|lia].
  - intros i Hi. rewrite C1 by exact Hi. apply reads_top.
  - lia.
Qed.
Lemma into_ro_ok {A} (F : nat -> nat -> Prop) s0 p n ts (x : bcode nat) u (body : nat -> bcode A) Q s mm : ro_op x p n u -> state_ok s -> src_inv s0 p n ts s -> ts < fresh s0 ->
  readable s p n u -> u < fresh s ->
  (forall v s', state_ok s' -> src_inv s0 p n ts s' -> readable s' p n u -> u < fresh s' -> readable s' p n v -> v < fresh s' -> good F (body v) Q s' mm) ->
  good F (bbind x body) Q s mm.
Proof.
  intros HX OK I LT R L H. apply good_bind, good_states; [exact OK|]. apply HX; [apply I|exact L|exact R|]. intros v s' W' ST L' R' OK'. apply H; auto.
  - exact (src_ro _ _ _ _ _ _ I LT W' ST).
  - exact (readable_ro _ _ _ _ _ ST L R).
  - destruct ST as (A1 & _). lia.
Qed.
(** a function of this kind as the last step *)
Lemma into_nested s0 p n q k ts s u s' sl v : wf s0 -> ts < fresh s0 -> src_inv s0 p n ts s -> readable s p n u -> u < fresh s -> fst p <> fst q ->
  into_post s s' p n q k u sl v -> active s' <> [] /\ into_post s0 (leave s') p n q k ts sl v.
Proof.
  intros W0 LT I R L N (W' & F' & A' & E' & R' & K' & C' & T'). assert (SD := fun o => src_dst _ _ _ _ _ q o I N). destruct I as (W & LF & A & E & RT & K).
  rewrite A in A'. split; [rewrite A'; discriminate|]. split; [apply (wf_leave s0 s' (fresh s0) W0); [lia|exact A']|]. split; [cbn; lia|]. split; [cbn; now rewrite A'|].
  split; [intros b o H1 H2; cbn; now rewrite E', E|]. split; [apply K'; [exact R|lia|exact RT]|]. split; [intros RS t Lt Rt; apply K'; [exact R|lia|now apply K]|]. split.
  - intros i Hi. cbn. destruct (C' i Hi) as (X & EX & HX). exists X. rewrite EX, SD. split; [reflexivity|]. apply Forall_forall. intros x Hx.
    destruct (proj1 (Forall_forall _ _) HX x Hx) as [P1 P2]. rewrite A in P2. split; [lia|exact (unprotected_less _ _ _ P2)].
  - destruct sl as [[q' k']|]; [|exact Logic.I]. destruct T' as [T1 T2]. split; [lia|exact T2].
Qed.

Definition good_into_ok {A} (ret : A -> option (ptr * nat)) (x : ptr -> nat -> ptr -> nat -> nat -> nat -> bcode (A * nat)) (src : list Z) (k : nat) : Prop :=
  forall (F : nat -> nat -> Prop) p q ts td (Q : A * nat -> borrows -> mem -> Prop) s mm, fst p <> fst q -> slice mm (fst p) (snd p) src -> room mm (fst q) (snd q) k ->
    (forall b o, F b o -> cells_of p (length src) b o \/ cells_of q k b o) -> (forall b o, init mm b o -> cells_of p (length src) b o) ->
    state_ok s -> ts < fresh s -> readable_in s p (length src) ts -> on_top s q k td ->
    (forall r u s' mm', into_post s s' p (length src) q k ts (ret r) u -> Q (r, u) s' mm') -> good F (x p (length src) q k ts td) Q s mm.
Lemma two_src s0 p n ts s q k s' : src_inv s0 p n ts s -> ts < fresh s0 -> two p n q k s s' -> readable s' p n ts /\ keeps s0 p n ts s'.
Proof.
  intros (W & L & A & E & R & K) LT T.
  assert (G : forall t, t < fresh s -> readable s p n t -> readable s' p n t).
  { intros t Lt Rt. assert (Z := readable_two p n q k s s' t 0 n T Lt ltac:(lia)). rewrite after_0 in Z. exact (Z Rt). }
  split; [apply G; [lia|exact R]|]. intros RS t Lt Rt. apply G; [lia|]. now apply K.
Qed.
Lemma two_less p n q k l s s' : fst p <> fst q -> two p n q l s s' -> l <= k -> two p n q k s s'.
Proof. intros N T L. apply (two_sub p n q k 0 n 0 l); [exact N| |lia|exact L]. now rewrite !after_0. Qed.
Lemma par_encode_good P order pl s cfg src k : schedule order -> (forall i, b64_isa (s i)) -> bytes src ->
  (b64_par_sequential P (length src) = true \/ length (b64_rfc cfg src) <= k) -> good_into_ok of_result (b64_par_encode_b P order pl s cfg) src k.
Proof.
  intros HO HS B FIT F p q ts td Q st mm N SL RM HF HI OK LT RI OT H. assert (W := ok_wf _ OK). unfold b64_par_encode_b.
  apply into_start_ok; auto. intros u s1 OK1 I1 R1 L1.
  eapply into_ro_ok; [apply ro_len|exact OK1|exact I1|exact LT|exact R1|exact L1|]. clear s1 OK1 I1 R1 L1. intros _ s1 OK1 I1 R1 L1 _ _.
  eapply into_ro_ok; [apply ro_len|exact OK1|exact I1|exact LT|exact R1|exact L1|]. clear s1 OK1 I1 R1 L1. intros _ s1 OK1 I1 R1 L1 _ _.
  destruct (b64_par_sequential P (length src)) eqn:SEQ.
  { apply b64_encode_good; auto.
    - now apply ok_wf.
    - now apply readable_in_of.
    - exact (on_top_src _ _ _ _ _ _ _ _ I1 N OT).
    - intros r v s' mm' PO. destruct (into_nested _ _ _ _ _ _ _ _ _ _ _ W LT I1 R1 L1 N PO) as [Z1 Z2]. split; [exact Z1|]. now apply H. }
  destruct FIT as [FIT|FIT]; [discriminate FIT|]. rewrite b64_rfc_len in FIT by exact B.
  eapply into_ro_ok; [apply ro_len|exact OK1|exact I1|exact LT|exact R1|exact L1|]. clear s1 OK1 I1 R1 L1. intros _ s1 OK1 I1 R1 L1 _ _.
  cbv zeta. set (n := length src) in *. set (l := b64_encoded_length_unchecked n cfg) in *. set (c := (n / 3 + P) / P).
  assert (C : 0 < c).
  { assert (PP := par_sequential_pos _ _ SEQ). unfold c. replace (n / 3 + P) with (n / 3 + 1 * P) by lia. rewrite Nat.div_add by lia. rewrite Nat.add_1_r. apply Nat.lt_0_succ. }
  assert (SD := fun o => src_dst _ _ _ _ _ q o I1 N).
  assert (ACT : active s1 = fresh st :: active st) by apply I1. assert (FST : fresh st < fresh s1) by apply I1.
  (* into_uninit_slice *)
  apply good_bind, good_states; [exact OK1|]. apply good_slice_mut; [now apply ok_wf|exact (on_top_src _ _ _ _ _ _ _ _ I1 N OT)|].
  intros t2 s2 W2 L2 A2 E2 C2 OK2. set (g2 := {| i_perm := Unique; i_tag := t2; i_call := None |}) in *.
  assert (T2 : two p n q k s1 s2) by (apply two_mut; [exact N|lia|exact A2|exact E2]).
  (* index_mut *)
  apply good_bind, good_states; [exact OK2|]. unfold reborrow_mut at 1. change t2 with (i_tag g2).
  apply (good_mut F false q k g2 (fun i => stacks s1 (fst q) (snd q + i))); [reflexivity|intros i Hi; exists []; rewrite C2 by exact Hi; split; [reflexivity|constructor]|].
  intros s3 F3 A3 E3 C3 OK3. set (g3 := {| i_perm := Unique; i_tag := fresh s2; i_call := None |}) in *.
  assert (T3 : two p n q k s1 s3) by (apply (two_trans _ _ _ _ _ s2); [exact T2|apply two_mut; [exact N|lia|exact A3|exact E3]]).
  apply good_bind, good_states; [exact OK3|]. apply good_fn, good_bind. unfold mut_param at 1. change (fresh s2) with (i_tag g3).
  apply (good_mut F true q k g3 (fun i => g2 :: stacks s1 (fst q) (snd q + i))); [reflexivity|intros i Hi; exists []; cbn [stacks enter]; rewrite C3 by exact Hi; split; [reflexivity|constructor]|].
  intros s4 F4 A4 E4 C4. cbn [fresh active enter stacks hd_error] in *. set (g4 := {| i_perm := Unique; i_tag := S (fresh s3); i_call := Some (fresh s3) |}) in *.
  destruct (Nat.ltb_spec k l) as [GL|_]; [lia|]. unfold reborrow_mut at 1. change (S (fresh s3)) with (i_tag g4).
  set (b5 := fun i => g4 :: g3 :: g2 :: stacks s1 (fst q) (snd q + i)).
  apply (good_mut F false q l g4 (fun i => g3 :: g2 :: stacks s1 (fst q) (snd q + i))); [reflexivity|intros i Hi; exists []; rewrite C4 by lia; split; [reflexivity|constructor]|].
  intros s5 F5 A5 E5 C5. split; [rewrite A5, A4; discriminate|]. intros OK5. set (g5 := {| i_perm := Unique; i_tag := fresh s4; i_call := None |}) in *.
  assert (A5' : active (leave s5) = active s1). { cbn. rewrite A5, A4. cbn [tl]. congruence. }
  assert (F5' : fresh s3 < fresh s4 /\ fresh s4 < fresh (leave s5)) by (cbn; lia). destruct F5' as [F5a F5b].
  assert (C5' : forall i, i < l -> stacks (leave s5) (fst q) (snd q + i) = g5 :: b5 i) by exact C5.
  assert (D5 : forall i, l <= i < k -> stacks (leave s5) (fst q) (snd q + i) = b5 i).
  { intros i Hi. cbn [stacks leave]. rewrite E5 by (unfold in_range; lia). apply C4. lia. }
  assert (T5 : two p n q k s1 (leave s5)).
  { apply (two_trans _ _ _ _ _ s3); [exact T3|]. apply two_mut; [exact N|cbn; lia|cbn; now rewrite A5, A4|]. intros b o Hr. cbn [stacks leave].
    rewrite E5, E4; [reflexivity|exact Hr|]. revert Hr. unfold in_range. lia. }
  generalize dependent (leave s5). clear s5 F5 A5 E5 C5. intros s5 OK5 A5 F5b C5 D5 T5.
  (* par_chunks, par_chunks_mut *)
  assert (R5 : readable s5 p n u). { assert (Z := readable_two p n q k s1 s5 u 0 n T5 L1 ltac:(lia)). rewrite after_0 in Z. exact (Z R1). }
  assert (F15 : fresh s1 <= fresh s5) by apply T5.
  apply good_bind, good_states; [exact OK5|]. apply (ro_len p n u); [now apply ok_wf|lia|exact R5|]. intros v s6 W6 S6 L6 R6 OK6.
  assert (F6 : fresh s5 <= fresh s6) by apply S6. assert (A6 : active s6 = active s5) by apply S6.
  assert (C6 : forall i, stacks s6 (fst q) (snd q + i) = stacks s5 (fst q) (snd q + i)) by (intro i; exact (elsewhere_apart _ _ _ _ _ _ S6 N)).
  assert (T6 : two p n q k s1 s6) by (apply (two_trans _ _ _ _ _ s5); [exact T5|now apply two_ro]).
  apply good_bind, good_states; [exact OK6|]. unfold reborrow_mut at 1. change (fresh s4) with (i_tag g5).
  apply (good_mut F false q l g5 b5); [reflexivity|intros i Hi; exists []; rewrite C6, C5 by exact Hi; split; [reflexivity|constructor]|].
  intros s7 F7 A7 E7 C7 OK7. set (g7 := {| i_perm := Unique; i_tag := fresh s6; i_call := None |}) in *.
  apply good_bind, good_states; [exact OK7|]. apply good_fn. unfold mut_param at 1. change (fresh s6) with (i_tag g7).
  apply (good_mut F true q l g7 (fun i => g5 :: b5 i)); [reflexivity|intros i Hi; exists []; cbn [stacks enter]; rewrite C7 by exact Hi; split; [reflexivity|constructor]|].
  intros s8 F8 A8 E8 C8. cbn [fresh active enter stacks hd_error] in *. split; [rewrite A8; discriminate|]. intros OK8.
  set (d := {| i_perm := Unique; i_tag := S (fresh s7); i_call := Some (fresh s7) |}) in *.
  assert (A8' : active (leave s8) = active s7) by (cbn; now rewrite A8).
  assert (F8' : fresh s7 < fresh (leave s8) /\ i_tag d < fresh (leave s8)) by (cbn; lia). destruct F8' as [F8a F8b].
  assert (T8 : two p n q l s6 (leave s8)).
  { apply two_mut; [exact N|cbn; lia|congruence|]. intros b o Hr. cbn [stacks leave]. rewrite E8 by exact Hr. cbn [stacks enter]. now apply E7. }
  assert (HD : hold q l g5 b5 d (leave s8)).
  { apply hold_make; [reflexivity|cbn [g5 d i_tag] in F8b |- *; lia|rewrite A8'; apply call_over; [now apply ok_wf|reflexivity]|].
    intros i Hi. exists [g7]. cbn [stacks leave]. rewrite C8 by exact Hi. split; [reflexivity|]. constructor; [|constructor]. cbn [g5 g7 i_tag]. split; [lia|reflexivity]. }
  generalize dependent (leave s8). clear s8 F8 A8 E8 C8. intros s8 OK8 A8 F8a F8b T8 HD.
  destruct (Nat.eqb_spec c 0) as [|_]; [lia|]. change (S (fresh s7)) with (i_tag d).
  assert (R8 : readable s8 p n v). { assert (Z := readable_two p n q l s6 s8 v 0 n T8 L6 ltac:(lia)). rewrite after_0 in Z. exact (Z R6). }
  apply good_bind. apply (producers_good F (c * 3) (c * 4) g5 ltac:(lia) ltac:(lia) pl p n q l v d b5); [exact N|exact OK8|destruct T8 as (Z & _); lia|exact R8|exact HD|].
  intros tags s9 OK9 T9 AB9 LT9 TK9.
  apply good_bind. apply (run_jobs_good F s cfg src p q l c g5 b5 tags); auto.
  { rewrite LT9. fold n. lia. }
  { intros i Hi. apply (Permutation_in _ (HO _)), in_seq in Hi. rewrite LT9. unfold b64_par_jobs in Hi. cbv zeta in Hi. fold c in Hi. lia. }
  { split; [exact OK9|]. split; [exact AB9|]. split; [exact TK9|]. split; [exact SL|]. unfold room in *. lia. }
  intros s10 mm' T10 (OK10 & AB10 & _). fold n in T10.
  assert (T10' : two p n q l s6 s10) by (apply (two_trans _ _ _ _ _ s9); [apply (two_trans _ _ _ _ _ s8)|]; assumption).
  assert (F10 : fresh s6 <= fresh s10) by apply T10'. assert (A10 : active s10 = active s6) by apply T10'.
  (* 57-61 *)
  apply good_bind. change (fresh s4) with (i_tag g5). apply (good_share F q l g5 b5); [now apply ok_wf|reflexivity|cbn [g5 i_tag]; lia|exact AB10|].
  intros t11 s11 W11 F11 A11 E11 AB11 L11 R11.
  apply good_bind. apply (ro_len q l t11); [exact W11|exact L11|exact R11|]. intros t12 s12 W12 S12 L12 R12.
  assert (F12 : fresh s11 <= fresh s12) by apply S12. assert (A12 : active s12 = active s11) by apply S12.
  apply good_bind. apply (good_as_mut_ptr F q l g5 b5); [exact W12|reflexivity|apply (above_ro q l s11); [exact S12|cbn [g5 i_tag]; lia|exact AB11]|].
  intros r X s13 W13 L13 A13 E13 HX C13.
  apply good_bind. apply good_slice_mut; [exact W13|intros i Hi; rewrite C13 by exact Hi; do 2 eexists; split; [reflexivity|unfold grants; cbn; now rewrite Nat.eqb_refl]|].
  intros t s14 W14 L14 A14 E14 C14. unfold give. cbn [good].
  assert (ACT14 : active s14 = fresh st :: active st) by congruence.
  assert (A12' : active s12 = fresh st :: active st) by congruence. rewrite A12' in HX.
  assert (T14 : two p n q k s1 s14).
  { apply (two_trans _ _ _ _ _ s6); [exact T6|]. apply (two_less p n q k l); [exact N| |exact FIT]. apply (two_trans _ _ _ _ _ s10); [exact T10'|].
    apply two_mut; [exact N|lia|congruence|]. intros b o Hr. rewrite E14, E13 by exact Hr. destruct S12 as (_ & _ & Z & _). rewrite Z by exact Hr. now apply E11. }
  assert (DS : forall i, l <= i < k -> stacks s14 (fst q) (snd q + i) = b5 i).
  { intros i Hi. assert (Hr : in_range (fst q) (snd q) l (fst q) (snd q + i) = false) by (unfold in_range; lia).
    rewrite E14, E13 by exact Hr. destruct S12 as (_ & _ & Z & _). rewrite Z by exact Hr. rewrite E11 by exact Hr.
    destruct T10' as (_ & _ & Z' & _). rewrite Z'; [|apply not_in_range_block; auto|exact Hr]. rewrite C6. now apply D5. }
  split; [rewrite ACT14; discriminate|]. apply H. cbn [of_result].
  destruct (two_src _ _ _ _ _ _ _ _ I1 LT T14) as [RD KD]. assert (I1' := I1). destruct I1 as (_ & _ & _ & EL & _).
  assert (B5 : forall i, i < k -> exists Y, b5 i = Y ++ stacks st (fst q) (snd q + i) /\ added st Y).
  { intros i Hi. exists [g4; g3; g2]. unfold b5. rewrite SD. split; [reflexivity|].
    constructor; [cbn [g4 i_tag]; split; [lia|]|constructor; [cbn [g3 i_tag]; split; [lia|reflexivity]|constructor; [cbn [g2 i_tag]; split; [lia|reflexivity]|constructor]]].
    apply (unprotected_less _ (fresh st)). rewrite <- ACT. replace (active s1) with (active s3) by congruence. apply call_over; [now apply ok_wf|reflexivity]. }
  split; [apply (wf_leave st s14 (fresh st) W); [lia|exact ACT14]|]. split; [cbn; lia|]. split; [cbn; now rewrite ACT14|].
  split. { intros b o H1 H2. cbn [stacks leave]. destruct T14 as (_ & _ & Z & _). rewrite Z by assumption. now apply EL. }
  split; [exact RD|]. split; [exact KD|]. split.
  - intros i Hi. cbn [stacks leave]. destruct (B5 i Hi) as (Y & EY & HY). destruct (Nat.lt_ge_cases i l) as [G|G].
    + rewrite C14, C13, EY by exact G. eexists (_ :: _ :: X ++ g5 :: Y). cbn [app]. rewrite <- app_assoc. split; [reflexivity|].
      constructor; [cbn [i_tag]; split; [lia|reflexivity]|]. constructor; [cbn [i_tag]; split; [lia|reflexivity]|]. apply Forall_app. split.
      * apply Forall_forall. intros y Hy. destruct (proj1 (Forall_forall _ _) HX y Hy) as [Z1 Z2]. split; [lia|exact (unprotected_less _ _ _ Z2)].
      * constructor; [cbn [g5 i_tag]; split; [lia|reflexivity]|exact HY].
    + rewrite DS by lia. eauto.
  - split; [lia|]. intros i Hi. cbn [stacks leave]. rewrite C14 by exact Hi. do 2 eexists. split; [reflexivity|]. unfold grants. cbn. now rewrite Nat.eqb_refl.
Qed.

(** ** The annotation *)
Lemma annotates_borrow {A B C} (f : B -> C) (x : bcode A) (g : A -> bcode B) c : noexec x -> (forall a, annotates f (g a) c) -> annotates f (bbind x g) c.
Proof. intros N H. induction x as [a|y j IH|X v c0 j IH]; cbn [noexec bbind annotates] in *; [apply H|intro t; now apply IH|contradiction]. Qed.
Lemma annotates_eq {A B} (f : A -> B) x : forall c c', (forall m, c m = c' m) -> annotates f x c -> annotates f x c'.
Proof.
  induction x as [a|y j IH|X v c0 j IH]; cbn [annotates]; intros c c' E H; [intro m; now rewrite <- E|intro t; now apply (IH t c)|].
  destruct H as (g & HC & H). exists g. split; [|exact H]. intro m. now rewrite <- E.
Qed.
Lemma split_at_nox p mid n t : noexec (split_at_b p mid n t). Proof. unfold split_at_b. nox. Qed.
Lemma split_at_mut_nox p mid n t : noexec (split_at_mut_b p mid n t). Proof. unfold split_at_mut_b. nox. Qed.
Lemma chunks_nox c : forall j p n t, noexec (chunks_b j c p n t).
Proof. induction j as [|j IH]; intros; cbn [chunks_b]; [exact I|]. apply noexec_bind; [apply split_at_nox|]. intro a. apply noexec_bind; [apply IH|]. intro; exact I. Qed.
Lemma chunks_mut_nox c : forall j q k r, noexec (chunks_mut_b j c q k r).
Proof. induction j as [|j IH]; intros; cbn [chunks_mut_b]; [exact I|]. apply noexec_bind; [nox|]. intro a. apply noexec_bind; [apply IH|]. intro; exact I. Qed.
Lemma producers_nox c3 c4 : forall pl p n q k ts td, noexec (producers_b pl c3 c4 p n q k ts td).
Proof.
  induction pl as [|i l IHl r IHr]; intros; cbn [producers_b].
  - apply noexec_bind; [nox|]. intro. apply noexec_bind; [unfold chunks_mut_start; nox|]. intro. apply noexec_bind; [apply chunks_nox|]. intro. apply noexec_bind; [apply chunks_mut_nox|]. intro; exact I.
  - apply noexec_bind; [apply split_at_nox|]. intro. apply noexec_bind; [apply split_at_mut_nox|]. intro. apply noexec_bind; [apply IHl|]. intro. apply noexec_bind; [apply IHr|]. intro; exact I.
Qed.
Lemma par_job_ann s cfg p n q l c i ts td : annotates (fun a => a) (par_job_b s cfg p n q l c i ts td) (b64_par_job s cfg p n q c i).
Proof. unfold par_job_b. ann. exists (fun y => ret y). split; [apply bind_ret_eq|]. ann. Qed.
Lemma run_jobs_ann (job : nat -> bcode unit) job' : (forall i, annotates (fun a => a) (job i) (job' i)) -> forall order, annotates (fun a => a) (run_jobs_b job order) (run_all job' order).
Proof.
  intro H. induction order as [|i order IH]; cbn [run_jobs_b run_all]; [cbn; intro m; reflexivity|]. apply (annotates_bind (fun a => a)); [apply H|]. intros [].  exact IH.
Qed.
Lemma par_encode_ann P order pl s cfg p n q k ts td : annotates fst (b64_par_encode_b P order pl s cfg p n q k ts td) (b64_par_encode P order s cfg p n q k).
Proof.
  unfold b64_par_encode_b, b64_par_encode. apply annotates_fn. apply annotates_borrow; [nox|]. intro u. apply annotates_borrow; [nox|]. intros _. apply annotates_borrow; [nox|]. intros _.
  destruct (b64_par_sequential P n); [apply b64_encode_ann|]. unfold b64_par_path. cbv zeta. set (l := b64_encoded_length_unchecked n cfg). set (c := (n / 3 + P) / P).
  apply annotates_borrow; [nox|]. intros _. apply annotates_borrow; [nox|]. intros t. apply annotates_borrow; [nox|]. intros v.
  set (rest := if c =? 0 then panic else run_all (b64_par_job s cfg p n q c) (order (b64_par_jobs P n l)) ;;; ret (Ok (q, l))).
  match goal with |- annotates fst (bbind _ ?g) _ => set (tail := g) end.
  assert (HT : forall w, annotates fst (tail w) rest).
  { intro w. unfold tail, rest. apply annotates_borrow; [nox|]. intro x. apply annotates_borrow; [nox|]. intro y. apply annotates_borrow; [nox|]. intro z.
    destruct (c =? 0). { unfold exec. cbn [bbind annotates]. exists (fun y => ret (fst y)). split; [reflexivity|]. intros y0 m. reflexivity. }
    apply annotates_borrow; [apply producers_nox|]. intro tags. apply (annotates_bind (fun a => a)); [apply run_jobs_ann; intro i; apply par_job_ann|].
    intros []. apply annotates_borrow; [nox|]. intros ?. apply annotates_borrow; [nox|]. intros ?. apply annotates_borrow; [nox|]. intros r. apply annotates_borrow; [nox|]. intros r'.
    unfold give. cbn. intro m. reflexivity. }
  destruct (k <? l).
  - ann. exists (fun _ => rest). split; [reflexivity|]. intros y. intros _. apply HT.
  - apply annotates_borrow; [nox|exact HT].
Qed.
Lemma borrows_into_ok {A} (ret : A -> option (ptr * nat)) x f src dlen :
  (forall p q ts td, annotates fst (x p (length src) q dlen ts td) (f p (length src) q dlen)) -> (bytes src -> settles f src dlen) ->
  (bytes src -> good_into_ok ret x src dlen) -> borrows_into ret x f src dlen.
Proof.
  intros HA HS HG m s b o d e ts td S R N OK LS LD MR OT. set (n := length src) in *. set (mm := only (b, o) n m).
  destruct (HS (proj1 S) mm b o d e (only_slice _ _ _ _ S) (only_room _ _ _ _ _ _ R) (or_introl N)) as (r & mmf & E & FR).
  set (F := fun b' o' => cells_of (b, o) n b' o' \/ cells_of (d, e) dlen b' o').
  destruct (good_runs F fst (x (b, o) n (d, e) dlen ts td) (fun a s' _ => into_post s s' (b, o) n (d, e) dlen ts (ret (fst a)) (snd a))) with
    (c := f (b, o) n (d, e) dlen) (s := s) (s2 := s) (m := m) (mm := mm) (r := r) (mmf := mmf) as ([r' u] & s' & m' & RU & Er & P & _).
  - intros a s1 s2 _ H. now apply into_post_same.
  - apply HA.
  - exact E.
  - intros b' o' Hi. destruct (frame_init _ _ _ _ _ _ _ FR Hi) as [Hi'|Hi']; [left; exact (only_init _ _ _ _ _ Hi')|now right].
  - apply only_less.
  - apply (HG (proj1 S)); auto.
    + exact (only_slice _ _ _ _ S).
    + exact (only_room _ _ _ _ _ _ R).
    + intros b' o' Hi. exact (only_init _ _ _ _ _ Hi).
    + intros i Hi. rewrite read_enter by exact OK. specialize (MR i Hi). destruct (read_at _ _ _); [eauto|contradiction].
  - apply same_refl.
  - cbn [fst snd] in *. subst r'. exists r, u, s', m'. split; [exact RU|]. split; [exact (runs_code fst _ _ _ _ _ _ RU _ (HA _ _ _ _))|].
    destruct P as (W' & LF & A' & EL & RD & _ & C & T). split; [exact (leaves_of _ _ _ _ _ _ _ _ _ _ OK RU A' EL)|]. split; [exact T|]. split.
    + intros i Hi. rewrite (reads_stable (active s') ts _ (RD i Hi)). discriminate.
    + intros i Hi. destruct (C i Hi) as (X & -> & HX). rewrite A'. apply write_added; [exact LD|exact HX|]. exact (OT i Hi).
Qed.
Lemma par_encode_borrows P order pl s cfg src dlen : schedule order -> (forall i, b64_isa (s i)) ->
  (b64_par_sequential P (length src) = true \/ length (b64_rfc cfg src) <= dlen) ->
  borrows_into of_result (b64_par_encode_b P order pl s cfg) (b64_par_encode P order s cfg) src dlen.
Proof.
  intros HO HS FIT. apply borrows_into_ok; [intros; apply par_encode_ann| |intro B; now apply par_encode_good].
  intros B m b o d e S R SEP. destruct (b64_par_sequential P (length src)) eqn:SEQ.
  - unfold b64_par_encode. rewrite SEQ. revert m b o d e S R SEP. change (settles (b64_encode (s 0) cfg) src dlen).
    eapply settles_does, does_enc; [now apply b64_encode_ok|apply b64_encode_short].
  - destruct FIT as [FIT|FIT]; [discriminate FIT|]. destruct (par_encode_ok P order s cfg src HO HS B m b o d e dlen S R SEP FIT) as (m' & E & _ & FR).
    exists (Ok (d, e, length (b64_rfc cfg src))), m'. split; [exact E|]. eapply Frame_weaken; [exact FR|]. lia.
Qed.
