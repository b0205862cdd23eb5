(** uuid-simd under the rules of TreeBorrows.v *)
From Coq Require Import ZArith List Bool Lia ZifyBool ZifyNat.
From Verif Require Import Bytes Mem MemFacts Slices Codec Conc ConcFacts Reify ConcApi ConcApiFacts Isa Simd Spec Ints Hex HexSimdFacts HexFacts HexApi Uuid UuidFacts UuidApi
  Borrows BorrowsApi BorrowsFacts BorrowsBridge BorrowsUuid TreeBorrows TreeFacts TreeCalls TreeBridge.
Import ListNotations.
Open Scope nat_scope. Open Scope m_scope. Open Scope borrow_scope.

Lemma uuid_parse_simple_tgood s n : good_into of_result (fun p n q _ ts td => uuid_parse_simple_b s p n q ts td) n 16.
Proof.
  intros F p q ts td Q st mm N HF HI W LT RI OT H. unfold uuid_parse_simple_b. apply (into_start F p n ts q 16 td); auto. intros u s1 I1 R1 L1. iro.
  destruct (negb _) eqn:EN; [apply (into_fail F st p n q 16 ts td); auto|]. iro.
  eapply into_exec; [apply (rei_uuid_parse_simple_impl s p q); reflexivity|eassumption|eassumption|assumption|eassumption|exact HF|].
  intros [y|] mm' sx Ix _; [|apply (into_fail F st p n q 16 ts td); auto]. apply (into_give_array F st p n q 16 ts td); auto.
Qed.
Lemma uuid_parse_hyphenated_tgood s n : good_into of_result (fun p n q _ ts td => uuid_parse_hyphenated_b s p n q ts td) n 16.
Proof.
  intros F p q ts td Q st mm N HF HI W LT RI OT H. unfold uuid_parse_hyphenated_b. apply (into_start F p n ts q 16 td); auto. intros u s1 I1 R1 L1. iro.
  destruct (negb _) eqn:EN; [apply (into_fail F st p n q 16 ts td); auto|]. iro.
  eapply into_exec; [apply (rei_uuid_parse_hyphenated_impl s p q); reflexivity|eassumption|eassumption|assumption|eassumption|exact HF|].
  intros [y|] mm' sx Ix _; [|apply (into_fail F st p n q 16 ts td); auto]. apply (into_give_array F st p n q 16 ts td); auto.
Qed.
Lemma uuid_format_simple_tgood s case : good_into Some (fun p _ q _ ts td => uuid_format_simple_b s case p q ts td) 16 32.
Proof.
  intros F p q ts td Q st mm N HF HI W LT RI OT H. unfold uuid_format_simple_b. apply (into_start F p 16 ts q 32 td); auto. intros u s1 I1 R1 L1. iro.
  eapply into_exec; [apply (rei_uuid_format_simple_impl s p q case); reflexivity|eassumption|eassumption|assumption|eassumption|exact HF|].
  intros y mm' sx Ix _. apply (into_give_array F st p 16 q 32 ts td); auto.
Qed.
Lemma uuid_format_hyphenated_tgood s case : good_into Some (fun p _ q _ ts td => uuid_format_hyphenated_b s case p q ts td) 16 36.
Proof.
  intros F p q ts td Q st mm N HF HI W LT RI OT H. unfold uuid_format_hyphenated_b. apply (into_start F p 16 ts q 36 td); auto. intros u s1 I1 R1 L1. iro.
  eapply into_exec; [apply (rei_uuid_format_hyphenated_impl s p q case); reflexivity|eassumption|eassumption|assumption|eassumption|exact HF|].
  intros y mm' sx Ix _. apply (into_give_array F st p 16 q 36 ts td); auto.
Qed.

(** *** [parse]: the pointer to 36 of the bytes *)
Lemma cells_sub p n j l : j + l <= n -> forall b o, cells_of (fst p, snd p + j) l b o -> cells_of p n b o.
Proof. intros L b o H. apply in_range_iff in H as [-> H]. cbn [fst snd] in *. apply in_range_iff. lia. Qed.
Lemma can_read_sub s p n t j l : can_read s p n t -> j + l <= n -> can_read s (fst p, snd p + j) l t.
Proof. intros [L R] H. split; [exact L|]. apply (readable_sub s p n); [now apply cells_sub|exact R]. Qed.
(** a function with a parameter [&[u8]] that only reads *)
Lemma good_ro_call {A} (F : nat -> nat -> Prop) (body : nat -> bcode A) p n t (Q : A -> trees -> mem -> Prop) s mm : tree_ok s -> can_read s p n t ->
  (forall u s1, tree_ok s1 -> can_read s1 p n u ->
     tgood F (body u) (fun a s2 mm' => tree_ok s2 /\ ro_step p n u s1 s2 /\ (forall s3, tree_ok s3 -> ro_step p n t s s3 ->
        (forall q k v, v < tfresh s2 -> readable s2 q k v -> can_read s3 q k v) -> Q a s3 mm')) s1 mm) ->
  tgood F (fn (bbind (shared_param p n t) body)) Q s mm.
Proof.
  intros OK [L R] HB. apply good_fn, tgood_bind. unfold shared_param. apply good_retag; [auto|exact OK|exact L|exact R|]. intros s1 C1.
  assert (S1 := child_some _ _ _ _ _ _ _ C1). assert (R1 := child_readable _ _ _ _ _ _ _ (ok_enter _ OK) L (readable_enter _ _ _ _ R) C1).
  destruct C1 as (OK1 & F1 & E1 & P1 & K1 & EL1 & A1). change (tfresh (enter s)) with (tfresh s) in *. change (path (enter s) t) with (path s t) in *.
  change (calls (enter s)) with ([] :: calls s) in K1. cbv iota in K1.
  eapply tgood_imp; [|apply (HB (tfresh s) s1 OK1); split; [lia|exact R1]]. intros a s2 mm' (OK2 & S2' & H). assert (S2 := S2'). destruct S2 as (E2 & K2 & EL2 & A2). rewrite K1 in K2.
  assert (SC : In (tfresh s) (path s1 (tfresh s))) by (rewrite P1; now left).
  assert (RC : readable s2 p n (tfresh s)) by (apply (readable_ro p n (tfresh s) s1); [exact OK1|exact S2'|lia|exact R1]).
  destruct (leave_ro s2 (tfresh s) p n (calls s) OK2 K2 RC) as (s3 & EL & OK3 & P3 & F3 & K3 & EL3 & A3).
  { intros b o Hb. destruct (A2 b o Hb) as [A2' _]. rewrite A2' by exact SC. destruct (A1 b o Hb) as [_ ->]. discriminate. }
  unfold final. rewrite EL.
  assert (S3 : ro_some p n (tfresh s) s2 s3) by (split; [split; [lia|intros; now rewrite P3]|]; split; [exact EL3|exact A3]).
  assert (G3 : incl (guarded s3) (guarded s2)) by (apply (guarded_leave _ _ [(tfresh s, p, n)]); now rewrite K2, K3).
  apply H; [exact OK3| |].
  - apply some_step; [|exact K3]. apply (some_trans p n t (tfresh s) s s1 s3 S1).
    + apply (some_trans p n (tfresh s) (tfresh s) s1 s2 s3); [exact (step_some _ _ _ _ _ S2')|exact S3|]. rewrite (proj2 E2) by lia. apply incl_refl.
    + rewrite P1. apply incl_tl, incl_refl.
  - intros q k v Lv Rv. split; [lia|]. exact (readable_some _ _ _ _ _ _ _ _ OK2 S3 G3 Lv Rv).
Qed.
Lemma into_exec_part {A X} (F : nat -> nat -> Prop) s0 p n q k ts td v p' n' (c : M X) (R : X -> Prop) (body : X -> bcode A) Q s mm y0 m0 :
  reified True (eq (fst q)) R c -> src_inv s0 p n q k ts td s -> can_read s p' n' v -> fst p' = fst p -> (forall b o, cells_of p' n' b o -> cells_of p n b o) -> fst p <> fst q ->
  td < tfresh s0 /\ apart p n q k ->
  c (only p' n' mm) = Ret y0 m0 -> (forall b o, init m0 b o -> cells_of p' n' b o \/ cells_of q k b o) ->
  (forall y mm' s', src_inv s0 p n q k ts td s' -> c mm = Ret y mm' -> tgood F (body y) Q s' mm') -> tgood F (bbind (exec (via2 (fst p) v (fst q) td) c) body) Q s mm.
Proof.
  intros [pr FO HS] I RV EP SP N [LD AP] E HI H. apply tgood_bind. unfold exec. cbn [tgood]. exists (eq (fst q)), pr. split; [exact FO|]. split.
  { apply (si_mono (eq (fst q)) R any); [now apply HS|]. intros a _. exact Logic.I. }
  intros y mm' E1. exists (fun s' => src_inv s0 p n q k ts td s' /\ can_read s' p' n' v). split; [now split|]. split; [|intros s' [I' _]; now apply H]. intros _.
  assert (E' := E). rewrite <- (follows_imp _ _ FO) in E'. destruct (run_less pr _ _ _ _ (only_less p' n' mm) E') as (m1 & E2 & _).
  rewrite (follows_imp _ _ FO) in E2. rewrite E1 in E2. injection E2 as <- <-.
  exists (only p' n' mm), m0. split; [apply only_less|]. split; [exact E|]. apply serves_of.
  - intros s1 s2 S OK2 [I1 [L1 R1]]. split; [exact (src_same _ _ _ _ _ _ _ _ _ I1 S OK2)|]. destruct S as (A1 & B1 & C1 & D1). split; [lia|].
    intros b o Hb. unfold guarded. rewrite A1, B1, D1. now apply R1.
  - intros s1 [I1 _]. apply I1.
  - intros s1 r j [I1 [L1 R1]] Hj HD. assert (I1' := I1). destruct I1 as (OK1 & Lf & E3 & _ & _ & _ & _ & _ & _ & W1).
    destruct (either_block p' n' q k (init m0) r j ltac:(congruence) Hj HI HD) as [[EB SUB]|[EB SUB]]; rewrite EB.
    + exists v. rewrite EP, via2_src. split; [reflexivity|]. split; [split; [exact L1|exact (readable_sub _ _ _ _ _ _ SUB R1)]|]. intros s2 OK2 S2.
      apply (ro_widen p' n' r j) in S2; [|exact SUB]. assert (S3 := ro_widen p n p' n' _ _ _ SP S2). split; [exact (src_ro' _ _ _ _ _ _ _ _ _ _ AP LD I1' OK2 S3)|].
      split; [destruct S2 as ((A1 & _) & _); lia|]. now apply (readable_ro p' n' v s1).
    + exists td. rewrite via2_dst by exact N. split; [reflexivity|]. assert (LT : td < tfresh s1) by lia.
      split; [split; [exact LT|exact (readable_sub _ _ _ _ _ _ SUB (writes_readable _ _ _ _ W1))]|]. intros s2 OK2 S2.
      apply (ro_widen q k r j) in S2; [|exact SUB]. split; [exact (src_read_dst _ _ _ _ _ _ _ _ _ AP LD I1' OK2 S2)|].
      split; [destruct S2 as ((A1 & _) & _); lia|]. now apply (readable_ro q k td s1).
  - intros s1 r j [I1 [L1 R1]] Hj HP HD. assert (I1' := I1). destruct I1 as (OK1 & Lf & E3 & _ & _ & _ & _ & _ & _ & W1).
    destruct (either_block p' n' q k (init m0) r j ltac:(congruence) Hj HI HD) as [[EB SUB]|[EB SUB]]; [congruence|]. rewrite EB.
    exists td. rewrite via2_dst by exact N. split; [reflexivity|]. split; [lia|]. split; [exact (writes_sub _ _ _ _ _ _ SUB W1)|]. intros s2 OK2 S2.
    split; [exact (src_write _ _ _ _ _ _ _ _ _ _ _ AP N SUB I1' OK2 S2)|]. destruct S2 as (F2 & P2 & K2 & EL2 & _). split; [lia|]. intros b o Hb. unfold guarded.
    rewrite P2, K2, EL2; [now apply R1|]. destruct (in_range (fst r) (snd r) j b o) eqn:ER; [|reflexivity]. destruct (AP b o (SP b o Hb) (SUB b o ER)).
Qed.
Lemma uuid_parse_tgood s1 s2 src : hyph_isa s2 -> good_into_on of_result (fun p n q _ ts td => uuid_parse_b s1 s2 p n q ts td) src 16.
Proof.
  intros HS2 F p q ts td Q st mm N S RM HF HI W LT RI OT H. set (n := length src) in *. unfold uuid_parse_b. apply (into_start F p n ts q 16 td); auto. intros u s1' I1 R1 L1. iro.
  destruct (Nat.eqb_spec n 32).
  { iro. eapply into_exec; [apply (rei_uuid_parse_simple_impl s1 p q); reflexivity|eassumption|eassumption|assumption|eassumption|exact HF|].
    intros [y|] mm' sx Ix _; [|apply (into_fail F st p n q 16 ts td); auto]. apply (into_give_array F st p n q 16 ts td); auto. }
  apply tgood_bind.
  set (J := fun (a : result ptr * nat) (s' : trees) (mm' : mem) => mm' = mm /\ src_inv st p n q 16 ts td s' /\
    match fst a with Err => True | Ok p' => exists j, p' = (fst p, snd p + j) /\ j + 36 <= n /\ can_read s' p' 36 (snd a) end).
  apply (tgood_imp F _ J).
  { intros [[p'|] v'] s2' mm2 (-> & I2 & HJ); cbn [fst snd] in *; [|apply (into_fail F st p n q 16 ts td); auto].
    destruct HJ as (j & -> & LJ & RV).
    assert (SP : slice mm (fst p) (snd p + j) (firstn 36 (skipn j src))).
    { destruct S as [B S]. split; [now apply bytes_firstn, bytes_skipn|]. apply bytes_at_firstn, bytes_at_skipn; [fold n; lia|exact S]. }
    assert (LP : length (firstn 36 (skipn j src)) = 36) by (rewrite firstn_length, skipn_length; fold n; lia).
    destruct (hyphenated_settles s2 (only (fst p, snd p + j) 36 mm) (fst p) (snd p + j) (firstn 36 (skipn j src)) (fst q) (snd q)) as (y0 & m0 & E0 & FR); auto.
    { rewrite <- LP at 1. now apply only_slice. } { now apply only_room. } { now left. }
    rewrite <- surjective_pairing in E0.
    eapply into_exec_part with (p' := (fst p, snd p + j)) (n' := 36); [apply (rei_uuid_parse_hyphenated_impl s2 _ q); reflexivity|eassumption|exact RV|reflexivity|now apply cells_sub|assumption|eassumption|exact E0| |].
    - intros b o Hi. destruct (frame_init _ _ _ _ _ _ _ FR Hi) as [Hi'|Hi']; [left; exact (only_init _ _ _ _ _ Hi')|right; exact Hi'].
    - intros [y|] mm' sx Ix _; [|apply (into_fail F st p n q 16 ts td); auto]. apply (into_give_array F st p n q 16 ts td); auto. }
  destruct (Nat.eqb_spec n 36).
  { iro. cbn [tgood]. split; [reflexivity|]. split; [assumption|]. exists 0. cbn [fst snd]. rewrite Nat.add_0_r, <- surjective_pairing. split; [reflexivity|].
    split; [lia|]. rewrite e in *. assumption. }
  assert (FA : forall sx, src_inv st p n q 16 ts td sx -> tgood F fails J sx mm). { intros sx I'. cbn [tgood fails]. split; [reflexivity|]. now split. }
  destruct (Nat.eqb_spec n 38).
  { iro. eapply into_read; [apply (rei_read p 0)|eassumption|eassumption|exact HI|exact LT|]. intros a sa Ia Ka _. destruct (negb (a =? 123)%Z); [now apply FA|].
    eapply into_read; [apply (rei_read p 37)|eassumption|apply Ka; eassumption|exact HI|exact LT|]. intros b sb Ib Kb _. destruct (negb (b =? 125)%Z); [now apply FA|].
    eapply into_read; [apply (rei_padd p 1)|eassumption|apply Kb, Ka; eassumption|exact HI|exact LT|]. intros p' sc Ic Kc EP. apply padd_some in EP as ->. cbn [tgood]. split; [reflexivity|].
    split; [assumption|]. exists 1. cbn [fst snd]. split; [reflexivity|]. split; [lia|]. apply (can_read_sub _ _ n); [apply Kc, Kb, Ka; assumption|lia]. }
  destruct (Nat.eqb_spec n 45); [|now apply FA].
  match goal with I : src_inv _ _ _ _ _ _ _ ?s |- tgood _ _ _ ?s _ => rename I into I3; rename s into s3 end.
  assert (STEP : forall t sa sb, src_inv st p n q 16 ts td sa -> tree_ok sb -> ro_step p n t sa sb -> src_inv st p n q 16 ts td sb).
  { intros t sa sb Ia Ob Sb. destruct LT as [LD AP]. exact (src_ro' _ _ _ _ _ _ _ _ _ _ AP LD Ia Ob Sb). }
  apply tgood_bind. apply good_ro_call; [apply I3|assumption|]. intros u2 s4 W4 R4.
  apply tgood_bind. apply (good_exec_ro F p n u2 _ _ _ s4 mm (rei_load p 9)); [exact HI|exact W4|exact R4|].
  intros h s5 _ W5 ST5 R5. destruct (list_eqb h URN_PREFIX).
  - apply tgood_bind. apply (good_exec_ro F p n u2 _ _ _ s5 mm (rei_padd p 9)); [exact HI|exact W5|exact R5|].
    intros p' s6 EP W6 ST6 R6. apply padd_some in EP as ->. apply tgood_bind. apply ro_reborrow; [exact W6|apply (can_read_sub _ _ n); [exact R6|lia]|].
    intros u3 s7 W7 ST7 R7 _. apply (ro_widen p n) in ST7; [|apply cells_sub; lia]. cbn [tgood]. split; [exact W7|].
    assert (PE : forall sa sb, ro_step p n u2 sa sb -> u2 < tfresh sa -> incl (path sa u2) (path sb u2)) by (intros sa sb (EX & _) Lx; rewrite (proj2 EX) by exact Lx; apply incl_refl).
    assert (ST57 : ro_step p n u2 s4 s7).
    { apply (ro_trans p n u2 u2 s4 s6 s7); [|exact ST7|].
      - apply (ro_trans p n u2 u2 s4 s5 s6); auto. apply PE; [exact ST5|apply R4].
      - apply PE; [|apply R4]. apply (ro_trans p n u2 u2 s4 s5 s6); auto. apply PE; [exact ST5|apply R4]. }
    split; [exact ST57|]. intros s8 W8 ST8 K8. cbn [fst snd]. destruct R7 as [L7 R7]. assert (R8 := K8 _ _ _ L7 R7).
    apply tgood_bind. apply ro_as_ptr; [exact W8|exact R8|]. intros u4 s9 W9 ST9 R9 _. apply (ro_widen p n) in ST9; [|apply cells_sub; lia]. cbn [tgood]. split; [reflexivity|]. split.
    + apply (STEP u3 s8); auto. apply (STEP u s3); auto.
    + exists 9. cbn [fst snd]. split; [reflexivity|]. split; [lia|exact R9].
  - cbn [tgood fails]. split; [exact W5|]. split; [exact ST5|]. intros s6 W6 ST6 _. cbn [fst snd]. apply FA. apply (STEP u s3); auto.
Qed.

Lemma uuid_parse_simple_trees s src :
  tree_into of_result (fun p n q _ ts td => uuid_parse_simple_b s p n q ts td) (fun p n q _ => uuid_parse_simple s p n q) src 16.
Proof.
  apply tree_into_of; [intros; apply uuid_parse_simple_ann| |apply uuid_parse_simple_tgood]. intros _.
  exact (settles_does _ _ _ _ (does_array _ _ _ _ (parse_simple_decodes s src))).
Qed.
Lemma uuid_parse_hyphenated_trees s src : hyph_isa s ->
  tree_into of_result (fun p n q _ ts td => uuid_parse_hyphenated_b s p n q ts td) (fun p n q _ => uuid_parse_hyphenated s p n q) src 16.
Proof.
  intro Hs. apply tree_into_of; [intros; apply uuid_parse_hyphenated_ann| |apply uuid_parse_hyphenated_tgood]. intros _.
  exact (settles_does _ _ _ _ (does_array _ _ _ _ (parse_hyphenated_decodes s src Hs))).
Qed.
Lemma uuid_parse_trees s1 s2 src : hyph_isa s2 ->
  tree_into of_result (fun p n q _ ts td => uuid_parse_b s1 s2 p n q ts td) (fun p n q _ => uuid_parse s1 s2 p n q) src 16.
Proof.
  intro Hs. apply tree_into_on; [intros; apply uuid_parse_ann| |now apply uuid_parse_tgood]. intros _.
  exact (settles_does _ _ _ _ (does_array _ _ _ _ (uuid_parse_decodes s1 s2 src Hs))).
Qed.
Lemma uuid_format_simple_trees s case src : length src = 16 ->
  tree_into Some (fun p _ q _ ts td => uuid_format_simple_b s case p q ts td) (fun p _ q _ => uuid_format_simple s p q case) src 32.
Proof.
  intro L. apply tree_into_of; [intros; apply uuid_format_simple_ann| |rewrite L; apply uuid_format_simple_tgood]. intros _.
  replace 32 with (length (uuid_simple (lut_of case) src)) by (unfold uuid_simple; rewrite hex_encode_len; lia).
  apply settles_format. exact (format_simple_encodes s case src L).
Qed.
Lemma uuid_format_hyphenated_trees s case src : hyph_isa s -> length src = 16 ->
  tree_into Some (fun p _ q _ ts td => uuid_format_hyphenated_b s case p q ts td) (fun p _ q _ => uuid_format_hyphenated s p q case) src 36.
Proof.
  intros Hs L. apply tree_into_of; [intros; apply uuid_format_hyphenated_ann| |rewrite L; apply uuid_format_hyphenated_tgood]. intros _.
  replace 36 with (length (uuid_hyphenated (lut_of case) src)) by (apply hyphenate_len; rewrite hex_encode_len; lia).
  apply settles_format. exact (format_hyphenated_encodes s case src Hs L).
Qed.
