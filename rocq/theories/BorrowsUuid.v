(** The borrows of uuid-simd *)
From Coq Require Import ZArith List Bool Lia ZifyBool ZifyNat.
From Verif Require Import Bytes Mem MemFacts Slices Codec Conc ConcFacts Reify ConcApi ConcApiFacts Isa Simd Spec Ints Hex HexSimdFacts HexFacts HexApi Uuid UuidFacts UuidApi
  Borrows BorrowsApi BorrowsFacts BorrowsLib BorrowsCalls BorrowsBridge.
Import ListNotations.
Open Scope nat_scope. Open Scope m_scope. Open Scope borrow_scope.

(** ** Annotations *)
Lemma uuid_parse_simple_ann s p n q ts td : annotates fst (uuid_parse_simple_b s p n q ts td) (uuid_parse_simple s p n q).
Proof.
  unfold uuid_parse_simple_b, uuid_parse_simple. ann. destruct (negb _); [ann|]. ann. eexists. split; [intro; reflexivity|]. intros [y|]; ann.
Qed.
Lemma uuid_parse_hyphenated_ann s p n q ts td : annotates fst (uuid_parse_hyphenated_b s p n q ts td) (uuid_parse_hyphenated s p n q).
Proof.
  unfold uuid_parse_hyphenated_b, uuid_parse_hyphenated. ann. destruct (negb _); [ann|]. ann. eexists. split; [intro; reflexivity|]. intros [y|]; ann.
Qed.
Lemma uuid_format_simple_ann s case p q ts td : annotates fst (uuid_format_simple_b s case p q ts td) (uuid_format_simple s p q case).
Proof. unfold uuid_format_simple_b, uuid_format_simple. ann. eexists. split; [intro; reflexivity|]. intros y. ann. Qed.
Lemma uuid_format_hyphenated_ann s case p q ts td : annotates fst (uuid_format_hyphenated_b s case p q ts td) (uuid_format_hyphenated s p q case).
Proof. unfold uuid_format_hyphenated_b, uuid_format_hyphenated. ann. eexists. split; [intro; reflexivity|]. intros y. ann. Qed.
Ltac annf := cbn [bbind fst snd]; ann.
Lemma bind_assoc_eq {A B C} (c : M A) (f : A -> M B) (g : B -> M C) m : bind (bind c f) g m = bind c (fun a => bind (f a) g) m.
Proof. unfold bind. now destruct (c m). Qed.
Lemma uuid_parse_ann s1 s2 p n q ts td : annotates fst (uuid_parse_b s1 s2 p n q ts td) (uuid_parse s1 s2 p n q).
Proof.
  unfold uuid_parse_b, uuid_parse. annf. destruct (n =? 32).
  { annf. eexists. split; [intro; reflexivity|]. intros [y|]; annf. }
  unfold try_. destruct (n =? 36).
  { annf. eexists. split; [intro; reflexivity|]. intros [y|]; annf. }
  destruct (n =? 38).
  { annf. eexists. split; [intro; apply bind_assoc_eq|]. intro a. cbv beta. destruct (negb (a =? 123)%Z); [annf|]. annf.
    eexists. split; [intro; apply bind_assoc_eq|]. intro b. cbv beta. destruct (negb (b =? 125)%Z); [annf|]. annf.
    eexists. split; [intro; apply bind_assoc_eq|]. intro p'. annf. eexists. split; [intro; reflexivity|]. intros [y|]; annf. }
  destruct (n =? 45); [|annf].
  annf. eexists. split; [intro; apply bind_assoc_eq|]. intro h. cbv beta. destruct (list_eqb h URN_PREFIX); [|annf]. annf.
  eexists. split; [intro; apply bind_assoc_eq|]. intro p'. annf. eexists. split; [intro; reflexivity|]. intros [y|]; annf.
Qed.

(** ** Steps *)
Lemma uuid_parse_simple_good s n : good_into of_result (fun p n q _ ts td => uuid_parse_simple_b s p n q ts td) n 16.
Proof.
  intros F p q ts td Q st mm N HF HI W LT RI OT H. unfold uuid_parse_simple_b. apply into_start; auto. intros u s1 I1 R1 L1. iro.
  destruct (negb _) eqn:EN; [apply (into_fail F st p n q 16 ts); auto|]. iro.
  eapply into_exec; [apply (rei_uuid_parse_simple_impl s p q); reflexivity|eassumption|eassumption|assumption|eassumption|exact HF|].
  intros [y|] mm' _; [|apply (into_fail F st p n q 16 ts); auto]. apply (into_give_array F st p n q 16 ts td); auto.
Qed.
Lemma uuid_parse_hyphenated_good s n : good_into of_result (fun p n q _ ts td => uuid_parse_hyphenated_b s p n q ts td) n 16.
Proof.
  intros F p q ts td Q st mm N HF HI W LT RI OT H. unfold uuid_parse_hyphenated_b. apply into_start; auto. intros u s1 I1 R1 L1. iro.
  destruct (negb _) eqn:EN; [apply (into_fail F st p n q 16 ts); auto|]. iro.
  eapply into_exec; [apply (rei_uuid_parse_hyphenated_impl s p q); reflexivity|eassumption|eassumption|assumption|eassumption|exact HF|].
  intros [y|] mm' _; [|apply (into_fail F st p n q 16 ts); auto]. apply (into_give_array F st p n q 16 ts td); auto.
Qed.
Lemma uuid_format_simple_good s case : good_into Some (fun p _ q _ ts td => uuid_format_simple_b s case p q ts td) 16 32.
Proof.
  intros F p q ts td Q st mm N HF HI W LT RI OT H. unfold uuid_format_simple_b. apply into_start; auto. intros u s1 I1 R1 L1. iro.
  eapply into_exec; [apply (rei_uuid_format_simple_impl s p q case); reflexivity|eassumption|eassumption|assumption|eassumption|exact HF|].
  intros y mm' _. apply (into_give_array F st p 16 q 32 ts td); auto.
Qed.
Lemma uuid_format_hyphenated_good s case : good_into Some (fun p _ q _ ts td => uuid_format_hyphenated_b s case p q ts td) 16 36.
Proof.
  intros F p q ts td Q st mm N HF HI W LT RI OT H. unfold uuid_format_hyphenated_b. apply into_start; auto. intros u s1 I1 R1 L1. iro.
  eapply into_exec; [apply (rei_uuid_format_hyphenated_impl s p q case); reflexivity|eassumption|eassumption|assumption|eassumption|exact HF|].
  intros y mm' _. apply (into_give_array F st p 16 q 36 ts td); auto.
Qed.

(** *** [parse]: the pointer to 36 of the bytes *)
Lemma ro_sub p n j l s s' : ro_step (fst p, snd p + j) l s s' -> j + l <= n -> ro_step p n s s'.
Proof.
  intros (L & A & E & C) LE. split; [exact L|]. split; [exact A|]. split.
  - intros b o H. apply E. revert H. unfold in_range. cbn [fst snd]. lia.
  - intros i Hi. destruct (Nat.ltb_spec i j).
    { exists []. split; [|constructor]. apply E. unfold in_range. cbn [fst snd]. lia. }
    destruct (Nat.ltb_spec i (j + l)).
    { destruct (C (i - j) ltac:(lia)) as (X & EX & HX). cbn [fst snd] in EX. replace (snd p + j + (i - j)) with (snd p + i) in EX by lia. eauto. }
    exists []. split; [|constructor]. apply E. unfold in_range. cbn [fst snd]. lia.
Qed.
Lemma readable_sub s p n t j l : readable s p n t -> j + l <= n -> readable s (fst p, snd p + j) l t.
Proof. intros R L i Hi. cbn [fst snd]. rewrite <- Nat.add_assoc. apply R. lia. Qed.
(** a function with a parameter [&[u8]] that only reads *)
Lemma good_ro_call {A} (F : nat -> nat -> Prop) (body : nat -> bcode A) p n t (Q : A -> borrows -> mem -> Prop) s mm : wf s -> t < fresh s -> readable s p n t ->
  (forall u s1, wf s1 -> readable s1 p n u -> u < fresh s1 ->
     good F (body u) (fun a s2 mm' => wf s2 /\ ro_step p n s1 s2 /\ (wf (leave s2) -> ro_step p n s (leave s2) -> Q a (leave s2) mm')) s1 mm) ->
  good F (fn (bbind (shared_param p n t) body)) Q s mm.
Proof.
  intros W L R HB. apply good_fn, good_bind. unfold shared_param. apply good_shared; [auto|exact R|].
  intros s1 EF EA EE EC. cbn [fresh active enter hd_error] in *. assert (W1 : wf s1).
  { intros c Hc. rewrite EA in Hc. destruct Hc as [<-|Hc]; [lia|]. apply W in Hc. lia. }
  eapply good_imp; [|apply (HB (S (fresh s)) s1 W1); [|lia]].
  - intros a s2 mm' (W2 & (F2 & A2 & E2 & C2) & H). split; [rewrite A2, EA; discriminate|]. apply H.
    + apply (wf_leave s s2 (fresh s)); [exact W|lia|now rewrite A2].
    + split; [cbn; lia|]. split; [cbn; rewrite A2, EA; reflexivity|]. split.
      * intros b o Hr. cbn. rewrite E2, EE by exact Hr. reflexivity.
      * intros i Hi. cbn. destruct (C2 i Hi) as (X & -> & HX). rewrite EC by exact Hi. eexists (X ++ [_]). rewrite <- app_assoc. split; [reflexivity|].
        apply Forall_app. split; [|constructor; [|constructor]].
        -- apply Forall_forall. intros x Hx. destruct (proj1 (Forall_forall _ _) HX x Hx) as (P1 & P2 & P3). split; [exact P1|]. split; [lia|].
           rewrite EA in P3. exact (unprotected_less _ _ _ P3).
        -- split; [reflexivity|]. split; [cbn; lia|]. apply (unprotected_call s _ (fresh s)); [exact W|lia|reflexivity].
  - intros i Hi. rewrite EC by exact Hi. apply reads_top.
Qed.
Lemma into_exec_part {A X} (F : nat -> nat -> Prop) s0 p n q k ts td v p' n' (c : M X) (R : X -> Prop) (body : X -> bcode A) Q s mm y0 m0 :
  reified True (eq (fst q)) R c -> src_inv s0 p n ts s -> readable s p' n' v -> fst p' = fst p -> fst p <> fst q -> on_top s0 q k td ->
  c (only p' n' mm) = Ret y0 m0 -> (forall b o, init m0 b o -> cells_of p' n' b o \/ cells_of q k b o) ->
  (forall y mm', c mm = Ret y mm' -> good F (body y) Q s mm') -> good F (bbind (exec (via2 (fst p) v (fst q) td) c) body) Q s mm.
Proof.
  intros [pr FO HS] I RV EP N T E HI H. apply good_bind. unfold exec. cbn [good]. exists (eq (fst q)), pr. split; [exact FO|]. split.
  { apply (si_mono (eq (fst q)) R any); [now apply HS|]. intros a _. exact Logic.I. }
  intros y mm' E1. split; [|now apply H]. intros _.
  assert (E' := E). rewrite <- (follows_imp _ _ FO) in E'. destruct (run_less pr _ _ _ _ (only_less p' n' mm) E') as (m1 & E2 & _).
  rewrite (follows_imp _ _ FO) in E2. rewrite E1 in E2. injection E2 as <- <-.
  exists (only p' n' mm), m0. split; [apply only_less|]. split; [exact E|]. intros b o Hb. destruct (HI b o Hb) as [C|C].
  - apply in_range_iff in C as [-> C]. exists v. rewrite EP, via2_src. split; [reflexivity|]. split; [|congruence].
    rewrite <- EP. replace o with (snd p' + (o - snd p')) by lia. apply RV. lia.
  - apply in_range_iff in C as [-> C]. exists td. rewrite via2_dst by exact N. split; [reflexivity|].
    assert (W : wtop td (stacks s (fst q) o)).
    { rewrite (src_dst _ _ _ _ _ _ _ I N). replace o with (snd q + (o - snd q)) by lia. apply T. lia. }
    split; [now apply wtop_reads|auto].
Qed.
Lemma hyphenated_settles s m b o src d e : hyph_isa s -> length src = 36 -> slice m b o src -> room m d e 16 -> separate b o 36 d e 16 ->
  exists y m', parse_hyphenated_impl s (b, o) (d, e) m = Ret y m' /\ only_changed m d e 16 m'.
Proof.
  intros Hs L S R SEP. rewrite <- L in SEP. destruct (parse_hyphenated_decodes s src Hs m b o d e 16 S R SEP (le_n _)) as (r & m' & E & D).
  assert (FR := proj1 D). clear D. unfold parse_hyphenated_codec, uuid_parse_hyphenated in E. rewrite L in E. cbn [Nat.eqb negb] in E.
  unfold try_, bind in E. destruct (parse_hyphenated_impl s (b, o) (d, e) m) as [y m1| | |]; try discriminate E. exists y, m1. split; [reflexivity|].
  destruct y; unfold ret in E; injection E as _ <-; exact FR.
Qed.
Lemma padd_some p k m q m' : padd p k m = Ret q m' -> q = (fst p, snd p + k).
Proof. unfold padd. destruct (_ <=? _); [|discriminate]. intro E. now injection E as <- _. Qed.

Lemma uuid_parse_good s1 s2 src : hyph_isa s2 -> good_into_on of_result (fun p n q _ ts td => uuid_parse_b s1 s2 p n q ts td) src 16.
Proof.
  intros HS2 F p q ts td Q st mm N S RM HF HI W LT RI OT H. set (n := length src) in *. unfold uuid_parse_b. apply into_start; auto. intros u s1' I1 R1 L1. iro.
  destruct (Nat.eqb_spec n 32).
  { iro. eapply into_exec; [apply (rei_uuid_parse_simple_impl s1 p q); reflexivity|eassumption|eassumption|assumption|eassumption|exact HF|].
    intros [y|] mm' _; [|apply (into_fail F st p n q 16 ts); auto]. apply (into_give_array F st p n q 16 ts td); auto. }
  apply good_bind.
  set (J := fun (a : result ptr * nat) (s' : borrows) (mm' : mem) => mm' = mm /\ src_inv st p n ts s' /\
    match fst a with Err => True | Ok p' => exists j, p' = (fst p, snd p + j) /\ j + 36 <= n /\ readable s' p' 36 (snd a) end).
  apply (good_imp F _ J).
  { intros [[p'|] v'] s2' mm2 (-> & I2 & HJ); cbn [fst snd] in *; [|apply (into_fail F st p n q 16 ts); auto].
    destruct HJ as (j & -> & LJ & RV).
    assert (SP : slice mm (fst p) (snd p + j) (firstn 36 (skipn j src))).
    { destruct S as [B S]. split; [now apply bytes_firstn, bytes_skipn|]. apply bytes_at_firstn, bytes_at_skipn; [fold n; lia|exact S]. }
    assert (LP : length (firstn 36 (skipn j src)) = 36) by (rewrite firstn_length, skipn_length; fold n; lia).
    destruct (hyphenated_settles s2 (only (fst p, snd p + j) 36 mm) (fst p) (snd p + j) (firstn 36 (skipn j src)) (fst q) (snd q)) as (y0 & m0 & E0 & FR); auto.
    { rewrite <- LP at 1. now apply only_slice. } { now apply only_room. } { now left. }
    rewrite <- surjective_pairing in E0.
    eapply into_exec_part with (p' := (fst p, snd p + j)) (n' := 36); [apply (rei_uuid_parse_hyphenated_impl s2 _ q); reflexivity|eassumption|exact RV|reflexivity|assumption|eassumption|exact E0| |].
    - intros b o Hi. destruct (frame_init _ _ _ _ _ _ _ FR Hi) as [Hi'|Hi']; [left; exact (only_init _ _ _ _ _ Hi')|right; exact Hi'].
    - intros [y|] mm' _; [|apply (into_fail F st p n q 16 ts); auto]. apply (into_give_array F st p n q 16 ts td); auto. }
  destruct (Nat.eqb_spec n 36).
  { iro. cbn [good]. split; [reflexivity|]. split; [assumption|]. exists 0. cbn [fst snd]. rewrite Nat.add_0_r, <- surjective_pairing. split; [reflexivity|].
    split; [lia|]. rewrite e in *. assumption. }
  assert (FA : forall sx, src_inv st p n ts sx -> good F fails J sx mm). { intros sx I'. cbn [good fails]. split; [reflexivity|]. now split. }
  destruct (Nat.eqb_spec n 38).
  { iro. eapply into_read; [apply (rei_read p 0)|eassumption|eassumption|exact HI|]. intros a _. destruct (negb (a =? 123)%Z); [now apply FA|].
    eapply into_read; [apply (rei_read p 37)|eassumption|eassumption|exact HI|]. intros b _. destruct (negb (b =? 125)%Z); [now apply FA|].
    eapply into_read; [apply (rei_padd p 1)|eassumption|eassumption|exact HI|]. intros p' EP. apply padd_some in EP as ->. cbn [good]. split; [reflexivity|].
    split; [assumption|]. exists 1. cbn [fst snd]. split; [reflexivity|]. split; [lia|]. apply (readable_sub _ _ n); [assumption|lia]. }
  destruct (Nat.eqb_spec n 45); [|now apply FA].
  apply good_bind. apply good_ro_call; [apply H0|assumption|assumption|]. intros u2 s4 W4 R4 L4.
  apply good_bind. apply (good_exec_ro F (cells_of p n) _ _ _ _ s4 mm (rei_load p 9)); [exact HI| |].
  { intros b o C. apply in_range_iff in C as [-> C]. exists u2. unfold via1. rewrite Nat.eqb_refl. split; [reflexivity|].
    replace o with (snd p + (o - snd p)) by lia. apply R4. lia. }
  assert (SAME : ro_step p n s4 s4).
  { split; [lia|]. split; [reflexivity|]. split; [now intros b o _|]. intros i Hi. exists []. split; [reflexivity|constructor]. }
  intros h _. destruct (list_eqb h URN_PREFIX).
  - apply good_bind. apply (good_exec_ro F (cells_of p n) _ _ _ _ s4 mm (rei_padd p 9)); [exact HI| |].
    { intros b o C. apply in_range_iff in C as [-> C]. exists u2. unfold via1. rewrite Nat.eqb_refl. split; [reflexivity|].
      replace o with (snd p + (o - snd p)) by lia. apply R4. lia. }
    intros p' EP. apply padd_some in EP as ->. apply good_bind. apply ro_reborrow; [exact W4|exact L4|apply (readable_sub _ _ n); [exact R4|lia]|].
    intros u3 s5 W5 ST5 L5 R5. cbn [good]. split; [exact W5|]. split; [exact (ro_sub _ n _ _ _ _ ST5 ltac:(lia))|]. intros WL STL. cbn [fst snd].
    apply good_bind. apply ro_as_ptr; [exact WL|exact L5|exact R5|]. intros u4 s6 W6 ST6 L6 R6. cbn [good]. split; [reflexivity|]. split.
    + apply (src_ro _ _ _ _ (leave s5)); auto; [|exact (ro_sub _ n _ _ _ _ ST6 ltac:(lia))]. apply (src_ro _ _ _ _ s'); auto.
    + exists 9. cbn [fst snd]. split; [reflexivity|]. split; [lia|exact R6].
  - cbn [good fails]. split; [exact W4|]. split; [exact SAME|]. intros WL STL. cbn [fst snd]. apply FA. apply (src_ro _ _ _ _ s'); auto.
Qed.

(** ** The functions *)
Lemma uuid_parse_simple_borrows s src :
  borrows_into of_result (fun p n q _ ts td => uuid_parse_simple_b s p n q ts td) (fun p n q _ => uuid_parse_simple s p n q) src 16.
Proof.
  apply borrows_into_of; [intros; apply uuid_parse_simple_ann| |apply uuid_parse_simple_good]. intros _.
  exact (settles_does _ _ _ _ (does_array _ _ _ _ (parse_simple_decodes s src))).
Qed.
Lemma uuid_parse_hyphenated_borrows s src : hyph_isa s ->
  borrows_into of_result (fun p n q _ ts td => uuid_parse_hyphenated_b s p n q ts td) (fun p n q _ => uuid_parse_hyphenated s p n q) src 16.
Proof.
  intro Hs. apply borrows_into_of; [intros; apply uuid_parse_hyphenated_ann| |apply uuid_parse_hyphenated_good]. intros _.
  exact (settles_does _ _ _ _ (does_array _ _ _ _ (parse_hyphenated_decodes s src Hs))).
Qed.
Lemma uuid_parse_borrows s1 s2 src : hyph_isa s2 ->
  borrows_into of_result (fun p n q _ ts td => uuid_parse_b s1 s2 p n q ts td) (fun p n q _ => uuid_parse s1 s2 p n q) src 16.
Proof.
  intro Hs. apply borrows_into_on; [intros; apply uuid_parse_ann| |now apply uuid_parse_good]. intros _.
  exact (settles_does _ _ _ _ (does_array _ _ _ _ (uuid_parse_decodes s1 s2 src Hs))).
Qed.
Lemma settles_format (f : ptr -> ptr -> M (ptr * nat)) src t : encodes (fun p _ q _ => r <- f p q ;; ret (Ok r)) src t ->
  settles (fun p _ q _ => f p q) src (length t).
Proof.
  intros H m b o d e S R SEP. destruct (H m b o d e _ S R SEP (le_n _)) as (m' & E & _ & FR). unfold bind in E.
  destruct (f (b, o) (d, e) m) as [r m1| | |] eqn:EF; try discriminate E. exists r, m1. split; [reflexivity|]. unfold ret in E. injection E as _ <-. exact FR.
Qed.
Lemma uuid_format_simple_borrows s case src : length src = 16 ->
  borrows_into Some (fun p _ q _ ts td => uuid_format_simple_b s case p q ts td) (fun p _ q _ => uuid_format_simple s p q case) src 32.
Proof.
  intro L. apply borrows_into_of; [intros; apply uuid_format_simple_ann| |rewrite L; apply uuid_format_simple_good]. intros _.
  replace 32 with (length (uuid_simple (lut_of case) src)) by (unfold uuid_simple; rewrite hex_encode_len; lia).
  apply settles_format. exact (format_simple_encodes s case src L).
Qed.
Lemma uuid_format_hyphenated_borrows s case src : hyph_isa s -> length src = 16 ->
  borrows_into Some (fun p _ q _ ts td => uuid_format_hyphenated_b s case p q ts td) (fun p _ q _ => uuid_format_hyphenated s p q case) src 36.
Proof.
  intros Hs L. apply borrows_into_of; [intros; apply uuid_format_hyphenated_ann| |rewrite L; apply uuid_format_hyphenated_good]. intros _.
  replace 36 with (length (uuid_hyphenated (lut_of case) src)) by (apply hyphenate_len; rewrite hex_encode_len; lia).
  apply settles_format. exact (format_hyphenated_encodes s case src Hs L).
Qed.
