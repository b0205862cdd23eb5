(** The borrows of forgiving decoding in base64-simd *)
From Coq Require Import ZArith List Bool Lia ZifyBool ZifyNat.
From Verif Require Import Bytes Mem MemFacts Slices Codec Conc ConcFacts Reify ConcApi ConcApiFacts Isa Simd Spec Ints Base64 Base64Ref Base64Api Forgiving ForgivingFacts
  Borrows BorrowsApi BorrowsFacts BorrowsLib BorrowsCalls BorrowsBridge BorrowsBase64.
Import ListNotations.
Open Scope nat_scope. Open Scope m_scope. Open Scope borrow_scope.

Lemma good_code (F : nat -> nat -> Prop) {A B} (f : A -> B) (x : bcode A) (Q : A -> borrows -> mem -> Prop) : forall c s mm r mmf, annotates f x c ->
  good F x Q s mm -> c mm = Ret r mmf -> good F x (fun a s' mm' => Q a s' mm' /\ f a = r /\ mm' = mmf) s mm.
Proof.
  induction x as [a|y k IH|X v c0 k IH]; cbn [annotates good]; intros c s mm r mmf HA G E.
  - rewrite HA in E. injection E as <- <-. auto.
  - destruct (perform y s) as [[t s']|]; [|contradiction]. exact (IH t c s' mm r mmf (HA t) G E).
  - destruct HA as (g & HC & HA). destruct G as (P & p & FO & HS & G). exists P, p. split; [exact FO|]. split; [exact HS|]. intros y mm' E0.
    destruct (G y mm' E0) as [V G']. split; [exact V|]. rewrite HC in E. unfold bind in E. rewrite E0 in E. exact (IH y (g y) s mm' r mmf (HA y) G' E).
Qed.
Lemma on_top_writable s q len u : on_top s q len u -> writable_in s q len u (fun i => stacks s (fst q) (snd q + i)).
Proof. intros T i Hi. apply wtop_stable. now apply T. Qed.

(** [decode_inplace] on part of what the caller may access *)
Lemma decode_nested (F : nat -> nat -> Prop) en s2 cfg q (data : list Z) u (Q : result (ptr * nat) * nat -> borrows -> mem -> Prop) s mm :
  b64_isa s2 -> slice mm (fst q) (snd q) data -> wf s -> on_top s q (length data) u ->
  (forall r v s' mm', inplace_post s s' q (length data) (fun i => stacks s (fst q) (snd q + i)) (of_result r) v -> Q (r, v) s' mm') ->
  good F (b64_decode_inplace_b en s2 cfg q (length data) u) Q s mm.
Proof.
  intros Hs S W T H. set (n := length data) in *. set (mm0 := only q n mm).
  assert (S0 : slice mm0 (fst q) (snd q) data). { unfold mm0, n. rewrite (surjective_pairing q) at 1. now apply only_slice. }
  destruct (b64_decode_inplace_ok en s2 cfg data Hs mm0 (fst q) (snd q) S0) as (r & mmf & E & FR & _). rewrite <- surjective_pairing in E. fold n in E.
  eapply (good_local (cells_of q n) F fst _ (fun a s' _ => inplace_post s s' q n (fun i => stacks s (fst q) (snd q + i)) (of_result (fst a)) (snd a)))
    with (mm0 := mm0) (mmf := mmf); [|apply b64_decode_inplace_ann|exact E| |apply only_less|].
  - intros [a v] s' _ mm' _ P. now apply H.
  - intros b o Hi. destruct (frame_init _ _ _ _ _ _ _ FR Hi) as [Hi'|Hi']; [exact (only_init _ _ _ _ _ Hi')|].
    apply in_range_iff in Hi'. apply in_range_iff. cbn [fst snd] in Hi'. pose proof (b64_need_le cfg data). unfold n. lia.
  - apply (b64_decode_inplace_good en s2 cfg n _ _ _ (fun i => stacks s (fst q) (snd q + i))); auto.
    + intros b o Hi. exact (only_init _ _ _ _ _ Hi).
    + now apply on_top_writable.
Qed.

(** ** Annotations *)
Lemma remove_inplace_ann s p n t : annotates fst (remove_inplace_b s p n t) (remove_ascii_whitespace_inplace s p n).
Proof.
  unfold remove_inplace_b, remove_ascii_whitespace_inplace, find_b. ann. eexists. split; [intro; reflexivity|]. intro pos. ann.
  eexists. split; [intro; reflexivity|]. intro. ann. destruct (pos =? n); [ann|]. ann.
  eexists. split; [intro; reflexivity|]. intro l. ann. eexists. split; [intro; reflexivity|]. intro d. ann.
  eexists. split; [intro; reflexivity|]. intro rem. ann. eexists. split; [intro; reflexivity|]. intro. ann.
  exists (fun y => ret y). split; [apply bind_ret_eq|]. ann.
Qed.
Lemma annotates_bind {A B C} (f : A -> B) (x : bcode A) (g : A -> bcode C) {D} (h : C -> D) : forall c (k : B -> M D), annotates f x c ->
  (forall a, annotates h (g a) (k (f a))) -> annotates h (bbind x g) (bind c k).
Proof.
  induction x as [a|y j IH|X v c0 j IH]; cbn [annotates bbind]; intros c k HA HG.
  - specialize (HG a). revert HG. generalize (g a). assert (E : forall m, bind c k m = k (f a) m) by (intro m; unfold bind; now rewrite HA).
    clear - E. intro z. revert E. generalize (bind c k) (k (f a)). induction z as [z0|y j IH|X v c0 j IH]; cbn [annotates]; intros c1 c2 E H.
    + intro m. now rewrite E.
    + intro t. now apply (IH t c1 c2).
    + destruct H as (g & HC & H). exists g. split; [|exact H]. intro m. now rewrite E.
  - intro t. now apply IH.
  - destruct HA as (g0 & HC & HA). exists (fun y => bind (g0 y) k). split; [|intro y; now apply IH]. intro m. unfold bind. rewrite HC. unfold bind. now destruct (c0 m).
Qed.
Lemma annotates_fn {A B} (f : A -> B) (x : bcode A) c : annotates f x c -> annotates f (fn x) c.
Proof.
  intro H. unfold fn. cbn [annotates]. intros _.
  assert (G : annotates f (bbind x (fun a => Borrow Leave (fun _ => Return a))) (bind c (fun y => ret y))).
  { apply (annotates_bind f); [exact H|]. intros a. cbn [annotates]. now intros. }
  revert G. generalize (bbind x (fun a => Borrow Leave (fun _ => Return a))). intro z. assert (E := fun m => bind_ret_eq c m). revert E. generalize (bind c (fun y => ret y)). clear H x.
  revert c. induction z as [z0|y j IH|X v c0 j IH]; cbn [annotates]; intros c1 c2 E H.
  + intro m. now rewrite E.
  + intro t. now apply (IH t c1 c2).
  + destruct H as (g & HC & H). exists g. split; [|exact H]. intro m. now rewrite E.
Qed.
Lemma forgiving_inplace_ann en s1 s2 p n t : annotates fst (forgiving_decode_inplace_b en s1 s2 p n t) (forgiving_decode_inplace en s1 s2 p n).
Proof.
  unfold forgiving_decode_inplace_b, forgiving_decode_inplace. apply annotates_fn. ann.
  apply (annotates_bind fst); [apply remove_inplace_ann|]. intros [len u]. ann. apply b64_decode_inplace_ann.
Qed.
Lemma forgiving_ann en s1 s2 p n q k ts td : annotates fst (forgiving_decode_b en s1 s2 p n q k ts td) (forgiving_decode en s1 s2 p n q k).
Proof.
  unfold forgiving_decode_b, forgiving_decode. apply annotates_fn. ann. destruct (negb _); [ann|]. unfold find_b. ann.
  eexists. split; [intro; reflexivity|]. intro pos. ann. eexists. split; [intro; reflexivity|]. intro. ann.
  destruct (pos =? n); [apply b64_decode_ann|]. ann. eexists. split; [intro; reflexivity|]. intro. ann.
  eexists. split; [intro; reflexivity|]. intro. ann. eexists. split; [intro; reflexivity|]. intro. ann.
  eexists. split; [intro; reflexivity|]. intro. ann. eexists. split; [intro; reflexivity|]. intro. ann.
  eexists. split; [intro; reflexivity|]. intro. ann. apply b64_decode_inplace_ann.
Qed.

(** ** Code that accesses nothing *)
Lemma pure_assert b m m0 y m' : debug_assert b m = Ret y m' -> debug_assert b m0 = Ret y m0.
Proof. unfold debug_assert. destruct b; [|discriminate]. intro E. now injection E as <- _. Qed.
Lemma pure_psub n k m m0 y m' : psub_len n k m = Ret y m' -> psub_len n k m0 = Ret y m0.
Proof. unfold psub_len. destruct (_ <=? _); [|discriminate]. intro E. now injection E as <- _. Qed.
Lemma pure_if (b : bool) (l : nat) m m0 y m' : (if b then ret l else ub) m = Ret y m' -> (if b then ret l else ub) m0 = Ret y m0.
Proof. destruct b; [|discriminate]. intro E. now injection E as <- _. Qed.

(** ** [remove_ascii_whitespace_inplace] *)
(** the returned reference, [u], to the first [len] bytes; writing through it leaves what it was made from *)
Definition remove_post (s s' : borrows) (p : ptr) (n : nat) (base : nat -> stack) (len u : nat) : Prop :=
  wf s' /\ fresh s <= fresh s' /\ active s' = active s /\ elsewhere p n s s' /\ len <= n /\
  (forall i, i < n -> exists X, stacks s' (fst p) (snd p + i) = X ++ base i /\ added s X) /\
  (forall i, i < len -> exists X, write_at (active s') u (stacks s' (fst p) (snd p + i)) = Some (X ++ base i) /\ added s X).
Lemma above_less act c g X : Forall (fun x => i_tag g < i_tag x /\ protected (c :: act) x = false) X -> Forall (fun x => i_tag g < i_tag x /\ protected act x = false) X.
Proof. apply Forall_impl. intros x [Ha1 Ha2]. split; [exact Ha1|exact (unprotected_less _ _ _ Ha2)]. Qed.
Lemma remove_inplace_good (F : nat -> nat -> Prop) sx p n t base (Q : nat * nat -> borrows -> mem -> Prop) st mm :
  (forall b o, F b o -> cells_of p n b o) -> (forall b o, init mm b o -> cells_of p n b o) -> wf st -> writable_in st p n t base ->
  (forall len u s' mm', remove_post st s' p n base len u -> Q (len, u) s' mm') -> good F (remove_inplace_b sx p n t) Q st mm.
Proof.
  intros HF HI W WI H. unfold remove_inplace_b. apply (inplace_start F p n t base); auto. intros g s1 I1. pro. unfold find_b.
  eapply (inplace_reader F st p n base g _ (fun u => slice_parts p n u)); [intro; apply ro_slice_parts|apply (rei_forg_find_non_ascii_whitespace sx p n)|eassumption|eassumption|assumption|exact HI|].
  intros pos s3 I3 _. apply good_bind. apply good_exec_pure; [apply rei_forg_debug_assert|apply pure_assert|]. intros [] _. pro. pro.
  destruct (Nat.eqb_spec pos n) as [->|NE].
  { match goal with I : own_inv _ _ _ _ _ ?s |- good _ _ _ ?s _ => rename I into I6 end.
    assert (AG := own_added _ _ _ _ _ _ W I6). destruct I6 as (W6 & L6 & A6 & E6 & AB & R6 & T6 & U6 & C6).
    cbn [good]. split; [rewrite A6; discriminate|]. apply H.
    split; [apply (wf_leave st _ (fresh st) W); [lia|exact A6]|]. split; [cbn; lia|]. split; [cbn; now rewrite A6|]. split; [exact E6|]. split; [lia|].
    split; intros i Hi; destruct (AB i Hi) as (X & EX & HX); cbn.
    - exists (X ++ [g]). rewrite EX, <- app_assoc. split; [reflexivity|]. apply Forall_app. split; [|exact AG]. rewrite A6 in HX.
      refine (Forall_impl _ _ (above_less _ _ _ _ HX)). intros x [Ha1 Ha2]. split; [lia|exact Ha2].
    - exists [g]. split; [|exact AG]. rewrite EX, A6. cbn [tl]. apply write_above; [exact U6|]. rewrite A6 in HX. exact (above_less _ _ _ _ HX). }
  pro. pro. apply good_bind. apply good_exec_pure; [apply rei_psub_len|apply pure_psub|]. intros l _.
  match goal with I : own_inv _ _ _ _ _ ?s |- good _ _ _ ?s _ => rename I into I6; rename s into s6 end.
  assert (AG := own_added _ _ _ _ _ _ W I6). destruct I6 as (W6 & L6 & A6 & E6 & AB & R6 & T6 & U6 & C6).
  apply good_bind. apply (good_as_mut_ptr F p n g base); [exact W6|exact U6|exact AB|]. intros r Y s7 W7 L7 A7 E7 HY C7.
  assert (T7 : on_top s7 p n r).
  { intros i Hi. rewrite C7 by exact Hi. do 2 eexists. split; [reflexivity|]. unfold grants. cbn. now rewrite Nat.eqb_refl. }
  assert (OF : forall b o, F b o -> offers (via1 (fst p) r) (eq (fst p)) s7 b o).
  { intros b o Hb. apply HF, in_range_iff in Hb as [-> C]. exists r. unfold via1. rewrite Nat.eqb_refl. split; [reflexivity|].
    assert (WT : wtop r (stacks s7 (fst p) o)). { replace o with (snd p + (o - snd p)) by lia. apply T7. lia. }
    split; [now apply wtop_reads|auto]. }
  apply good_bind. apply (good_exec_rw F _ _ (fst p) any); [exact (rei_any _ _ (rei_padd p pos))|exact OF|]. intros d mm1 Ed.
  assert (FD : fst d = fst p). { revert Ed. unfold padd. destruct (_ <=? _); [|discriminate]. intro Ed. now injection Ed as <- _. }
  apply good_bind. apply (good_exec_rw F _ _ (fst p) any); [apply (rei_forg_remove_ascii_whitespace_fallback d l d); now intros _|exact OF|]. intros rem mm2 _.
  apply good_bind. apply good_exec_pure; [apply rei_forg_debug_assert|apply pure_assert|]. intros [] _.
  apply good_bind. unfold reborrow_mut at 1. apply (good_mut F false p n g base); [exact U6| |].
  { intros i Hi. rewrite C7 by exact Hi. eexists (_ :: Y). split; [reflexivity|]. constructor; [cbn; split; [lia|reflexivity]|].
    refine (Forall_impl _ _ HY). intros x [Ha1 Ha2]. split; [lia|congruence]. }
  intros s8 F8 A8 E8 C8. set (g2 := {| i_perm := Unique; i_tag := fresh s7; i_call := None |}) in *.
  apply good_fn, good_bind. unfold mut_param. apply (good_mut F true p n g2 (fun i => g :: base i)); [reflexivity| |].
  { intros i Hi. exists []. cbn. rewrite C8 by exact Hi. split; [reflexivity|constructor]. }
  intros s9 F9 A9 E9 C9. cbn [fresh active enter hd_error] in *. set (g3 := {| i_perm := Unique; i_tag := S (fresh s8); i_call := Some (fresh s8) |}) in *.
  apply good_bind. apply good_exec_pure; [destruct (pos + rem <=? n); [now apply rei_ret|apply rei_ub]|apply pure_if|]. intros len Elen.
  assert (LE : len <= n). { revert Elen. destruct (Nat.leb_spec (pos + rem) n); [|discriminate]. intro Elen. injection Elen as <-. assumption. }
  apply good_bind. unfold reborrow_mut. apply (good_mut F false p len g3 (fun i => g2 :: g :: base i)); [reflexivity| |].
  { intros i Hi. exists []. cbn. rewrite C9 by lia. split; [reflexivity|constructor]. }
  intros s10 F10 A10 E10 C10. set (g4 := {| i_perm := Unique; i_tag := fresh s9; i_call := None |}) in *.
  cbn [good]. assert (AL : active s10 = fresh s8 :: fresh st :: active st) by (rewrite A10, A9, A8, A7, A6; reflexivity).
  split; [rewrite AL; discriminate|]. split; [cbn; rewrite AL; discriminate|]. apply H.
  assert (A3 : added st [g3; g2; g]).
  { constructor; [|constructor; [|exact AG]]; (split; [cbn; lia|]); [|reflexivity]. apply (unprotected_call st g3 (fresh s8)); [exact W|lia|reflexivity]. }
  assert (A4 : added st [g4; g3; g2; g]). { constructor; [|exact A3]. split; [cbn; lia|reflexivity]. }
  split; [|split; [|split; [|split; [|split; [|split]]]]].
  - intros c Hc. cbn in *. rewrite AL in Hc. cbn in Hc. apply W in Hc. lia.
  - cbn. lia.
  - cbn. now rewrite AL.
  - intros b o Hr. cbn. rewrite E10, E9 by (revert Hr; unfold in_range; lia). cbn. rewrite E8, E7 by exact Hr. now apply E6.
  - exact LE.
  - intros i Hi. cbn. destruct (Nat.ltb_spec i len).
    + rewrite C10 by assumption. exists [g4; g3; g2; g]. auto.
    + rewrite E10 by (unfold in_range; lia). rewrite C9 by exact Hi. exists [g3; g2; g]. auto.
  - intros i Hi. cbn. rewrite C10 by exact Hi. exists [g4; g3; g2; g]. split; [|exact A4]. apply wtop_stable. do 2 eexists. split; [reflexivity|].
    unfold grants. cbn. now rewrite Nat.eqb_refl.
Qed.

(** ** The functions *)
Lemma forgiving_inplace_good en s1 s2 data : b64_isa s2 -> good_inplace_on of_result (forgiving_decode_inplace_b en s1 s2) data.
Proof.
  intros Hs F p t base Q st mm S HF HI W WI H. set (n := length data) in *. unfold forgiving_decode_inplace_b. apply (inplace_start F p n t base); auto. intros g st1 I1.
  assert (AG := own_added _ _ _ _ _ _ W I1). destruct I1 as (W1 & L1 & A1 & E1 & AB & R1 & T1 & U1 & C1).
  apply good_bind. unfold reborrow_mut at 1. apply (good_mut F false p n g base); [exact U1|exact AB|]. intros st2 F2 A2 E2 C2.
  set (g2 := {| i_perm := Unique; i_tag := fresh st1; i_call := None |}) in *. set (base2 := fun i => g2 :: g :: base i).
  assert (W2 : wf st2). { intros c Hc. rewrite A2 in Hc. apply W1 in Hc. lia. }
  assert (WI2 : writable_in st2 p n (fresh st1) base2).
  { intros i Hi. rewrite C2 by exact Hi. apply wtop_stable. do 2 eexists. split; [reflexivity|]. unfold grants. cbn. now rewrite Nat.eqb_refl. }
  destruct S as [B S]. destruct (wp_inv _ _ _ (remove_inplace_ok s1 mm (fst p) (snd p) data B S)) as (r & mmf & E & -> & BF & FR).
  rewrite <- surjective_pairing in E. fold n in E. apply good_bind.
  assert (G : good F (remove_inplace_b s1 p n (fresh st1)) (fun a s' _ => remove_post st2 s' p n base2 (fst a) (snd a)) st2 mm).
  { apply (remove_inplace_good F s1 p n _ base2); auto. }
  apply (good_code F fst _ _ _ _ _ _ _ (remove_inplace_ann _ _ _ _)) with (2 := E) in G. refine (good_imp F _ _ _ _ _ _ G). clear G E.
  intros [len u] st3 mm3 ((W3 & F3 & A3 & E3 & LE & C3 & WR) & EL & ->). cbn [fst snd] in *. subst len. set (len := length (strip_whitespace data)) in *.
  set (h := fun i => match write_at (active st3) u (stacks st3 (fst p) (snd p + i)) with Some z => z | None => [] end).
  apply good_bind. unfold reborrow_mut. apply (good_mut_gen F false p len u h).
  { intros i Hi. destruct (WR i Hi) as (X & EX & _). unfold h. now rewrite EX. }
  intros st4 F4 A4 E4 C4. set (g4 := {| i_perm := Unique; i_tag := fresh st3; i_call := None |}) in *.
  assert (WL : forall i, i < len -> exists X, h i = X ++ base2 i /\ added st2 X). { intros i Hi. destruct (WR i Hi) as (X & EX & HX). exists X. unfold h. now rewrite EX. }
  apply decode_nested; auto.
  - split; [now apply strip_bytes|exact BF].
  - intros c Hc. rewrite A4 in Hc. apply W3 in Hc. lia.
  - intros i Hi. rewrite C4 by exact Hi. do 2 eexists. split; [reflexivity|]. unfold grants. cbn. now rewrite Nat.eqb_refl.
  - intros r v st5 mm5 (W5 & F5 & A5 & E5 & C5 & RT). fold len in E5, C5.
    assert (AL : active st5 = fresh st :: active st) by (rewrite A5, A4, A3, A2; exact A1).
    assert (AD : forall sy X, fresh st <= fresh sy -> active sy = fresh st :: active st -> added sy X -> added st X).
    { intros sy X Ly Ay HX. refine (Forall_impl _ _ HX). intros x [Ha1 Ha2]. split; [lia|]. rewrite Ay in Ha2. exact (unprotected_less _ _ _ Ha2). }
    assert (AB2 : added st [g2; g]). { constructor; [|exact AG]. split; [cbn; lia|reflexivity]. }
    split; [rewrite AL; discriminate|]. apply H. split; [|split; [|split; [|split; [|split]]]].
    + apply (wf_leave st st5 (fresh st) W); [lia|exact AL].
    + cbn. lia.
    + cbn. now rewrite AL.
    + intros b o Hr. cbn. rewrite E5, E4 by (revert Hr; unfold in_range; lia). rewrite E3, E2 by exact Hr. now apply E1.
    + intros i Hi. cbn. destruct (Nat.ltb_spec i len) as [Li|Li].
      * destruct (C5 i Li) as (X & -> & HX). rewrite C4 by exact Li. destruct (WL i Li) as (Y & -> & HY). exists (X ++ g4 :: Y ++ [g2; g]).
        unfold base2. rewrite <- !app_assoc. cbn [app]. rewrite <- !app_assoc. split; [reflexivity|]. apply Forall_app. split.
        { apply (AD st4); [lia|rewrite A4, A3, A2; exact A1|exact HX]. }
        constructor; [split; [cbn; lia|reflexivity]|]. apply Forall_app. split; [|exact AB2]. apply (AD st2); [lia|rewrite A2; exact A1|exact HY].
      * rewrite E5, E4 by (unfold in_range; lia). destruct (C3 i Hi) as (X & -> & HX). exists (X ++ [g2; g]). unfold base2. rewrite <- app_assoc. split; [reflexivity|].
        apply Forall_app. split; [|exact AB2]. apply (AD st2); [lia|rewrite A2; exact A1|exact HX].
    + destruct (of_result r) as [[q0 k0]|]; [|exact Logic.I]. destruct RT as [L5 T5]. split; [lia|exact T5].
Qed.
Lemma forgiving_good en s1 s2 src k : b64_isa s2 -> good_into_on of_result (forgiving_decode_b en s1 s2) src k.
Proof.
  intros Hs F p q ts td Q st mm N S RM HF HI W LT RI OT H. set (n := length src) in *. unfold forgiving_decode_b. apply into_start; auto. intros u st1 I1 R1 L1. iro.
  destruct (Nat.leb_spec n k) as [LK|LK]; cbn [negb]; [|apply (into_fail F st p n q k ts); auto]. unfold find_b.
  eapply (into_reader F st p n ts u (fun u => slice_parts p n u)); [intro; apply ro_slice_parts|apply (rei_forg_find_non_ascii_whitespace s1 p n)|eassumption|exact LT|assumption|assumption|exact HI|].
  destruct S as [B S]. intros pos s3 I3 R3 L3 EP. iro.
  eapply into_read; [apply rei_forg_debug_assert|eassumption|eassumption|exact HI|]. intros [] _. iro.
  destruct (wp_inv _ _ _ (find_ok s1 mm (fst p) (snd p) src B S)) as (r & mm' & E & -> & ->). rewrite <- surjective_pairing in E. fold n in E.
  rewrite EP in E. injection E as ->. clear EP. assert (Hp := find_ws_le src). fold n in Hp. assert (ES := strip_find src). set (pos := find_ws src) in *.
  match goal with I : src_inv st p n ts ?s, R : readable ?s p n u, L : u < fresh ?s |- good _ _ _ ?s _ => rename I into I6; rename R into R6; rename L into L6; rename s into s6 end.
  destruct (Nat.eqb_spec pos n) as [EN|NE].
  { apply (b64_decode_good en s2 STANDARD_FORGIVING n k); auto.
    - apply I6.
    - now apply readable_in_of.
    - exact (on_top_src _ _ _ _ _ _ _ _ I6 N OT).
    - intros rx vx s7 mm7 (W7 & F7 & A7 & E7 & R7 & K7 & C7 & T7). assert (I6' := I6). destruct I6 as (W6 & LF & A6 & E6 & RD & K6).
      split; [rewrite A7, A6; discriminate|]. apply H. split; [|split; [|split; [|split; [|split; [|split; [|split]]]]]].
      + apply (wf_leave st s7 (fresh st) W); [lia|congruence].
      + cbn. lia.
      + cbn. now rewrite A7, A6.
      + intros b o Ha1 Ha2. cbn. rewrite E7 by assumption. now apply E6.
      + apply (K7 R6 ts); [lia|exact RD].
      + intros RS t Lt RT. apply (K7 R6 t); [lia|]. now apply K6.
      + intros i Hi. cbn. destruct (C7 i Hi) as (X & -> & HX). rewrite (src_dst _ _ _ _ _ _ _ I6' N). exists X. split; [reflexivity|].
        refine (Forall_impl _ _ HX). intros x [Ha1 Ha2]. split; [lia|]. rewrite A6 in Ha2. exact (unprotected_less _ _ _ Ha2).
      + destruct (of_result rx) as [[q0 k0]|]; [|exact Logic.I]. destruct T7 as [L7 T7]. split; [lia|exact T7]. }
  iro. iro. cbv zeta. clear R6 L6 I6.
  match goal with I : src_inv st p n ts ?s, R : readable ?s p n ?v |- good _ (bbind (exec (via2 _ ?v _ _) _) _) _ ?s _ => rename I into I8; rename R into R8; rename s into s8; rename v into tp end.
  assert (Lf : length (firstn pos src) = pos) by (rewrite firstn_length; fold n; lia).
  assert (Lk : n - pos = length (skipn pos src)) by (now rewrite skipn_length).
  assert (Hf := bytes_at_firstn _ _ _ _ pos S).
  eapply into_exec; [apply (rei_forg_copy_nonoverlapping p q pos); reflexivity|exact I8|exact R8|exact N|exact OT|exact HF|]. intros [] m1 E1.
  assert (K1 : bytes_at m1 (fst q) (snd q) (firstn pos src) /\ Frame mm (fst q) (snd q) pos m1).
  { assert (WC : wp (copy_nonoverlapping (fst p, snd p) (fst q, snd q) (length (firstn pos src)))
      (fun _ m' => bytes_at m' (fst q) (snd q) (firstn pos src) /\ Frame mm (fst q) (snd q) pos m') mm).
    { apply wp_copy; [exact Hf|rewrite Lf; unfold room in RM; lia|now left|]. rewrite Lf. auto. }
    destruct (wp_inv _ _ _ WC) as (y & m' & E & K). rewrite <- !surjective_pairing, Lf, E1 in E. injection E as <- <-. exact K. }
  destruct K1 as [B1 FR1].
  assert (S1 : bytes_at m1 (fst p) (snd p) src) by (eapply Frame_bytes_at; [exact FR1|exact S|]; now left).
  assert (RM1 : room m1 (fst q) (snd q) k) by (unfold room in *; destruct FR1 as (_ & -> & _); exact RM).
  eapply into_exec; [apply (rei_padd p pos)|exact I8|exact R8|exact N|exact OT|exact HF|]. intros p' m2 E2.
  assert (K2 : p' = (fst p, snd p + pos) /\ m2 = m1). { revert E2. unfold padd. destruct (_ <=? _); [|discriminate]. intro E2. now injection E2 as <- <-. }
  destruct K2 as [-> ->].
  eapply into_exec; [apply (rei_psub_len n pos)|exact I8|exact R8|exact N|exact OT|exact HF|]. intros l m2 E3.
  assert (K2 : l = n - pos /\ m2 = m1). { revert E3. unfold psub_len. destruct (_ <=? _); [|discriminate]. intro E3. now injection E3 as <- <-. }
  destruct K2 as [-> ->].
  eapply into_exec; [apply (rei_padd q pos)|exact I8|exact R8|exact N|exact OT|exact HF|]. intros d m2 E4.
  assert (K2 : d = (fst q, snd q + pos) /\ m2 = m1). { revert E4. unfold padd. destruct (_ <=? _); [|discriminate]. intro E4. now injection E4 as <- <-. }
  destruct K2 as [-> ->].
  eapply into_exec; [apply (rei_forg_remove_ascii_whitespace_fallback _ (n - pos) (fst q, snd q + pos)); reflexivity|exact I8|exact R8|exact N|exact OT|exact HF|]. intros rem m2 E5.
  assert (K2 : rem = length (strip_whitespace (skipn pos src)) /\ bytes_at m2 (fst q) (snd q + pos) (strip_whitespace (skipn pos src)) /\ Frame m1 (fst q) (snd q + pos) (n - pos) m2).
  { assert (WR : wp (remove_ascii_whitespace_fallback (fst p, snd p + pos) (length (skipn pos src)) (fst q, snd q + pos))
      (fun r m' => r = length (strip_whitespace (skipn pos src)) /\ bytes_at m' (fst q) (snd q + pos) (strip_whitespace (skipn pos src)) /\
        Frame m1 (fst q) (snd q + pos) (length (skipn pos src)) m') m1).
    { apply remove_ok; [now apply bytes_skipn|apply bytes_at_skipn; [exact Hp|exact S1]|rewrite <- Lk; unfold room in RM1; lia|now left]. }
    rewrite <- Lk in WR. destruct (wp_inv _ _ _ WR) as (y & m' & E & K). rewrite E5 in E. injection E as <- <-. exact K. }
  destruct K2 as (-> & B2 & FR2). assert (Ls := strip_le (skipn pos src)). rewrite <- Lk in Ls.
  eapply into_exec; [apply rei_forg_debug_assert|exact I8|exact R8|exact N|exact OT|exact HF|]. intros [] m3 E6.
  assert (m3 = m2) as ->. { revert E6. unfold debug_assert. destruct (_ <=? _); [|discriminate]. intro E6. now injection E6. }
  assert (Ln : pos + length (strip_whitespace (skipn pos src)) = length (strip_whitespace src)) by (rewrite ES, app_length, Lf; reflexivity).
  rewrite Ln. set (len := length (strip_whitespace src)) in *. assert (LL : len <= k) by lia.
  assert (T8 := on_top_src _ _ _ _ _ _ _ _ I8 N OT). assert (I8' := I8). destruct I8 as (W8 & LF & A8 & E8 & RD & K8).
  apply good_bind. apply good_slice_mut; [exact W8|exact (on_top_less _ _ _ _ _ T8 LL)|]. intros u9 s9 W9 L9 A9 E9 C9.
  apply good_bind. unfold reborrow_mut. apply good_from_top.
  { intros i Hi. rewrite C9 by exact Hi. do 2 eexists. split; [reflexivity|]. unfold grants. cbn. now rewrite Nat.eqb_refl. }
  intros s10 F10 A10 E10 C10. unfold len at 1. apply decode_nested; auto.
  - split; [now apply strip_bytes|]. rewrite ES. apply bytes_at_app. rewrite Lf. split; [|exact B2].
    eapply Frame_bytes_at; [exact FR2|exact B1|]. rewrite Lf. right. lia.
  - intros c Hc. rewrite A10 in Hc. apply W9 in Hc. lia.
  - intros i Hi. rewrite C10 by exact Hi. do 2 eexists. split; [reflexivity|]. unfold grants. cbn. now rewrite Nat.eqb_refl.
  - intros rx vx s11 mm11 (W11 & F11 & A11 & E11 & C11 & RT). fold len in E11, C11.
    assert (AL : active s11 = fresh st :: active st) by (rewrite A11, A10, A9; exact A8).
    assert (PR : forall i, stacks s11 (fst p) i = stacks s8 (fst p) i).
    { intro i. rewrite E11, E10, E9 by (now apply not_in_range_block). reflexivity. }
    split; [rewrite AL; discriminate|]. apply H. split; [|split; [|split; [|split; [|split; [|split; [|split]]]]]].
    + apply (wf_leave st s11 (fresh st) W); [lia|exact AL].
    + cbn. lia.
    + cbn. now rewrite AL.
    + intros b o Ha1 Ha2. cbn. rewrite E11, E10, E9 by (revert Ha2; unfold in_range; lia). now apply E8.
    + intros i Hi. cbn. rewrite PR. now apply RD.
    + intros RS t Lt RT' i Hi. cbn. rewrite PR. now apply (K8 RS t Lt RT').
    + intros i Hi. cbn. destruct (Nat.ltb_spec i len) as [Li|Li].
      * destruct (C11 i Li) as (X & -> & HX). rewrite C10, C9 by exact Li. rewrite (src_dst _ _ _ _ _ _ _ I8' N).
        eexists (X ++ [_; _]). rewrite <- app_assoc. split; [reflexivity|]. apply Forall_app. split.
        { refine (Forall_impl _ _ HX). intros x [Ha1 Ha2]. split; [lia|]. rewrite A10, A9, A8 in Ha2. exact (unprotected_less _ _ _ Ha2). }
        constructor; [|constructor; [|constructor]]; (split; [cbn; lia|reflexivity]).
      * rewrite E11, E10, E9 by (unfold in_range; lia). rewrite (src_dst _ _ _ _ _ _ _ I8' N). exists []. split; [reflexivity|constructor].
    + destruct (of_result rx) as [[q0 k0]|]; [|exact Logic.I]. destruct RT as [L11 T11]. split; [lia|exact T11].
Qed.

Lemma forgiving_decode_borrows en s1 s2 src dlen : b64_isa s2 -> borrows_into of_result (forgiving_decode_b en s1 s2) (forgiving_decode en s1 s2) src dlen.
Proof.
  intro Hs. apply borrows_into_on; [intros; apply forgiving_ann| |now apply forgiving_good]. intros _.
  eapply settles_dec; [now apply forgiving_decode_ok|apply forgiving_decode_short].
Qed.
Lemma forgiving_decode_inplace_borrows en s1 s2 data : b64_isa s2 ->
  borrows_inplace of_result (forgiving_decode_inplace_b en s1 s2) (forgiving_decode_inplace en s1 s2) data.
Proof.
  intro Hs. apply borrows_inplace_on; [intros; apply forgiving_inplace_ann| |now apply forgiving_inplace_good]. intros _.
  eapply settles_inplace_dec; [now apply forgiving_decode_inplace_ok|lia].
Qed.
