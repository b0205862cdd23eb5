(** [forgiving_decode_to_vec], for PropBorrowsHeap.v *)
From Coq Require Import ZArith List Bool Lia ZifyBool ZifyNat.
From Verif Require Import Bytes Mem MemFacts Slices Codec Conc ConcFacts Reify ConcApi ConcApiFacts Isa Simd Spec Ints
  Loops SimdFacts Base64 Base64Ref Base64DecFacts Base64Api Forgiving ForgivingFacts Heap HeapFacts Public
  Borrows BorrowsApi BorrowsFacts BorrowsLib BorrowsCalls BorrowsBridge BorrowsBase64 BorrowsForgiving
  BorrowsHeap BorrowsHeapFacts BorrowsHeapSteps BorrowsHeapCalls BorrowsHeapCodecs.
Import ListNotations.
Open Scope nat_scope. Open Scope m_scope. Open Scope borrow_scope. Open Scope heap_scope.

(** the pointer of the vector, with nothing above that is in use *)
Definition raw_at (s : borrows) (b n t : nat) : Prop := forall i, i < n -> In (new_item SharedRW t) (stacks s b i) /\ free_of (active s) (stacks s b i).
Lemma raw_owns s b n t : raw_at s b n t -> owns s b n t.
Proof. intros H i Hi. destruct (H i Hi) as [HI HF]. apply (may_free_in _ _ (new_item SharedRW t)); [exact HI|apply grants_new; auto|exact HF]. Qed.
Lemma raw_more s s' b n t : active s' = active s -> (forall i, i < n -> exists X, stacks s' b i = X ++ stacks s b i /\ free_of (active s) X) -> raw_at s b n t -> raw_at s' b n t.
Proof.
  intros A H R i Hi. destruct (H i Hi) as (X & -> & HX), (R i Hi) as [HI HF]. rewrite A. split; [apply in_or_app; auto|]. apply Forall_app. auto.
Qed.
Lemma decode_runs en s2 cfg q (data : list Z) u s m : b64_isa s2 -> slice m (fst q) (snd q) data -> state_ok s -> on_top s q (length data) u ->
  exists r v s' m', runs (b64_decode_inplace_b en s2 cfg q (length data) u) s m (r, v) s' m' /\ state_ok s' /\
    inplace_post s s' q (length data) (fun i => stacks s (fst q) (snd q + i)) (of_result r) v /\ (forall b, length (m' b) = length (m b)) /\
    (forall b, b <> fst q -> m' b = m b) /\ match r with Ok x => fst x = q | Err => True end.
Proof.
  intros Hs S OK T. set (n := length data) in *. set (mm := only q n m).
  assert (S0 : slice mm (fst q) (snd q) data). { unfold mm, n. rewrite (surjective_pairing q) at 1. now apply only_slice. }
  destruct (b64_decode_inplace_ok en s2 cfg data Hs mm (fst q) (snd q) S0) as (r & mmf & E & FR & _). rewrite <- surjective_pairing in E. fold n in E.
  destruct (b64_decode_inplace_ok en s2 cfg data Hs m (fst q) (snd q) S) as (r' & mf & E' & FR' & HR). rewrite <- surjective_pairing in E'. fold n in E'.
  destruct (good_runs (cells_of q n) fst (b64_decode_inplace_b en s2 cfg q n u) (fun a s' _ => inplace_post s s' q n (fun i => stacks s (fst q) (snd q + i)) (of_result (fst a)) (snd a))) with
    (c := b64_decode_inplace en s2 cfg q n) (s := s) (s2 := s) (m := m) (mm := mm) (r := r) (mmf := mmf) as ([r0 v] & s' & m' & RU & Er & P & _).
  - intros a s1 s3 _ H. now apply inplace_post_same.
  - apply b64_decode_inplace_ann.
  - exact E.
  - intros b o Hi. destruct (frame_init _ _ _ _ _ _ _ FR Hi) as [Hi'|Hi']; [exact (only_init _ _ _ _ _ Hi')|].
    apply in_range_iff in Hi'. apply in_range_iff. cbn [fst snd] in Hi'. pose proof (b64_need_le cfg data). unfold n. lia.
  - apply only_less.
  - apply (b64_decode_inplace_good en s2 cfg n _ _ _ (fun i => stacks s (fst q) (snd q + i))); auto.
    + intros b o Hi. exact (only_init _ _ _ _ _ Hi).
    + now apply ok_wf.
    + now apply on_top_writable.
  - apply same_refl.
  - assert (EC := runs_code fst _ _ _ _ _ _ RU _ (b64_decode_inplace_ann _ _ _ _ _ _)). cbn [fst snd] in *. rewrite E' in EC. injection EC as -> <-.
    exists r0, v, s', mf. split; [exact RU|]. split; [exact (runs_ok _ _ _ _ _ _ RU OK)|]. split; [exact P|]. destruct FR' as (F1 & F2 & _). split; [|split].
    + intro b. destruct (Nat.eq_dec b (fst q)) as [->|N]; [exact F2|now rewrite F1].
    + exact F1.
    + destruct (b64_dec cfg data) as [x|] eqn:ED; [|subst r0; exact Logic.I]. destruct HR as [-> _]. cbn [fst snd]. now rewrite <- surjective_pairing.
Qed.

Lemma find_runs s1 m s p src u : slice m (fst p) (snd p) src -> state_ok s -> u < fresh s -> readable s p (length src) u ->
  exists s', runs (find_b s1 p (length src) u) s m (find_ws src) s' m /\ state_ok s' /\ ro_step p (length src) s s' /\ find_non_ascii_whitespace s1 p (length src) m = Ret (find_ws src) m.
Proof.
  intros S OK L RD. set (n := length src) in *.
  assert (HT : forall mm, slice mm (fst p) (snd p) src -> find_non_ascii_whitespace s1 p n mm = Ret (find_ws src) mm).
  { intros mm [B Sm]. destruct (wp_inv _ _ _ (find_ok s1 mm (fst p) (snd p) src B Sm)) as (r & mm' & E & -> & ->). now rewrite <- surjective_pairing in E. }
  assert (S0 : slice (only p n m) (fst p) (snd p) src). { unfold n. rewrite (surjective_pairing p) at 1. now apply only_slice. }
  assert (HA : annotates (fun a => a) (find_b s1 p n u) (find_non_ascii_whitespace s1 p n)).
  { unfold find_b. ann. eexists. split; [apply bind_ret_eq|]. intro. ann. }
  destruct (good_runs (cells_of p n) (fun a => a) (find_b s1 p n u) (fun _ s' _ => ro_step p n s s')) with (c := find_non_ascii_whitespace s1 p n) (s := s) (s2 := s) (m := m)
    (mm := only p n m) (r := find_ws src) (mmf := only p n m) as (a & s' & m' & RU & -> & ST & _).
  - intros a s3 s4 _ (HS1 & HF1 & HA1) (F1 & A1 & E1 & C1). split; [lia|]. split; [congruence|]. split; [intros b' o' H; rewrite HS1; auto|].
    intros i Hi. destruct (C1 i Hi) as (X & EX & HX). exists X. rewrite HS1. split; [exact EX|exact HX].
  - exact HA.
  - now apply HT.
  - intros b' o' Hi. exact (only_init _ _ _ _ _ Hi).
  - apply only_less.
  - unfold find_b. eapply (good_reader _ p n u (fun u => slice_parts p n u) (find_non_ascii_whitespace s1 p n)); [intro; apply ro_slice_parts|apply rei_forg_find_non_ascii_whitespace|now apply ok_wf|exact L|exact RD| |auto].
    intros b' o' Hi. exact (only_init _ _ _ _ _ Hi).
  - apply same_refl.
  - assert (EC := runs_code (fun a => a) _ _ _ _ _ _ RU _ HA). rewrite (HT m S) in EC. injection EC as <-.
    exists s'. split; [exact RU|]. split; [exact (runs_ok _ _ _ _ _ _ RU OK)|]. split; [exact ST|now apply HT].
Qed.
Lemma good_len (F : nat -> nat -> Prop) p n t (Q : nat -> borrows -> mem -> Prop) s mm : wf s -> readable s p n t -> (forall u s', ro_step p n s s' -> Q u s' mm) ->
  good F (slice_len p n t) Q s mm.
Proof.
  intros W R H. unfold slice_len. apply good_fn. unfold shared_param. apply good_shared; [auto|exact R|]. intros s1 F1 A1 E1 C1. cbn [enter fresh active stacks hd_error] in *.
  split; [rewrite A1; discriminate|]. apply H. split; [cbn; lia|]. split; [cbn; now rewrite A1|]. split; [exact E1|]. intros i Hi. cbn [leave stacks]. rewrite C1 by exact Hi.
  eexists [_]. split; [reflexivity|]. constructor; [|constructor]. cbn [i_perm i_tag]. split; [reflexivity|]. split; [lia|]. apply (unprotected_call s _ (fresh s)); auto.
Qed.
Lemma hinv_inner s0 p n ts (D : nat -> Prop) u s s' : hinv s0 p n ts D s -> ts < fresh s0 -> readable s p n u -> hpost s p n u D s' -> hinv s0 p n ts D s'.
Proof.
  intros (OK & L & A & E & R & K) LT RU (OK' & L' & A' & E' & R' & K'). split; [exact OK'|]. split; [lia|]. split; [congruence|]. split; [|split].
  - intros b o H1 H2. rewrite E' by assumption. auto.
  - apply (K' RU ts); [lia|exact R].
  - intros RS t Lt RT. apply (K' RU t); [lia|]. now apply K.
Qed.
Lemma forgiving_vec_good M en s1 s2 src : b64_isa s2 -> good_new (res_held vec_held) M (forgiving_decode_to_vec_b M en s1 s2) src.
Proof.
  intros Hs m s b o ts S LS OK LT MR. set (n := length src) in *. set (p := (b, o)). unfold forgiving_decode_to_vec_b. set (D := eq (new_block M)).
  apply (h_start p n ts D); auto. intros u st1 _ I1 R1 L1.
  destruct (find_runs s1 m st1 p src u S (proj1 I1) L1 R1) as (st2 & RU & OK2 & ST2 & _). apply (hgood_lift_runs _ _ _ _ _ _ _ _ RU). clear RU.
  assert (I2 : hinv s p n ts D st2) by exact (hinv_ro _ _ _ _ _ _ _ I1 LT OK2 ST2). assert (R2 := readable_ro _ _ _ _ _ ST2 L1 R1 : readable st2 p n u).
  assert (L2 : u < fresh st2) by (destruct ST2 as (A1 & _); lia).
  assert (Hp := find_ws_le src). fold n in Hp. assert (ES := strip_find src). set (pos := find_ws src) in *. clear ST2 I1 R1 L1 OK2.
  eapply h_ro; [apply ro_len|nox|exact I2|exact LT|exact R2|exact L2|]. intros _ st3 _ I3 R3 L3 _ _. clear I2 R2 L2.
  apply hgood_pure. intros y m1 E. split. { revert E. unfold debug_assert. destruct (_ <=? _); [|discriminate]. intro E. now injection E. } clear y m1 E.
  eapply h_ro; [apply ro_len|nox|exact I3|exact LT|exact R3|exact L3|]. intros _ st4 _ I4 R4 L4 _ _. clear I3 R3 L3.
  assert (F4 : fresh s < fresh st4) by apply I4.
  destruct (Nat.eqb_spec pos n) as [EN|NE].
  { assert (G := to_vec_good M _ src (b64_try_good M en s2 STANDARD_FORGIVING src Hs) m st4 b o u S LS (proj1 I4) L4 (readable_may _ _ _ _ R4)).
    fold n p in G. refine (hgood_imp _ _ _ _ _ _ G). intros [r v] s5 m5 [P5 H5]. cbn [fst snd] in H5.
    assert (I5 := hinv_inner _ _ _ _ _ _ _ _ I4 LT R4 P5). apply h_new_end; [exact I5|]. cbn [fst snd]. destruct r as [w|]; [|exact Logic.I]. destruct H5 as [U5 O5].
    split; [cbn; lia|]. apply (owns_leave s5 (fresh s) (active s)); [apply I5|exact O5]. }
  assert (NZ : n <> 0) by lia. set (nb := new_block M) in *.
  eapply h_ro; [apply ro_len|nox|exact I4|exact LT|exact R4|exact L4|]. intros _ st5 _ I5 R5 L5 _ _. clear I4 R4 L4.
  apply hgood_pure. intros y m1 E. split. { revert E. destruct (_ <? _)%Z; [discriminate|]. intro E. now injection E. } clear y m1 E.
  set (cap := capacity M n). assert (CG : n <= cap) by now apply capacity_ge.
  cbn [halloc hbind hgood]. intros b0 m1 E. apply alloc_ret in E as (E0 & -> & ->). cbn [fst snd]. fold nb in E0 |- *. set (m1 := upd m nb (repeat None cap)).
  assert (F5 : fresh s < fresh st5) by apply I5. set (tv := fresh st5) in *. set (st6 := fresh_block st5 nb cap).
  assert (NB : b <> nb) by (intros ->; now apply (slice_nonempty _ _ _ _ S NZ)).
  assert (S1 : slice m1 b o src) by (eapply slice_same; [exact S|]; now apply upd_other).
  assert (LM1 : length (m1 nb) = cap) by (unfold m1; rewrite upd_same; apply repeat_length).
  assert (E6 : forall b' o', b' <> nb -> stacks st6 b' o' = stacks st5 b' o') by (intros b' o' N; cbn [st6 fresh_block stacks]; now rewrite (proj2 (Nat.eqb_neq _ _) N)).
  assert (C6 : forall i, i < cap -> stacks st6 nb i = [new_item SharedRW tv]).
  { intros i Hi. cbn [st6 fresh_block stacks]. rewrite Nat.eqb_refl. now rewrite (proj2 (Nat.ltb_lt _ _) Hi). }
  assert (I6 : hinv s p n ts D st6). { apply (hinv_dst s p n ts D st5 st6 nb); auto; [apply ok_fresh_block, I5|cbn; lia|reflexivity]. }
  assert (R6 : readable st6 p n u) by (apply (readable_dst st5 st6 p n u nb); auto). assert (L6 : u < fresh st6) by (cbn; lia). assert (T6 : tv < fresh st6) by (cbn; unfold tv; lia).
  eapply h_ro; [apply ro_len|nox|exact I6|exact LT|exact R6|exact L6|]. intros _ st7 ST7 I7 R7 L7 _ _.
  eapply h_ro; [apply ro_as_ptr|nox|exact I7|exact LT|exact R7|exact L7|]. intros v st8 ST8 I8 _ _ R8 L8.
  assert (C8 : forall i, i < cap -> stacks st8 nb i = [new_item SharedRW tv]).
  { intros i Hi. destruct ST7 as (_ & _ & E7 & _), ST8 as (_ & _ & E8 & _). rewrite E8, E7 by (apply not_in_range_block; cbn; congruence). now apply C6. }
  assert (T8 : tv < fresh st8) by (destruct ST7 as (F7 & _), ST8 as (F8 & _); lia). clearbody st6. clear I6 R6 L6 I7 R7 L7 ST7 ST8 E6 C6 T6 I5 R5 L5.
  assert (TOP : forall st e k, (forall i, i < cap -> stacks st nb i = [new_item SharedRW tv]) -> e + k <= cap -> on_top st (nb, e) k tv).
  { intros st e k C L i Hi. cbn [fst snd]. rewrite C by lia. do 2 eexists. split; [reflexivity|]. apply grants_new. auto. }
  assert (SC : forall st st', same st st' -> (forall i, i < cap -> stacks st nb i = [new_item SharedRW tv]) -> forall i, i < cap -> stacks st' nb i = [new_item SharedRW tv]).
  { intros st st' (HS1 & _) C i Hi. rewrite HS1. now apply C. }
  assert (Lf : length (firstn pos src) = pos) by (rewrite firstn_length; fold n; lia).
  assert (Lk : n - pos = length (skipn pos src)) by (now rewrite skipn_length).
  assert (CP : forall mm, slice mm b o src -> length (mm nb) = cap -> exists mm', copy_nonoverlapping p (at_start nb) pos mm = Ret tt mm' /\
    bytes_at mm' nb 0 (firstn pos src) /\ Frame mm nb 0 pos mm').
  { intros mm [B Sm] Lm. assert (Hf := bytes_at_firstn _ _ _ _ pos Sm).
    assert (WC : wp (copy_nonoverlapping (b, o) (nb, 0) (length (firstn pos src))) (fun _ m' => bytes_at m' nb 0 (firstn pos src) /\ Frame mm nb 0 pos m') mm).
    { apply wp_copy; [exact Hf|rewrite Lf; lia|now left|]. rewrite Lf. auto. }
    destruct (wp_inv _ _ _ WC) as ([] & m' & E & K). rewrite Lf in E. exists m'. auto. }
  assert (LO : forall mm, length (only p n mm nb) = length (mm nb)) by (intro mm; apply (only_masked p n mm nb)).
  change (fst p) with b. change (via2 b v nb tv) with (via2 (fst p) v (fst (at_start nb)) tv).
  eapply (h_exec p n (at_start nb) pos); [apply (rei_forg_copy_nonoverlapping p (at_start nb) pos); reflexivity|exact NB|exact R8|apply (TOP st8 0 pos C8); lia| |].
  { destruct (CP (only p n m1) (only_slice _ _ _ _ S1)) as (mm' & E & _ & FR); [now rewrite LO|]. exists tt, mm'. auto. }
  intros [] m2 st9 E2 SA9. destruct (CP m1 S1 LM1) as (mm' & E & B2 & FR2). rewrite E in E2. injection E2 as ->.
  assert (I9 := hinv_same _ _ _ _ _ _ _ SA9 I8). assert (R9 := readable_same _ _ _ _ _ SA9 R8). assert (C9 := SC _ _ SA9 C8).
  assert (T9 : tv < fresh st9) by (destruct SA9 as (_ & -> & _); exact T8). clear I8 R8 C8 SA9 T8 L8.
  assert (S2 : slice m2 b o src) by (split; [apply S1|eapply Frame_bytes_at; [exact FR2|apply S1|]; now left]).
  assert (LM2 : length (m2 nb) = cap) by (destruct FR2 as (_ & -> & _); exact LM1).
  eapply (h_exec p n (at_start nb) 0); [apply (rei_padd p pos)|exact NB|exact R9|apply (TOP st9 0 0 C9); lia| |].
  { exists (b, o + pos), (only p n m2). split; [|now split]. unfold padd. change (fst p) with b. change (snd p) with o. rewrite (proj2 (Nat.leb_le _ _)); [reflexivity|]. rewrite (proj1 (only_masked p n m2 b)). destruct S2 as [_ [S2 _]]. fold n in S2. lia. }
  intros p' m3 st10 E3 SA10. apply padd_ret in E3 as [-> ->].
  assert (I10 := hinv_same _ _ _ _ _ _ _ SA10 I9). assert (R10 := readable_same _ _ _ _ _ SA10 R9). assert (C10 := SC _ _ SA10 C9).
  assert (T10 : tv < fresh st10) by (destruct SA10 as (_ & -> & _); exact T9). clear I9 R9 C9 SA10 T9.
  apply hgood_pure. intros l m3 E3. assert (K3 : l = n - pos /\ m3 = m2). { revert E3. unfold psub_len. destruct (_ <=? _); [|discriminate]. intro E3. now injection E3 as <- <-. }
  destruct K3 as [-> ->]. split; [reflexivity|]. clear E3.
  eapply (h_exec p n (at_start nb) 0); [apply (rei_padd (at_start nb) pos)|exact NB|exact R10|apply (TOP st10 0 0 C10); lia| |].
  { exists (nb, pos), (only p n m2). split; [|now split]. unfold padd. cbn [fst snd at_start]. rewrite (proj2 (Nat.leb_le _ _)); [reflexivity|]. rewrite LO, LM2. lia. }
  intros d m3 st11 E3 SA11. apply padd_ret in E3 as [-> ->].
  assert (I11 := hinv_same _ _ _ _ _ _ _ SA11 I10). assert (R11 := readable_same _ _ _ _ _ SA11 R10). assert (C11 := SC _ _ SA11 C10).
  assert (T11 : tv < fresh st11) by (destruct SA11 as (_ & -> & _); exact T10). clear I10 R10 C10 SA11 T10.
  cbn [fst snd at_start p]. rewrite Nat.add_0_l.
  assert (RP : forall mm, slice mm b o src -> length (mm nb) = cap -> exists mm', remove_ascii_whitespace_fallback (b, o + pos) (n - pos) (nb, pos) mm =
      Ret (length (strip_whitespace (skipn pos src))) mm' /\ bytes_at mm' nb pos (strip_whitespace (skipn pos src)) /\ Frame mm nb pos (n - pos) mm').
  { intros mm [B Sm] Lm. assert (WR : wp (remove_ascii_whitespace_fallback (b, o + pos) (length (skipn pos src)) (nb, pos))
      (fun r m' => r = length (strip_whitespace (skipn pos src)) /\ bytes_at m' nb pos (strip_whitespace (skipn pos src)) /\ Frame mm nb pos (length (skipn pos src)) m') mm).
    { apply remove_ok; [now apply bytes_skipn|apply bytes_at_skipn; [exact Hp|exact Sm]|rewrite <- Lk; lia|now left]. }
    rewrite <- Lk in WR. destruct (wp_inv _ _ _ WR) as (y & m' & E4 & -> & K). exists m'. auto. }
  change (via2 b v nb tv) with (via2 (fst p) v (fst (nb, pos)) tv).
  eapply (h_exec p n (nb, pos) (n - pos)); [apply (rei_forg_remove_ascii_whitespace_fallback _ (n - pos) (nb, pos)); reflexivity|exact NB|exact R11|apply (TOP st11 pos (n - pos) C11); lia| |].
  { destruct (RP (only p n m2) (only_slice _ _ _ _ S2)) as (mm'' & E4 & _ & FR); [now rewrite LO|]. do 2 eexists. split; [exact E4|exact FR]. }
  intros rem m3 st12 E3 SA12. destruct (RP m2 S2 LM2) as (mm'' & E4 & B3 & FR3). rewrite E4 in E3. injection E3 as <- ->. clear E4 E.
  assert (I12 := hinv_same _ _ _ _ _ _ _ SA12 I11). assert (C12 := SC _ _ SA12 C11).
  assert (T12 : tv < fresh st12) by (destruct SA12 as (_ & -> & _); exact T11). clear I11 R11 C11 SA12 T11.
  assert (LM3 : length (m3 nb) = cap) by (destruct FR3 as (_ & -> & _); exact LM2).
  apply hgood_pure. intros y m4 E. split. { revert E. unfold debug_assert. destruct (_ <=? _); [|discriminate]. intro E. now injection E. } clear y m4 E.
  assert (Ls := strip_le (skipn pos src)). rewrite <- Lk in Ls.
  assert (Ln : pos + length (strip_whitespace (skipn pos src)) = length (strip_whitespace src)) by (rewrite ES, app_length, Lf; reflexivity).
  rewrite Ln. set (data := strip_whitespace src) in *. set (len := length data).
  assert (S3 : slice m3 nb 0 data).
  { split; [now apply strip_bytes; apply S|]. rewrite ES. apply bytes_at_app. rewrite Lf. split; [|exact B3].
    eapply Frame_bytes_at; [exact FR3|exact B2|]. rewrite Lf. right. lia. }
  set (q := at_start nb). assert (LL : len <= cap) by (unfold len; lia).
  apply (hgood_lift (fun _ _ => True)); [nox|]. apply good_ok; [nox|apply I12|]. apply good_slice_mut; [apply ok_wf, I12|apply (TOP st12 0 len C12); lia|].
  intros u13 st13 W13 U13 A13 E13 C13 OK13. cbn [q at_start fst snd] in E13, C13.
  assert (ND : forall st st', elsewhere q len st st' -> forall b' o', b' <> nb -> stacks st' b' o' = stacks st b' o').
  { intros st st' EL b' o' N. apply EL. now apply not_in_range_block. }
  assert (I13 : hinv s p n ts D st13). { apply (hinv_dst s p n ts D st12 st13 nb); auto; [lia|reflexivity]. }
  destruct (decode_runs en s2 STANDARD_FORGIVING q data u13 st13 m3 Hs S3 OK13) as (r & v14 & st14 & m4 & RU & OK14 & P14 & LM4 & EM4 & HR).
  { intros i Hi. cbn [q at_start fst snd]. rewrite C13 by exact Hi. do 2 eexists. split; [reflexivity|]. unfold grants. cbn. now rewrite Nat.eqb_refl. }
  apply (hgood_lift_runs _ _ _ _ _ _ _ _ RU). clear RU. fold len in P14. destruct P14 as (_ & F14 & A14 & E14 & C14 & RT). cbn [fst snd].
  assert (I14 : hinv s p n ts D st14). { apply (hinv_dst s p n ts D st13 st14 nb); auto; reflexivity. }
  assert (A12 : active st12 = fresh s :: active s) by apply I12.
  assert (RA : raw_at st14 nb cap tv).
  { intros i Hi. rewrite A14, A13. destruct (Nat.ltb_spec i len) as [Li|Li].
    - destruct (C14 i Li) as (X & EX & HX). cbn [q at_start fst snd] in EX. rewrite Nat.add_0_l in EX. rewrite EX. specialize (C13 i Li). cbn in C13. rewrite C13, C12 by exact Hi. split.
      + apply in_or_app. right. right. now left.
      + apply Forall_app. split; [|constructor; [reflexivity|constructor; [reflexivity|constructor]]]. refine (Forall_impl _ _ HX). intros x [_ Hx]. now rewrite <- A13.
    - assert (NR : in_range (fst q) (snd q) len nb i = false) by (unfold in_range; cbn [q at_start fst snd]; lia). rewrite (E14 nb i NR), (E13 nb i NR), C12 by exact Hi. split; [now left|]. constructor; [reflexivity|constructor]. }
  destruct r as [x|].
  - destruct x as [qx kx]. cbn [of_result returned fst snd] in *. subst qx. destruct RT as [L14 T14].
    assert (RV : readable st14 q kx v14) by (intros i Hi; apply wtop_reads, T14, Hi).
    apply (hgood_lift (fun _ _ => True)); [nox|]. apply good_ok; [nox|exact OK14|]. apply good_len; [now apply ok_wf|exact RV|].
    intros _ st15 ST15 OK15. destruct ST15 as (F15 & A15 & E15 & C15).
    assert (I15 : hinv s p n ts D st15).
    { apply (hinv_dst s p n ts D st14 st15 nb); auto; [|reflexivity]. intros b' o' N. apply E15. now apply not_in_range_block. }
    apply hgood_pure. intros w m5 E5. apply set_len_ret in E5 as [-> ->]. split; [reflexivity|]. cbn [hgood]. apply h_new_end; [exact I15|]. cbn [fst snd v_block]. split; [cbn [leave fresh]; lia|].
    cbn [v_block]. rewrite LM4, LM3. apply (owns_leave st15 (fresh s) (active s)); [apply I15|]. apply raw_owns. apply (raw_more st14); [exact A15| |exact RA].
    intros i Hi. destruct (Nat.ltb_spec i kx) as [Li|Li].
    + destruct (C15 i Li) as (X & EX & HX). exists X. split; [exact EX|]. refine (Forall_impl _ _ HX). now intros y (_ & _ & Hy).
    + exists []. split; [|constructor]. apply E15. unfold in_range. cbn [q at_start fst snd]. lia.
  - apply (h_free nb cap); [now rewrite LM4, LM3|now apply raw_owns|]. cbn [hgood]. apply h_new_end; [|exact Logic.I].
    apply (hinv_dst s p n ts D st14 _ nb); auto; [apply ok_released, I14| |reflexivity]. cbn [stacks]. intros b' o' N. now rewrite (proj2 (Nat.eqb_neq _ _) N).
Qed.

(** ** The steps are those of the model *)
Lemma find_ann s1 p n t : annotates (fun a => a) (find_b s1 p n t) (find_non_ascii_whitespace s1 p n).
Proof. unfold find_b. ann. eexists. split; [apply bind_ret_eq|]. intro. ann. Qed.
Lemma forgiving_vec_ann M en s1 s2 p n ts : hannotates fst (forgiving_decode_to_vec_b M en s1 s2 p n ts) (forgiving_decode_to_vec M en s1 s2 p n).
Proof.
  unfold forgiving_decode_to_vec_b, forgiving_decode_to_vec. apply hannotates_fn. apply hannotates_borrow; [nox|]. intro u.
  apply (hannotates_bind (fun a => a)); [apply hannotates_lift, find_ann|]. intro pos. apply hannotates_borrow; [nox|]. intros _.
  apply hannotates_pure. intros _. apply hannotates_borrow; [nox|]. intros _. destruct (pos =? n).
  { apply (hannotates_ext _ _ (into_vec_res (b64_decode_to_boxed_bytes M en s2 STANDARD_FORGIVING p n))); [|apply to_vec_ann, b64_try_ann].
    intro m. unfold into_vec_res, try_, bind. destruct (b64_decode_to_boxed_bytes _ _ _ _ _ _ m) as [[b|] m1| | |]; reflexivity. }
  apply hannotates_borrow; [nox|]. intros _. unfold with_capacity.
  match goal with |- hannotates _ _ (bind _ ?k) => apply (hannotates_ext _ _ (bind (if (isize_limit M <? Z.of_nat n)%Z then panic else ret tt)
    (fun _ => bind (alloc M (capacity M n)) (fun b => k {| v_block := b; v_len := 0 |})))) end.
  { intro m. unfold bind. destruct (_ <? _)%Z; [reflexivity|]. unfold ret. now destruct (alloc M (capacity M n) m). }
  apply hannotates_pure. intros _. cbn [halloc hbind fst snd hannotates]. eexists. split; [intro; reflexivity|]. intros b t. cbv beta zeta. cbn [v_block].
  apply hannotates_borrow; [nox|]. intros _. apply hannotates_borrow; [nox|]. intro v. apply hannotates_exec. intros _. apply hannotates_exec. intro p'.
  apply hannotates_pure. intro l. apply hannotates_exec. intro d. apply hannotates_exec. intro rem. apply hannotates_pure. intros _.
  apply hannotates_borrow; [nox|]. intro w. unfold try_drop. apply (hannotates_bind fst); [apply hannotates_lift, b64_decode_inplace_ann|].
  intros [[x|] r]; cbn [fst snd].
  - apply hannotates_borrow; [nox|]. intros _. apply hannotates_pure. intro v'. hret.
  - cbn [hfree hbind hannotates]. eexists. split; [intro; reflexivity|]. hret.
Qed.
Lemma forgiving_vec_borrows M en s1 s2 src : b64_isa s2 -> borrows_new (of_res of_vec) M (forgiving_decode_to_vec_b M en s1 s2) (forgiving_decode_to_vec M en s1 s2) src.
Proof. intro Hs. apply vec_try; [apply forgiving_vec_ann|now apply forgiving_vec_good]. Qed.
