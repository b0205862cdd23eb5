(** [forgiving_decode_to_vec] under the tree rules, for PropTreeHeap.v; the lemmas match those of BorrowsHeapForgiving.v. *)
From Coq Require Import ZArith List Bool Lia ZifyBool ZifyNat.
From Verif Require Import Bytes Mem MemFacts Slices Codec Conc ConcFacts Reify ConcApi ConcApiFacts Isa Simd Spec Ints
  Loops SimdFacts Base64 Base64Ref Base64DecFacts Base64Api Forgiving ForgivingFacts Heap HeapFacts Public
  Borrows BorrowsApi BorrowsFacts BorrowsLib BorrowsCalls BorrowsBridge BorrowsBase64 BorrowsForgiving
  BorrowsHeap BorrowsHeapFacts BorrowsHeapSteps BorrowsHeapCalls BorrowsHeapCodecs BorrowsHeapForgiving
  TreeBorrows TreeFacts TreeCalls TreeBridge TreeBase64 TreeHeap TreeHeapFacts TreeHeapCalls TreeHeapCodecs.
From Verif Require PropTreeRules.
Import ListNotations.
Open Scope nat_scope. Open Scope m_scope. Open Scope borrow_scope. Open Scope heap_scope.

(** ** A tag without a permission for a byte never gets one *)
Lemma none_read pl pt sk st st' u : read_acc pl pt sk st = Some st' -> st u = None -> st' u = None.
Proof.
  intros E K. destruct (PropTreeRules.read_acc_inv _ _ _ _ _ u E) as [H1 H2]. destruct (in_dec Nat.eq_dec u pt) as [I|I].
  - destruct (H1 I) as [_ ->]. exact K.
  - destruct (H2 I) as [[_ ->]|(_ & -> & _)]; [exact K|]. now rewrite K.
Qed.
Lemma none_write pl pt sk st st' u : write_acc pl pt sk st = Some st' -> st u = None -> st' u = None.
Proof.
  intros E K. destruct (PropTreeRules.write_acc_inv _ _ _ _ _ u E) as [H1 H2]. destruct (in_dec Nat.eq_dec u pt) as [I|I].
  - destruct (H1 I) as [W _]. rewrite K in W. discriminate W.
  - destruct (H2 I) as [[_ ->]|(_ & -> & _)]; [exact K|]. now rewrite K.
Qed.
Lemma none_step s st st' u : u < tfresh s -> PropTreeRules.cell_step s st st' -> st u = None -> st' u = None.
Proof.
  intros U E K. destruct E as [|t st' E|t st' E|c st' E|t x st' E]; eauto using none_read, none_write.
  - destruct (PropTreeRules.exit_acc_inv _ _ _ _ _ E) as [-> |(sk & [E1|E1])]; eauto using none_read, none_write.
  - destruct (Nat.eqb_spec u (tfresh s)); [lia|]. eauto using none_read.
Qed.
Lemma none_runs {A} (x : bcode A) s m a s' m' b o u : tree_runs x s m a s' m' -> u < tfresh s -> perms s b o u = None -> perms s' b o u = None.
Proof.
  intros R U F. destruct (PropTreeRules.inv_runs b o u (fun p => p = None) false (fun s st st' U _ => none_step s st st' u U) false) with (2 := R) (d := 0) as (d' & V & _).
  - discriminate.
  - discriminate.
  - constructor; [exact U|discriminate|exact F].
  - exact (PropTreeRules.inv_perm _ _ _ _ _ _ _ V).
Qed.

(** ** The vector, while [decode_inplace] runs on its first [len] bytes *)
Lemma top_slice_mut p n : top p n (slice_mut p n).
Proof. unfold slice_mut. apply (top_fn p n (fun t => fn (reborrow_mut p n t))). apply top_fn, top_reborrow_mut. Qed.
Lemma box_inner s s1 s2 b K len t u sl w : tree_ok s -> box_at s b K t -> len <= K -> step_of (b, 0) len t u s s1 -> inplace_post s1 s2 (b, 0) len u sl w ->
  (forall o v, v < tfresh s1 -> perms s1 b o v = None -> perms s2 b o v = None) -> dstep b s s2 /\ box_at s2 b K t.
Proof.
  intros OK (L & W & C) LE (OK1 & E1 & K1 & EL1 & N1 & U1 & (X & P1 & X1) & W1) (OK2 & E2 & K2 & EL2 & W2 & _) HN.
  assert (E : ext s s2) by exact (ext_trans _ _ _ E1 E2). assert (KC : calls s2 = calls s) by congruence.
  assert (EG : guarded s2 = guarded s) by exact (guarded_calls _ _ KC). split; [|split; [destruct E; lia|split]].
  - split; [exact OK2|]. split; [exact E|]. split; [exact KC|]. intros b' o N. assert (NR : in_range b 0 len b' o = false) by (unfold in_range; lia). now rewrite (EL2 b' o NR), (EL1 b' o NR).
  - intros b' o Hb. assert (Hb' := Hb). apply in_range_iff in Hb' as [-> Ho]. cbn [fst snd] in *. rewrite (proj2 E t L). destruct (in_range b 0 len b o) eqn:EI.
    + specialize (W2 b o EI). rewrite (proj2 E2 u), P1 in W2 by lia. apply (wr_up _ X); [|exact W2]. exact (unguarded s s2 X OK KC X1).
    + rewrite EG, (EL2 b o EI), (EL1 b o EI). now apply W.
  - intros o v Ho Hv. rewrite EG in Hv. assert (LV := ok_guarded _ _ OK Hv). apply HN; [destruct E1; lia|]. specialize (C o v Ho Hv).
    destruct (in_range b 0 len b o) eqn:EI; [|now rewrite (EL1 b o EI)]. now apply N1.
Qed.
(** a read through a pointer made from that to the vector *)
Lemma box_ro_below s s' r j b k u t : tree_ok s -> ro_step r j t s s' -> t < tfresh s -> In u (path s t) -> box_at s b k u -> box_at s' b k u.
Proof.
  intros OK ST LT IU (L & W & C). assert (ST' := ST). destruct ST as (E & K & EL & A). split; [destruct E; lia|]. split.
  - now apply (writes_ro r j t s).
  - intros o v Ho Hv. rewrite (guarded_calls _ _ K) in Hv. specialize (C o v Ho Hv). destruct (in_range (fst r) (snd r) j b o) eqn:EI; [|now rewrite EL].
    destruct (A b o EI) as [_ A2]. destruct (A2 v (ok_guarded _ _ OK Hv)) as (_ & _ & A3). now apply A3.
Qed.
Lemma tdecode_runs en s2 cfg q (data : list Z) u s m : b64_isa s2 -> slice m (fst q) (snd q) data -> tree_ok s -> u < tfresh s /\ writes s q (length data) u ->
  exists r v s' m', tree_runs (b64_decode_inplace_b en s2 cfg q (length data) u) s m (r, v) s' m' /\ inplace_post s s' q (length data) u (of_result r) v /\
    (forall b, length (m' b) = length (m b)) /\ match r with Ok x => fst x = q | Err => True end.
Proof.
  intros Hs S OK T. set (n := length data) in *. set (mm := only q n m).
  assert (S0 : slice mm (fst q) (snd q) data). { unfold mm, n. rewrite (surjective_pairing q) at 1. now apply only_slice. }
  destruct (b64_decode_inplace_ok en s2 cfg data Hs mm (fst q) (snd q) S0) as (r & mmf & E & FR & _). rewrite <- surjective_pairing in E. fold n in E.
  destruct (b64_decode_inplace_ok en s2 cfg data Hs m (fst q) (snd q) S) as (r' & mf & E' & FR' & HR). rewrite <- surjective_pairing in E'. fold n in E'.
  destruct (tgood_runs (fun b o => cells_of q n b o) fst (b64_decode_inplace_b en s2 cfg q n u) (fun a s' _ => inplace_post s s' q n u (of_result (fst a)) (snd a))) with
    (c := b64_decode_inplace en s2 cfg q n) (s := s) (m := m) (mm := mm) (r := r) (mmf := mmf) as ([r0 v] & s' & m' & RU & Er & P & _).
  - apply b64_decode_inplace_ann.
  - exact E.
  - intros b o Hi. destruct (frame_init _ _ _ _ _ _ _ FR Hi) as [Hi'|Hi']; [exact (only_init _ _ _ _ _ Hi')|].
    apply in_range_iff in Hi'. apply in_range_iff. cbn [fst snd] in Hi'. pose proof (b64_need_le cfg data). unfold n. lia.
  - apply only_less.
  - apply (b64_decode_inplace_tgood en s2 cfg n); auto. intros b o Hi. exact (only_init _ _ _ _ _ Hi).
  - assert (EC := tree_runs_code fst _ _ _ _ _ _ RU _ (b64_decode_inplace_ann _ _ _ _ _ _)). cbn [fst snd] in *. rewrite E' in EC. injection EC as -> <-.
    exists r0, v, s', mf. split; [exact RU|]. split; [exact P|]. destruct FR' as (F1 & F2 & _). split.
    + intro b. destruct (Nat.eq_dec b (fst q)) as [->|N]; [exact F2|now rewrite F1].
    + destruct (b64_dec cfg data) as [x|] eqn:ED; [|subst r0; exact Logic.I]. destruct HR as [-> _]. cbn [fst snd]. now rewrite <- surjective_pairing.
Qed.
Lemma tfind_runs s1 m s p src u : slice m (fst p) (snd p) src -> tree_ok s -> can_read s p (length src) u ->
  exists s', tree_runs (find_b s1 p (length src) u) s m (find_ws src) s' m /\ tree_ok s' /\ ro_step p (length src) u s s'.
Proof.
  intros S OK RD. set (n := length src) in *.
  assert (HT : forall mm, slice mm (fst p) (snd p) src -> find_non_ascii_whitespace s1 p n mm = Ret (find_ws src) mm).
  { intros mm [B Sm]. destruct (wp_inv _ _ _ (find_ok s1 mm (fst p) (snd p) src B Sm)) as (r & mm' & E & -> & ->). now rewrite <- surjective_pairing in E. }
  assert (S0 : slice (only p n m) (fst p) (snd p) src). { unfold n. rewrite (surjective_pairing p) at 1. now apply only_slice. }
  destruct (tgood_runs (fun b' o' => cells_of p n b' o') (fun a => a) (find_b s1 p n u) (fun _ s' _ => tree_ok s' /\ ro_step p n u s s') (find_non_ascii_whitespace s1 p n) s m (only p n m) (find_ws src) (only p n m))
    as (a & s' & m' & RU & -> & (OK' & ST) & _).
  - apply find_ann.
  - now apply HT.
  - intros b' o' Hi. exact (only_init _ _ _ _ _ Hi).
  - apply only_less.
  - unfold find_b. eapply (good_reader _ p n u (fun u => slice_parts p n u) (find_non_ascii_whitespace s1 p n)); [intro; apply ro_slice_parts|apply rei_forg_find_non_ascii_whitespace|exact OK|exact RD| |auto].
    intros b' o' Hi. exact (only_init _ _ _ _ _ Hi).
  - assert (EC := tree_runs_code (fun a => a) _ _ _ _ _ _ RU _ (find_ann _ _ _ _)). rewrite (HT m S) in EC. injection EC as <-. exists s'. auto.
Qed.
Lemma thinv_inner s0 p n ts (D : nat -> Prop) s s' : thinv s0 p n ts D s -> thpost s p n D s' -> thinv s0 p n ts D s'.
Proof.
  intros (OK & L & E & P & K & EL & R & NA & KR & AC) (OK' & E' & K' & EL' & R' & AC'). split; [exact OK'|]. split; [destruct E'; lia|]. split; [exact (ext_trans _ _ _ E E')|].
  split; [rewrite (proj2 E') by lia; exact P|]. split; [congruence|]. split; [intros b o H1 H2; rewrite EL' by assumption; auto|]. split; [apply R'; [lia|exact R]|]. split; [|split].
  - intros b o Hb EA. apply (NA b o Hb). now apply AC'.
  - intros t Lt Rt. apply R'; [lia|]. now apply KR.
  - intros b o t Hb Lt EA. apply AC; [exact Hb|exact Lt|]. apply AC'; [exact Hb|lia|exact EA].
Qed.
Lemma tforgiving_vec_good M en s1 s2 src : b64_isa s2 -> tgood_new (tres_held tvec_held) M (forgiving_decode_to_vec_b M en s1 s2) src.
Proof.
  intros Hs m s b o ts S LS OK LT MR. set (n := length src) in *. set (p := (b, o)). unfold forgiving_decode_to_vec_b. set (D := eq (new_block M)).
  apply (th_start p n ts D); auto. intros u st1 _ I1 R1.
  destruct (tfind_runs s1 m st1 p src u S (proj1 I1) R1) as (st2 & RU & OK2 & ST2). apply (thgood_lift_runs _ _ _ _ _ _ _ _ RU). clear RU.
  assert (I2 := thinv_ro _ _ _ _ _ _ _ _ I1 OK2 ST2).
  assert (R2 : can_read st2 p n u) by (split; [destruct ST2 as ((A1 & _) & _), R1; lia|apply (readable_ro p n u st1); [apply I1|exact ST2|apply R1|apply R1]]).
  assert (Hp := find_ws_le src). fold n in Hp. assert (ES := strip_find src). set (pos := find_ws src) in *. clear ST2 I1 R1 OK2.
  eapply th_ro; [apply ro_len|nox|exact I2|exact R2|]. intros _ st3 _ _ I3 R3 _. clear I2 R2.
  apply thgood_pure. intros y m1 E. split. { revert E. unfold debug_assert. destruct (_ <=? _); [|discriminate]. intro E. now injection E. } clear y m1 E.
  eapply th_ro; [apply ro_len|nox|exact I3|exact R3|]. intros _ st4 _ _ I4 R4 _. clear I3 R3.
  assert (F4 : tfresh s < tfresh st4) by apply I4.
  destruct (Nat.eqb_spec pos n) as [EN|NE].
  { assert (G := tto_vec_good M _ src (tb64_try_good M en s2 STANDARD_FORGIVING src Hs) m st4 b o u S LS (proj1 I4) (proj1 R4) (readable_tmay _ _ _ _ (proj2 R4))).
    fold n p in G. refine (thgood_imp _ _ _ _ _ _ G). intros [r v] s5 m5 [P5 H5]. cbn [fst snd] in H5.
    assert (I5 := thinv_inner _ _ _ _ _ _ _ I4 P5). apply (th_new_end _ M s p n ts); [exact I5|]. intros s6 BB. cbn [fst snd]. destruct r as [w|]; [|exact Logic.I].
    destruct H5 as [N5 [U5 O5]].
    split; [exact N5|]. split; [lia|]. apply box_owns, BB; [exact N5|now apply owns_box]. }
  assert (NZ : n <> 0) by lia. set (nb := new_block M) in *.
  eapply th_ro; [apply ro_len|nox|exact I4|exact R4|]. intros _ st5 _ _ I5 R5 _. clear I4 R4.
  apply thgood_pure. intros y m1 E. split. { revert E. destruct (_ <? _)%Z; [discriminate|]. intro E. now injection E. } clear y m1 E.
  set (cap := capacity M n). assert (CG : n <= cap) by now apply capacity_ge.
  cbn [halloc hbind thgood]. intros b0 m1 E. apply alloc_ret in E as (E0 & -> & ->). cbn [fst snd]. fold nb in E0 |- *. set (m1 := upd m nb (repeat None cap)).
  assert (F5 : tfresh s < tfresh st5) by apply I5. set (tv := tfresh st5) in *.
  assert (NB : b <> nb) by (intros ->; now apply (slice_nonempty _ _ _ _ S NZ)). assert (OFF : off p n nb) by (right; exact NB).
  assert (S1 : slice m1 b o src) by (eapply slice_same; [exact S|]; now apply upd_other).
  assert (LM1 : length (m1 nb) = cap) by (unfold m1; rewrite upd_same; apply repeat_length).
  assert (D6 := block_step st5 nb cap (proj1 I5)). assert (B6 := block_box st5 nb cap (proj1 I5)). fold tv in B6. set (st6 := tree_block st5 nb cap) in *.
  assert (I6 : thinv s p n ts D st6) by exact (thinv_d _ _ _ _ _ _ _ _ I5 D6 eq_refl OFF). assert (R6 := can_read_d _ _ _ _ _ _ D6 OFF R5). clearbody st6. clear I5 R5 D6.
  eapply th_ro; [apply ro_len|nox|exact I6|exact R6|]. intros _ st7 BB7 _ I7 R7 _. assert (B7 := BB7 _ _ _ OFF B6). clear BB7.
  eapply th_ro; [apply ro_as_ptr|nox|exact I7|exact R7|]. intros v st8 BB8 _ I8 _ R8. assert (B8 := BB8 _ _ _ OFF B7). clear BB8 I6 R6 B6 I7 R7 B7.
  assert (Lf : length (firstn pos src) = pos) by (rewrite firstn_length; fold n; lia).
  assert (Lk : n - pos = length (skipn pos src)) by (now rewrite skipn_length).
  assert (CP : forall mm, slice mm b o src -> length (mm nb) = cap -> exists mm', copy_nonoverlapping p (at_start nb) pos mm = Ret tt mm' /\
    bytes_at mm' nb 0 (firstn pos src) /\ Frame mm nb 0 pos mm').
  { intros mm [B Sm] Lm. assert (Hf := bytes_at_firstn _ _ _ _ pos Sm).
    assert (WC : wp (copy_nonoverlapping (b, o) (nb, 0) (length (firstn pos src))) (fun _ m' => bytes_at m' nb 0 (firstn pos src) /\ Frame mm nb 0 pos m') mm).
    { apply wp_copy; [exact Hf|rewrite Lf; lia|now left|]. rewrite Lf. auto. }
    destruct (wp_inv _ _ _ WC) as ([] & m' & E & K). rewrite Lf in E. exists m'. auto. }
  assert (LO : forall mm, length (only p n mm nb) = length (mm nb)) by (intro mm; apply (only_masked p n mm nb)).
  change (fst p) with b. change (via2 b v nb tv) with (via2 (fst p) v (fst (at_start nb)) tv).
  eapply (th_exec s p n ts D (at_start nb) pos cap); [apply (rei_forg_copy_nonoverlapping p (at_start nb) pos); reflexivity|exact NB|reflexivity|exact I8|exact R8|exact B8|cbn; lia| |].
  { destruct (CP (only p n m1) (only_slice _ _ _ _ S1)) as (mm' & E & _ & FR); [now rewrite LO|]. exists tt, mm'. auto. }
  intros [] m2 st9 E2 I9 _ _ R9 B9. destruct (CP m1 S1 LM1) as (mm' & E & B2 & FR2). rewrite E in E2. injection E2 as ->. clear I8 R8 B8.
  assert (S2 : slice m2 b o src) by (split; [apply S1|eapply Frame_bytes_at; [exact FR2|apply S1|]; now left]).
  assert (LM2 : length (m2 nb) = cap) by (destruct FR2 as (_ & -> & _); exact LM1).
  eapply (th_exec s p n ts D (at_start nb) 0 cap); [apply (rei_padd p pos)|exact NB|reflexivity|exact I9|exact R9|exact B9|cbn; lia| |].
  { exists (b, o + pos), (only p n m2). split; [|now split]. unfold padd. change (fst p) with b. change (snd p) with o. rewrite (proj2 (Nat.leb_le _ _)); [reflexivity|]. rewrite (proj1 (only_masked p n m2 b)). destruct S2 as [_ [S2 _]]. fold n in S2. lia. }
  intros p' m3 st10 E3 I10 _ _ R10 B10. apply padd_ret in E3 as [-> ->]. clear I9 R9 B9.
  apply thgood_pure. intros l m3 E3. assert (K3 : l = n - pos /\ m3 = m2). { revert E3. unfold psub_len. destruct (_ <=? _); [|discriminate]. intro E3. now injection E3 as <- <-. }
  destruct K3 as [-> ->]. split; [reflexivity|]. clear E3.
  eapply (th_exec s p n ts D (at_start nb) 0 cap); [apply (rei_padd (at_start nb) pos)|exact NB|reflexivity|exact I10|exact R10|exact B10|cbn; lia| |].
  { exists (nb, pos), (only p n m2). split; [|now split]. unfold padd. cbn [fst snd at_start]. rewrite (proj2 (Nat.leb_le _ _)); [reflexivity|]. rewrite LO, LM2. lia. }
  intros d m3 st11 E3 I11 _ _ R11 B11. apply padd_ret in E3 as [-> ->]. clear I10 R10 B10.
  cbn [fst snd at_start p]. rewrite Nat.add_0_l.
  assert (RP : forall mm, slice mm b o src -> length (mm nb) = cap -> exists mm', remove_ascii_whitespace_fallback (b, o + pos) (n - pos) (nb, pos) mm =
      Ret (length (strip_whitespace (skipn pos src))) mm' /\ bytes_at mm' nb pos (strip_whitespace (skipn pos src)) /\ Frame mm nb pos (n - pos) mm').
  { intros mm [B Sm] Lm. assert (WR : wp (remove_ascii_whitespace_fallback (b, o + pos) (length (skipn pos src)) (nb, pos))
      (fun r m' => r = length (strip_whitespace (skipn pos src)) /\ bytes_at m' nb pos (strip_whitespace (skipn pos src)) /\ Frame mm nb pos (length (skipn pos src)) m') mm).
    { apply remove_ok; [now apply bytes_skipn|apply bytes_at_skipn; [exact Hp|exact Sm]|rewrite <- Lk; lia|now left]. }
    rewrite <- Lk in WR. destruct (wp_inv _ _ _ WR) as (y & m' & E4 & -> & K). exists m'. auto. }
  change (via2 b v nb tv) with (via2 (fst p) v (fst (nb, pos)) tv).
  eapply (th_exec s p n ts D (nb, pos) (n - pos) cap); [apply (rei_forg_remove_ascii_whitespace_fallback _ (n - pos) (nb, pos)); reflexivity|exact NB|reflexivity|exact I11|exact R11|exact B11|cbn; lia| |].
  { destruct (RP (only p n m2) (only_slice _ _ _ _ S2)) as (mm'' & E4 & _ & FR); [now rewrite LO|]. do 2 eexists. split; [exact E4|exact FR]. }
  intros rem m3 st12 E3 I12 _ _ _ B12. destruct (RP m2 S2 LM2) as (mm'' & E4 & B3 & FR3). rewrite E4 in E3. injection E3 as <- ->. clear E4 E I11 R11 B11. cbn [fst] in B12.
  assert (LM3 : length (m3 nb) = cap) by (destruct FR3 as (_ & -> & _); exact LM2).
  apply thgood_pure. intros y m4 E. split. { revert E. unfold debug_assert. destruct (_ <=? _); [|discriminate]. intro E. now injection E. } clear y m4 E.
  assert (Ls := strip_le (skipn pos src)). rewrite <- Lk in Ls.
  assert (Ln : pos + length (strip_whitespace (skipn pos src)) = length (strip_whitespace src)) by (rewrite ES, app_length, Lf; reflexivity).
  rewrite Ln. set (data := strip_whitespace src) in *. set (len := length data).
  assert (S3 : slice m3 nb 0 data).
  { split; [now apply strip_bytes; apply S|]. rewrite ES. apply bytes_at_app. rewrite Lf. split; [|exact B3].
    eapply Frame_bytes_at; [exact FR3|exact B2|]. rewrite Lf. right. lia. }
  set (q := at_start nb). assert (LL : len <= cap) by (unfold len; lia). assert (OK12 : tree_ok st12) by apply I12.
  apply (thgood_lift (fun _ _ => True)); [apply top_slice_mut|]. destruct (top_slice_mut q len) as [_ HX]. apply HX; [exact OK12|apply B12| |].
  { apply (writes_sub _ (nb, 0) cap); [|apply B12]. intros b' o' Hb. apply in_range_iff in Hb as [-> Hb]. apply in_range_iff. cbn in *. lia. }
  clear HX. intros u13 st13 ST13. assert (ST13' := ST13). destruct ST13 as (OK13 & E13 & K13 & _ & _ & U13 & (X & P13 & X13) & W13).
  destruct (tdecode_runs en s2 STANDARD_FORGIVING q data u13 st13 m3 Hs S3 OK13) as (r & v14 & st14 & m4 & RU & P14 & LM4 & HR).
  { split; [lia|exact W13]. }
  destruct (box_inner st12 st13 st14 nb cap len tv u13 (of_result r) v14 OK12 B12 LL ST13' P14) as [D14 B14].
  { intros o' w Lw. apply (none_runs _ _ _ _ _ _ _ _ _ RU Lw). }
  apply (thgood_lift_runs _ _ _ _ _ _ _ _ RU). clear RU. destruct P14 as (OK14 & E14 & _ & _ & _ & RT). cbn [fst snd].
  assert (I14 : thinv s p n ts D st14) by exact (thinv_d _ _ _ _ _ _ _ _ I12 D14 eq_refl OFF).
  destruct r as [x|].
  - destruct x as [qx kx]. cbn [of_result fst snd] in *. subst qx. destruct RT as (L14 & T14 & IP & _).
    assert (IT : In tv (path st14 v14)).
    { apply (ok_incl _ v14 u13 OK14); [lia|exact IP|]. rewrite (proj2 E14 u13), P13 by lia. apply in_or_app. right. apply ok_self; [exact OK12|apply B12]. }
    apply (thgood_lift (fun _ _ => True)); [nox|]. apply ro_len; [exact OK14|split; [lia|exact (writes_readable _ _ _ _ T14)]|].
    intros _ st15 OK15 ST15 _ _. assert (B15 : box_at st15 nb cap tv) by (apply (box_ro_below st14 st15 q kx nb cap tv v14); auto; lia).
    assert (D15 : dstep nb st14 st15) by exact (ro_dstep _ _ _ _ _ ST15 OK15).
    apply thgood_pure. intros w m5 E5. apply set_len_ret in E5 as [-> ->]. split; [reflexivity|]. cbn [thgood].
    apply (th_new_end _ M s p n ts); [exact (thinv_d _ _ _ _ _ _ _ _ I14 D15 eq_refl OFF)|]. intros s16 BB. cbn [fst snd]. split; [exact OFF|]. split; [lia|]. cbn [v_block]. rewrite LM4, LM3. now apply box_owns, BB.
  - apply (th_free nb cap); [now rewrite LM4, LM3|exact OK14|exact B14|]. intros s15 D15. cbn [thgood]. apply (th_new_end _ M s p n ts); [|intros; exact Logic.I].
    exact (thinv_d _ _ _ _ _ _ _ _ I14 D15 eq_refl OFF).
Qed.
Lemma tforgiving_vec_trees M en s1 s2 src : b64_isa s2 -> tree_new (of_res of_vec) M (forgiving_decode_to_vec_b M en s1 s2) (forgiving_decode_to_vec M en s1 s2) src.
Proof. intro Hs. apply tvec_try; [apply forgiving_vec_ann|now apply tforgiving_vec_good]. Qed.
