(** Forgiving decoding in base64-simd under the rules of TreeBorrows.v *)
From Coq Require Import ZArith List Bool Lia ZifyBool ZifyNat.
From Verif Require Import Bytes Mem MemFacts Slices Codec Conc ConcFacts Reify ConcApi ConcApiFacts Isa Simd Spec Ints Base64 Base64Ref Base64Api Forgiving ForgivingFacts
  Borrows BorrowsApi BorrowsFacts BorrowsBridge BorrowsBase64 BorrowsForgiving TreeBorrows TreeFacts TreeCalls TreeBridge TreeBase64.
Import ListNotations.
Open Scope nat_scope. Open Scope m_scope. Open Scope borrow_scope.

(** ** Calls made while a call runs *)
Lemma own_same s0 p n t g s s' : own_inv s0 p n t g s -> tsame s s' -> tree_ok s' -> own_inv s0 p n t g s'.
Proof.
  intros (OK & EG & L & E & P & K & EL & W) (A & B & C & D) OK'.
  assert (WW : forall u, writes s p n u -> writes s' p n u) by (intros u Wu b o Hb; unfold guarded; rewrite A, B, D; now apply Wu).
  split; [exact OK'|]. split; [exact EG|]. split; [lia|]. split; [split; [lia|rewrite B; apply E]|]. split; [now rewrite B|]. split; [congruence|].
  split; [intros b o Hb; rewrite A; now apply EL|auto].
Qed.
(** code that accesses nothing *)
Lemma tgood_exec_pure (F : nat -> nat -> Prop) {X} v (c : M X) (Q : X -> trees -> mem -> Prop) (I : trees -> Prop) s mm : reified True (fun _ => False) any c ->
  (forall m m0 y m', c m = Ret y m' -> c m0 = Ret y m0) -> (forall s s', I s -> tsame s s' -> tree_ok s' -> I s') -> (forall s, I s -> tree_ok s) -> I s ->
  (forall y s', c mm = Ret y mm -> I s' -> Q y s' mm) -> tgood F (exec v c) Q s mm.
Proof.
  intros [p HF HS] HP HI HO I0 H. unfold exec. cbn [tgood]. exists (fun _ => False), p. split; [exact HF|]. split; [now apply HS|].
  intros y mm' E. assert (EM := HP _ mm _ _ E). rewrite E in EM. injection EM as ->. exists I. split; [exact I0|]. split; [|intros s' Is; now apply H]. intros _.
  exists (fun b => map (fun _ => None) (mm b)), (fun b => map (fun _ => None) (mm b)). split; [|split].
  - intro b. split; [apply map_length|]. intros o x Hx. apply nth_error_In, in_map_iff in Hx as (? & [=] & _).
  - exact (HP _ _ _ _ E).
  - assert (NI : forall b o, init (fun b => map (fun _ => None) (mm b)) b o -> False).
    { intros b o [x Hx]. apply nth_error_In, in_map_iff in Hx as (? & [=] & _). }
    apply serves_of; auto.
    + intros s1 s2 S OK I1. now apply (HI s1).
    + intros s1 q n _ Hn HD. destruct (NI _ _ (HD 0 Hn)).
    + intros s1 q n _ Hn _ HD. destruct (NI _ _ (HD 0 Hn)).
Qed.
Lemma own_unguarded s0 p n t g s x : tree_ok s0 -> own_inv s0 p n t g s -> g < x -> ~ In x (guarded s).
Proof.
  intros OK0 (_ & -> & _ & _ & _ & K & _) L H. unfold guarded in H. rewrite K in H. destruct H as [H|H]; [cbn in H; lia|]. apply (ok_guarded s0) in H; [lia|exact OK0].
Qed.
Lemma own_nested s0 p n t g s s' v X len sl u : own_inv s0 p n t g s -> v < tfresh s -> path s v = X ++ path s g -> (forall x, In x X -> ~ In x (guarded s)) ->
  inplace_post s s' p len v sl u -> len <= n -> own_inv s0 p n t g s'.
Proof.
  intros I LV PV NX (OK' & E' & K' & EL' & W' & _) LE. assert (LG := own_fresh _ _ _ _ _ _ I). destruct I as (OK & EG & L & E & P & K & EL & W).
  assert (GE : guarded s' = guarded s) by (unfold guarded; now rewrite K').
  split; [exact OK'|]. split; [exact EG|]. split; [destruct E'; lia|]. split; [exact (ext_trans _ _ _ E E')|]. split; [rewrite (proj2 E') by exact LG; exact P|].
  split; [congruence|]. split.
  - intros b o H. rewrite EL'; [now apply EL|]. revert H. unfold in_range. lia.
  - intros b o Hb. rewrite (proj2 E') by exact LG. destruct (in_range (fst p) (snd p) len b o) eqn:EI.
    + specialize (W' b o EI). rewrite (proj2 E'), PV in W' by exact LV. apply (wr_up _ X); [|exact W']. intros x Hx. rewrite GE. now apply NX.
    + rewrite EL', GE by exact EI. now apply W.
Qed.
Lemma src_unguarded s0 p n q k ts td s x : tree_ok s0 -> src_inv s0 p n q k ts td s -> tfresh s0 < x -> ~ In x (guarded s).
Proof.
  intros OK0 (_ & _ & _ & _ & K & _) L H. unfold guarded in H. rewrite K in H. destruct H as [H|H]; [cbn in H; lia|]. apply (ok_guarded s0) in H; [lia|exact OK0].
Qed.
Lemma src_nested s0 p n q k ts td s s' v X len sl u : apart p n q k -> td < tfresh s0 -> src_inv s0 p n q k ts td s -> v < tfresh s -> path s v = X ++ path s td ->
  (forall x, In x X -> ~ In x (guarded s)) -> inplace_post s s' q len v sl u -> len <= k -> src_inv s0 p n q k ts td s'.
Proof.
  intros AP LD (OK & L & E & P & K & EL & R & NA & KR & W) LV PV NX (OK' & E' & K' & EL' & W' & _) LE.
  assert (GE : guarded s' = guarded s) by (unfold guarded; now rewrite K').
  assert (OUT : forall b o, cells_of p n b o -> perms s' b o = perms s b o).
  { intros b o Hb. apply EL'. destruct (in_range (fst q) (snd q) len b o) eqn:ER; [|reflexivity]. destruct (AP b o Hb). apply in_range_iff in ER. apply in_range_iff. lia. }
  assert (RR : forall u, u < tfresh s -> readable s p n u -> readable s' p n u).
  { intros x Lx Rx b o Hb. rewrite OUT, GE, (proj2 E') by assumption. now apply Rx. }
  split; [exact OK'|]. split; [destruct E'; lia|]. split; [exact (ext_trans _ _ _ E E')|]. split; [rewrite (proj2 E') by exact L; exact P|]. split; [congruence|].
  split; [|split; [auto|split; [|split]]].
  - intros b o H1 H2. rewrite EL'; [now apply EL|]. revert H2. unfold in_range. lia.
  - intros b o x Hb. rewrite OUT by exact Hb. now apply NA.
  - intros x Lx Rx. apply RR; [lia|auto].
  - intros b o Hb. assert (LT : td < tfresh s) by lia. rewrite (proj2 E') by exact LT. destruct (in_range (fst q) (snd q) len b o) eqn:EI.
    + specialize (W' b o EI). rewrite (proj2 E'), PV in W' by exact LV. apply (wr_up _ X); [|exact W']. intros x Hx. rewrite GE. now apply NX.
    + rewrite EL', GE by exact EI. now apply W.
Qed.
Lemma src_into s0 p n q k ts td s s' sl u : td < tfresh s0 -> src_inv s0 p n q k ts td s -> into_post s s' p n q k td sl u -> src_inv s0 p n q k ts td s'.
Proof.
  intros LD (OK & L & E & P & K & EL & R & NA & KR & W) (OK' & E' & K' & [EL' NA'] & KR' & W' & _).
  split; [exact OK'|]. split; [destruct E'; lia|]. split; [exact (ext_trans _ _ _ E E')|]. split; [rewrite (proj2 E') by exact L; exact P|]. split; [congruence|].
  split; [intros b o H1 H2; rewrite EL' by assumption; now apply EL|]. split; [now apply KR'|]. split; [|split; [|exact W']].
  - intros b o x Hb Hx EA. apply (NA b o x Hb Hx). apply NA'; [exact Hb|lia|exact EA].
  - intros x Lx Rx. apply KR'; [lia|auto].
Qed.

(** [decode_inplace] on part of what the caller may access *)
Lemma decode_nested (F : nat -> nat -> Prop) en s2 cfg q (data : list Z) u (Q : result (ptr * nat) * nat -> trees -> mem -> Prop) s mm :
  b64_isa s2 -> slice mm (fst q) (snd q) data -> tree_ok s -> u < tfresh s /\ writes s q (length data) u ->
  (forall r v s' mm', inplace_post s s' q (length data) u (of_result r) v -> Q (r, v) s' mm') ->
  tgood F (b64_decode_inplace_b en s2 cfg q (length data) u) Q s mm.
Proof.
  intros Hs S W T H. set (n := length data) in *. set (mm0 := only q n mm).
  assert (S0 : slice mm0 (fst q) (snd q) data). { unfold mm0, n. rewrite (surjective_pairing q) at 1. now apply only_slice. }
  destruct (b64_decode_inplace_ok en s2 cfg data Hs mm0 (fst q) (snd q) S0) as (r & mmf & E & FR & _). rewrite <- surjective_pairing in E. fold n in E.
  eapply (tgood_local (fun b o => cells_of q n b o) F fst _ (fun a s' _ => inplace_post s s' q n u (of_result (fst a)) (snd a)))
    with (mm0 := mm0) (mmf := mmf); [|apply b64_decode_inplace_ann|exact E| |apply only_less|].
  - intros [a v] s' _ mm' _ P. now apply H.
  - intros b o Hi. destruct (frame_init _ _ _ _ _ _ _ FR Hi) as [Hi'|Hi']; [exact (only_init _ _ _ _ _ Hi')|].
    apply in_range_iff in Hi'. apply in_range_iff. cbn [fst snd] in Hi'. pose proof (b64_need_le cfg data). unfold n. lia.
  - apply (b64_decode_inplace_tgood en s2 cfg n); auto. intros b o Hi. exact (only_init _ _ _ _ _ Hi).
Qed.

(** ** [remove_ascii_whitespace_inplace] *)
(** the returned reference, [u], to the first [len] bytes *)
Definition remove_post (s s' : trees) (p : ptr) (n t len u : nat) : Prop :=
  inplace_post s s' p n t None 0 /\ len <= n /\ u < tfresh s' /\ (exists X, path s' u = X ++ path s t /\ forall x, In x X -> tfresh s <= x) /\ writes s' p len u.
Lemma remove_inplace_tgood (F : nat -> nat -> Prop) sx p n t (Q : nat * nat -> trees -> mem -> Prop) st mm :
  (forall b o, F b o -> cells_of p n b o) -> (forall b o, init mm b o -> cells_of p n b o) -> tree_ok st -> t < tfresh st /\ writes st p n t ->
  (forall len u s' mm', remove_post st s' p n t len u -> Q (len, u) s' mm') -> tgood F (remove_inplace_b sx p n t) Q st mm.
Proof.
  intros HF HI W WI H. unfold remove_inplace_b. apply (inplace_start F p n t); auto. intros g s1 I1. pro. unfold find_b.
  eapply (inplace_reader F st p n t g _ (fun u => slice_parts p n u)); [intro; apply ro_slice_parts|apply (rei_forg_find_non_ascii_whitespace sx p n)|eassumption|eassumption|assumption|exact HI|].
  intros pos s3 I3 _. apply tgood_bind. apply (tgood_exec_pure F _ _ _ (own_inv st p n t g)); [apply rei_forg_debug_assert|apply pure_assert|apply own_same|intros sz Iz; apply Iz|exact I3|].
  clear s3 I3. intros [] s3 _ I3. pro. pro.
  destruct (Nat.eqb_spec pos n) as [->|NE].
  { match goal with I : own_inv _ _ _ _ _ ?s |- tgood _ _ _ ?s _ => rename I into I6; rename s into s6 end.
    assert (LG := own_fresh _ _ _ _ _ _ I6). destruct WI as [LT _]. cbn [tgood]. unfold final. destruct (own_leave _ _ _ _ _ _ W LT I6) as (s7 & -> & P & WW & F7 & PS).
    destruct I6 as (OK6 & EG & L6 & E6 & P6 & K6 & EL6 & W6). apply H. split; [exact P|]. split; [lia|]. split; [lia|]. split.
    - exists [g]. rewrite PS, P6. split; [reflexivity|]. intros x [<-|[]]. lia.
    - apply WW; auto. now apply ok_self. }
  pro. pro. apply tgood_bind.
  match goal with I : own_inv _ _ _ _ _ ?s |- tgood _ _ _ ?s _ => rename I into I6; rename s into s6 end.
  apply (tgood_exec_pure F _ _ _ (own_inv st p n t g)); [apply rei_psub_len|apply pure_psub|apply own_same|intros sz Iz; apply Iz|exact I6|]. clear I6. intros l sb _ I6.
  eapply inplace_raw; [exact I6|]. intros r s7 I7.
  eapply inplace_exec; [exact (rei_any _ _ (rei_padd p pos))|exact I7|exact HF|]. clear s7 I7. intros d mm1 s7 I7 Ed.
  assert (FD : fst d = fst p). { revert Ed. unfold padd. destruct (_ <=? _); [|discriminate]. intro Ed. now injection Ed as <- _. }
  eapply inplace_exec; [apply (rei_forg_remove_ascii_whitespace_fallback d l d); now intros _|exact I7|exact HF|]. clear s7 I7. intros rem mm2 s7 I7 _.
  apply tgood_bind. apply (tgood_exec_pure F _ _ _ (raw_inv st p n t r)); [apply rei_forg_debug_assert|apply pure_assert|apply raw_same|intros sz (gz & Iz & _); apply Iz|exact I7|].
  clear s7 I7. intros [] s7 _ (g' & I7 & _).
  assert (g' = g) as ->. { destruct I6 as (_ & -> & _), I7 as (_ & -> & _). reflexivity. }
  assert (LG := own_fresh _ _ _ _ _ _ I7). assert (OK7 : tree_ok s7) by apply I7. assert (W7 : writes s7 p n g) by apply I7.
  apply tgood_bind. unfold reborrow_mut at 1. apply good_retag; [auto|exact OK7|exact LG|exact (writes_readable _ _ _ _ W7)|]. intros s8 C8.
  assert (I8 := own_child _ _ _ _ _ _ _ _ _ _ I7 LG (ok_self _ _ OK7 LG) (le_n n) C8). assert (W8 := child_writes _ _ _ _ _ _ OK7 LG W7 C8).
  destruct C8 as (OK8 & F8 & E8 & P8 & _). set (g2 := tfresh s7) in *.
  apply inplace_start; [exact OK8|split; [lia|exact W8]|]. intros g3 s9 I9. apply tgood_bind.
  apply (tgood_exec_pure F _ _ _ (own_inv s8 p n g2 g3)); [destruct (pos + rem <=? n); [now apply rei_ret|apply rei_ub]|apply pure_if|apply own_same|intros sz Iz; apply Iz|exact I9|].
  clear s9 I9. intros len s9 Elen I9.
  assert (LE : len <= n). { revert Elen. destruct (Nat.leb_spec (pos + rem) n); [|discriminate]. intro Elen. injection Elen as <-. assumption. }
  assert (LG3 := own_fresh _ _ _ _ _ _ I9). assert (OK9 : tree_ok s9) by apply I9.
  assert (W9 : writes s9 p len g3).
  { apply (writes_sub _ p n); [|apply I9]. intros b o Hb. apply in_range_iff in Hb. apply in_range_iff. lia. }
  apply tgood_bind. unfold reborrow_mut. apply good_retag; [auto|exact OK9|exact LG3|exact (writes_readable _ _ _ _ W9)|]. intros s10 C10.
  assert (I10 := own_child _ _ _ _ _ _ _ _ _ _ I9 LG3 (ok_self _ _ OK9 LG3) LE C10). assert (W10 := child_writes _ _ _ _ _ _ OK9 LG3 W9 C10).
  destruct C10 as (OK10 & F10 & E10 & P10 & _). set (g4 := tfresh s9) in *.
  cbn [tgood]. unfold final at 1. assert (L2 : g2 < tfresh s8) by lia. destruct (own_leave _ _ _ _ _ _ OK8 L2 I10) as (s11 & -> & P11 & WW11 & F11 & PS11).
  assert (IG3 : In g3 (path s10 g4)) by (rewrite P10; right; now apply ok_self).
  assert (W11 := WW11 _ _ g4 ltac:(lia) IG3 W10).
  assert (NX : forall x, In x [g2] -> ~ In x (guarded s8)).
  { intros x [<-|[]]. apply (own_unguarded _ _ _ _ _ _ _ W I8). unfold g2. lia. }
  assert (PG2 : path s8 g2 = [g2] ++ path s8 g) by (rewrite P8, (proj2 E8) by exact LG; reflexivity).
  assert (I11 := own_nested _ _ _ _ _ _ _ _ _ _ _ _ I8 L2 PG2 NX P11 (le_n n)).
  assert (P4 : path s11 g4 = [g4; g3; g2; g] ++ path st t).
  { rewrite PS11, P10. destruct I9 as (_ & _ & _ & _ & -> & _). rewrite P8. destruct I7 as (_ & _ & _ & _ & -> & _). reflexivity. }
  unfold final. destruct (own_leave _ _ _ _ _ _ W (proj1 WI) I11) as (s12 & -> & P12 & WW12 & F12 & PS12).
  apply H. split; [exact P12|]. split; [exact LE|]. split; [lia|]. split.
  - exists [g4; g3; g2; g]. rewrite PS12, P4. split; [reflexivity|]. destruct I6 as (_ & EG & _), I9 as (_ & EG3 & _).
    intros x [<-|[<-|[<-|[<-|[]]]]]; unfold g4, g2 in *; lia.
  - apply WW12; [lia|rewrite P4; cbn; auto|exact W11].
Qed.

(** ** The functions *)
Lemma forgiving_inplace_tgood en s1 s2 data : b64_isa s2 -> good_inplace_on of_result (forgiving_decode_inplace_b en s1 s2) data.
Proof.
  intros Hs F p t Q st mm S HF HI W WI H. set (n := length data) in *. unfold forgiving_decode_inplace_b. apply (inplace_start F p n t); auto. intros g st1 I1.
  assert (LG := own_fresh _ _ _ _ _ _ I1). assert (OK1 : tree_ok st1) by apply I1. assert (W1 : writes st1 p n g) by apply I1.
  assert (EG : g = tfresh st) by apply I1. assert (PG : path st1 g = g :: path st t) by apply I1.
  apply tgood_bind. unfold reborrow_mut at 1. apply good_retag; [auto|exact OK1|exact LG|exact (writes_readable _ _ _ _ W1)|]. intros st2 C2.
  assert (I2 := own_child _ _ _ _ _ _ _ _ _ _ I1 LG (ok_self _ _ OK1 LG) (le_n n) C2). assert (W2 := child_writes _ _ _ _ _ _ OK1 LG W1 C2).
  destruct C2 as (OK2 & F2 & E2 & P2 & _). set (g2 := tfresh st1) in *. assert (L2 : g2 < tfresh st2) by lia.
  destruct S as [B S]. destruct (wp_inv _ _ _ (remove_inplace_ok s1 mm (fst p) (snd p) data B S)) as (r & mmf & E & -> & BF & FR).
  rewrite <- surjective_pairing in E. fold n in E. apply tgood_bind.
  assert (G : tgood F (remove_inplace_b s1 p n g2) (fun a s' _ => remove_post st2 s' p n g2 (fst a) (snd a)) st2 mm).
  { apply (remove_inplace_tgood F s1 p n); auto. }
  apply (tgood_code F fst _ _ _ _ _ _ _ (remove_inplace_ann _ _ _ _)) with (2 := E) in G. refine (tgood_imp F _ _ _ _ _ _ G). clear G E.
  intros [len u] st3 mm3 ((P3 & LE & LU & (X & PX & NX) & WU) & EL & ->). cbn [fst snd] in *. subst len. set (len := length (strip_whitespace data)) in *.
  assert (PG2 : path st2 g2 = [g2] ++ path st2 g) by (rewrite P2, (proj2 E2) by exact LG; reflexivity).
  assert (NG2 : forall x, In x [g2] -> ~ In x (guarded st2)).
  { intros x [<-|[]]. apply (own_unguarded _ _ _ _ _ _ _ W I2). unfold g2. lia. }
  assert (I3 := own_nested _ _ _ _ _ _ _ _ _ _ _ _ I2 L2 PG2 NG2 P3 (le_n n)). assert (OK3 : tree_ok st3) by apply I3.
  assert (PU : path st3 u = (X ++ [g2]) ++ path st3 g).
  { rewrite PX, PG2, <- app_assoc. cbn [app]. do 2 f_equal. symmetry. apply (proj2 (proj1 (proj2 P3))). lia. }
  assert (LG3 := own_fresh _ _ _ _ _ _ I3).
  assert (IU : In g (path st3 u)) by (rewrite PU; apply in_or_app; right; now apply ok_self).
  apply tgood_bind. unfold reborrow_mut. apply good_retag; [auto|exact OK3|exact LU|exact (writes_readable _ _ _ _ WU)|]. intros st4 C4.
  assert (I4 := own_child _ _ _ _ _ _ _ _ _ _ I3 LU IU LE C4). assert (W4 := child_writes _ _ _ _ _ _ OK3 LU WU C4).
  destruct C4 as (OK4 & F4 & E4 & P4 & _). set (g4 := tfresh st3) in *. assert (L4 : g4 < tfresh st4) by lia.
  assert (PG4 : path st4 g4 = (g4 :: X ++ [g2]) ++ path st4 g) by (rewrite P4, PU, (proj2 E4) by exact LG3; reflexivity).
  apply decode_nested; auto.
  - split; [now apply strip_bytes|exact BF].
  - intros r v st5 mm5 P5. fold len in P5.
    assert (NG4 : forall x, In x (g4 :: X ++ [g2]) -> ~ In x (guarded st4)).
    { intros x Hx. apply (own_unguarded _ _ _ _ _ _ _ W I4). destruct Hx as [<-|Hx]; [unfold g4; lia|]. apply in_app_or in Hx as [Hx|[<-|[]]]; [|unfold g2; lia]. apply NX in Hx. lia. }
    assert (I5 := own_nested _ _ _ _ _ _ _ _ _ _ _ _ I4 L4 PG4 NG4 P5 LE). unfold final.
    destruct (own_leave _ _ _ _ _ _ W (proj1 WI) I5) as (st6 & -> & P6 & WW6 & F6 & PS6). apply H. destruct P6 as (Q1 & Q2 & Q3 & Q4 & Q5 & _).
    do 5 (split; [assumption|]). destruct P5 as (OK5 & E5 & _ & _ & _ & RT). destruct (of_result r) as [[q0 k0]|]; [|exact Logic.I].
    destruct RT as (L5 & W5 & IV & SUB).
    assert (IG5 : In g (path st5 v)).
    { apply (ok_incl _ _ _ OK5) in IV; [|lia]. apply IV. rewrite (proj2 E5), PG4 by exact L4. apply in_or_app. right. now apply ok_self; [|apply (own_fresh _ _ _ _ _ _ I4)]. }
    assert (LF : tfresh st < tfresh st4) by apply I4.
    split; [lia|]. split; [apply WW6; [lia|exact IG5|exact W5]|]. split.
    + rewrite PS6. apply (ok_incl _ _ _ OK5) in IG5; [|lia]. apply IG5. destruct I5 as (_ & _ & _ & _ & -> & _). right. apply ok_self; [exact W|apply WI].
    + intros b o Hb. apply SUB, in_range_iff in Hb. apply in_range_iff. lia.
Qed.
Lemma forgiving_tgood en s1 s2 src k : b64_isa s2 -> good_into_on of_result (forgiving_decode_b en s1 s2) src k.
Proof.
  intros Hs F p q ts td Q st mm N S RM HF HI W LT RI OT H. set (n := length src) in *. assert (LT' := LT). destruct LT' as [LD AP]. unfold forgiving_decode_b.
  apply (into_start F p n ts q k td); auto. intros u st1 I1 R1 L1. iro.
  destruct (Nat.leb_spec n k) as [LK|LK]; cbn [negb]; [|apply (into_fail F st p n q k ts td); auto]. unfold find_b.
  eapply (into_reader F st p n q k ts td u (fun u => slice_parts p n u)); [intro; apply ro_slice_parts|apply (rei_forg_find_non_ascii_whitespace s1 p n)|eassumption|exact LT|assumption|assumption|exact HI|].
  destruct S as [B S]. intros pos s3 I3 R3 L3 EP. iro.
  eapply (into_read F st p n q k ts td); [apply rei_forg_debug_assert|eassumption|eassumption|exact HI|exact LT|]. intros [] s5 I5 KR5 _.
  assert (R5 : can_read s5 p n u) by (apply KR5; assumption). clear KR5. assert (L5 : u < tfresh s5) by apply R5. iro.
  destruct (wp_inv _ _ _ (find_ok s1 mm (fst p) (snd p) src B S)) as (r & mm' & E & -> & ->). rewrite <- surjective_pairing in E. fold n in E.
  rewrite EP in E. injection E as ->. clear EP. assert (Hp := find_ws_le src). fold n in Hp. assert (ES := strip_find src). set (pos := find_ws src) in *.
  match goal with I : src_inv st p n q k ts td ?s, R : can_read ?s p n u, L : u < tfresh ?s |- tgood _ _ _ ?s _ => rename I into I6; rename R into R6; rename L into L6; rename s into s6 end.
  destruct (Nat.eqb_spec pos n) as [EN|NE].
  { apply (b64_decode_tgood en s2 STANDARD_FORGIVING n k); auto.
    - apply I6.
    - split; [|exact AP]. destruct I6 as (_ & LF & _). lia.
    - apply I6.
    - intros rx vx s7 mm7 P7. assert (I7 := src_into _ _ _ _ _ _ _ _ _ _ _ LD I6 P7). unfold final.
      destruct (into_leave _ _ _ _ _ _ _ _ AP LD I7) as (s8 & -> & P8 & WW & F8). apply H. destruct P8 as (Q1 & Q2 & Q3 & Q4 & Q5 & Q6 & _). do 6 (split; [assumption|]).
      destruct P7 as (_ & _ & _ & _ & _ & _ & RT). destruct (of_result rx) as [[q0 k0]|]; [|exact Logic.I]. destruct RT as (L7 & W7 & SUB). destruct I6 as (_ & LF & _).
      split; [lia|]. split; [|exact SUB]. apply WW; [intros b o Ha1 Ha2; exact (AP b o Ha1 (SUB b o Ha2))|lia|exact W7]. }
  iro. iro. cbv zeta. clear R6 L6 I6.
  match goal with I : src_inv st p n q k ts td ?s, R : can_read ?s p n ?v |- tgood _ (bbind (exec (via2 _ ?v _ _) _) _) _ ?s _ => rename I into I8; rename R into R8; rename s into s8; rename v into tp end.
  assert (Lf : length (firstn pos src) = pos) by (rewrite firstn_length; fold n; lia).
  assert (Lk : n - pos = length (skipn pos src)) by (now rewrite skipn_length).
  assert (Hf := bytes_at_firstn _ _ _ _ pos S).
  eapply into_exec_keeps; [apply (rei_forg_copy_nonoverlapping p q pos); reflexivity|exact I8|exact R8|exact N|exact LT|exact HF|]. intros [] m1 sa Ia Ra E1.
  assert (K1 : bytes_at m1 (fst q) (snd q) (firstn pos src) /\ Frame mm (fst q) (snd q) pos m1).
  { assert (WC : wp (copy_nonoverlapping (fst p, snd p) (fst q, snd q) (length (firstn pos src)))
      (fun _ m' => bytes_at m' (fst q) (snd q) (firstn pos src) /\ Frame mm (fst q) (snd q) pos m') mm).
    { apply wp_copy; [exact Hf|rewrite Lf; unfold room in RM; lia|now left|]. rewrite Lf. auto. }
    destruct (wp_inv _ _ _ WC) as (y & m' & E & K). rewrite <- !surjective_pairing, Lf, E1 in E. injection E as <- <-. exact K. }
  destruct K1 as [B1 FR1].
  assert (S1 : bytes_at m1 (fst p) (snd p) src) by (eapply Frame_bytes_at; [exact FR1|exact S|]; now left).
  assert (RM1 : room m1 (fst q) (snd q) k) by (unfold room in *; destruct FR1 as (_ & -> & _); exact RM).
  eapply into_exec_keeps; [apply (rei_padd p pos)|exact Ia|exact Ra|exact N|exact LT|exact HF|]. intros p' m2 sb Ib Rb E2.
  assert (K2 : p' = (fst p, snd p + pos) /\ m2 = m1). { revert E2. unfold padd. destruct (_ <=? _); [|discriminate]. intro E2. now injection E2 as <- <-. }
  destruct K2 as [-> ->].
  eapply into_exec_keeps; [apply (rei_psub_len n pos)|exact Ib|exact Rb|exact N|exact LT|exact HF|]. intros l m2 sc Ic Rc E3.
  assert (K2 : l = n - pos /\ m2 = m1). { revert E3. unfold psub_len. destruct (_ <=? _); [|discriminate]. intro E3. now injection E3 as <- <-. }
  destruct K2 as [-> ->].
  eapply into_exec_keeps; [apply (rei_padd q pos)|exact Ic|exact Rc|exact N|exact LT|exact HF|]. intros d m2 sd Id Rd E4.
  assert (K2 : d = (fst q, snd q + pos) /\ m2 = m1). { revert E4. unfold padd. destruct (_ <=? _); [|discriminate]. intro E4. now injection E4 as <- <-. }
  destruct K2 as [-> ->].
  eapply into_exec_keeps; [apply (rei_forg_remove_ascii_whitespace_fallback _ (n - pos) (fst q, snd q + pos)); reflexivity|exact Id|exact Rd|exact N|exact LT|exact HF|]. intros rem m2 se Ie Re E5.
  assert (K2 : rem = length (strip_whitespace (skipn pos src)) /\ bytes_at m2 (fst q) (snd q + pos) (strip_whitespace (skipn pos src)) /\ Frame m1 (fst q) (snd q + pos) (n - pos) m2).
  { assert (WR : wp (remove_ascii_whitespace_fallback (fst p, snd p + pos) (length (skipn pos src)) (fst q, snd q + pos))
      (fun r m' => r = length (strip_whitespace (skipn pos src)) /\ bytes_at m' (fst q) (snd q + pos) (strip_whitespace (skipn pos src)) /\
        Frame m1 (fst q) (snd q + pos) (length (skipn pos src)) m') m1).
    { apply remove_ok; [now apply bytes_skipn|apply bytes_at_skipn; [exact Hp|exact S1]|rewrite <- Lk; unfold room in RM1; lia|now left]. }
    rewrite <- Lk in WR. destruct (wp_inv _ _ _ WR) as (y & m' & E & K). rewrite E5 in E. injection E as <- <-. exact K. }
  destruct K2 as (-> & B2 & FR2). assert (Ls := strip_le (skipn pos src)). rewrite <- Lk in Ls.
  eapply into_exec_keeps; [apply rei_forg_debug_assert|exact Ie|exact Re|exact N|exact LT|exact HF|]. intros [] m3 sf If _ E6.
  assert (m3 = m2) as ->. { revert E6. unfold debug_assert. destruct (_ <=? _); [|discriminate]. intro E6. now injection E6. }
  assert (Ln : pos + length (strip_whitespace (skipn pos src)) = length (strip_whitespace src)) by (rewrite ES, app_length, Lf; reflexivity).
  rewrite Ln. set (len := length (strip_whitespace src)) in *. assert (LL : len <= k) by lia.
  assert (OKf : tree_ok sf) by apply If. assert (LDf : td < tfresh sf) by (destruct If as (_ & LF & _); lia). assert (LS : tfresh st < tfresh sf) by apply If.
  assert (Wf : writes sf q len td).
  { apply (writes_sub _ q k); [|apply If]. intros b o Hb. apply in_range_iff in Hb. apply in_range_iff. lia. }
  apply tgood_bind. apply good_slice_mut; [exact OKf|exact LDf|exact Wf|exact (src_calls _ _ _ _ _ _ _ _ If)|]. intros s9 C9.
  assert (I9 := child_src _ _ _ _ _ _ _ _ _ _ AP LD LL If C9). assert (W9 := child_writes _ _ _ _ _ _ OKf LDf Wf C9).
  destruct C9 as (OK9 & F9 & E9 & P9 & _). set (u9 := tfresh sf) in *. assert (L9 : u9 < tfresh s9) by lia.
  assert (T9 : In td (path s9 u9)) by (rewrite P9; right; now apply ok_self).
  apply tgood_bind. unfold reborrow_mut. apply good_retag; [auto|exact OK9|exact L9|exact (writes_readable _ _ _ _ W9)|]. intros s10 C10.
  assert (I10 := child_src_of _ _ _ _ _ _ _ _ _ _ _ AP LD LL I9 L9 T9 C10). assert (W10 := child_writes _ _ _ _ _ _ OK9 L9 W9 C10).
  destruct C10 as (OK10 & F10 & E10 & P10 & _). set (u10 := tfresh s9) in *. assert (L10 : u10 < tfresh s10) by lia.
  assert (PU : path s10 u10 = [u10; u9] ++ path s10 td).
  { rewrite P10, P9, (proj2 E10), (proj2 E9) by lia. reflexivity. }
  unfold len at 1. apply decode_nested; auto.
  - split; [now apply strip_bytes|]. rewrite ES. apply bytes_at_app. rewrite Lf. split; [|exact B2].
    eapply Frame_bytes_at; [exact FR2|exact B1|]. rewrite Lf. right. lia.
  - intros rx vx s11 mm11 P11. fold len in P11.
    assert (NX : forall x, In x [u10; u9] -> ~ In x (guarded s10)).
    { intros x Hx. apply (src_unguarded _ _ _ _ _ _ _ _ _ W I10). destruct Hx as [<-|[<-|[]]]; unfold u10, u9 in *; lia. }
    assert (I11 := src_nested _ _ _ _ _ _ _ _ _ _ _ _ _ _ AP LD I10 L10 PU NX P11 LL). unfold final.
    destruct (into_leave _ _ _ _ _ _ _ _ AP LD I11) as (s12 & -> & P12 & WW & F12). apply H. destruct P12 as (Q1 & Q2 & Q3 & Q4 & Q5 & Q6 & _). do 6 (split; [assumption|]).
    destruct P11 as (_ & _ & _ & _ & _ & RT). destruct (of_result rx) as [[q0 k0]|]; [|exact Logic.I]. destruct RT as (L11 & W11 & _ & SUB).
    assert (SUB' : forall b o, cells_of q0 k0 b o -> cells_of q k b o) by (intros b o Hb; apply SUB, in_range_iff in Hb; apply in_range_iff; lia).
    split; [lia|]. split; [|exact SUB']. apply WW; [intros b o Ha1 Ha2; exact (AP b o Ha1 (SUB' b o Ha2))|lia|exact W11].
Qed.

Lemma forgiving_decode_trees en s1 s2 src dlen : b64_isa s2 -> tree_into of_result (forgiving_decode_b en s1 s2) (forgiving_decode en s1 s2) src dlen.
Proof.
  intro Hs. apply tree_into_on; [intros; apply forgiving_ann| |now apply forgiving_tgood]. intros _.
  eapply settles_dec; [now apply forgiving_decode_ok|apply forgiving_decode_short].
Qed.
Lemma forgiving_decode_inplace_trees en s1 s2 data : b64_isa s2 ->
  tree_inplace of_result (forgiving_decode_inplace_b en s1 s2) (forgiving_decode_inplace en s1 s2) data.
Proof.
  intro Hs. apply tree_inplace_on; [intros; apply forgiving_inplace_ann| |now apply forgiving_inplace_tgood]. intros _.
  eapply settles_inplace_dec; [now apply forgiving_decode_inplace_ok|lia].
Qed.
