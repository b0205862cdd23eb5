(** The functions of BorrowsHeap.v *)
From Coq Require Import ZArith List Bool Lia ZifyBool ZifyNat.
From Verif Require Import Bytes Mem MemFacts Slices Codec Conc ConcFacts Reify ConcApi ConcApiFacts Isa Simd Ints Hex Base64 Base32 Forgiving Heap HeapFacts Public
  Borrows BorrowsApi BorrowsFacts BorrowsLib BorrowsCalls BorrowsBridge BorrowsForgiving BorrowsHeap BorrowsHeapFacts BorrowsHeapSteps.
Import ListNotations.
Open Scope nat_scope. Open Scope m_scope. Open Scope borrow_scope. Open Scope heap_scope.

Definition holder (A : Type) : Type := ptr -> nat -> borrows -> A -> nat -> borrows -> mem -> Prop.
Definition new_post {A} (H : holder A) (M : machine) (s0 : borrows) (p : ptr) (n ts : nat) : A * nat -> borrows -> mem -> Prop := fun a s m =>
  hpost s0 p n ts (eq (new_block M)) s /\ H p n s0 (fst a) (snd a) s m.
Definition good_new {A} (H : holder A) (M : machine) (x : ptr -> nat -> nat -> hcode (A * nat)) (src : list Z) : Prop :=
  forall m s b o ts, slice m b o src -> (Z.of_nat (length src) <= isize_limit M)%Z -> state_ok s -> ts < fresh s -> may_read s (b, o) (length src) ts ->
    hgood (x (b, o) (length src) ts) (new_post H M s (b, o) (length src) ts) s m.
(** what is known about the result *)
Definition owned (k : nat) (s0 : borrows) (u : nat) (s : borrows) (m : mem) : Prop := fresh s0 <= u < fresh s /\ owns s k (length (m k)) u.
Definition box_held (M : machine) : holder boxed := fun p n s0 b u s m => x_block b = new_block M /\ (n = 0 \/ fst p <> new_block M) /\
  fresh s0 <= u < fresh s /\ x_len b = length (m (x_block b)) /\ boxed_at s (x_block b) (x_len b) u.
Definition vec_held : holder vec := fun _ _ s0 v u s m => owned (v_block v) s0 u s m.
Definition res_held {A} (H : holder A) : holder (result A) := fun p n s0 r u s m => match r with Ok a => H p n s0 a u s m | Err => True end.
Lemma readable_may s p n t : readable s p n t -> may_read s p n t.
Proof. intros R i Hi. rewrite (reads_stable (active s) t _ (R i Hi)). discriminate. Qed.
Lemma borrows_new_of {A} (ret : A -> option nat) (H : holder A) M x f src : (forall p n ts, hannotates fst (x p n ts) (f p n)) ->
  (forall p n s0 a u s m k, H p n s0 a u s m -> ret a = Some k -> owned k s0 u s m) -> good_new H M x src -> borrows_new ret M x f src.
Proof.
  intros HA HH HG m s b o ts S L OK LT MR r m' E.
  destruct (hgood_runs fst (x (b, o) (length src) ts) _ _ s m r m' (HA _ _ _) E (HG m s b o ts S L OK LT MR)) as ([r' u] & s' & RU & ER & (OK' & LF & A' & EL & RD & _) & T).
  cbn [fst snd] in *. subst r'. exists u, s'. split; [exact RU|]. split; [|split; [now apply readable_may|]].
  - split; [exact OK'|]. split; [exact A'|]. split; [exact LF|]. intros b' o' H1 H2 _. apply EL; [exact H1|congruence].
  - destruct (ret r) as [k|] eqn:ER; [|exact Logic.I]. destruct (HH _ _ _ _ _ _ _ _ T ER) as [T1 T2]. split; [exact T1|]. split; [exact T2|]. now apply owns_write.
Qed.
Definition append_post {A} (ret : A -> vec) (M : machine) (v : vec) (s0 : borrows) (p : ptr) (n ts : nat) : A * nat -> borrows -> mem -> Prop := fun a s m =>
  hpost s0 p n ts (fun b => b = v_block v \/ b = new_block M) s /\ snd a < fresh s /\ vec_owned s m (ret (fst a)) (snd a).
Definition good_append {A} (ret : A -> vec) (M : machine) (x : ptr -> nat -> vec -> nat -> nat -> hcode (A * nat)) (src : list Z) : Prop :=
  forall m s b o v ts tv, slice m b o src -> (Z.of_nat (length src) <= isize_limit M)%Z -> b <> v_block v -> v_len v <= length (m (v_block v)) ->
    state_ok s -> ts < fresh s -> tv < fresh s -> may_read s (b, o) (length src) ts -> vec_owned s m v tv ->
    hgood (x (b, o) (length src) v ts tv) (append_post ret M v s (b, o) (length src) ts) s m.
Lemma borrows_append_of {A} (ret : A -> vec) M x f src : (forall p n v ts tv, hannotates fst (x p n v ts tv) (f p n v)) -> good_append ret M x src -> borrows_append ret M x f src.
Proof.
  intros HA HG m s b o v ts tv S L N LV OK LT LTV MR VO r m' E.
  destruct (hgood_runs fst (x (b, o) (length src) v ts tv) _ _ s m r m' (HA _ _ _ _ _) E (HG m s b o v ts tv S L N LV OK LT LTV MR VO))
    as ([r' u] & s' & RU & ER & (OK' & LF & A' & EL & RD & _) & T).
  cbn [fst snd] in *. subst r'. exists u, s'. split; [exact RU|]. split; [|split; [now apply readable_may|exact T]].
  split; [exact OK'|]. split; [exact A'|]. split; [exact LF|]. intros b' o' H1 H2 H3. apply EL; [exact H1|tauto].
Qed.

(** ** Pieces *)
Lemma assert_ret b m y m1 : assert_ b m = Ret y m1 -> m1 = m.
Proof. unfold assert_. destruct b; [|discriminate]. intro E. now injection E. Qed.
Lemma assume_init_ret b m y m1 : assume_init b m = Ret y m1 -> y = b /\ m1 = m.
Proof.
  unfold assume_init, bind. destruct (load _ _ m) as [l m0| | |] eqn:E; try discriminate. apply load_ret in E as (-> & _). intro E. now injection E as <- <-.
Qed.
Lemma boxed_str_ret b m y m1 : boxed_str b m = Ret y m1 -> y = b /\ m1 = m.
Proof.
  unfold boxed_str, bind. destruct (load _ _ m) as [l m0| | |] eqn:E; try discriminate. apply load_ret in E as (-> & _). destruct (forallb _ l); [|discriminate].
  intro E. now injection E as <- <-.
Qed.
Lemma set_len_ret v n m y m1 : set_len v n m = Ret y m1 -> y = {| v_block := v_block v; v_len := n |} /\ m1 = m.
Proof.
  unfold set_len, bind. destruct (load _ _ m) as [l m0| | |] eqn:E; try discriminate. apply load_ret in E as (-> & _). intro E. now injection E as <- <-.
Qed.
Lemma padd_ret p k m y m1 : padd p k m = Ret y m1 -> y = (fst p, snd p + k) /\ m1 = m.
Proof. unfold padd. destruct (_ <=? _); [|discriminate]. intro E. now injection E as <- <-. Qed.
Lemma h_assume {A} (b : boxed) u (kk : boxed * nat -> hcode A) Q s m : state_ok s -> boxed_at s (x_block b) (x_len b) u ->
  (forall u' s', state_ok s' -> fresh s <= u' < fresh s' -> active s' = active s -> (forall b' o, b' <> x_block b -> stacks s' b' o = stacks s b' o) ->
     boxed_at s' (x_block b) (x_len b) u' -> hgood (kk (b, u')) Q s' m) -> hgood (hbind (assume_init_b (b, u)) kk) Q s m.
Proof.
  intros OK HB H. apply hgood_bind. apply hgood_pure. intros y m1 E. apply assume_init_ret in E as [-> ->]. split; [reflexivity|]. cbn [fst snd].
  apply (h_op Unique _ (x_block b) (x_len b)); [auto|apply op_assume_init|exact OK|exact HB|]. intros u' s' OK' U' A' E' HH _. apply H; auto. now apply holds_boxed.
Qed.
Lemma h_boxed_str {A} (b : boxed) u (kk : boxed * nat -> hcode A) Q s m : state_ok s -> boxed_at s (x_block b) (x_len b) u ->
  (forall u' s', state_ok s' -> fresh s <= u' < fresh s' -> active s' = active s -> (forall b' o, b' <> x_block b -> stacks s' b' o = stacks s b' o) ->
     boxed_at s' (x_block b) (x_len b) u' -> hgood (kk (b, u')) Q s' m) -> hgood (hbind (boxed_str_b (b, u)) kk) Q s m.
Proof.
  intros OK HB H. apply hgood_bind. apply hgood_pure. intros y m1 E. apply boxed_str_ret in E as [-> ->]. split; [reflexivity|]. cbn [fst snd].
  apply (h_op Unique _ (x_block b) (x_len b)); [auto|apply op_boxed_str|exact OK|exact HB|]. intros u' s' OK' U' A' E' HH _. apply H; auto. now apply holds_boxed.
Qed.
Lemma hbind_ret {A} (x : hcode A) Q s m : hgood (hbind x (fun a => HReturn a)) Q s m -> hgood x Q s m.
Proof.
  revert s m. induction x as [a|y k IH|X v c0 k IH|X c0 k IH|M n k IH|M v n t k IH|b t k IH]; cbn [hbind hgood]; intros s m G.
  - exact G.
  - destruct (perform y s) as [[t s1]|]; [now apply IH|exact G].
  - intros y m1 E. destruct (G y m1 E) as (p & s1 & FO & ET & G'). exists p, s1. split; [exact FO|]. split; [exact ET|]. now apply IH.
  - intros y m1 E. destruct (G y m1 E) as (EM & G'). split; [exact EM|]. now apply IH.
  - intros b m1 E. now apply IH, G.
  - intros w m1 E. specialize (G w m1 E). destruct (_ <=? _); [now apply IH|]. destruct G as (s1 & ER & G). exists s1. split; [exact ER|]. now apply IH.
  - destruct G as (s1 & ER & G). exists s1. split; [exact ER|]. now apply IH.
Qed.
Lemma boxed_leave s c act b n u : active s = c :: act -> boxed_at s b n u -> boxed_at (leave s) b n u.
Proof.
  intros A (L & g & base & U & T & HA & HF). split; [exact L|]. exists g, base. split; [exact U|]. split; [exact T|]. cbn [leave stacks active].
  assert (UL : forall x, protected (active s) x = false -> protected (tl (active s)) x = false) by (intros x C; rewrite A in *; exact (unprotected_less _ _ _ C)).
  split; [|intros i Hi; exact (Forall_impl _ UL (HF i Hi))]. intros i Hi. destruct (HA i Hi) as (X & E & HX). exists X. split; [exact E|].
  refine (Forall_impl _ _ HX). intros x [C1 C2]. auto.
Qed.
Lemma h_new_end {A} (H : holder A) M s0 p n ts (a : A * nat) s m :
  hinv s0 p n ts (eq (new_block M)) s -> H p n s0 (fst a) (snd a) (leave s) m -> hfinal (new_post H M s0 p n ts) a s m.
Proof. intros I T. apply hinv_post in I as [N I]. split; [exact N|]. now split. Qed.
Lemma boxed_end M s0 p n ts D b u s m : x_block b = new_block M -> (n = 0 \/ fst p <> new_block M) -> hinv s0 p n ts D s -> fresh s0 <= u < fresh s -> x_len b = length (m (x_block b)) -> boxed_at s (x_block b) (x_len b) u ->
  box_held M p n s0 b u (leave s) m.
Proof. intros EB NB (_ & _ & A & _) U L B. split; [exact EB|]. split; [exact NB|]. split; [cbn; lia|]. split; [exact L|]. exact (boxed_leave _ _ _ _ _ _ A B). Qed.
Lemma empty_end M s0 p n ts D u s m : n = 0 -> hinv s0 p n ts D s -> fresh s0 <= u < fresh s ->
  box_held M p n s0 {| x_block := new_block M; x_len := 0 |} u (leave s) (upd m (new_block M) []).
Proof.
  intros EZ I U. apply (boxed_end M s0 p n ts D); cbn [x_block x_len]; [reflexivity|auto|exact I|exact U|now rewrite upd_same|]. split; [lia|].
  exists (new_item Unique u), (fun _ => []). split; [reflexivity|]. split; [reflexivity|]. split; intros i Hi; lia.
Qed.
Lemma h_append_end {A} (ret : A -> vec) M v s0 p n ts (a : A * nat) s m :
  hinv s0 p n ts (fun b => b = v_block v \/ b = new_block M) s -> snd a < fresh s -> vec_owned s m (ret (fst a)) (snd a) ->
  hfinal (append_post ret M v s0 p n ts) a s m.
Proof.
  intros I L [T1 T2]. assert (AC : active s = fresh s0 :: active s0) by apply I. apply hinv_post in I as [N I]. split; [exact N|]. split; [exact I|].
  split; [exact L|]. split; [exact (owns_leave _ _ _ _ _ _ AC T1)|exact T2].
Qed.
Lemma h_empty {A} M (kk : boxed * nat -> hcode A) Q s m : state_ok s ->
  (forall s', state_ok s' -> fresh s < fresh s' -> active s' = active s -> (forall b' o, b' <> new_block M -> stacks s' b' o = stacks s b' o) ->
     hgood (kk ({| x_block := new_block M; x_len := 0 |}, fresh s)) Q s' (upd m (new_block M) [])) -> hgood (hbind (box_empty_b M) kk) Q s m.
Proof.
  intros OK H. cbn [box_empty_b halloc hbind hgood fst snd]. intros b m1 E. apply alloc_ret in E as (_ & -> & ->). apply H.
  - now apply ok_fresh_block.
  - cbn. lia.
  - reflexivity.
  - intros b' o N. cbn [fresh_block stacks]. now rewrite (proj2 (Nat.eqb_neq _ _) N).
Qed.
Lemma readable_dst s s' p n t b : (forall b' o, b' <> b -> stacks s' b' o = stacks s b' o) -> fst p <> b -> readable s p n t -> readable s' p n t.
Proof. intros E N R i Hi. rewrite E by exact N. auto. Qed.
Lemma readable_same s s' p n t : same s s' -> readable s p n t -> readable s' p n t.
Proof. intros (E & _) R i Hi. rewrite E. auto. Qed.

(** ** [encode_to_boxed_str] *)
Definition reifies {X} (R : X -> Prop) (g : ptr -> nat -> ptr -> M X) : Type := forall p n q, reified True (eq (fst q)) R (g p n q).
Lemma enc_box_good M L g R src t : (bytes src -> (Z.of_nat (length src) <= isize_limit M)%Z -> enc_len_ok M (L (length src)) (length t)) -> (bytes src -> enc_ok g src t) ->
  reifies R g -> good_new (box_held M) M (encode_to_boxed_str_b M L g) src.
Proof.
  intros HL HE HR m s b o ts S LS OK LT MR. set (n := length src) in *. set (p := (b, o)). unfold encode_to_boxed_str_b.
  apply (h_start p n ts (eq (new_block M))); auto. intros u s1 ES1 I1 R1 L1.
  eapply h_ro; [apply ro_len|nox|exact I1|exact LT|exact R1|exact L1|]. intros _ s2 _ I2 R2 L2 _ _. destruct (Nat.eqb_spec n 0) as [EZ|NZ].
  - apply hbind_ret, h_empty; [apply I2|]. intros s3 OK3 F3 A3 E3. cbn [hgood]. assert (F2 : fresh s < fresh s2) by apply I2.
    assert (I3 : hinv s p n ts (eq (new_block M)) s3) by (apply (hinv_dst s p n ts _ s2 s3 (new_block M)); auto; lia).
    apply h_new_end; [exact I3|]. apply (empty_end M s p n ts (eq (new_block M))); [exact EZ|exact I3|cbn; lia].
  - eapply h_ro; [apply ro_len|nox|exact I2|exact LT|exact R2|exact L2|]. intros _ s3 _ I3 R3 L3 _ _.
    apply hgood_pure. intros z m1 EZ. rewrite (HL (proj1 S) LS m) in EZ. injection EZ as <- <-. split; [reflexivity|].
    apply hgood_pure. intros [] m1 EA. split; [exact (assert_ret _ _ _ _ EA)|]. rewrite Nat2Z.id. clear m1 EA.
    apply h_alloc; [apply I3|]. intros t4 s4 E0 OK4 [T4 U4] A4 E4 B4. cbn [fst snd x_block x_len].
    assert (NB : b <> new_block M) by (intros ->; now apply (slice_nonempty _ _ _ _ S NZ)).
    assert (S4 : slice (upd m (new_block M) (repeat None (length t))) b o src) by (eapply slice_same; [exact S|]; now apply upd_other).
    assert (RM : room (upd m (new_block M) (repeat None (length t))) (new_block M) 0 (length t)) by (unfold room; rewrite upd_same, repeat_length; lia).
    assert (I4 : hinv s p n ts (eq (new_block M)) s4) by (apply (hinv_dst s p n ts _ s3 s4 (new_block M)); auto; lia).
    assert (R4 : readable s4 p n u) by (apply (readable_dst s3 s4 p n u (new_block M)); auto).
    eapply h_ro; [apply ro_slice_parts|nox|exact I4|exact LT|exact R4|lia|]. intros v s5 ST5 I5 _ _ R5 L5.
    assert (B5 : boxed_at s5 (new_block M) (length t) t4).
    { destruct ST5 as (F5 & A5 & E5 & _). apply (boxed_other s4); auto. intro o'. apply E5. apply not_in_range_block; cbn; congruence. }
    apply (h_op SharedRW _ (new_block M) (length t)); [auto|apply op_as_mut_ptr|apply I5|exact B5|]. intros td s6 OK6 T6 A6 E6 H6 B6.
    assert (I6 : hinv s p n ts (eq (new_block M)) s6) by (apply (hinv_dst s p n ts _ s5 s6 (new_block M)); auto; lia).
    assert (R6 : readable s6 p n v) by (apply (readable_dst s5 s6 p n v (new_block M)); auto).
    set (q := at_start (new_block M)). change (new_block M) with (fst q) at 1.
    eapply (h_exec p n q (length t)); [apply HR|exact NB|exact R6|exact (holds_top SharedRW _ _ _ _ (or_intror eq_refl) H6)| |].
    + destruct (HE (proj1 S) _ b o (new_block M) 0 (only_slice _ _ _ _ S4) (only_room p n _ _ _ _ RM) (or_introl NB)) as (m' & EG & _ & FR). exists tt, m'. auto.
    + intros [] m7 s7 E7 SA7. assert (I7 := hinv_same _ _ _ _ _ _ _ SA7 I6). assert (B7 := boxed_same _ _ _ _ _ SA7 B6).
      destruct (HE (proj1 S) _ b o (new_block M) 0 S4 RM (or_introl NB)) as (m' & EG & _ & FR). change (g p n q) with (g (b, o) (length src) (new_block M, 0)) in E7.
      rewrite EG in E7. injection E7 as <-. assert (LM : length (m' (new_block M)) = length t).
      { destruct FR as (_ & -> & _). rewrite upd_same. apply repeat_length. }
      apply h_assume; [apply I7|exact B7|]. intros u8 s8 OK8 U8 A8 E8 B8. cbn [x_block x_len] in *.
      apply hbind_ret, h_boxed_str; [exact OK8|exact B8|]. intros u9 s9 OK9 U9 A9 E9 B9. cbn [hgood x_block x_len] in *.
      assert (F7 : fresh s < fresh s7) by apply I7.
      assert (I9 : hinv s p n ts (eq (new_block M)) s9).
      { apply (hinv_dst s p n ts _ s7 s9 (new_block M)); auto; [lia|congruence|]. intros b' o' N. rewrite E9, E8 by exact N. reflexivity. }
      apply h_new_end; [exact I9|]. apply (boxed_end M s p n ts (eq (new_block M))); cbn [fst snd x_block x_len]; [reflexivity|auto|exact I9|lia|now rewrite LM|exact B9].
Qed.

(** ** [encode_append_vec] *)
Lemma vec_same s s' m m' w w' t : same s s' -> length (m' (v_block w)) = length (m (v_block w)) -> v_block w' = v_block w -> v_len w <= v_len w' ->
  vec_owned s m w t -> vec_owned s' m' w' t.
Proof.
  intros (HS & HF & HA) L EB LL [T1 T2]. split.
  - rewrite EB, L. apply (owns_other s); auto.
  - rewrite EB, L. intros i Hi. cbn [fst snd]. rewrite HS. specialize (T2 (v_len w' - v_len w + i) ltac:(lia)). cbn [fst snd] in T2.
    now replace (v_len w' + i) with (v_len w + (v_len w' - v_len w + i)) by lia.
Qed.
Lemma vec_top s m w t k : v_len w + k <= length (m (v_block w)) -> vec_owned s m w t -> on_top s (v_block w, v_len w) k t.
Proof. intros L [_ T] i Hi. apply T. lia. Qed.
Lemma vec_block_src (m : mem) b v w nb : b <> v_block v -> m b <> [] -> (v_block w = v_block v \/ v_block w = nb) ->
  (m nb <> [] /\ nb <> v_block v -> v_block w = v_block v) -> b <> v_block w.
Proof. intros N NE [C|C] H E; [congruence|]. apply N. rewrite E. apply H. split; [rewrite <- C, <- E; exact NE|]. congruence. Qed.
Lemma h_grow_src {A} M s0 b o src n ts v k tv (kk : vec * nat -> hcode A) Q s m u : n = length src -> n <> 0 -> slice m b o src -> b <> v_block v ->
  v_len v <= length (m (v_block v)) -> hinv s0 (b, o) n ts (fun b' => b' = v_block v \/ b' = new_block M) s -> readable s (b, o) n u -> u < fresh s ->
  tv < fresh s -> vec_owned s m v tv ->
  (forall w t s' m', hinv s0 (b, o) n ts (fun b' => b' = v_block v \/ b' = new_block M) s' -> readable s' (b, o) n u -> u < fresh s' -> t < fresh s' ->
     slice m' b o src -> vec_owned s' m' w t -> b <> v_block w -> room m' (v_block w) (v_len w) k -> fresh s <= fresh s' -> v_block w = v_block v \/ v_block w = new_block M ->
     hgood (kk (w, t)) Q s' m') -> hgood (hbind (hgrow M v k tv) kk) Q s m.
Proof.
  intros EN NZ S N LV I R LU LT VO H. apply h_grow; [apply I|exact LT|exact LV|exact VO|]. intros w t s' m' OK' F' T' A' V' LW LK HK HB ES EM. subst n.
  assert (NW : b <> v_block w) by (apply (vec_block_src m b v w (new_block M)); auto; exact (slice_nonempty _ _ _ _ S NZ)).
  apply H; auto; [| |lia| |].
  - apply (hinv_step s0 (b, o) _ ts _ s); auto. intros b' o'. destruct (Nat.eq_dec b' (v_block v)) as [->|N1]; [right; cbn; auto|].
    destruct (Nat.eq_dec b' (v_block w)) as [->|N2]; [right; cbn|left; auto]. auto.
  - intros i Hi. rewrite ES by assumption. auto.
  - eapply slice_same; [exact S|]. auto.
  - unfold room. rewrite LW. exact LK.
Qed.
Lemma enc_append_good M L g R src t : (bytes src -> (Z.of_nat (length src) <= isize_limit M)%Z -> enc_len_ok M (L (length src)) (length t)) -> (bytes src -> enc_ok g src t) ->
  reifies R g -> good_append (fun v => v) M (encode_append_vec_b M L g) src.
Proof.
  intros HL HE HR m s b o v ts tv S LS N LV OK LT LTV MR VO. set (n := length src) in *. set (p := (b, o)). unfold encode_append_vec_b.
  set (D := fun b' => b' = v_block v \/ b' = new_block M).
  apply (h_start p n ts D); auto. intros u s1 ES1 I1 R1 L1.
  assert (AC1 : active s1 = fresh s :: active s) by apply I1.
  assert (EV1 : forall o', stacks s1 (v_block v) o' = stacks s (v_block v) o') by (intro o'; apply ES1, not_in_range_block; cbn; congruence).
  assert (V1 : vec_owned s1 m v tv).
  { destruct VO as [V1 V2]. split; [exact (owns_start _ _ _ _ _ OK AC1 EV1 V1)|]. apply (on_top_other s); auto. }
  assert (F1 : fresh s < fresh s1) by apply I1.
  assert (VR : forall s2 s3, ro_step p n s2 s3 -> vec_owned s2 m v tv -> vec_owned s3 m v tv).
  { intros s2 s3 (_ & A3 & E3 & _) [T1 T2]. assert (EV : forall o', stacks s3 (v_block v) o' = stacks s2 (v_block v) o') by (intro o'; apply E3, not_in_range_block; cbn; congruence).
    split; [exact (owns_other _ _ _ _ _ A3 EV T1)|]. apply (on_top_other s2); auto. }
  eapply h_ro; [apply ro_len|nox|exact I1|exact LT|exact R1|exact L1|]. intros _ s2 ST2 I2 R2 L2 _ _. assert (V2 := VR _ _ ST2 V1).
  assert (F2 : fresh s1 <= fresh s2) by apply ST2. destruct (Nat.eqb_spec n 0) as [EZ|NZ].
  - cbn [hgood]. apply h_append_end; [exact I2|cbn; lia|exact V2].
  - eapply h_ro; [apply ro_len|nox|exact I2|exact LT|exact R2|exact L2|]. intros _ s3 ST3 I3 R3 L3 _ _. assert (V3 := VR _ _ ST3 V2).
    assert (F3 : fresh s2 <= fresh s3) by apply ST3.
    apply hgood_pure. intros z m1 EZ. rewrite (HL (proj1 S) LS m) in EZ. injection EZ as <- <-. split; [reflexivity|].
    apply hgood_pure. intros [] m1 EA. split; [exact (assert_ret _ _ _ _ EA)|]. rewrite Nat2Z.id. clear m1 EA.
    apply (h_grow_src M s b o src n ts v (length t) tv _ _ s3 m u); auto; [lia|]. intros w t4 s4 m4 I4 R4 L4 T4 S4 V4 NW RM F4 HW. cbn [fst snd].
    eapply h_ro; [apply ro_slice_parts|nox|exact I4|exact LT|exact R4|exact L4|]. intros r s5 ST5 I5 _ _ R5 L5.
    assert (V5 : vec_owned s5 m4 w t4).
    { destruct ST5 as (_ & A5 & E5 & _), V4 as [T1 T2]. assert (EV : forall o', stacks s5 (v_block w) o' = stacks s4 (v_block w) o') by (intro o'; apply E5, not_in_range_block; cbn; congruence).
      split; [exact (owns_other _ _ _ _ _ A5 EV T1)|]. apply (on_top_other s4); auto. }
    apply hgood_pure. intros dst m5 E5. apply padd_ret in E5 as [-> ->]. split; [reflexivity|]. cbn [fst snd]. rewrite Nat.add_0_l.
    set (q := (v_block w, v_len w)). change (v_block w) with (fst q) at 1.
    eapply (h_exec p n q (length t)); [apply HR|exact NW|exact R5|exact (vec_top _ _ _ _ _ RM V5)| |].
    + destruct (HE (proj1 S) _ b o (v_block w) (v_len w) (only_slice _ _ _ _ S4) (only_room p n _ _ _ _ RM) (or_introl NW)) as (m' & EG & _ & FR). exists tt, m'. auto.
    + intros [] m7 s7 E7 SA7. assert (I7 := hinv_same _ _ _ _ _ _ _ SA7 I5).
      destruct (HE (proj1 S) _ b o (v_block w) (v_len w) S4 RM (or_introl NW)) as (m' & EG & _ & FR). change (g p n q) with (g (b, o) (length src) (v_block w, v_len w)) in E7.
      rewrite EG in E7. injection E7 as <-. apply hgood_pure. intros w' m8 E8. apply set_len_ret in E8 as [-> ->]. split; [reflexivity|]. cbn [hgood].
      apply h_append_end; [exact I7| |].
      * cbn [snd]. destruct SA7 as (_ & SF & _), ST5 as (F5 & _). lia.
      * cbn [fst snd]. apply (vec_same s5 s7 m4 m' w); auto; [apply FR|cbn; lia].
Qed.

(** ** [decode_to_boxed_bytes] *)
Definition dl_ok (dlb : ptr -> nat -> nat -> bcode (result (nat * nat))) (dl : ptr -> nat -> M (result (nat * nat))) (src : list Z) : Prop :=
  forall m s b o u, slice m b o src -> length src <> 0 -> state_ok s -> u < fresh s -> readable s (b, o) (length src) u ->
    exists r s', runs (dlb (b, o) (length src) u) s m r s' m /\ state_ok s' /\ ro_step (b, o) (length src) s s' /\ dl (b, o) (length src) m = Ret r m.
Lemma h_dl {A} dlb dl src s0 ts D b o u (kk : result (nat * nat) -> hcode A) Q s m : dl_ok dlb dl src -> slice m b o src -> length src <> 0 ->
  hinv s0 (b, o) (length src) ts D s -> ts < fresh s0 -> readable s (b, o) (length src) u -> u < fresh s ->
  (forall r s', dl (b, o) (length src) m = Ret r m -> ro_step (b, o) (length src) s s' -> hinv s0 (b, o) (length src) ts D s' -> readable s' (b, o) (length src) u -> u < fresh s' ->
     hgood (kk r) Q s' m) -> hgood (hbind (lift (dlb (b, o) (length src) u)) kk) Q s m.
Proof.
  intros HD S NZ I LT R L H. destruct (HD m s b o u S NZ) as (r & s' & RU & OK' & ST & E); auto; [apply I|].
  apply (hgood_lift_runs _ _ _ _ _ r s' m RU). apply H; auto.
  - exact (hinv_ro _ _ _ _ _ _ _ I LT OK' ST).
  - exact (readable_ro _ _ _ _ _ ST L R).
  - destruct ST as (A1 & _). lia.
Qed.
Lemma dec_box_good M dlb parts dl g R src k spec : dl_ok dlb dl src -> dec_ok dl g src k spec ->
  (forall p n t, ro_op (parts p n t) p n t) -> (forall p n t, noexec (parts p n t)) -> reifies R g -> good_new (res_held (box_held M)) M (decode_to_boxed_bytes_b M dlb parts g) src.
Proof.
  intros HD HC HP NP HR m s b o ts S LS OK LT MR. set (n := length src) in *. set (p := (b, o)). unfold decode_to_boxed_bytes_b.
  apply (h_start p n ts (eq (new_block M))); auto. intros u s1 ES1 I1 R1 L1.
  eapply h_ro; [apply ro_len|nox|exact I1|exact LT|exact R1|exact L1|]. intros _ s2 _ I2 R2 L2 _ _. destruct (Nat.eqb_spec n 0) as [EZ|NZ].
  - apply h_empty; [apply I2|]. intros s3 OK3 F3 A3 E3. cbn [hgood]. assert (F2 : fresh s < fresh s2) by apply I2.
    assert (I3 : hinv s p n ts (eq (new_block M)) s3) by (apply (hinv_dst s p n ts _ s2 s3 (new_block M)); auto; lia).
    apply h_new_end; [exact I3|]. apply (empty_end M s p n ts (eq (new_block M))); [exact EZ|exact I3|cbn; lia].
  - apply (h_dl dlb dl src s ts (eq (new_block M)) b o u); auto. fold n p. intros r s3 ED ST3 I3 R3 L3.
    destruct (HC m b o S NZ) as [(ED' & _ & _)|(n' & ED' & Hk & HG)]; fold n p in ED'; rewrite ED in ED'; injection ED' as ->.
    { cbn [hgood]. apply h_new_end; [exact I3|exact Logic.I]. }
    cbn [fst snd]. apply h_alloc; [apply I3|]. intros t4 s4 E0 OK4 [T4 U4] A4 E4 B4. cbn [fst snd x_block x_len].
    assert (NB : b <> new_block M) by (intros ->; now apply (slice_nonempty _ _ _ _ S NZ)).
    assert (S4 : slice (upd m (new_block M) (repeat None k)) b o src) by (eapply slice_same; [exact S|]; now apply upd_other).
    assert (RM : room (upd m (new_block M) (repeat None k)) (new_block M) 0 k) by (unfold room; rewrite upd_same, repeat_length; lia).
    assert (I4 : hinv s p n ts (eq (new_block M)) s4) by (apply (hinv_dst s p n ts _ s3 s4 (new_block M)); auto; lia).
    assert (R4 : readable s4 p n u) by (apply (readable_dst s3 s4 p n u (new_block M)); auto).
    apply (h_op SharedRW _ (new_block M) k); [auto|apply op_as_mut_ptr|apply I4|exact B4|]. intros td s5 OK5 T5 A5 E5 H5 B5.
    assert (I5 : hinv s p n ts (eq (new_block M)) s5) by (apply (hinv_dst s p n ts _ s4 s5 (new_block M)); auto; lia).
    assert (R5 : readable s5 p n u) by (apply (readable_dst s4 s5 p n u (new_block M)); auto).
    eapply h_ro; [apply HP|apply NP|exact I5|exact LT|exact R5|lia|]. intros v s6 ST6 I6 _ _ R6 L6.
    assert (EN6 : forall o', stacks s6 (new_block M) o' = stacks s5 (new_block M) o') by (intro o'; apply ST6, not_in_range_block; cbn; congruence).
    assert (B6 : boxed_at s6 (new_block M) k t4) by (destruct ST6 as (F6 & A6 & _); apply (boxed_other s5); auto).
    assert (TD6 : on_top s6 (at_start (new_block M)) k td) by (apply (on_top_other s5); [exact EN6|exact (holds_top SharedRW _ _ _ _ (or_intror eq_refl) H5)]).
    set (q := at_start (new_block M)) in *. change (new_block M) with (fst q) at 1.
    eapply (h_exec p n q k); [apply HR|exact NB|exact R6|exact TD6| |].
    + destruct (HG _ (new_block M) 0 (only_slice _ _ _ _ S4) (only_room p n _ _ _ _ RM) (or_introl NB)) as (r & m' & EG & FR & _). exists r, m'. auto.
    + intros r m7 s7 E7 SA7. assert (I7 := hinv_same _ _ _ _ _ _ _ SA7 I6). assert (B7 := boxed_same _ _ _ _ _ SA7 B6).
      destruct (HG _ (new_block M) 0 S4 RM (or_introl NB)) as (r' & m' & EG & FR & _). change (g p n' q) with (g (b, o) n' (new_block M, 0)) in E7.
      rewrite EG in E7. injection E7 as -> ->. assert (LM : length (m7 (new_block M)) = k).
      { destruct FR as (_ & -> & _). rewrite upd_same. apply repeat_length. }
      assert (F7 : fresh s < fresh s7) by apply I7. destruct r as [x|].
      * apply h_assume; [apply I7|exact B7|]. intros u8 s8 OK8 U8 A8 E8 B8. cbn [hgood x_block x_len] in *.
        assert (I8 : hinv s p n ts (eq (new_block M)) s8) by (apply (hinv_dst s p n ts _ s7 s8 (new_block M)); auto; lia).
        apply h_new_end; [exact I8|]. apply (boxed_end M s p n ts (eq (new_block M))); cbn [fst snd x_block x_len]; [reflexivity|auto|exact I8|lia|now rewrite LM|exact B8].
      * unfold drop_box_b. cbn [fst snd x_block]. apply (h_free _ k); [auto|now apply boxed_owns|]. cbn [hgood]. apply h_new_end; [|exact Logic.I].
        apply (hinv_dst s p n ts _ s7 _ (new_block M)); auto; [apply ok_released, I7|]. cbn [stacks]. intros b' o' N. now rewrite (proj2 (Nat.eqb_neq _ _) N).
Qed.

(** ** [decode_append_vec] *)
Lemma dec_append_good M dlb parts dl g R src k spec : dl_ok dlb dl src -> dec_ok dl g src k spec ->
  (forall p n t, ro_op (parts p n t) p n t) -> (forall p n t, noexec (parts p n t)) -> reifies R g -> good_append snd M (decode_append_vec_b M dlb parts g) src.
Proof.
  intros HD HC HP NP HR m s b o v ts tv S LS N LV OK LT LTV MR VO. set (n := length src) in *. set (p := (b, o)). unfold decode_append_vec_b.
  set (D := fun b' => b' = v_block v \/ b' = new_block M).
  apply (h_start p n ts D); auto. intros u s1 ES1 I1 R1 L1.
  assert (AC1 : active s1 = fresh s :: active s) by apply I1.
  assert (EV1 : forall o', stacks s1 (v_block v) o' = stacks s (v_block v) o') by (intro o'; apply ES1, not_in_range_block; cbn; congruence).
  assert (V1 : vec_owned s1 m v tv).
  { destruct VO as [V1 V2]. split; [exact (owns_start _ _ _ _ _ OK AC1 EV1 V1)|]. apply (on_top_other s); auto. }
  assert (F1 : fresh s < fresh s1) by apply I1.
  assert (VR : forall m w t s2 s3, b <> v_block w -> ro_step p n s2 s3 -> vec_owned s2 m w t -> vec_owned s3 m w t).
  { intros m' w t s2 s3 NW (_ & A3 & E3 & _) [T1 T2]. assert (EV : forall o', stacks s3 (v_block w) o' = stacks s2 (v_block w) o') by (intro o'; apply E3, not_in_range_block; cbn; congruence).
    split; [exact (owns_other _ _ _ _ _ A3 EV T1)|]. apply (on_top_other s2); auto. }
  eapply h_ro; [apply ro_len|nox|exact I1|exact LT|exact R1|exact L1|]. intros _ s2 ST2 I2 R2 L2 _ _. assert (V2 := VR _ _ _ _ _ N ST2 V1).
  assert (F2 : fresh s1 <= fresh s2) by apply ST2. destruct (Nat.eqb_spec n 0) as [EZ|NZ].
  - cbn [hgood]. apply h_append_end; [exact I2|cbn; lia|exact V2].
  - apply (h_dl dlb dl src s ts D b o u); auto. fold n p. intros r s3 ED ST3 I3 R3 L3. assert (V3 := VR _ _ _ _ _ N ST3 V2).
    assert (F3 : fresh s2 <= fresh s3) by apply ST3.
    destruct (HC m b o S NZ) as [(ED' & _ & _)|(n' & ED' & Hk & HG)]; fold n p in ED'; rewrite ED in ED'; injection ED' as ->.
    { cbn [hgood]. apply h_append_end; [exact I3|cbn; lia|exact V3]. }
    cbn [fst snd]. apply (h_grow_src M s b o src n ts v k tv _ _ s3 m u); auto; [lia|]. intros w t4 s4 m4 I4 R4 L4 T4 S4 V4 NW RM F4 HW. cbn [fst snd].
    apply hgood_pure. intros dst m5 E5. apply padd_ret in E5 as [-> ->]. split; [reflexivity|]. cbn [fst snd]. rewrite Nat.add_0_l.
    eapply h_ro; [apply HP|apply NP|exact I4|exact LT|exact R4|exact L4|]. intros r s5 ST5 I5 _ _ R5 L5. assert (V5 := VR _ _ _ _ _ NW ST5 V4).
    set (q := (v_block w, v_len w)). change (v_block w) with (fst q) at 1.
    eapply (h_exec p n q k); [apply HR|exact NW|exact R5|exact (vec_top _ _ _ _ _ RM V5)| |].
    + destruct (HG _ (v_block w) (v_len w) (only_slice _ _ _ _ S4) (only_room p n _ _ _ _ RM) (or_introl NW)) as (r' & m' & EG & FR & _). exists r', m'. auto.
    + intros r' m7 s7 E7 SA7. assert (I7 := hinv_same _ _ _ _ _ _ _ SA7 I5).
      destruct (HG _ (v_block w) (v_len w) S4 RM (or_introl NW)) as (r'' & m' & EG & FR & _). change (g p n' q) with (g (b, o) n' (v_block w, v_len w)) in E7.
      rewrite EG in E7. injection E7 as -> ->.
      assert (T7 : t4 < fresh s7) by (destruct SA7 as (_ & SF & _), ST5 as (F5 & _); lia). destruct r' as [x|].
      * apply hgood_pure. intros w' m8 E8. apply set_len_ret in E8 as [-> ->]. split; [reflexivity|]. cbn [hgood].
        apply h_append_end; [exact I7|exact T7|]. cbn [fst snd]. apply (vec_same s5 s7 m4 m7 w); auto; [apply FR|cbn; lia].
      * cbn [hgood]. apply h_append_end; [exact I7|exact T7|]. cbn [fst snd]. apply (vec_same s5 s7 m4 m7 w); auto. apply FR.
Qed.

(** ** [encode_to_string], [decode_to_vec] *)
Lemma hpost_step s0 p n ts b s s' : hpost s0 p n ts (eq b) s -> state_ok s' -> fresh s <= fresh s' -> active s' = active s ->
  (forall b' o, b' <> b -> stacks s' b' o = stacks s b' o) -> n = 0 \/ fst p <> b -> hpost s0 p n ts (eq b) s'.
Proof.
  intros (OK & L & A & E & R & K) OK' L' A' E' N. split; [exact OK'|]. split; [lia|]. split; [congruence|]. split; [|split].
  - intros b' o H1 H2. rewrite E' by congruence. auto.
  - intros i Hi. destruct N as [N|N]; [lia|]. rewrite E' by exact N. auto.
  - intros RS t LT RT i Hi. destruct N as [N|N]; [lia|]. rewrite E' by exact N. now apply (K RS t LT RT).
Qed.
Lemma to_vec_step {A} (P : perm) (x : ptr -> nat -> nat -> bcode nat) M p n ts s0 b u (kk : nat -> hcode A) Q s m : P = SharedRW -> (forall q k, op P q k (x q k)) ->
  hpost s0 p n ts (eq (new_block M)) s -> box_held M p n s0 b u s m ->
  (forall v s', hpost s0 p n ts (eq (new_block M)) s' -> vec_held p n s0 (vec_of_box b) v s' m -> hgood (kk v) Q s' m) ->
  hgood (hbind (lift (x (at_start (x_block b)) (x_len b) u)) kk) Q s m.
Proof.
  intros HP HX I (EB & NB & U & L & B) H. apply (h_op P (x (at_start (x_block b)) (x_len b)) (x_block b) (x_len b)); [auto|apply HX|apply I|exact B|].
  intros v s' OK' V' A' E' HH _. apply H.
  - apply (hpost_step s0 p n ts _ s); auto; [lia|]. intros b' o N. apply E'. congruence.
  - split; [lia|]. cbn [vec_of_box v_block]. rewrite <- L. apply (holds_owns P); auto.
Qed.
Lemma to_string_good M x src : good_new (box_held M) M x src -> good_new vec_held M (fun p n ts => to_string_b (x p n ts)) src.
Proof.
  intros HG m s b o ts S LS OK LT MR. unfold to_string_b. apply hgood_bind. refine (hgood_imp _ _ _ _ _ _ (HG m s b o ts S LS OK LT MR)).
  intros [bx u] s1 m1 [I H]. cbn [fst snd] in *. apply (to_vec_step SharedRW string_of_box_t M (b, o) (length src) ts s); auto; [intros; apply op_string_of_box|].
  intros v s2 I2 H2. now split.
Qed.
Lemma to_vec_good M x src : good_new (res_held (box_held M)) M x src -> good_new (res_held vec_held) M (fun p n ts => to_vec_b (x p n ts)) src.
Proof.
  intros HG m s b o ts S LS OK LT MR. unfold to_vec_b. apply hgood_bind. refine (hgood_imp _ _ _ _ _ _ (HG m s b o ts S LS OK LT MR)).
  intros [[bx|] u] s1 m1 [I H]; cbn [fst snd] in *.
  - apply (to_vec_step SharedRW vec_of_box_t M (b, o) (length src) ts s); auto; [intros; apply op_vec_of_box|]. intros v s2 I2 H2. now split.
  - now split.
Qed.
Lemma held_box M p n s0 a u s m k : box_held M p n s0 a u s m -> Some (x_block a) = Some k -> owned k s0 u s m.
Proof. intros (_ & _ & U & L & B) E. injection E as <-. split; [exact U|]. rewrite <- L. now apply boxed_owns. Qed.
Lemma held_vec p n s0 a u s m k : vec_held p n s0 a u s m -> Some (v_block a) = Some k -> owned k s0 u s m.
Proof. intros H E. injection E as <-. exact H. Qed.
Lemma held_res {A} (H : holder A) (f : A -> nat) : (forall p n s0 a u s m k, H p n s0 a u s m -> Some (f a) = Some k -> owned k s0 u s m) ->
  forall p n s0 a u s m k, res_held H p n s0 a u s m -> match a with Ok b => Some (f b) | Err => None end = Some k -> owned k s0 u s m.
Proof. intros HH p n s0 [a|] u s m k HA E; [exact (HH _ _ _ _ _ _ _ _ HA E)|discriminate]. Qed.

(** ** Annotations *)
Ltac hret := exact (fun _ => eq_refl).
Lemma alloc_ann M n : hannotates fst (alloc_uninit_bytes_b M n) (alloc_uninit_bytes M n).
Proof.
  apply hannotates_fn. unfold alloc_uninit_bytes. eapply hannotates_ext.
  2:{ apply (hannotates_pure fst _ (fun _ => bind (alloc M n) (fun b => ret {| x_block := b; x_len := n |}))). intros []. cbn [halloc hbind fst snd hannotates].
      eexists. split; [intro; reflexivity|]. intros b t. apply hannotates_borrow; [nox|]. intro u. hret. }
  intro m. unfold bind. now destruct (_ && _).
Qed.
Lemma empty_ann M : hannotates fst (box_empty_b M) (box_empty M).
Proof. cbn [box_empty_b halloc hbind hannotates]. eexists. split; [intro; reflexivity|]. intros b t. hret. Qed.
Lemma assume_ann b : hannotates fst (assume_init_b b) (assume_init (fst b)).
Proof.
  eapply hannotates_ext; [apply bind_ret_eq|]. apply hannotates_pure. intro y. apply hannotates_borrow; [nox|]. intro u. hret.
Qed.
Lemma boxed_str_ann b : hannotates fst (boxed_str_b b) (boxed_str (fst b)).
Proof.
  eapply hannotates_ext; [apply bind_ret_eq|]. apply hannotates_pure. intro y. apply hannotates_borrow; [nox|]. intro u. hret.
Qed.
Lemma enc_box_ann M f L g : (forall p, f p 0 = box_empty M) ->
  (forall p n, n <> 0 -> f p n = (m <- L n ;; assert_ (m <=? usize_limit M / 2)%Z ;;; buf <- alloc_uninit_bytes M (Z.to_nat m) ;;
                    g p n (x_block buf, 0) ;;; b <- assume_init buf ;; boxed_str b)) ->
  forall p n ts, hannotates fst (encode_to_boxed_str_b M L g p n ts) (f p n).
Proof.
  intros H0 H1 p n ts. apply hannotates_fn. apply hannotates_borrow; [nox|]. intro u. apply hannotates_borrow; [nox|]. intros _.
  destruct (Nat.eqb_spec n 0) as [->|N]; [rewrite H0; apply empty_ann|]. rewrite H1 by exact N. apply hannotates_borrow; [nox|]. intros _.
  apply hannotates_pure. intro z. apply hannotates_pure. intros _. apply (hannotates_bind fst); [apply alloc_ann|]. intros [buf t]. cbn [fst snd].
  apply hannotates_borrow; [nox|]. intro v. apply hannotates_borrow; [nox|]. intro td. apply hannotates_exec. intros _.
  apply (hannotates_bind fst); [apply (assume_ann (buf, t))|]. intro b. apply boxed_str_ann.
Qed.
Lemma enc_append_ann M f L g : (forall p v, f p 0 v = ret v) ->
  (forall p n v, n <> 0 -> f p n v = (m <- L n ;; assert_ (m <=? usize_limit M / 2)%Z ;;; buf <- reserve_exact M v (Z.to_nat m) ;;
                    let prev_len := v_len buf in dst <- padd (v_block buf, 0) prev_len ;;
                    g p n dst ;;; set_len buf (prev_len + Z.to_nat m))) ->
  forall p n v ts tv, hannotates fst (encode_append_vec_b M L g p n v ts tv) (f p n v).
Proof.
  intros H0 H1 p n v ts tv. apply hannotates_fn. apply hannotates_borrow; [nox|]. intro u. apply hannotates_borrow; [nox|]. intros _.
  destruct (Nat.eqb_spec n 0) as [->|N]; [rewrite H0; hret|]. rewrite H1 by exact N. apply hannotates_borrow; [nox|]. intros _.
  apply hannotates_pure. intro z. apply hannotates_pure. intros _. cbn [hgrow hbind hannotates]. eexists. split; [intro; reflexivity|]. intros w t. cbn [fst snd]. cbv zeta.
  apply hannotates_borrow; [nox|]. intro r. apply hannotates_pure. intro dst. apply hannotates_exec. intros _. eapply hannotates_ext; [apply bind_ret_eq|].
  apply hannotates_pure. intro y. hret.
Qed.
Lemma dec_box_ann M f dlb parts dl g : (forall p, f p 0 = (b <- box_empty M ;; ret (Ok b))) ->
  (forall p n, n <> 0 -> f p n = try_ (dl p n) (fun nm => buf <- alloc_uninit_bytes M (snd nm) ;;
        try_drop (g p (fst nm) (x_block buf, 0)) (drop_box buf) (fun _ => b <- assume_init buf ;; ret (Ok b)))) ->
  (forall p n t, annotates (fun a => a) (dlb p n t) (dl p n)) -> (forall p n t, noexec (parts p n t)) ->
  forall p n ts, hannotates fst (decode_to_boxed_bytes_b M dlb parts g p n ts) (f p n).
Proof.
  intros H0 H1 HD NP p n ts. apply hannotates_fn. apply hannotates_borrow; [nox|]. intro u. apply hannotates_borrow; [nox|]. intros _.
  destruct (Nat.eqb_spec n 0) as [->|N].
  { rewrite H0. apply (hannotates_bind fst); [apply empty_ann|]. intro b. hret. }
  rewrite H1 by exact N. unfold try_. apply (hannotates_bind (fun a => a)); [apply hannotates_lift, HD|]. intros [nm|]; [|hret].
  apply (hannotates_bind fst); [apply alloc_ann|]. intros [buf t]. cbn [fst snd].
  apply hannotates_borrow; [nox|]. intro td. apply hannotates_borrow; [apply NP|]. intro v. unfold try_drop. apply hannotates_exec. intros [x|].
  - apply (hannotates_bind fst); [apply (assume_ann (buf, t))|]. intro b. hret.
  - cbn [drop_box_b hfree hbind hannotates fst snd]. exists (ret Err). split; [intro; reflexivity|hret].
Qed.
Lemma dec_append_ann M f dlb parts dl g : (forall p v, f p 0 v = ret (Ok tt, v)) ->
  (forall p n v, n <> 0 -> f p n v = try_vec (dl p n) v (fun nm => buf <- reserve_exact M v (snd nm) ;;
          let prev_len := v_len buf in dst <- padd (v_block buf, 0) prev_len ;;
          try_vec (g p (fst nm) dst) buf (fun _ => buf <- set_len buf (prev_len + snd nm) ;; ret (Ok tt, buf)))) ->
  (forall p n t, annotates (fun a => a) (dlb p n t) (dl p n)) -> (forall p n t, noexec (parts p n t)) ->
  forall p n v ts tv, hannotates fst (decode_append_vec_b M dlb parts g p n v ts tv) (f p n v).
Proof.
  intros H0 H1 HD NP p n v ts tv. apply hannotates_fn. apply hannotates_borrow; [nox|]. intro u. apply hannotates_borrow; [nox|]. intros _.
  destruct (Nat.eqb_spec n 0) as [->|N]; [rewrite H0; hret|].
  rewrite H1 by exact N. unfold try_vec at 1. apply (hannotates_bind (fun a => a)); [apply hannotates_lift, HD|]. intros [nm|]; [|hret].
  cbn [hgrow hbind hannotates]. eexists. split; [intro; reflexivity|]. intros w t. cbn [fst snd]. cbv zeta. apply hannotates_pure. intro dst.
  apply hannotates_borrow; [apply NP|]. intro r. unfold try_vec. apply hannotates_exec. intros [x|]; [|hret].
  apply hannotates_pure. intro y. hret.
Qed.
Lemma to_string_ann x c : hannotates fst x c -> hannotates fst (to_string_b x) (into_vec c).
Proof. intro H. apply (hannotates_bind fst); [exact H|]. intro b. apply hannotates_borrow; [nox|]. intro u. hret. Qed.
Lemma to_vec_ann x c : hannotates fst x c -> hannotates fst (to_vec_b x) (into_vec_res c).
Proof.
  intro H. apply (hannotates_bind fst); [exact H|]. intros [[b|] t]; [|hret]. apply hannotates_borrow; [nox|]. intro u. hret.
Qed.

(** ** The decoded length *)
Lemma good_noexec {A} (F : nat -> nat -> Prop) (x : bcode A) Q m : noexec x -> forall s, good F x Q s m -> exists a s', runs x s m a s' m /\ Q a s' m.
Proof.
  induction x as [a|y j IH|X v c0 j IH]; cbn [noexec good]; intros N s G; [|destruct (perform y s) as [[t s1]|] eqn:E; [|contradiction]|contradiction].
  - exists a, s. split; [constructor|exact G].
  - destruct (IH t (N t) s1 G) as (a & s' & RU & H). exists a, s'. split; [|exact H]. exact (runs_borrow _ _ _ _ _ _ _ _ _ _ E RU).
Qed.
Lemma hex_dl_noexec p n u : noexec (hex_dl_b p n u).
Proof. unfold hex_dl_b; apply noexec_bind; [nox|]; intros _; destruct (negb _); [exact I|]; apply noexec_bind; [nox|]; intros _; exact I. Qed.
Lemma hex_dl_ann p n t : annotates (fun a => a) (hex_dl_b p n t) (hex_dl p n).
Proof. unfold hex_dl_b, hex_dl. ann. destruct (negb _); ann. Qed.
Lemma hex_dl_ok src : dl_ok hex_dl_b hex_dl src.
Proof.
  intros m s b o u S NZ OK L R. set (n := length src) in *. set (p := (b, o)).
  destruct (good_noexec (fun _ _ => True) (hex_dl_b p n u) (fun r s' mm => state_ok s' /\ ro_step p n s s' /\ hex_dl p n m = Ret r m) m) with (s := s) as (r & s' & H).
  - apply hex_dl_noexec.
  - apply good_ok; [apply hex_dl_noexec|exact OK|].
    unfold hex_dl_b, hex_dl. apply good_bind. apply ro_len; [now apply ok_wf|exact L|exact R|]. intros v s1 W1 ST1 L1 R1. destruct (negb _).
    + cbn [good]. intro OK1. auto.
    + apply good_bind. apply ro_len; [exact W1| |exact (readable_ro _ _ _ _ _ ST1 L R)|].
      * destruct ST1 as (F1 & _). lia.
      * intros v2 s2 W2 ST2 _ _. cbn [good]. intro OK2. split; [exact OK2|]. split; [exact (ro_trans _ _ _ _ _ ST1 ST2)|reflexivity].
  - exists r, s'. exact H.
Qed.
Lemma exec_dl_ok dlb (dl : ptr -> nat -> M (result (nat * nat))) R src :
  (forall p n t, dlb p n t = fn (u <== shared_param p n t ;; v <== (slice_len p n u ;=; slice_len p n u ;=; Return u) ;; exec (via1 (fst p) v) (dl p n))) ->
  (forall p n, reified True (fun _ => False) R (dl p n)) -> (forall p n t, annotates (fun a => a) (dlb p n t) (dl p n)) ->
  (forall m b o, slice m b o src -> length src <> 0 -> exists r, dl (b, o) (length src) m = Ret r m) -> dl_ok dlb dl src.
Proof.
  intros HS HR HA HT m s b o u S NZ OK L RD. set (n := length src) in *. set (p := (b, o)).
  destruct (HT _ b o (only_slice m b o src S) NZ) as (r & E). fold n p in E.
  destruct (good_runs (cells_of p n) (fun a => a) (dlb p n u) (fun _ s' _ => ro_step p n s s')) with (c := dl p n) (s := s) (s2 := s) (m := m) (mm := only p n m) (r := r) (mmf := only p n m)
    as (a & s' & m' & RU & -> & ST & _).
  - intros a s1 s2 _ (HS1 & HF1 & HA1) (F1 & A1 & E1 & C1). split; [lia|]. split; [congruence|]. split; [intros b' o' H; rewrite HS1; auto|].
    intros i Hi. destruct (C1 i Hi) as (X & EX & HX). exists X. rewrite HS1. split; [exact EX|exact HX].
  - apply HA.
  - exact E.
  - intros b' o' Hi. exact (only_init _ _ _ _ _ Hi).
  - apply only_less.
  - rewrite HS. apply (good_reader _ p n u (fun u => slice_len p n u ;=; slice_len p n u ;=; Return u) (dl p n) R); auto.
    + intro. apply ro_lens.
    + now apply ok_wf.
    + intros b' o' Hi. exact (only_init _ _ _ _ _ Hi).
  - apply same_refl.
  - assert (EC := runs_code (fun a => a) _ _ _ _ _ _ RU _ (HA _ _ _)). destruct (HT m b o S NZ) as (r' & E'). fold n p in E'. rewrite E' in EC. injection EC as -> <-.
    exists r, s'. split; [exact RU|]. split; [exact (runs_ok _ _ _ _ _ _ RU OK)|]. split; [exact ST|exact E'].
Qed.
