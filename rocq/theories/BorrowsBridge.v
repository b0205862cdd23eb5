(** From the steps of a call to [borrows_into], [borrows_inplace] and [borrows_check] *)
From Coq Require Import ZArith List Bool Lia ZifyBool ZifyNat.
From Verif Require Import Bytes Mem MemFacts Slices Codec Conc ConcFacts ConcBase64Facts Reify ConcApi ConcApiFacts Isa Simd Ints
  Borrows BorrowsApi BorrowsFacts BorrowsLib BorrowsCalls.
Import ListNotations.
Open Scope nat_scope. Open Scope m_scope. Open Scope borrow_scope.

Lemma unprotected_all act X : Forall (fun x => protected act x = false) X -> existsb (protected act) X = false.
Proof. induction 1 as [|x X H _ IH]; [reflexivity|]. cbn [existsb]. now rewrite H, IH. Qed.
Lemma split_rw_kept a : forall p k, split_rw a = (p, k) -> Forall (fun i => is_shared_rw i = true) k.
Proof.
  induction a as [|i r IH]; cbn [split_rw]; intros p k E; [injection E as <- <-; constructor|].
  destruct (split_rw r) as [p' k'] eqn:ER. specialize (IH p' k' eq_refl). destruct p' as [|x p'].
  - destruct (is_shared_rw i) eqn:EI; injection E as <- <-; auto.
  - injection E as <- <-. exact IH.
Qed.
Lemma split_rw_all k : Forall (fun i => is_shared_rw i = true) k -> split_rw k = ([], k).
Proof. induction 1 as [|i k H _ IH]; [reflexivity|]. cbn [split_rw]. now rewrite IH, H. Qed.
Lemma split_rw_app X k : Forall (fun i => is_shared_rw i = true) k -> split_rw (X ++ k) = (fst (split_rw X), snd (split_rw X) ++ k).
Proof.
  intro H. induction X as [|i X IH]; cbn [app split_rw]; [now apply split_rw_all|]. rewrite IH. destruct (split_rw X) as [p k']. cbn [fst snd].
  destruct p; [|reflexivity]. destruct (is_shared_rw i); reflexivity.
Qed.
Lemma write_added s t X st : t < fresh s -> added s X -> wtop t st -> write_at (active s) t (X ++ st) <> None.
Proof.
  intros L HX (g & r & -> & G). unfold write_at. rewrite (locate_app true t X g r); [| |exact G].
  - destruct (split_above g X) as [p k] eqn:E. apply split_above_in in E. subst X. apply Forall_app in HX as [HX _].
    rewrite unprotected_all; [discriminate|]. apply Forall_forall. intros x Hx. exact (proj2 (proj1 (Forall_forall _ _) HX x Hx)).
  - apply Forall_forall. intros x Hx. destruct (proj1 (Forall_forall _ _) HX x Hx) as [T _]. unfold grants. now rewrite (proj2 (Nat.eqb_neq _ _)) by lia.
Qed.
Lemma write_again s t X st st' : t < fresh s -> added s X -> write_at (active s) t st = Some st' -> write_at (active s) t (X ++ st') <> None.
Proof.
  intros L HX E. unfold write_at in E. destruct (locate true t st) as [[[above g] below]|] eqn:EL; [|discriminate E]. apply locate_some in EL as (-> & G & NG).
  destruct (split_above g above) as [p k] eqn:ES. destruct (existsb _ p); [discriminate E|]. injection E as <-. unfold write_at. rewrite app_assoc.
  assert (EA := split_above_in _ _ _ _ ES). subst above. apply Forall_app in NG as [_ NG].
  rewrite (locate_app true t (X ++ k) g below); [| |exact G].
  - assert (PX : existsb (protected (active s)) X = false).
    { apply unprotected_all. apply Forall_forall. intros x Hx. exact (proj2 (proj1 (Forall_forall _ _) HX x Hx)). }
    unfold split_above in *. destruct (is_shared_rw g).
    + rewrite split_rw_app by exact (split_rw_kept _ _ _ ES). destruct (split_rw X) as [p1 k1] eqn:EX. cbn [fst snd]. apply split_rw_in in EX. subst X.
      rewrite existsb_app in PX. apply orb_false_iff in PX as [-> _]. discriminate.
    + injection ES as _ <-. rewrite app_nil_r, PX. discriminate.
  - apply Forall_app. split; [|exact NG]. apply Forall_forall. intros x Hx. destruct (proj1 (Forall_forall _ _) HX x Hx) as [T _]. unfold grants.
    now rewrite (proj2 (Nat.eqb_neq _ _)) by lia.
Qed.

(** ** Part of memory *)
Definition only (p : ptr) (n : nat) (m : mem) : mem := mask (in_range (fst p) (snd p) n) m.
Lemma only_masked p n m : masked (in_range (fst p) (snd p) n) m (only p n m). Proof. apply mask_masked. Qed.
Lemma only_less p n m : less m (only p n m).
Proof.
  intro b. destruct (only_masked p n m b) as [L H]. split; [exact L|]. intros o x E.
  assert (Ho : o < length (m b)) by (rewrite <- L; apply nth_error_Some; congruence). specialize (H o Ho).
  destruct (in_range (fst p) (snd p) n b o); congruence.
Qed.
Lemma only_init p n m b o : init (only p n m) b o -> cells_of p n b o.
Proof.
  intros [x E]. destruct (only_masked p n m b) as [L H]. assert (Ho : o < length (m b)) by (rewrite <- L; apply nth_error_Some; congruence).
  specialize (H o Ho). unfold cells_of. destruct (in_range (fst p) (snd p) n b o); congruence.
Qed.
Lemma only_slice m b o l : slice m b o l -> slice (only (b, o) (length l) m) b o l.
Proof.
  intros [B S]. split; [exact B|]. apply (masked_bytes _ _ _ _ _ _ (only_masked (b, o) (length l) m) S). intros i Hi. cbn [fst snd].
  apply in_range_iff. lia.
Qed.
Lemma only_room p n m d e k : room m d e k -> room (only p n m) d e k.
Proof. unfold room. now rewrite (proj1 (only_masked p n m d)). Qed.
Lemma frame_init m d e n m' b o : only_changed m d e n m' -> init m' b o -> init m b o \/ cells_of (d, e) n b o.
Proof.
  intros (F1 & F2 & F3) [x Hx]. destruct (in_range d e n b o) eqn:R; [now right|]. left. exists x. destruct (Nat.eq_dec b d) as [->|N].
  - rewrite <- F3; [exact Hx|]. revert R. unfold in_range. lia.
  - now rewrite <- F1.
Qed.

(** ** Into *)
Definition settles {A} (f : ptr -> nat -> ptr -> nat -> M A) (src : list Z) (dlen : nat) : Prop :=
  forall m b o d e, slice m b o src -> room m d e dlen -> separate b o (length src) d e dlen ->
    exists r m', f (b, o) (length src) (d, e) dlen m = Ret r m' /\ only_changed m d e dlen m'.
Definition good_into {A} (ret : A -> option (ptr * nat)) (x : ptr -> nat -> ptr -> nat -> nat -> nat -> bcode (A * nat)) (n k : nat) : Prop :=
  forall (F : nat -> nat -> Prop) p q ts td (Q : A * nat -> borrows -> mem -> Prop) s mm, fst p <> fst q ->
    (forall b o, F b o -> cells_of p n b o \/ cells_of q k b o) -> (forall b o, init mm b o -> cells_of p n b o) ->
    wf s -> ts < fresh s -> readable_in s p n ts -> on_top s q k td ->
    (forall r u s' mm', into_post s s' p n q k ts (ret r) u -> Q (r, u) s' mm') -> good F (x p n q k ts td) Q s mm.
Lemma leaves_of s s' p n q k {A} (x : bcode A) m a m' : state_ok s -> runs x s m a s' m' -> active s' = active s ->
  (forall b o, in_range (fst p) (snd p) n b o = false -> in_range (fst q) (snd q) k b o = false -> stacks s' b o = stacks s b o) -> leaves s s' p n q k.
Proof. intros H R A' E. split; [exact (runs_ok _ _ _ _ _ _ R H)|]. auto. Qed.
Lemma on_top_same s s' p n t : same s s' -> on_top s p n t -> on_top s' p n t.
Proof. intros (H & _) T i Hi. rewrite H. now apply T. Qed.
Lemma returned_same s s1 s2 sl u : same s1 s2 -> returned s s1 sl u -> returned s s2 sl u.
Proof. intros H R. destruct sl as [[q k]|]; [|exact R]. destruct R as [L T]. split; [exact L|]. exact (on_top_same _ _ _ _ _ H T). Qed.
Lemma into_post_same s s1 s2 p n q k ts sl u : same s1 s2 -> into_post s s1 p n q k ts sl u -> into_post s s2 p n q k ts sl u.
Proof.
  intros H (W & L & A & E & R & K & C & T). assert (T' := returned_same _ _ _ _ _ H T). destruct H as (HS & HF & HA).
  split; [|split; [|split; [|split; [|split; [|split; [|split]]]]]].
  - intros c Hc. rewrite HA in Hc. rewrite HF. now apply W.
  - lia.
  - congruence.
  - intros b o H1 H2. rewrite HS. auto.
  - intros i Hi. rewrite HS. auto.
  - intros RS t Lt RT i Hi. rewrite HS. now apply (K RS t Lt RT).
  - intros i Hi. rewrite HS. auto.
  - exact T'.
Qed.
(** where what the source holds matters *)
Definition good_into_on {A} (ret : A -> option (ptr * nat)) (x : ptr -> nat -> ptr -> nat -> nat -> nat -> bcode (A * nat)) (src : list Z) (k : nat) : Prop :=
  forall (F : nat -> nat -> Prop) p q ts td (Q : A * nat -> borrows -> mem -> Prop) s mm, fst p <> fst q -> slice mm (fst p) (snd p) src -> room mm (fst q) (snd q) k ->
    (forall b o, F b o -> cells_of p (length src) b o \/ cells_of q k b o) -> (forall b o, init mm b o -> cells_of p (length src) b o) ->
    wf s -> ts < fresh s -> readable_in s p (length src) ts -> on_top s q k td ->
    (forall r u s' mm', into_post s s' p (length src) q k ts (ret r) u -> Q (r, u) s' mm') -> good F (x p (length src) q k ts td) Q s mm.
Lemma borrows_into_on {A} (ret : A -> option (ptr * nat)) x f src dlen :
  (forall p q ts td, annotates fst (x p (length src) q dlen ts td) (f p (length src) q dlen)) -> (bytes src -> settles f src dlen) ->
  good_into_on ret x src dlen -> borrows_into ret x f src dlen.
Proof.
  intros HA HS HG m s b o d e ts td S R N OK LS LD MR OT. set (n := length src) in *. set (mm := only (b, o) n m).
  destruct (HS (proj1 S) mm b o d e (only_slice _ _ _ _ S) (only_room _ _ _ _ _ _ R) (or_introl N)) as (r & mmf & E & FR).
  set (F := fun b' o' => cells_of (b, o) n b' o' \/ cells_of (d, e) dlen b' o').
  destruct (good_runs F fst (x (b, o) n (d, e) dlen ts td) (fun a s' _ => into_post s s' (b, o) n (d, e) dlen ts (ret (fst a)) (snd a))) with
    (c := f (b, o) n (d, e) dlen) (s := s) (s2 := s) (m := m) (mm := mm) (r := r) (mmf := mmf) as ([r' u] & s' & m' & RU & Er & P & _).
  - intros a s1 s2 _ H. now apply into_post_same.
  - apply HA.
  - exact E.
  - intros b' o' Hi. destruct (frame_init _ _ _ _ _ _ _ FR Hi) as [Hi'|Hi']; [left; exact (only_init _ _ _ _ _ Hi')|now right].
  - apply only_less.
  - apply HG; auto.
    + exact (only_slice _ _ _ _ S).
    + exact (only_room _ _ _ _ _ _ R).
    + intros b' o' Hi. exact (only_init _ _ _ _ _ Hi).
    + now apply ok_wf.
    + intros i Hi. rewrite read_enter by exact OK. specialize (MR i Hi). destruct (read_at _ _ _); [eauto|contradiction].
  - apply same_refl.
  - cbn [fst snd] in *. subst r'. exists r, u, s', m'. split; [exact RU|]. split; [exact (runs_code fst _ _ _ _ _ _ RU _ (HA _ _ _ _))|].
    destruct P as (W' & LF & A' & EL & RD & _ & C & T). split; [exact (leaves_of _ _ _ _ _ _ _ _ _ _ OK RU A' EL)|]. split; [exact T|]. split.
    + intros i Hi. rewrite (reads_stable (active s') ts _ (RD i Hi)). discriminate.
    + intros i Hi. destruct (C i Hi) as (X & -> & HX). rewrite A'. apply write_added; [exact LD|exact HX|]. exact (OT i Hi).
Qed.
Lemma borrows_into_of {A} (ret : A -> option (ptr * nat)) x f src dlen :
  (forall p q ts td, annotates fst (x p (length src) q dlen ts td) (f p (length src) q dlen)) -> (bytes src -> settles f src dlen) ->
  good_into ret x (length src) dlen -> borrows_into ret x f src dlen.
Proof.
  intros HA HS HG. apply borrows_into_on; [exact HA|exact HS|]. intros F p q ts td Q s mm N _ _ HF HI W LT RI OT H. now apply HG.
Qed.

(** ** In place *)
Definition settles_inplace {A} (f : ptr -> nat -> M A) (data : list Z) : Prop :=
  forall m b o, slice m b o data -> exists r m', f (b, o) (length data) m = Ret r m' /\ only_changed m b o (length data) m'.
Definition good_inplace {A} (ret : A -> option (ptr * nat)) (x : ptr -> nat -> nat -> bcode (A * nat)) (n : nat) : Prop :=
  forall (F : nat -> nat -> Prop) p t base (Q : A * nat -> borrows -> mem -> Prop) s mm,
    (forall b o, F b o -> cells_of p n b o) -> (forall b o, init mm b o -> cells_of p n b o) -> wf s -> writable_in s p n t base ->
    (forall r u s' mm', inplace_post s s' p n base (ret r) u -> Q (r, u) s' mm') -> good F (x p n t) Q s mm.
Lemma inplace_post_same s s1 s2 p n base sl u : same s1 s2 -> inplace_post s s1 p n base sl u -> inplace_post s s2 p n base sl u.
Proof.
  intros H (W & L & A & E & C & T). assert (T' := returned_same _ _ _ _ _ H T). destruct H as (HS & HF & HA). split; [|split; [|split; [|split; [|split]]]].
  - intros c Hc. rewrite HA in Hc. rewrite HF. now apply W.
  - lia.
  - congruence.
  - intros b o H1. rewrite HS. auto.
  - intros i Hi. rewrite HS. auto.
  - exact T'.
Qed.
Definition good_inplace_on {A} (ret : A -> option (ptr * nat)) (x : ptr -> nat -> nat -> bcode (A * nat)) (data : list Z) : Prop :=
  forall (F : nat -> nat -> Prop) p t base (Q : A * nat -> borrows -> mem -> Prop) s mm, slice mm (fst p) (snd p) data ->
    (forall b o, F b o -> cells_of p (length data) b o) -> (forall b o, init mm b o -> cells_of p (length data) b o) -> wf s ->
    writable_in s p (length data) t base ->
    (forall r u s' mm', inplace_post s s' p (length data) base (ret r) u -> Q (r, u) s' mm') -> good F (x p (length data) t) Q s mm.
Lemma borrows_inplace_on {A} (ret : A -> option (ptr * nat)) x f data :
  (forall p t, annotates fst (x p (length data) t) (f p (length data))) -> (bytes data -> settles_inplace f data) ->
  good_inplace_on ret x data -> borrows_inplace ret x f data.
Proof.
  intros HA HS HG m s b o t S OK LT MW. set (n := length data) in *. set (mm := only (b, o) n m).
  destruct (HS (proj1 S) mm b o (only_slice _ _ _ _ S)) as (r & mmf & E & FR).
  set (base := fun i => match write_at (active s) t (stacks s b (o + i)) with Some st => st | None => [] end).
  assert (HB : forall i, i < n -> write_at (active s) t (stacks s b (o + i)) = Some (base i)).
  { intros i Hi. specialize (MW i Hi). cbn [fst snd] in MW. unfold base. destruct (write_at _ _ _); [reflexivity|contradiction]. }
  destruct (good_runs (cells_of (b, o) n) fst (x (b, o) n t) (fun a s' _ => inplace_post s s' (b, o) n base (ret (fst a)) (snd a))) with
    (c := f (b, o) n) (s := s) (s2 := s) (m := m) (mm := mm) (r := r) (mmf := mmf) as ([r' u] & s' & m' & RU & Er & P & _).
  - intros a s1 s2 _ H. now apply inplace_post_same.
  - apply HA.
  - exact E.
  - intros b' o' Hi. destruct (frame_init _ _ _ _ _ _ _ FR Hi) as [Hi'|Hi']; [exact (only_init _ _ _ _ _ Hi')|exact Hi'].
  - apply only_less.
  - apply (HG _ _ _ base); auto.
    + exact (only_slice _ _ _ _ S).
    + intros b' o' Hi. exact (only_init _ _ _ _ _ Hi).
    + now apply ok_wf.
    + intros i Hi. cbn [fst snd]. rewrite write_enter by exact OK. now apply HB.
  - apply same_refl.
  - cbn [fst snd] in *. subst r'. exists r, u, s', m'. split; [exact RU|]. split; [exact (runs_code fst _ _ _ _ _ _ RU _ (HA _ _))|].
    destruct P as (W' & LF & A' & EL & C & T). split; [apply (leaves_of _ _ _ _ _ _ _ _ _ _ OK RU A'); auto|]. split; [exact T|].
    intros i Hi. destruct (C i Hi) as (X & -> & HX). rewrite A'. exact (write_again _ _ _ _ _ LT HX (HB i Hi)).
Qed.
Lemma borrows_inplace_of {A} (ret : A -> option (ptr * nat)) x f data :
  (forall p t, annotates fst (x p (length data) t) (f p (length data))) -> (bytes data -> settles_inplace f data) ->
  good_inplace ret x (length data) -> borrows_inplace ret x f data.
Proof.
  intros HA HS HG. apply borrows_inplace_on; [exact HA|exact HS|]. intros F p t base Q s mm _ HF HI W WI H. now apply (HG F p t base).
Qed.

(** ** Checks *)
Definition good_check {A} (x : ptr -> nat -> nat -> bcode A) (n : nat) : Prop :=
  forall (F : nat -> nat -> Prop) p t (Q : A -> borrows -> mem -> Prop) s mm, (forall b o, init mm b o -> cells_of p n b o) ->
    wf s -> t < fresh s -> readable_in s p n t ->
    (forall r s', wf s' -> fresh s <= fresh s' -> active s' = active s -> elsewhere p n s s' -> readable s' p n t -> Q r s' mm) -> good F (x p n t) Q s mm.
Lemma borrows_check_of {A} (x : ptr -> nat -> nat -> bcode A) f src :
  (forall p t, annotates (fun a => a) (x p (length src) t) (f p (length src))) ->
  (bytes src -> forall m b o, slice m b o src -> exists r m', f (b, o) (length src) m = Ret r m' /\ same_mem m m') ->
  good_check x (length src) -> borrows_check x f src.
Proof.
  intros HA HS HG m s b o t S OK LT MR. set (n := length src) in *. set (mm := only (b, o) n m).
  destruct (HS (proj1 S) mm b o (only_slice _ _ _ _ S)) as (r & mmf & E & SM).
  destruct (good_runs (cells_of (b, o) n) (fun a => a) (x (b, o) n t) (fun _ s' _ => active s' = active s /\ elsewhere (b, o) n s s' /\ readable s' (b, o) n t)) with
    (c := f (b, o) n) (s := s) (s2 := s) (m := m) (mm := mm) (r := r) (mmf := mmf) as (r' & s' & m' & RU & Er & P & _).
  - intros a s1 s2 _ (HS1 & HF1 & HA1) (P1 & P2 & P3). split; [congruence|]. split; [intros b' o' H'; rewrite HS1; auto|]. intros i Hi. rewrite HS1. auto.
  - apply HA.
  - exact E.
  - intros b' o' [z Hi]. rewrite SM in Hi. apply (only_init (b, o) n m). now exists z.
  - apply only_less.
  - apply HG; auto.
    + intros b' o' Hi. exact (only_init _ _ _ _ _ Hi).
    + now apply ok_wf.
    + intros i Hi. rewrite read_enter by exact OK. specialize (MR i Hi). destruct (read_at _ _ _); [eauto|contradiction].
  - apply same_refl.
  - subst r'. exists r, s', m'. split; [exact RU|]. split; [exact (runs_code (fun a => a) _ _ _ _ _ _ RU _ (HA _ _))|].
    destruct P as (A' & EL & RD). split; [apply (leaves_of _ _ _ _ _ _ _ _ _ _ OK RU A'); auto|].
    intros i Hi. rewrite (reads_stable (active s') t _ (RD i Hi)). discriminate.
Qed.

(** ** Steps *)
Lemma check_end {A} (F : nat -> nat -> Prop) s0 p n ts (a : A) (Q : A -> borrows -> mem -> Prop) s mm : wf s0 -> src_inv s0 p n ts s ->
  (forall s', wf s' -> fresh s0 <= fresh s' -> active s' = active s0 -> elsewhere p n s0 s' -> readable s' p n ts -> Q a s' mm) ->
  good F (Return a) (final Q) s mm.
Proof.
  intros W0 (W & L & A1 & E & R & _) H. cbn [good]. split; [rewrite A1; discriminate|]. apply H.
  - exact (wf_leave s0 s (fresh s0) W0 ltac:(lia) A1).
  - cbn. lia.
  - cbn. now rewrite A1.
  - exact E.
  - exact R.
Qed.
Lemma into_reader {A X} (F : nat -> nat -> Prop) s0 p n ts u (pre : nat -> bcode nat) (c : M X) (R : X -> Prop) (body : X -> bcode A) Q s mm :
  (forall u, ro_op (pre u) p n u) -> reified True (fun _ => False) R c -> src_inv s0 p n ts s -> ts < fresh s0 -> readable s p n u -> u < fresh s ->
  (forall b o, init mm b o -> cells_of p n b o) ->
  (forall y s', src_inv s0 p n ts s' -> readable s' p n u -> u < fresh s' -> c mm = Ret y mm -> good F (body y) Q s' mm) ->
  good F (bbind (fn (u <== shared_param p n u ;; v <== pre u ;; exec (via1 (fst p) v) c)) body) Q s mm.
Proof.
  intros HP HR I LT RU LU HG H. apply good_bind. apply (good_reader F p n u pre c R); auto; [apply I|]. intros y s' W' ST E. apply H; auto.
  - exact (src_ro _ _ _ _ _ _ I LT W' ST).
  - exact (readable_ro _ _ _ _ _ ST LU RU).
  - destruct ST as (A1 & _). lia.
Qed.
Lemma inplace_reader {A X} (F : nat -> nat -> Prop) s0 p n base g u (pre : nat -> bcode nat) (c : M X) (R : X -> Prop) (body : X -> bcode A) Q s mm :
  (forall u, ro_op (pre u) p n u) -> reified True (fun _ => False) R c -> own_inv s0 p n base g s -> readable s p n u -> u < fresh s ->
  (forall b o, init mm b o -> cells_of p n b o) ->
  (forall y s', own_inv s0 p n base g s' -> c mm = Ret y mm -> good F (body y) Q s' mm) ->
  good F (bbind (fn (u <== shared_param p n u ;; v <== pre u ;; exec (via1 (fst p) v) c)) body) Q s mm.
Proof.
  intros HP HR I RU LU HG H. apply good_bind. apply (good_reader F p n u pre c R); auto; [apply I|]. intros y s' W' ST E. apply H; auto.
  exact (own_ro _ _ _ _ _ _ _ I W' ST).
Qed.
(** [is_empty] and [len], then code that reads through the parameter *)
Lemma ro_lens p n u : ro_op (slice_len p n u ;=; slice_len p n u ;=; Return u) p n u.
Proof. apply ro_seq; [apply ro_len|]. intros _. apply ro_seq; [apply ro_len|]. intros _. apply ro_return. Qed.
Lemma own_readable s0 p n base g s : own_inv s0 p n base g s -> readable s p n (i_tag g). Proof. intros (_ & _ & _ & _ & _ & R & _). exact R. Qed.
Lemma own_fresh s0 p n base g s : own_inv s0 p n base g s -> i_tag g < fresh s. Proof. intros (_ & _ & _ & _ & _ & _ & [_ L] & _). exact L. Qed.

Lemma bind_ret_eq {A} (c : M A) m : c m = bind c (fun y => ret y) m.
Proof. unfold bind. now destruct (c m). Qed.
Ltac ann := cbv [fn do_ exec shared_param mut_param reborrow reborrow_mut slice_len as_ptr as_mut_ptr slice_parts slice_mut fails give];
  cbn [bbind annotates]; intros; try reflexivity.
Ltac iro := match goal with
  | |- good _ (bbind (slice_len _ _ _) _) _ _ _ => eapply into_ro; [apply ro_len|eassumption|assumption|eassumption|assumption|]
  | |- good _ (bbind (slice_parts _ _ _) _) _ _ _ => eapply into_ro; [apply ro_slice_parts|eassumption|assumption|eassumption|assumption|]
  | |- good _ (bbind (as_ptr _ _ _) _) _ _ _ => eapply into_ro; [apply ro_as_ptr|eassumption|assumption|eassumption|assumption|]
  end; intros ? ? ? ? ? ? ?.
(** [&*data] and then a method that only reads *)
Ltac pro := match goal with
  | I : own_inv _ _ _ _ ?g _ |- good _ (bbind (reborrow _ _ (i_tag ?g)) _) _ _ _ =>
      eapply inplace_ro; [apply ro_reborrow|exact I|exact (own_readable _ _ _ _ _ _ I)|exact (own_fresh _ _ _ _ _ _ I)|]
  | |- good _ (bbind (slice_len _ _ _) _) _ _ _ => eapply inplace_ro; [apply ro_len|eassumption|eassumption|assumption|]
  end; intros ? ? ? ? ? ? ?.

(** ** What is known of the functions *)
Lemma settles_dec f src n spec dlen : decodes f src n spec -> rejects_short f src n -> settles f src dlen.
Proof.
  intros HD HS m b o d e S R SEP. destruct (Nat.le_gt_cases n dlen) as [L|L].
  - destruct (HD m b o d e dlen S R SEP L) as (r & m' & E & D). exists r, m'. split; [exact E|]. exact (proj1 (decoded_wide _ _ _ _ _ _ _ _ L D)).
  - do 2 eexists. split; [now apply HS|]. apply Frame_refl.
Qed.
Lemma settles_does f src dlen out : does f src dlen out -> settles f src dlen.
Proof. intros H m b o d e S R SEP. destruct (H m b o d e S R SEP) as (r & m' & E & D). exists r, m'. split; [exact E|exact (proj1 D)]. Qed.
Lemma settles_inplace_dec f data n spec : decodes_inplace f data n spec -> n <= length data -> settles_inplace f data.
Proof.
  intros H L m b o S. destruct (H m b o S) as (r & m' & E & D). exists r, m'. split; [exact E|]. exact (proj1 (decoded_wide _ _ _ _ _ _ _ _ L D)).
Qed.
Lemma settles_check f src ok : checks f src ok -> forall m b o, slice m b o src -> exists r m', f (b, o) (length src) m = Ret r m' /\ same_mem m m'.
Proof. intros H m b o S. destruct (H m b o S) as (m' & E & F). eauto. Qed.
