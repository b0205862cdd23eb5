(** Facts about threads that make several calls. *)
From Coq Require Import ZArith List Bool Lia.
From Verif Require Import Dispatch DispatchFacts.
From Verif Require Import Bytes Mem MemFacts Slices Isa Conc ConcFacts ConcBase64Facts ConcApi ConcApiFacts Reify Whole WholeFacts Clients.
Import ListNotations.
Open Scope nat_scope.

Lemma nth_error_eq {A} (l l' : list A) : (forall o, nth_error l o = nth_error l' o) -> l = l'.
Proof.
  revert l'. induction l as [|x l IH]; intros [|y l'] H; [reflexivity|specialize (H 0); discriminate H|specialize (H 0); discriminate H|].
  assert (E := H 0). cbn in E. injection E as ->. f_equal. apply IH. intro o. exact (H (S o)).
Qed.

(** ** [solo] *)
Lemma solo_frame {A} W k (p : prog A) m a m1 : solo W k p m a m1 -> forall b o, W b o = false -> nth_error (m1 b) o = nth_error (m b) o.
Proof.
  induction 1 as [|k p m p' m' a m1 E HW _ IH]; intros b o F; [reflexivity|]. rewrite IH by exact F. apply (next_frame _ _ _ _ E).
  intro H. apply HW in H. congruence.
Qed.
Lemma solo_fun {A} W W' k k' (p : prog A) m a a' m1 m1' : solo W k p m a m1 -> solo W' k' p m a' m1' -> m1 = m1'.
Proof.
  intro S. revert k' a' m1'. induction S as [a m|k p m p' m' a m1 E HW _ IH]; intros k' a' m1' S'.
  - inversion S' as [|k2 p2 mm2 p'' m'' a2 m2 E2]; subst; [reflexivity|discriminate E2].
  - inversion S' as [a2 mm2|k2 p2 mm2 p'' m'' a2 m2 E2 HW2 S2]; subst; [discriminate E|]. rewrite E in E2. injection E2 as <- <-. eauto.
Qed.
Lemma solo_lift {A} F W k (p : prog A) mm a mm1 : solo W k p mm a mm1 -> (forall b o, W b o = true -> F b o = true) ->
  forall m, masked F m mm -> exists m1, solo W k p m a m1 /\ masked F m1 mm1.
Proof.
  intros S I. induction S as [a mm|k p mm p' mm' a mm1 E HW _ IH]; intros m HM; [exists m; split; [constructor|exact HM]|].
  destruct (next_masked _ _ _ _ _ _ HM E) as [_ (m' & E' & HM')]; [auto|]. destruct (IH m' HM') as (m1 & S1 & HM1).
  exists m1. split; [|exact HM1]. apply (solo_next _ _ _ _ _ _ _ _ E'); auto.
Qed.
Lemma solo_xthen W pick x y : forall k m m1 k' m2, solo W k (erase pick x) m tt m1 -> solo W k' (erase pick y) m1 tt m2 ->
  exists k2, solo W k2 (erase pick (xthen x y)) m tt m2.
Proof.
  induction x as [|f|b kk IH|q n kk IH|q xs kk IH|e kk IH]; intros k m m1 k' m2 S1 S2; cbn [xthen erase] in *.
  - inversion S1 as [|k0 p0 m0 p' m' a0 m10 E0]; subst; [eauto|discriminate E0].
  - inversion S1 as [|k0 p0 m0 p' m' a0 m10 E0]; subst. discriminate E0.
  - inversion S1 as [|k0 p0 m0 p' m' a0 m10 E0 W0 S0]; subst. cbn [next] in E0. injection E0 as <- <-.
    destruct (IH _ _ _ _ _ _ S0 S2) as [k2 S']. exists (S k2). eapply solo_next; [reflexivity|exact W0|exact S'].
  - inversion S1 as [|k0 p0 m0 p' m' a0 m10 E0 W0 S0]; subst. cbn [next] in E0. destruct (load q n m) eqn:EL; try discriminate E0. injection E0 as <- <-.
    destruct (IH _ _ _ _ _ _ S0 S2) as [k2 S']. exists (S k2). eapply solo_next; [cbn [next]; rewrite EL; reflexivity|exact W0|exact S'].
  - inversion S1 as [|k0 p0 m0 p' m' a0 m10 E0 W0 S0]; subst. cbn [next] in E0. destruct (store q xs m) eqn:EL; try discriminate E0. injection E0 as <- <-.
    destruct (IH _ _ _ _ _ S0 S2) as [k2 S']. exists (S k2). eapply solo_next; [cbn [next]; rewrite EL; reflexivity|exact W0|exact S'].
  - exact (IH _ _ _ _ _ _ S1 S2).
Qed.
Lemma autos_xthen x y : forall d d', autos d x -> autos d' y -> autos (d + d') (xthen x y).
Proof.
  induction x as [|f|b k IH|q n k IH|q xs k IH|e k IH]; intros d d' H1 H2; cbn [xthen autos] in *; auto.
  - apply (autos_mono d'); [lia|exact H2].
  - destruct d as [|d]; [contradiction|]. cbn [Nat.add]. intro s. now apply IH.
Qed.

(** ** One call *)
Lemma alone_after c m : alone c -> ready m c -> exists m', code c m = Ret tt m' /\ after m c m'.
Proof. intros A R. destruct (A m R) as (m' & E & D & U). exists m'. split; [exact E|]. split; [exact D|]. destruct c; exact U. Qed.
Lemma after_unaltered m c m' : after m c m' -> unaltered m c m'.
Proof. intros [_ U]. destruct c; exact U. Qed.
Lemma call_solo (p : prog unit) c m : alone c -> ready m c -> implements p (code c) -> stores_in (target c) any p ->
  exists k m1, solo (writes c) k p m tt m1 /\ after m c m1.
Proof.
  intros A R HI HS. destruct (alone_after c m A R) as (m1 & E & AF).
  destruct (run_solo_all p m tt m1 ltac:(rewrite HI; exact E)) as [k S].
  assert (MM := mask_masked (accesses c) m).
  destruct (A (mask (accesses c) m) (masked_ready _ _ _ MM R)) as (mm1 & E' & D' & U').
  destruct (run_solo_all p (mask (accesses c) m) tt mm1 ltac:(rewrite HI; exact E')) as [k' S'].
  assert (SN : solo (accesses c) k' p (mask (accesses c) m) tt mm1).
  { apply (solo_narrow _ _ _ _ _ _ S'). intros b o x Hx. destruct (accesses c b o) eqn:EF; [reflexivity|]. exfalso.
    rewrite (unaltered_outside _ _ _ _ _ U' EF) in Hx. destruct (MM b) as [ML MN].
    assert (Lo : o < length (m b)) by (rewrite <- ML; apply nth_error_Some; congruence). rewrite MN, EF in Hx by exact Lo. discriminate Hx. }
  assert (SW := solo_stores _ _ _ _ _ _ _ _ (targetb c) SN HS (targetb_target c)).
  apply (solo_ext _ (writes c)) in SW; [|intros b o; now rewrite writes_is].
  assert (I : forall b o, writes c b o = true -> accesses c b o = true) by (intros b o; rewrite writes_is; intro H; now apply andb_true_iff in H).
  destruct (solo_lift _ _ _ _ _ _ _ SW I m MM) as (m1' & SL & _).
  exists k', m1'. split; [exact SL|]. now rewrite <- (solo_fun _ _ _ _ _ _ _ _ _ _ S SL).
Qed.

(** ** Several calls *)
Definition any_of (P : call -> nat -> nat -> bool) (cs : list call) (b o : nat) : bool := existsb (fun c => P c b o) cs.
Lemma any_of_in P cs b o : any_of P cs b o = true <-> exists c, In c cs /\ P c b o = true.
Proof. unfold any_of. apply existsb_exists. Qed.
Lemma writes_accesses c b o : writes c b o = true -> accesses c b o = true.
Proof. rewrite writes_is. intro H. now apply andb_true_iff in H. Qed.
Lemma client_solo pick cs : forall xs m, Forall alone cs -> can_make m cs ->
  Forall2 (fun x c => implements (erase pick x) (code c) /\ stores_in (target c) any (erase pick x)) xs cs ->
  exists k m1, solo (any_of writes cs) k (erase pick (xseq xs)) m tt m1 /\ made m cs m1.
Proof.
  induction cs as [|c cs IH]; intros xs m HA HM H2.
  - inversion H2; subst. exists 0, m. split; [constructor|]. now intro.
  - inversion H2 as [|x c' xs' cs' [HI HS] H2']; subst. inversion HA as [|c' cs' A1 A2]; subst. destruct HM as [R HM].
    destruct (call_solo (erase pick x) c m A1 R HI HS) as (k & m1 & S1 & AF).
    destruct (IH xs' m1 A2 (HM m1 AF) H2') as (k' & m2 & S2 & MD).
    apply (solo_ext _ (any_of writes (c :: cs))) in S1; [|intros b o H; unfold any_of; cbn [existsb]; now rewrite H].
    apply (solo_ext _ (any_of writes (c :: cs))) in S2; [|intros b o H; unfold any_of in *; cbn [existsb]; now rewrite H, orb_true_r].
    destruct (solo_xthen _ _ _ _ _ _ _ _ _ S1 S2) as [k2 S]. exists k2, m2. split; [exact S|]. exists m1. now split.
Qed.

(** the cells outside [F] do not matter, if all calls stay within [F] *)
Definition patch (F : nat -> nat -> bool) (m mm : mem) : mem :=
  fun b => map (fun o => if F b o then nth o (mm b) None else nth o (m b) None) (seq 0 (length (m b))).
Lemma patch_at F m mm b o : length (mm b) = length (m b) ->
  nth_error (patch F m mm b) o = if F b o then nth_error (mm b) o else nth_error (m b) o.
Proof.
  intro L. unfold patch. rewrite nth_error_map. destruct (Nat.lt_ge_cases o (length (m b))) as [Lo|Lo].
  - rewrite (nth_error_nth' _ 0) by now rewrite seq_length. cbn [option_map]. rewrite seq_nth by exact Lo. cbn [Nat.add].
    destruct (F b o); symmetry; apply nth_error_nth'; lia.
  - rewrite (proj2 (nth_error_None (seq 0 (length (m b))) o)) by now rewrite seq_length. cbn [option_map].
    destruct (F b o); symmetry; apply nth_error_None; lia.
Qed.
Lemma unaltered_length m c m' : unaltered m c m' -> forall b, length (m' b) = length (m b).
Proof.
  destruct c as [f src b0 o d e dlen out|f data b0 o out|f src b0 o answer]; cbn [unaltered]; intros U b; [| |now rewrite U];
    destruct U as (F1 & F2 & F3).
  - destruct (Nat.eq_dec b d) as [->|N]; [exact F2|now rewrite F1].
  - destruct (Nat.eq_dec b b0) as [->|N]; [exact F2|now rewrite F1].
Qed.
Lemma after_patch F m mm c mm1 : masked F m mm -> (forall b o, accesses c b o = true -> F b o = true) -> after mm c mm1 ->
  after m c (patch F m mm1) /\ masked F (patch F m mm1) mm1.
Proof.
  intros HM I AF. assert (U := after_unaltered _ _ _ AF). assert (L1 := unaltered_length _ _ _ U).
  assert (L : forall b, length (mm1 b) = length (m b)) by (intro b; rewrite L1; apply HM).
  assert (PL : forall b, length (patch F m mm1 b) = length (m b)) by (intro b; unfold patch; now rewrite map_length, seq_length).
  assert (OUT : forall b o, F b o = false -> nth_error (mm1 b) o = nth_error (mm b) o).
  { intros b o H. apply (unaltered_outside _ _ _ _ _ U). destruct (accesses c b o) eqn:E; [|reflexivity]. apply I in E. congruence. }
  assert (MK : masked F (patch F m mm1) mm1).
  { intro b. split; [now rewrite L, PL|]. intros o Lo. rewrite PL in Lo. rewrite patch_at by apply L. destruct (F b o) eqn:EF; [reflexivity|].
    rewrite OUT by exact EF. rewrite (proj2 (HM b) o Lo). now rewrite EF. }
  split; [|exact MK].
  assert (SAME : forall b o, nth_error (mm1 b) o = nth_error (mm b) o -> nth_error (patch F m mm1 b) o = nth_error (m b) o).
  { intros b o H. rewrite patch_at by apply L. destruct (F b o) eqn:EF; [|reflexivity].
    destruct (Nat.lt_ge_cases o (length (m b))) as [Lo|Lo]; [now rewrite H, (proj2 (HM b) o Lo), EF|].
    rewrite !(proj2 (nth_error_None _ _)); auto. now rewrite L. }
  assert (BLK : forall b, mm1 b = mm b -> patch F m mm1 b = m b) by (intros b H; apply nth_error_eq; intro o; apply SAME; now rewrite H).
  destruct AF as [D _]. split.
  - revert D. apply delivered_at; [|intro b; now rewrite L, PL]. intros b o x Hx. rewrite patch_at by apply L.
    destruct (F b o) eqn:EF; [exact Hx|]. exfalso. rewrite OUT in Hx by exact EF.
    assert (Lo : o < length (m b)) by (rewrite <- (proj1 (HM b)); apply nth_error_Some; congruence).
    rewrite (proj2 (HM b) o Lo), EF in Hx. discriminate Hx.
  - destruct c as [f src b0 o d e dlen out|f data b0 o out|f src b0 o answer]; cbn [unaltered] in U.
    + destruct U as (F1 & F2 & F3). split; [|split]; [intros b N; apply BLK; now apply F1|apply PL|]. intros i Hi. apply SAME. now apply F3.
    + destruct U as (F1 & F2 & F3). split; [|split]; [intros b N; apply BLK; now apply F1|apply PL|]. intros i Hi. apply SAME. now apply F3.
    + intro b. apply BLK. apply U.
Qed.
Lemma can_make_masked F cs : (forall c b o, In c cs -> accesses c b o = true -> F b o = true) ->
  forall m mm, masked F m mm -> can_make m cs -> can_make mm cs.
Proof.
  intro I. induction cs as [|c cs IH]; intros m mm HM CM; [exact CM|]. destruct CM as [R CM]. assert (Ic := fun b o => I c b o (or_introl eq_refl)).
  split.
  - clear IH CM. destruct c as [f src b o d e dlen out|f data b o out|f src b o answer]; cbn [ready accesses] in *.
    + destruct R as ([B S] & R & SEP). split; [split; [exact B|]|split; [|exact SEP]].
      * apply (masked_bytes _ _ _ _ _ _ HM S). intros i Hi. apply Ic. unfold within. rewrite orb_true_iff, !andb_true_iff, Nat.eqb_eq, Nat.leb_le, Nat.ltb_lt. lia.
      * unfold room in *. now rewrite (proj1 (HM d)).
    + destruct R as [B S]. split; [exact B|]. apply (masked_bytes _ _ _ _ _ _ HM S). intros i Hi. apply Ic. unfold within. rewrite !andb_true_iff, Nat.eqb_eq, Nat.leb_le, Nat.ltb_lt. lia.
    + destruct R as [B S]. split; [exact B|]. apply (masked_bytes _ _ _ _ _ _ HM S). intros i Hi. apply Ic. unfold within. rewrite !andb_true_iff, Nat.eqb_eq, Nat.leb_le, Nat.ltb_lt. lia.
  - intros mm1 AF. destruct (after_patch F m mm c mm1 HM Ic AF) as [AF' HM'].
    apply (IH (fun c' b o J => I c' b o (or_intror J)) _ _ HM'). now apply CM.
Qed.

(** ** All threads *)
Theorem clients_interleave pick n (cs : nat -> list call) (xs : nat -> list xprog) m :
  (forall i, i < n -> Forall alone (cs i) /\ can_make m (cs i)) ->
  (forall i j b o c c', i < n -> j < n -> i <> j -> In c (cs i) -> In c' (cs j) -> writes c b o = true -> accesses c' b o = false) ->
  (forall i, i < n -> Forall2 (fun x c => implements (erase pick x) (code c) /\ stores_in (target c) any (erase pick x)) (xs i) (cs i)) ->
  undisturbed n (fun i => erase pick (xseq (xs i))) m (fun m' =>
    (forall i, i < n -> exists mi, made m (cs i) mi /\
       forall c b o, In c (cs i) -> accesses c b o = true -> nth_error (m' b) o = nth_error (mi b) o) /\
    (forall b, length (m' b) = length (m b)) /\
    (forall b o, (forall i c, i < n -> In c (cs i) -> writes c b o = false) -> nth_error (m' b) o = nth_error (m b) o)).
Proof.
  intros HC HX HP. set (F := fun i => any_of accesses (cs i)). set (W := fun i => any_of writes (cs i)).
  assert (SEP : separated n F W).
  { split.
    - intros i b o Hi H. apply any_of_in in H as (c & J & H). apply any_of_in. exists c. split; [exact J|]. now apply writes_accesses.
    - intros i j b o Hi Hj N H. apply any_of_in in H as (c & J & H). apply not_true_iff_false. intro H'. apply any_of_in in H' as (c' & J' & H').
      rewrite (HX i j b o c c') in H'; auto. discriminate H'. }
  assert (CH : forall n', n' <= n -> exists m1 : nat -> mem, forall i, i < n' ->
     exists k, solo (W i) k (erase pick (xseq (xs i))) (mask (F i) m) tt (m1 i)).
  { induction n' as [|n' IH]; intro L; [exists (fun _ => m); lia|]. destruct (IH ltac:(lia)) as [m1 H1].
    destruct (HC n' L) as [A CM].
    assert (CMm : can_make (mask (F n') m) (cs n')).
    { apply (can_make_masked (F n') _ (fun c b o J H => proj2 (any_of_in accesses (cs n') b o) (ex_intro _ c (conj J H))) m); [apply mask_masked|exact CM]. }
    destruct (client_solo pick (cs n') (xs n') (mask (F n') m) A CMm (HP n' L)) as (k & mn & S & _).
    exists (fun i => if i =? n' then mn else m1 i). intros i Hi. destruct (Nat.eqb_spec i n') as [->|]; [eauto|]. apply H1. lia. }
  destruct (CH n (le_n n)) as [m1 H1]. clear CH.
  destruct (interleave n F W m1 (fun i => erase pick (xseq (xs i))) m SEP) as [N HN].
  { intros i Hi. destruct (H1 i Hi) as [k S]. exists k, (mask (F i) m). split; [apply mask_masked|exact S]. }
  exists N. intros k ps' m' ST. destruct (HN k ps' m' ST) as (G1 & G2 & G3 & G4 & G5). split; [exact G1|]. split; [exact G2|]. split; [exact G3|].
  split; [exact G4|]. intro AD. destruct (G5 AD) as (L5 & V5 & O5). split; [|split; [exact L5|]].
  - intros i Hi. destruct (HC i Hi) as [A CM]. destruct (client_solo pick (cs i) (xs i) m A CM (HP i Hi)) as (k1 & mi & S & MD).
    exists mi. split; [exact MD|]. intros c b o J H. assert (HF : F i b o = true) by (apply any_of_in; eauto).
    destruct (H1 i Hi) as [k2 S2]. destruct (solo_lift (F i) _ _ _ _ _ _ S2 (fun b o => sep_incl _ _ _ SEP i b o Hi) m (mask_masked _ m)) as (mi' & S3 & MK).
    rewrite (solo_fun _ _ _ _ _ _ _ _ _ _ S S3). rewrite (V5 i b o Hi HF). destruct (MK b) as [ML MN].
    destruct (Nat.lt_ge_cases o (length (mi' b))) as [Lo|Lo]; [now rewrite (MN o Lo), HF|].
    rewrite !(proj2 (nth_error_None _ _)); [reflexivity|exact Lo|now rewrite ML].
  - intros b o NW. apply O5. intros i Hi. apply not_true_iff_false. intro H. apply any_of_in in H as (c & J & H). rewrite (NW i c) in H; auto. discriminate H.
Qed.
