(** What follows from RenameCodecs.v: a call on two parts of one allocation does what the call on two allocations does, and its
    accesses stay in the two parts. *)
From Coq Require Import ZArith List Bool Lia ZifyBool ZifyNat.
From Verif Require Import Bytes Mem MemFacts Slices Codec Isa Simd Spec Hex Base64 Base64Ref Base64Api Base32 Base32Ref Base32Api
  SimdFacts Ints Uuid UuidFacts UuidApi Unicode UnicodeSpec SwapFacts Forgiving
  Conc ConcFacts ConcBase64Facts Reify ConcApi ConcApiFacts Borrows BorrowsApi BorrowsFacts BorrowsLib BorrowsCalls BorrowsBridge Rename RenameCodecs Reach.
Import ListNotations.
Open Scope nat_scope. Open Scope m_scope.

(** ** The same accesses in two memories *)
(** [m'] holds at least what [m] holds, each allocation [x] in [g x] *)
Definition sim (g : nat -> nat) (m m' : mem) : Prop :=
  forall x, length (m' (g x)) = length (m x) /\ forall o v, nth_error (m x) o = Some (Some v) -> nth_error (m' (g x)) o = Some (Some v).
(** what [g] puts into one allocation does not overlap *)
Definition side_by_side (g : nat -> nat) (m : mem) : Prop := forall x y o, x <> y -> g x = g y -> init m x o -> init m y o -> False.
Definition touch_at (g : nat -> nat) (t : touch) : touch := match t with Reads q n => Reads (place g q) n | Writes q n => Writes (place g q) n end.

Lemma sim_load g q n m m' l m1 : sim g m m' -> load q n m = Ret l m1 -> load (place g q) n m' = Ret l m'.
Proof.
  intros HL E. apply load_ret in E as (-> & L & E). destruct (HL (fst q)) as [HN HC].
  unfold load. cbn [place fst snd]. destruct (Nat.leb_spec (snd q + n) (length (m' (g (fst q))))); [|lia].
  rewrite (sequence_ext _ (firstn n (skipn (snd q) (m' (g (fst q))))) _ E); [reflexivity| |].
  - rewrite !firstn_length, !skipn_length. lia.
  - intros i y. rewrite !nth_error_firstn, !nth_error_skipn. destruct (i <? n); [|easy]. apply HC.
Qed.
Lemma sim_store g q xs m m' u m1 : sim g m m' -> side_by_side g m1 -> store q xs m = Ret u m1 ->
  exists m1', store (place g q) xs m' = Ret tt m1' /\ sim g m1 m1'.
Proof.
  intros HL HD E. assert (EN : next (Store q xs (Done tt)) m = Some (Done tt, m1)) by (cbn [next]; now rewrite E).
  assert (HW := next_written _ _ _ _ EN). cbn [next_writes] in HW. clear EN. apply store_ret in E as [L EM]. destruct (HL (fst q)) as [HN HC].
  exists (upd m' (g (fst q)) (splice (m' (g (fst q))) (snd q) xs)). split.
  - unfold store. cbn [place fst snd]. destruct (Nat.leb_spec (snd q + length xs) (length (m' (g (fst q))))); [reflexivity|lia].
  - intro x. destruct (HL x) as [HN' HC']. assert (HX : forall v o, nth_error (m1 x) o = Some (Some v) -> init m1 x o) by (intros v o Hv; now exists v).
    assert (HI : forall o, snd q <= o < snd q + length xs -> init m1 (fst q) o) by (intros o Ho; now apply (HW (fst q) o)).
    destruct (Nat.eq_dec x (fst q)) as [->|N].
    + rewrite EM. unfold upd. rewrite !Nat.eqb_refl, !splice_length by lia. split; [exact HN|].
      intros o v. rewrite !splice_nth by lia. destruct ((snd q <=? o) && (o <? snd q + length xs)); [auto|apply HC].
    + assert (EX : m1 x = m x) by (rewrite EM; unfold upd; destruct (Nat.eqb_spec x (fst q)); [contradiction|reflexivity]).
      rewrite EX. unfold upd. destruct (Nat.eqb_spec (g x) (g (fst q))) as [EG|]; [|split; [exact HN'|apply HC']].
      rewrite splice_length by lia. split; [rewrite <- EG; exact HN'|]. intros o v Hv. rewrite splice_nth by lia.
      destruct ((snd q <=? o) && (o <? snd q + length xs)) eqn:R; [exfalso|rewrite <- EG; now apply HC'].
      apply (HD x (fst q) o N EG); [rewrite <- EX in Hv; now apply (HX v)|]. apply HI. lia.
Qed.
Lemma moved_run g {A} {RA : Mov g A} (p p' : prog A) : moved g p p' -> forall m m' a mf, run p m = Ret a mf -> sim g m m' -> side_by_side g mf ->
  exists a' mf', run p' m' = Ret a' mf' /\ mov a a' /\ sim g mf mf' /\ touches p' m' = map (touch_at g) (touches p m).
Proof.
  induction 1 as [a b R|x p|b k k' _ IH|q n k k' _ IH|q xs k k' _ IH]; intros m m' y mf E HS HD; cbn [run touches map touch_at] in *.
  - injection E as <- <-. exists b, m'. split; [reflexivity|]. auto.
  - now destruct x.
  - rewrite (proj1 (HS b)). now apply IH.
  - unfold bind in *. destruct (load q n m) as [l m1| | |] eqn:EL; try discriminate E. rewrite (sim_load _ _ _ _ _ _ _ HS EL).
    apply load_ret in EL as (-> & _). destruct (IH l m m' y mf E HS HD) as (a' & mf' & E1 & E2 & E3 & E4).
    exists a', mf'. rewrite E4. auto.
  - unfold bind in *. destruct (store q xs m) as [u m1| | |] eqn:EL; try discriminate E.
    destruct (sim_store g q xs m m' u m1 HS) as (m1' & E1 & S1); [|exact EL|].
    { intros x z o N EG [vx Hx] [vz Hz]. apply (HD x z o N EG); apply (run_init _ _ _ _ E); [now exists vx|now exists vz]. }
    rewrite E1. destruct (IH m1 m1' y mf E S1 HD) as (a' & mf' & E2 & E3 & E4 & E5). exists a', mf'. rewrite E5. auto.
Qed.

(** Every cell that is accessed holds a byte in the end; and where the stores go *)
Definition ends_in (m : mem) (P : nat -> Prop) (t : touch) : Prop :=
  match t with
  | Reads q n => forall i, i < n -> init m (fst q) (snd q + i)
  | Writes q n => P (fst q) /\ forall i, i < n -> init m (fst q) (snd q + i)
  end.
Lemma touches_init P {A} (Q : A -> Prop) (p : prog A) : stores_in P Q p -> forall m a mf, run p m = Ret a mf -> Forall (ends_in mf P) (touches p m).
Proof.
  induction p as [a|f|b k IH|q n k IH|q xs k IH]; intros S m y mf E; cbn [touches run stores_in] in *; try constructor.
  - now apply (IH _ (S _) _ y).
  - unfold bind in E. destruct (load q n m) as [l m1| | |] eqn:EL; try discriminate E.
    destruct (less_load q n m m l m1 (less_refl m) EL) as (_ & -> & HI). intros i Hi. now apply (run_init _ _ _ _ E), HI.
  - unfold bind in E. destruct (load q n m) as [l m1| | |] eqn:EL; try discriminate E. apply load_ret in EL as (-> & _).
    now apply (IH _ (S _) _ y).
  - unfold bind in E. destruct (store q xs m) as [u m1| | |] eqn:EL; try discriminate E. split; [apply S|]. intros i Hi.
    apply (run_init _ _ _ _ E). assert (EN : next (Store q xs (Done tt)) m = Some (Done tt, m1)) by (cbn [next]; now rewrite EL).
    apply (next_written _ _ _ _ EN). split; [reflexivity|lia].
  - unfold bind in E. destruct (store q xs m) as [u m1| | |] eqn:EL; try discriminate E. now apply (IH (proj2 S) _ y).
Qed.
(** a run on less memory *)
Lemma sim_less m mm : less m mm -> sim (fun x => x) mm m.
Proof. intros H x. destruct (H x) as [L K]. split; [now symmetry|exact K]. Qed.
Lemma less_touches {A} (p : prog A) : forall m mm a mf, run p mm = Ret a mf -> less m mm -> touches p m = touches p mm.
Proof.
  induction p as [a|f|b k IH|q n k IH|q xs k IH]; intros m mm y mf E L; cbn [touches run] in *; try reflexivity.
  - rewrite (proj1 (L b)) in *. now apply (IH _ _ _ y mf).
  - unfold bind in E. destruct (load q n mm) as [l m1| | |] eqn:EL; try discriminate E.
    destruct (less_load q n m mm l m1 L EL) as (-> & -> & _). f_equal. now apply (IH _ _ _ y mf).
  - unfold bind in E. destruct (store q xs mm) as [u m1| | |] eqn:EL; try discriminate E.
    destruct (less_store q xs m mm u m1 L EL) as (m2 & -> & L2). f_equal. now apply (IH _ _ y mf).
Qed.

(** ** Calls *)
(** the code of the call in the second allocation, and with both where [g] puts them *)
Definition moved_call (g : nat -> nat) (f : codec) (src : list Z) (b o d e dlen : nat) (out : option (list Z)) : Prop :=
  let c := Into f src b o d e dlen out in let c' := Into f src (g b) o (g d) e dlen out in
  exists p p', implements p (code c) /\ stores_in (target c) any p /\
    follows (code c') p' /\ implements p' (code c') /\ stores_in (target c') any p' /\ moved g p p'.
Definition expects (r : result (ptr * nat)) (q : ptr) (out : option (list Z)) : prog unit :=
  match r, out with
  | Ok (p, n), Some x => if (fst p =? fst q) && (snd p =? snd q) && (n =? length x) then Done tt else Fail Panicked
  | Err, None => Done tt
  | _, _ => Fail Panicked
  end.
Lemma rei_expect {H P} r q out : reified H P any (expect r q out).
Proof.
  exists (expects r q out); unfold expect, expects; destruct r as [[p n]|], out as [y|]; try destruct (_ && _); try constructor; try easy;
  exact I.
Defined.
Lemma into_moved g f src b o d e dlen out (Q Q' : result (ptr * nat) -> Prop)
  (r : reified True (eq d) Q (f (b, o) (length src) (d, e) dlen))
  (r' : reified True (eq (g d)) Q' (f (place g (b, o)) (length src) (place g (d, e)) dlen)) :
  moved g (the_prog r) (the_prog r') -> moved_call g f src b o d e dlen out.
Proof.
  intro HM. set (c := Into f src b o d e dlen out). set (c' := Into f src (g b) o (g d) e dlen out).
  exists (pbind (the_prog r) (fun a => expects a (d, e) out)), (pbind (the_prog r') (fun a => expects a (g d, e) out)).
  set (K := rei_bind Q any _ _ r (fun a => rei_expect a (d, e) out)). set (K' := rei_bind Q' any _ _ r' (fun a => rei_expect a (g d, e) out)).
  split; [exact (reified_imp K)|]. split; [exact (reified_in K I)|]. split; [exact (reified_fol K')|]. split; [exact (reified_imp K')|].
  split; [exact (reified_in K' I)|]. apply mvd_bind; [exact HM|]. intros x x' E. unfold expects.
  destruct x as [[p n]|], x' as [[p' n']|], out as [y|]; try (constructor; fail); try contradiction E; [|constructor; exact eq_refl].
  destruct E as [E1 E2]. cbn [fst snd] in E1, E2. hnf in E1, E2. subst p' n'. cbn [fst snd place].
  destruct (Nat.eqb_spec (fst p) d) as [->|]; [rewrite Nat.eqb_refl|constructor]. cbn [andb].
  destruct (_ && _); constructor; exact eq_refl.
Qed.
Lemma public_moved g f src b o d e dlen out : public (Into f src b o d e dlen out) -> separate (g b) o (length src) (g d) e dlen ->
  moved_call g f src b o d e dlen out.
Proof.
  intros HP SEP. inversion HP; subst.
  - eapply into_moved. apply (mvd_hex_encode (H := True) (H' := True)).
  - eapply into_moved. apply (mvd_hex_decode (H := True) (H' := True)).
  - eapply into_moved. apply (mvd_b64_encode (H := True) (H' := True)).
  - eapply into_moved. apply (mvd_b64_decode (H := True) (H' := True)).
  - eapply into_moved. apply (mvd_b64_decode (H := True) (H' := True)).
  - eapply into_moved. apply (mvd_forg_forgiving_decode (H := True) (H' := True)). intros L F. cbn [place fst snd] in *.
    destruct SEP as [N|SEP]; [contradiction|]. lia.
  - eapply into_moved. apply (mvd_b32_encode (H := True) (H' := True)).
  - eapply into_moved. apply (mvd_b32_decode (H := True) (H' := True)).
  - eapply into_moved. apply (mvd_uuid_parse (H := True) (H' := True)).
  - eapply into_moved. apply (mvd_uuid_parse_simple (H := True) (H' := True)).
  - eapply into_moved. apply (mvd_uuid_parse_hyphenated (H := True) (H' := True)).
  - refine (into_moved g _ _ _ _ _ _ _ _ any any (rei_bind _ any _ _ (rei_uuid_format_simple s (b, o) (d, e) case (fun _ => eq_refl)) (fun r => rei_ret any _ (fun _ => I)))
      (rei_bind _ any _ _ (rei_uuid_format_simple s (place g (b, o)) (place g (d, e)) case (fun _ => eq_refl)) (fun r => rei_ret any _ (fun _ => I))) _).
    apply mvd_rei_bind; [apply mvd_uuid_format_simple|]. intros x x' E. constructor. exact E.
  - refine (into_moved g _ _ _ _ _ _ _ _ any any (rei_bind _ any _ _ (rei_uuid_format_hyphenated s (b, o) (d, e) case (fun _ => eq_refl)) (fun r => rei_ret any _ (fun _ => I)))
      (rei_bind _ any _ _ (rei_uuid_format_hyphenated s (place g (b, o)) (place g (d, e)) case (fun _ => eq_refl)) (fun r => rei_ret any _ (fun _ => I))) _).
    apply mvd_rei_bind; [apply mvd_uuid_format_hyphenated|]. intros x x' E. constructor. exact E.
  - refine (into_moved g _ _ _ _ _ _ _ _ any any (rei_bind _ any _ _ (rei_uni_swap_endianness_to en t s (b, o) (length (arr en (esize t) xs) / esize t) (d, e) (esize t * dlen0 / esize t) (fun _ => eq_refl)) (fun r => rei_ret any _ (fun _ => I)))
      (rei_bind _ any _ _ (rei_uni_swap_endianness_to en t s (place g (b, o)) (length (arr en (esize t) xs) / esize t) (place g (d, e)) (esize t * dlen0 / esize t) (fun _ => eq_refl)) (fun r => rei_ret any _ (fun _ => I))) _).
    apply mvd_rei_bind; [apply mvd_uni_swap_endianness_to|]. intros x x' E. constructor. destruct E as [E1 E2]. split; [exact E1|]. cbn [fst snd]. hnf in E2. rewrite E2. exact eq_refl.
  Unshelve. all: intros _; reflexivity.
Qed.
(** a call may be made at any place *)
Lemma public_elsewhere f src b o d e dlen out : public (Into f src b o d e dlen out) -> forall b' o' d' e', public (Into f src b' o' d' e' dlen out).
Proof. intros HP b' o' d' e'. inversion HP; subst; now constructor. Qed.

(** ** The accesses of a call *)
Lemma uninit_nth n i v : nth_error (uninit n) i <> Some (Some v).
Proof. intro E. apply nth_error_In in E. apply repeat_spec in E. discriminate E. Qed.
Lemma into_keeps f src b o d e dlen out : public (Into f src b o d e dlen out) ->
  let c := Into f src b o d e dlen out in
  exists p, follows (code c) p /\ implements p (code c) /\ stores_in (target c) any p /\ keeps_to c p.
Proof.
  intros HP c. assert (SD : {separate b o (length src) d e dlen} + {~ separate b o (length src) d e dlen}).
  { unfold separate. destruct (Nat.eq_dec b d), (le_dec (o + length src) e), (le_dec (e + dlen) o); tauto. }
  destruct SD as [SEP|NS].
  2:{ destruct (public_program c HP) as (p & H1 & H2 & H3). exists p. repeat (split; [assumption|]). intros m (_ & _ & SEP). contradiction. }
  set (D := S b). set (g := fun x => if x =? D then d else x).
  assert (gb : g b = b) by (unfold g, D; destruct (Nat.eqb_spec b (S b)); [lia|reflexivity]).
  assert (gD : g D = d) by (unfold g; now rewrite Nat.eqb_refl).
  destruct (public_moved g f src b o D e dlen out (public_elsewhere _ _ _ _ _ _ _ _ HP b o D e)) as (p & p' & I1 & S1 & F2 & I2 & S2 & MV);
    [now rewrite gb, gD|]. rewrite gb, gD in F2, I2, S2. exists p'. repeat (split; [assumption|]).
  intros m (SL & RM & _). set (n := length src) in *. set (ml := upd (only (b, o) n m) D (uninit (length (m d)))).
  assert (SB : ml b = only (b, o) n m b) by (unfold ml, upd, D; destruct (Nat.eqb_spec b (S b)); [lia|reflexivity]).
  assert (SI : sim g ml m).
  { intro x. unfold g, ml, upd. destruct (Nat.eqb_spec x D) as [->|N].
    - split; [unfold uninit; now rewrite repeat_length|]. intros i v E. now apply uninit_nth in E.
    - destruct (only_less (b, o) n m x) as [L K]. split; [now symmetry|exact K]. }
  assert (RL : ready ml (Into f src b o D e dlen out)).
  { split; [|split].
    - destruct (only_slice _ _ _ _ SL) as [B1 B2]. split; [exact B1|]. unfold bytes_at in *. now rewrite SB.
    - unfold room in *. unfold ml, upd. rewrite Nat.eqb_refl. unfold uninit. now rewrite repeat_length.
    - left. unfold D. lia. }
  destruct (public_alone _ (public_elsewhere _ _ _ _ _ _ _ _ HP b o D e) ml RL) as (mf & E & _ & U). cbn [unaltered] in U.
  rewrite <- I1 in E.
  assert (FI : forall x i, init mf x i -> (x = b /\ o <= i < o + n) \/ (x = D /\ e <= i < e + dlen)).
  { intros x i HI. destruct (frame_init _ _ _ _ _ _ _ U HI) as [H|H].
    - left. destruct (Nat.eq_dec x D) as [->|N].
      + exfalso. destruct H as [v Hv]. unfold ml, upd in Hv. rewrite Nat.eqb_refl in Hv. now apply uninit_nth in Hv.
      + destruct H as [v Hv]. unfold ml, upd in Hv. destruct (Nat.eqb_spec x D); [contradiction|].
        assert (C := only_init (b, o) n m x i (ex_intro _ v Hv)). unfold cells_of in C. apply in_range_iff in C. cbn [fst snd] in C. tauto.
    - right. unfold cells_of in H. apply in_range_iff in H. exact H. }
  assert (SS : side_by_side g mf).
  { intros x y i N EG Hx Hy. apply FI in Hx, Hy. destruct Hx as [[-> Hx]|[-> Hx]], Hy as [[-> Hy]|[-> Hy]]; try (now apply N);
      rewrite gb, gD in EG; destruct SEP as [SEP|SEP]; try (apply SEP; now symmetry); try (now apply SEP); lia. }
  destruct (moved_run g p p' MV ml m tt mf E SI SS) as (a' & mf' & E' & _ & _ & ET). rewrite ET.
  assert (TI := touches_init _ _ p S1 ml tt mf E). cbn [target] in TI.
  assert (IN : forall q k, (forall i, i < k -> init mf (fst q) (snd q + i)) -> inside b o n (place g q) k /\ fst q = b \/ inside d e dlen (place g q) k /\ fst q <> b).
  { intros q k HI. destruct (Nat.eq_dec (fst q) b) as [Eb|Nb]; [left|right]; (split; [|assumption]); intros i Hi; cbn [place fst snd].
    - rewrite Eb, gb. destruct (FI _ _ (HI i Hi)) as [[? ?]|[? ?]]; [tauto|]. unfold D in *. lia.
    - destruct (FI _ _ (HI i Hi)) as [[? ?]|[-> ?]]; [contradiction|]. rewrite gD. auto. }
  apply Forall_forall. intros t' Ht. apply in_map_iff in Ht as (t & <- & Ht). apply (proj1 (Forall_forall _ _) TI) in Ht. revert Ht. clear TI ET.
  destruct t as [q k|q k]; cbn [ends_in touch_at allowed].
  - intro HI. destruct (IN q k HI) as [[H _]|[H _]]; [left|right]; exact H.
  - intros [ED HI]. change (D = fst q) in ED. destruct (IN q k HI) as [[_ H]|[H _]]; [unfold D in *; lia|exact H].
Qed.
Lemma public_keeps c : public c -> exists p, follows (code c) p /\ implements p (code c) /\ stores_in (target c) any p /\ keeps_to c p.
Proof.
  destruct c as [f src b o d e dlen out|f data b o out|f src b o answer]; intro HP; [now apply into_keeps| |].
  - destruct (public_program _ HP) as (p & H1 & H2 & H3). exists p. repeat (split; [assumption|]). intros m SL. cbn [ready] in SL.
    set (n := length data) in *. set (mm := only (b, o) n m).
    destruct (public_alone _ HP mm (only_slice _ _ _ _ SL)) as (mf & E & _ & U). cbn [unaltered] in U. rewrite <- H2 in E.
    rewrite (less_touches p m mm tt mf E (only_less _ _ _)).
    assert (FI : forall x i, init mf x i -> x = b /\ o <= i < o + n).
    { intros x i HI. destruct (frame_init _ _ _ _ _ _ _ U HI) as [H|H]; [apply only_init in H|]; unfold cells_of in H; now apply in_range_iff in H. }
    assert (TI := touches_init _ _ p H3 mm tt mf E). revert TI. apply Forall_impl. intros [q k|q k]; cbn [ends_in allowed].
    + intros HI i Hi. now apply FI, HI.
    + intros [_ HI] i Hi. now apply FI, HI.
  - destruct (public_program _ HP) as (p & H1 & H2 & H3). exists p. repeat (split; [assumption|]). intros m SL. cbn [ready] in SL.
    set (n := length src) in *. set (mm := only (b, o) n m).
    destruct (public_alone _ HP mm (only_slice _ _ _ _ SL)) as (mf & E & _ & U). cbn [unaltered] in U. rewrite <- H2 in E.
    rewrite (less_touches p m mm tt mf E (only_less _ _ _)).
    assert (TI := touches_init _ _ p H3 mm tt mf E). revert TI. apply Forall_impl. intros [q k|q k]; cbn [ends_in allowed target].
    + intros HI i Hi. specialize (HI i Hi). destruct HI as [v Hv]. rewrite U in Hv. assert (C := only_init (b, o) n m _ _ (ex_intro _ v Hv)).
      unfold cells_of in C. now apply in_range_iff in C.
    + tauto.
Qed.

(** ** All at once *)
Definition stays (W : nat -> nat -> bool) (t : touch) : Prop :=
  match t with Reads _ _ => True | Writes q n => forall i, i < n -> W (fst q) (snd q + i) = true end.
Lemma solo_touches {A} W0 W k (p : prog A) m a m1 : solo W0 k p m a m1 -> Forall (stays W) (touches p m) -> solo W k p m a m1.
Proof.
  induction 1 as [a m|k p m p' m' a m1 E _ _ IH]; intro F; [constructor|].
  destruct p as [x|f|b h|q n h|q xs h]; cbn [next touches] in *; try discriminate E.
  - injection E as <- <-. eapply solo_next; [reflexivity|easy|]. now apply IH.
  - destruct (load q n m) eqn:EL; try discriminate E. injection E as <- <-. inversion_clear F.
    eapply solo_next; [cbn [next]; now rewrite EL|easy|]. now apply IH.
  - destruct (store q xs m) eqn:EL; try discriminate E. injection E as <- <-. inversion_clear F as [|? ? F1 F2].
    eapply solo_next; [cbn [next]; now rewrite EL| |now apply IH]. cbn [next_writes]. intros b o [-> Ho].
    replace o with (snd q + (o - snd q)) by lia. apply F1. lia.
Qed.
Lemma keeps_stays c p m : keeps_to c p -> ready m c -> Forall (stays (changes c)) (touches p m).
Proof.
  intros K R. generalize (K m R). apply Forall_impl. intros [q n|q n]; [easy|]. cbn [stays].
  destruct c as [f src b o d e dlen out|f data b o out|f src b o answer]; cbn [allowed changes]; [| |easy]; intros H i Hi; specialize (H i Hi); unfold within; lia.
Qed.
Lemma changes_accesses c b o : changes c b o = true -> accesses c b o = true.
Proof. destruct c; cbn [changes accesses]; [intros ->; apply orb_true_r|easy|easy]. Qed.

Theorem parts_interleave n (cs : nat -> call) ps m :
  (forall i, i < n -> alone (cs i) /\ ready m (cs i)) ->
  (forall i j b o, i < n -> j < n -> i <> j -> changes (cs i) b o = true -> accesses (cs j) b o = false) ->
  (forall i, i < n -> implements (ps i) (code (cs i)) /\ keeps_to (cs i) (ps i)) ->
  undisturbed n ps m (fun m' =>
    (forall i, i < n -> delivered m' (cs i)) /\
    (forall b, length (m' b) = length (m b)) /\
    (forall b o, (forall i, i < n -> changes (cs i) b o = false) -> nth_error (m' b) o = nth_error (m b) o)).
Proof.
  intros HC HX HP. set (F := fun i => accesses (cs i)). set (W := fun i => changes (cs i)).
  assert (RD : forall i, i < n -> ready (mask (F i) m) (cs i)).
  { intros i Hi. destruct (HC i Hi) as [A R]. exact (masked_ready _ _ _ (mask_masked _ m) R). }
  assert (CH : forall n', n' <= n -> exists m1 : nat -> mem, forall i, i < n' ->
     code (cs i) (mask (F i) m) = Ret tt (m1 i) /\ delivered (m1 i) (cs i) /\ unaltered (mask (F i) m) (cs i) (m1 i)).
  { induction n' as [|n' IH]; intro L; [exists (fun _ => m); lia|]. destruct (IH ltac:(lia)) as [m1 H1].
    destruct (proj1 (HC n' L) _ (RD n' L)) as (mn & Hn). exists (fun i => if i =? n' then mn else m1 i). intros i Hi.
    destruct (Nat.eqb_spec i n') as [->|]; [exact Hn|]. apply H1. lia. }
  destruct (CH n (le_n n)) as [m1 H1]. clear CH.
  assert (INIT : forall i b o x, i < n -> nth_error (m1 i b) o = Some (Some x) -> F i b o = true).
  { intros i b o x Hi Hx. destruct (H1 i Hi) as (_ & _ & U). destruct (F i b o) eqn:EF; [reflexivity|]. exfalso.
    rewrite (unaltered_outside _ _ _ _ _ U EF) in Hx. destruct (mask_masked (F i) m b) as [ML MN].
    assert (Lo : o < length (m b)) by (rewrite <- ML; apply nth_error_Some; congruence). rewrite MN, EF in Hx by exact Lo. discriminate Hx. }
  assert (SO : forall i, i < n -> exists k, solo (W i) k (ps i) (mask (F i) m) tt (m1 i)).
  { intros i Hi. destruct (H1 i Hi) as (E & D & U). destruct (HP i Hi) as [HI HK].
    destruct (run_solo_all (ps i) (mask (F i) m) tt (m1 i) ltac:(rewrite HI; exact E)) as [k SO]. exists k.
    apply (solo_touches _ _ _ _ _ _ _ SO). apply keeps_stays; [exact HK|now apply RD]. }
  assert (SEP : separated n F W).
  { split; [|intros i j b o Hi Hj N H; now apply (HX i j)]. intros i b o Hi H. now apply changes_accesses. }
  destruct (interleave n F W m1 ps m SEP) as [N HN].
  { intros i Hi. destruct (SO i Hi) as [k S]. exists k, (mask (F i) m). split; [apply mask_masked|exact S]. }
  exists N. intros k ps' m' ST. destruct (HN k ps' m' ST) as (G1 & G2 & G3 & G4 & G5). split; [exact G1|]. split; [exact G2|]. split; [exact G3|].
  split; [exact G4|]. intro AD. destruct (G5 AD) as (L5 & V5 & O5). split; [|split; [exact L5|exact O5]].
  intros i Hi. destruct (H1 i Hi) as (_ & D & U). revert D. apply delivered_at.
  - intros b o x Hx. exact (eq_trans (V5 i b o Hi (INIT i b o x Hi Hx)) Hx).
  - intro b. destruct (SO i Hi) as [k' S]. exact (eq_trans (L5 b) (eq_trans (eq_sym (proj1 (mask_masked (F i) m b))) (eq_sym (solo_length _ _ _ _ _ _ S b)))).
Qed.
