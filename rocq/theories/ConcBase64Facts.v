(** The programs of ConcBase64.v implement the jobs of [par_encode] and store only to the destination; what happens when
    they run at the same time. *)
From Coq Require Import ZArith List Bool Lia ZifyBool ZifyNat.
From Verif Require Import Bytes Mem MemFacts Slices Isa Simd Alsw Ints Spec Base64 Base64Ref Base64Facts Base64Api Parallel ParallelFacts
  Conc ConcFacts ConcBase64.
Import ListNotations.
Open Scope nat_scope. Open Scope m_scope. Open Scope prog_scope.

(** ** Programs implement the operations of Mem.v *)
Lemma run_pbind {A B} (p : prog A) (f : A -> prog B) m : run (pbind p f) m = bind (run p) (fun a => run (f a)) m.
Proof.
  revert m. induction p as [a|x|b k IH|q n k IH|q xs k IH]; intro m; cbn [pbind run]; unfold bind.
  - reflexivity.
  - now destruct x.
  - rewrite IH. reflexivity.
  - destruct (load q n m); [|reflexivity..]. rewrite IH. reflexivity.
  - destruct (store q xs m); [|reflexivity..]. rewrite IH. reflexivity.
Qed.
Lemma imp_bind {A B} (p : prog A) c (f : A -> prog B) g :
  implements p c -> (forall a, implements (f a) (g a)) -> implements (pbind p f) (bind c g).
Proof. intros H1 H2 m. rewrite run_pbind. unfold bind. rewrite H1. destruct (c m); [apply H2|reflexivity..]. Qed.
Lemma imp_ret {A} (a : A) : implements (Done a) (ret a).
Proof. now intro. Qed.
Lemma imp_ub {A} : implements (@Fail A Undefined) ub.
Proof. now intro. Qed.
Lemma imp_padd p k : implements (p_padd p k) (padd p k).
Proof. intro m. cbn [p_padd run]. unfold padd. now destruct (_ <=? _). Qed.
Lemma imp_psub p k : implements (p_psub p k) (psub p k).
Proof. intro m. unfold p_psub, psub. now destruct (_ <=? _). Qed.
Lemma imp_load p n : implements (p_load p n) (load p n).
Proof. intro m. cbn [p_load run]. unfold bind. destruct (load p n m); reflexivity. Qed.
Lemma imp_store p xs : implements (p_store p xs) (store p xs).
Proof. intro m. cbn [p_store run]. unfold bind. destruct (store p xs m) as [[] ?| | |]; reflexivity. Qed.
Lemma imp_lift {A} (o : option A) : implements (p_lift o) (lift o).
Proof. intro m. now destruct o. Qed.
Lemma imp_read p i : implements (p_read p i) (read p i).
Proof.
  apply imp_bind; [apply imp_padd|]. intro q. apply imp_bind; [apply imp_load|]. intros [|x [|y l]]; [apply imp_ub|apply imp_ret|apply imp_ub].
Qed.
Lemma imp_write p i x : implements (p_write p i x) (write p i x).
Proof. apply imp_bind; [apply imp_padd|]. intro q. apply imp_store. Qed.
Lemma imp_table t i : implements (p_table_get t i) (table_get t i).
Proof. intro m. unfold p_table_get, table_get. destruct (i <? 0)%Z; [reflexivity|]. now destruct (nth_error t (Z.to_nat i)). Qed.
Lemma imp_while {S} fuel cond (b1 : S -> prog S) b2 : (forall s, implements (b1 s) (b2 s)) ->
  forall s, implements (p_while fuel cond b1 s) (while_ fuel cond b2 s).
Proof.
  intro H. induction fuel as [|f IH]; intro s; cbn [p_while while_]; [now intro|].
  destruct (cond s); [|apply imp_ret]. apply imp_bind; [apply H|exact IH].
Qed.
Lemma imp_for {S} n : forall i (b1 : nat -> S -> prog S) b2, (forall i s, implements (b1 i s) (b2 i s)) ->
  forall s, implements (p_for n i b1 s) (for_ n i b2 s).
Proof.
  induction n as [|n IH]; intros i b1 b2 H s; cbn [p_for for_]; [apply imp_ret|]. apply imp_bind; [apply H|]. intro. now apply IH.
Qed.

Ltac imp1 := match goal with
  | |- implements (pbind _ _) (bind _ _) => apply imp_bind; [|let a := fresh "a" in intro a]
  | |- implements (Done _) _ => apply imp_ret
  | |- implements (Fail Undefined) _ => apply imp_ub
  | |- implements (p_padd _ _) _ => apply imp_padd
  | |- implements (p_psub _ _) _ => apply imp_psub
  | |- implements (p_load _ _) _ => apply imp_load
  | |- implements (p_store _ _) _ => apply imp_store
  | |- implements (p_lift _) _ => apply imp_lift
  | |- implements (p_read _ _) _ => apply imp_read
  | |- implements (p_write _ _ _) _ => apply imp_write
  | |- implements (p_table_get _ _) _ => apply imp_table
  | |- implements (p_while _ _ _ _) _ => apply imp_while; let a := fresh "st" in intro a
  | |- implements (p_for _ _ _ _) _ => apply imp_for; let i := fresh "i" in let a := fresh "st" in intros i a
  | |- implements (match ?x with _ => _ end) _ => destruct x
  end.
Lemma imp_bits24 src dst cs : implements (p_encode_bits24 src dst cs) (encode_bits24 src dst cs).
Proof. unfold p_encode_bits24, encode_bits24. repeat imp1. Qed.
Lemma imp_bits48 src dst cs : implements (p_encode_bits48 src dst cs) (encode_bits48 src dst cs).
Proof. unfold p_encode_bits48, encode_bits48. repeat imp1. Qed.
Lemma imp_extra x src dst cs pad : implements (p_encode_extra x src dst cs pad) (b64_encode_extra x src dst cs pad).
Proof. unfold p_encode_extra, b64_encode_extra. repeat imp1. Qed.
Lemma imp_enc48 cs st : implements (p_enc48_step cs st) (enc48_step cs st).
Proof. unfold p_enc48_step, enc48_step. imp1; [apply imp_bits48|]. repeat imp1. Qed.
Lemma imp_enc24 cs st : implements (p_enc24_step cs st) (enc24_step cs st).
Proof. unfold p_enc24_step, enc24_step. imp1; [apply imp_bits24|]. repeat imp1. Qed.
Ltac imp2 := match goal with
  | |- implements (p_enc48_step _ _) _ => apply imp_enc48
  | |- implements (p_enc24_step _ _) _ => apply imp_enc24
  | |- implements (p_encode_extra _ _ _ _ _) _ => apply imp_extra
  | _ => imp1
  end.
Lemma imp_fallback src len dst cfg : implements (p_encode_fallback src len dst cfg) (b64_encode_fallback src len dst cfg).
Proof. unfold p_encode_fallback, b64_encode_fallback. repeat imp2. Qed.
Lemma imp_simd s src len dst cfg : implements (p_encode_simd s src len dst cfg) (b64_encode_simd s src len dst cfg).
Proof. unfold p_encode_simd, b64_encode_simd. repeat imp2; apply imp_fallback. Qed.
Lemma imp_impl s src len dst cfg : implements (p_encode_impl s src len dst cfg) (b64_encode_impl s src len dst cfg).
Proof. unfold p_encode_impl, b64_encode_impl. destruct s; [apply imp_fallback|apply imp_simd..]. Qed.
Lemma imp_job s cfg src slen dst c i : implements (p_par_job s cfg src slen dst c i) (b64_par_job s cfg src slen dst c i).
Proof. unfold p_par_job, b64_par_job. repeat (apply imp_impl || imp1). Qed.

(** ** They store only to the destination *)
Lemma st_bind d {A B} (Q : A -> Prop) (R : B -> Prop) (p : prog A) f :
  stores_to d Q p -> (forall a, Q a -> stores_to d R (f a)) -> stores_to d R (pbind p f).
Proof.
  intros H K. induction p as [a|x|b k IH|q n k IH|q xs k IH]; cbn [pbind stores_to] in *; auto. split; [apply H|]. apply IH, H.
Qed.
Lemma st_mono d {A} (Q R : A -> Prop) (p : prog A) : stores_to d Q p -> (forall a, Q a -> R a) -> stores_to d R p.
Proof. intros H K. induction p as [a|x|b k IH|q n k IH|q xs k IH]; cbn [stores_to] in *; auto. split; [apply H|]. apply IH, H. Qed.
Lemma st_padd d p k : stores_to d (fun q => fst q = fst p) (p_padd p k).
Proof. cbn [p_padd stores_to]. intro n. now destruct (_ <=? _). Qed.
Lemma st_psub d p k : stores_to d (fun _ => True) (p_psub p k).
Proof. unfold p_psub. now destruct (_ <=? _). Qed.
Lemma st_load d p n : stores_to d (fun _ => True) (p_load p n).
Proof. now intro. Qed.
Lemma st_lift d {A} (o : option A) : stores_to d (fun _ => True) (p_lift o).
Proof. now destruct o. Qed.
Lemma st_store d p xs : fst p = d -> stores_to d (fun _ => True) (p_store p xs).
Proof. now split. Qed.
Lemma st_read d p i : stores_to d (fun _ => True) (p_read p i).
Proof. apply (st_bind _ _ _ _ _ (st_padd _ _ _)). intros q _. apply (st_bind _ _ _ _ _ (st_load _ _ _)). intros [|x [|y l]] _; exact I. Qed.
Lemma st_write d p i x : fst p = d -> stores_to d (fun _ => True) (p_write p i x).
Proof. intro H. apply (st_bind _ _ _ _ _ (st_padd _ _ _)). intros q E. apply st_store. congruence. Qed.
Lemma st_table d t i : stores_to d (fun _ => True) (p_table_get t i).
Proof. unfold p_table_get. destruct (i <? 0)%Z; [exact I|]. now destruct (nth_error t (Z.to_nat i)). Qed.
Lemma st_while d {S} (I : S -> Prop) fuel cond (body : S -> prog S) : (forall s, I s -> stores_to d I (body s)) ->
  forall s, I s -> stores_to d I (p_while fuel cond body s).
Proof.
  intro H. induction fuel as [|f IH]; intros s Hs; cbn [p_while]; [exact Logic.I|]. destruct (cond s); [|exact Hs].
  apply (st_bind _ _ _ _ _ (H s Hs)). exact IH.
Qed.
Lemma st_for d {S} (I : S -> Prop) n : forall i (body : nat -> S -> prog S), (forall i s, I s -> stores_to d I (body i s)) ->
  forall s, I s -> stores_to d I (p_for n i body s).
Proof.
  induction n as [|n IH]; intros i body H s Hs; cbn [p_for]; [exact Hs|]. apply (st_bind _ _ _ _ _ (H i s Hs)). intros s' Hs'. now apply IH.
Qed.
Ltac st_step := match goal with
  | |- stores_to _ _ (pbind (p_padd _ _) _) => apply (st_bind _ _ _ _ _ (st_padd _ _ _)); let q := fresh "q" in let E := fresh "E" in intros q E; cbn beta in E
  | |- stores_to _ _ (pbind (p_psub _ _) _) => apply (st_bind _ _ _ _ _ (st_psub _ _ _)); let q := fresh "q" in intros q _
  | |- stores_to _ _ (pbind (p_load _ _) _) => apply (st_bind _ _ _ _ _ (st_load _ _ _)); let q := fresh "l" in intros q _
  | |- stores_to _ _ (pbind (p_lift _) _) => apply (st_bind _ _ _ _ _ (st_lift _ _)); let q := fresh "v" in intros q _
  | |- stores_to _ _ (pbind (p_read _ _) _) => apply (st_bind _ _ _ _ _ (st_read _ _ _)); let q := fresh "x" in intros q _
  | |- stores_to _ _ (pbind (p_table_get _ _) _) => apply (st_bind _ _ _ _ _ (st_table _ _ _)); let q := fresh "y" in intros q _
  | |- stores_to _ _ (pbind (p_write _ _ _) _) => eapply st_bind; [apply st_write; assumption|]; intros ? _
  | |- stores_to _ _ (pbind (p_store _ _) _) => eapply st_bind; [apply st_store; assumption|]; intros ? _
  | |- stores_to _ _ (p_write _ _ _) => eapply st_mono; [apply st_write; assumption|]; auto
  | |- stores_to _ _ (if ?x then _ else _) => destruct x
  | |- stores_to _ _ (Done _) => cbn [stores_to fst snd]; congruence || auto
  end.
Lemma st_bits24 d src dst cs : fst dst = d -> stores_to d (fun _ => True) (p_encode_bits24 src dst cs).
Proof. intro H. unfold p_encode_bits24. repeat st_step. apply st_for; [|exact I]. intros i s _. repeat st_step. Qed.
Lemma st_bits48 d src dst cs : fst dst = d -> stores_to d (fun _ => True) (p_encode_bits48 src dst cs).
Proof. intro H. unfold p_encode_bits48. repeat st_step. apply st_for; [|exact I]. intros i s _. repeat st_step. Qed.
Lemma st_extra d x src dst cs pad : fst dst = d -> stores_to d (fun _ => True) (p_encode_extra x src dst cs pad).
Proof. intro H. unfold p_encode_extra. destruct x as [|[|[|x]]]; [exact I| | |exact I]; repeat st_step. Qed.
Definition dst_in (d : nat) (st : ptr * ptr) : Prop := fst (snd st) = d.
Lemma st_enc48 d cs st : dst_in d st -> stores_to d (dst_in d) (p_enc48_step cs st).
Proof. intro H. unfold p_enc48_step. eapply st_bind; [now apply st_bits48|]. intros _ _. unfold dst_in in *. repeat st_step. Qed.
Lemma st_enc24 d cs st : dst_in d st -> stores_to d (dst_in d) (p_enc24_step cs st).
Proof. intro H. unfold p_enc24_step. eapply st_bind; [now apply st_bits24|]. intros _ _. unfold dst_in in *. repeat st_step. Qed.
Definition dst_in3 (d : nat) (st : ptr * ptr * nat) : Prop := dst_in d (fst st).
Lemma st_fallback d src len dst cfg : fst dst = d -> stores_to d (fun _ => True) (p_encode_fallback src len dst cfg).
Proof.
  intro H. unfold p_encode_fallback. eapply st_bind.
  { apply (st_while d (dst_in3 d)); [|exact H]. intros s Hs. eapply st_bind; [|intros p Hp; exact Hp].
    apply st_for; [|exact Hs]. intros i p. apply st_enc48. }
  intros [[src1 dst1] len1] H1. eapply st_bind.
  { apply (st_while d (dst_in3 d)); [|exact H1]. intros s Hs. eapply st_bind; [now apply st_enc48|]. intros p Hp; exact Hp. }
  intros [[src2 dst2] len2] H2. st_step. eapply st_bind.
  { apply (st_while d (dst_in d)); [|exact H2]. intros s Hs. now apply st_enc24. }
  intros [src3 dst3] H3. now apply st_extra.
Qed.
Lemma st_simd d s src len dst cfg : fst dst = d -> stores_to d (fun _ => True) (p_encode_simd s src len dst cfg).
Proof.
  intro H. unfold p_encode_simd. eapply st_bind with (Q := dst_in3 d).
  { destruct (_ <=? len); [|exact H]. eapply st_bind.
    { apply (st_for d (dst_in3 d)); [|exact H]. intros i st Hs. eapply st_bind; [now apply st_enc24|]. intros p Hp; exact Hp. }
    intros [[src1 dst1] len1] H1. apply (st_while d (dst_in3 d)); [|exact H1]. intros [[src2 dst2] len2] H2.
    unfold dst_in3, dst_in in *. cbn [fst snd] in *. repeat st_step. }
  intros [[src1 dst1] len1] H1. eapply st_bind with (Q := dst_in3 d).
  { destruct (_ <=? len1); [|exact H1]. unfold dst_in3, dst_in in *. cbn [fst snd] in *. repeat st_step. }
  intros [[src2 dst2] len2] H2. now apply st_fallback.
Qed.
Lemma st_job d s cfg src slen dst c i : fst dst = d -> stores_to d (fun _ => True) (p_par_job s cfg src slen dst c i).
Proof.
  intro H. assert (G : forall cfg' sp len dp, fst dp = d -> stores_to d (fun _ => True) (p_encode_impl (s i) sp len dp cfg')).
  { intros cfg' sp len dp Hd. unfold p_encode_impl. destruct (s i); [now apply st_fallback|now apply st_simd..]. }
  unfold p_par_job. st_step. st_step. repeat (match goal with |- stores_to _ _ (if ?x then _ else _) => destruct x end); apply G; congruence.
Qed.

(** ** Running at the same time *)
Definition in_range (b o n b' o' : nat) : bool := (b' =? b) && (o <=? o') && (o' <? o + n).
Definition piece_of (cfg : b64_config) (c : nat) (src : list Z) (i : nat) : list Z := b64_rfc cfg (chunk c src i).
(** what job [i] may access *)
Definition job_cells (cfg : b64_config) (c : nat) (src : list Z) (b o d e i : nat) (b' o' : nat) : bool :=
  in_range b (o + i * (c * 3)) (length (chunk c src i)) b' o' || in_range d (e + i * (c * 4)) (length (piece_of cfg c src i)) b' o'.

Lemma masked_bytes F m mm b o l : masked F m mm -> bytes_at m b o l -> (forall i, i < length l -> F b (o + i) = true) -> bytes_at mm b o l.
Proof.
  intros HM H HF. apply bytes_at_nth in H as [L H]. apply bytes_at_nth. destruct (HM b) as [ML MN]. split; [lia|].
  intros i Hi. rewrite MN by lia. rewrite HF by exact Hi. now apply H.
Qed.
Lemma slot_apart X i j : i < j -> i * X + X <= j * X.
Proof. intro H. assert (S i * X <= j * X) by (apply Nat.mul_le_mono_r; lia). lia. Qed.

Theorem jobs_interleave s cfg src c ps m b o d e : (forall i, b64_isa (s i)) -> 0 < c -> slice m b o src ->
  room m d e (length (b64_rfc cfg src)) -> separate b o (length src) d e (length (b64_rfc cfg src)) ->
  (forall i, i < chunk_count (length src) (c * 3) -> implements (ps i) (b64_par_job s cfg (b, o) (length src) (d, e) c i)) ->
  undisturbed (chunk_count (length src) (c * 3)) ps m
    (fun m' => bytes_at m' d e (b64_rfc cfg src) /\ only_changed m d e (length (b64_rfc cfg src)) m').
Proof.
  intros Hs C [B SL] R SEP HP. set (n := chunk_count (length src) (c * 3)) in *. set (F := job_cells cfg c src b o d e).
  assert (LR := b64_rfc_len cfg src B).
  assert (PB := fun i => piece_bounds cfg c src i n B C eq_refl). fold n in PB.
  assert (FI : forall i b' o', F i b' o' = true <->
     (b' = b /\ o + i * (c * 3) <= o' < o + i * (c * 3) + length (chunk c src i)) \/
     (b' = d /\ e + i * (c * 4) <= o' < e + i * (c * 4) + length (piece_of cfg c src i))).
  { intros i b' o'. unfold F, job_cells, in_range. lia. }
  assert (S : separated n F F).
  { split; [auto|]. intros i j b' o' Hi Hj N H. apply not_true_is_false. intro H'. apply FI in H, H'.
    destruct (PB i Hi) as (I1 & I2 & I3 & I4), (PB j Hj) as (J1 & J2 & J3 & J4). fold (piece_of cfg c src i) in *. fold (piece_of cfg c src j) in *.
    assert (AP : (i * (c * 3) + c * 3 <= j * (c * 3) /\ i * (c * 4) + c * 4 <= j * (c * 4)) \/
                 (j * (c * 3) + c * 3 <= i * (c * 3) /\ j * (c * 4) + c * 4 <= i * (c * 4))).
    { destruct (Nat.lt_trichotomy i j) as [G|[G|G]]; [left|contradiction|right]; split; now apply slot_apart. }
    unfold separate in SEP. lia. }
  assert (RUN : forall i, i < n -> exists m1, run (ps i) (mask (F i) m) = Ret tt m1 /\
     bytes_at m1 d (e + i * (c * 4)) (piece_of cfg c src i) /\
     only_changed (mask (F i) m) d (e + i * (c * 4)) (length (piece_of cfg c src i)) m1).
  { intros i Hi. destruct (PB i Hi) as (I1 & I2 & I3 & I4). assert (MM := mask_masked (F i) m). rewrite (HP i Hi).
    apply (job_ok s cfg c src i (mask (F i) m) b o d e Hs C B Hi).
    - split; [now apply chunk_bytes|]. apply (masked_bytes (F i) m); [exact MM| |].
      + assert (E := firstn_skipn (i * (c * 3)) src). rewrite <- E in SL. apply bytes_at_app in SL as [_ SL].
        rewrite firstn_length_le in SL by lia. assert (E2 := firstn_skipn (c * 3) (skipn (i * (c * 3)) src)). rewrite <- E2 in SL.
        apply bytes_at_app in SL as [SL _]. exact SL.
      + intros k Hk. apply FI. left. lia.
    - unfold room in *. rewrite (proj1 (MM d)). lia.
    - unfold separate in *. lia. }
  assert (CH : forall n', n' <= n -> exists m1 : nat -> mem, forall i, i < n' -> run (ps i) (mask (F i) m) = Ret tt (m1 i) /\
     bytes_at (m1 i) d (e + i * (c * 4)) (piece_of cfg c src i) /\
     only_changed (mask (F i) m) d (e + i * (c * 4)) (length (piece_of cfg c src i)) (m1 i)).
  { induction n' as [|n' IH]; intro L; [exists (fun _ => m); lia|]. destruct (IH ltac:(lia)) as [m1 H1].
    destruct (RUN n' L) as (mn & Hn). exists (fun i => if i =? n' then mn else m1 i). intros i Hi.
    destruct (Nat.eqb_spec i n') as [->|]; [exact Hn|]. apply H1. lia. }
  destruct (CH n (le_n n)) as [m1 H1]. clear CH RUN.
  destruct (interleave n F F m1 ps m S) as [N HN].
  { intros i Hi. destruct (H1 i Hi) as (E & _ & FR). destruct (run_solo_all _ _ _ _ E) as [k SO]. exists k, (mask (F i) m).
    assert (MM := mask_masked (F i) m). split; [exact MM|]. apply (solo_narrow _ _ _ _ _ _ SO). intros b' o' x Hx.
    destruct (F i b' o') eqn:EF; [reflexivity|]. exfalso. destruct FR as (FR1 & FR2 & FR3).
    assert (Q : nth_error (mask (F i) m b') o' = Some (Some x)).
    { rewrite <- Hx. symmetry. destruct (Nat.eq_dec b' d) as [->|ND]; [|now rewrite FR1]. apply FR3.
      assert (NF : ~ F i d o' = true) by congruence. rewrite FI in NF. lia. }
    destruct (MM b') as [ML MN]. assert (Lo : o' < length (m b')). { rewrite <- ML. apply nth_error_Some. congruence. }
    rewrite MN in Q by exact Lo. rewrite EF in Q. discriminate Q. }
  exists N. intros k ps' m' ST. destruct (HN k ps' m' ST) as (G1 & G2 & G3 & G4 & G5). split; [exact G1|]. split; [exact G2|]. split; [exact G3|].
  split; [exact G4|]. intro AD. destruct (G5 AD) as (L5 & V5 & O5).
  assert (PIECE : forall i, i < n -> bytes_at m' d (e + i * (c * 4)) (piece_of cfg c src i)).
  { intros i Hi. destruct (H1 i Hi) as (_ & BA & FR). apply bytes_at_nth in BA as [BL BN]. apply bytes_at_nth.
    assert (LL : length (m1 i d) = length (m' d)).
    { destruct FR as (_ & FR2 & _). rewrite FR2, (proj1 (mask_masked (F i) m d)). now rewrite L5. }
    split; [lia|]. intros j Hj. rewrite V5 with (i := i); [now apply BN|exact Hi|]. apply FI. right. lia. }
  destruct (count_spec (length src) (c * 3) ltac:(lia)) as [C1 C2]. fold n in C1, C2.
  split.
  - apply (assemble cfg c m' d C n src e B C1 C2); [|exact PIECE]. rewrite L5. unfold room in R. lia.
  - assert (OUT : forall b' o', (b' <> d \/ o' < e \/ e + length (b64_rfc cfg src) <= o') -> nth_error (m' b') o' = nth_error (m b') o').
    { intros b' o' H. destruct (forallb (fun i => negb (F i b' o')) (seq 0 n)) eqn:FB.
      - apply O5. intros i Hi. rewrite forallb_forall in FB. apply negb_true_iff, FB, in_seq. lia.
      - apply not_true_iff_false in FB. assert (EX : exists i, i < n /\ F i b' o' = true).
        { clear - FB. assert (G : ~ forall i, i < n -> F i b' o' = false).
          { intro G. apply FB. apply forallb_forall. intros i Hi. apply in_seq in Hi. rewrite G by lia. reflexivity. }
          clear FB. induction n as [|k IH]; [exfalso; apply G; lia|]. destruct (F k b' o') eqn:E; [exists k; split; [lia|exact E]|].
          destruct IH as (i & Hi & H). { intro G'. apply G. intros i Hi. destruct (Nat.eq_dec i k) as [->|]; [exact E|]. apply G'. lia. }
          exists i. split; [lia|exact H]. }
        destruct EX as (i & Hi & HF). rewrite V5 with (i := i) by auto. destruct (H1 i Hi) as (_ & _ & (FR1 & FR2 & FR3)).
        assert (ND : b' <> d \/ b' = d /\ (o' < e + i * (c * 4) \/ e + i * (c * 4) + length (piece_of cfg c src i) <= o')).
        { destruct (PB i Hi) as (I1 & I2 & I3 & I4). fold (piece_of cfg c src i) in *. lia. }
        assert (E1 : nth_error (m1 i b') o' = nth_error (mask (F i) m b') o').
        { destruct ND as [ND|[-> ND]]; [now rewrite FR1|]. apply FR3. exact ND. }
        rewrite E1. destruct (mask_masked (F i) m b') as [ML MN].
        destruct (Nat.lt_ge_cases o' (length (m b'))) as [Lo|Lo]; [rewrite MN by exact Lo; now rewrite HF|].
        rewrite !(proj2 (nth_error_None _ _)); [reflexivity|exact Lo|rewrite ML; exact Lo]. }
    split; [|split].
    + intros b' ND. apply nth_error_ext; [apply L5|]. intros i _. apply OUT. now left.
    + apply L5.
    + intros i Hi. apply OUT. lia.
Qed.
