(** From two allocations (PropTree.v) to two parts of one *)
From Coq Require Import ZArith List Bool Lia ZifyBool ZifyNat.
From Verif Require Import Bytes Mem MemFacts Slices Codec Conc ConcFacts Isa Simd Hex Base64 Base32 Uuid Unicode Forgiving Borrows BorrowsApi BorrowsFacts Rename BorrowsParts BorrowsPartsFacts
  TreeBorrows TreeParts.
Import ListNotations.
Open Scope nat_scope. Open Scope m_scope. Open Scope borrow_scope.

(** ** Calls are nested: [x] begins with [d] calls of its own running and ends with [e]; it leaves no others, and only these get parameters. *)
Fixpoint nests {A} (d e : nat) (x : bcode A) : Prop :=
  match x with
  | Return _ => d = e
  | Borrow Enter k => forall t, nests (S d) e (k t)
  | Borrow Leave k => match d with 0 => False | S d' => forall t, nests d' e (k t) end
  | Borrow (Retag _ param _ _ _) k => (param = true -> d <> 0) /\ forall t, nests d e (k t)
  | Exec _ _ k => forall y, nests d e (k y)
  end.
Lemma nests_bind {A B} (x : bcode A) (f : A -> bcode B) e c : forall d, nests d e x -> (forall a, nests e c (f a)) -> nests d c (bbind x f).
Proof.
  induction x as [a|y k IH|X v c0 k IH]; intros d H K; cbn [bbind nests] in *.
  - rewrite H. apply K.
  - destruct y as [| |w param t q n].
    + intro t. apply IH; auto.
    + destruct d; [contradiction|]. intro t. apply IH; auto.
    + destruct H as [H1 H2]. split; [exact H1|]. intro t'. apply IH; auto.
  - intro y. apply IH; auto.
Qed.
Lemma nests_fn {A} d (x : bcode A) : nests (S d) (S d) x -> nests d d (fn x).
Proof. intro H. unfold fn. cbn [nests]. intros _. apply (nests_bind _ _ (S d)); [exact H|]. intro a. cbn [nests]. reflexivity. Qed.
Lemma nests_retag d k param t q n : (param = true -> d <> 0) -> nests d d (do_ (Retag k param t q n)).
Proof. intro H. cbn. auto. Qed.
Lemma nests_exec {X} d v (c : M X) : nests d d (exec v c).
Proof. now intro. Qed.
Lemma nests_return {A} d (a : A) : nests d d (Return a). Proof. reflexivity. Qed.
Ltac nest := repeat first
  [ match goal with |- nests _ _ (Return _) => apply nests_return end
  | match goal with |- nests _ _ (match ?x with _ => _ end) => destruct x end
  | match goal with |- nests _ _ (fn _) => apply nests_fn end
  | match goal with |- nests ?d ?d (bbind _ _) => apply (nests_bind _ _ d); [|intro] end
  | match goal with |- nests _ _ (exec _ _) => apply nests_exec end
  | match goal with |- nests _ _ (do_ _) => apply nests_retag end; first [discriminate | intros _; discriminate]
  | progress cbv zeta ].
Ltac nest_all := intros; unfold slice_parts, slice_mut, slice_len, as_ptr, as_mut_ptr, shared_param, mut_param, reborrow, reborrow_mut, fails, give; nest.
Lemma nests_hex_encode s case p n q k ts td : nests 0 0 (hex_encode_b s case p n q k ts td). Proof. unfold hex_encode_b. nest_all. Qed.
Lemma nests_hex_decode s p n q k ts td : nests 0 0 (hex_decode_b s p n q k ts td). Proof. unfold hex_decode_b. nest_all. Qed.
Lemma nests_b64_encode s cfg p n q k ts td : nests 0 0 (b64_encode_b s cfg p n q k ts td). Proof. unfold b64_encode_b. nest_all. Qed.
Lemma nests_b64_decode en s cfg p n q k ts td d : nests d d (b64_decode_b en s cfg p n q k ts td). Proof. unfold b64_decode_b, b64_decoded_length_b. nest_all. Qed.
Lemma nests_b64_decode_inplace en s cfg p n td d : nests d d (b64_decode_inplace_b en s cfg p n td). Proof. unfold b64_decode_inplace_b, b64_decoded_length_b. nest_all. Qed.
Lemma nests_forgiving_decode en s1 s2 p n q k ts td : nests 0 0 (forgiving_decode_b en s1 s2 p n q k ts td).
Proof. unfold forgiving_decode_b, find_b. nest_all; first [apply nests_b64_decode|apply nests_b64_decode_inplace]. Qed.
Lemma nests_b32_encode t s cfg p n q k ts td : nests 0 0 (b32_encode_b t s cfg p n q k ts td). Proof. unfold b32_encode_b. nest_all. Qed.
Lemma nests_b32_decode t s cfg p n q k ts td : nests 0 0 (b32_decode_b t s cfg p n q k ts td). Proof. unfold b32_decode_b, b32_decoded_length_b. nest_all. Qed.
Lemma nests_uuid_parse_simple s p n q ts td : nests 0 0 (uuid_parse_simple_b s p n q ts td). Proof. unfold uuid_parse_simple_b. nest_all. Qed.
Lemma nests_uuid_parse_hyphenated s p n q ts td : nests 0 0 (uuid_parse_hyphenated_b s p n q ts td). Proof. unfold uuid_parse_hyphenated_b. nest_all. Qed.
Lemma nests_uuid_parse s1 s2 p n q ts td : nests 0 0 (uuid_parse_b s1 s2 p n q ts td). Proof. unfold uuid_parse_b. nest_all. Qed.
Lemma nests_uuid_format_simple s case p q ts td : nests 0 0 (uuid_format_simple_b s case p q ts td). Proof. unfold uuid_format_simple_b. nest_all. Qed.
Lemma nests_uuid_format_hyphenated s case p q ts td : nests 0 0 (uuid_format_hyphenated_b s case p q ts td). Proof. unfold uuid_format_hyphenated_b. nest_all. Qed.
Lemma nests_swap en t s p n q k ts td : nests 0 0 (swap_b en t s p n q k ts td). Proof. unfold swap_b. nest_all. Qed.

Lemma tacross_inv st q n f st' : tacross st q n f = Some st' ->
  (forall i, i < n -> f (st (fst q) (snd q + i)) = Some (st' (fst q) (snd q + i))) /\ (forall b o, in_range (fst q) (snd q) n b o = false -> st' b o = st b o).
Proof.
  unfold tacross. destruct (forallb _ (seq 0 n)) eqn:F; [|discriminate]. intro E. injection E as <-. rewrite forallb_forall in F. split.
  - intros i Hi. specialize (F i ltac:(apply in_seq; lia)). replace (in_range _ _ _ _ _) with true by (unfold in_range; lia). now destruct (f _).
  - now intros b o ->.
Qed.
Lemma tacross_all st q n f (h : nat -> cell) : (forall i, i < n -> f (st (fst q) (snd q + i)) = Some (h i)) ->
  exists st', tacross st q n f = Some st' /\ (forall i, i < n -> st' (fst q) (snd q + i) = h i) /\
    (forall b o, in_range (fst q) (snd q) n b o = false -> st' b o = st b o).
Proof.
  intro H. unfold tacross. replace (forallb _ (seq 0 n)) with true.
  - eexists. split; [reflexivity|]. split.
    + intros i Hi. cbv beta. replace (in_range _ _ _ _ _) with true by (unfold in_range; lia). now rewrite H.
    + now intros b o ->.
  - symmetry. apply forallb_forall. intros i Hi. apply in_seq in Hi. rewrite H by lia. reflexivity.
Qed.
Definition nothing : cell := fun _ => None.
Lemma read_nothing pl pt sk : pt <> [] -> read_acc pl pt sk nothing = None. Proof. now destruct pt. Qed.
Lemma write_nothing pl pt sk : pt <> [] -> write_acc pl pt sk nothing = None. Proof. now destruct pt. Qed.

Section Parts.
Variable g : nat -> nat.
(** the cells that belong to the slices, by name *)
Variable area : nat -> nat -> bool.
Variables (s0 : trees) (m0 : mem).
Hypothesis apart_areas : forall x y i, area x i = true -> area y i = true -> g x = g y -> x = y.

Definition placed_param (x : nat * ptr * nat) : nat * ptr * nat := (fst (fst x), place g (snd (fst x)), snd x).
Definition param_in (x : nat * ptr * nat) : Prop := forall i, i < snd x -> area (fst (snd (fst x))) (snd (snd (fst x)) + i) = true.
(** [L]: the calls that the function itself has made *)
Record tparts (L : list (list (nat * ptr * nat))) (sl : trees) (ml : mem) (sr : trees) (mr : mem) : Prop := {
  pt_fresh : tfresh sr = tfresh sl;
  pt_path : path sr = path sl;
  pt_path_some : forall t, t < tfresh sl -> path sl t <> [];
  pt_calls : calls sl = L ++ calls s0;
  pt_calls' : calls sr = map (map placed_param) L ++ calls s0;
  pt_params : Forall (Forall param_in) L;
  pt_perms : forall x i, area x i = true -> perms sr (g x) i = perms sl x i;
  pt_empty : forall x i, area x i = false -> perms sl x i = nothing;
  pt_len : forall x, length (mr (g x)) = length (ml x);
  pt_cell : forall x i, area x i = true -> nth_error (mr (g x)) i = nth_error (ml x) i;
  pt_perms_out : forall y i, (forall x, g x = y -> area x i = false) -> perms sr y i = perms s0 y i;
  pt_cell_out : forall y i, (forall x, g x = y -> area x i = false) -> nth_error (mr y) i = nth_error (m0 y) i }.

Lemma guarded_parts L sl ml sr mr : tparts L sl ml sr mr -> guarded sr = guarded sl.
Proof.
  intro P. unfold guarded. rewrite (pt_calls _ _ _ _ _ P), (pt_calls' _ _ _ _ _ P), !concat_app, !map_app. f_equal.
  rewrite concat_map. rewrite concat_map. rewrite !map_map. f_equal. apply map_ext. intro l. rewrite map_map. now apply map_ext.
Qed.
(** where an access or a new reference is possible there is a permission *)
Lemma range_parts L sl ml sr mr q n f st : tparts L sl ml sr mr -> f nothing = None -> tacross (perms sl) q n f = Some st ->
  forall i, i < n -> area (fst q) (snd q + i) = true.
Proof.
  intros P N E i Hi. apply tacross_inv in E as [E _]. destruct (area (fst q) (snd q + i)) eqn:EA; [reflexivity|]. specialize (E i Hi).
  rewrite (pt_empty _ _ _ _ _ P _ _ EA), N in E. discriminate E.
Qed.
Lemma across_parts L sl ml sr mr q n f st : tparts L sl ml sr mr -> (forall i, i < n -> area (fst q) (snd q + i) = true) -> tacross (perms sl) q n f = Some st ->
  exists st', tacross (perms sr) (place g q) n f = Some st' /\
    (forall x i, area x i = true -> st' (g x) i = st x i) /\ (forall x i, area x i = false -> st x i = nothing) /\
    (forall y i, (forall x, g x = y -> area x i = false) -> st' y i = perms s0 y i).
Proof.
  intros P A E. apply tacross_inv in E as [E1 E2]. destruct (tacross_all (perms sr) (place g q) n f (fun i => st (fst q) (snd q + i))) as (st' & F1 & F2 & F3).
  { intros i Hi. cbn [place fst snd]. rewrite (pt_perms _ _ _ _ _ P) by now apply A. now apply E1. }
  exists st'. cbn [place fst snd] in *. split; [exact F1|]. split; [|split].
  - intros x i Hx. destruct (in_range (g (fst q)) (snd q) n (g x) i) eqn:R.
    + apply in_range_iff in R as [EG R]. assert (x = fst q) as ->.
      { apply (apart_areas _ _ i); auto. replace i with (snd q + (i - snd q)) by lia. apply A. lia. }
      replace i with (snd q + (i - snd q)) by lia. apply F2. lia.
    + rewrite F3 by exact R. rewrite (pt_perms _ _ _ _ _ P) by exact Hx. symmetry. apply E2. revert R. unfold in_range.
      destruct (Nat.eqb_spec x (fst q)) as [->|]; [now rewrite Nat.eqb_refl|reflexivity].
  - intros x i Hx. rewrite E2; [now apply (pt_empty _ _ _ _ _ P)|]. destruct (in_range (fst q) (snd q) n x i) eqn:R; [|reflexivity].
    apply in_range_iff in R as [-> R]. specialize (A (i - snd q) ltac:(lia)). replace (snd q + (i - snd q)) with i in A by lia. congruence.
  - intros y i Hy. rewrite F3; [now apply (pt_perms_out _ _ _ _ _ P)|]. destruct (in_range (g (fst q)) (snd q) n y i) eqn:R; [|reflexivity].
    apply in_range_iff in R as [-> R]. specialize (A (i - snd q) ltac:(lia)). replace (snd q + (i - snd q)) with i in A by lia.
    rewrite (Hy (fst q) eq_refl) in A. discriminate A.
Qed.
Lemma tvia_nothing s (f : nat -> cell -> option cell) t : (forall t, t < tfresh s -> f t nothing = None) -> tvia s f t nothing = None.
Proof. intro H. destruct t as [t|]; [|reflexivity]. unfold tvia. destruct (Nat.ltb_spec t (tfresh s)); [now apply H|reflexivity]. Qed.
Lemma exits_parts L ml mr l : Forall param_in l -> forall sl sr sl1, tparts L sl ml sr mr -> exits l sl = Some sl1 ->
  exists sr1, exits (map placed_param l) sr = Some sr1 /\ tparts L sl1 ml sr1 mr.
Proof.
  induction 1 as [|[[c q] n] l A _ IH]; intros sl sr sl1 P E; cbn [exits map placed_param fst snd] in *.
  - injection E as <-. eauto.
  - unfold tput in *. destruct (tacross _ q n _) as [st|] eqn:EA; [|discriminate E]. rewrite (guarded_parts _ _ _ _ _ P), (pt_path _ _ _ _ _ P).
    assert (AR : forall i, i < n -> area (fst q) (snd q + i) = true) by exact A.
    destruct (across_parts _ _ _ _ _ _ _ _ _ P AR EA) as (st' & F & G1 & G2 & G3). rewrite F. refine (IH _ _ _ _ E).
    destruct P. constructor; cbn; auto.
Qed.
(** the depth after a borrow *)
Definition depth_after (x : borrow) (d : nat) : nat := match x with Enter => S d | Leave => pred d | _ => d end.
Lemma perform_parts x L sl ml sr mr t sl1 : tparts L sl ml sr mr -> tperform x sl = Some (t, sl1) ->
  match x with Enter => True | Leave => L <> [] | Retag _ param _ _ _ => param = true -> L <> [] end ->
  exists sr1 L1, tperform (borrow_at g x) sr = Some (t, sr1) /\ length L1 = depth_after x (length L) /\ tparts L1 sl1 ml sr1 mr.
Proof.
  intros P E D. destruct x as [| |k param u q n]; cbn [depth_after borrow_at].
  - cbn [tperform] in *. injection E as <- <-. eexists _, ([] :: L). split; [reflexivity|]. split; [reflexivity|]. destruct P. constructor; cbn; auto; congruence.
  - cbn [tperform] in *. destruct L as [|fr L]; [contradiction|]. rewrite (pt_calls _ _ _ _ _ P) in E. cbn [app] in E. destruct (exits fr sl) as [s1|] eqn:EX; [|discriminate E].
    injection E as <- <-. rewrite (pt_calls' _ _ _ _ _ P). cbn [map app]. assert (A := pt_params _ _ _ _ _ P). apply Forall_cons_iff in A as [A1 A2].
    destruct (exits_parts _ _ _ _ A1 _ _ _ P EX) as (sr1 & F & P1). rewrite F. eexists _, L. split; [reflexivity|]. split; [reflexivity|].
    destruct P1. constructor; cbn; auto.
  - assert (Raw : (t, sl1) = (u, sl) -> exists sr1 L1, Some (u, sr) = Some (t, sr1) /\ length L1 = length L /\ tparts L1 sl1 ml sr1 mr).
    { intro R. injection R as -> ->. exists sr, L. auto. }
    assert (Ref : forall k, match tacross (perms sl) q n (fun st => match tvia sl (fun t => read_acc (guarded sl) (path sl t) none_of) (Some u) st with
          | Some st' => Some (fun v => if v =? tfresh sl then Some (fresh_perm k) else st' v) | None => None end) with
        | Some st => Some (tfresh sl, {| perms := st; path := fun v => if v =? tfresh sl then tfresh sl :: path sl u else path sl v; tfresh := S (tfresh sl);
            calls := match calls sl with fr :: r => (if param then (tfresh sl, q, n) :: fr else fr) :: r | [] => [] end |})
        | None => None end = Some (t, sl1) ->
      exists sr1 L1, match tacross (perms sr) (place g q) n (fun st => match tvia sr (fun t => read_acc (guarded sr) (path sr t) none_of) (Some u) st with
          | Some st' => Some (fun v => if v =? tfresh sr then Some (fresh_perm k) else st' v) | None => None end) with
        | Some st => Some (tfresh sr, {| perms := st; path := fun v => if v =? tfresh sr then tfresh sr :: path sr u else path sr v; tfresh := S (tfresh sr);
            calls := match calls sr with fr :: r => (if param then (tfresh sr, place g q, n) :: fr else fr) :: r | [] => [] end |})
        | None => None end = Some (t, sr1) /\ length L1 = length L /\ tparts L1 sl1 ml sr1 mr).
    { clear E Raw k. intros k E. destruct (tacross _ q n _) as [st|] eqn:EA; [|discriminate E]. injection E as <- <-.
      assert (AR : forall i, i < n -> area (fst q) (snd q + i) = true).
      { refine (range_parts _ _ _ _ _ _ _ _ _ P _ EA). rewrite tvia_nothing; [reflexivity|]. intros v Hv. apply read_nothing. now apply P. }
      destruct (across_parts _ _ _ _ _ _ _ _ _ P AR EA) as (st' & F & G1 & G2 & G3). unfold tvia in F |- *.
      rewrite (guarded_parts _ _ _ _ _ P), (pt_path _ _ _ _ _ P), (pt_fresh _ _ _ _ _ P), F.
      rewrite (pt_calls _ _ _ _ _ P), (pt_calls' _ _ _ _ _ P). destruct L as [|fr L].
      - assert (param = false) as -> by (destruct param; [exfalso; now apply D|reflexivity]). eexists _, []. split; [reflexivity|]. split; [reflexivity|].
        destruct P. constructor; cbn; auto.
        + intros v Hv. destruct (Nat.eqb_spec v (tfresh sl)); [discriminate|]. apply pt_path_some0. lia.
        + now destruct (calls s0).
        + now destruct (calls s0).
      - eexists _, ((if param then (tfresh sl, q, n) :: fr else fr) :: L). split; [reflexivity|]. split; [reflexivity|].
        destruct P. constructor; cbn; auto.
        + intros v Hv. destruct (Nat.eqb_spec v (tfresh sl)); [discriminate|]. apply pt_path_some0. lia.
        + now destruct param.
        + apply Forall_cons_iff in pt_params0 as [A1 A2]. constructor; [|exact A2]. destruct param; [constructor|]; auto. }
    destruct k; cbn [tperform] in *; first [exact (Ref MutRef E)|exact (Ref SharedRef E)|apply Raw; now injection E as -> ->].
Qed.
Lemma trun_parts {A} v (p : prog A) : forall L sl ml sr mr a sl1 ml1, tparts L sl ml sr mr -> tree_run v p sl ml = Some (a, sl1, ml1) ->
  exists sr1 mr1, tree_run_at g v p sr mr = Some (a, sr1, mr1) /\ tparts L sl1 ml1 sr1 mr1.
Proof.
  induction p as [a0|f|b k IH|q n k IH|q xs k IH]; intros L sl ml sr mr a sl1 ml1 P E; cbn [tree_run tree_run_at] in *.
  - injection E as <- <- <-. eauto.
  - discriminate E.
  - rewrite (pt_len _ _ _ _ _ P). eauto.
  - unfold tree_read, tput in *. destruct (tacross _ q n _) as [st|] eqn:EA; [|discriminate E].
    destruct (load q n ml) as [l m1| | |] eqn:EL; try discriminate E.
    assert (AR : forall i, i < n -> area (fst q) (snd q + i) = true).
    { refine (range_parts _ _ _ _ _ _ _ _ _ P _ EA). apply tvia_nothing. intros t Ht. apply read_nothing. now apply P. }
    destruct (across_parts _ _ _ _ _ _ _ _ _ P AR EA) as (st' & F & G1 & G2 & G3). unfold tvia in F |- *.
    rewrite (guarded_parts _ _ _ _ _ P), (pt_path _ _ _ _ _ P), (pt_fresh _ _ _ _ _ P), F.
    apply load_ret in EL as (-> & LL & EL).
    assert (ER : load (place g q) n mr = Ret l mr).
    { unfold load. cbn [place fst snd]. rewrite (pt_len _ _ _ _ _ P). destruct (Nat.leb_spec (snd q + n) (length (ml (fst q)))); [|lia].
      rewrite (sequence_ext _ (firstn n (skipn (snd q) (mr (g (fst q))))) _ EL); [reflexivity| |].
      - rewrite !firstn_length, !skipn_length, (pt_len _ _ _ _ _ P). lia.
      - intros i y. rewrite !nth_error_firstn, !nth_error_skipn. destruct (Nat.ltb_spec i n) as [Hi|]; [|easy].
        rewrite (pt_cell _ _ _ _ _ P) by now apply AR. auto. }
    rewrite ER. refine (IH l L _ _ _ _ _ _ _ _ E). destruct P. constructor; cbn; auto.
  - unfold tree_write, tput in *. destruct (tacross _ q _ _) as [st|] eqn:EA; [|discriminate E].
    destruct (store q xs ml) as [u m1| | |] eqn:EL; try discriminate E.
    assert (AR : forall i, i < length xs -> area (fst q) (snd q + i) = true).
    { refine (range_parts _ _ _ _ _ _ _ _ _ P _ EA). apply tvia_nothing. intros t Ht. apply write_nothing. now apply P. }
    destruct (across_parts _ _ _ _ _ _ _ _ _ P AR EA) as (st' & F & G1 & G2 & G3). unfold tvia in F |- *.
    rewrite (guarded_parts _ _ _ _ _ P), (pt_path _ _ _ _ _ P), (pt_fresh _ _ _ _ _ P), F.
    apply store_ret in EL as [LL ->].
    assert (ER : store (place g q) xs mr = Ret tt (upd mr (g (fst q)) (splice (mr (g (fst q))) (snd q) xs))).
    { unfold store. cbn [place fst snd]. rewrite (pt_len _ _ _ _ _ P). destruct (Nat.leb_spec (snd q + length xs) (length (ml (fst q)))); [reflexivity|lia]. }
    rewrite ER. assert (LR := pt_len _ _ _ _ _ P (fst q)). refine (IH L _ _ _ _ _ _ _ _ E). constructor; cbn.
    + reflexivity.
    + reflexivity.
    + apply P.
    + apply P.
    + apply P.
    + apply P.
    + exact G1.
    + exact G2.
    + intro x. unfold upd. destruct (Nat.eqb_spec x (fst q)) as [->|N].
      * rewrite Nat.eqb_refl, !splice_length by lia. exact LR.
      * destruct (Nat.eqb_spec (g x) (g (fst q))) as [EG|]; [rewrite splice_length by lia; rewrite <- EG|]; apply P.
    + intros x i Hx. unfold upd. destruct (Nat.eqb_spec x (fst q)) as [->|N].
      * rewrite Nat.eqb_refl, !splice_nth by lia. destruct (_ && _); [reflexivity|now apply P].
      * destruct (Nat.eqb_spec (g x) (g (fst q))) as [EG|]; [|now apply P]. rewrite splice_nth by lia.
        destruct (Nat.leb_spec (snd q) i), (Nat.ltb_spec i (snd q + length xs)); cbn [andb]; try (rewrite <- EG; now apply P).
        exfalso. apply N, (apart_areas _ _ i); auto. replace i with (snd q + (i - snd q)) by lia. apply AR. lia.
    + exact G3.
    + intros y i Hy. unfold upd. destruct (Nat.eqb_spec y (g (fst q))) as [->|]; [|now apply P]. rewrite splice_nth by lia.
      destruct (Nat.leb_spec (snd q) i), (Nat.ltb_spec i (snd q + length xs)); cbn [andb]; try (now apply P).
      exfalso. specialize (AR (i - snd q) ltac:(lia)). replace (snd q + (i - snd q)) with i in AR by lia. rewrite (Hy (fst q) eq_refl) in AR. discriminate AR.
Qed.
Lemma runs_parts {A} (x : bcode A) sl ml a sl1 ml1 : tree_runs x sl ml a sl1 ml1 -> forall L e sr mr, nests (length L) e x -> tparts L sl ml sr mr ->
  exists sr1 mr1 L1, tree_runs_at g x sr mr a sr1 mr1 /\ length L1 = e /\ tparts L1 sl1 ml1 sr1 mr1.
Proof.
  induction 1 as [A a s m|A x k s m t s1 a s' m' E _ IH|A X v c k p s m y s1 m1 a s' m' HF E _ IH]; intros L e sr mr N P.
  - exists sr, mr, L. split; [constructor|]. split; [exact N|exact P].
  - assert (D : match x with Enter => True | Leave => L <> [] | Retag _ param _ _ _ => param = true -> L <> [] end /\ nests (depth_after x (length L)) e (k t)).
    { destruct x as [| |w param u q n]; cbn [nests depth_after] in *.
      - split; [exact I|apply N].
      - destruct L; [contradiction|]. split; [discriminate|apply N].
      - destruct N as [N1 N2]. split; [|apply N2]. intros Hp ->. now apply N1. }
    destruct D as [D ND]. destruct (perform_parts _ _ _ _ _ _ _ _ P E D) as (sr1 & L1 & E1 & EL & P1). rewrite <- EL in ND.
    destruct (IH _ _ _ _ ND P1) as (sr2 & mr2 & L2 & R & EL2 & P2). exists sr2, mr2, L2. split; [econstructor; eauto|auto].
  - destruct (trun_parts _ _ _ _ _ _ _ _ _ _ P E) as (sr1 & mr1 & E1 & P1). destruct (IH _ _ _ _ (N y) P1) as (sr2 & mr2 & L2 & R & EL & P2).
    exists sr2, mr2, L2. split; [econstructor; eauto|auto].
Qed.
End Parts.

Theorem tree_parts_of {A} (ret : A -> option (ptr * nat)) x f src dlen : (forall p q n k ts td, nests 0 0 (x p n q k ts td)) ->
  tree_into ret x f src dlen -> tree_parts ret x f src dlen.
Proof.
  intros NE H m s b o d e ts td D SL RM SEP ND OK LS LD MR MW g. set (n := length src) in *.
  assert (gb : g b = b) by (unfold g, named; now apply Nat.eqb_neq in ND as ->).
  assert (gD : g D = d) by (unfold g, named; now rewrite Nat.eqb_refl).
  set (area := fun x i => in_range b o n x i || in_range D e dlen x i).
  set (sl := {| perms := fun x i => if area x i then perms s (g x) i else nothing; path := path s; tfresh := tfresh s; calls := calls s |}).
  set (ml := fun y => m (g y)).
  assert (AB : forall i, i < n -> area b (o + i) = true) by (intros i Hi; unfold area, in_range; lia).
  assert (AD : forall i, i < dlen -> area D (e + i) = true) by (intros i Hi; unfold area, in_range; lia).
  assert (AC : forall x i, area x i = true -> (x = b /\ o <= i < o + n) \/ (x = D /\ e <= i < e + dlen)) by (intros y i; unfold area, in_range; lia).
  assert (AA : forall x y i, area x i = true -> area y i = true -> g x = g y -> x = y).
  { intros u v i Hu Hv EG. apply AC in Hu, Hv. destruct Hu as [[-> Hu]|[-> Hu]], Hv as [[-> Hv]|[-> Hv]]; auto; exfalso;
      rewrite gb, gD in EG; destruct SEP as [N|SEP]; try (apply N; congruence); lia. }
  assert (PS : forall t, t < tfresh s -> path s t <> []) by (intros t Ht E; apply OK in Ht as [Ht _]; rewrite E in Ht; destruct Ht).
  assert (P : tparts g area s m [] sl ml s m).
  { constructor; cbn; auto.
    - intros u i ->. reflexivity.
    - intros u i ->. reflexivity. }
  assert (GL : guarded sl = guarded s) by reflexivity.
  destruct (H ml sl b o D e ts td) as (r & u & sl1 & ml1 & RU & E & (OK1 & FR1 & CL1 & PA1 & _) & RT & MR1 & MW1); auto.
  - destruct SL as [B S]. split; [exact B|]. unfold bytes_at, ml in *. now rewrite gb.
  - unfold room, ml in *. now rewrite gD.
  - destruct OK as (K1 & K2 & K3). split; [exact K1|]. split; [exact K2|]. cbn [perms sl tfresh]. intros y i v Hv. destruct (area y i); [now apply K3|reflexivity].
  - intros i Hi. rewrite GL. cbn [perms path sl fst snd]. rewrite AB, gb by exact Hi. now apply MR.
  - intros i Hi. rewrite GL. cbn [perms path sl fst snd]. rewrite AD, gD by exact Hi. now apply MW.
  - destruct (runs_parts g area s m AA _ _ _ _ _ _ RU [] 0 _ _ (NE _ _ _ _ _ _) P) as (s' & m' & L1 & RR & EL & P1). apply length_zero_iff_nil in EL as ->.
    assert (G1 := guarded_parts _ _ _ _ _ _ _ _ _ P1). assert (F1 := pt_fresh _ _ _ _ _ _ _ _ _ P1). assert (T1 := pt_path _ _ _ _ _ _ _ _ _ P1).
    cbn [tfresh path sl calls] in *.
    assert (OUT : forall y i, in_range b o n y i = false -> in_range d e dlen y i = false -> forall z, g z = y -> area z i = false).
    { intros y i H1 H2 z Hz. destruct (area z i) eqn:EA; [|reflexivity]. exfalso. apply AC in EA as [[-> EA]|[-> EA]]; [rewrite gb in Hz|rewrite gD in Hz]; subst y.
      - revert H1. unfold in_range. lia.
      - revert H2. unfold in_range. lia. }
    exists r, u, s', m'. split; [exact RR|]. split; [|split; [|split; [|split; [|split]]]].
    + split; [|split; [|split; [|split]]].
      * destruct OK1 as (K1 & K2 & K3). split; [rewrite F1, T1; exact K1|]. split; [rewrite G1, F1; exact K2|]. rewrite F1. intros y i v Hv.
        destruct (in_range b o n y i) eqn:R1; [|destruct (in_range d e dlen y i) eqn:R2].
        -- apply in_range_iff in R1 as [-> R1]. rewrite <- gb, (pt_perms _ _ _ _ _ _ _ _ _ P1) by (unfold area, in_range; lia). now apply K3.
        -- apply in_range_iff in R2 as [-> R2]. rewrite <- gD, (pt_perms _ _ _ _ _ _ _ _ _ P1) by (unfold area, in_range; lia). now apply K3.
        -- rewrite (pt_perms_out _ _ _ _ _ _ _ _ _ P1) by (now apply OUT). apply OK. lia.
      * rewrite F1. exact FR1.
      * exact (pt_calls' _ _ _ _ _ _ _ _ _ P1).
      * rewrite T1. exact PA1.
      * cbn [fst snd]. intros y i R1 R2. apply (pt_perms_out _ _ _ _ _ _ _ _ _ P1). now apply OUT.
    + destruct (ret r) as [[q k]|]; [|exact I]. destruct RT as [LT T]. cbn [placed tree_returned]. split; [rewrite F1; exact LT|]. intros i Hi. specialize (T i Hi).
      rewrite G1, T1. cbn [place fst snd]. rewrite (pt_perms _ _ _ _ _ _ _ _ _ P1); [exact T|].
      destruct (area (fst q) (snd q + i)) eqn:EA; [reflexivity|]. exfalso. apply T. rewrite (pt_empty _ _ _ _ _ _ _ _ _ P1 _ _ EA). apply write_nothing.
      apply (pt_path_some _ _ _ _ _ _ _ _ _ P1). apply LT.
    + intros t Ht HR i Hi. rewrite G1, T1. cbn [fst snd]. rewrite <- gb. rewrite (pt_perms _ _ _ _ _ _ _ _ _ P1) by now apply AB.
      refine (MR1 t Ht _ i Hi). intros j Hj. rewrite GL. cbn [perms path sl fst snd]. rewrite AB, gb by exact Hj. now apply HR.
    + intros i Hi. specialize (MW1 i Hi). cbn [fst snd] in *. rewrite G1, T1. rewrite <- gD. now rewrite (pt_perms _ _ _ _ _ _ _ _ _ P1) by now apply AD.
    + intros y i R1 R2. apply (pt_cell_out _ _ _ _ _ _ _ _ _ P1). now apply OUT.
    + exists ml1. split; [exact E|]. split; intros i Hi.
      * rewrite <- gb at 1. now apply (pt_cell _ _ _ _ _ _ _ _ _ P1), AB.
      * rewrite <- gD at 1. now apply (pt_cell _ _ _ _ _ _ _ _ _ P1), AD.
Qed.
