(** Facts about TreeBorrows.v *)
From Coq Require Import ZArith List Bool Lia ZifyBool ZifyNat.
From Verif Require Import Bytes Mem MemFacts Slices Codec Conc ConcFacts Reify ConcApi ConcApiFacts Borrows BorrowsApi BorrowsFacts TreeBorrows.
Import ListNotations.
Open Scope nat_scope. Open Scope m_scope. Open Scope borrow_scope.

(** ** One byte *)
Lemma mem_of_iff t l : mem_of t l = true <-> In t l.
Proof.
  unfold mem_of. rewrite existsb_exists. split; [intros (x & H & E); apply Nat.eqb_eq in E; now subst|intro H; exists t; now rewrite Nat.eqb_refl].
Qed.
Lemma mem_of_false t l : mem_of t l = false <-> ~ In t l.
Proof. rewrite <- mem_of_iff. destruct (mem_of t l); split; congruence || easy. Qed.
Definition rd (pl pt : list nat) (st : cell) : Prop :=
  (forall u, In u pt -> alive (st u) = true) /\ forall u, In u pl -> ~ In u pt -> st u <> Some TActive.
Definition wr (pl pt : list nat) (st : cell) : Prop :=
  (forall u, In u pt -> writable (mem_of u pl) (st u) = true) /\ forall u, In u pl -> ~ In u pt -> alive (st u) = false.
(** what a foreign read may do to a permission *)
Definition weak (a b : option tperm) : Prop := alive b = alive a /\ (b = Some TActive -> a = Some TActive) /\ (a = None -> b = None).
Lemma weak_refl a : weak a a. Proof. repeat split; auto. Qed.
Lemma weak_trans a b c : weak a b -> weak b c -> weak a c.
Proof. intros (A & B & C) (A' & B' & C'). split; [congruence|]. auto. Qed.
Lemma weak_foreign p a : weak a (foreign_read p a).
Proof. destruct a as [[]|]; repeat split; intros; try discriminate; reflexivity. Qed.
Lemma writable_alive p x : writable p x = true -> alive x = true. Proof. now destruct x as [[]|]. Qed.
Lemma wr_rd pl pt st : wr pl pt st -> rd pl pt st.
Proof.
  intros [A B]. split; [intros u H; exact (writable_alive _ _ (A u H))|]. intros u H1 H2 E. specialize (B u H1 H2). rewrite E in B. discriminate B.
Qed.
Definition after_read (pt : list nat) (st st' : cell) : Prop := (forall u, In u pt -> st' u = st u) /\ forall u, weak (st u) (st' u).
Lemma read_acc_ok pl pt skip st : rd pl pt st -> exists st', read_acc pl pt skip st = Some st' /\ after_read pt st st'.
Proof.
  intros [A B]. unfold read_acc. replace (forallb _ pt) with true by (symmetry; now apply forallb_forall).
  replace (forallb _ pl) with true.
  - cbn [andb]. eexists. split; [reflexivity|]. split.
    + intros u H. now rewrite (proj2 (mem_of_iff u pt) H).
    + intro u. destruct (mem_of u pt || skip u); [apply weak_refl|apply weak_foreign].
  - symmetry. apply forallb_forall. intros u H. destruct (mem_of u pt) eqn:E; [reflexivity|]. apply mem_of_false in E. specialize (B u H E).
    destruct (skip u); [reflexivity|]. destruct (st u) as [[]|]; reflexivity || congruence.
Qed.
Lemma read_acc_rd pl pt st : read_acc pl pt none_of st <> None -> rd pl pt st.
Proof.
  unfold read_acc. destruct (forallb _ pt) eqn:A; [|intro H; now contradiction H]. destruct (forallb _ pl) eqn:B; [|intro H; now contradiction H]. intros _.
  rewrite forallb_forall in A, B. split; [exact A|]. intros u H1 H2 E. specialize (B u H1). rewrite (proj2 (mem_of_false u pt) H2), E in B. discriminate B.
Qed.
Lemma rd_read_acc pl pt st : rd pl pt st -> read_acc pl pt none_of st <> None.
Proof. intro H. destruct (read_acc_ok pl pt none_of st H) as (st' & -> & _). discriminate. Qed.
Definition after_write (pt : list nat) (skip : nat -> bool) (st st' : cell) : Prop :=
  (forall u, In u pt -> st' u = Some TActive) /\ (forall u, ~ In u pt -> st' u = if skip u then st u else foreign_write (st u)).
Lemma write_acc_ok pl pt skip st : wr pl pt st -> exists st', write_acc pl pt skip st = Some st' /\ after_write pt skip st st'.
Proof.
  intros [A B]. unfold write_acc. replace (forallb _ pt) with true by (symmetry; now apply forallb_forall).
  replace (forallb _ pl) with true.
  - cbn [andb]. eexists. split; [reflexivity|]. split; intros u H.
    + now rewrite (proj2 (mem_of_iff u pt) H).
    + now rewrite (proj2 (mem_of_false u pt) H).
  - symmetry. apply forallb_forall. intros u H. destruct (mem_of u pt) eqn:E; [reflexivity|]. apply mem_of_false in E. rewrite (B u H E).
    now destruct (skip u).
Qed.
Lemma write_acc_wr pl pt st : write_acc pl pt none_of st <> None -> wr pl pt st.
Proof.
  unfold write_acc. destruct (forallb _ pt) eqn:A; [|intro H; now contradiction H]. destruct (forallb _ pl) eqn:B; [|intro H; now contradiction H]. intros _.
  rewrite forallb_forall in A, B. split; [exact A|]. intros u H1 H2. specialize (B u H1). rewrite (proj2 (mem_of_false u pt) H2) in B. cbn in B. now destruct (alive (st u)).
Qed.
Lemma wr_write_acc pl pt st : wr pl pt st -> write_acc pl pt none_of st <> None.
Proof. intro H. destruct (write_acc_ok pl pt none_of st H) as (st' & -> & _). discriminate. Qed.
(** what a read leaves *)
Definition ro_cell (f : nat) (pt : list nat) (st st' : cell) : Prop := (forall u, In u pt -> st' u = st u) /\ forall u, u < f -> weak (st u) (st' u).
Lemma rd_ro f pt pl pu st st' : ro_cell f pt st st' -> (forall u, In u pl -> u < f) -> (forall u, In u pu -> u < f) -> rd pl pu st -> rd pl pu st'.
Proof.
  intros [_ H] LP LU [A B]. split.
  - intros u Hu. destruct (H u (LU u Hu)) as (-> & _). now apply A.
  - intros u H1 H2 E. destruct (H u (LP u H1)) as (_ & W & _). exact (B u H1 H2 (W E)).
Qed.
Lemma wr_ro f pt pl pu st st' : ro_cell f pt st st' -> (forall u, In u pl -> u < f) -> incl pu pt -> wr pl pu st -> wr pl pu st'.
Proof.
  intros [H0 H] LP I [A B]. split.
  - intros u Hu. rewrite H0 by now apply I. now apply A.
  - intros u H1 H2. destruct (H u (LP u H1)) as (-> & _). now apply B.
Qed.
Lemma wr_write pl pt st st' : after_write pt none_of st st' -> wr pl pt st -> wr pl pt st'.
Proof.
  intros [A B] [C D]. split.
  - intros u H. now rewrite A.
  - intros u H1 H2. rewrite B by exact H2. cbn. destruct (st u); reflexivity.
Qed.
Lemma rd_less pl pl' pt st : incl pl' pl -> rd pl pt st -> rd pl' pt st.
Proof. intros I [A B]. split; [exact A|]. intros u H. apply B. now apply I. Qed.
Lemma writable_less pl pl' u x : incl pl' pl -> writable (mem_of u pl) x = true -> writable (mem_of u pl') x = true.
Proof.
  intros I. destruct x as [[c| | |]|]; cbn; auto. destruct c; [|reflexivity]. cbn. intro H. apply negb_true_iff, mem_of_false in H.
  apply negb_true_iff, mem_of_false. intro H'. apply H. now apply I.
Qed.
Lemma wr_less pl pl' pt st : incl pl' pl -> wr pl pt st -> wr pl' pt st.
Proof. intros I [A B]. split; [intros u H; apply (writable_less pl); auto|]. intros u H. apply B. now apply I. Qed.
(** the ancestors of a node that may write may write *)
Lemma wr_up pl X pt st : (forall x, In x X -> ~ In x pl) -> wr pl (X ++ pt) st -> wr pl pt st.
Proof.
  intros N [A B]. split.
  - intros u H. apply A. apply in_or_app. auto.
  - intros u H1 H2. apply B; [exact H1|]. intro H. apply in_app_or in H as [H|H]; [exact (N u H H1)|exact (H2 H)].
Qed.

(** ** States *)
Notation cells_of p n b o := (in_range (fst p) (snd p) n b o = true).
Definition ext (s s' : trees) : Prop := tfresh s <= tfresh s' /\ forall t, t < tfresh s -> path s' t = path s t.
Definition elsewhere (p : ptr) (n : nat) (s s' : trees) : Prop := forall b o, in_range (fst p) (snd p) n b o = false -> perms s' b o = perms s b o.
Definition readable (s : trees) (p : ptr) (n t : nat) : Prop := forall b o, cells_of p n b o -> rd (guarded s) (path s t) (perms s b o).
Definition writes (s : trees) (p : ptr) (n t : nat) : Prop := forall b o, cells_of p n b o -> wr (guarded s) (path s t) (perms s b o).
Lemma ext_refl s : ext s s. Proof. split; auto. Qed.
Lemma ext_trans s1 s2 s3 : ext s1 s2 -> ext s2 s3 -> ext s1 s3.
Proof. intros [A B] [C D]. split; [lia|]. intros t H. rewrite D by lia. auto. Qed.
Lemma writes_readable s p n t : writes s p n t -> readable s p n t.
Proof. intros H b o C. apply wr_rd. now apply H. Qed.
Lemma ok_guarded s u : tree_ok s -> In u (guarded s) -> u < tfresh s. Proof. intros (_ & H & _). apply H. Qed.
Lemma ok_path s t u : tree_ok s -> t < tfresh s -> In u (path s t) -> u < tfresh s.
Proof. intros (H & _) L Hu. exact (proj1 (proj2 (H t L) u Hu)). Qed.
Lemma ok_self s t : tree_ok s -> t < tfresh s -> In t (path s t). Proof. intros (H & _) L. exact (proj1 (H t L)). Qed.
Lemma ok_incl s t u : tree_ok s -> t < tfresh s -> In u (path s t) -> incl (path s u) (path s t).
Proof. intros (H & _) L Hu. exact (proj1 (proj2 (proj2 (H t L) u Hu))). Qed.
Lemma ok_linear s t u v : tree_ok s -> t < tfresh s -> In u (path s t) -> In v (path s t) -> In u (path s v) \/ In v (path s u).
Proof. intros (H & _) L Hu Hv. exact (proj2 (proj2 (proj2 (H t L) u Hu)) v Hv). Qed.

(** only reads through [t] and nodes made from it have been made, of bytes in the range *)
Definition ro_step (p : ptr) (n t : nat) (s s' : trees) : Prop :=
  ext s s' /\ calls s' = calls s /\ elsewhere p n s s' /\ forall b o, cells_of p n b o -> ro_cell (tfresh s) (path s t) (perms s b o) (perms s' b o).
Lemma guarded_calls s s' : calls s' = calls s -> guarded s' = guarded s. Proof. unfold guarded. now intros ->. Qed.
Lemma ro_refl p n t s : ro_step p n t s s.
Proof. split; [apply ext_refl|]. split; [reflexivity|]. split; [now intros b o _|]. intros b o _. split; auto. intros. apply weak_refl. Qed.
Lemma ro_trans p n t u s1 s2 s3 : ro_step p n t s1 s2 -> ro_step p n u s2 s3 -> incl (path s1 t) (path s2 u) -> ro_step p n t s1 s3.
Proof.
  intros (A & B & C & D) (A' & B' & C' & D') I. split; [exact (ext_trans _ _ _ A A')|]. split; [congruence|]. split; [intros b o H; now rewrite C', C|].
  intros b o H. destruct (D b o H) as [D1 D2], (D' b o H) as [D1' D2']. split.
  - intros x Hx. rewrite D1' by now apply I. now apply D1.
  - intros x Hx. apply (weak_trans _ (perms s2 b o x)); [now apply D2|]. apply D2'. destruct A. lia.
Qed.
Lemma ro_widen p n q k t s s' : (forall b o, cells_of q k b o -> cells_of p n b o) -> ro_step q k t s s' -> ro_step p n t s s'.
Proof.
  intros I (A & B & C & D). split; [exact A|]. split; [exact B|]. split.
  - intros b o H. apply C. destruct (in_range (fst q) (snd q) k b o) eqn:E; [|reflexivity]. apply I in E. congruence.
  - intros b o H. destruct (in_range (fst q) (snd q) k b o) eqn:E; [now apply D|]. rewrite C by exact E. split; [reflexivity|]. intros. apply weak_refl.
Qed.
Lemma readable_ro p n t s s' q k u : tree_ok s -> ro_step p n t s s' -> u < tfresh s -> readable s q k u -> readable s' q k u.
Proof.
  intros OK (A & B & C & D) L R b o H. rewrite (guarded_calls _ _ B), (proj2 A) by exact L. destruct (in_range (fst p) (snd p) n b o) eqn:E.
  - apply (rd_ro (tfresh s) (path s t) _ _ (perms s b o)); [now apply D|intros x; now apply ok_guarded|intros x; now apply ok_path|now apply R].
  - rewrite C by exact E. now apply R.
Qed.
Lemma writes_ro p n t s s' q k u : tree_ok s -> ro_step p n t s s' -> t < tfresh s -> In u (path s t) -> writes s q k u -> writes s' q k u.
Proof.
  intros OK (A & B & C & D) L I R b o H. rewrite (guarded_calls _ _ B), (proj2 A) by exact (ok_path _ _ _ OK L I). destruct (in_range (fst p) (snd p) n b o) eqn:E.
  - apply (wr_ro (tfresh s) (path s t) _ _ (perms s b o)); [now apply D|intros x; now apply ok_guarded|exact (ok_incl _ _ _ OK L I)|now apply R].
  - rewrite C by exact E. now apply R.
Qed.
(** other bytes *)
Lemma writes_apart p n t s s' q k u : ro_step p n t s s' -> u < tfresh s -> (forall b o, cells_of p n b o -> cells_of q k b o -> False) -> writes s q k u -> writes s' q k u.
Proof.
  intros (A & B & C & D) L N R b o H. rewrite (guarded_calls _ _ B), (proj2 A) by exact L. rewrite C; [now apply R|].
  destruct (in_range (fst p) (snd p) n b o) eqn:E; [|reflexivity]. destruct (N b o E H).
Qed.

(** ** Accesses *)
Lemma tacross_ok st q n f : (forall b o, cells_of q n b o -> exists c, f (st b o) = Some c) ->
  exists st', tacross st q n f = Some st' /\ (forall b o, cells_of q n b o -> f (st b o) = Some (st' b o)) /\
    (forall b o, in_range (fst q) (snd q) n b o = false -> st' b o = st b o).
Proof.
  intro H. unfold tacross. replace (forallb _ (seq 0 n)) with true.
  - eexists. split; [reflexivity|]. split.
    + intros b o E. cbv beta. rewrite E. destruct (H b o E) as [c ->]. reflexivity.
    + intros b o E. cbv beta. now rewrite E.
  - symmetry. apply forallb_forall. intros i Hi. apply in_seq in Hi. destruct (H (fst q) (snd q + i)) as [c ->]; [|reflexivity]. apply in_range_iff. lia.
Qed.
Lemma ok_put s st : tree_ok s -> (forall b o u, tfresh s <= u -> st b o u = None) -> tree_ok {| perms := st; path := path s; tfresh := tfresh s; calls := calls s |}.
Proof. intros (A & B & _) C. split; [exact A|]. split; [exact B|exact C]. Qed.
Lemma tvia_some s f t : t < tfresh s -> tvia s f (Some t) = f t. Proof. intro L. cbn [tvia]. now rewrite (proj2 (Nat.ltb_lt _ _) L). Qed.
Lemma acc_read s q n t : tree_ok s -> t < tfresh s -> readable s q n t -> exists s', tree_read (Some t) q n s = Some s' /\ ro_step q n t s s' /\ tree_ok s'.
Proof.
  intros OK L R. unfold tree_read. rewrite tvia_some by exact L. destruct (tacross_ok (perms s) q n (read_acc (guarded s) (path s t) none_of)) as (st & -> & A & B).
  { intros b o H. destruct (read_acc_ok _ _ none_of _ (R b o H)) as (c & E & _). eauto. }
  assert (K : forall b o, cells_of q n b o -> after_read (path s t) (perms s b o) (st b o)).
  { intros b o H. destruct (read_acc_ok _ _ none_of _ (R b o H)) as (c & E & K). rewrite (A b o H) in E. injection E as <-. exact K. }
  eexists. split; [reflexivity|]. split.
  - split; [split; [cbn; lia|reflexivity]|]. split; [reflexivity|]. split; [exact B|]. intros b o H. destruct (K b o H) as [K1 K2]. split; [exact K1|]. intros. apply K2.
  - apply ok_put; [exact OK|]. intros b o u Hu. destruct OK as (_ & _ & N). destruct (in_range (fst q) (snd q) n b o) eqn:E.
    + destruct (K b o E) as [_ K2]. destruct (K2 u) as (_ & _ & K3). apply K3. now apply N.
    + rewrite B by exact E. now apply N.
Qed.
Definition wr_step (p : ptr) (n t : nat) (s s' : trees) : Prop :=
  tfresh s' = tfresh s /\ path s' = path s /\ calls s' = calls s /\ elsewhere p n s s' /\
  forall b o, cells_of p n b o -> after_write (path s t) none_of (perms s b o) (perms s' b o).
Lemma acc_write s q n t : tree_ok s -> t < tfresh s -> writes s q n t -> exists s', tree_write (Some t) q n s = Some s' /\ wr_step q n t s s' /\ tree_ok s'.
Proof.
  intros OK L R. unfold tree_write. rewrite tvia_some by exact L. destruct (tacross_ok (perms s) q n (write_acc (guarded s) (path s t) none_of)) as (st & -> & A & B).
  { intros b o H. destruct (write_acc_ok _ _ none_of _ (R b o H)) as (c & E & _). eauto. }
  assert (K : forall b o, cells_of q n b o -> after_write (path s t) none_of (perms s b o) (st b o)).
  { intros b o H. destruct (write_acc_ok _ _ none_of _ (R b o H)) as (c & E & K). rewrite (A b o H) in E. injection E as <-. exact K. }
  eexists. split; [reflexivity|]. split.
  - repeat split; auto; apply K; assumption.
  - apply ok_put; [exact OK|]. intros b o u Hu. assert (OK' := OK). destruct OK as (_ & _ & N). destruct (in_range (fst q) (snd q) n b o) eqn:E.
    + destruct (K b o E) as [_ K2]. rewrite K2; [cbn; now rewrite N|]. intro I. assert (u < tfresh s) by exact (ok_path _ _ _ OK' L I). lia.
    + rewrite B by exact E. now apply N.
Qed.
Lemma writes_wr p n t s s' q k : wr_step p n t s s' -> writes s q k t -> writes s' q k t.
Proof.
  intros (A & B & C & D & E) R b o H. rewrite (guarded_calls _ _ C), B. destruct (in_range (fst p) (snd p) n b o) eqn:EI.
  - apply (wr_write _ _ (perms s b o)); [now apply E|now apply R].
  - rewrite D by exact EI. now apply R.
Qed.

(** ** References *)
Definition child (x : kind) (param : bool) (t : nat) (p : ptr) (n : nat) (s s' : trees) : Prop :=
  tree_ok s' /\ tfresh s' = S (tfresh s) /\ ext s s' /\ path s' (tfresh s) = tfresh s :: path s t /\
  calls s' = match calls s with fr :: r => (if param then (tfresh s, p, n) :: fr else fr) :: r | [] => [] end /\
  elsewhere p n s s' /\
  forall b o, cells_of p n b o -> ro_cell (tfresh s) (path s t) (perms s b o) (perms s' b o) /\ perms s' b o (tfresh s) = Some (fresh_perm x).
Lemma in_guarded_child s (fr : list (nat * ptr * nat)) r (param : bool) (p : ptr) (n u : nat) : calls s = fr :: r ->
  In u (map (fun x : nat * ptr * nat => fst (fst x)) (concat ((if param then (tfresh s, p, n) :: fr else fr) :: r))) -> u = tfresh s /\ param = true \/ In u (guarded s).
Proof.
  intros E H. unfold guarded. rewrite E. cbn [concat] in *. destruct param; [|auto]. cbn in H. destruct H as [<-|H]; auto.
Qed.
Lemma retag_ok x param t p n s : x = MutRef \/ x = SharedRef -> tree_ok s -> t < tfresh s -> readable s p n t ->
  exists s', tperform (Retag x param t p n) s = Some (tfresh s, s') /\ child x param t p n s s'.
Proof.
  intros K OK L R.
  assert (HP : exists st, tacross (perms s) p n (fun st => match read_acc (guarded s) (path s t) none_of st with
       | Some st' => Some (fun u => if u =? tfresh s then Some (fresh_perm x) else st' u) | None => None end) = Some st /\
     (forall b o, in_range (fst p) (snd p) n b o = false -> st b o = perms s b o) /\
     forall b o, cells_of p n b o -> (forall u, u <> tfresh s -> weak (perms s b o u) (st b o u)) /\ (forall u, In u (path s t) -> st b o u = perms s b o u) /\
       st b o (tfresh s) = Some (fresh_perm x)).
  { destruct (tacross_ok (perms s) p n (fun st => match read_acc (guarded s) (path s t) none_of st with
       | Some st' => Some (fun u => if u =? tfresh s then Some (fresh_perm x) else st' u) | None => None end)) as (st & E & A & B).
    { intros b o H. destruct (read_acc_ok _ _ none_of _ (R b o H)) as (c & -> & _). eauto. }
    exists st. split; [exact E|]. split; [exact B|]. intros b o H. destruct (read_acc_ok _ _ none_of _ (R b o H)) as (c & E1 & K1 & K2).
    specialize (A b o H). rewrite E1 in A. injection A as <-. split; [|split].
    - intros u Hu. rewrite (proj2 (Nat.eqb_neq _ _)) by exact Hu. apply K2.
    - intros u Hu. assert (u < tfresh s) by exact (ok_path _ _ _ OK L Hu). rewrite (proj2 (Nat.eqb_neq _ _)) by lia. now apply K1.
    - now rewrite Nat.eqb_refl. }
  destruct HP as (st & E & B & A).
  assert (G : tperform (Retag x param t p n) s = Some (tfresh s, {| perms := st; path := fun u => if u =? tfresh s then tfresh s :: path s t else path s u;
     tfresh := S (tfresh s); calls := match calls s with fr :: r => (if param then (tfresh s, p, n) :: fr else fr) :: r | [] => [] end |})).
  { destruct K as [-> | ->]; cbn [tperform]; rewrite tvia_some by exact L; now rewrite E. }
  eexists. split; [exact G|]. assert (OK' := OK). destruct OK as (O1 & O2 & O3).
  assert (LE : forall u, In u (path s t) -> u <> tfresh s) by (intros u Hu; assert (u < tfresh s) by exact (ok_path _ _ _ OK' L Hu); lia).
  split; [|split; [reflexivity|split; [|split; [|split; [reflexivity|split]]]]].
  - split; [|split].
    + cbn [tfresh path]. intros u Hu. destruct (Nat.eqb_spec u (tfresh s)) as [->|N].
      * split; [now left|]. intros v [<-|Hv].
        -- rewrite Nat.eqb_refl. split; [lia|]. split; [apply incl_refl|]. intros w Hw. right. exact Hw.
        -- rewrite (proj2 (Nat.eqb_neq v _)) by now apply LE. assert (v < tfresh s) by exact (ok_path _ _ _ OK' L Hv). split; [lia|].
           split; [apply incl_tl; exact (ok_incl _ _ _ OK' L Hv)|]. intros w [<-|Hw].
           ++ left. rewrite Nat.eqb_refl. now right.
           ++ rewrite (proj2 (Nat.eqb_neq w _)) by now apply LE. exact (ok_linear _ _ _ _ OK' L Hv Hw).
      * assert (Hu' : u < tfresh s) by lia. split; [now apply ok_self|]. intros v Hv. assert (v < tfresh s) by exact (ok_path _ _ _ OK' Hu' Hv).
        rewrite (proj2 (Nat.eqb_neq v _)) by lia. split; [lia|]. split; [exact (ok_incl _ _ _ OK' Hu' Hv)|]. intros w Hw.
        assert (w < tfresh s) by exact (ok_path _ _ _ OK' Hu' Hw). rewrite (proj2 (Nat.eqb_neq w _)) by lia. exact (ok_linear _ _ _ _ OK' Hu' Hv Hw).
    + unfold guarded. cbn [tfresh calls]. intros u Hu. destruct (calls s) as [|fr r] eqn:EC; [destruct Hu|].
      destruct (in_guarded_child s fr r param p n u EC Hu) as [[-> _]|H]; [lia|]. apply O2 in H. lia.
    + cbn [tfresh perms]. intros b o u Hu. destruct (in_range (fst p) (snd p) n b o) eqn:EI.
      * destruct (A b o EI) as (K1 & _). destruct (K1 u) as (_ & _ & K3); [lia|]. apply K3. apply O3. lia.
      * rewrite B by exact EI. apply O3. lia.
  - split; [cbn; lia|]. cbn. intros u Hu. now rewrite (proj2 (Nat.eqb_neq _ _)) by lia.
  - cbn. now rewrite Nat.eqb_refl.
  - exact B.
  - intros b o H. destruct (A b o H) as (K1 & K2 & K3). split; [|exact K3]. split; [exact K2|]. intros u Hu. apply K1. lia.
Qed.
Lemma child_guarded x param t p n s s' u : child x param t p n s s' -> In u (guarded s') -> u = tfresh s /\ param = true \/ In u (guarded s).
Proof.
  intros (_ & _ & _ & _ & C & _) H. unfold guarded in H at 1. rewrite C in H. destruct (calls s) as [|fr r] eqn:EC; [destruct H|].
  exact (in_guarded_child s fr r param p n u EC H).
Qed.
Lemma child_readable x param t p n s s' : tree_ok s -> t < tfresh s -> readable s p n t -> child x param t p n s s' -> readable s' p n (tfresh s).
Proof.
  intros OK L R H b o Hb. assert (H' := H). destruct H as (OK' & F & E & PT & C & EL & A). destruct (A b o Hb) as [[K1 K2] K3]. rewrite PT.
  destruct (R b o Hb) as [R1 R2]. split.
  - intros u [<-|Hu]; [now rewrite K3; destruct x|]. rewrite K1 by exact Hu. now apply R1.
  - intros u Hu Nu. destruct (child_guarded _ _ _ _ _ _ _ _ H' Hu) as [[-> _]|Hu']; [destruct Nu; now left|].
    intro EA. destruct (K2 u (ok_guarded _ _ OK Hu')) as (_ & W & _). apply (R2 u Hu'); [intro I; apply Nu; now right|]. now apply W.
Qed.
Lemma child_keeps x param t p n s s' q k u : tree_ok s -> u < tfresh s -> x = SharedRef \/ x = MutRef -> child x param t p n s s' -> readable s q k u -> readable s' q k u.
Proof.
  intros OK L KX H R b o Hb. assert (H' := H). destruct H as (OK' & F & E & PT & C & EL & A). rewrite (proj2 E) by exact L. destruct (R b o Hb) as [R1 R2].
  destruct (in_range (fst p) (snd p) n b o) eqn:EI.
  - destruct (A b o EI) as [[K1 K2] K3]. split.
    + intros v Hv. destruct (K2 v (ok_path _ _ _ OK L Hv)) as (-> & _). now apply R1.
    + intros v Hv Nv. destruct (child_guarded _ _ _ _ _ _ _ _ H' Hv) as [[-> _]|Hv']; [rewrite K3; destruct KX as [-> | ->]; discriminate|].
      intro EA. destruct (K2 v (ok_guarded _ _ OK Hv')) as (_ & W & _). apply (R2 v Hv' Nv). now apply W.
  - rewrite EL by exact EI. split; [exact R1|]. intros v Hv Nv. destruct (child_guarded _ _ _ _ _ _ _ _ H' Hv) as [[-> _]|Hv']; [|now apply R2].
    destruct OK as (_ & _ & O3). rewrite O3 by lia. discriminate.
Qed.
Lemma child_writes param t p n s s' : tree_ok s -> t < tfresh s -> writes s p n t -> child MutRef param t p n s s' -> writes s' p n (tfresh s).
Proof.
  intros OK L R H b o Hb. assert (H' := H). destruct H as (OK' & F & E & PT & C & EL & A). destruct (A b o Hb) as [[K1 K2] K3]. rewrite PT.
  destruct (R b o Hb) as [R1 R2]. split.
  - intros u [<-|Hu]; [now rewrite K3|]. rewrite K1 by exact Hu. specialize (R1 u Hu). destruct (mem_of u (guarded s')) eqn:EM.
    + apply mem_of_iff in EM. destruct (child_guarded _ _ _ _ _ _ _ _ H' EM) as [[-> _]|Hu'].
      * assert (tfresh s < tfresh s) by exact (ok_path _ _ _ OK L Hu). lia.
      * now rewrite (proj2 (mem_of_iff _ _) Hu') in R1.
    + destruct (perms s b o u) as [[c| | |]|]; cbn in *; auto. now rewrite andb_false_r.
  - intros u Hu Nu. destruct (child_guarded _ _ _ _ _ _ _ _ H' Hu) as [[-> _]|Hu']; [destruct Nu; now left|].
    destruct (K2 u (ok_guarded _ _ OK Hu')) as (-> & _). apply R2; [exact Hu'|]. intro I; apply Nu; now right.
Qed.
(** a node that may write still may when a child, not protected, is made of it or of a node below it *)
Lemma child_writes_old x t p n s s' q k u : tree_ok s -> t < tfresh s -> In u (path s t) -> child x false t p n s s' -> writes s q k u -> writes s' q k u.
Proof.
  intros OK L I H R b o Hb. assert (H' := H). destruct H as (OK' & F & E & PT & C & EL & A). rewrite (proj2 E) by exact (ok_path _ _ _ OK L I).
  assert (G : forall v, In v (guarded s') -> In v (guarded s)).
  { intros v Hv. destruct (child_guarded _ _ _ _ _ _ _ _ H' Hv) as [[_ D]|D]; [discriminate D|exact D]. }
  apply (wr_less (guarded s)); [exact G|]. destruct (in_range (fst p) (snd p) n b o) eqn:EI.
  - apply (wr_ro (tfresh s) (path s t) _ _ (perms s b o)); [now apply A|intros v; now apply ok_guarded|exact (ok_incl _ _ _ OK L I)|now apply R].
  - rewrite EL by exact EI. now apply R.
Qed.
Lemma child_writes_apart x param t p n s s' q k u : tree_ok s -> u < tfresh s -> (forall b o, cells_of p n b o -> cells_of q k b o -> False) ->
  child x param t p n s s' -> writes s q k u -> writes s' q k u.
Proof.
  intros OK L N H R b o Hb. assert (H' := H). destruct H as (OK' & F & E & PT & C & EL & A). rewrite (proj2 E) by exact L.
  rewrite EL by (destruct (in_range (fst p) (snd p) n b o) eqn:EI; [destruct (N b o EI Hb)|reflexivity]). destruct (R b o Hb) as [R1 R2]. split.
  - intros v Hv. specialize (R1 v Hv). destruct (mem_of v (guarded s')) eqn:EM.
    + apply mem_of_iff in EM. destruct (child_guarded _ _ _ _ _ _ _ _ H' EM) as [[-> _]|Hu'].
      * assert (tfresh s < tfresh s) by exact (ok_path _ _ _ OK L Hv). lia.
      * now rewrite (proj2 (mem_of_iff _ _) Hu') in R1.
    + destruct (perms s b o v) as [[c| | |]|]; cbn in *; auto. now rewrite andb_false_r.
  - intros v Hv Nv. destruct (child_guarded _ _ _ _ _ _ _ _ H' Hv) as [[-> _]|Hv']; [|now apply R2].
    destruct OK as (_ & _ & O3). rewrite O3 by lia. reflexivity.
Qed.

(** ** Calls *)
Definition enter (s : trees) : trees := {| perms := perms s; path := path s; tfresh := tfresh s; calls := [] :: calls s |}.
Definition popped (s : trees) : trees := {| perms := perms s; path := path s; tfresh := tfresh s; calls := tl (calls s) |}.
Lemma ok_enter s : tree_ok s -> tree_ok (enter s). Proof. intro H. exact H. Qed.
Lemma guarded_popped s u : In u (guarded (popped s)) -> In u (guarded s).
Proof.
  unfold guarded. cbn. destruct (calls s) as [|fr r]; [auto|]. cbn [tl concat]. rewrite map_app. intro H. apply in_or_app. now right.
Qed.
Lemma ok_popped s : tree_ok s -> tree_ok (popped s).
Proof. intros (A & B & C). split; [exact A|]. split; [|exact C]. intros u Hu. apply B. now apply guarded_popped. Qed.
Lemma leave_plain s r : calls s = [] :: r -> tperform Leave s = Some (0, popped s).
Proof. intro E. cbn [tperform]. rewrite E. cbn [exits]. unfold popped. now rewrite E. Qed.
(** the permissions after the parameter [c] has been given up *)
Definition exited (c : nat) (pth : nat -> list nat) (pl : list nat) (st st' : cell) : Prop :=
  (forall u, In u (pth c) -> writable (mem_of u pl) (st u) = true -> writable (mem_of u pl) (st' u) = true) /\
  (forall u, ~ In u (pth c) -> In c (pth u) -> st' u = st u) /\
  (forall u, ~ In u (pth c) -> alive (st u) = false -> alive (st' u) = false) /\
  (forall u, st u = None -> ~ In u (pth c) -> st' u = None).
Lemma exit_rw_acc c pth pl st : In c (pth c) -> wr pl (pth c) st -> exists st', exit_acc pl pth c st = Some st' /\ exited c pth pl st st'.
Proof.
  intros SC W. unfold exit_acc. set (skip := fun u => negb (u =? c) && mem_of c (pth u)).
  assert (SK : forall u, ~ In u (pth c) -> In c (pth u) -> skip u = true).
  { intros u N I. unfold skip. rewrite (proj2 (mem_of_iff _ _) I), (proj2 (Nat.eqb_neq u c)) by congruence. reflexivity. }
  assert (RD : exists st', read_acc pl (pth c) skip st = Some st' /\ exited c pth pl st st').
  { destruct (read_acc_ok pl (pth c) skip st (wr_rd _ _ _ W)) as (st' & E & A1 & A2). exists st'. split; [exact E|]. split; [|split; [|split]].
    - intros u Hu. now rewrite A1.
    - intros u Nu Iu. revert E. unfold read_acc. destruct (_ && _); [|discriminate]. intro E. injection E as <-. now rewrite SK, orb_true_r.
    - intros u _ Hu. destruct (A2 u) as (-> & _). exact Hu.
    - intros u Hu _. destruct (A2 u) as (_ & _ & A3). now apply A3. }
  assert (WD : exists st', write_acc pl (pth c) skip st = Some st' /\ exited c pth pl st st').
  { destruct (write_acc_ok pl (pth c) skip st W) as (st' & E & A1 & A2). exists st'. split; [exact E|]. split; [|split; [|split]].
    - intros u Hu _. now rewrite A1.
    - intros u Nu Iu. rewrite A2 by exact Nu. now rewrite SK.
    - intros u Nu Hu. rewrite A2 by exact Nu. destruct (skip u); [exact Hu|]. now destruct (st u).
    - intros u Hu Nu. rewrite A2 by exact Nu. rewrite Hu. now destruct (skip u). }
  destruct (st c) as [[]|] eqn:EC; auto. exists st. split; [reflexivity|]. repeat split; auto.
Qed.
Lemma leave_rw s c p n r : tree_ok s -> calls s = [(c, p, n)] :: r -> writes s p n c ->
  exists s', tperform Leave s = Some (0, s') /\ tree_ok s' /\ path s' = path s /\ tfresh s' = tfresh s /\ calls s' = r /\ elsewhere p n s s' /\
    forall b o, cells_of p n b o -> exited c (path s) (guarded s) (perms s b o) (perms s' b o).
Proof.
  intros OK EC W. assert (LC : c < tfresh s). { apply (ok_guarded s); [exact OK|]. unfold guarded. rewrite EC. now left. }
  assert (SC := ok_self _ _ OK LC).
  cbn [tperform]. rewrite EC. cbn [exits]. destruct (tacross_ok (perms s) p n (exit_acc (guarded s) (path s) c)) as (st & -> & A & B).
  { intros b o H. destruct (exit_rw_acc c (path s) (guarded s) _ SC (W b o H)) as (st' & E & _). eauto. }
  cbn [tput]. assert (K : forall b o, cells_of p n b o -> exited c (path s) (guarded s) (perms s b o) (st b o)).
  { intros b o H. destruct (exit_rw_acc c (path s) (guarded s) _ SC (W b o H)) as (st' & E & K). rewrite (A b o H) in E. injection E as <-. exact K. }
  eexists. split; [reflexivity|]. cbn [path tfresh calls perms]. split; [|repeat split; auto; apply K; assumption].
  assert (OP := ok_popped _ OK). destruct OP as (O1 & O2 & O3). split; [exact O1|]. split.
  - intros u Hu. apply O2. unfold guarded in *. cbn in *. now rewrite EC.
  - cbn. intros b o u Hu. destruct (in_range (fst p) (snd p) n b o) eqn:E.
    + destruct (K b o E) as (_ & _ & _ & K4). apply K4; [now apply O3|]. intro I. assert (u < tfresh s) by exact (ok_path _ _ _ OK LC I). lia.
    + rewrite B by exact E. now apply O3.
Qed.
(** a parameter that has not been written through *)
Lemma leave_ro s c p n r : tree_ok s -> calls s = [(c, p, n)] :: r -> readable s p n c -> (forall b o, cells_of p n b o -> perms s b o c <> Some TActive) ->
  exists s', tperform Leave s = Some (0, s') /\ tree_ok s' /\ path s' = path s /\ tfresh s' = tfresh s /\ calls s' = r /\ elsewhere p n s s' /\
    forall b o, cells_of p n b o -> ro_cell (tfresh s) (path s c) (perms s b o) (perms s' b o).
Proof.
  intros OK EC R NA. assert (LC : c < tfresh s). { apply (ok_guarded s); [exact OK|]. unfold guarded. rewrite EC. now left. }
  cbn [tperform]. rewrite EC. cbn [exits]. set (skip := fun u => negb (u =? c) && mem_of c (path s u)).
  assert (X : forall b o, cells_of p n b o -> exists st', exit_acc (guarded s) (path s) c (perms s b o) = Some st' /\ after_read (path s c) (perms s b o) st').
  { intros b o H. destruct (read_acc_ok _ _ skip _ (R b o H)) as (st' & E & K). assert (NE := NA b o H). unfold exit_acc. fold skip.
    destruct (perms s b o c) as [[]|] eqn:EP; eauto; [contradiction|]. exists (perms s b o). split; [reflexivity|]. split; auto. intro. apply weak_refl. }
  destruct (tacross_ok (perms s) p n (exit_acc (guarded s) (path s) c)) as (st & -> & A & B).
  { intros b o H. destruct (X b o H) as (st' & E & _). eauto. }
  cbn [tput]. assert (K : forall b o, cells_of p n b o -> after_read (path s c) (perms s b o) (st b o)).
  { intros b o H. destruct (X b o H) as (st' & E & K). rewrite (A b o H) in E. injection E as <-. exact K. }
  eexists. split; [reflexivity|]. cbn [path tfresh calls perms]. split; [|repeat split; auto; try (apply K; assumption)].
  assert (OP := ok_popped _ OK). destruct OP as (O1 & O2 & O3). split; [exact O1|]. split.
  - intros u Hu. apply O2. unfold guarded in *. cbn in *. now rewrite EC.
  - cbn. intros b o u Hu. destruct (in_range (fst p) (snd p) n b o) eqn:E.
    + destruct (K b o E) as (_ & K2). destruct (K2 u) as (_ & _ & K3). apply K3. now apply O3.
    + rewrite B by exact E. now apply O3.
Qed.
(** nodes made from the parameter may be used as before *)
Lemma exited_writes s s' c p n q k t : tree_ok s -> t < tfresh s -> In c (path s t) -> path s' = path s -> incl (guarded s') (guarded s) -> elsewhere p n s s' ->
  (forall b o, cells_of p n b o -> exited c (path s) (guarded s) (perms s b o) (perms s' b o)) -> writes s q k t -> writes s' q k t.
Proof.
  intros OK L I EP G EL EX W b o H. rewrite EP. apply (wr_less (guarded s)); [exact G|]. destruct (in_range (fst p) (snd p) n b o) eqn:E.
  - destruct (EX b o E) as (X1 & X2 & X3 & _). destruct (W b o H) as [W1 W2]. split.
    + intros u Hu. specialize (W1 u Hu). destruct (in_dec Nat.eq_dec u (path s c)) as [Iu|Nu]; [now apply X1|].
      destruct (ok_linear _ _ _ _ OK L Hu I) as [D|D]; [contradiction|]. now rewrite X2.
    + intros u Hu Nu. apply X3; [|now apply W2]. intro Iu. apply Nu. exact (ok_incl _ _ _ OK L I u Iu).
  - rewrite EL by exact E. now apply W.
Qed.
(** and so may what the parameter was made from *)
Lemma exited_writes_up s s' c p n q k t X : tree_ok s -> path s c = X ++ path s t -> path s' = path s -> incl (guarded s') (guarded s) -> elsewhere p n s s' ->
  (forall b o, cells_of p n b o -> exited c (path s) (guarded s) (perms s b o) (perms s' b o)) ->
  (forall x, In x X -> ~ In x (guarded s')) -> writes s q k c -> c < tfresh s -> writes s' q k t.
Proof.
  intros OK EC EP G EL EX NX W LC b o H. assert (W' : writes s' q k c).
  { apply (exited_writes s s' c p n q k c); auto. now apply ok_self. }
  specialize (W' b o H). rewrite EP, EC in W'. rewrite EP. exact (wr_up _ _ _ _ NX W').
Qed.

(** ** Programs *)
(** all accesses to [D] through [v] are allowed while [I] holds *)
Definition serves (v : view) (P : nat -> Prop) (D : nat -> nat -> Prop) (I : trees -> Prop) : Prop :=
  (forall s q n, I s -> (forall i, i < n -> D (fst q) (snd q + i)) -> exists s', tree_read (v (fst q)) q n s = Some s' /\ I s') /\
  (forall s q n, I s -> P (fst q) -> (forall i, i < n -> D (fst q) (snd q + i)) -> exists s', tree_write (v (fst q)) q n s = Some s' /\ I s').
Lemma serves_less v P (D D' : nat -> nat -> Prop) I : (forall b o, D' b o -> D b o) -> serves v P D I -> serves v P D' I.
Proof. intros H [A B]. split; intros; [apply A|apply B]; auto. Qed.
Lemma exec_ok {A} (R : A -> Prop) P v (I : trees -> Prop) (p : prog A) : stores_in P R p -> forall s m mm y mm', run p mm = Ret y mm' -> less m mm -> I s ->
  serves v P (init mm') I -> exists s' m', tree_run v p s m = Some (y, s', m') /\ I s' /\ less m' mm'.
Proof.
  induction p as [a0|f|b k IH|q n k IH|q xs k IH]; cbn [stores_in]; intros S s m mm y mm' E HL HI HV.
  - cbn [run] in E. injection E as <- <-. exists s, m. auto.
  - destruct f; discriminate E.
  - cbn [run tree_run] in *. rewrite (proj1 (HL b)) in E. exact (IH _ (S _) s m mm y mm' E HL HI HV).
  - cbn [run tree_run] in *. unfold bind in E. destruct (load q n mm) as [l m0| | |] eqn:EL; try discriminate E.
    destruct (less_load _ _ _ _ _ _ HL EL) as (EL' & -> & HN). assert (RI := run_init _ _ _ _ E).
    destruct (proj1 HV s q n HI) as (s1 & -> & I1). { intros i Hi. apply RI. now apply HN. }
    rewrite EL'. exact (IH l (S l) s1 m mm y mm' E HL I1 HV).
  - cbn [run tree_run] in *. unfold bind in E. destruct (store q xs mm) as [u m0| | |] eqn:EL; try discriminate E.
    destruct (less_store _ _ _ _ _ _ HL EL) as (m2 & EL' & HL2). destruct S as [HP S]. assert (RI := run_init _ _ _ _ E).
    destruct (proj2 HV s q (length xs) HI HP) as (s1 & -> & I1).
    { intros i Hi. apply RI. assert (EN : next (Store q xs (Done tt)) mm = Some (Done tt, m0)) by (cbn [next]; now rewrite EL).
      apply (next_written _ _ _ _ EN). split; [reflexivity|lia]. }
    rewrite EL'. exact (IH S s1 m2 m0 y mm' E HL2 I1 HV).
Qed.
Lemma tree_run_run {A} v (p : prog A) : forall s m y s' m', tree_run v p s m = Some (y, s', m') -> run p m = Ret y m'.
Proof.
  induction p as [a0|f|b k IH|q n k IH|q xs k IH]; cbn [tree_run run]; intros s m y s' m' E.
  - injection E as <- <- <-. reflexivity.
  - discriminate E.
  - exact (IH _ _ _ _ _ _ E).
  - destruct (tree_read _ _ _ _); [|discriminate E]. unfold bind. destruct (load q n m); try discriminate E. exact (IH _ _ _ _ _ _ E).
  - destruct (tree_write _ _ _ _); [|discriminate E]. unfold bind. destruct (store q xs m) as [u m0| | |]; try discriminate E. exact (IH _ _ _ _ _ E).
Qed.

(** ** Functions; as [good] in BorrowsFacts.v, but accesses change the state *)
Fixpoint tgood (F : nat -> nat -> Prop) {A} (x : bcode A) (Q : A -> trees -> mem -> Prop) (s : trees) (mm : mem) : Prop :=
  match x with
  | Return a => Q a s mm
  | Borrow y k => match tperform y s with Some (t, s') => tgood F (k t) Q s' mm | None => False end
  | Exec v c k => exists P p, follows c p /\ stores_in P any p /\ forall y mm', c mm = Ret y mm' -> exists I : trees -> Prop, I s /\
      ((forall b o, init mm' b o -> F b o) -> exists mm0 mm0', less mm mm0 /\ c mm0 = Ret y mm0' /\ serves v P (init mm0') I) /\
      forall s', I s' -> tgood F (k y) Q s' mm'
  end.
Lemma tgood_mono (F : nat -> nat -> Prop) {A B} (f : A -> B) (x : bcode A) (Q : A -> trees -> mem -> Prop) : forall c s mm r mmf, annotates f x c ->
  c mm = Ret r mmf -> tgood F x Q s mm -> forall b o, init mm b o -> init mmf b o.
Proof.
  induction x as [a|y k IH|X v c0 k IH]; cbn [annotates tgood]; intros c s mm r mmf HA E G b o Hi.
  - rewrite HA in E. now injection E as _ <-.
  - destruct (tperform y s) as [[t s']|]; [|contradiction]. exact (IH t c s' mm r mmf (HA t) E G b o Hi).
  - destruct HA as (g & HC & HA). destruct G as (P & p & HF & HS & G). rewrite HC in E. unfold bind in E.
    destruct (c0 mm) as [y mm1| | |] eqn:E0; try discriminate E. destruct (G y mm1 eq_refl) as (I & I0 & _ & G').
    apply (IH y (g y) s mm1 r mmf (HA y) E (G' s I0)). apply (run_init p mm y); [|exact Hi]. now rewrite (follows_imp _ _ HF).
Qed.
Lemma tgood_runs (F : nat -> nat -> Prop) {A B} (f : A -> B) (x : bcode A) (Q : A -> trees -> mem -> Prop) :
  forall c s m mm r mmf, annotates f x c -> c mm = Ret r mmf -> (forall b o, init mmf b o -> F b o) -> less m mm ->
  tgood F x Q s mm -> exists a s' m', tree_runs x s m a s' m' /\ f a = r /\ Q a s' mmf /\ less m' mmf.
Proof.
  induction x as [a|y k IH|X v c0 k IH]; cbn [annotates tgood]; intros c s m mm r mmf HA E HF HL G.
  - rewrite HA in E. injection E as <- <-. exists a, s, m. split; [constructor|]. auto.
  - destruct (tperform y s) as [[t s']|] eqn:EP; [|contradiction].
    destruct (IH t c s' m mm r mmf (HA t) E HF HL G) as (a & s3 & m' & R & H). exists a, s3, m'. split; [|exact H].
    exact (truns_borrow _ _ _ _ _ _ _ _ _ _ EP R).
  - destruct HA as (g & HC & HA). destruct G as (P & p & FO & HS & G). rewrite HC in E. unfold bind in E.
    destruct (c0 mm) as [y mm1| | |] eqn:E0; try discriminate E. destruct (G y mm1 eq_refl) as (I & I0 & V & G').
    assert (HF1 : forall b o, init mm1 b o -> F b o).
    { intros b o Hi. apply HF. exact (tgood_mono F f (k y) Q (g y) s mm1 r mmf (HA y) E (G' s I0) b o Hi). }
    destruct (V HF1) as (mm0 & mm0' & L0 & E0' & V0).
    destruct (exec_ok _ P v I p HS s m mm0 y mm0') as (s3 & m1 & ET & I3 & _).
    { now rewrite (follows_imp _ _ FO). } { exact (less_trans _ _ _ HL L0). } { exact I0. } { exact V0. }
    assert (HL1 : less m1 mm1).
    { rewrite <- (follows_imp _ _ FO) in E0. destruct (run_less p _ _ _ _ HL E0) as (m1' & E1 & HL1).
      rewrite (tree_run_run _ _ _ _ _ _ _ ET) in E1. injection E1 as ->. exact HL1. }
    destruct (IH y (g y) s3 m1 mm1 r mmf (HA y) E HF HL1 (G' s3 I3)) as (a & s4 & m' & R & H).
    exists a, s4, m'. split; [|exact H]. exact (truns_exec _ _ _ _ _ _ _ _ _ _ _ _ _ _ FO ET R).
Qed.
Lemma tree_runs_code {A B} (f : A -> B) (x : bcode A) s m a s' m' : tree_runs x s m a s' m' -> forall c, annotates f x c -> c m = Ret (f a) m'.
Proof.
  induction 1 as [A a s m|A x k s m t s1 a s' m' E R IH|A X v c k p s m y s1 m1 a s' m' FO ET R IH]; cbn [annotates]; intros c0 HA.
  - apply HA.
  - now apply (IH f).
  - destruct HA as (g & HC & HA). rewrite HC. unfold bind. rewrite <- (follows_imp _ _ FO), (tree_run_run _ _ _ _ _ _ _ ET). now apply (IH f).
Qed.
Lemma tgood_bind (F : nat -> nat -> Prop) {A B} (x : bcode A) (g : A -> bcode B) Q : forall s mm,
  tgood F (bbind x g) Q s mm <-> tgood F x (fun a s' mm' => tgood F (g a) Q s' mm') s mm.
Proof.
  induction x as [a|y k IH|X v c0 k IH]; cbn [bbind tgood]; intros s mm; [tauto| |].
  - destruct (tperform y s) as [[t s']|]; [apply IH|tauto].
  - split; intros (P & p & FO & HS & G); exists P, p; (split; [exact FO|]; split; [exact HS|]); intros y mm' E; destruct (G y mm' E) as (I & I0 & V & G');
      exists I; (split; [exact I0|]); (split; [exact V|]); intros s' Is; now apply IH, G'.
Qed.
Lemma tgood_imp (F : nat -> nat -> Prop) {A} (x : bcode A) (Q Q' : A -> trees -> mem -> Prop) : (forall a s mm, Q a s mm -> Q' a s mm) -> forall s mm, tgood F x Q s mm -> tgood F x Q' s mm.
Proof.
  intro H. induction x as [a|y k IH|X v c0 k IH]; cbn [tgood]; intros s mm G; [auto| |].
  - destruct (tperform y s) as [[t s']|]; [now apply IH|exact G].
  - destruct G as (P & p & FO & HS & G). exists P, p. split; [exact FO|]. split; [exact HS|]. intros y mm' E. destruct (G y mm' E) as (I & I0 & V & G').
    exists I. split; [exact I0|]. split; [exact V|]. intros s' Is. now apply IH, G'.
Qed.
Lemma tgood_local (F F' : nat -> nat -> Prop) {A B} (f : A -> B) (x : bcode A) (Q Q' : A -> trees -> mem -> Prop) :
  (forall a s mm0 mm, less mm mm0 -> Q a s mm0 -> Q' a s mm) ->
  forall c s mm mm0 r mmf, annotates f x c -> c mm0 = Ret r mmf -> (forall b o, init mmf b o -> F b o) -> less mm mm0 ->
  tgood F x Q s mm0 -> tgood F' x Q' s mm.
Proof.
  intro HQ. induction x as [a|y k IH|X v c0 k IH]; cbn [annotates tgood]; intros c s mm mm0 r mmf HA E HF HL G.
  - now apply (HQ a s mm0).
  - destruct (tperform y s) as [[t s']|]; [|contradiction]. exact (IH t c s' mm mm0 r mmf (HA t) E HF HL G).
  - destruct HA as (g & HC & HA). destruct G as (P & p & FO & HS & G). exists P, p. split; [exact FO|]. split; [exact HS|].
    rewrite HC in E. unfold bind in E. destruct (c0 mm0) as [y mm1| | |] eqn:E0; try discriminate E. destruct (G y mm1 eq_refl) as (I & I0 & V & G').
    assert (E0' := E0). rewrite <- (follows_imp _ _ FO) in E0'. destruct (run_less p _ _ _ _ HL E0') as (m1 & E1 & HL1).
    rewrite (follows_imp _ _ FO) in E1. intros y' mm' E2. rewrite E1 in E2. injection E2 as <- <-. exists I. split; [exact I0|]. split.
    + intros _. destruct V as (m2 & m2' & L2 & R2 & O2).
      { intros b o Hi. apply HF. exact (tgood_mono F f (k y) Q (g y) s mm1 r mmf (HA y) E (G' s I0) b o Hi). }
      exists m2, m2'. split; [exact (less_trans _ _ _ HL L2)|]. auto.
    + intros s' Is. exact (IH y (g y) s' m1 mm1 r mmf (HA y) E HF HL1 (G' s' Is)).
Qed.
Lemma tgood_code (F : nat -> nat -> Prop) {A B} (f : A -> B) (x : bcode A) (Q : A -> trees -> mem -> Prop) : forall c s mm r mmf, annotates f x c ->
  tgood F x Q s mm -> c mm = Ret r mmf -> tgood F x (fun a s' mm' => Q a s' mm' /\ f a = r /\ mm' = mmf) s mm.
Proof.
  induction x as [a|y k IH|X v c0 k IH]; cbn [annotates tgood]; intros c s mm r mmf HA G E.
  - rewrite HA in E. injection E as <- <-. auto.
  - destruct (tperform y s) as [[t s']|]; [|contradiction]. exact (IH t c s' mm r mmf (HA t) G E).
  - destruct HA as (g & HC & HA). destruct G as (P & p & FO & HS & G). exists P, p. split; [exact FO|]. split; [exact HS|]. intros y mm' E0.
    destruct (G y mm' E0) as (I & I0 & V & G'). exists I. split; [exact I0|]. split; [exact V|]. rewrite HC in E. unfold bind in E. rewrite E0 in E.
    intros s' Is. exact (IH y (g y) s' mm' r mmf (HA y) (G' s' Is) E).
Qed.
