(** Property theorems about the memory operations (C78): [read] and [write] of vsimd/src/tools.rs, unaligned loads and stores,
    pointer arithmetic and reads of constant tables are defined exactly when they stay within one allocation (and, for reads,
    within its initialised bytes), and then do what they should and nothing else. Anything else is undefined behaviour, which
    the theorems about the functions exclude. *)
From Coq Require Import ZArith List Bool Lia ZifyBool ZifyNat.
From Verif Require Import Bytes Mem MemFacts Slices.
Import ListNotations.
Open Scope nat_scope. Open Scope m_scope.

(** what is in cell [o] of block [b]: [None], no such cell; [Some None], not initialised; [Some (Some x)], the byte [x] *)
Definition cell_at (m : mem) (b o : nat) : option cell := nth_error (m b) o.

Lemma sequence_some (l : list cell) : forall xs, sequence l = Some xs <-> l = map Some xs.
Proof.
  intro xs. split; [|intros ->; apply sequence_map_some]. revert xs. induction l as [|[x|] l IH]; intros xs; cbn [sequence].
  - now intros [= <-].
  - destruct (sequence l) as [ys|]; [|discriminate]. intros [= <-]. cbn [map]. f_equal. now apply IH.
  - discriminate.
Qed.
Lemma list_ext {A} (l l' : list A) : length l = length l' -> (forall i, i < length l -> nth_error l i = nth_error l' i) -> l = l'.
Proof.
  revert l'. induction l as [|x l IH]; intros [|y l'] L K; try discriminate L; [reflexivity|]. f_equal.
  - specialize (K 0 ltac:(cbn; lia)). now injection K.
  - apply IH; [now injection L|]. intros i Hi. exact (K (S i) ltac:(cbn; lia)).
Qed.
Lemma nth_error_skipn {A} (l : list A) n i : nth_error (skipn n l) i = nth_error l (n + i).
Proof. revert l. induction n as [|n IH]; intros [|x l]; cbn; [reflexivity|reflexivity|now destruct i|apply IH]. Qed.
Lemma nth_error_firstn {A} (l : list A) n i : i < n -> nth_error (firstn n l) i = nth_error l i.
Proof. revert l i. induction n as [|n IH]; intros [|x l] [|i] L; cbn; try lia; try reflexivity. apply IH. lia. Qed.
Lemma nth_error_nth_lt (xs : list Z) i : i < length xs -> nth_error xs i = Some (nth i xs 0%Z).
Proof. revert i. induction xs as [|x xs IH]; intros [|i] L; cbn in *; try lia; try reflexivity. apply IH. lia. Qed.

(** C78 *)
(** A load of [k] bytes returns bytes exactly when the [k] cells are there and hold them; it changes nothing. *)
Theorem C78_load : forall m b o k,
  (forall xs m', load (b, o) k m = Ret xs m' <->
     m' = m /\ o + k <= length (m b) /\ length xs = k /\ forall i, i < k -> cell_at m b (o + i) = Some (Some (nth i xs 0%Z))) /\
  (load (b, o) k m = UB <-> length (m b) < o + k \/ exists i, i < k /\ cell_at m b (o + i) = Some None) /\
  load (b, o) k m <> Panic /\ load (b, o) k m <> OutOfFuel.
Proof.
  intros m b o k. unfold load, cell_at. cbn [fst snd]. destruct (o + k <=? length (m b)) eqn:E; [apply Nat.leb_le in E|apply Nat.leb_gt in E].
  2: { refine (conj _ (conj _ (conj _ _))); try discriminate; [intros; split; [discriminate|lia]|split; [now left|reflexivity]]. }
  assert (L : length (firstn k (skipn o (m b))) = k) by (rewrite firstn_length, skipn_length; lia).
  assert (N : forall i, i < k -> nth_error (firstn k (skipn o (m b))) i = nth_error (m b) (o + i)).
  { intros i Hi. rewrite nth_error_firstn by exact Hi. apply nth_error_skipn. }
  assert (B : forall xs, sequence (firstn k (skipn o (m b))) = Some xs <-> length xs = k /\ forall i, i < k -> nth_error (m b) (o + i) = Some (Some (nth i xs 0%Z))).
  { intro xs. rewrite sequence_some. split.
    - intro S. assert (X : length xs = k) by (rewrite <- L, S; now rewrite map_length). split; [exact X|]. intros i Hi.
      rewrite <- N, S by exact Hi. rewrite nth_error_map, nth_error_nth_lt by lia. reflexivity.
    - intros [X K]. apply list_ext; [now rewrite map_length, L|]. intros i Hi. rewrite L in Hi. rewrite N, K by exact Hi.
      rewrite nth_error_map, nth_error_nth_lt by lia. reflexivity. }
  destruct (sequence (firstn k (skipn o (m b)))) as [ys|] eqn:S.
  - destruct (B ys) as [B1 _]. destruct (B1 eq_refl) as [Y1 Y2]. refine (conj _ (conj _ (conj _ _))); try discriminate.
    + intros xs m'. split.
      * intros [= <- <-]. auto.
      * intros (-> & _ & X). apply B in X. congruence.
    + split; [discriminate|]. intros [X|(i & Hi & X)]; [lia|]. rewrite Y2 in X by exact Hi. discriminate.
  - refine (conj _ (conj _ (conj _ _))); try discriminate.
    + intros xs m'. split; [discriminate|]. intros (_ & _ & X). apply B in X. discriminate.
    + split; [intros _; right|reflexivity]. clear B. revert S N L. generalize (firstn k (skipn o (m b))). intros l S N L.
      assert (G : exists i, i < length l /\ nth_error l i = Some None).
      { clear N L. induction l as [|[x|] l IH]; cbn [sequence] in S; [discriminate| |exists 0; split; [cbn; lia|reflexivity]].
        destruct (sequence l); [discriminate|]. destruct (IH eq_refl) as (i & Hi & X). exists (Datatypes.S i). split; [cbn; lia|exact X]. }
      destruct G as (i & Hi & X). exists i. split; [lia|]. now rewrite <- N by lia.
Qed.
Print Assumptions C78_load.
(** A store changes the cells it writes, no others, and no sizes; it is undefined exactly when a cell is missing. *)
Theorem C78_store : forall m b o xs,
  (o + length xs <= length (m b) -> exists m', store (b, o) xs m = Ret tt m' /\ (forall b', length (m' b') = length (m b')) /\
     (forall i, i < length xs -> cell_at m' b (o + i) = Some (Some (nth i xs 0%Z))) /\
     (forall b' o', b' <> b \/ o' < o \/ o + length xs <= o' -> cell_at m' b' o' = cell_at m b' o')) /\
  (length (m b) < o + length xs -> store (b, o) xs m = UB).
Proof.
  intros m b o xs. unfold store, cell_at. cbn [fst snd]. split; intro E.
  2: { destruct (_ <=? _) eqn:F; [lia|reflexivity]. }
  destruct (_ <=? _) eqn:F; [clear F|lia]. eexists. split; [reflexivity|]. unfold upd, splice.
  assert (FL : length (firstn o (m b)) = o) by (rewrite firstn_length; lia).
  refine (conj _ (conj _ _)).
  - intro b'. destruct (Nat.eqb_spec b' b) as [->|]; [|reflexivity]. rewrite !app_length, map_length, skipn_length, FL. lia.
  - intros i Hi. rewrite Nat.eqb_refl. rewrite nth_error_app2 by lia. rewrite FL. rewrite nth_error_app1 by (rewrite map_length; lia).
    replace (o + i - o) with i by lia. now rewrite nth_error_map, nth_error_nth_lt by exact Hi.
  - intros b' o' K. destruct (Nat.eqb_spec b' b) as [->|]; [|reflexivity]. destruct K as [K|[K|K]]; [easy| |].
    + rewrite nth_error_app1 by lia. now apply nth_error_firstn.
    + rewrite nth_error_app2 by lia. rewrite FL. rewrite nth_error_app2 by (rewrite map_length; lia). rewrite map_length, nth_error_skipn. f_equal. lia.
Qed.
Print Assumptions C78_store.
(** [p.add(k)], [p.sub(k)], [p.offset_from(q)]: within one allocation or one past its end *)
Theorem C78_pointers : forall m b o k b' o',
  padd (b, o) k m = (if le_lt_dec (o + k) (length (m b)) then Ret (b, o + k) m else UB) /\
  psub (b, o) k m = (if le_lt_dec k o then Ret (b, o - k) m else UB) /\
  (b = b' /\ o' <= o -> offset_from (b, o) (b', o') m = Ret (o - o') m) /\
  (b <> b' \/ o < o' -> offset_from (b, o) (b', o') m = UB).
Proof.
  intros. unfold padd, psub, offset_from. cbn [fst snd]. refine (conj _ (conj _ (conj _ _))).
  - destruct (le_lt_dec _ _), (_ <=? _) eqn:E; try reflexivity; lia.
  - destruct (le_lt_dec _ _), (_ <=? _) eqn:E; try reflexivity; lia.
  - intros [-> L]. rewrite Nat.eqb_refl. destruct (_ <=? _) eqn:E; [reflexivity|lia].
  - intro K. destruct (Nat.eqb_spec b b') as [->|]; [|reflexivity]. destruct (_ <=? _) eqn:E; [lia|reflexivity].
Qed.
Print Assumptions C78_pointers.
(** tools.rs [read] and [write]: one byte *)
Theorem C78_read_write : forall m b o i x,
  (forall m', read (b, o) i m = Ret x m' <-> m' = m /\ cell_at m b (o + i) = Some (Some x)) /\
  (read (b, o) i m = UB <-> cell_at m b (o + i) = None \/ cell_at m b (o + i) = Some None) /\
  write (b, o) i x m = store (b, o + i) [x] m.
Proof.
  intros m b o i x. unfold read, write, bind. rewrite (proj1 (C78_pointers m b o i 0 0)). unfold cell_at.
  destruct (le_lt_dec (o + i) (length (m b))) as [L|L].
  - destruct (C78_load m b (o + i) 1) as (G & U & P & F). destruct (load (b, o + i) 1 m) as [l m'| | |] eqn:E; try easy.
    + destruct (proj1 (G l m') eq_refl) as (-> & B & X & K). destruct l as [|y [|z l]]; try discriminate X. specialize (K 0 ltac:(lia)). rewrite Nat.add_0_r in K.
      unfold cell_at in K. cbn [nth] in K. rewrite K. refine (conj _ (conj _ eq_refl)).
      * intro m'. cbn. split; [intros [= <- <-]; auto|intros [-> [= ->]]; reflexivity].
      * cbn. split; [discriminate|intros [|]; discriminate].
    + pose proof (proj1 U eq_refl) as V. refine (conj _ (conj _ eq_refl)).
      * intro m'. split; [discriminate|]. intros [_ X]. destruct V as [V|(j & Hj & V)].
        -- assert (o + i < length (m b)) by (apply nth_error_Some; congruence). lia.
        -- replace j with 0 in V by lia. rewrite Nat.add_0_r in V. unfold cell_at in V. congruence.
      * split; [intros _|reflexivity]. destruct V as [V|(j & Hj & V)]; [left; apply nth_error_None; lia|right].
        replace j with 0 in V by lia. now rewrite Nat.add_0_r in V.
  - assert (X : nth_error (m b) (o + i) = None) by (apply nth_error_None; lia). rewrite X. refine (conj _ (conj _ _)).
    + intro m'. split; [discriminate|intros [_ ?]; discriminate].
    + split; auto.
    + symmetry. apply C78_store. cbn. lia.
Qed.
Print Assumptions C78_read_write.
(** an unchecked read of a constant table *)
Theorem C78_tables : forall t i m x,
  (table_get t i m = Ret x m <-> (0 <= i)%Z /\ nth_error t (Z.to_nat i) = Some x) /\
  (table_get t i m = UB <-> (i < 0 \/ Z.of_nat (length t) <= i)%Z).
Proof.
  intros t i m x. unfold table_get. destruct (i <? 0)%Z eqn:E.
  - split; split; try discriminate; try lia; reflexivity.
  - destruct (nth_error t (Z.to_nat i)) as [y|] eqn:N.
    + assert (Z.to_nat i < length t) by (apply nth_error_Some; congruence). split; split; try discriminate; try lia.
      * intros [= ->]. split; [lia|reflexivity].
      * intros [_ [= ->]]. reflexivity.
    + apply nth_error_None in N. split; split; intro K; try discriminate; try reflexivity.
      * now destruct K.
      * right. lia.
Qed.
Print Assumptions C78_tables.
(** A block of three cells, the last one not initialised. *)
Example C78_ex : let m := mem_of [[Some 7; Some 8; None]; [Some 9]]%Z in
  (match load (0, 0) 2 m with Ret l _ => Some l | _ => None end) = Some [7; 8]%Z /\
  load (0, 1) 2 m = UB /\ load (0, 2) 2 m = UB /\ load (1, 0) 0 m = Ret [] m /\ load (1, 2) 0 m = UB /\
  (match store (0, 2) [5]%Z m with Ret _ m' => load (0, 1) 2 m' | _ => UB end) <> UB /\ store (0, 2) [5; 6]%Z m = UB /\
  offset_from (0, 1) (1, 0) m = UB.
Proof. repeat split; try reflexivity. discriminate. Qed.
