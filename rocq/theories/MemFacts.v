(** Weakest preconditions and frame reasoning for Mem.v. *)
From Coq Require Import ZArith List Bool Lia.
From Verif Require Import Bytes Mem.
Import ListNotations.
Open Scope m_scope.

(** [wp c Q m]: running [c] from [m] neither hits UB, nor panics, nor runs out of fuel,
    and ends with value and memory satisfying [Q]. *)
Definition wp {A} (c : M A) (Q : A -> mem -> Prop) (m : mem) : Prop :=
  match c m with Ret a m' => Q a m' | _ => False end.

Lemma wp_inv {A} (c : M A) Q m : wp c Q m -> exists a m', c m = Ret a m' /\ Q a m'.
Proof. unfold wp. destruct (c m); try easy. eauto. Qed.

Lemma wp_intro {A} (c : M A) (Q : A -> mem -> Prop) m a m' : c m = Ret a m' -> Q a m' -> wp c Q m.
Proof. unfold wp. now intros ->. Qed.

Lemma wp_ret {A} (a : A) (Q : A -> mem -> Prop) m : Q a m -> wp (ret a) Q m.
Proof. easy. Qed.

Lemma wp_bind {A B} (c : M A) (f : A -> M B) Q m :
  wp c (fun a m' => wp (f a) Q m') m -> wp (bind c f) Q m.
Proof. unfold wp, bind. destruct (c m); easy. Qed.

Lemma wp_mono {A} (c : M A) (Q Q' : A -> mem -> Prop) m :
  wp c Q m -> (forall a m', Q a m' -> Q' a m') -> wp c Q' m.
Proof. unfold wp. destruct (c m); auto. Qed.

Lemma wp_lift {A} (o : option A) a (Q : A -> mem -> Prop) m : o = Some a -> Q a m -> wp (lift o) Q m.
Proof. now intros ->. Qed.

(** [bytes_at m b o l]: block [b] holds the initialised bytes [l] starting at offset [o]. *)
Definition bytes_at (m : mem) (b o : nat) (l : list Z) : Prop :=
  (o + length l <= length (m b))%nat /\ firstn (length l) (skipn o (m b)) = map Some l.

Lemma bytes_at_nth m b o l :
  bytes_at m b o l <->
  (o + length l <= length (m b))%nat /\
  (forall i, (i < length l)%nat -> nth_error (m b) (o + i) = Some (nth_error l i)).
Proof.
  unfold bytes_at. split; intros [H1 H2]; split; auto.
  - intros i Hi. apply (f_equal (fun x => nth_error x i)) in H2.
    rewrite nth_error_firstn, nth_error_skipn in H2.
    destruct (Nat.ltb_spec i (length l)); [|lia]. rewrite H2. rewrite nth_error_map.
    destruct (nth_error l i) eqn:E; [reflexivity|]. apply nth_error_None in E. lia.
  - apply nth_error_ext.
    + rewrite map_length, firstn_length, skipn_length. lia.
    + rewrite firstn_length, skipn_length. intros i Hi.
      rewrite nth_error_firstn, nth_error_skipn.
      destruct (Nat.ltb_spec i (length l)); [|lia]. rewrite H2 by lia. rewrite nth_error_map.
      destruct (nth_error l i) eqn:E; [reflexivity|]. apply nth_error_None in E. lia.
Qed.

Lemma bytes_at_app m b o l1 l2 :
  bytes_at m b o (l1 ++ l2) <-> bytes_at m b o l1 /\ bytes_at m b (o + length l1) l2.
Proof.
  rewrite !bytes_at_nth, app_length. split.
  - intros [H1 H2]. repeat split; try lia.
    + intros i Hi. rewrite H2 by lia. rewrite nth_error_app.
      destruct (Nat.ltb_spec i (length l1)); [reflexivity|lia].
    + intros i Hi. rewrite <- Nat.add_assoc, H2 by lia. rewrite nth_error_app.
      destruct (Nat.ltb_spec (length l1 + i) (length l1)); [lia|]. do 2 f_equal. lia.
  - intros [[H1 H2] [H3 H4]]. split; [lia|]. intros i Hi. rewrite nth_error_app.
    destruct (Nat.ltb_spec i (length l1)); [now apply H2|].
    replace (o + i)%nat with (o + length l1 + (i - length l1))%nat by lia. apply H4. lia.
Qed.

Lemma bytes_at_nil m b o : (o <= length (m b))%nat -> bytes_at m b o [].
Proof. intro H. split; cbn; [lia|reflexivity]. Qed.

Lemma bytes_at_firstn m b o l k : bytes_at m b o l -> bytes_at m b o (firstn k l).
Proof. intro H. rewrite <- (firstn_skipn k l) in H. now apply bytes_at_app in H. Qed.

Lemma bytes_at_skipn m b o l k : (k <= length l)%nat -> bytes_at m b o l -> bytes_at m b (o + k) (skipn k l).
Proof.
  intros Hk H. rewrite <- (firstn_skipn k l) in H. apply bytes_at_app in H as [_ H].
  rewrite firstn_length_le in H by lia. exact H.
Qed.

Lemma bytes_at_load m b o l : bytes_at m b o l -> load (b, o) (length l) m = Ret l m.
Proof.
  intros [H1 H2]. unfold load. cbn [fst snd].
  destruct (Nat.leb_spec (o + length l) (length (m b))); [|lia].
  rewrite H2, sequence_map_some. reflexivity.
Qed.

Lemma wp_load m b o l k (Q : list Z -> mem -> Prop) :
  bytes_at m b o l -> (k <= length l)%nat -> Q (firstn k l) m -> wp (load (b, o) k) Q m.
Proof.
  intros H Hk HQ. apply bytes_at_firstn with (k := k) in H.
  eapply wp_intro; [|exact HQ]. rewrite <- (firstn_length_le l Hk) at 1.
  now apply bytes_at_load.
Qed.

Lemma wp_load_exact m b o l k (Q : list Z -> mem -> Prop) :
  bytes_at m b o l -> k = length l -> Q l m -> wp (load (b, o) k) Q m.
Proof. intros H -> HQ. eapply wp_intro; [|exact HQ]. now apply bytes_at_load. Qed.

Lemma wp_padd p k (Q : ptr -> mem -> Prop) m :
  (snd p + k <= length (m (fst p)))%nat -> Q (fst p, snd p + k)%nat m -> wp (padd p k) Q m.
Proof.
  intros H HQ. unfold wp, padd. destruct (Nat.leb_spec (snd p + k) (length (m (fst p)))); [exact HQ|lia].
Qed.

Lemma wp_psub p k (Q : ptr -> mem -> Prop) m :
  (k <= snd p)%nat -> Q (fst p, snd p - k)%nat m -> wp (psub p k) Q m.
Proof. intros H HQ. unfold wp, psub. destruct (Nat.leb_spec k (snd p)); [exact HQ|lia]. Qed.

Lemma wp_table t i (Q : Z -> mem -> Prop) m :
  (0 <= i < Z.of_nat (length t))%Z -> Q (nth (Z.to_nat i) t 0%Z) m -> wp (table_get t i) Q m.
Proof.
  intros H HQ. unfold wp, table_get. destruct (Z.ltb_spec i 0); [lia|].
  rewrite (nth_error_nth' t 0%Z) by lia. exact HQ.
Qed.

Lemma wp_read m b o l i (Q : Z -> mem -> Prop) :
  bytes_at m b o l -> (i < length l)%nat -> Q (nth i l 0%Z) m -> wp (read (b, o) i) Q m.
Proof.
  intros H Hi HQ. unfold read. apply wp_bind, wp_padd; cbn [fst snd].
  { destruct H. lia. }
  assert (H' : bytes_at m b (o + i) (skipn i l)) by (apply bytes_at_skipn; [lia|exact H]).
  apply wp_bind. eapply wp_load with (k := 1%nat); [exact H'| |].
  - rewrite skipn_length. lia.
  - destruct (nth_error l i) as [x|] eqn:E; [|apply nth_error_None in E; lia].
    assert (S : exists r, skipn i l = x :: r).
    { pose proof (nth_error_skipn l i 0) as N. rewrite Nat.add_0_r, E in N.
      destruct (skipn i l) as [|y r]; cbn in N; [easy|]. inversion N; subst. eauto. }
    destruct S as [r ->]. cbn [firstn]. apply wp_ret.
    rewrite (nth_error_nth _ _ 0%Z E) in HQ. exact HQ.
Qed.

(** ** Stores *)

Lemma splice_length l o xs : (o + length xs <= length l)%nat -> length (splice l o xs) = length l.
Proof.
  intro H. unfold splice. rewrite !app_length, map_length, firstn_length, skipn_length. lia.
Qed.

Lemma splice_nth l o xs i :
  (o + length xs <= length l)%nat ->
  nth_error (splice l o xs) i =
    if ((o <=? i) && (i <? o + length xs))%nat then Some (nth_error xs (i - o)) else nth_error l i.
Proof.
  intro H. unfold splice. rewrite nth_error_app, firstn_length_le by lia.
  destruct (Nat.leb_spec o i); destruct (Nat.ltb_spec i o); try lia; cbn [andb].
  - rewrite nth_error_app, map_length. destruct (Nat.ltb_spec i (o + length xs)).
    + destruct (Nat.ltb_spec (i - o) (length xs)); [|lia]. rewrite nth_error_map.
      destruct (nth_error xs (i - o)) eqn:E; [reflexivity|]. apply nth_error_None in E. lia.
    + destruct (Nat.ltb_spec (i - o) (length xs)); [lia|].
      rewrite nth_error_skipn. f_equal. lia.
  - rewrite nth_error_firstn. destruct (Nat.ltb_spec i o); [reflexivity|lia].
Qed.

Lemma wp_store b o xs (Q : unit -> mem -> Prop) m :
  (o + length xs <= length (m b))%nat -> Q tt (upd m b (splice (m b) o xs)) -> wp (store (b, o) xs) Q m.
Proof.
  intros H HQ. unfold wp, store. cbn [fst snd].
  destruct (Nat.leb_spec (o + length xs) (length (m b))); [exact HQ|lia].
Qed.

Lemma upd_same m b l : upd m b l b = l.
Proof. unfold upd. now rewrite Nat.eqb_refl. Qed.
Lemma upd_other m b l b' : b' <> b -> upd m b l b' = m b'.
Proof. unfold upd. intro H. destruct (Nat.eqb_spec b' b); [easy|reflexivity]. Qed.

(** ** Loops *)

Lemma wp_while {S} (I : S -> mem -> Prop) (meas : S -> nat) fuel cond (body : S -> M S) s (Q : S -> mem -> Prop) m :
  I s m -> (meas s < fuel)%nat ->
  (forall s m, I s m -> cond s = true -> wp (body s) (fun s' m' => I s' m' /\ (meas s' < meas s)%nat) m) ->
  (forall s m, I s m -> cond s = false -> Q s m) ->
  wp (while_ fuel cond body s) Q m.
Proof.
  intros HI Hf Hb HQ. revert s m HI Hf. induction fuel as [|f IH]; intros s m HI Hf; [lia|].
  cbn [while_]. destruct (cond s) eqn:C.
  - apply wp_bind. eapply wp_mono; [now apply Hb|]. intros s' m' [HI' Hm]. apply IH; [exact HI'|lia].
  - apply wp_ret. now apply HQ.
Qed.

Lemma wp_while_res {S} (I : S -> mem -> Prop) (meas : S -> nat) fuel cond (body : S -> M (result S)) s (Q : result S -> mem -> Prop) m :
  I s m -> (meas s < fuel)%nat ->
  (forall s m, I s m -> cond s = true ->
     wp (body s) (fun r m' => match r with Ok s' => I s' m' /\ (meas s' < meas s)%nat | Err => Q Err m' end) m) ->
  (forall s m, I s m -> cond s = false -> Q (Ok s) m) ->
  wp (while_res fuel cond body s) Q m.
Proof.
  intros HI Hf Hb HQ. revert s m HI Hf. induction fuel as [|f IH]; intros s m HI Hf; [lia|].
  cbn [while_res]. destruct (cond s) eqn:C.
  - apply wp_bind. eapply wp_mono; [now apply Hb|]. intros [s'|] m'.
    + intros [HI' Hm]. apply IH; [exact HI'|lia].
    + intro HE. now apply wp_ret.
  - apply wp_ret. now apply HQ.
Qed.

Lemma wp_while_break {S} (I : S -> mem -> Prop) (meas : S -> nat) fuel cond (body : S -> M (S * bool)) s (Q : S -> mem -> Prop) m :
  I s m -> (meas s < fuel)%nat ->
  (forall s m, I s m -> cond s = true ->
     wp (body s) (fun r m' => if snd r then Q (fst r) m' else I (fst r) m' /\ (meas (fst r) < meas s)%nat) m) ->
  (forall s m, I s m -> cond s = false -> Q s m) ->
  wp (while_break fuel cond body s) Q m.
Proof.
  intros HI Hf Hb HQ. revert s m HI Hf. induction fuel as [|f IH]; intros s m HI Hf; [lia|].
  cbn [while_break]. destruct (cond s) eqn:C.
  - apply wp_bind. eapply wp_mono; [now apply Hb|]. intros [s' b] m'; cbn [fst snd]. destruct b.
    + intro HE. now apply wp_ret.
    + intros [HI' Hm]. apply IH; [exact HI'|lia].
  - apply wp_ret. now apply HQ.
Qed.

(** ** Frames

    [Frame m0 b d n m]: [m] differs from [m0] at most in cells [d, d+n) of block [b]. *)
Definition Frame (m0 : mem) (b d n : nat) (m : mem) : Prop :=
  (forall b', b' <> b -> m b' = m0 b') /\
  length (m b) = length (m0 b) /\
  (forall i, (i < d \/ d + n <= i)%nat -> nth_error (m b) i = nth_error (m0 b) i).

Lemma Frame_refl m b d n : Frame m b d n m.
Proof. repeat split; auto. Qed.

Lemma Frame_zero m0 b d m : Frame m0 b d 0 m -> forall b', m b' = m0 b'.
Proof.
  intros (H1 & H2 & H3) b'. destruct (Nat.eq_dec b' b) as [->|N]; [|now apply H1].
  apply nth_error_ext; [exact H2|]. intros i _. apply H3. lia.
Qed.

Lemma Frame_trans m0 m1 m2 b d n : Frame m0 b d n m1 -> Frame m1 b d n m2 -> Frame m0 b d n m2.
Proof.
  intros (A1 & A2 & A3) (B1 & B2 & B3). repeat split.
  - intros b' H. rewrite B1, A1; auto.
  - congruence.
  - intros i H. rewrite B3, A3; auto.
Qed.

Lemma Frame_weaken m0 m1 b d n d' n' :
  Frame m0 b d n m1 -> (n = 0 \/ (d' <= d /\ d + n <= d' + n'))%nat -> Frame m0 b d' n' m1.
Proof.
  intros F H. pose proof F as (A1 & A2 & A3). repeat split; auto.
  intros i Hi. destruct H as [->|H]; [|apply A3; lia]. now rewrite (Frame_zero _ _ _ _ F).
Qed.

Lemma Frame_store m0 m b d n o xs :
  Frame m0 b d n m -> (d <= o)%nat -> (o + length xs <= d + n)%nat -> (d + n <= length (m0 b))%nat ->
  Frame m0 b d n (upd m b (splice (m b) o xs)).
Proof.
  intros (A1 & A2 & A3) H1 H2 H3. repeat split.
  - intros b' Hb. rewrite upd_other by auto. auto.
  - rewrite upd_same, splice_length; lia.
  - intros i Hi. rewrite upd_same, splice_nth by lia.
    destruct (Nat.leb_spec o i); destruct (Nat.ltb_spec i (o + length xs)); cbn [andb]; try lia; apply A3; lia.
Qed.

Lemma bytes_at_store_same m b o xs :
  (o + length xs <= length (m b))%nat -> bytes_at (upd m b (splice (m b) o xs)) b o xs.
Proof.
  intro H. apply bytes_at_nth. rewrite upd_same, splice_length by lia. split; [lia|].
  intros i Hi. rewrite splice_nth by lia.
  destruct (Nat.leb_spec o (o + i)); destruct (Nat.ltb_spec (o + i) (o + length xs)); try lia. cbn [andb].
  do 2 f_equal. lia.
Qed.

Lemma bytes_at_store_other m b o xs b' o' l :
  bytes_at m b' o' l -> (o + length xs <= length (m b))%nat ->
  (b' <> b \/ o' + length l <= o \/ o + length xs <= o')%nat ->
  bytes_at (upd m b (splice (m b) o xs)) b' o' l.
Proof.
  intros H Ho D. destruct (Nat.eq_dec b' b) as [->|N].
  - apply bytes_at_nth in H as [H1 H2]. apply bytes_at_nth. rewrite upd_same, splice_length by lia.
    split; [lia|]. intros i Hi. rewrite splice_nth by lia.
    destruct (Nat.leb_spec o (o' + i)); destruct (Nat.ltb_spec (o' + i) (o + length xs)); cbn [andb];
      try (now apply H2); lia.
  - destruct H as [H1 H2]. unfold bytes_at. rewrite upd_other by auto. now split.
Qed.

Lemma Frame_bytes_at m0 b d n m b' o l :
  Frame m0 b d n m -> bytes_at m0 b' o l ->
  (b' <> b \/ o + length l <= d \/ d + n <= o)%nat -> bytes_at m b' o l.
Proof.
  intros (A1 & A2 & A3) H D. destruct (Nat.eq_dec b' b) as [->|N].
  - apply bytes_at_nth in H as [H1 H2]. apply bytes_at_nth. rewrite A2. split; [lia|].
    intros i Hi. rewrite A3 by lia. auto.
  - unfold bytes_at. rewrite A1 by auto. exact H.
Qed.

(** ** The transducer invariant

    The program has consumed the source up to offset [p] of block [bs] and still has to read [rest];
    it owns cells [d0, d0+cap) of block [bd], in which it has produced [out]. The unread source
    is in another block, or before the destination, or not yet reached by the output. *)
Record Inv (m0 : mem) (bs bd d0 cap : nat) (out : list Z) (p : nat) (rest : list Z) (m : mem) : Prop := {
  inv_frame : Frame m0 bd d0 cap m;
  inv_cap : (d0 + cap <= length (m0 bd))%nat;
  inv_out : bytes_at m bd d0 out;
  inv_outlen : (length out <= cap)%nat;
  inv_src : bytes_at m bs p rest;
  inv_alias : (bs <> bd \/ p + length rest <= d0 \/ d0 + length out <= p)%nat
}.

Lemma Inv_init m bs so xs bd d0 cap :
  bytes_at m bs so xs -> (d0 + cap <= length (m bd))%nat ->
  (bs <> bd \/ so + length xs <= d0 \/ d0 <= so)%nat ->
  Inv m bs bd d0 cap [] so xs m.
Proof.
  intros H1 H2 H3. constructor; auto.
  - apply Frame_refl.
  - apply bytes_at_nil. lia.
  - cbn; lia.
  - cbn. lia.
Qed.

Lemma Inv_advance m0 bs bd d0 cap out p x rest m :
  Inv m0 bs bd d0 cap out p (x ++ rest) m -> Inv m0 bs bd d0 cap out (p + length x) rest m.
Proof.
  intros []. apply bytes_at_app in inv_src0 as [? ?]. rewrite app_length in *. constructor; auto. lia.
Qed.

Lemma Inv_store m0 bs bd d0 cap out p rest m ys j (Q : unit -> mem -> Prop) :
  Inv m0 bs bd d0 cap out p rest m ->
  (length out + length ys <= cap)%nat ->
  (bs <> bd \/ p + length rest <= d0 \/ d0 + length out + length ys <= p)%nat ->
  (j <= length ys)%nat ->
  (forall m', Inv m0 bs bd d0 cap (out ++ firstn j ys) p rest m' -> Q tt m') ->
  wp (store (bd, d0 + length out)%nat ys) Q m.
Proof.
  intros [] H1 H2 Hj HQ.
  assert (L : length (m bd) = length (m0 bd)) by apply inv_frame0.
  apply wp_store; [rewrite L; lia|]. apply HQ. constructor.
  - apply Frame_store; auto; lia.
  - auto.
  - apply bytes_at_app. split.
    + apply bytes_at_store_other; auto; rewrite ?L; lia.
    + apply bytes_at_firstn. apply bytes_at_store_same. rewrite L. lia.
  - rewrite app_length, firstn_length_le by lia. lia.
  - apply bytes_at_store_other; auto; rewrite ?L; [lia|]. lia.
  - rewrite app_length, firstn_length_le by lia. lia.
Qed.

(** Store whose bytes are all kept. *)
Lemma Inv_store_all m0 bs bd d0 cap out p rest m ys (Q : unit -> mem -> Prop) :
  Inv m0 bs bd d0 cap out p rest m ->
  (length out + length ys <= cap)%nat ->
  (bs <> bd \/ p + length rest <= d0 \/ d0 + length out + length ys <= p)%nat ->
  (forall m', Inv m0 bs bd d0 cap (out ++ ys) p rest m' -> Q tt m') ->
  wp (store (bd, d0 + length out)%nat ys) Q m.
Proof.
  intros HI H1 H2 HQ. eapply (Inv_store _ _ _ _ _ _ _ _ _ _ (length ys)); eauto.
  rewrite firstn_all. exact HQ.
Qed.

(** The final memory, written out. *)
Lemma Inv_final m0 bs bd d0 cap out p rest m :
  Inv m0 bs bd d0 cap out p rest m -> length out = cap ->
  m bd = firstn d0 (m0 bd) ++ map Some out ++ skipn (d0 + cap) (m0 bd).
Proof.
  intros [] HL. destruct inv_frame0 as (A1 & A2 & A3).
  apply nth_error_ext.
  - rewrite !app_length, map_length, firstn_length, skipn_length. lia.
  - intros i Hi. rewrite nth_error_app, firstn_length_le by lia.
    destruct (Nat.ltb_spec i d0).
    + rewrite A3 by lia. rewrite nth_error_firstn. destruct (Nat.ltb_spec i d0); [reflexivity|lia].
    + rewrite nth_error_app, map_length. destruct (Nat.ltb_spec (i - d0) (length out)).
      * apply bytes_at_nth in inv_out0 as [_ B].
        replace i with (d0 + (i - d0))%nat at 1 by lia. rewrite B by lia. rewrite nth_error_map.
        destruct (nth_error out (i - d0)) eqn:E; [reflexivity|]. apply nth_error_None in E. lia.
      * rewrite A3 by lia. rewrite nth_error_skipn. f_equal. lia.
Qed.

(** ** Counting loops and [?] *)
Lemma wp_for {S} (I : nat -> S -> mem -> Prop) n i (body : nat -> S -> M S) s (Q : S -> mem -> Prop) m :
  I i s m ->
  (forall j s m, (i <= j < i + n)%nat -> I j s m -> wp (body j s) (I (Datatypes.S j)) m) ->
  (forall s m, I (i + n)%nat s m -> Q s m) ->
  wp (for_ n i body s) Q m.
Proof.
  revert i s m. induction n as [|n IH]; intros i s m HI Hb HQ; cbn [for_].
  - apply wp_ret, HQ. now rewrite Nat.add_0_r.
  - apply wp_bind. eapply wp_mono; [apply Hb; [lia|exact HI]|]. intros s' m' HI'. apply IH; auto.
    + intros j s0 m1 Hj. apply Hb. lia.
    + intros s0 m1. rewrite Nat.add_succ_r in HQ. apply HQ.
Qed.

Lemma wp_try {A B} (c : M (result A)) (k : A -> M (result B)) Q m :
  wp c (fun r m' => match r with Ok a => wp (k a) Q m' | Err => Q Err m' end) m -> wp (try_ c k) Q m.
Proof.
  intro H. unfold try_. apply wp_bind. eapply wp_mono; [exact H|]. intros [a|] m' H'; [exact H'|now apply wp_ret].
Qed.

Lemma split_at {A} (l : list A) k : (k <= length l)%nat -> exists x r, l = x ++ r /\ length x = k.
Proof. intro H. exists (firstn k l), (skipn k l). rewrite firstn_skipn, firstn_length_le by exact H. auto. Qed.

(** ** Transducers: views of the invariant with the pointers computed from what is left *)
Section TS.
  Context (m0 : mem) (bs so : nat) (total : list Z) (bd d0 cap : nat).
  Definition pp (rest : list Z) : ptr := (bs, so + (length total - length rest))%nat.
  Definition qq (out : list Z) : ptr := (bd, d0 + length out)%nat.
  Definition TS (out rest : list Z) (m : mem) : Prop :=
    (exists consumed, total = consumed ++ rest) /\
    Inv m0 bs bd d0 cap out (so + (length total - length rest)) rest m.

  Lemma TS_suffix out rest m : TS out rest m -> (length rest <= length total)%nat.
  Proof. intros [[c ->] _]. rewrite app_length. lia. Qed.

  Lemma TS_init : bytes_at m0 bs so total -> (d0 + cap <= length (m0 bd))%nat ->
    (bs <> bd \/ so + length total <= d0 \/ d0 <= so)%nat -> TS [] total m0.
  Proof.
    intros H1 H2 H3. split; [now exists []|]. rewrite Nat.sub_diag, Nat.add_0_r. now apply Inv_init.
  Qed.

  Lemma TS_adv out x rest m : TS out (x ++ rest) m -> TS out rest m.
  Proof.
    intros [[c E] I]. split.
    - exists (c ++ x). now rewrite <- app_assoc.
    - apply Inv_advance in I. replace (so + (length total - length rest))%nat
        with (so + (length total - length (x ++ rest)) + length x)%nat; [exact I|].
      rewrite E, !app_length. lia.
  Qed.

  Lemma wp_src_load out x rest m k (Q : list Z -> mem -> Prop) :
    TS out (x ++ rest) m -> length x = k -> Q x m -> wp (load (pp (x ++ rest)) k) Q m.
  Proof.
    intros [_ I] <- HQ. eapply wp_load_exact; [|reflexivity|exact HQ].
    destruct I. apply bytes_at_app in inv_src0 as [H _]. exact H.
  Qed.

  Lemma wp_src_read out x rest m i (Q : Z -> mem -> Prop) :
    TS out (x ++ rest) m -> (i < length x)%nat -> Q (nth i x 0%Z) m -> wp (read (pp (x ++ rest)) i) Q m.
  Proof.
    intros [_ I] Hi HQ. destruct I. apply bytes_at_app in inv_src0 as [H _].
    eapply wp_read; [exact H|exact Hi|exact HQ].
  Qed.

  Lemma src_len out rest m : TS out rest m -> (so + length total <= length (m bs))%nat.
  Proof.
    intros [[c E] I]. destruct I. destruct inv_src0 as [H _]. rewrite E, app_length in *. lia.
  Qed.

  Lemma wp_src_add out x rest m k (Q : ptr -> mem -> Prop) :
    TS out rest m -> length x = k -> Q (pp rest) m -> (length (x ++ rest) <= length total)%nat ->
    wp (padd (pp (x ++ rest)) k) Q m.
  Proof.
    intros T <- HQ L. rewrite app_length in L. pose proof (src_len _ _ _ T) as B. apply wp_padd; unfold pp; cbn [fst snd].
    - rewrite app_length. lia.
    - replace (so + (length total - length (x ++ rest)) + length x)%nat
        with (so + (length total - length rest))%nat; [exact HQ|]. rewrite app_length. lia.
  Qed.

  (** store [ys] at the output position, keeping the first [j] *)
  Lemma wp_dst_store_part out rest m ys j (Q : unit -> mem -> Prop) :
    TS out rest m -> (length out + length ys <= cap)%nat ->
    (bs <> bd \/ so + length total <= d0 \/ d0 + length out + length ys <= so + (length total - length rest))%nat ->
    (j <= length ys)%nat ->
    (forall m', TS (out ++ firstn j ys) rest m' -> Q tt m') ->
    wp (store (qq out) ys) Q m.
  Proof.
    intros [S I] H1 H2 Hj HQ. eapply Inv_store; [exact I|exact H1| |exact Hj|].
    - destruct S as [c ->]. rewrite app_length in *. lia.
    - intros m' I'. apply HQ. split; assumption.
  Qed.

  Lemma wp_dst_store out rest m ys (Q : unit -> mem -> Prop) :
    TS out rest m -> (length out + length ys <= cap)%nat ->
    (bs <> bd \/ so + length total <= d0 \/ d0 + length out + length ys <= so + (length total - length rest))%nat ->
    (forall m', TS (out ++ ys) rest m' -> Q tt m') ->
    wp (store (qq out) ys) Q m.
  Proof.
    intros T H1 H2 HQ. eapply wp_dst_store_part with (j := length ys); eauto. now rewrite firstn_all.
  Qed.

  Lemma dst_len out rest m : TS out rest m -> (d0 + cap <= length (m bd))%nat.
  Proof. intros [_ []]. destruct inv_frame0 as (_ & -> & _). exact inv_cap0. Qed.

  Lemma wp_dst_add out ys rest m k (Q : ptr -> mem -> Prop) :
    TS (out ++ ys) rest m -> length ys = k -> Q (qq (out ++ ys)) m -> wp (padd (qq out) k) Q m.
  Proof.
    intros T <- HQ. pose proof (dst_len _ _ _ T) as L. destruct T as [_ []]. apply wp_padd; unfold qq in *; cbn [fst snd] in *.
    - rewrite app_length in *. lia.
    - rewrite app_length, Nat.add_assoc in HQ. exact HQ.
  Qed.

  (** single-byte write, one past the current output *)
  Lemma wp_dst_write out rest m y (Q : unit -> mem -> Prop) :
    TS out rest m -> (length out + 1 <= cap)%nat ->
    (bs <> bd \/ so + length total <= d0 \/ d0 + length out + 1 <= so + (length total - length rest))%nat ->
    (forall m', TS (out ++ [y]) rest m' -> Q tt m') ->
    wp (write (qq out) 0 y) Q m.
  Proof.
    intros T H1 H2 HQ. unfold write. pose proof (dst_len _ _ _ T) as L.
    apply wp_bind, wp_padd; unfold qq; cbn [fst snd]; [lia|].
    rewrite Nat.add_0_r. now apply (wp_dst_store out rest m [y]).
  Qed.
  Lemma wp_dst_write_at out z rest m i y (Q : unit -> mem -> Prop) :
    TS (out ++ z) rest m -> length z = i -> (length out + i + 1 <= cap)%nat ->
    (bs <> bd \/ so + length total <= d0 \/ d0 + length out + i + 1 <= so + (length total - length rest))%nat ->
    (forall m', TS (out ++ z ++ [y]) rest m' -> Q tt m') ->
    wp (write (qq out) i y) Q m.
  Proof.
    intros T <- H1 H2 HQ. unfold write. pose proof (dst_len _ _ _ T) as L.
    apply wp_bind, wp_padd; unfold qq; cbn [fst snd]; [lia|].
    replace (bd, (d0 + length out + length z)%nat) with (qq (out ++ z)) by (unfold qq; now rewrite app_length, Nat.add_assoc).
    apply (wp_dst_store (out ++ z) rest m [y]); auto.
    - rewrite app_length. cbn [length]. lia.
    - rewrite app_length. cbn [length]. lia.
    - intros m' T'. apply HQ. now rewrite app_assoc.
  Qed.

  Lemma plt_pp a b : (length b <= length a)%nat -> (length a <= length total)%nat ->
    plt (pp a) (pp b) = negb (length a =? length b)%nat.
  Proof.
    intros H1 H2. unfold plt, pp. cbn [snd].
    destruct (Nat.eqb_spec (length a) (length b)); cbn [negb]; [apply Nat.ltb_ge|apply Nat.ltb_lt]; lia.
  Qed.
End TS.
