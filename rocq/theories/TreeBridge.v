(** From the steps of a call to [tree_into], [tree_inplace] and [tree_check] *)
From Coq Require Import ZArith List Bool Lia ZifyBool ZifyNat.
From Verif Require Import Bytes Mem MemFacts Slices Codec Conc ConcFacts Reify ConcApi ConcApiFacts Borrows BorrowsApi BorrowsFacts BorrowsBridge
  TreeBorrows TreeFacts TreeCalls.
Import ListNotations.
Open Scope nat_scope. Open Scope m_scope. Open Scope borrow_scope.

Lemma may_read_iff s p n t : tree_may_read s p n t <-> readable s p n t.
Proof.
  split.
  - intros H b o Hb. apply in_range_iff in Hb as [-> Hb]. apply read_acc_rd. replace o with (snd p + (o - snd p)) by lia. apply H. lia.
  - intros H i Hi. apply rd_read_acc, H. apply in_range_iff. lia.
Qed.
Lemma may_write_iff s p n t : tree_may_write s p n t <-> writes s p n t.
Proof.
  split.
  - intros H b o Hb. apply in_range_iff in Hb as [-> Hb]. apply write_acc_wr. replace o with (snd p + (o - snd p)) by lia. apply H. lia.
  - intros H i Hi. apply wr_write_acc, H. apply in_range_iff. lia.
Qed.
Lemma returned_iff s s' sl u (H : ptr -> nat -> Prop) : match sl with Some (q, k) => tfresh s <= u < tfresh s' /\ writes s' q k u /\ H q k | None => True end -> tree_returned s s' sl u.
Proof. destruct sl as [[q k]|]; cbn; [|auto]. now rewrite may_write_iff. Qed.

(** ** Into *)
Definition good_into_on {A} (ret : A -> option (ptr * nat)) (x : ptr -> nat -> ptr -> nat -> nat -> nat -> bcode (A * nat)) (src : list Z) (k : nat) : Prop :=
  forall (F : nat -> nat -> Prop) p q ts td (Q : A * nat -> trees -> mem -> Prop) s mm, fst p <> fst q -> slice mm (fst p) (snd p) src -> room mm (fst q) (snd q) k ->
    (forall b o, F b o -> cells_of p (length src) b o \/ cells_of q k b o) -> (forall b o, init mm b o -> cells_of p (length src) b o) ->
    tree_ok s -> td < tfresh s /\ apart p (length src) q k -> can_read s p (length src) ts -> writes s q k td ->
    (forall r u s' mm', into_post s s' p (length src) q k td (ret r) u -> Q (r, u) s' mm') -> tgood F (x p (length src) q k ts td) Q s mm.
Definition good_into {A} (ret : A -> option (ptr * nat)) (x : ptr -> nat -> ptr -> nat -> nat -> nat -> bcode (A * nat)) (n k : nat) : Prop :=
  forall (F : nat -> nat -> Prop) p q ts td (Q : A * nat -> trees -> mem -> Prop) s mm, fst p <> fst q ->
    (forall b o, F b o -> cells_of p n b o \/ cells_of q k b o) -> (forall b o, init mm b o -> cells_of p n b o) ->
    tree_ok s -> td < tfresh s /\ apart p n q k -> can_read s p n ts -> writes s q k td ->
    (forall r u s' mm', into_post s s' p n q k td (ret r) u -> Q (r, u) s' mm') -> tgood F (x p n q k ts td) Q s mm.
Lemma tree_into_on {A} (ret : A -> option (ptr * nat)) x f src dlen :
  (forall p q ts td, annotates fst (x p (length src) q dlen ts td) (f p (length src) q dlen)) -> (bytes src -> settles f src dlen) ->
  good_into_on ret x src dlen -> tree_into ret x f src dlen.
Proof.
  intros HA HS HG m s b o d e ts td S R N OK LS LD MR MW. set (n := length src) in *. set (mm := only (b, o) n m).
  destruct (HS (proj1 S) mm b o d e (only_slice _ _ _ _ S) (only_room _ _ _ _ _ _ R) (or_introl N)) as (r & mmf & E & FR).
  set (F := fun b' o' => cells_of (b, o) n b' o' \/ cells_of (d, e) dlen b' o').
  destruct (tgood_runs F fst (x (b, o) n (d, e) dlen ts td) (fun a s' _ => into_post s s' (b, o) n (d, e) dlen td (ret (fst a)) (snd a))) with
    (c := f (b, o) n (d, e) dlen) (s := s) (m := m) (mm := mm) (r := r) (mmf := mmf) as ([r' u] & s' & m' & RU & Er & P & _).
  - apply HA.
  - exact E.
  - intros b' o' Hi. destruct (frame_init _ _ _ _ _ _ _ FR Hi) as [Hi'|Hi']; [left; exact (only_init _ _ _ _ _ Hi')|now right].
  - apply only_less.
  - apply HG; auto.
    + exact (only_slice _ _ _ _ S).
    + exact (only_room _ _ _ _ _ _ R).
    + intros b' o' Hi. exact (only_init _ _ _ _ _ Hi).
    + split; [exact LD|]. now apply apart_blocks.
    + split; [exact LS|]. now apply may_read_iff.
    + now apply may_write_iff.
  - cbn [fst snd] in *. subst r'. exists r, u, s', m'. split; [exact RU|]. split; [exact (tree_runs_code fst _ _ _ _ _ _ RU _ (HA _ _ _ _))|].
    destruct P as (P1 & P2 & P3 & P4 & P5 & P6 & P7). split; [|split; [exact (returned_iff _ _ _ _ _ P7)|split]].
    + split; [exact P1|]. split; [apply P2|]. split; [exact P3|]. split; [apply P2|exact (proj1 P4)].
    + intros t Lt Rt. apply may_read_iff, P5; [exact Lt|]. now apply may_read_iff.
    + now apply may_write_iff.
Qed.
Lemma tree_into_of {A} (ret : A -> option (ptr * nat)) x f src dlen :
  (forall p q ts td, annotates fst (x p (length src) q dlen ts td) (f p (length src) q dlen)) -> (bytes src -> settles f src dlen) ->
  good_into ret x (length src) dlen -> tree_into ret x f src dlen.
Proof. intros HA HS HG. apply tree_into_on; [exact HA|exact HS|]. intros F p q ts td Q s mm N _ _ HF HI W LT RI OT H. now apply HG. Qed.

(** ** In place *)
Definition good_inplace_on {A} (ret : A -> option (ptr * nat)) (x : ptr -> nat -> nat -> bcode (A * nat)) (data : list Z) : Prop :=
  forall (F : nat -> nat -> Prop) p t (Q : A * nat -> trees -> mem -> Prop) s mm, slice mm (fst p) (snd p) data ->
    (forall b o, F b o -> cells_of p (length data) b o) -> (forall b o, init mm b o -> cells_of p (length data) b o) -> tree_ok s ->
    t < tfresh s /\ writes s p (length data) t ->
    (forall r u s' mm', inplace_post s s' p (length data) t (ret r) u -> Q (r, u) s' mm') -> tgood F (x p (length data) t) Q s mm.
Definition good_inplace {A} (ret : A -> option (ptr * nat)) (x : ptr -> nat -> nat -> bcode (A * nat)) (n : nat) : Prop :=
  forall (F : nat -> nat -> Prop) p t (Q : A * nat -> trees -> mem -> Prop) s mm,
    (forall b o, F b o -> cells_of p n b o) -> (forall b o, init mm b o -> cells_of p n b o) -> tree_ok s -> t < tfresh s /\ writes s p n t ->
    (forall r u s' mm', inplace_post s s' p n t (ret r) u -> Q (r, u) s' mm') -> tgood F (x p n t) Q s mm.
Lemma tree_inplace_on {A} (ret : A -> option (ptr * nat)) x f data :
  (forall p t, annotates fst (x p (length data) t) (f p (length data))) -> (bytes data -> settles_inplace f data) ->
  good_inplace_on ret x data -> tree_inplace ret x f data.
Proof.
  intros HA HS HG m s b o t S OK LT MW. set (n := length data) in *. set (mm := only (b, o) n m).
  destruct (HS (proj1 S) mm b o (only_slice _ _ _ _ S)) as (r & mmf & E & FR).
  destruct (tgood_runs (fun b' o' => cells_of (b, o) n b' o') fst (x (b, o) n t) (fun a s' _ => inplace_post s s' (b, o) n t (ret (fst a)) (snd a))) with
    (c := f (b, o) n) (s := s) (m := m) (mm := mm) (r := r) (mmf := mmf) as ([r' u] & s' & m' & RU & Er & P & _).
  - apply HA.
  - exact E.
  - intros b' o' Hi. destruct (frame_init _ _ _ _ _ _ _ FR Hi) as [Hi'|Hi']; [exact (only_init _ _ _ _ _ Hi')|exact Hi'].
  - apply only_less.
  - apply HG; auto.
    + exact (only_slice _ _ _ _ S).
    + intros b' o' Hi. exact (only_init _ _ _ _ _ Hi).
    + split; [exact LT|]. now apply may_write_iff.
  - cbn [fst snd] in *. subst r'. exists r, u, s', m'. split; [exact RU|]. split; [exact (tree_runs_code fst _ _ _ _ _ _ RU _ (HA _ _))|].
    destruct P as (P1 & P2 & P3 & P4 & P5 & P6). split; [|split; [exact (returned_iff _ _ _ _ (fun q k => In t (path s' u) /\ forall b' o', cells_of q k b' o' -> cells_of (b, o) n b' o') P6)|now apply may_write_iff]].
    split; [exact P1|]. split; [apply P2|]. split; [exact P3|]. split; [apply P2|]. intros b' o' H _. now apply P4.
Qed.
Lemma tree_inplace_of {A} (ret : A -> option (ptr * nat)) x f data :
  (forall p t, annotates fst (x p (length data) t) (f p (length data))) -> (bytes data -> settles_inplace f data) ->
  good_inplace ret x (length data) -> tree_inplace ret x f data.
Proof. intros HA HS HG. apply tree_inplace_on; [exact HA|exact HS|]. intros F p t Q s mm _ HF HI W WI H. now apply HG. Qed.

(** ** Checks *)
Definition good_check {A} (x : ptr -> nat -> nat -> bcode A) (n : nat) : Prop :=
  forall (F : nat -> nat -> Prop) p t (Q : A -> trees -> mem -> Prop) s mm, (forall b o, init mm b o -> cells_of p n b o) ->
    tree_ok s -> t < tfresh s /\ apart p n p 0 -> can_read s p n t -> writes s p 0 t ->
    (forall r s', into_post s s' p n p 0 t None 0 -> Q r s' mm) -> tgood F (x p n t) Q s mm.
Lemma tree_check_of {A} (x : ptr -> nat -> nat -> bcode A) f src :
  (forall p t, annotates (fun a => a) (x p (length src) t) (f p (length src))) ->
  (bytes src -> forall m b o, slice m b o src -> exists r m', f (b, o) (length src) m = Ret r m' /\ same_mem m m') ->
  good_check x (length src) -> tree_check x f src.
Proof.
  intros HA HS HG m s b o t S OK LT MR. set (n := length src) in *. set (mm := only (b, o) n m).
  destruct (HS (proj1 S) mm b o (only_slice _ _ _ _ S)) as (r & mmf & E & SM).
  destruct (tgood_runs (fun b' o' => cells_of (b, o) n b' o') (fun a => a) (x (b, o) n t) (fun _ s' _ => into_post s s' (b, o) n (b, o) 0 t None 0)) with
    (c := f (b, o) n) (s := s) (m := m) (mm := mm) (r := r) (mmf := mmf) as (r' & s' & m' & RU & Er & P & _).
  - apply HA.
  - exact E.
  - intros b' o' [z Hi]. rewrite SM in Hi. apply (only_init (b, o) n m). now exists z.
  - apply only_less.
  - apply HG; auto.
    + intros b' o' Hi. exact (only_init _ _ _ _ _ Hi).
    + split; [exact LT|apply apart_none].
    + split; [exact LT|]. now apply may_read_iff.
    + intros b' o' H. apply in_range_iff in H. lia.
  - subst r'. exists r, s', m'. split; [exact RU|]. split; [exact (tree_runs_code (fun a => a) _ _ _ _ _ _ RU _ (HA _ _))|].
    destruct P as (P1 & P2 & P3 & P4 & P5 & _). split.
    + split; [exact P1|]. split; [apply P2|]. split; [exact P3|]. split; [apply P2|]. intros b' o' H1 _. apply (proj1 P4); [exact H1|]. unfold in_range. lia.
    + intros u Lu Ru. apply may_read_iff, P5; [exact Lu|]. now apply may_read_iff.
Qed.

Ltac iro := match goal with
  | |- tgood _ (bbind (slice_len _ _ _) _) _ _ _ => eapply into_ro; [apply ro_len|eassumption|assumption|eassumption|assumption|]
  | |- tgood _ (bbind (slice_parts _ _ _) _) _ _ _ => eapply into_ro; [apply ro_slice_parts|eassumption|assumption|eassumption|assumption|]
  | |- tgood _ (bbind (as_ptr _ _ _) _) _ _ _ => eapply into_ro; [apply ro_as_ptr|eassumption|assumption|eassumption|assumption|]
  end; intros ? ? ? ? ? ? ?.
(** [&*data] and then a method that only reads *)
Ltac pro := match goal with
  | I : own_inv _ _ _ _ ?g ?s |- tgood _ (bbind (reborrow _ _ ?g) _) _ ?s _ =>
      eapply inplace_ro; [apply ro_reborrow|exact I|exact (own_readable _ _ _ _ _ _ I)|exact (own_fresh _ _ _ _ _ _ I)|]
  | |- tgood _ (bbind (slice_len _ _ _) _) _ _ _ => eapply inplace_ro; [apply ro_len|eassumption|eassumption|assumption|]
  end; intros ? ? ? ? ? ? ?.
