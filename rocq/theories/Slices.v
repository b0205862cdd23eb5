(** Vocabulary for stating API theorems: slices, destination buffers, separation, frames.

    A theorem that says [f ... m = Ret r m'] for all memories [m] with the source slice and the
    destination range in bounds includes memories in which the slices are the whole blocks (any read or
    write one byte outside would be [UB]) and in which everything else is uninitialised. *)
From Coq Require Import ZArith List Bool Lia.
From Verif Require Import Bytes Mem MemFacts.
Import ListNotations.

(** [&[u8]]: block [b] holds the bytes [l] at offset [o]. *)
Definition slice (m : mem) (b o : nat) (l : list Z) : Prop := bytes l /\ bytes_at m b o l.
(** [Out<[u8]>]: [n] cells, possibly uninitialised. *)
Definition room (m : mem) (b o n : nat) : Prop := (o + n <= length (m b))%nat.
(** Two ranges do not overlap. *)
Definition separate (b o n d e k : nat) : Prop := (b <> d \/ o + n <= e \/ e + k <= o)%nat.
(** Cells outside [e, e+n) of block [d] are unchanged. *)
Definition only_changed (m : mem) (d e n : nat) (m' : mem) : Prop := Frame m d e n m'.
(** No cell changed. *)
Definition same_mem (m m' : mem) : Prop := forall b, m' b = m b.

Lemma same_only m m' d e n : same_mem m m' -> only_changed m d e n m'.
Proof. intro H. split; [|split]; intros; now rewrite H. Qed.
Lemma only_changed_src m b o l d e n m' k : slice m b o l -> separate b o (length l) d e k -> (n <= k)%nat ->
  only_changed m d e n m' -> slice m' b o l.
Proof.
  intros [B H] S L F. split; [exact B|]. eapply Frame_bytes_at; [exact F|exact H|]. unfold separate in S. lia.
Qed.

(** A public encoding function with signature [f(src: &[u8], dst: Out<[u8]>) -> Result<&mut [u8], Error>]. *)
Definition codec := ptr -> nat -> ptr -> nat -> M (result (ptr * nat)).

(** [f] maps [src] to [t]: for every memory holding [src], and every destination of at least the
    length of [t] that does not overlap [src], [f] returns Ok of the first bytes of the destination, which
    then hold [t]; nothing else changes. *)
Definition encodes (f : codec) (src t : list Z) : Prop :=
  forall m b o d e dlen, slice m b o src -> room m d e dlen -> separate b o (length src) d e dlen ->
    (length t <= dlen)%nat ->
    exists m', f (b, o) (length src) (d, e) dlen m = Ret (Ok ((d, e), length t)) m' /\
      bytes_at m' d e t /\ only_changed m d e (length t) m'.

(** Outcome of a decoder that owns [n] cells at ([d], [e]): the decoded bytes, or Err. *)
Definition decoded (spec : option (list Z)) (m : mem) (d e n : nat) (r : result (ptr * nat)) (m' : mem) : Prop :=
  only_changed m d e n m' /\
  match spec with
  | Some x => r = Ok ((d, e), length x) /\ bytes_at m' d e x
  | None => r = Err
  end.
(** [f] decodes [src] as [spec] says, given a destination of at least [n] cells, and touches only the first [n]. *)
Definition decodes (f : codec) (src : list Z) (n : nat) (spec : option (list Z)) : Prop :=
  forall m b o d e dlen, slice m b o src -> room m d e dlen -> separate b o (length src) d e dlen ->
    (n <= dlen)%nat ->
    exists r m', f (b, o) (length src) (d, e) dlen m = Ret r m' /\ decoded spec m d e n r m'.
(** The same for an in-place function: only the first [n] cells of the data change. *)
Definition decodes_inplace (f : ptr -> nat -> M (result (ptr * nat))) (data : list Z) (n : nat) (spec : option (list Z)) : Prop :=
  forall m b o, slice m b o data -> exists r m', f (b, o) (length data) m = Ret r m' /\ decoded spec m b o n r m'.
(** [check] functions: outcome [ok], memory unchanged. *)
Definition checks (f : ptr -> nat -> M (result unit)) (src : list Z) (ok : bool) : Prop :=
  forall m b o, slice m b o src ->
    exists m', f (b, o) (length src) m = Ret (if ok then Ok tt else Err) m' /\ same_mem m m'.

(** ** Concrete memories *)
Definition mem_of (blocks : list (list cell)) : mem := fun b => nth b blocks [].
Definition cells (l : list Z) : list cell := map Some l.
Definition uninit (n : nat) : list cell := repeat None n.

Lemma slice_whole blocks b l : bytes l -> nth b blocks [] = cells l -> slice (mem_of blocks) b 0 l.
Proof.
  intros B H. split; [exact B|]. unfold bytes_at, mem_of. rewrite H. unfold cells. rewrite map_length, skipn_O. split; [lia|].
  rewrite <- (map_length Some l). apply firstn_all.
Qed.
Lemma bytes_at_inj m b o x y : bytes_at m b o x -> bytes_at m b o y -> length x = length y -> x = y.
Proof.
  intros [_ Hx] [_ Hy] L. rewrite L, Hy in Hx. clear - Hx. revert y Hx.
  induction x as [|a x IH]; intros [|c y] H; try discriminate H; [reflexivity|]. injection H as -> H. f_equal. auto.
Qed.
Lemma encodes_fun f g src t t' : bytes src -> (forall p n d k, f p n d k = g p n d k) ->
  encodes f src t -> encodes g src t' -> t = t'.
Proof.
  intros B Hfg H1 H2. set (N := (length t + length t')%nat).
  set (m := mem_of [cells src; uninit N]).
  assert (S : slice m 0 0 src) by (now apply slice_whole).
  assert (R : room m 1 0 N) by (unfold room, m, mem_of, uninit; cbn; rewrite repeat_length; lia).
  destruct (H1 m 0%nat 0%nat 1%nat 0%nat N) as (m1 & E1 & A1 & _); auto; [left; discriminate|lia|].
  destruct (H2 m 0%nat 0%nat 1%nat 0%nat N) as (m2 & E2 & A2 & _); auto; [left; discriminate|lia|].
  rewrite Hfg, E2 in E1. injection E1 as L ->. eapply bytes_at_inj; eauto.
Qed.
Lemma encodes_det f src t t' : bytes src -> encodes f src t -> encodes f src t' -> t = t'.
Proof. intros B. now apply encodes_fun. Qed.

Lemma decoded_iff spec m d e n r m' x : decoded spec m d e n r m' ->
  (r = Ok ((d, e), length x) /\ bytes_at m' d e x) <-> spec = Some x.
Proof.
  intros [_ H]. destruct spec as [y|].
  - destruct H as [-> H]. split.
    + intros [E A]. f_equal. eapply bytes_at_inj; [exact H|exact A|]. now injection E.
    + injection 1 as <-. auto.
  - subst r. split; [intros [E _]; discriminate E|discriminate].
Qed.
Lemma decoded_err spec m d e n r m' : decoded spec m d e n r m' -> r = Err <-> spec = None.
Proof. intros [_ H]. destruct spec as [y|]; [|tauto]. destruct H as [-> _]. split; discriminate. Qed.
