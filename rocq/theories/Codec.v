(** Statement forms shared by the codecs, and what follows from functional correctness alone. *)
From Coq Require Import ZArith List Bool Lia.
From Verif Require Import Bytes Mem MemFacts Slices.
Import ListNotations.
Open Scope m_scope.

(** With a destination shorter than [n], [f] returns Err and leaves the memory as it was. *)
Definition rejects_short (f : codec) (src : list Z) (n : nat) : Prop :=
  forall m b o d e dlen, slice m b o src -> (dlen < n)%nat -> f (b, o) (length src) (d, e) dlen m = Ret Err m.

(** Memory safety, for every destination length and every outcome: the call returns (no out-of-bounds or
    uninitialised access, no panic), the source is unchanged, only the first [n] cells of the destination may
    change, and on success these are initialised and are what is returned. *)
Definition mem_safe (f : codec) (src : list Z) (n : nat) : Prop :=
  forall m b o d e dlen, slice m b o src -> room m d e dlen -> separate b o (length src) d e dlen ->
  exists r m', f (b, o) (length src) (d, e) dlen m = Ret r m' /\
    slice m' b o src /\ only_changed m d e (Nat.min dlen n) m' /\
    match r with
    | Ok (p, k) => p = (d, e) /\ k = n /\ exists t, length t = k /\ slice m' d e t
    | Err => True
    end.

(** [f] and [g] give the same outcome and the same bytes, whatever the memories (in particular the
    destinations) hold before. *)
Definition agree (f g : codec) (src : list Z) : Prop :=
  forall m1 m2 b o d e dlen r1 r2 m1' m2',
    slice m1 b o src -> slice m2 b o src -> room m1 d e dlen -> room m2 d e dlen ->
    separate b o (length src) d e dlen ->
    f (b, o) (length src) (d, e) dlen m1 = Ret r1 m1' ->
    g (b, o) (length src) (d, e) dlen m2 = Ret r2 m2' ->
    r1 = r2 /\ forall n x, r1 = Ok ((d, e), n) -> length x = n -> bytes_at m1' d e x -> bytes_at m2' d e x.
Definition ignores_old (f : codec) (src : list Z) : Prop := agree f f src.

(** Encoding with [f] and decoding the result with [g] gives [src] back. [n] is the length of the encoded text. *)
Definition roundtrips (f g : codec) (src : list Z) (n : nat) : Prop :=
  forall m b o d1 e1 n1 d2 e2 n2,
    slice m b o src -> room m d1 e1 n1 -> room m d2 e2 n2 ->
    separate b o (length src) d1 e1 n1 -> separate d1 e1 n1 d2 e2 n2 ->
    (n <= n1)%nat -> (length src <= n2)%nat ->
    exists m', (r <- f (b, o) (length src) (d1, e1) n1 ;;
                match r with Ok (p, n) => g p n (d2, e2) n2 | Err => ret Err end) m
               = Ret (Ok ((d2, e2), length src)) m' /\ bytes_at m' d2 e2 src.

Lemma enc_safe f src t : encodes f src t -> rejects_short f src (length t) -> bytes t -> mem_safe f src (length t).
Proof.
  intros HE HS Bt m b o d e dlen H R S. destruct (Nat.le_gt_cases (length t) dlen) as [L|L].
  - destruct (HE m b o d e dlen H R S L) as (m' & E & A & F). exists (Ok (d, e, length t)), m'.
    split; [exact E|]. split; [|split].
    + eapply only_changed_src; eauto.
    + now rewrite Nat.min_r.
    + split; [reflexivity|]. split; [reflexivity|]. exists t. split; [reflexivity|]. now split.
  - rewrite HS by auto. exists Err, m. split; [reflexivity|]. split; [exact H|]. split; [apply Frame_refl|exact I].
Qed.

Lemma dec_safe f src n spec : decodes f src n spec -> rejects_short f src n ->
  (forall x, spec = Some x -> bytes src -> length x = n /\ bytes x) -> mem_safe f src n.
Proof.
  intros HE HS Hx m b o d e dlen H R S. destruct (Nat.le_gt_cases n dlen) as [L|L].
  - destruct (HE m b o d e dlen H R S L) as (r & m' & E & F & P). exists r, m'.
    split; [exact E|]. split; [|split].
    + eapply only_changed_src; eauto.
    + now rewrite Nat.min_r.
    + destruct spec as [x|]; [|now subst]. destruct P as [-> A]. destruct (Hx x eq_refl (proj1 H)) as [<- Bx].
      split; [reflexivity|]. split; [reflexivity|]. exists x. split; [reflexivity|]. now split.
  - rewrite HS by auto. exists Err, m. split; [reflexivity|]. split; [exact H|]. split; [apply Frame_refl|exact I].
Qed.

Lemma enc_agree f g src t : encodes f src t -> rejects_short f src (length t) ->
  encodes g src t -> rejects_short g src (length t) -> agree f g src.
Proof.
  intros HE HS HE' HS' m1 m2 b o d e dlen r1 r2 m1' m2' H1 H2 R1 R2 S E1 E2.
  destruct (Nat.le_gt_cases (length t) dlen) as [L|L].
  - destruct (HE m1 b o d e dlen H1 R1 S L) as (m & E & P & F).
    destruct (HE' m2 b o d e dlen H2 R2 S L) as (m' & E' & P' & F').
    rewrite E in E1. rewrite E' in E2. injection E1 as <- <-. injection E2 as <- <-.
    split; [reflexivity|]. intros n x En Ex A. injection En as <-. now rewrite (bytes_at_inj _ _ _ _ _ A P).
  - rewrite HS in E1 by auto. rewrite HS' in E2 by auto. injection E1 as <- <-. injection E2 as <- <-. split; [reflexivity|discriminate].
Qed.
Lemma dec_agree f g src n spec : decodes f src n spec -> rejects_short f src n ->
  decodes g src n spec -> rejects_short g src n -> agree f g src.
Proof.
  intros HE HS HE' HS' m1 m2 b o d e dlen r1 r2 m1' m2' H1 H2 R1 R2 S E1 E2.
  destruct (Nat.le_gt_cases n dlen) as [L|L].
  - destruct (HE m1 b o d e dlen H1 R1 S L) as (r & m & E & F & P).
    destruct (HE' m2 b o d e dlen H2 R2 S L) as (r' & m' & E' & F' & P').
    rewrite E in E1. rewrite E' in E2. injection E1 as -> ->. injection E2 as -> ->.
    destruct spec as [y|].
    + destruct P as [-> P], P' as [-> P']. split; [reflexivity|]. intros k x En Ex A. injection En as <-.
      now rewrite (bytes_at_inj _ _ _ _ _ A P).
    + subst. split; [reflexivity|]. discriminate.
  - rewrite HS in E1 by auto. rewrite HS' in E2 by auto. injection E1 as <- <-. injection E2 as <- <-. split; [reflexivity|discriminate].
Qed.
Lemma enc_old f src t : encodes f src t -> rejects_short f src (length t) -> ignores_old f src.
Proof. intros H S. now apply (enc_agree f f src t). Qed.
Lemma dec_old f src n spec : decodes f src n spec -> rejects_short f src n -> ignores_old f src.
Proof. intros H S. now apply (dec_agree f f src n spec). Qed.

Lemma roundtrip f g src t : encodes f src t -> decodes g t (length src) (Some src) -> (bytes src -> bytes t) ->
  roundtrips f g src (length t).
Proof.
  intros HE HD Bt m b o d1 e1 n1 d2 e2 n2 H R1 R2 S1 S2 L1 L2.
  destruct (HE m b o d1 e1 n1 H R1 S1 L1) as (m1 & E1 & A1 & F1). unfold bind. rewrite E1.
  assert (H1 : slice m1 d1 e1 t) by (split; [apply Bt, H|exact A1]).
  destruct (HD m1 d1 e1 d2 e2 n2 H1) as (r & m2 & E2 & F2 & P2).
  - unfold room in *. destruct F1 as (F1 & F1' & _). destruct (Nat.eq_dec d2 d1) as [->|N]; [lia|now rewrite F1].
  - unfold separate in *. lia.
  - exact L2.
  - rewrite E2. destruct P2 as [-> P2]. eauto.
Qed.

(** what a decoder computes is unique *)
Lemma decodes_det f src n n' spec spec' : bytes src -> decodes f src n spec -> decodes f src n' spec' -> spec = spec'.
Proof.
  intros B H1 H2. set (N := (n + n')%nat). set (m := mem_of [cells src; uninit N]).
  assert (S : slice m 0 0 src) by (now apply slice_whole).
  assert (R : room m 1 0 N) by (unfold room, m, mem_of, uninit; cbn; rewrite repeat_length; lia).
  destruct (H1 m 0%nat 0%nat 1%nat 0%nat N S R) as (r & m1 & E1 & P1); [left; discriminate|lia|].
  destruct (H2 m 0%nat 0%nat 1%nat 0%nat N S R) as (r2 & m2 & E2 & P2); [left; discriminate|lia|].
  rewrite E1 in E2. injection E2 as <- <-. destruct spec as [x|].
  - symmetry. apply (decoded_iff _ _ _ _ _ _ _ x P2). now apply (decoded_iff _ _ _ _ _ _ _ x P1).
  - symmetry. apply (decoded_err _ _ _ _ _ _ _ P2). now apply (decoded_err _ _ _ _ _ _ _ P1).
Qed.

(** an exact decoder: [spec] described by a relation *)
Definition exactly (spec : option (list Z)) (P : list Z -> Prop) : Prop := forall x, spec = Some x <-> P x.
Definition decode_exact (f : codec) (src : list Z) (n : nat) (P : list Z -> Prop) : Prop :=
  forall m b o d e dlen, slice m b o src -> room m d e dlen -> separate b o (length src) d e dlen -> (n <= dlen)%nat ->
    exists r m', f (b, o) (length src) (d, e) dlen m = Ret r m' /\
      (forall x, r = Ok ((d, e), length x) /\ bytes_at m' d e x <-> P x) /\
      (r = Err <-> forall x, ~ P x).
Lemma exact_decode f src n spec P : decodes f src n spec -> (bytes src -> exactly spec P) -> decode_exact f src n P.
Proof.
  intros HD HP m b o d e dlen H R S L. destruct (HD m b o d e dlen H R S L) as (r & m' & E & D).
  specialize (HP (proj1 H)). exists r, m'. split; [exact E|]. split.
  - intro x. rewrite (decoded_iff _ _ _ _ _ _ _ x D). apply HP.
  - rewrite (decoded_err _ _ _ _ _ _ _ D). split.
    + intros -> x Px. apply HP in Px. discriminate.
    + intro N. destruct spec as [x|]; [|reflexivity]. elim (N x). now apply HP.
Qed.

(** The strongest form, which mentions no length computed by the code: for every destination length, the result is Ok
    with bytes [x] exactly if [P x] and [x] fits, and Err exactly if there is no such [x]. *)
Definition decodes_exactly (f : codec) (src : list Z) (P : list Z -> Prop) : Prop :=
  forall m b o d e dlen, slice m b o src -> room m d e dlen -> separate b o (length src) d e dlen ->
    exists r m', f (b, o) (length src) (d, e) dlen m = Ret r m' /\
      (forall x, r = Ok ((d, e), length x) /\ bytes_at m' d e x <-> P x /\ (length x <= dlen)%nat) /\
      (r = Err <-> forall x, P x -> (dlen < length x)%nat).
Lemma exactly_decodes f src n spec P : decodes f src n spec -> rejects_short f src n -> (bytes src -> exactly spec P) ->
  (bytes src -> forall x, spec = Some x -> length x = n) -> decodes_exactly f src P.
Proof.
  intros HD HS HP HN m b o d e dlen H R S. specialize (HP (proj1 H)). specialize (HN (proj1 H)).
  destruct (Nat.le_gt_cases n dlen) as [L|L].
  - destruct (HD m b o d e dlen H R S L) as (r & m' & E & D). exists r, m'. split; [exact E|]. split.
    + intro x. rewrite (decoded_iff _ _ _ _ _ _ _ x D). split.
      * intro Hx. split; [now apply HP|]. rewrite (HN x Hx). exact L.
      * intros [Px _]. now apply HP.
    + rewrite (decoded_err _ _ _ _ _ _ _ D). split.
      * intros -> x Px. apply HP in Px. discriminate.
      * intro N. destruct spec as [x|]; [|reflexivity]. specialize (N x). rewrite (HN x eq_refl) in N. elim (Nat.lt_irrefl dlen).
        apply Nat.lt_le_trans with n; [apply N; now apply HP|exact L].
  - rewrite (HS m b o d e dlen H L). exists Err, m. split; [reflexivity|]. split.
    + intro x. split; [intros [E _]; discriminate E|]. intros [Px Lx]. apply HP, HN in Px. lia.
    + split; [|reflexivity]. intros _ x Px. apply HP, HN in Px. lia.
Qed.
(** in place: the first bytes of the data are replaced *)
Definition inplace_exactly (f : ptr -> nat -> M (result (ptr * nat))) (data : list Z) (P : list Z -> Prop) : Prop :=
  forall m b o, slice m b o data ->
    exists r m', f (b, o) (length data) m = Ret r m' /\
      (forall x, r = Ok ((b, o), length x) /\ bytes_at m' b o x <-> P x) /\
      (r = Err <-> forall x, ~ P x) /\
      only_changed m b o (length data) m' /\
      (forall x, P x -> only_changed m b o (length x) m').
Lemma exactly_inplace f data n spec P : decodes_inplace f data n spec -> (bytes data -> exactly spec P) -> (n <= length data)%nat ->
  (bytes data -> forall x, spec = Some x -> length x = n) -> inplace_exactly f data P.
Proof.
  intros HD HP L HN m b o H. destruct (HD m b o H) as (r & m' & E & D). specialize (HP (proj1 H)). specialize (HN (proj1 H)).
  exists r, m'. split; [exact E|]. split; [|split; [|split]].
  - intro x. rewrite (decoded_iff _ _ _ _ _ _ _ x D). apply HP.
  - rewrite (decoded_err _ _ _ _ _ _ _ D). split.
    + intros -> x Px. apply HP in Px. discriminate.
    + intro N. destruct spec as [x|]; [|reflexivity]. elim (N x). now apply HP.
  - eapply Frame_weaken; [exact (proj1 D)|lia].
  - intros x Px. apply HP, HN in Px. rewrite Px. apply D.
Qed.
