(** Facts about the public functions of hex-simd, used by PropHex.v. *)
From Coq Require Import ZArith List Bool Lia ZifyNat ZifyBool.
From Verif Require Import Bytes Mem MemFacts Loops Slices Isa Simd SimdFacts Spec Hex HexSimdFacts HexFacts.
Import ListNotations.
Open Scope Z_scope.
Open Scope m_scope.
Ltac Zify.zify_post_hook ::= Z.div_mod_to_equations.

(** ** Specification-level facts *)
Lemma hex_digit_iff c v : byte c ->
  hex_digit c = Some v <-> 0 <= v < 16 /\ ascii_lower c = nth (Z.to_nat v) hex_lower 0.
Proof.
  intro Hc. split.
  - intro H. pattern v. revert v H.
    assert (S : forallb (fun c => match hex_digit c with
        | Some v => (0 <=? v) && (v <? 16) && (ascii_lower c =? nth (Z.to_nat v) hex_lower 0) | None => true end) (range 256) = true)
      by (vm_compute; reflexivity).
    intros v H. assert (P := byte_sweep _ S c Hc). cbn beta in P. rewrite H in P. cbn iota in P. apply andb_true_iff in P as [P P3]. apply Z.eqb_eq in P3. split; [lia|exact P3].
  - intros [Hv H].
    assert (S : forallb (fun c => forallb (fun v => negb (ascii_lower c =? nth (Z.to_nat v) hex_lower 0) ||
        match hex_digit c with Some w => w =? v | None => false end) (range 16)) (range 256) = true)
      by (vm_compute; reflexivity).
    assert (P := byte_sweep _ S c Hc). cbn beta in P. rewrite forallb_forall in P.
    assert (Q : In v (range 16)) by (apply in_range; lia). apply P in Q.
    apply Z.eqb_eq in H. rewrite H in Q. cbn [negb orb] in Q. destruct (hex_digit c); [|discriminate Q].
    apply Z.eqb_eq in Q. now subst.
Qed.

Lemma list_ind_pairs (P : list Z -> Prop) : P [] -> (forall a, P [a]) -> (forall a b r, P r -> P (a :: b :: r)) -> forall l, P l.
Proof.
  intros H0 H1 H2 l. enough (P l /\ forall a, P (a :: l)) by easy.
  induction l as [|x l [IH1 IH2]]; split; auto.
Qed.

(** Decoding is exact: the accepted strings are those whose lower-cased form is an encoding. *)
Lemma hex_decode_iff s d : bytes s ->
  rfc_hex_decode s = Some d <-> bytes d /\ map ascii_lower s = rfc_hex_encode hex_lower d.
Proof.
  revert d. pattern s. apply list_ind_pairs; clear s.
  - intros d _. cbn. split.
    + injection 1 as <-. split; [constructor|reflexivity].
    + intros [_ H]. destruct d; [reflexivity|discriminate H].
  - intros a d _. cbn. split; [discriminate|]. intros [_ H]. now destruct d.
  - intros a b r IH d B. inversion_clear B as [|? ? Ha B']. inversion_clear B' as [|? ? Hb Br].
    cbn [rfc_hex_decode map]. split.
    + destruct (hex_digit a) as [x|] eqn:Ea; [|discriminate].
      destruct (hex_digit b) as [y|] eqn:Eb; [|discriminate].
      destruct (rfc_hex_decode r) as [q|] eqn:Er; [|discriminate].
      intro HS. assert (d = 16 * x + y :: q) as -> by congruence. clear HS. apply hex_digit_iff in Ea as [Hx Ea]; auto. apply hex_digit_iff in Eb as [Hy Eb]; auto.
      destruct (proj1 (IH q Br) eq_refl) as [Bq E3]. split.
      * constructor; [unfold byte; lia|exact Bq].
      * cbn [rfc_hex_encode flat_map app]. rewrite Ea, Eb, E3.
        replace ((16 * x + y) / 16) with x by lia. replace ((16 * x + y) mod 16) with y by lia. reflexivity.
    + intros [Bd H]. destruct d as [|z q]; [discriminate H|]. inversion_clear Bd as [|? ? Hz Bq].
      cbn [rfc_hex_encode flat_map app] in H. injection H as E1 E2 E3.
      unfold byte in Hz.
      assert (hex_digit a = Some (z / 16)) as -> by (apply hex_digit_iff; auto; split; [lia|exact E1]).
      assert (hex_digit b = Some (z mod 16)) as -> by (apply hex_digit_iff; auto; split; [lia|exact E2]).
      assert (rfc_hex_decode r = Some q) as -> by (apply IH; auto). do 2 f_equal. lia.
Qed.

Lemma hex_encode_bytes c l : bytes l -> bytes (rfc_hex_encode (lut_of c) l).
Proof.
  intro B. induction B as [|x l Hx B IH]; [constructor|]. cbn [rfc_hex_encode flat_map app].
  assert (N : forall i, 0 <= i < 16 -> byte (nth (Z.to_nat i) (lut_of c) 0)).
  { intros i Hi. assert (S : forallb (fun i => byteb (nth (Z.to_nat i) (lut_of c) 0)) (range 16) = true)
      by (destruct c; vm_compute; reflexivity). rewrite forallb_forall in S. apply byteb_byte, S, in_range. lia. }
  unfold byte in Hx. constructor; [apply N; lia|]. constructor; [apply N; lia|exact IH].
Qed.

Lemma hex_encode_ascii c l : bytes l -> Forall ascii_char (rfc_hex_encode (lut_of c) l).
Proof.
  intro B. induction B as [|x l Hx B IH]; [constructor|]. cbn [rfc_hex_encode flat_map app].
  assert (N : forall i, 0 <= i < 16 -> ascii_char (nth (Z.to_nat i) (lut_of c) 0)).
  { intros i Hi. assert (S : forallb (fun i => (0 <=? nth (Z.to_nat i) (lut_of c) 0) && (nth (Z.to_nat i) (lut_of c) 0 <? 128)) (range 16) = true)
      by (destruct c; vm_compute; reflexivity). rewrite forallb_forall in S. assert (R : In i (range 16)) by (apply in_range; lia). apply S in R.
    unfold ascii_char. lia. }
  unfold byte in Hx. constructor; [apply N; lia|]. constructor; [apply N; lia|exact IH].
Qed.

Lemma hex_lower_lut c l : bytes l -> map ascii_lower (rfc_hex_encode (lut_of c) l) = rfc_hex_encode hex_lower l.
Proof.
  intro B. induction B as [|x l Hx B IH]; [reflexivity|]. cbn [rfc_hex_encode flat_map app map].
  assert (N : forall i, 0 <= i < 16 -> ascii_lower (nth (Z.to_nat i) (lut_of c) 0) = nth (Z.to_nat i) hex_lower 0).
  { intros i Hi. assert (S : forallb (fun i => ascii_lower (nth (Z.to_nat i) (lut_of c) 0) =? nth (Z.to_nat i) hex_lower 0) (range 16) = true)
      by (destruct c; vm_compute; reflexivity). rewrite forallb_forall in S. apply Z.eqb_eq, S, in_range. lia. }
  unfold byte in Hx. rewrite !N by lia. do 2 f_equal. exact IH.
Qed.

Lemma hex_decode_encode c l : bytes l -> rfc_hex_decode (rfc_hex_encode (lut_of c) l) = Some l.
Proof.
  intro B. apply hex_decode_iff; [now apply hex_encode_bytes|]. split; [exact B|now apply hex_lower_lut].
Qed.

Lemma hex_encode_inj c a b : bytes a -> bytes b -> rfc_hex_encode (lut_of c) a = rfc_hex_encode (lut_of c) b -> a = b.
Proof.
  intros Ba Bb H. assert (E := hex_decode_encode c a Ba). rewrite H, hex_decode_encode in E by auto. now injection E.
Qed.

Lemma hex_decode_bytes s d : bytes s -> rfc_hex_decode s = Some d -> bytes d.
Proof. intros B H. now apply hex_decode_iff in H as [H _]. Qed.

Lemma hex_decode_even s d : rfc_hex_decode s = Some d -> length s = (2 * length d)%nat.
Proof. intro H. now rewrite (hex_decode_length _ _ H). Qed.

Lemma hex_decode_odd s : (length s mod 2 <> 0)%nat -> rfc_hex_decode s = None.
Proof.
  intro H. destruct (rfc_hex_decode s) as [d|] eqn:E; [|reflexivity].
  apply hex_decode_even in E. lia.
Qed.

(** ** The functions *)
Lemma hex_encode_ok s case src :
  encodes (fun p n q k => hex_encode s p n q k case) src (rfc_hex_encode (lut_of case) src).
Proof.
  intros m b o d e dlen [B H] R S. unfold room, separate in *.
  assert (LE := hex_encode_len (lut_of case) src). rewrite LE. intro L.
  assert (W : wp (hex_encode s (b, o) (length src) (d, e) dlen case) (fun r m' =>
     r = Ok ((d, e), 2 * length src)%nat /\ bytes_at m' d e (rfc_hex_encode (lut_of case) src) /\
     only_changed m d e (2 * length src) m') m).
  { unfold hex_encode. destruct (Nat.leb_spec (length src) (dlen / 2)) as [G|G]; [|lia]. cbn [negb].
    apply wp_bind. rewrite <- (pp_total b o src), <- (qq_nil d e) at 1.
    eapply wp_mono; [apply (hex_encode_impl_ok m b o src d e (2 * length src)); auto; try lia; apply EI_init; auto; lia|].
    intros u m' T. apply wp_ret. unfold done in T. split; [|split].
    - now rewrite Nat.mul_comm.
    - eapply TS_out; exact T.
    - eapply TS_frame; exact T. }
  apply wp_inv in W as (r & m' & E & -> & H1 & H2). eauto.
Qed.

Lemma hex_encode_short s case m src slen dst dlen :
  (dlen < 2 * slen)%nat -> hex_encode s src slen dst dlen case m = Ret Err m.
Proof. intro L. unfold hex_encode. destruct (Nat.leb_spec slen (dlen / 2)); [lia|reflexivity]. Qed.

Lemma hex_decode_impl_run s m b o src d e :
  slice m b o src -> room m d e (length src / 2) ->
  (b <> d \/ o + length src <= e \/ e <= o)%nat -> (length src mod 2 = 0)%nat ->
  wp (hex_decode_impl s (b, o) (length src) (d, e)) (fun r m' =>
    only_changed m d e (length src / 2) m' /\
    match rfc_hex_decode src with Some x => r = Ok tt /\ bytes_at m' d e x | None => r = Err end) m.
Proof.
  intros [B H] R S L. unfold room in *. rewrite <- (pp_total b o src), <- (qq_nil d e).
  eapply wp_mono; [apply (hex_decode_impl_ok m b o src d e (length src / 2)); auto|].
  - apply DI_init; auto.
  - now apply even_mod2.
  - intros r m' (F & P). split; [exact F|]. destruct r as [[]|].
    + destruct P as (x & -> & _ & T). split; [reflexivity|]. eapply TS_out; exact T.
    + now rewrite P.
Qed.

Lemma hex_decode_ok s src : decodes (hex_decode s) src (length src / 2) (rfc_hex_decode src).
Proof.
  intros m b o d e dlen H R S L.
  assert (W : wp (hex_decode s (b, o) (length src) (d, e) dlen)
     (decoded (rfc_hex_decode src) m d e (length src / 2)) m).
  { unfold hex_decode. destruct (Nat.eqb_spec (length src mod 2) 0) as [Ev|Od].
    - destruct (Nat.leb_spec (length src / 2) dlen) as [G|G]; [|lia]. cbn [andb negb].
      apply wp_try. unfold room, separate in *. eapply wp_mono; [apply hex_decode_impl_run; auto; unfold room; lia|].
      intros r m' (F & P). unfold decoded. destruct (rfc_hex_decode src) as [x|] eqn:Ex.
      + destruct P as [-> P]. apply wp_ret. split; [exact F|]. split; [|exact P].
        apply hex_decode_even in Ex. do 2 f_equal. lia.
      + subst r. split; [exact F|reflexivity].
    - cbn [andb negb]. apply wp_ret. split; [apply Frame_refl|]. now rewrite hex_decode_odd. }
  apply wp_inv in W as (r & m' & E & P). eauto.
Qed.

Lemma hex_decode_short s m src slen dst dlen :
  (dlen < slen / 2)%nat -> hex_decode s src slen dst dlen m = Ret Err m.
Proof.
  intro L. unfold hex_decode. destruct (Nat.leb_spec (slen / 2) dlen); [lia|]. now rewrite andb_false_r.
Qed.

Lemma hex_decode_inplace_ok s data :
  decodes_inplace (hex_decode_inplace s) data (length data / 2) (rfc_hex_decode data).
Proof.
  intros m b o H.
  assert (W : wp (hex_decode_inplace s (b, o) (length data)) (decoded (rfc_hex_decode data) m b o (length data / 2)) m).
  { unfold hex_decode_inplace. destruct (Nat.eqb_spec (length data mod 2) 0) as [Ev|Od].
    - cbn [negb]. apply wp_try.
      eapply wp_mono; [apply hex_decode_impl_run; auto; unfold room; destruct H as [_ [H _]]; lia|].
      intros r m' (F & P). unfold decoded. destruct (rfc_hex_decode data) as [x|] eqn:Ex.
      + destruct P as [-> P]. apply wp_ret. split; [exact F|]. split; [|exact P].
        apply hex_decode_even in Ex. do 2 f_equal. lia.
      + subst r. split; [exact F|reflexivity].
    - cbn [negb]. apply wp_ret. split; [apply Frame_refl|]. now rewrite hex_decode_odd. }
  apply wp_inv in W as (r & m' & E & P). eauto.
Qed.

Lemma bad_is_hex c : byte c -> negb (bad c) = hex_char c.
Proof. intro H. apply eqb_prop. revert c H. apply byte_sweep. vm_compute. reflexivity. Qed.
Lemma valid_is_hex l : bytes l -> valid l = forallb hex_char l.
Proof.
  intro B. induction B as [|c l Hc B IH]; [reflexivity|]. unfold valid in *. cbn [existsb forallb].
  now rewrite negb_orb, IH, bad_is_hex.
Qed.
Lemma hex_check_ok s src : checks (hex_check s) src (forallb hex_char src).
Proof.
  intros m b o [B H].
  assert (W : wp (hex_check s (b, o) (length src)) (chk_post m src valid) m).
  { unfold hex_check. rewrite <- (pp_total b o src). apply hex_check_impl_ok; auto. now apply CI_init. }
  apply wp_inv in W as (r & m' & E & F & ->). rewrite <- valid_is_hex by auto. exists m'. split; [exact E|exact F].
Qed.

Lemma hex_decode_some_iff src : bytes src ->
  (exists x, rfc_hex_decode src = Some x) <-> forallb hex_char src = true /\ (length src mod 2 = 0)%nat.
Proof.
  intro B. rewrite <- valid_is_hex by auto. split.
  - intros [x E]. split; [|apply hex_decode_even in E; lia]. unfold valid.
    destruct (existsb bad src) eqn:EB; [|reflexivity]. rewrite bad_decode_none in E; [discriminate| |auto|auto].
    apply hex_decode_even in E. apply even_mod2. lia.
  - intros [V Ev]. unfold valid in V. apply negb_true_iff in V. eexists. apply good_decode; auto. now apply even_mod2.
Qed.

Definition alphabet_of (case : ascii_case) : list Z := match case with Lower => hex_lower | Upper => hex_upper end.

(** ** Statements proved in PropHex.v *)
Section Consequences.
  Notation henc s case := (fun p n q k => hex_encode s p n q k case).

  Lemma hex_exact s src m b o d e dlen :
    slice m b o src -> room m d e dlen -> separate b o (length src) d e dlen -> (length src / 2 <= dlen)%nat ->
    exists r m', hex_decode s (b, o) (length src) (d, e) dlen m = Ret r m' /\
      (forall x, r = Ok ((d, e), length x) /\ bytes_at m' d e x <-> bytes x /\ map ascii_lower src = rfc_hex_encode hex_lower x) /\
      (r = Err <-> forall x, bytes x -> map ascii_lower src <> rfc_hex_encode hex_lower x).
  Proof.
    intros H R S L. destruct (hex_decode_ok s src m b o d e dlen H R S L) as (r & m' & E & P).
    exists r, m'. split; [exact E|]. destruct H as [B H]. split.
    - intro x. rewrite (decoded_iff _ _ _ _ _ _ _ x P). now apply hex_decode_iff.
    - rewrite (decoded_err _ _ _ _ _ _ _ P). split.
      + intros N x Bx Ex. assert (rfc_hex_decode src = Some x) by (apply hex_decode_iff; auto). congruence.
      + intro N. destruct (rfc_hex_decode src) as [x|] eqn:Ex; [|reflexivity].
        apply hex_decode_iff in Ex as [Bx Ex]; auto. now elim (N x).
  Qed.

  Lemma hex_roundtrip s1 s2 case src m b o d1 e1 n1 d2 e2 n2 :
    slice m b o src -> room m d1 e1 n1 -> room m d2 e2 n2 ->
    separate b o (length src) d1 e1 n1 -> separate d1 e1 n1 d2 e2 n2 ->
    (2 * length src <= n1)%nat -> (length src <= n2)%nat ->
    exists m', (r <- hex_encode s1 (b, o) (length src) (d1, e1) n1 case ;;
                match r with Ok (p, n) => hex_decode s2 p n (d2, e2) n2 | Err => ret Err end) m
               = Ret (Ok ((d2, e2), length src)) m' /\ bytes_at m' d2 e2 src.
  Proof.
    intros H R1 R2 S1 S2 L1 L2.
    assert (LE := hex_encode_len (lut_of case) src).
    destruct (hex_encode_ok s1 case src m b o d1 e1 n1 H R1 S1) as (m1 & E1 & A1 & F1); [lia|].
    unfold bind. rewrite E1. destruct H as [B H].
    assert (H1 : slice m1 d1 e1 (rfc_hex_encode (lut_of case) src)) by (split; [now apply hex_encode_bytes|exact A1]).
    destruct (hex_decode_ok s2 (rfc_hex_encode (lut_of case) src) m1 d1 e1 d2 e2 n2 H1) as (r & m2 & E2 & F2 & P2).
    - unfold room in *. destruct F1 as (F1 & F1' & _). destruct (Nat.eq_dec d2 d1) as [->|N]; [lia|now rewrite F1].
    - unfold separate in *. lia.
    - rewrite LE. lia.
    - rewrite E2. rewrite hex_decode_encode in P2 by auto. destruct P2 as [-> P2]. eauto.
  Qed.

  Lemma hex_reencode s1 s2 src x t : bytes src ->
    decodes (hex_decode s1) src (length src / 2) (Some x) -> encodes (henc s2 Lower) x t -> t = map ascii_lower src.
  Proof.
    intros B H1 H2.
    assert (E : rfc_hex_decode src = Some x).
    { set (m := mem_of [cells src; uninit (length src / 2)]).
      assert (S : slice m 0 0 src) by (now apply slice_whole).
      assert (R : room m 1 0 (length src / 2)) by (unfold room, m, mem_of, uninit; cbn; rewrite repeat_length; lia).
      destruct (H1 m 0%nat 0%nat 1%nat 0%nat _ S R) as (r & m1 & E1 & P1); [left; discriminate|lia|].
      destruct (hex_decode_ok s1 src m 0%nat 0%nat 1%nat 0%nat _ S R) as (r2 & m2 & E2 & P2); [left; discriminate|lia|].
      rewrite E1 in E2. injection E2 as <- <-. apply (decoded_iff _ _ _ _ _ _ _ x P2).
      now apply (decoded_iff _ _ _ _ _ _ _ x P1). }
    apply hex_decode_iff in E as [Bx E]; auto. rewrite E.
    exact (encodes_det _ _ _ _ Bx H2 (hex_encode_ok s2 Lower x)).
  Qed.

  (** memory safety for any destination length, also too short, and for failing decodes *)
  Lemma hex_encode_safe s case src m b o d e dlen :
    slice m b o src -> room m d e dlen -> separate b o (length src) d e dlen ->
    exists r m', hex_encode s (b, o) (length src) (d, e) dlen case m = Ret r m' /\
      slice m' b o src /\ only_changed m d e (Nat.min dlen (2 * length src)) m' /\
      match r with Ok (p, n) => p = (d, e) /\ n = (2 * length src)%nat /\ exists t, length t = n /\ slice m' d e t
                 | Err => m' = m end.
  Proof.
    intros H R S. destruct (Nat.le_gt_cases (2 * length src) dlen) as [L|L].
    - destruct (hex_encode_ok s case src m b o d e dlen H R S) as (m' & E & A & F); [now rewrite hex_encode_len|].
      rewrite hex_encode_len in *. exists (Ok (d, e, (2 * length src)%nat)), m'. split; [exact E|]. split; [|split].
      + eapply only_changed_src; eauto.
      + now rewrite Nat.min_r.
      + split; [reflexivity|]. split; [reflexivity|]. eexists. split; [apply hex_encode_len|]. split; [|exact A].
        apply hex_encode_bytes, H.
    - rewrite hex_encode_short by auto. exists Err, m. split; [reflexivity|]. split; [exact H|]. split; [apply Frame_refl|reflexivity].
  Qed.
  Lemma hex_decode_safe s src m b o d e dlen :
    slice m b o src -> room m d e dlen -> separate b o (length src) d e dlen ->
    exists r m', hex_decode s (b, o) (length src) (d, e) dlen m = Ret r m' /\
      slice m' b o src /\ only_changed m d e (Nat.min dlen (length src / 2)) m' /\
      match r with Ok (p, n) => p = (d, e) /\ n = (length src / 2)%nat /\ exists t, length t = n /\ slice m' d e t
                 | Err => True end.
  Proof.
    intros H R S. destruct (Nat.le_gt_cases (length src / 2) dlen) as [L|L].
    - destruct (hex_decode_ok s src m b o d e dlen H R S L) as (r & m' & E & F & P).
      exists r, m'. split; [exact E|]. split; [|split].
      + eapply only_changed_src; eauto.
      + now rewrite Nat.min_r.
      + destruct (rfc_hex_decode src) as [x|] eqn:Ex; [|now subst]. destruct P as [-> A].
        pose proof (hex_decode_even _ _ Ex) as Hl. split; [reflexivity|]. split; [lia|]. exists x. split; [reflexivity|].
        split; [|exact A]. eapply hex_decode_bytes; [apply H|exact Ex].
    - rewrite hex_decode_short by auto. exists Err, m. split; [reflexivity|]. split; [exact H|]. split; [apply Frame_refl|exact I].
  Qed.

  Lemma hex_compositional s1 s2 s3 case a b x y : bytes a -> bytes b ->
    encodes (henc s1 case) a x -> encodes (henc s2 case) b y -> encodes (henc s3 case) (a ++ b) (x ++ y).
  Proof.
    intros Ba Bb H1 H2.
    rewrite (encodes_det _ _ _ _ Ba H1 (hex_encode_ok s1 case a)), (encodes_det _ _ _ _ Bb H2 (hex_encode_ok s2 case b)).
    rewrite <- hex_encode_app. apply hex_encode_ok.
  Qed.
  Lemma hex_injective s1 s2 case a b t : bytes a -> bytes b ->
    encodes (henc s1 case) a t -> encodes (henc s2 case) b t -> a = b.
  Proof.
    intros Ba Bb H1 H2. apply (hex_encode_inj case); auto.
    now rewrite <- (encodes_det _ _ _ _ Ba H1 (hex_encode_ok s1 case a)), <- (encodes_det _ _ _ _ Bb H2 (hex_encode_ok s2 case b)).
  Qed.
End Consequences.

Lemma hex_encoded_length_ok bits n : 0 < bits -> 0 <= n <= usize_max bits ->
  hex_encoded_length bits n = if n <=? usize_max bits / 2 then Some (2 * n) else None.
Proof.
  intros Hb Hn. unfold hex_encoded_length, usize_max in *.
  assert (0 < 2 ^ bits) by (apply Z.pow_pos_nonneg; lia).
  destruct (Z.leb_spec n ((2 ^ bits - 1) / 2)); [|reflexivity]. f_equal. rewrite Z.mod_small; lia.
Qed.

Lemma hex_decoded_length_ok src :
  hex_decoded_length (Z.of_nat (length src)) = (if (length src mod 2 =? 0)%nat then Ok (Z.of_nat (length src / 2)) else Err) /\
  (forall x, rfc_hex_decode src = Some x -> hex_decoded_length (Z.of_nat (length src)) = Ok (Z.of_nat (length x))).
Proof.
  unfold hex_decoded_length. split.
  - destruct (Nat.eqb_spec (length src mod 2) 0) as [E|E]; destruct (Z.eqb_spec (Z.of_nat (length src) mod 2) 0); try lia; [|reflexivity].
    f_equal. lia.
  - intros x E. apply hex_decode_even in E. rewrite E. destruct (Z.eqb_spec (Z.of_nat (2 * length x) mod 2) 0); [|lia]. f_equal. lia.
Qed.

Lemma hex_ascii s case src t : bytes src ->
  encodes (fun p n q k => hex_encode_as_str s p n q k case) src t -> Forall ascii_char t.
Proof.
  intros B H. rewrite (encodes_det _ _ _ _ B H (hex_encode_ok s case src)). now apply hex_encode_ascii.
Qed.

Lemma hex_decode_old s src m1 m2 b o d e dlen r1 r2 m1' m2' :
  slice m1 b o src -> slice m2 b o src -> room m1 d e dlen -> room m2 d e dlen ->
  separate b o (length src) d e dlen ->
  hex_decode s (b, o) (length src) (d, e) dlen m1 = Ret r1 m1' ->
  hex_decode s (b, o) (length src) (d, e) dlen m2 = Ret r2 m2' ->
  r1 = r2 /\ forall n x, r1 = Ok ((d, e), n) -> length x = n -> bytes_at m1' d e x -> bytes_at m2' d e x.
Proof.
  intros H1 H2 R1 R2 S E1 E2. destruct (Nat.le_gt_cases (length src / 2) dlen) as [L|L].
  - destruct (hex_decode_ok s src m1 b o d e dlen H1 R1 S L) as (r & m & E & F & P).
    destruct (hex_decode_ok s src m2 b o d e dlen H2 R2 S L) as (r' & m' & E' & F' & P').
    rewrite E in E1. rewrite E' in E2. injection E1 as -> ->. injection E2 as -> ->.
    destruct (rfc_hex_decode src) as [y|].
    + destruct P as [-> P], P' as [-> P']. split; [reflexivity|]. intros n x En Ex A. injection En as <-.
      now rewrite (bytes_at_inj _ _ _ _ _ A P).
    + subst. split; [reflexivity|]. discriminate.
  - rewrite hex_decode_short in E1, E2 by auto. injection E1 as <- <-. injection E2 as <- <-.
    split; [reflexivity|discriminate].
Qed.
Lemma hex_encode_old s case src m1 m2 b o d e dlen r1 r2 m1' m2' :
  slice m1 b o src -> slice m2 b o src -> room m1 d e dlen -> room m2 d e dlen ->
  separate b o (length src) d e dlen ->
  hex_encode s (b, o) (length src) (d, e) dlen case m1 = Ret r1 m1' ->
  hex_encode s (b, o) (length src) (d, e) dlen case m2 = Ret r2 m2' ->
  r1 = r2 /\ forall n x, r1 = Ok ((d, e), n) -> length x = n -> bytes_at m1' d e x -> bytes_at m2' d e x.
Proof.
  intros H1 H2 R1 R2 S E1 E2. assert (LE := hex_encode_len (lut_of case) src).
  destruct (Nat.le_gt_cases (2 * length src) dlen) as [L|L].
  - destruct (hex_encode_ok s case src m1 b o d e dlen H1 R1 S) as (m & E & P & F); [lia|].
    destruct (hex_encode_ok s case src m2 b o d e dlen H2 R2 S) as (m' & E' & P' & F'); [lia|].
    rewrite E in E1. rewrite E' in E2. injection E1 as <- <-. injection E2 as <- <-.
    split; [reflexivity|]. intros n x En Ex A. injection En as <-. now rewrite (bytes_at_inj _ _ _ _ _ A P).
  - rewrite hex_encode_short in E1, E2 by auto. injection E1 as <- <-. injection E2 as <- <-.
    split; [reflexivity|discriminate].
Qed.
