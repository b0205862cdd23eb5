(** Lexicographic order, and which encodings preserve it (RFC 4648, section 7). *)
From Coq Require Import ZArith List Bool Lia ZifyBool ZifyNat Arith.
From Verif Require Import Bytes Spec SpecFacts.
Import ListNotations.
Open Scope list_scope. Open Scope Z_scope.
Ltac Zify.zify_post_hook ::= Z.div_mod_to_equations.

(** Lexicographic comparison of byte strings: what [Ord] on [&[u8]] and [&str] and [memcmp] compute. *)
Fixpoint lex (a b : list Z) : comparison :=
  match a, b with
  | [], [] => Eq
  | [], _ :: _ => Lt
  | _ :: _, [] => Gt
  | x :: a, y :: b => match x ?= y with Eq => lex a b | c => c end
  end.

Lemma lex_eq a : forall b, lex a b = Eq <-> a = b.
Proof.
  induction a as [|x a IH]; intros [|y b]; cbn [lex]; split; intros H; try discriminate; try reflexivity.
  - destruct (Z.compare_spec x y); try discriminate. subst. f_equal. now apply IH.
  - injection H as -> ->. rewrite Z.compare_refl. now apply IH.
Qed.

(** ** Alphabets in increasing order *)
Definition sorted_alphabet (al : list Z) (n : Z) : Prop :=
  forall v w, 0 <= v < n -> 0 <= w < n -> (nth (Z.to_nat v) al 0 ?= nth (Z.to_nat w) al 0) = (v ?= w).
Definition sorted_check (al : list Z) (n : nat) : bool :=
  forallb (fun v => forallb (fun w => match nth (Z.to_nat v) al 0 ?= nth (Z.to_nat w) al 0, v ?= w with
                                      | Eq, Eq | Lt, Lt | Gt, Gt => true | _, _ => false end) (range n)) (range n).
Lemma sorted_check_ok al n : sorted_check al n = true -> sorted_alphabet al (Z.of_nat n).
Proof.
  intros H v w Hv Hw. unfold sorted_check in H. rewrite forallb_forall in H.
  assert (Iv : In v (range n)) by (apply in_range; lia). assert (Iw : In w (range n)) by (apply in_range; lia).
  specialize (H v Iv). rewrite forallb_forall in H. specialize (H w Iw).
  destruct (nth (Z.to_nat v) al 0 ?= nth (Z.to_nat w) al 0), (v ?= w); congruence.
Qed.
Lemma lex_map al n a : sorted_alphabet al n -> forall b, Forall (fun v => 0 <= v < n) a -> Forall (fun v => 0 <= v < n) b ->
  lex (map (fun v => nth (Z.to_nat v) al 0) a) (map (fun v => nth (Z.to_nat v) al 0) b) = lex a b.
Proof.
  intros S. induction a as [|x a IH]; intros [|y b] Fa Fb; cbn [map lex]; try reflexivity.
  inversion_clear Fa. inversion_clear Fb. rewrite S by assumption. destruct (x ?= y); auto.
Qed.

(** ** Hexadecimal *)
Lemma lex_hex al a : sorted_alphabet al 16 -> forall b, bytes a -> bytes b -> lex (rfc_hex_encode al a) (rfc_hex_encode al b) = lex a b.
Proof.
  intros S. induction a as [|x a IH]; intros [|y b] Fa Fb; try reflexivity.
  inversion_clear Fa as [|? ? Hx Fa']. inversion_clear Fb as [|? ? Hy Fb'].
  unfold rfc_hex_encode. cbn [flat_map app lex]. fold (rfc_hex_encode al a). fold (rfc_hex_encode al b).
  unfold byte in *. rewrite !S by lia. rewrite IH by assumption.
  destruct (Z.compare_spec (x / 16) (y / 16)) as [E|E|E]; destruct (Z.compare_spec x y) as [F|F|F]; try reflexivity; try lia;
    destruct (Z.compare_spec (x mod 16) (y mod 16)) as [G|G|G]; try reflexivity; lia.
Qed.

(** ** Bit strings *)
Fixpoint blex (a b : list bool) : comparison :=
  match a, b with
  | [], [] => Eq
  | [], _ :: _ => Lt
  | _ :: _, [] => Gt
  | x :: a, y :: b => if Bool.eqb x y then blex a b else if y then Lt else Gt
  end.

Lemma val_cons x a : val_of (x :: a) = (if x : bool then 1 else 0) * 2 ^ Z.of_nat (length a) + val_of a.
Proof. unfold val_of at 1. cbn [fold_left]. rewrite val_of_acc. ring_simplify (2 * 0 + (if x then 1 else 0)). reflexivity. Qed.
Lemma val_bound a : 0 <= val_of a < 2 ^ Z.of_nat (length a).
Proof.
  induction a as [|x a IH]; [cbn; lia|]. rewrite val_cons. cbn [length]. rewrite Nat2Z.inj_succ, Z.pow_succ_r by lia. destruct x; lia.
Qed.
Lemma blex_val a : forall b, length a = length b -> (val_of a ?= val_of b) = blex a b.
Proof.
  induction a as [|x a IH]; intros [|y b] L; try discriminate; [reflexivity|].
  injection L as L. rewrite !val_cons, <- L. pose proof (val_bound a). pose proof (val_bound b) as Hb. rewrite <- L in Hb.
  cbn [blex]. rewrite <- IH by assumption.
  destruct x, y; cbn [Bool.eqb]; destruct (Z.compare_spec (val_of a) (val_of b)); match goal with |- _ = Eq => apply Z.compare_eq_iff | |- _ = Lt => apply Z.compare_lt_iff | |- _ = Gt => apply Z.compare_gt_iff end; lia.
Qed.
Lemma blex_app a b c d : length a = length b -> blex (a ++ c) (b ++ d) = match blex a b with Eq => blex c d | r => r end.
Proof.
  revert b. induction a as [|x a IH]; intros [|y b] L; try discriminate; [reflexivity|].
  injection L as L. cbn [app blex]. destruct (Bool.eqb x y); [now apply IH|]. destruct y; reflexivity.
Qed.
Lemma blex_refl a : blex a a = Eq.
Proof. induction a as [|x a IH]; [reflexivity|]. cbn [blex]. now rewrite Bool.eqb_reflx. Qed.
Lemma blex_zeros n d : length d = n -> blex (repeat false n) d <> Gt.
Proof.
  revert d. induction n as [|n IH]; intros [|x d] L; try discriminate; try (cbn; discriminate).
  injection L as L. cbn [repeat blex]. destruct x; cbn [Bool.eqb]; [discriminate|now apply IH].
Qed.
Lemma blex_opp a : forall b, blex b a = CompOpp (blex a b).
Proof.
  induction a as [|x a IH]; intros [|y b]; try reflexivity. cbn [blex]. rewrite IH. destruct x, y; reflexivity.
Qed.
Lemma lex_opp a : forall b, lex b a = CompOpp (lex a b).
Proof.
  induction a as [|x a IH]; intros [|y b]; try reflexivity. cbn [lex]. rewrite IH, (Z.compare_antisym x y). destruct (x ?= y); reflexivity.
Qed.
(** [a], padded with zeros, against a longer string that is at least one bit longer than the padded one *)
Lemma blex_padded a d k : (length a <= k)%nat -> (k < length d)%nat ->
  match blex (a ++ repeat false (k - length a)) (firstn k d) with Eq => Lt | r => r end = blex a d.
Proof.
  intros L1 L2. rewrite <- (firstn_skipn (length a) d) at 2.
  replace (firstn k d) with (firstn (length a) d ++ firstn (k - length a) (skipn (length a) d)).
  2:{ rewrite <- (firstn_skipn (length a) (firstn k d)). rewrite firstn_firstn, Nat.min_l by lia. f_equal.
      rewrite skipn_firstn_comm. reflexivity. }
  assert (La : length a = length (firstn (length a) d)) by (rewrite firstn_length; lia).
  rewrite blex_app by assumption.
  transitivity (blex (a ++ []) (firstn (length a) d ++ skipn (length a) d)); [|now rewrite app_nil_r].
  rewrite blex_app by assumption.
  destruct (blex a (firstn (length a) d)); try reflexivity.
  assert (Ls : (k - length a < length (skipn (length a) d))%nat) by (rewrite skipn_length; lia).
  destruct (skipn (length a) d) as [|q r] eqn:E; [cbn [length] in Ls; lia|].
  cbn [blex]. pose proof (blex_zeros (k - length a) (firstn (k - length a) (q :: r))) as Hz.
  rewrite firstn_length_le in Hz by lia. specialize (Hz eq_refl).
  destruct (blex (repeat false (k - length a)) (firstn (k - length a) (q :: r))); congruence.
Qed.

(** Two bit strings are [apart k] if they have the same length or lengths that differ by at least [k]. *)
Definition apart (k : nat) (x y : list bool) : Prop :=
  length x = length y \/ (length x + k <= length y)%nat \/ (length y + k <= length x)%nat.

Lemma groups_pos f k bs : (0 < length bs)%nat -> (0 < f)%nat -> exists g r, groups f k bs = g :: r.
Proof. intros H Hf. destruct f; [lia|]. destruct bs; [cbn in H; lia|]. cbn [groups]. eauto. Qed.
Lemma groups_long f k bs : (0 < k)%nat -> (k <= length bs)%nat -> groups (S f) k bs = val_of (firstn k bs) :: groups f k (skipn k bs).
Proof.
  intros Hk L. rewrite <- (firstn_skipn k bs) at 1. apply groups_cons; [|exact Hk]. rewrite firstn_length. lia.
Qed.

(** one string ends in this group, the other does not *)
Lemma lex_groups_last k f f' x y : (0 < k)%nat -> (0 < length x)%nat -> (length x < k)%nat -> (length x + k <= length y)%nat -> (length y <= S f')%nat ->
  lex (groups (S f) k x) (groups (S f') k y) = blex x y.
Proof.
  intros Hk H1 H2 H3 H4. rewrite groups_last by lia. rewrite groups_long by lia. cbn [lex].
  rewrite blex_val by (rewrite app_length, repeat_length, firstn_length; lia).
  destruct (groups_pos f' k (skipn k y)) as (g & r & E); [rewrite skipn_length; lia|lia|]. rewrite E. cbn [lex].
  apply blex_padded; lia.
Qed.

Lemma lex_groups k : (0 < k)%nat -> forall f f' x y, (length x <= f)%nat -> (length y <= f')%nat -> apart k x y ->
  lex (groups f k x) (groups f' k y) = blex x y.
Proof.
  intros Hk f. induction f as [|f IH]; intros f' x y Lx Ly A.
  - destruct x; [|cbn in Lx; lia]. rewrite groups_nil. destruct y as [|b y].
    + rewrite groups_nil. reflexivity.
    + destruct (groups_pos f' k (b :: y)) as (g & r & E); [cbn; lia|cbn in Ly; lia|]. rewrite E. reflexivity.
  - destruct x as [|a x0].
    { rewrite groups_nil. destruct y as [|b y].
      + rewrite groups_nil. reflexivity.
      + destruct (groups_pos f' k (b :: y)) as (g & r & E); [cbn; lia|cbn in Ly; lia|]. rewrite E. reflexivity. }
    destruct y as [|b y0].
    { rewrite groups_nil. destruct (groups_pos (S f) k (a :: x0)) as (g & r & E); [cbn; lia|lia|]. rewrite E. reflexivity. }
    remember (a :: x0) as x eqn:Ex. remember (b :: y0) as y eqn:Ey.
    assert (Px : (0 < length x)%nat) by (subst x; cbn; lia). assert (Py : (0 < length y)%nat) by (subst y; cbn; lia).
    clear a x0 b y0 Ex Ey. destruct f' as [|f']; [lia|].
    destruct (Nat.le_gt_cases k (length x)) as [Kx|Kx]; destruct (Nat.le_gt_cases k (length y)) as [Ky|Ky].
    + rewrite !groups_long by assumption. cbn [lex]. rewrite blex_val by (rewrite !firstn_length; lia).
      rewrite IH; [|rewrite skipn_length; lia|rewrite skipn_length; lia|unfold apart in *; rewrite !skipn_length; lia].
      rewrite <- blex_app by (rewrite !firstn_length; lia). now rewrite !firstn_skipn.
    + rewrite lex_opp, lex_groups_last by (unfold apart in A; lia). now rewrite (blex_opp x y), CompOpp_involutive.
    + apply lex_groups_last; unfold apart in A; lia.
    + assert (E : length x = length y) by (unfold apart in A; lia).
      rewrite !groups_last by lia. cbn [lex]. rewrite blex_val by (rewrite !app_length, !repeat_length; lia).
      rewrite blex_app, <- E, blex_refl by assumption. destruct (blex x y); reflexivity.
Qed.

Lemma val_bits8 v : byte v -> val_of (bits_of 8 v) = v.
Proof. intros H. apply Z.eqb_eq. revert v H. apply byte_sweep. vm_compute. reflexivity. Qed.
Lemma blex_bytes a : forall b, bytes a -> bytes b -> blex (bits_of_bytes a) (bits_of_bytes b) = lex a b.
Proof.
  induction a as [|x a IH]; intros [|y b] Fa Fb; try reflexivity.
  inversion_clear Fa. inversion_clear Fb. unfold bits_of_bytes. cbn [flat_map]. fold (bits_of_bytes a). fold (bits_of_bytes b).
  rewrite blex_app by now rewrite !bits_of_len. rewrite IH by assumption.
  rewrite <- blex_val by now rewrite !bits_of_len. rewrite !val_bits8 by assumption. reflexivity.
Qed.

(** the [k]-bit values of two byte strings compare like the strings *)
Lemma lex_rfc_values k a b : (0 < k <= 8)%nat -> bytes a -> bytes b -> lex (rfc_values k a) (rfc_values k b) = lex a b.
Proof.
  intros Hk Fa Fb. unfold rfc_values. rewrite lex_groups; [now apply blex_bytes|lia|lia|lia|].
  unfold apart. rewrite !bits_of_bytes_len. lia.
Qed.
Lemma groups_bound k : (0 < k)%nat -> forall f bs, Forall (fun v => 0 <= v < 2 ^ Z.of_nat k) (groups f k bs).
Proof.
  intros Hk f. induction f as [|f IH]; intros bs; [constructor|]. destruct bs as [|b r]; [constructor|]. remember (b :: r) as bs.
  cbn [groups]. rewrite Heqbs at 1. constructor; [|apply IH].
  pose proof (val_bound (firstn k bs ++ repeat false (k - length bs))) as H.
  rewrite app_length, repeat_length, firstn_length in H. replace (Nat.min k (length bs) + (k - length bs))%nat with k in H by lia. exact H.
Qed.
Lemma lex_rfc_chars k al a b : (0 < k <= 8)%nat -> sorted_alphabet al (2 ^ Z.of_nat k) -> bytes a -> bytes b ->
  lex (rfc_chars k al a) (rfc_chars k al b) = lex a b.
Proof.
  intros Hk S Fa Fb. unfold rfc_chars. rewrite (lex_map al (2 ^ Z.of_nat k)); [now apply lex_rfc_values|exact S| |]; apply groups_bound; lia.
Qed.

(** concatenation *)
Lemma skipn_sk {A} a b (l : list A) : skipn a (skipn b l) = skipn (b + a) l.
Proof. revert l. induction b as [|b IH]; intros l; [reflexivity|]. destruct l as [|x l]; [now rewrite !skipn_nil|]. cbn [skipn Nat.add]. apply IH. Qed.
Lemma lex_app a b c d : length a = length b -> lex (a ++ c) (b ++ d) = match lex a b with Eq => lex c d | r => r end.
Proof.
  revert b. induction a as [|x a IH]; intros [|y b] L; try discriminate; [reflexivity|].
  injection L as L. cbn [app lex]. destruct (x ?= y); [now apply IH|reflexivity|reflexivity].
Qed.
Lemma lex_refl a : lex a a = Eq.
Proof. now apply lex_eq. Qed.
Lemma lex_split n a b : length a = length b -> lex a b = match lex (firstn n a) (firstn n b) with Eq => lex (skipn n a) (skipn n b) | r => r end.
Proof. intros L. rewrite <- (firstn_skipn n a) at 1. rewrite <- (firstn_skipn n b) at 1. apply lex_app. rewrite !firstn_length. lia. Qed.

(** fixed characters at fixed places do not matter *)
Lemma lex_hyphenate a b : length a = 32%nat -> length b = 32%nat -> lex (uuid_hyphenate a) (uuid_hyphenate b) = lex a b.
Proof.
  intros La Lb. unfold uuid_hyphenate.
  rewrite (lex_split 8 a b) by lia. rewrite (lex_split 4 (skipn 8 a) (skipn 8 b)) by (rewrite !skipn_length; lia). rewrite !skipn_sk. cbn [Nat.add].
  rewrite (lex_split 4 (skipn 12 a) (skipn 12 b)) by (rewrite !skipn_length; lia). rewrite !skipn_sk. cbn [Nat.add].
  rewrite (lex_split 4 (skipn 16 a) (skipn 16 b)) by (rewrite !skipn_length; lia). rewrite !skipn_sk. cbn [Nat.add].
  repeat (rewrite lex_app by (rewrite ?firstn_length, ?skipn_length; cbn [length]; lia); rewrite ?lex_refl).
  reflexivity.
Qed.
