(** Texts that begin alike: facts about bit strings and padding, used by PropPrefix.v. *)
From Coq Require Import ZArith List Bool Lia ZifyBool ZifyNat.
From Verif Require Import Bytes Spec SpecFacts.
Import ListNotations.
Open Scope Z_scope.
Ltac Zify.zify_post_hook ::= Z.div_mod_to_equations.

(** ** Bits of a number *)
Lemma val_of_bound bs : 0 <= val_of bs < 2 ^ Z.of_nat (length bs).
Proof.
  induction bs as [|b bs IH]; [cbn; lia|]. change (b :: bs) with ([b] ++ bs). rewrite (val_app2 [b] bs (length bs) (if b then 1 else 0) (val_of bs)) by (reflexivity || now destruct b).
  rewrite app_length. cbn [length Nat.add]. rewrite Nat2Z.inj_succ, Z.pow_succ_r by lia. destruct b; lia.
Qed.
Lemma bits_of_high n m v c : (n <= m)%nat -> bits_of n (c * 2 ^ Z.of_nat m + v) = bits_of n v.
Proof.
  induction n as [|n IH]; intro H; [reflexivity|]. cbn [bits_of]. rewrite IH by lia. f_equal.
  rewrite !Z.testbit_odd, !Z.shiftr_div_pow2 by lia.
  replace (c * 2 ^ Z.of_nat m + v) with (v + (c * 2 ^ (Z.of_nat m - Z.of_nat n)) * 2 ^ Z.of_nat n).
  2:{ rewrite <- Z.mul_assoc, <- Z.pow_add_r by lia. replace (Z.of_nat m - Z.of_nat n + Z.of_nat n) with (Z.of_nat m) by lia. ring. }
  rewrite Z.div_add by (apply Z.pow_nonzero; lia). rewrite Z.odd_add, Z.odd_mul.
  replace (Z.odd (2 ^ (Z.of_nat m - Z.of_nat n))) with false; [now rewrite andb_false_r, xorb_false_r|].
  symmetry. replace (Z.of_nat m - Z.of_nat n) with (Z.succ (Z.of_nat m - Z.of_nat n - 1)) by lia.
  rewrite Z.pow_succ_r by lia. rewrite Z.odd_mul. reflexivity.
Qed.
Lemma bits_val bs : bits_of (length bs) (val_of bs) = bs.
Proof.
  induction bs as [|b bs IH]; [reflexivity|]. change (b :: bs) with ([b] ++ bs) at 2.
  rewrite (val_app2 [b] bs (length bs) (if b then 1 else 0) (val_of bs)) by (reflexivity || now destruct b).
  cbn [length bits_of]. rewrite bits_of_high by lia. rewrite IH. f_equal.
  assert (B := val_of_bound bs). rewrite Z.testbit_odd, Z.shiftr_div_pow2 by lia.
  rewrite Z.div_add_l by (apply Z.pow_nonzero; lia). rewrite Z.div_small by lia. now destruct b.
Qed.

(** ** Bits of the groups *)
Lemma bits_groups k bs : (0 < k)%nat -> forall f, (length bs <= f)%nat ->
  exists p, (p < k)%nat /\ flat_map (bits_of k) (groups f k bs) = bs ++ repeat false p.
Proof.
  intros K. remember (length bs) as n eqn:E. revert bs E. induction n as [n IH] using (well_founded_induction lt_wf). intros bs -> f F.
  destruct bs as [|b bs]; [rewrite groups_nil; exists 0%nat; now split|].
  destruct f as [|f]; [cbn in F; lia|]. destruct (Nat.le_gt_cases (length (b :: bs)) k) as [L|L].
  - rewrite groups_last by (auto; cbn; lia). exists (k - length (b :: bs))%nat. split; [cbn [length] in *; lia|].
    cbn [flat_map]. rewrite app_nil_r. set (g := (b :: bs) ++ _). replace k with (length g) at 1 by (unfold g; rewrite app_length, repeat_length; lia).
    apply bits_val.
  - set (l := b :: bs) in *. assert (G : groups (S f) k l = val_of (firstn k l) :: groups f k (skipn k l)).
    { rewrite <- groups_cons by (auto; rewrite firstn_length; lia). now rewrite firstn_skipn. }
    rewrite G. cbn [flat_map].
    destruct (IH (length (skipn k l)) ltac:(rewrite skipn_length; lia) _ eq_refl f ltac:(rewrite skipn_length; lia)) as (p & Hp & ->).
    exists p. split; [exact Hp|].
    assert (Eb : bits_of k (val_of (firstn k l)) = firstn k l).
    { rewrite <- (bits_val (firstn k l)) at 2. rewrite firstn_length. now replace (Nat.min k (length l)) with k by lia. }
    rewrite Eb, app_assoc, firstn_skipn. reflexivity.
Qed.
Lemma bits_values k x : (0 < k)%nat -> exists p, (p < k)%nat /\ flat_map (bits_of k) (rfc_values k x) = bits_of_bytes x ++ repeat false p.
Proof. intros K. unfold rfc_values. now apply bits_groups. Qed.
Lemma groups_bound k bs : forall f, Forall (fun v => 0 <= v < 2 ^ Z.of_nat k) (groups f k bs).
Proof.
  intros f. revert bs. induction f as [|f IH]; intros bs; [constructor|]. destruct bs as [|b bs]; [constructor|].
  cbn [groups]. constructor; [|apply IH].
  assert (B := val_of_bound (firstn k (b :: bs) ++ repeat false (k - length (b :: bs)))).
  rewrite app_length, firstn_length, repeat_length in B. now replace (Nat.min k (length (b :: bs)) + (k - length (b :: bs)))%nat with k in B by lia.
Qed.

Lemma byte_bits_inj a b : byte a -> byte b -> bits_of 8 a = bits_of 8 b -> a = b.
Proof.
  intros Ha Hb E. assert (V : forall v, byte v -> val_of (bits_of 8 v) = v).
  { intros v Hv. apply Z.eqb_eq. revert v Hv. apply byte_sweep. vm_compute. reflexivity. }
  now rewrite <- (V a), <- (V b), E.
Qed.
Lemma split_len {A} (a b c d : list A) : length a = length c -> a ++ b = c ++ d -> a = c /\ b = d.
Proof.
  revert c. induction a as [|x a IH]; intros [|y c] L E; try discriminate; [auto|].
  injection L as L. injection E as -> E. destruct (IH c L E). now subst.
Qed.
Lemma bits_bytes_prefix x : forall z p q r, bytes x -> bytes z -> (p < 8)%nat -> (q < 8)%nat ->
  bits_of_bytes z ++ repeat false q = (bits_of_bytes x ++ repeat false p) ++ r -> exists y, z = x ++ y.
Proof.
  induction x as [|a x IH]; intros z p q r Bx Bz P Q E; [exists z; reflexivity|].
  assert (L := f_equal (@length bool) E). rewrite !app_length, !repeat_length, !bits_of_bytes_len in L. cbn [length] in L.
  destruct z as [|c z]; [cbn [length] in L; lia|]. inversion Bx as [|? ? Ba Bx']. inversion Bz as [|? ? Bc Bz']. subst.
  unfold bits_of_bytes in E. cbn [flat_map] in E. rewrite <- !app_assoc in E.
  apply split_len in E as [S1 S2]; [|now rewrite !bits_of_len].
  apply byte_bits_inj in S1; auto. subst c.
  destruct (IH z p q r Bx' Bz' P Q) as [y ->]; [|exists y; reflexivity].
  rewrite <- app_assoc. exact S2.
Qed.

(** ** The values of a text that continues another *)
Lemma map_app_inv {A B} (f : A -> B) l u w : map f l = u ++ w -> exists a b, l = a ++ b /\ map f a = u /\ map f b = w.
Proof.
  revert l. induction u as [|c u IH]; intros l E; [exists [], l; auto|]. destruct l as [|v l]; [discriminate|].
  injection E as E1 E. destruct (IH l E) as (a & b & -> & Ha & Hb). exists (v :: a), b. repeat split; auto. cbn [map]. now rewrite E1, Ha.
Qed.
Lemma map_inj_on {A B} (P : A -> Prop) (f : A -> B) : (forall a b, P a -> P b -> f a = f b -> a = b) ->
  forall l m, Forall P l -> Forall P m -> map f l = map f m -> l = m.
Proof.
  intros I l. induction l as [|a l IH]; intros [|b m] Hl Hm E; try discriminate; [reflexivity|].
  inversion Hl as [|? ? Pa Hl']. inversion Hm as [|? ? Pb Hm']. subst. injection E as E1 E2. f_equal; [now apply I|now apply IH].
Qed.
Definition distinct (k : nat) (al : list Z) : Prop := forall a b, 0 <= a < 2 ^ Z.of_nat k -> 0 <= b < 2 ^ Z.of_nat k ->
  nth (Z.to_nat a) al 0 = nth (Z.to_nat b) al 0 -> a = b.
Lemma rfc_chars_prefix k al x z r : (0 < k <= 8)%nat -> distinct k al -> bytes x -> bytes z ->
  rfc_chars k al z = rfc_chars k al x ++ r -> exists y, z = x ++ y.
Proof.
  intros K D Bx Bz E. unfold rfc_chars in E. apply map_app_inv in E as (u & w & E & Eu & _).
  assert (Fz : Forall (fun v => 0 <= v < 2 ^ Z.of_nat k) (rfc_values k z)) by apply groups_bound.
  assert (Fx : Forall (fun v => 0 <= v < 2 ^ Z.of_nat k) (rfc_values k x)) by apply groups_bound.
  rewrite E in Fz. apply Forall_app in Fz as [Fu _].
  apply (map_inj_on _ _ D) in Eu; auto. subst u.
  destruct (bits_values k x ltac:(lia)) as (p & P & Hx). destruct (bits_values k z ltac:(lia)) as (q & Q & Hz).
  rewrite E, flat_map_app, Hx in Hz. apply (bits_bytes_prefix x z p q (flat_map (bits_of k) w)); auto; lia.
Qed.

(** ** Padding *)
Lemma unpadded_prefix u w i t : ~ In 61 u -> u ++ t = w ++ repeat 61 i -> exists r, w = u ++ r.
Proof.
  revert w. induction u as [|c u IH]; intros w N E; [exists w; reflexivity|]. destruct w as [|d w].
  - cbn [app] in E. assert (In c (repeat 61 i)) by (rewrite <- E; now left). apply repeat_spec in H. elim N. now left.
  - injection E as -> E. destruct (IH w ltac:(intro; apply N; now right) E) as [r ->]. exists r. reflexivity.
Qed.
Lemma rfc_encode_prefix k blk al pad x z b : (0 < k <= 8)%nat -> distinct k al -> bytes x -> bytes z -> ~ In 61 (rfc_chars k al x) ->
  rfc_encode k blk al pad z = rfc_encode k blk al pad x ++ b -> exists y, z = x ++ y.
Proof.
  intros K D Bx Bz N E. unfold rfc_encode in E. cbn zeta in E. rewrite <- app_assoc in E. symmetry in E.
  assert (exists i, rfc_chars k al x ++ (if pad then repeat pad_char (rfc_pad_len blk (length (rfc_chars k al x))) else []) ++ b = rfc_chars k al z ++ repeat 61 i) as [i E'].
  { destruct pad; [eexists; exact E|exists 0%nat; exact E]. }
  destruct (unpadded_prefix _ _ _ _ N E') as [r Er]. now apply (rfc_chars_prefix k al x z r).
Qed.

(** ** Whole bytes of a bit string that continues another *)
Lemma whole_prefix : forall f u w g, (length u <= f)%nat -> (length (u ++ w) <= g)%nat ->
  exists y, whole_bytes g (u ++ w) = whole_bytes f u ++ y.
Proof.
  induction f as [|f IH]; intros u w g F G; [eexists; reflexivity|]. cbn [whole_bytes].
  destruct (Nat.ltb_spec (length u) 8) as [L|L]; [eexists; reflexivity|].
  destruct g as [|g]; [rewrite app_length in G; lia|]. cbn [whole_bytes]. destruct (Nat.ltb_spec (length (u ++ w)) 8) as [L'|L']; [rewrite app_length in L'; lia|].
  rewrite firstn_app, skipn_app. replace (8 - length u)%nat with 0%nat by lia. rewrite firstn_O, app_nil_r. change (skipn 0 w) with w.
  destruct (IH (skipn 8 u) w g) as [y ->]; [rewrite skipn_length; lia|rewrite app_length, skipn_length; rewrite app_length in G; lia|].
  exists y. reflexivity.
Qed.

(** ** Characters and values *)
Lemma sequence_map_app {A B} (f : A -> option B) u : forall r v, sequence (map f (u ++ r)) = Some v ->
  exists v1 v2, v = v1 ++ v2 /\ sequence (map f u) = Some v1 /\ sequence (map f r) = Some v2.
Proof.
  induction u as [|c u IH]; intros r v E; [exists [], v; auto|]. cbn [app map sequence] in *.
  destruct (f c) as [y|]; [|discriminate]. destruct (sequence (map f (u ++ r))) as [t|] eqn:S; [|discriminate].
  destruct (IH r t S) as (v1 & v2 & -> & E1 & E2). injection E as <-. exists (y :: v1), v2. rewrite E1. auto.
Qed.
Lemma sequence_none_in {A B} (f : A -> option B) u c : In c u -> f c = None -> sequence (map f u) = None.
Proof.
  induction u as [|d u IH]; intros H E; [destruct H|]. cbn [map sequence]. destruct H as [->|H]; [now rewrite E|]. destruct (f d); [|reflexivity]. now rewrite IH.
Qed.

(** ** Nothing follows padding *)
Lemma rfc_after_padding k blk al x z b : ~ In 61 (rfc_chars k al x) -> ~ In 61 (rfc_chars k al z) -> In 61 (rfc_encode k blk al true x) ->
  rfc_encode k blk al true z = rfc_encode k blk al true x ++ b -> b = [].
Proof.
  intros Nx Nz P E. unfold rfc_encode in *. cbn zeta in *. change pad_char with 61 in *. set (cx := rfc_chars k al x) in *. set (cz := rfc_chars k al z) in *.
  apply in_app_or in P as [P|P]; [contradiction|]. rewrite <- app_assoc in E. symmetry in E.
  destruct (unpadded_prefix _ _ _ _ Nx E) as [r Er]. rewrite Er in E, Nz. rewrite <- app_assoc in E. apply app_inv_head in E.
  destruct r as [|c r].
  - rewrite app_nil_r in E. cbn [app] in E. apply (f_equal (@length Z)) in E. rewrite app_length in E. destruct b; [reflexivity|cbn in E; lia].
  - destruct (rfc_pad_len blk (length cx)) as [|n]; [destruct P|]. cbn [repeat app] in E. injection E as <- _.
    elim Nz. apply in_or_app. right. now left.
Qed.
