(** Facts about the bit-string specification of RFC 4648 encodings. *)
From Coq Require Import ZArith List Bool Lia ZifyBool ZifyNat.
From Verif Require Import Bytes Spec.
Import ListNotations.
Open Scope Z_scope.
Ltac Zify.zify_post_hook ::= Z.div_mod_to_equations.

Lemma bits_of_len n v : length (bits_of n v) = n.
Proof. induction n; cbn [bits_of length]; [reflexivity|]. now rewrite IHn. Qed.

Lemma groups_cons f k g r : length g = k -> (0 < k)%nat -> groups (S f) k (g ++ r) = val_of g :: groups f k r.
Proof.
  intros L Hk. destruct g as [|x g]; [cbn in L; lia|]. cbn [groups app].
  change (x :: g ++ r) with ((x :: g) ++ r).
  rewrite firstn_app_exact, skipn_app_exact by exact L. rewrite app_length.
  replace (k - (length (x :: g) + length r))%nat with 0%nat by lia. cbn [repeat]. now rewrite app_nil_r.
Qed.

Lemma groups_fuel k bs : (0 < k)%nat -> forall f f', (length bs <= f)%nat -> (length bs <= f')%nat -> groups f k bs = groups f' k bs.
Proof.
  intro Hk. assert (G : forall n bs f f', (length bs <= n)%nat -> (length bs <= f)%nat -> (length bs <= f')%nat -> groups f k bs = groups f' k bs).
  { induction n; intros b f f' L Lf Lf'.
    - destruct b; [|cbn in L; lia]. now destruct f, f'.
    - destruct b as [|x b]; [now destruct f, f'|]. destruct f as [|f], f' as [|f']; cbn [length] in *; try lia.
      cbn [groups]. f_equal. apply IHn; rewrite skipn_length; cbn [length]; lia. }
  intros f f'. now apply (G (length bs)).
Qed.

Lemma groups_nil f k : groups f k [] = [].
Proof. now destruct f. Qed.
Lemma groups_last f k g : (length g <= k)%nat -> (0 < length g)%nat -> groups (S f) k g = [val_of (g ++ repeat false (k - length g))].
Proof.
  intros L H. destruct g as [|x g]; [cbn in H; lia|]. cbn [groups].
  rewrite firstn_all2 by exact L. rewrite skipn_all2 by exact L. now rewrite groups_nil.
Qed.

Lemma bits_of_bytes_len l : length (bits_of_bytes l) = (8 * length l)%nat.
Proof.
  induction l as [|a l IH]; [reflexivity|]. unfold bits_of_bytes in *. cbn [flat_map]. rewrite app_length, IH, bits_of_len. cbn [length]. lia.
Qed.

Lemma whole_bytes_fuel bs : forall f f', (length bs <= f)%nat -> (length bs <= f')%nat -> whole_bytes f bs = whole_bytes f' bs.
Proof.
  assert (G : forall n bs f f', (length bs <= n)%nat -> (length bs <= f)%nat -> (length bs <= f')%nat -> whole_bytes f bs = whole_bytes f' bs).
  { induction n; intros b f f' L Lf Lf'.
    - destruct b; [|cbn in L; lia]. now destruct f, f'.
    - destruct f as [|f], f' as [|f']; try (now destruct b; [reflexivity|cbn in *; lia]).
      cbn [whole_bytes]. destruct (Nat.ltb_spec (length b) 8); [reflexivity|]. f_equal. apply IHn; rewrite skipn_length; lia. }
  intros f f'. now apply (G (length bs)).
Qed.
Lemma whole_bytes_cons f g r : length g = 8%nat -> whole_bytes (S f) (g ++ r) = val_of g :: whole_bytes f r.
Proof.
  intro L. cbn [whole_bytes]. rewrite app_length. destruct (Nat.ltb_spec (length g + length r) 8); [lia|].
  now rewrite firstn_app_exact, skipn_app_exact by exact L.
Qed.

(** the value of concatenated bit strings *)
Lemma val_of_acc bs acc : fold_left (fun acc b => 2 * acc + (if b : bool then 1 else 0)) bs acc = acc * 2 ^ Z.of_nat (length bs) + val_of bs.
Proof.
  unfold val_of. revert acc. induction bs as [|b bs IH]; intro acc; [cbn; lia|]. cbn [fold_left length].
  rewrite (IH (2 * acc + _)), (IH (2 * 0 + _)). rewrite Nat2Z.inj_succ, Z.pow_succ_r by lia. ring.
Qed.
Lemma val_app2 p q n x y : length q = n -> val_of p = x -> val_of q = y -> val_of (p ++ q) = x * 2 ^ Z.of_nat n + y.
Proof. intros <- <- <-. unfold val_of at 1. rewrite fold_left_app. apply val_of_acc. Qed.
Ltac sweep_val x H := apply Z.eqb_eq; revert x H; apply byte_sweep; vm_compute; reflexivity.
Ltac sweep_val6 x H := apply Z.eqb_eq; revert x H; apply (sweep1 64); vm_compute; reflexivity.
