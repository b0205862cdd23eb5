(** The table generator [impl_alsw!] for an arbitrary alphabet: the scalar self tests imply that the vector code is exact. *)
From Coq Require Import ZArith List Bool Lia ZifyBool ZifyNat.
From Verif Require Import Bytes Isa Simd SimdFacts Alsw AlswFacts AlswTests.
Import ListNotations.
Open Scope Z_scope.
Ltac Zify.zify_post_hook ::= Z.div_mod_to_equations.

(** ** Filling a table from 255 downwards leaves the entry of the smallest character *)

Lemma nth_set_nth l i j v : (i < length l)%nat -> nth j (set_nth l i v) 0 = if (j =? i)%nat then v else nth j l 0.
Proof.
  revert i j; induction l as [|x l IH]; intros [|i] [|j] H; cbn in *; try lia; auto.
  rewrite IH by lia. reflexivity.
Qed.

Definition fill (sel : Z -> bool) (k : Z -> nat) (v : Z -> Z) (cs : list Z) (arr : list Z) : list Z :=
  fold_left (fun arr c => if sel c then arr else set_nth arr (k c) (v c)) cs arr.

Lemma fill_len sel k v cs arr : length (fill sel k v cs arr) = length arr.
Proof.
  revert arr; induction cs as [|c cs IH]; intro arr; cbn [fill fold_left]; [reflexivity|].
  unfold fill in IH. rewrite IH. destruct (sel c); [reflexivity|apply set_nth_len].
Qed.

Lemma fill_snoc sel k v cs c arr : fill sel k v (cs ++ [c]) arr =
  if sel c then fill sel k v cs arr else set_nth (fill sel k v cs arr) (k c) (v c).
Proof. unfold fill. now rewrite fold_left_app. Qed.

Lemma fill_find sel k v xs arr j : (forall c, (k c < length arr)%nat) ->
  nth j (fill sel k v (rev xs) arr) 0 =
  match find (fun c => negb (sel c) && (j =? k c)%nat) xs with Some c => v c | None => nth j arr 0 end.
Proof.
  intro K. induction xs as [|c xs IH]; [reflexivity|]. cbn [rev find]. rewrite fill_snoc.
  destruct (sel c); cbn [negb andb]; [exact IH|].
  rewrite nth_set_nth by (rewrite fill_len; apply K). destruct (j =? k c)%nat; [reflexivity|exact IH].
Qed.

Lemma find_smallest f n c x : find f (range n) = Some c -> 0 <= x < c -> f x = false.
Proof.
  unfold range. assert (G : forall n i c, find f (map Z.of_nat (seq i n)) = Some c -> forall x, Z.of_nat i <= x < c -> f x = false).
  { clear. induction n as [|n IH]; intros i c; cbn [seq map find]; [discriminate|].
    destruct (f (Z.of_nat i)) eqn:E.
    - intros [= <-]. intros; lia.
    - intros H x Hx. destruct (Z.eq_dec x (Z.of_nat i)) as [->|N]; [exact E|]. apply (IH (S i) c H). lia. }
  intros H Hx. apply (G n O c H). lia.
Qed.

(** the entry for [j]: untouched, or that of the smallest selected character with index [j] *)
Lemma fill_entry sel k v arr j : (forall c, (k c < length arr)%nat) ->
  (exists c, byte c /\ sel c = false /\ k c = j /\ nth j (fill sel k v down255 arr) 0 = v c /\
             forall x, byte x -> sel x = false -> k x = j -> c <= x) \/
  (nth j (fill sel k v down255 arr) 0 = nth j arr 0 /\ forall x, byte x -> sel x = false -> k x <> j).
Proof.
  intro K. unfold down255. rewrite (fill_find sel k v _ arr j K).
  destruct (find _ (range 256)) as [c|] eqn:E.
  - left. exists c. pose proof (find_some _ _ E) as [I S]. apply in_range in I. apply andb_true_iff in S as [S1 S2].
    apply negb_true_iff in S1. apply Nat.eqb_eq in S2. repeat split; auto; try (unfold byte; lia).
    intros x Hx X1 X2. destruct (Z_lt_le_dec x c) as [L|L]; [|exact L].
    assert (F := find_smallest _ _ _ x E ltac:(unfold byte in Hx; lia)). cbn beta in F.
    rewrite X1, X2, Nat.eqb_refl in F. discriminate F.
  - right. split; [reflexivity|]. intros x Hx X1 X2. assert (F := find_none _ _ E x).
    cbn beta in F. rewrite X1, X2, Nat.eqb_refl in F. discriminate F. apply in_range. unfold byte in Hx. lia.
Qed.

(** ** One lane *)

(** what the hash of [x] is before the bits of the neighbour are added *)
Definition hbase (h : Z -> Z) (x : Z) : Z := (x / 8 + (if x <? 128 then (h (x mod 16) * 2) mod 256 - 1 else 0) + 1) / 2.

Lemma tbl_hash h i : 0 <= i < 16 -> tbl_get (hash_table h) i = (h i * 2) mod 256 - 1.
Proof.
  intro Hi. unfold tbl_get, hash_table. rewrite (nth_indep _ 0 ((h 0 * 2) mod 256 - 1)) by (rewrite map_length; cbn; lia).
  change ((h 0 * 2) mod 256 - 1) with ((fun i => (h i * 2) mod 256 - 1) 0). rewrite map_nth. do 4 f_equal.
  unfold range. change 0 with (Z.of_nat 0). rewrite map_nth, seq_nth by lia. lia.
Qed.

Lemma land15 x : Z.land x 15 = x mod 16.
Proof. exact (Z.land_ones x 4 ltac:(lia)). Qed.
Lemma lor224 x : byte x -> Z.lor 224 (x / 8) = 224 + x / 8.
Proof.
  intro Hx. assert (S : forallb (fun x => Z.lor 224 (x / 8) =? 224 + x / 8) (range 256) = true) by (vm_compute; reflexivity).
  apply (sweep1 256 _ S) in Hx. now apply Z.eqb_eq.
Qed.

Lemma hash_lane h x : hash_compiles h -> byte x ->
  0 <= (if x <? 128 then (h (x mod 16) * 2) mod 256 - 1 else 0) < 255.
Proof.
  intros Hh Hx. destruct (x <? 128); [|lia]. destruct (Hh (x mod 16)) as [A B]; [unfold byte in Hx; lia|]. unfold byte in A. lia.
Qed.
Lemma pshufb_hash h x : byte x -> pshufb_lane (hash_table h) x = if x <? 128 then (h (x mod 16) * 2) mod 256 - 1 else 0.
Proof.
  intro Hx. unfold pshufb_lane, byte in *. destruct (x <? 128) eqn:E.
  - rewrite (proj2 (Z.leb_gt 128 x)) by lia. apply tbl_hash. lia.
  - rewrite (proj2 (Z.leb_le 128 x)) by lia. reflexivity.
Qed.
Lemma lookup_hash h x : byte x -> lookup (hash_table h) x = if x <? 128 then (h (x mod 16) * 2) mod 256 - 1 else 0.
Proof.
  intro Hx. unfold lookup, byte in *. destruct (x <? 128) eqn:E; [|reflexivity]. rewrite land15. apply tbl_hash. lia.
Qed.

Lemma scalar_hash h x : hash_compiles h -> byte x -> hash (hash_table h) x = hbase h x + 112 /\ 0 <= hbase h x <= 143.
Proof.
  intros Hh Hx. assert (R := hash_lane h x Hh Hx). unfold hash, avgr. rewrite lor224, lookup_hash by auto. unfold hbase.
  set (l := if x <? 128 then _ else _) in *. clearbody l. unfold byte in Hx. lia.
Qed.
Lemma vector_hash h x n : hash_compiles h -> byte x -> 0 <= n < 8 ->
  u8_avgr (x / 8 + 32 * n) (pshufb_lane (hash_table h) x) = hbase h x + 16 * n.
Proof.
  intros Hh Hx Hn. assert (R := hash_lane h x Hh Hx). unfold u8_avgr. rewrite pshufb_hash by auto. unfold hbase.
  set (l := if x <? 128 then _ else _) in *. clearbody l. unfold byte in Hx. lia.
Qed.
Lemma pshufb_at o b n : 0 <= b -> 0 <= n -> pshufb_lane o (b + 16 * n) = if 128 <=? b + 16 * n then 0 else tbl_get o (b mod 16).
Proof.
  intros. unfold pshufb_lane. destruct (128 <=? b + 16 * n); [reflexivity|]. f_equal. lia.
Qed.
Lemma lookup_at o b : 0 <= b -> lookup o (b + 112) = if 128 <=? b + 112 then 0 else tbl_get o (b mod 16).
Proof.
  intros. unfold lookup. rewrite land15. destruct (b + 112 <? 128) eqn:E.
  - rewrite (proj2 (Z.leb_gt _ _)) by lia. f_equal. lia.
  - rewrite (proj2 (Z.leb_le _ _)) by lia. reflexivity.
Qed.

(** ** The offset tables *)

Definition slot (h : Z -> Z) (c : Z) : nat := Z.to_nat (Z.land (hash (hash_table h) c) 15).
Lemma slot_lt h c : (slot h c < 16)%nat.
Proof. unfold slot. rewrite land15. lia. Qed.
Lemma slot_base h c : hash_compiles h -> byte c -> slot h c = Z.to_nat (hbase h c mod 16).
Proof. intros Hh Hc. unfold slot. rewrite land15. destruct (scalar_hash h c Hh Hc) as [-> R]. f_equal. lia. Qed.

Lemma check_offset_fill a : CHECK_OFFSET a =
  fill (fun c => al_decode a c =? 255) (slot (al_check_hash a)) (fun c => (0 - c) mod 256) down255 (repeat 128 16).
Proof. unfold CHECK_OFFSET, fill, slot, CHECK_HASH. reflexivity. Qed.
Lemma decode_offset_fill a : DECODE_OFFSET a =
  fill (fun c => al_decode a c =? 255) (slot (al_decode_hash a)) (fun c => (al_decode a c - c) mod 256) down255 (repeat 128 16).
Proof. unfold DECODE_OFFSET, fill, slot, DECODE_HASH. cbn zeta. reflexivity. Qed.

Section Gen.
  Context (a : alsw_spec) (DB : forall c, byte c -> byte (al_decode a c)).
  Context (CH : hash_compiles (al_check_hash a)) (TC : test_check a = true).

  Lemma tc x : byte x ->
    (i8_add_sat x (if 128 <=? hbase (al_check_hash a) x + 112 then 0 else tbl_get (CHECK_OFFSET a) (hbase (al_check_hash a) x mod 16)) <? 128)
    = negb (al_decode a x =? 255).
  Proof.
    intro Hx. assert (T := sweep1 256 _ TC x Hx). apply eqb_prop in T. rewrite <- T. unfold scalar_check.
    unfold CHECK_HASH at 1. destruct (scalar_hash _ x CH Hx) as [-> R]. now rewrite lookup_at by lia.
  Qed.

  (** no character from 248 on passes the self test *)
  Lemma top_not_in x : byte x -> 248 <= x -> al_decode a x = 255.
  Proof.
    intros Hx G. assert (T := tc x Hx).
    assert (B : hbase (al_check_hash a) x = 16).
    { unfold hbase. rewrite (proj2 (Z.ltb_ge x 128)) by lia. unfold byte in Hx. lia. }
    rewrite B in T. change (128 <=? 16 + 112) with true in T. cbn iota in T.
    unfold i8_add_sat, s8, clamp in T. change (0 <? 128) with true in T. cbn iota in T.
    rewrite (proj2 (Z.ltb_ge x 128)) in T by lia. unfold byte in Hx.
    rewrite (proj2 (Z.ltb_ge _ 128)) in T by lia. symmetry in T. apply negb_false_iff in T. now apply Z.eqb_eq in T.
  Qed.

  Lemma offset_entry j : (j < 16)%nat ->
    (exists c, byte c /\ al_decode a c <> 255 /\ hbase (al_check_hash a) c mod 16 = Z.of_nat j /\ tbl_get (CHECK_OFFSET a) (Z.of_nat j) = (0 - c) mod 256 /\
               forall x, byte x -> al_decode a x <> 255 -> hbase (al_check_hash a) x mod 16 = Z.of_nat j -> c <= x) \/
    (tbl_get (CHECK_OFFSET a) (Z.of_nat j) = 128 /\
     forall x, byte x -> al_decode a x <> 255 -> hbase (al_check_hash a) x mod 16 <> Z.of_nat j).
  Proof.
    intro Hj. unfold tbl_get. rewrite Nat2Z.id, check_offset_fill.
    destruct (fill_entry (fun c => al_decode a c =? 255) (slot (al_check_hash a)) (fun c => (0 - c) mod 256) (repeat 128 16) j
                (fun c => slot_lt _ c)) as [(c & Hc & S & K & E & M)|[E M]].
    - left. exists c. rewrite slot_base in K by auto. assert (R := proj2 (scalar_hash _ c CH Hc)).
      split; [exact Hc|]. split; [now apply Z.eqb_neq|]. split; [lia|]. split; [exact E|].
      intros x Hx X1 X2. apply M; auto; [now apply Z.eqb_neq|]. rewrite slot_base by auto. rewrite X2. apply Nat2Z.id.
    - right. split.
      + rewrite E. clear - Hj. do 16 (destruct j as [|j]; [reflexivity|]). lia.
      + intros x Hx X1 X2. apply (M x Hx); [now apply Z.eqb_neq|]. rewrite slot_base by auto. rewrite X2. apply Nat2Z.id.
  Qed.

  Lemma check_lane_gen x sh : byte x -> shr3_of x sh ->
    byte (check_lane (check_lut a) x sh) /\ (128 <=? check_lane (check_lut a) x sh) = (al_decode a x =? 255) /\
    byte (u8_avgr sh (pshufb_lane (fst (check_lut a)) x)).
  Proof.
    intros Hx (n & Hn & ->). unfold check_lane, check_lut. cbn [fst snd]. unfold CHECK_HASH.
    rewrite vector_hash by auto. destruct (scalar_hash _ x CH Hx) as [_ R]. set (b := hbase (al_check_hash a) x) in *.
    rewrite pshufb_at by lia.
    assert (P : forall o, 0 <= o < 256 -> byte (i8_add_sat x o)) by (intros; unfold i8_add_sat, clamp, byte; lia).
    assert (O : 0 <= tbl_get (CHECK_OFFSET a) (b mod 16) < 256).
    { destruct (offset_entry (Z.to_nat (b mod 16)) ltac:(lia)) as [(c & _ & _ & _ & E & _)|[E _]]; rewrite Z2Nat.id in E by lia; rewrite E; lia. }
    split; [apply P; destruct (_ <=? _); lia|]. split; [|unfold byte in *; unfold b, hbase in *; lia].
    assert (T := tc x Hx). fold b in T. rewrite (Z.leb_antisym _ 128).
    apply (f_equal negb) in T. rewrite negb_involutive in T.
    destruct (128 <=? b + 16 * n) eqn:E1.
    { rewrite (proj2 (Z.leb_le _ _)) in T by lia. exact T. }
    destruct (128 <=? b + 112) eqn:E2; [|exact T].
    (* the scalar test saw no offset, the vector lane does *)
    unfold byte in Hx. destruct (x <? 128) eqn:X.
    - assert (I : al_decode a x =? 255 = false).
      { rewrite <- T. unfold i8_add_sat, s8, clamp. rewrite X. change (0 <? 128) with true. cbn iota. lia. }
      rewrite I. destruct (offset_entry (Z.to_nat (b mod 16)) ltac:(lia)) as [(c & Hc & _ & _ & E & M)|[_ M]]; rewrite Z2Nat.id in * by lia.
      + assert (L : c <= x) by (apply M; auto; now apply Z.eqb_neq). rewrite E. unfold byte in Hc.
        unfold i8_add_sat, s8, clamp. rewrite X. destruct ((0 - c) mod 256 <? 128) eqn:C; lia.
      + exfalso. apply (M x); auto. now apply Z.eqb_neq.
    - assert (B16 : b = 16) by (unfold b, hbase in *; rewrite X in *; lia).
      assert (X2 : 248 <= x) by (unfold b, hbase in *; rewrite X in *; lia).
      rewrite (top_not_in x) by (auto; lia). rewrite Z.eqb_refl.
      destruct (offset_entry (Z.to_nat (b mod 16)) ltac:(lia)) as [(c & Hc & D & K & E & _)|[E _]]; rewrite Z2Nat.id in * by lia; rewrite E.
      + assert (C : c < 128).
        { destruct (Z_lt_le_dec c 128) as [|G]; [assumption|]. exfalso. apply D, top_not_in; [exact Hc|].
          rewrite B16 in K. unfold hbase in K. rewrite (proj2 (Z.ltb_ge c 128)) in K by lia. unfold byte in Hc. lia. }
        unfold byte in Hc. unfold i8_add_sat, s8, clamp. rewrite X. destruct ((0 - c) mod 256 <? 128) eqn:Q; lia.
      + unfold i8_add_sat, s8, clamp. rewrite X. change (128 <? 128) with false. cbn iota. lia.
  Qed.

  Lemma decode_lane_byte h o x sh : byte (decode_lane (h, o) x sh).
  Proof. unfold decode_lane, u8_add, byte. lia. Qed.

  (** the hash values of the decoding table are small enough for the neighbour's bits never to reach bit 7 *)
  Context (DH : forall i, 0 <= i < 16 -> 1 <= al_decode_hash a i <= 8) (TD : test_decode a = true).

  Lemma dh_compiles : hash_compiles (al_decode_hash a).
  Proof. intros i Hi. specialize (DH i Hi). unfold byte. lia. Qed.

  Lemma decode_lane_gen x sh : byte x -> shr3_of x sh -> al_decode a x <> 255 ->
    decode_lane (decode_lut a) x sh = al_decode a x.
  Proof.
    intros Hx (n & Hn & ->) D. assert (T := sweep1 256 _ TD x Hx). cbn beta zeta in T.
    rewrite (proj2 (Z.eqb_neq _ _) D) in T. cbn [orb] in T. apply Z.eqb_eq in T. rewrite <- T.
    unfold scalar_decode, decode_lane, decode_lut. cbn [fst snd]. unfold DECODE_HASH.
    assert (C := dh_compiles). rewrite vector_hash by auto. destruct (scalar_hash _ x C Hx) as [-> R].
    assert (B : hbase (al_decode_hash a) x <= 15).
    { assert (X : x < 248). { destruct (Z_lt_le_dec x 248); [assumption|]. exfalso. apply D, top_not_in; assumption. }
      unfold hbase, byte in *. destruct (x <? 128) eqn:E; [|lia]. specialize (DH (x mod 16) ltac:(lia)). lia. }
    rewrite pshufb_at, lookup_at by lia. rewrite !(proj2 (Z.leb_gt _ _)) by lia. reflexivity.
  Qed.

  Lemma alsw_exact_gen : alsw_exact a.
  Proof.
    intros x sh Hx Hs. unfold alsw_point, alsw_point_t. cbn zeta.
    destruct (check_lane_gen x sh Hx Hs) as (A & B & C). rewrite !andb_true_iff.
    rewrite !byteb_byte, B, eqb_reflx. repeat split; auto; try apply A; try apply C; try apply decode_lane_byte.
    - destruct (al_decode a x =? 255) eqn:E; [reflexivity|]. apply Z.eqb_neq in E. cbn [orb]. apply Z.eqb_eq. now apply decode_lane_gen.
    - destruct Hs as (n & Hn & ->). cbn [fst decode_lut]. unfold DECODE_HASH. rewrite vector_hash by auto using dh_compiles.
      destruct (scalar_hash _ x dh_compiles Hx). unfold byte in Hx. lia.
    - destruct Hs as (n & Hn & ->). cbn [fst decode_lut]. unfold DECODE_HASH. rewrite vector_hash by auto using dh_compiles.
      assert (R := proj2 (scalar_hash _ x dh_compiles Hx)).
      assert (hbase (al_decode_hash a) x <= 24); [|lia].
      unfold hbase, byte in *. destruct (x <? 128) eqn:E; [|lia]. specialize (DH (x mod 16) ltac:(lia)). lia.
  Qed.
End Gen.
