(** The base32 decoders and checkers compute the specification and touch only what they may. *)
From Coq Require Import ZArith List Bool Lia ZifyBool ZifyNat.
From Verif Require Import Bytes Mem MemFacts Loops Loops2 Isa Simd SimdFacts Alsw AlswFacts Spec Ints HexFacts Base64Facts Base64DecFacts Base32 Base32SimdFacts Base32SimdDec Base32Ref Base32Facts.
Import ListNotations.
Open Scope Z_scope.
Open Scope m_scope.
Ltac Zify.zify_post_hook ::= Z.div_mod_to_equations.

(** ** Tables and flags *)
Lemma b32_table_len k : length (b32_table k) = 256%nat.
Proof. destruct k; vm_compute; reflexivity. Qed.
Lemma b32_table_dv k c : byte c -> nth (Z.to_nat c) (b32_table k) 0 = dv32 k c.
Proof. intro H. apply Z.eqb_eq. destruct k; revert c H; apply byte_sweep; vm_compute; reflexivity. Qed.
Lemma b32_table_map k x : bytes x -> map (fun c => nth (Z.to_nat c) (b32_table k) 0) x = map (dv32 k) x.
Proof. intro B. apply map_ext_in. intros c Hc. apply b32_table_dv. unfold bytes in B. rewrite Forall_forall in B. auto. Qed.
Lemma dv32_okv k c : byte c -> okv (dv32 k c) = true.
Proof. intro H. destruct k; revert c H; apply byte_sweep; vm_compute; reflexivity. Qed.
Lemma flags32_ok k x f : bytes x -> okv f = true ->
  (fold_left Z.lor (map (dv32 k) x) f =? 255) = (f =? 255) || existsb (b32_bad k) x.
Proof.
  intro B. revert f. induction B as [|c x Hc Hx IH]; intros f F; cbn [map fold_left existsb].
  - now rewrite orb_false_r.
  - destruct (okv_lor f (dv32 k c) F (dv32_okv k c Hc)) as [F' E]. rewrite IH by exact F'. rewrite E, <- orb_assoc. reflexivity.
Qed.

(** ** Integers *)
Definition acc5 (l : list Z) : Z := fold_left (fun a v => a * 32 + v) l 0.
Lemma acc5_snoc l v : acc5 (l ++ [v]) = acc5 l * 32 + v.
Proof. unfold acc5. now rewrite fold_left_app. Qed.
Lemma acc5_bound l : Forall five l -> 0 <= acc5 l < 2 ^ (5 * Z.of_nat (length l)).
Proof.
  induction l as [|v l IH] using rev_ind; intro F; [now cbn|].
  apply Forall_app in F as [F1 F2]. inversion F2 as [|? ? Hv _]; subst. unfold five in Hv. specialize (IH F1).
  rewrite acc5_snoc, app_length. cbn [length].
  replace (5 * Z.of_nat (length l + 1)) with (5 * Z.of_nat (length l) + 5) by lia. rewrite Z.pow_add_r by lia. change (2 ^ 5) with 32. lia.
Qed.
Lemma fold_shift l : Forall five l -> (length l <= 12)%nat ->
  fold_left (fun a v => Z.lor (Z.shiftl a 5 mod 2 ^ 64) v) l 0 = acc5 l.
Proof.
  induction l as [|v l IH] using rev_ind; intros F L; [reflexivity|].
  apply Forall_app in F as [F1 F2]. inversion F2 as [|? ? Hv _]; subst. unfold five in Hv.
  rewrite app_length in L. cbn [length] in L. rewrite fold_left_app, IH by (auto; lia). cbn [fold_left]. rewrite acc5_snoc.
  pose proof (acc5_bound l F1) as Hb. rewrite Z.shiftl_mul_pow2 by lia. change (2 ^ 5) with 32.
  assert (2 ^ (5 * Z.of_nat (length l)) <= 2 ^ 55) by (apply Z.pow_le_mono_r; lia).
  change (2 ^ 55) with 36028797018963968 in *. change (2 ^ 64) with 18446744073709551616.
  rewrite Z.mod_small by lia. apply (lor_add _ _ 5); [lia|apply Z.mod_mul; lia|exact Hv].
Qed.
Lemma fold_pair l : forall a f, 
  fold_left (fun (st : Z * Z) (p : nat * Z) => (Z.lor (Z.shiftl (fst st) 5 mod 2 ^ 64) (snd p), Z.lor (snd st) (snd p))) l (a, f)
  = (fold_left (fun a v => Z.lor (Z.shiftl a 5 mod 2 ^ 64) v) (map snd l) a, fold_left Z.lor (map snd l) f).
Proof. induction l as [|[i v] l IH]; intros a f; [reflexivity|]. cbn [fold_left map fst snd]. now rewrite IH. Qed.
Lemma map_snd_combine {A B} (l : list A) (r : list B) : length l = length r -> map snd (combine l r) = r.
Proof. revert r. induction l as [|a l IH]; intros [|b r] H; try discriminate H; [reflexivity|]. cbn. f_equal. apply IH. now injection H. Qed.

Lemma be_bytes_S n x : be_bytes (S n) x = be_bytes n (x / 256) ++ [x mod 256].
Proof. reflexivity. Qed.
Lemma be_bytes_map N x : be_bytes N x = map (fun i => (x / 2 ^ (Z.of_nat (N - 1 - i) * 8)) mod 256) (seq 0 N).
Proof.
  revert x. induction N as [|N IH]; intro x; [reflexivity|]. rewrite be_bytes_S, IH, seq_S, map_app. cbn [Nat.add map]. f_equal.
  - apply map_ext_in. intros i Hi. apply in_seq in Hi. f_equal. rewrite Z.div_div by (try apply Z.pow_pos_nonneg; lia).
    f_equal. replace (Z.of_nat (S N - 1 - i) * 8) with (8 + Z.of_nat (N - 1 - i) * 8) by lia. now rewrite Z.pow_add_r by lia.
  - replace (S N - 1 - N)%nat with 0%nat by lia. now rewrite Z.div_1_r.
Qed.
Lemma be_bytes_cons N x : be_bytes (S N) x = (x / 2 ^ (Z.of_nat N * 8)) mod 256 :: be_bytes N x.
Proof.
  rewrite !be_bytes_map. cbn [seq map]. rewrite Nat.sub_0_r, Nat.sub_succ, Nat.sub_0_r. f_equal.
  rewrite <- seq_shift, map_map. apply map_ext. intro i. do 5 f_equal. lia.
Qed.
Lemma be_bytes_mod N x : be_bytes N (x mod 2 ^ (Z.of_nat N * 8)) = be_bytes N x.
Proof.
  revert x. induction N as [|N IH]; intro x; [reflexivity|]. rewrite !be_bytes_S.
  assert (P : 2 ^ (Z.of_nat (S N) * 8) = 256 * 2 ^ (Z.of_nat N * 8)).
  { replace (Z.of_nat (S N) * 8) with (8 + Z.of_nat N * 8) by lia. now rewrite Z.pow_add_r by lia. }
  assert (P0 : 0 < 2 ^ (Z.of_nat N * 8)) by (apply Z.pow_pos_nonneg; lia).
  rewrite P. f_equal.
  - rewrite <- (IH (x / 256)). f_equal.
    rewrite Z.rem_mul_r by lia. rewrite Z.add_comm, Z.mul_comm, Z.div_add_l by lia. rewrite (Z.div_small (x mod 256)) by (apply Z.mod_pos_bound; lia). lia.
  - f_equal. rewrite Z.rem_mul_r by lia. rewrite Z.add_comm, Z.mul_comm, Z.add_comm, Z.mod_add by lia. apply Z.mod_mod. lia.
Qed.

(** ** Values of the decoded groups *)
Lemma quint_be a b c d e f g h : five a -> five b -> five c -> five d -> five e -> five f -> five g -> five h ->
  be_bytes 5 (acc5 [a; b; c; d; e; f; g; h]) = quint a b c d e f g h.
Proof.
  unfold five. intros. unfold be_bytes, acc5. cbn [fold_left le_bytes].
  set (hi := ((a * 32 + b) * 32 + c) * 32 + d). set (lo := ((e * 32 + f) * 32 + g) * 32 + h).
  assert (Hlo : 0 <= lo < 1048576) by (unfold lo; lia). assert (Hhi : 0 <= hi < 1048576) by (unfold hi; lia).
  replace ((((((((0 * 32 + a) * 32 + b) * 32 + c) * 32 + d) * 32 + e) * 32 + f) * 32 + g) * 32 + h) with (hi * 1048576 + lo) by (unfold hi, lo; lia).
  replace ((hi * 1048576 + lo) mod 256) with (lo mod 256) by lia.
  replace ((hi * 1048576 + lo) / 256) with (hi * 4096 + lo / 256) by lia.
  replace ((hi * 4096 + lo / 256) mod 256) with (lo / 256 mod 256) by lia.
  replace ((hi * 4096 + lo / 256) / 256) with (hi * 16 + lo / 65536) by lia.
  replace ((hi * 16 + lo / 65536) mod 256) with (hi mod 16 * 16 + lo / 65536) by lia.
  replace ((hi * 16 + lo / 65536) / 256) with (hi / 16) by lia.
  replace (hi / 16 / 256) with (hi / 4096) by lia.
  cbn [rev app]. unfold quint, hi, lo. list_lia.
Qed.
Lemma quint2 a b : five a -> five b -> be_bytes 1 (acc5 [a; b] / 4) = firstn 1 (quint a b 0 0 0 0 0 0) /\ acc5 [a; b] mod 4 = b mod 4.
Proof. unfold five. intros. unfold be_bytes, acc5. cbn [fold_left le_bytes rev app quint firstn]. split; [list_lia|lia]. Qed.
Lemma quint4 a b c d : five a -> five b -> five c -> five d ->
  be_bytes 2 (acc5 [a; b; c; d] / 16) = firstn 2 (quint a b c d 0 0 0 0) /\ acc5 [a; b; c; d] mod 16 = d mod 16.
Proof. unfold five. intros. unfold be_bytes, acc5. cbn [fold_left le_bytes rev app quint firstn]. split; [list_lia|lia]. Qed.
Lemma quint5 a b c d e : five a -> five b -> five c -> five d -> five e ->
  be_bytes 3 (acc5 [a; b; c; d; e] / 2) = firstn 3 (quint a b c d e 0 0 0) /\ acc5 [a; b; c; d; e] mod 2 = e mod 2.
Proof. unfold five. intros. unfold be_bytes, acc5. cbn [fold_left le_bytes rev app quint firstn]. split; [list_lia|lia]. Qed.
Lemma quint7 a b c d e f g : five a -> five b -> five c -> five d -> five e -> five f -> five g ->
  be_bytes 4 (acc5 [a; b; c; d; e; f; g] / 8) = firstn 4 (quint a b c d e f g 0) /\ acc5 [a; b; c; d; e; f; g] mod 8 = g mod 8.
Proof.
  unfold five. intros. unfold be_bytes, acc5. cbn [fold_left le_bytes rev app quint firstn].
  set (hi := ((a * 32 + b) * 32 + c) * 32 + d). set (lo := (e * 32 + f) * 32 + g).
  assert (Hlo : 0 <= lo < 32768) by (unfold lo; lia). assert (Hhi : 0 <= hi < 1048576) by (unfold hi; lia).
  replace (((((((0 * 32 + a) * 32 + b) * 32 + c) * 32 + d) * 32 + e) * 32 + f) * 32 + g) with (hi * 32768 + lo) by (unfold hi, lo; lia).
  split.
  - replace ((hi * 32768 + lo) / 8) with (hi * 4096 + lo / 8) by lia.
    replace ((hi * 4096 + lo / 8) mod 256) with (lo / 8 mod 256) by lia.
    replace ((hi * 4096 + lo / 8) / 256) with (hi * 16 + lo / 2048) by lia.
    replace ((hi * 16 + lo / 2048) mod 256) with (hi mod 16 * 16 + lo / 2048) by lia.
    replace ((hi * 16 + lo / 2048) / 256) with (hi / 16) by lia.
    replace (hi / 16 / 256) with (hi / 4096) by lia. unfold hi, lo. list_lia.
  - unfold hi, lo. lia.
Qed.

(** ** Reading characters, writing big-endian integers *)
Section IO.
  Context (m0 : mem) (bs so : nat) (total : list Z) (bd d0 cap : nat) (t : target) (k : b32_kind).
  Notation ppt := (pp bs so total).
  Notation qqt := (qq bd d0).
  Notation TSt := (TS m0 bs so total bd d0 cap).
  Notation bad := (existsb (b32_bad k)).

  Lemma wp_decode_bits out x r m N (Q : Z * Z -> mem -> Prop) :
    TSt out (x ++ r) m -> bytes x -> length x = N -> (N <= 12)%nat ->
    (forall u f, (f =? 255) = bad x -> (bad x = false -> u = acc5 (map (dv32 k) x)) -> Q (u, f) m) ->
    wp (decode_bits N (ppt (x ++ r)) (b32_table k)) Q m.
  Proof.
    intros T B L H12 HQ. unfold decode_bits.
    eapply (wp_for_table m0 bs so total bd d0 cap (b32_table k)
      (fun _ b st => (Z.lor (Z.shiftl (fst st) 5 mod 2 ^ 64) b, Z.lor (snd st) b))); [exact T|exact L|exact B|apply b32_table_len|].
    rewrite b32_table_map by exact B. rewrite fold_pair, map_snd_combine by (rewrite seq_length, map_length; auto).
    apply HQ.
    - now rewrite flags32_ok.
    - intro G. apply fold_shift; [|rewrite map_length; lia]. apply b32_vals_five; auto.
  Qed.

  Lemma wp_write_loop n i x N z out rest m (Q : unit -> mem -> Prop) :
    TSt (out ++ z) rest m -> length z = i -> (length out + i + n <= cap)%nat ->
    (bs <> bd \/ so + length total <= d0 \/ d0 + length out + i + n <= so + (length total - length rest))%nat ->
    (forall m', TSt (out ++ z ++ map (fun i => (x / 2 ^ (Z.of_nat (N - 1 - i) * 8)) mod 256) (seq i n)) rest m' -> Q tt m') ->
    wp (for_ n i (fun i _ => write (qqt out) i (Z.shiftr x (Z.of_nat (N - 1 - i) * 8) mod 256)) tt) Q m.
  Proof.
    revert z i m. induction n as [|n IH]; intros z i m T Lz Hc Ha HQ; cbn [for_].
    - apply wp_ret. apply HQ. cbn [seq map]. now rewrite app_nil_r.
    - apply wp_bind. eapply wp_dst_write_at; [exact T|exact Lz|lia|lia|]. intros m' T'. rewrite Z.shiftr_div_pow2 in T' by lia.
      eapply (IH _ (S i) m'); [exact T'|rewrite app_length; cbn [length]; lia|lia|lia|].
      intros m2 T2. apply HQ. rewrite <- app_assoc in T2. exact T2.
  Qed.

  Lemma wp_write_be N x out rest m (Q : unit -> mem -> Prop) :
    TSt out rest m -> (length out + N <= cap)%nat ->
    (bs <> bd \/ so + length total <= d0 \/ d0 + length out + N <= so + (length total - length rest))%nat ->
    (forall m', TSt (out ++ be_bytes N x) rest m' -> Q tt m') ->
    wp (write_be_bytes t N (qqt out) x) Q m.
  Proof.
    intros T Hc Ha HQ. unfold write_be_bytes.
    destruct (negb (t_wasm32 t) && (N =? 3)%nat) eqn:G3.
    { apply andb_true_iff in G3 as [_ G3]. apply Nat.eqb_eq in G3. subst N. cbn zeta.
      apply wp_bind. eapply wp_dst_write; [exact T|lia|lia|]. intros m1 T1.
      apply wp_bind. eapply wp_dst_add; [exact T1|reflexivity|].
      eapply wp_dst_store; [exact T1|rewrite app_length, native_to_be, be_bytes_len; cbn [length]; lia|rewrite app_length, native_to_be, be_bytes_len; cbn [length]; lia|].
      intros m2 T2. apply HQ. rewrite be_bytes_cons, <- (be_bytes_mod 2). rewrite native_to_be, Z.shiftr_div_pow2, <- app_assoc in T2 by lia. exact T2. }
    destruct (negb (t_wasm32 t) && (N =? 5)%nat) eqn:G5.
    { apply andb_true_iff in G5 as [_ G5]. apply Nat.eqb_eq in G5. subst N. cbn zeta.
      apply wp_bind. eapply wp_dst_write; [exact T|lia|lia|]. intros m1 T1.
      apply wp_bind. eapply wp_dst_add; [exact T1|reflexivity|].
      eapply wp_dst_store; [exact T1|rewrite app_length, native_to_be, be_bytes_len; cbn [length]; lia|rewrite app_length, native_to_be, be_bytes_len; cbn [length]; lia|].
      intros m2 T2. apply HQ. rewrite be_bytes_cons, <- (be_bytes_mod 4). rewrite native_to_be, Z.shiftr_div_pow2, <- app_assoc in T2 by lia. exact T2. }
    eapply (wp_write_loop N 0 x N [] out); [rewrite app_nil_r; exact T|reflexivity|lia|lia|].
    intros m' T'. apply HQ. rewrite be_bytes_map. exact T'.
  Qed.

  (** one arm of the left-over characters *)
  Definition tail_ok (spare : nat) (x : list Z) : bool := negb (bad x) && (acc5 (map (dv32 k) x) mod 2 ^ Z.of_nat spare =? 0).
  Lemma wp_arm_write N spare nb x out m (Q : result unit -> mem -> Prop) :
    TSt out x m -> bytes x -> length x = N -> (N <= 12)%nat -> (length out + nb <= cap)%nat ->
    (bs <> bd \/ so + length total <= d0 \/ d0 + length out + nb <= so + length total)%nat ->
    (forall m', tail_ok spare x = false -> Frame m0 bd d0 cap m' -> Q Err m') ->
    (forall m', tail_ok spare x = true -> TSt (out ++ be_bytes nb (acc5 (map (dv32 k) x) / 2 ^ Z.of_nat spare)) [] m' -> Q (Ok tt) m') ->
    wp (decode_arm t true N spare nb (ppt x) (qqt out) (b32_table k)) Q m.
  Proof.
    intros T B L H12 Hc Ha HE HO. unfold decode_arm. rewrite <- (app_nil_r x) in T |- *.
    apply wp_bind. eapply wp_decode_bits; [exact T|exact B|exact L|exact H12|]. apply TS_adv in T.
    intros u f Hf Hu. unfold tail_ok in HE, HO. rewrite Hf. destruct (bad x) eqn:G; cbn [negb andb] in HE, HO |- *.
    { apply wp_ret. apply HE; [reflexivity|eapply TS_frame; exact T]. }
    rewrite (Hu eq_refl) in *. clear Hu. set (a := acc5 (map (dv32 k) x)) in *.
    assert (EL : Z.land a (2 ^ Z.of_nat spare - 1) = a mod 2 ^ Z.of_nat spare).
    { rewrite <- Z.land_ones by lia. now rewrite Z.ones_equiv. }
    rewrite EL. destruct (a mod 2 ^ Z.of_nat spare =? 0) eqn:Z0.
    - apply wp_bind. eapply wp_write_be; [exact T|exact Hc|cbn [length]; lia|]. intros m' T'. apply wp_ret. apply HO; auto.
      now rewrite Z.shiftr_div_pow2 in T' by lia.
    - apply wp_ret. apply HE; [reflexivity|eapply TS_frame; exact T].
  Qed.
  Lemma wp_arm_check N spare nb x out m (Q : result unit -> mem -> Prop) :
    TSt out x m -> bytes x -> length x = N -> (N <= 12)%nat ->
    Q (if tail_ok spare x then Ok tt else Err) m ->
    wp (decode_arm t false N spare nb (ppt x) null (b32_table k)) Q m.
  Proof.
    intros T B L H12 HQ. unfold decode_arm. rewrite <- (app_nil_r x) in T |- *.
    apply wp_bind. eapply wp_decode_bits; [exact T|exact B|exact L|exact H12|].
    intros u f Hf Hu. unfold tail_ok in HQ. rewrite Hf. destruct (bad x) eqn:G; cbn [negb andb] in HQ |- *.
    { now apply wp_ret. }
    rewrite (Hu eq_refl) in *. clear Hu. set (a := acc5 (map (dv32 k) x)) in *.
    assert (EL : Z.land a (2 ^ Z.of_nat spare - 1) = a mod 2 ^ Z.of_nat spare).
    { rewrite <- Z.land_ones by lia. now rewrite Z.ones_equiv. }
    rewrite EL. destruct (a mod 2 ^ Z.of_nat spare =? 0).
    - apply wp_bind, wp_ret, wp_ret. exact HQ.
    - apply wp_ret. exact HQ.
  Qed.

  Definition arm_of (n : nat) : nat * nat := nth n [(0, 0); (0, 0); (2, 1); (0, 0); (4, 2); (1, 3); (0, 0); (3, 4)]%nat (0, 0)%nat.
  Lemma b32d_tail_eq x : bytes x -> (length x < 8)%nat -> b32_len_ok (length x) = true -> x <> [] ->
    b32d k x = if tail_ok (fst (arm_of (length x))) x
               then Some (be_bytes (snd (arm_of (length x))) (acc5 (map (dv32 k) x) / 2 ^ Z.of_nat (fst (arm_of (length x))))) else None.
  Proof.
    intros B L LO NE. rewrite b32d_small by exact L. unfold b32d_tail, tail_ok.
    destruct (bad x) eqn:G; cbn [negb andb]; [reflexivity|].
    pose proof (b32_vals_five k x B G) as F. fold (dv32 k) in F. change (map (al_decode (b32_alsw k)) x) with (map (dv32 k) x) in F.
    short x L; try discriminate LO; [now destruct NE|..]; cbn [map length] in *; inv_five.
    - destruct (quint2 (dv32 k z) (dv32 k z0)) as [E1 E2]; auto. cbn [arm_of nth fst snd]. change (2 ^ Z.of_nat 2) with 4. now rewrite E1, E2.
    - destruct (quint4 (dv32 k z) (dv32 k z0) (dv32 k z1) (dv32 k z2)) as [E1 E2]; auto. cbn [arm_of nth fst snd]. change (2 ^ Z.of_nat 4) with 16. now rewrite E1, E2.
    - destruct (quint5 (dv32 k z) (dv32 k z0) (dv32 k z1) (dv32 k z2) (dv32 k z3)) as [E1 E2]; auto. cbn [arm_of nth fst snd]. change (2 ^ Z.of_nat 1) with 2. now rewrite E1, E2.
    - destruct (quint7 (dv32 k z) (dv32 k z0) (dv32 k z1) (dv32 k z2) (dv32 k z3) (dv32 k z4) (dv32 k z5)) as [E1 E2]; auto.
      cbn [arm_of nth fst snd]. change (2 ^ Z.of_nat 3) with 8. now rewrite E1, E2.
  Qed.
  Lemma b32_extra_arm W x dst : (length x < 8)%nat -> b32_len_ok (length x) = true -> x <> [] ->
    b32_decode_extra t W (ppt x) (length x) dst (b32_table k) = decode_arm t W (length x) (fst (arm_of (length x))) (snd (arm_of (length x))) (ppt x) dst (b32_table k).
  Proof. intros L LO NE. short x L; try discriminate LO; [now destruct NE|..]; reflexivity. Qed.
  Lemma arm_dl n : (n < 8)%nat -> b32_len_ok n = true -> snd (arm_of n) = b32_dl n.
  Proof. intros L LO. do 8 (destruct n as [|n]; [try discriminate LO; reflexivity|]). lia. Qed.
End IO.

Lemma b32_dl_add' j n : (j mod 8 = 0)%nat -> b32_dl (j + n) = (b32_dl j + b32_dl n)%nat.
Proof. unfold b32_dl. lia. Qed.
Lemma b32_dl_le n : (b32_dl n <= n)%nat.
Proof. unfold b32_dl. lia. Qed.
Lemma b32_len_ok_sub j n : (j mod 8 = 0)%nat -> b32_len_ok (j + n) = b32_len_ok n.
Proof. intro H. unfold b32_len_ok. replace ((j + n) mod 8)%nat with (n mod 8)%nat by lia. reflexivity. Qed.
Lemma b32_len_ok_mod n : b32_len_ok (n mod 8) = b32_len_ok n.
Proof. unfold b32_len_ok. now rewrite Nat.mod_mod by lia. Qed.

Section Decode.
  Context (m0 : mem) (bs so : nat) (total : list Z) (bd d0 cap : nat) (t : target) (k : b32_kind).
  Notation ppt := (pp bs so total).
  Notation qqt := (qq bd d0).
  Notation TSt := (TS m0 bs so total bd d0 cap).
  Notation D := (b32d k).
  Notation DIt := (DI m0 bs so total bd d0 cap D b32_dl).
  Notation bad := (existsb (b32_bad k)).
  Hypothesis HB : bytes total.

  Definition dec32_post (r : result unit) (m : mem) : Prop :=
    Frame m0 bd d0 cap m /\
    match r with
    | Ok _ => exists o, D total = Some o /\ length o = cap /\ TSt o [] m
    | Err => D total = None
    end.
  Lemma post32_err m : D total = None -> Frame m0 bd d0 cap m -> dec32_post Err m.
  Proof. now split. Qed.
  Lemma post32_ok out m : DIt out [] m -> dec32_post (Ok tt) m.
  Proof.
    intros (T & H & HL & _). split; [eapply TS_frame; exact T|]. cbn in H. rewrite app_nil_r in H.
    exists out. cbn in HL. split; [exact H|]. split; [lia|exact T].
  Qed.

  Hypothesis alias : (bs <> bd \/ so + length total <= d0 \/ d0 <= so)%nat.

  Lemma D32_block j x r : (j mod 8 = 0)%nat -> length x = j -> D (x ++ r) = match D x with Some o => oapp o (D r) | None => None end.
  Proof.
    intros Hj Lx. rewrite b32d_block, (b32d_quints k x) by (now rewrite Lx). now destruct (existsb _ x).
  Qed.

  Lemma dec32_extra_ok out rest m : DIt out rest m -> (length rest < 8)%nat -> b32_len_ok (length rest) = true ->
    wp (b32_decode_extra t true (ppt rest) (length rest) (qqt out) (b32_table k)) dec32_post m.
  Proof.
    intros HI L LO. pose proof HI as (T & HD & HL & HAl).
    assert (Bx := TS_bytes _ _ _ _ _ _ _ _ _ _ HB T).
    destruct (list_eq_dec Z.eq_dec rest []) as [->|NE].
    { cbn [length b32_decode_extra]. apply wp_ret. now apply (post32_ok out). }
    assert (ED := b32d_tail_eq k rest Bx L LO NE). assert (EA := arm_dl (length rest) L LO).
    rewrite b32_extra_arm by auto. rewrite EA in *. clear EA. set (sp := fst (arm_of (length rest))) in *.
    pose proof (b32_dl_le (length rest)) as DL.
    assert (Lt := TS_suffix _ _ _ _ _ _ _ _ _ _ T).
    eapply wp_arm_write; [exact T|exact Bx|reflexivity|lia|lia|lia| |].
    - intros m' G F. apply post32_err; [|exact F]. rewrite HD, ED, G. reflexivity.
    - intros m' G T'. rewrite G in ED. eapply post32_ok. split; [exact T'|]. rewrite app_length, be_bytes_len.
      split; [rewrite HD, ED; cbn; now rewrite app_nil_r|]. change (b32_dl (length [])) with 0%nat. cbn [length]. lia.
  Qed.

  Lemma quints_map x : length x = 8%nat -> bytes x -> bad x = false -> be_bytes 5 (acc5 (map (dv32 k) x)) = quints (map (dv32 k) x).
  Proof.
    intros L B G. pose proof (b32_vals_five k x B G) as F. change (map (al_decode (b32_alsw k)) x) with (map (dv32 k) x) in F.
    destruct x as [|c1 [|c2 [|c3 [|c4 [|c5 [|c6 [|c7 [|c8 [|]]]]]]]]]; try discriminate L. cbn [map] in *. inv_five.
    rewrite quint_be by auto. reflexivity.
  Qed.
  Lemma quints_dl x : (length x mod 8 = 0)%nat -> length (quints (map (dv32 k) x)) = b32_dl (length x).
  Proof. intro H. rewrite quints_len, map_length. unfold b32_dl. lia. Qed.

  Lemma b32_decode_fallback_ok out rest m n : DIt out rest m -> n = length rest -> b32_len_ok n = true ->
    wp (b32_decode_fallback t (ppt rest) n (qqt out) k) dec32_post m.
  Proof.
    intros HI -> HN. unfold b32_decode_fallback. cbn zeta.
    destruct (split_blocks rest 8) as (a & b & -> & La & Lb); [lia|].
    apply wp_bind. eapply wp_src_end; [exact (proj1 HI)|exact La|].
    apply wp_try. eapply (dec_loop m0 bs so total bd d0 cap D b32_dl 8); [lia| | | |exact HI| |lia| | |].
    - intros. now apply (D32_block 8).
    - intro. now apply b32_dl_add'.
    - cbn. lia.
    - rewrite La. apply Nat.mod_mul. lia.
    - clear out m HI HN La Lb a b. intros out x r m T Lx Hc Ha. change (b32_dl 8) with 5%nat in *. cbn [fst snd].
      assert (Lt := TS_suffix _ _ _ _ _ _ _ _ _ _ T). assert (Lxr := app_length x r).
      assert (Bx := TS_bytes _ _ _ _ _ _ _ _ _ _ HB T). apply bytes_app in Bx as [Bx _].
      apply wp_bind. eapply wp_decode_bits; [exact T|exact Bx|exact Lx|lia|]. apply TS_adv in T.
      intros u f Hf Hu. rewrite Hf. rewrite b32d_quints by (now rewrite Lx). destruct (bad x) eqn:G.
      { apply wp_ret. split; [reflexivity|eapply TS_frame; exact T]. }
      rewrite (Hu eq_refl).
      apply wp_bind. eapply wp_write_be; [exact T|lia|lia|]. rewrite quints_map by auto. intros m' T'.
      assert (Lo := quints_dl x ltac:(now rewrite Lx)). rewrite Lx in Lo. change (b32_dl 8) with 5%nat in Lo.
      apply wp_bind. eapply wp_src_add; [exact T'|exact Lx| |exact Lt].
      apply wp_bind. eapply wp_dst_add; [exact T'|exact Lo|]. apply wp_ret.
      exists (quints (map (dv32 k) x)). auto.
    - intros m' HF F. now apply post32_err.
    - intros out' m' HI'. cbn [fst snd]. rewrite <- Lb. apply dec32_extra_ok; auto; rewrite Lb; [apply Nat.mod_upper_bound; lia|now rewrite b32_len_ok_mod].
  Qed.

  Lemma b32_decode_simd_ok s out rest m n : sse41p s -> DIt out rest m -> n = length rest -> b32_len_ok n = true ->
    wp (b32_decode_simd t s (ppt rest) n (qqt out) k) dec32_post m.
  Proof.
    intros Hs HI -> HN. unfold b32_decode_simd. cbn zeta.
    apply wp_try. eapply (dec_wloop m0 bs so total bd d0 cap D b32_dl 42 32); [lia| | | |exact HB|exact HI|lia| | |].
    - intros. now apply (D32_block 32).
    - intro. now apply b32_dl_add'.
    - change (b32_dl 32) with 20%nat. lia.
    - clear out m HI HN. intros out x r m T Lx Bx Lr Hc Ha. change (b32_dl 32) with 20%nat in *.
      assert (Lt := TS_suffix _ _ _ _ _ _ _ _ _ _ T).
      assert (Lxr := app_length x r).
      assert (R2 : (6 <= b32_dl (length r))%nat) by (unfold b32_dl; lia).
      apply wp_bind. eapply wp_src_load; [exact T|exact Lx|].
      apply wp_bind. eapply wp_lift; [apply b32_decode_ascii32_ok; auto|].
      rewrite b32d_quints by (now rewrite Lx).
      destruct (existsb (b32_bad k) x) eqn:G.
      { apply wp_ret. split; [reflexivity|eapply TS_frame; exact T]. }
      apply TS_adv in T. change (al_decode (b32_alsw k)) with (dv32 k).
      destruct (split_at x 16) as (x1 & x2 & -> & L1); [lia|].
      assert (L2 : length x2 = 16%nat) by (rewrite app_length in Lx; lia).
      assert (Lt1 : length (quints (map (dv32 k) x1)) = 10%nat) by (rewrite quints_dl; now rewrite L1).
      assert (Lt2 : length (quints (map (dv32 k) x2)) = 10%nat) by (rewrite quints_dl; now rewrite L2).
      assert (EM : merged32 (map (dv32 k) (x1 ++ x2)) = (quints (map (dv32 k) x1) ++ zeros6) ++ (quints (map (dv32 k) x2) ++ zeros6)).
      { unfold merged32. rewrite map_app, firstn_app_exact, skipn_app_exact by (now rewrite map_length). now rewrite <- !app_assoc. }
      rewrite EM. unfold lo128, hi128. rewrite firstn_app_exact, skipn_app_exact by (rewrite app_length, Lt1; reflexivity).
      assert (ET : quints (map (dv32 k) (x1 ++ x2)) = quints (map (dv32 k) x1) ++ quints (map (dv32 k) x2)).
      { pose proof (b32d_block k x1 x2 ltac:(now rewrite L1)) as P1.
        pose proof (b32d_quints k (x1 ++ x2) ltac:(now rewrite Lx)) as P2.
        pose proof (b32d_quints k x2 ltac:(now rewrite L2)) as P3.
        rewrite existsb_app in G. apply orb_false_iff in G as [G1 G2]. rewrite G1 in P1. rewrite existsb_app, G1, G2 in P2.
        rewrite G2 in P3. rewrite P3 in P1. cbn [oapp orb] in P1, P2. congruence. }
      rewrite ET.
      apply wp_bind. eapply (wp_dst_store_part m0 bs so total bd d0 cap _ _ _ _ 10); [exact T| | | |].
      1,2,3: rewrite app_length, Lt1; cbn [length zeros6]; lia.
      rewrite firstn_app_exact by exact Lt1. intros m1 T1.
      apply wp_bind. eapply wp_dst_add; [exact T1|exact Lt1|].
      apply wp_bind. eapply (wp_dst_store_part m0 bs so total bd d0 cap _ _ _ _ 10); [exact T1| | | |].
      1,2,3: rewrite ?app_length, ?Lt1, ?Lt2; cbn [length zeros6]; lia.
      rewrite firstn_app_exact by exact Lt2. intros m2 T2. rewrite <- app_assoc in T2.
      apply wp_bind. eapply wp_src_add; [exact T2|exact Lx| |exact Lt].
      apply wp_bind. eapply wp_dst_add; [exact T2|rewrite app_length, Lt1, Lt2; reflexivity|]. apply wp_ret.
      eexists. split; [reflexivity|]. split; [rewrite app_length, Lt1, Lt2; reflexivity|].
      split; [|exact T2]. do 2 f_equal. lia.
    - intros m' HF F. now apply post32_err.
    - intros out' r m' HI' _ Hm. apply b32_decode_fallback_ok; auto.
      rewrite <- b32_len_ok_mod in HN |- *. replace (length r mod 8)%nat with (length rest mod 8)%nat by lia. exact HN.
  Qed.

  Lemma b32_decode_impl_ok s n : s = Fallback \/ sse41p s -> DIt [] total m0 -> n = length total -> b32_len_ok n = true ->
    wp (b32_decode_impl t s (ppt total) n (qqt []) k) dec32_post m0.
  Proof.
    intros [->|Hs] HI Hn HN; cbn [b32_decode_impl].
    - now apply b32_decode_fallback_ok.
    - destruct s; try discriminate Hs; now apply b32_decode_simd_ok.
  Qed.
End Decode.

Section Check.
  Context (m0 : mem) (bs so : nat) (total : list Z) (t : target) (k : b32_kind).
  Notation ppt := (pp bs so total).
  Notation RSt := (RS m0 bs so total).
  Definition V32 (l : list Z) : bool := isSome (b32d k l).
  Notation CIt := (CI m0 bs so total V32).
  Notation post := (chk_post m0 total V32).
  Notation good := (fun x => negb (existsb (b32_bad k) x)).
  Hypothesis HB : bytes total.

  Lemma V32_block j x r : (j mod 8 = 0)%nat -> length x = j -> V32 (x ++ r) = good x && V32 r.
  Proof.
    intros Hj Lx. unfold V32. rewrite b32d_block by (now rewrite Lx). destruct (existsb (b32_bad k) x); [reflexivity|].
    cbn [negb andb]. now destruct (b32d k r).
  Qed.
  Lemma post32_false m : V32 total = false -> (forall b, m b = m0 b) -> post Err m.
  Proof. intros H S. split; [exact S|]. now rewrite H. Qed.

  Lemma chk32_extra_ok rest m : CIt rest m -> (length rest < 8)%nat -> b32_len_ok (length rest) = true ->
    wp (b32_decode_extra t false (ppt rest) (length rest) null (b32_table k)) post m.
  Proof.
    intros HI L LO. pose proof HI as (T & HV).
    assert (Bx := TS_bytes _ _ _ _ _ _ _ _ _ _ HB T).
    destruct (list_eq_dec Z.eq_dec rest []) as [->|NE].
    { cbn [length b32_decode_extra]. apply wp_ret. now apply (chk_ok m0 bs so total V32 []). }
    assert (ED := b32d_tail_eq k rest Bx L LO NE).
    rewrite b32_extra_arm by auto.
    eapply wp_arm_check; [exact T|exact Bx|reflexivity|lia|].
    destruct (tail_ok _ _ _).
    - apply (chk_ok m0 bs so total V32 rest); auto. unfold V32. now rewrite ED.
    - apply (chk_err m0 bs so total V32 rest); auto. unfold V32. now rewrite ED.
  Qed.

  Lemma b32_check_fallback_ok rest m n : CIt rest m -> n = length rest -> b32_len_ok n = true ->
    wp (b32_check_fallback t (ppt rest) n k) post m.
  Proof.
    intros HI -> HN. unfold b32_check_fallback. cbn zeta.
    destruct (split_blocks rest 8) as (a & b & -> & La & Lb); [lia|].
    apply wp_bind. eapply wp_src_end; [exact (proj1 HI)|exact La|].
    apply wp_try. eapply (chk_loop m0 bs so total V32 8 good); [lia| |exact HI| |lia| |exact post32_false|].
    - intros. now apply (V32_block 8).
    - rewrite La. apply Nat.mod_mul. lia.
    - clear m HI HN La Lb a b. intros x r m T Lx. assert (T' := T). apply RS_adv in T'.
      assert (Bx := TS_bytes _ _ _ _ _ _ _ _ _ _ HB T). apply bytes_app in Bx as [Bx _].
      apply wp_bind. eapply wp_decode_bits; [exact T|exact Bx|exact Lx|lia|].
      intros u f Hf _. rewrite Hf. destruct (existsb (b32_bad k) x) eqn:G; cbn [negb].
      + apply wp_ret. auto.
      + apply wp_bind. eapply wp_src_end; [exact T|exact Lx|]. apply wp_ret. auto.
    - intros m' HI'. rewrite <- Lb. apply chk32_extra_ok; auto; rewrite Lb; [apply Nat.mod_upper_bound; lia|now rewrite b32_len_ok_mod].
  Qed.

  Lemma b32_check_simd_ok s rest m n : swz s -> CIt rest m -> n = length rest -> b32_len_ok n = true ->
    wp (b32_check_simd t s (ppt rest) n k) post m.
  Proof.
    intros Hs HI -> HN. unfold b32_check_simd. cbn zeta.
    destruct (split_blocks rest 32) as (a & b & -> & La & Lb); [lia|].
    apply wp_bind. eapply wp_src_end; [exact (proj1 HI)|exact La|].
    apply wp_try. eapply (chk_loop m0 bs so total V32 32 good); [lia| |exact HI| |lia| |exact post32_false|].
    - intros. now apply (V32_block 32).
    - rewrite La. apply Nat.mod_mul. lia.
    - clear m HI HN La Lb a b. intros x r m T Lx. assert (T' := T). apply RS_adv in T'.
      assert (Bx := TS_bytes _ _ _ _ _ _ _ _ _ _ HB T). apply bytes_app in Bx as [Bx _].
      apply wp_bind. eapply wp_src_load; [exact T|exact Lx|].
      apply wp_bind. eapply wp_lift; [apply b32_check_ascii32_ok; auto|].
      destruct (negb _) eqn:G.
      + apply wp_bind. eapply wp_src_end; [exact T|exact Lx|]. apply wp_ret. auto.
      + apply wp_ret. auto.
    - intros m' HI'. rewrite <- Lb. apply b32_check_fallback_ok; auto. rewrite <- b32_len_ok_mod in HN |- *.
      rewrite Lb. replace ((length (a ++ b) mod 32) mod 8)%nat with (length (a ++ b) mod 8)%nat by lia. exact HN.
  Qed.

  Lemma b32_check_impl_ok s n : s = Fallback \/ swz s -> CIt total m0 -> n = length total -> b32_len_ok n = true ->
    wp (b32_check_impl t s (ppt total) n k) post m0.
  Proof.
    intros [->|Hs] HI Hn HN; cbn [b32_check_impl].
    - now apply b32_check_fallback_ok.
    - destruct s; try discriminate Hs; now apply b32_check_simd_ok.
  Qed.
End Check.
