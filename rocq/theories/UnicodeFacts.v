(** Facts about the unicode-simd model: ASCII check. *)
From Coq Require Import ZArith List Bool Lia ZifyNat.
From Verif Require Import Bytes Mem MemFacts Isa Simd SimdFacts Ints Loops Unicode.
Import ListNotations.
Open Scope Z_scope.
Open Scope m_scope.
Ltac Zify.zify_post_hook ::= Z.div_mod_to_equations.

(** ** Loops that only read *)
Lemma wp_scan {A} (P : list Z -> A -> Prop) m b o (a : list Z) k fuel body acc (Q : ptr * A -> mem -> Prop) :
  (0 < k)%nat -> (length a mod k = 0)%nat -> (length a < k * fuel)%nat -> P [] acc ->
  (forall c x r acc, a = c ++ x ++ r -> length x = k -> P c acc ->
     wp (body ((b, o + length c)%nat, acc))
        (fun st m' => m' = m /\ exists acc', st = ((b, o + length (c ++ x))%nat, acc') /\ P (c ++ x) acc') m) ->
  (forall acc, P a acc -> Q ((b, o + length a)%nat, acc) m) ->
  wp (while_ fuel (fun st => plt (fst st) (b, o + length a)%nat) body ((b, o), acc)) Q m.
Proof.
  intros Hk Hm Hf HP Hb HQ.
  enough (G : forall r c acc fuel, a = c ++ r -> (length r mod k = 0)%nat -> (length r < k * fuel)%nat -> P c acc ->
    wp (while_ fuel (fun st => plt (fst st) (b, o + length a)%nat) body ((b, o + length c)%nat, acc)) Q m).
  { specialize (G a [] acc fuel eq_refl Hm Hf HP). cbn [length] in G. now rewrite Nat.add_0_r in G. }
  clear HP Hf fuel acc Hm. intro r.
  remember (length r) as n eqn:En. revert r En. induction n as [n IH] using lt_wf_ind. intros r -> c acc fuel E Hm Hf HP.
  destruct fuel as [|fuel]; [lia|]. cbn [while_]. unfold plt at 1. cbn [fst snd].
  destruct (Nat.ltb_spec (o + length c) (o + length a)) as [L|L].
  - rewrite E, app_length in L.
    assert (k <= length r)%nat. { apply Nat.mod_divide in Hm as [q Hq]; [|lia]. destruct q; nia. }
    destruct (split_at r k) as (x & r' & -> & Lx); [auto|]. apply wp_bind. eapply wp_mono; [eapply Hb; eauto|].
    intros st m' (-> & acc' & -> & HP'). rewrite app_length in Hm, Hf, IH.
    apply (IH (length r') ltac:(lia) r' eq_refl (c ++ x) acc' fuel); auto.
    + rewrite E. now rewrite <- app_assoc.
    + rewrite Lx in Hm. replace (k + length r')%nat with (length r' + 1 * k)%nat in Hm by lia.
      now rewrite Nat.mod_add in Hm by lia.
    + nia.
  - assert (r = []) as ->. { rewrite E, app_length in L. destruct r; [reflexivity|cbn [length] in L; lia]. }
    rewrite app_nil_r in E. subst c. now apply wp_ret, HQ.
Qed.

(** access to a slice inside a known one *)
Lemma at_mid m b o c x r : bytes_at m b o (c ++ x ++ r) -> bytes_at m b (o + length c) x.
Proof. intro H. apply bytes_at_app in H as [_ H]. now apply bytes_at_app in H. Qed.
Lemma wp_add_in m b o l i k (Q : ptr -> mem -> Prop) : bytes_at m b o l -> (i + k <= length l)%nat ->
  Q (b, o + (i + k))%nat m -> wp (padd (b, o + i)%nat k) Q m.
Proof. intros [H _] Hk HQ. apply wp_padd; cbn [fst snd]; [lia|]. now replace (o + i + k)%nat with (o + (i + k))%nat by lia. Qed.
Lemma wp_add0 m b o l k (Q : ptr -> mem -> Prop) : bytes_at m b o l -> (k <= length l)%nat ->
  Q (b, o + k)%nat m -> wp (padd (b, o) k) Q m.
Proof. intros [H _] Hk HQ. apply wp_padd; cbn [fst snd]; [lia|auto]. Qed.
Lemma wp_load_mid m b o c x r k (Q : list Z -> mem -> Prop) : bytes_at m b o (c ++ x ++ r) -> length x = k -> Q x m ->
  wp (load (b, o + length c)%nat k) Q m.
Proof. intros H L HQ. eapply wp_load_exact; [eapply at_mid; exact H|auto|exact HQ]. Qed.
Lemma wp_read_mid m b o c x r (Q : Z -> mem -> Prop) : bytes_at m b o (c ++ [x] ++ r) -> Q x m ->
  wp (read (b, o + length c)%nat 0) Q m.
Proof.
  intros H HQ. unfold read. apply at_mid in H. pose proof H as [L _]. cbn [length] in L.
  apply wp_bind, wp_padd; cbn [fst snd]; [lia|]. rewrite Nat.add_0_r. apply wp_bind.
  eapply wp_load_exact; [exact H|reflexivity|]. now apply wp_ret.
Qed.

(** ** ASCII *)
Definition ascii (l : list Z) : bool := negb (highbits l).
Lemma ascii_app a b : ascii (a ++ b) = ascii a && ascii b.
Proof. unfold ascii. rewrite highbits_app. apply negb_orb. Qed.

Definition AccOk (c : list Z) (acc : Z) : Prop := byte acc /\ (128 <=? acc) = highbits c.
Lemma acc_step c acc x : byte x -> AccOk c acc -> AccOk (c ++ [x]) (Z.lor acc x).
Proof.
  intros Bx [B H]. split; [now apply or_byte|]. rewrite highbits_app, <- H. unfold highbits. cbn [existsb].
  rewrite orb_false_r. now apply or_high.
Qed.
Lemma acc_end c acc : AccOk c acc -> (acc <? 128) = ascii c.
Proof. intros [B H]. unfold ascii. rewrite <- H. rewrite Z.ltb_antisym. reflexivity. Qed.

Lemma is_ascii_fallback_ok m b o data : bytes data -> bytes_at m b o data ->
  wp (is_ascii_fallback (b, o) (length data)) (fun r m' => r = ascii data /\ m' = m) m.
Proof.
  intros B H. unfold is_ascii_fallback. apply wp_bind. eapply wp_add0; [exact H|lia|]. apply wp_bind.
  apply (wp_scan AccOk m b o data 1); [lia|apply Nat.mod_1_r|lia|split; [unfold byte; lia|reflexivity]| |].
  - intros c x r acc E Lx HP. destruct x as [|x [|]]; try discriminate Lx. cbn [fst snd].
    assert (Hx : byte x) by (rewrite E in B; apply bytes_app in B as [_ B]; now inversion B).
    pose proof H as H'. rewrite E in H'. apply wp_bind. eapply wp_read_mid; [exact H'|].
    apply wp_bind. eapply wp_add_in; [exact H'|rewrite !app_length; cbn [length]; lia|].
    apply wp_ret. split; [reflexivity|]. eexists. split; [|apply acc_step; eauto].
    rewrite app_length. reflexivity.
  - intros acc HP. apply wp_ret. split; [now apply acc_end|reflexivity].
Qed.

(** *** the V256 version *)
Definition VecOk (c y : list Z) : Prop := length y = 32%nat /\ bytes y /\ highbits y = highbits c.
Lemma v256_or_ok s a b : simd s -> length a = 32%nat -> length b = 32%nat -> v256_or s a b = Some (map2 u8_or a b).
Proof. intros. now apply wide_map2. Qed.
Lemma v256_zero_ok s : simd s -> v256_create_zero s = Some (repeat 0 32).
Proof. intro Hs. destruct s; try discriminate Hs; reflexivity. Qed.

Lemma is_ascii_v256_ok s m b o data : simd s -> bytes data -> bytes_at m b o data ->
  wp (is_ascii_simd_v256 s (b, o) (length data)) (fun r m' => r = ascii data /\ m' = m) m.
Proof.
  intros Hs B H. unfold is_ascii_simd_v256. set (n := (length data / 32 * 32)%nat).
  assert (Ln : (n <= length data)%nat) by (unfold n; lia).
  apply wp_bind. eapply wp_add0; [exact H|exact Ln|]. rewrite v256_zero_ok by exact Hs. apply wp_bind. cbn [lift]. apply wp_ret.
  destruct (split_at data n Ln) as (a & t & E & La). rewrite <- La. apply wp_bind.
  apply (wp_scan VecOk m b o a 32).
  - lia.
  - rewrite La. unfold n. apply Nat.mod_mul. discriminate.
  - rewrite E, app_length. lia.
  - split; [apply repeat_length|]. split; [apply Forall_forall; intros x Hx; apply repeat_spec in Hx; subst; unfold byte; lia|reflexivity].
  - intros c x r y Ea Lx (Ly & By & Hy). cbn [fst snd]. pose proof H as H'. rewrite E, Ea, <- !app_assoc in H'.
    assert (Bx : bytes x). { rewrite E, Ea in B. apply bytes_app in B as [B _]. apply bytes_app in B as [_ B]. now apply bytes_app in B. }
    apply wp_bind. eapply wp_load_mid; [exact H'|exact Lx|]. apply wp_bind. rewrite v256_or_ok by auto. apply wp_ret.
    apply wp_bind. eapply wp_add_in; [exact H'|rewrite !app_length; lia|]. apply wp_ret. split; [reflexivity|].
    eexists. split; [rewrite app_length, Lx; reflexivity|].
    split; [now apply len_map2|]. split; [now apply bytes_or|]. rewrite highbits_or, highbits_app, Hy by congruence. reflexivity.
  - intros y (Ly & By & Hy). apply wp_bind. rewrite u8x32_highbit_any_ok by auto. apply wp_ret. apply wp_bind.
    assert (Lt : length t = (length data mod 32)%nat).
    { assert (length data = n + length t)%nat by (rewrite E, app_length; lia). unfold n in *. lia. }
    rewrite <- Lt. eapply wp_mono; [apply is_ascii_fallback_ok|].
    + rewrite E in B. now apply bytes_app in B.
    + rewrite E in H. now apply bytes_at_app in H.
    + intros f m' (-> & ->). apply wp_ret. split; [|reflexivity]. rewrite Hy, E. fold (ascii a). now rewrite ascii_app.
Qed.

(** *** the SSE2 version *)
Lemma of_be_app l b : of_be (l ++ [b]) = of_be l * 256 + b.
Proof. unfold of_be. now rewrite fold_left_app. Qed.
Lemma of_le_cons a l : of_le (a :: l) = a + 256 * of_le l.
Proof. unfold of_le. cbn [rev]. rewrite of_be_app. lia. Qed.
Lemma of_le_nonneg l : bytes l -> 0 <= of_le l.
Proof. induction 1 as [|a l Ha _ IH]; [reflexivity|]. rewrite of_le_cons. unfold byte in Ha. lia. Qed.

Lemma split_testbit a r i : byte a -> 0 <= i -> Z.testbit (a + 256 * r) i = if i <? 8 then Z.testbit a i else Z.testbit r (i - 8).
Proof.
  intros Ha Hi. destruct (Z.ltb_spec i 8).
  - rewrite <- (Z.mod_pow2_bits_low (a + 256 * r) 8 i) by lia. change (2 ^ 8) with 256.
    replace ((a + 256 * r) mod 256) with a; [reflexivity|]. unfold byte in Ha. lia.
  - replace i with ((i - 8) + 8) at 1 by lia. rewrite <- Z.div_pow2_bits by lia. change (2 ^ 8) with 256.
    replace ((a + 256 * r) / 256) with r; [reflexivity|]. unfold byte in Ha. lia.
Qed.
Lemma land_split a b r q : byte a -> byte b -> Z.land (a + 256 * r) (b + 256 * q) = Z.land a b + 256 * Z.land r q.
Proof.
  intros Ha Hb. apply Z.bits_inj'. intros i Hi. rewrite Z.land_spec, !split_testbit by auto using and_byte.
  destruct (i <? 8); now rewrite Z.land_spec.
Qed.
Lemma lor_split a b r q : byte a -> byte b -> Z.lor (a + 256 * r) (b + 256 * q) = Z.lor a b + 256 * Z.lor r q.
Proof.
  intros Ha Hb. apply Z.bits_inj'. intros i Hi. rewrite Z.lor_spec, !split_testbit by auto using or_byte.
  destruct (i <? 8); now rewrite Z.lor_spec.
Qed.
Lemma or_le x y : bytes x -> bytes y -> length x = length y -> Z.lor (of_le x) (of_le y) = of_le (map2 u8_or x y).
Proof.
  intro Bx. revert y. induction Bx as [|a x Ha Bx IH]; intros [|b y] By L; try discriminate L; [reflexivity|].
  inversion By; subst. cbn [map2]. rewrite !of_le_cons, lor_split by auto. rewrite IH by auto. reflexivity.
Qed.
Fixpoint hmask (n : nat) : Z := match n with O => 0 | S k => 128 + 256 * hmask k end.
Lemma land128 a : byte a -> Z.land a 128 = if 128 <=? a then 128 else 0.
Proof. intro H. apply Z.eqb_eq. revert a H. apply byte_sweep. vm_compute. reflexivity. Qed.
Lemma hmask_nonneg n : 0 <= hmask n.
Proof. induction n; cbn [hmask]; lia. Qed.
Lemma hmask_ok l : bytes l -> (Z.land (of_le l) (hmask (length l)) =? 0) = ascii l.
Proof.
  induction 1 as [|a l Ha B IH]; [reflexivity|]. cbn [hmask length]. rewrite of_le_cons, land_split by (auto; unfold byte; lia).
  assert (0 <= Z.land (of_le l) (hmask (length l))) by (apply Z.land_nonneg; left; now apply of_le_nonneg).
  change (a :: l) with ([a] ++ l). rewrite ascii_app, <- IH, land128 by auto. unfold ascii, highbits. cbn [existsb].
  destruct (Z.leb_spec 128 a); cbn [orb negb andb]; destruct (Z.eqb_spec (Z.land (of_le l) (hmask (length l))) 0);
  match goal with |- (?x =? 0) = _ => destruct (Z.eqb_spec x 0) end; try reflexivity; lia.
Qed.
Lemma check4_ok l : bytes l -> length l = 4%nat -> check4 (of_le l) = ascii l.
Proof. intros B L. rewrite <- hmask_ok, L by exact B. reflexivity. Qed.
Lemma check8_ok l : bytes l -> length l = 8%nat -> check8 (of_le l) = ascii l.
Proof. intros B L. rewrite <- hmask_ok, L by exact B. reflexivity. Qed.
Lemma check16_ok l : check16 l = ascii l.
Proof. apply movemask_zero. Qed.
Lemma ascii_or x y : bytes x -> bytes y -> length x = length y -> ascii (map2 u8_or x y) = ascii x && ascii y.
Proof. intros. unfold ascii. rewrite highbits_or by auto. apply negb_orb. Qed.

(** a prefix and a suffix that together cover the slice *)
Lemma cover data i j : (j <= i)%nat -> ascii (firstn i data) && ascii (skipn j data) = ascii data.
Proof.
  intro L. rewrite <- (firstn_skipn j data) at 3. rewrite ascii_app.
  rewrite <- (firstn_skipn j (firstn i data)). rewrite ascii_app, firstn_firstn, Nat.min_l by lia.
  rewrite <- andb_assoc. f_equal.
  replace (skipn j (firstn i data)) with (firstn (i - j) (skipn j data)) by (rewrite skipn_firstn_comm; reflexivity).
  rewrite <- (firstn_skipn (i - j) (skipn j data)) at 2 3. rewrite ascii_app.
  destruct (ascii (firstn (i - j) (skipn j data))); reflexivity.
Qed.

Lemma wp_loadu m b o l k (Q : Z -> mem -> Prop) : bytes_at m b o l -> length l = k -> Q (of_le l) m -> wp (loadu (b, o) k) Q m.
Proof. intros H L HQ. unfold loadu. apply wp_bind. eapply wp_load_exact; [exact H|auto|]. now apply wp_ret. Qed.

Lemma check_tiny_ok m b o data : bytes data -> bytes_at m b o data -> (length data <= 8)%nat ->
  wp (check_tiny (b, o) (length data)) (fun r m' => r = ascii data /\ m' = m) m.
Proof.
  intros B H L. unfold check_tiny. destruct (Nat.eqb_spec (length data) 8) as [E8|N8].
  { apply wp_bind. eapply wp_loadu; [exact H|exact E8|]. apply wp_ret. split; [now apply check8_ok|reflexivity]. }
  (* the last up to three bytes *)
  assert (T : forall o data, bytes data -> bytes_at m b o data -> (length data <= 3)%nat ->
    wp (end_ <- padd (b, o) (length data) ;;
        ' (_, acc) <- for_ 3 0 (fun _ st =>
          if plt (fst st) end_ then x <- read (fst st) 0 ;; p <- padd (fst st) 1 ;; ret (p, Z.lor (snd st) x) else ret st) ((b, o), 0) ;;
        ret (acc <? 128)) (fun r m' => r = ascii data /\ m' = m) m).
  { clear. intros o data B H L. apply wp_bind. eapply wp_add0; [exact H|lia|]. apply wp_bind.
    apply (wp_for (fun i st m' => m' = m /\ exists c r, data = c ++ r /\ fst st = (b, o + length c)%nat /\ AccOk c (snd st)
        /\ length c = Nat.min i (length data))).
    - split; [reflexivity|]. exists [], data. cbn [fst snd length app]. rewrite Nat.add_0_r.
      split; [reflexivity|]. split; [reflexivity|]. split; [split; [unfold byte; lia|reflexivity]|reflexivity].
    - intros j [p acc] m' Hj (-> & c & r & E & Ep & HP & Lc). cbn [fst snd] in *. subst p. unfold plt. cbn [fst snd].
      destruct (Nat.ltb_spec (o + length c) (o + length data)) as [C|C].
      + destruct r as [|x r]; [rewrite E, app_length in C; cbn [length] in C; lia|]. change (x :: r) with ([x] ++ r) in E.
        pose proof H as H'. rewrite E in H'. assert (Hx : byte x) by (rewrite E in B; apply bytes_app in B as [_ B]; now inversion B).
        apply wp_bind. eapply wp_read_mid; [exact H'|]. apply wp_bind.
        eapply wp_add_in; [exact H'|rewrite !app_length; cbn [length]; lia|]. apply wp_ret. split; [reflexivity|].
        exists (c ++ [x]), r. cbn [fst snd]. split; [rewrite <- app_assoc; exact E|]. rewrite app_length. cbn [length].
        split; [reflexivity|]. split; [now apply acc_step|]. lia.
      + apply wp_ret. split; [reflexivity|]. exists c, r. cbn [fst snd]. rewrite E, app_length in *.
        split; [reflexivity|]. split; [reflexivity|]. split; [exact HP|]. lia.
    - intros [p acc] m' (-> & c & r & E & Ep & HP & Lc). cbn [fst snd] in *. apply wp_ret. split; [|reflexivity].
      assert (r = []) as -> by (rewrite E, app_length in *; destruct r; [reflexivity|cbn [length] in *; lia]).
      rewrite app_nil_r in E. subst c. now apply acc_end. }
  apply wp_bind. destruct (Nat.leb_spec 4 (length data)) as [G|G].
  - destruct (split_at data 4 G) as (x & r & E & Lx). pose proof H as H'. rewrite E in H'. apply bytes_at_app in H' as [H1 H2].
    rewrite E in B. apply bytes_app in B as [B1 B2].
    apply wp_bind. eapply wp_loadu; [exact H1|exact Lx|]. rewrite check4_ok by auto. rewrite E, ascii_app.
    destruct (ascii x); cbn [andb].
    + apply wp_bind. eapply wp_add0; [exact H|lia|]. apply wp_ret. cbn [negb].
      replace (length (x ++ r) - 4)%nat with (length r) by (rewrite app_length; lia). rewrite Lx in H2.
      apply T; auto. rewrite E, app_length in *. lia.
    + apply wp_ret. cbn [negb]. apply wp_ret. auto.
  - apply wp_ret. cbn [negb]. apply T; auto. lia.
Qed.

Lemma check_short_ok m b o data : bytes data -> bytes_at m b o data -> (8 < length data <= 16)%nat ->
  wp (check_short (b, o) (length data)) (fun r m' => r = ascii data /\ m' = m) m.
Proof.
  intros B H L. unfold check_short.
  apply wp_bind. eapply wp_loadu; [apply (bytes_at_firstn _ _ _ _ 8 H)|rewrite firstn_length; lia|].
  apply wp_bind. unfold psub_len. destruct (Nat.leb_spec 8 (length data)) as [_|]; [|lia]. apply wp_ret.
  apply wp_bind. eapply wp_add0; [exact H|lia|]. apply wp_bind.
  eapply wp_loadu; [apply bytes_at_skipn; [|exact H]; lia|rewrite skipn_length; lia|]. apply wp_ret. split; [|reflexivity].
  rewrite or_le by (auto using bytes_firstn, bytes_skipn; rewrite firstn_length, skipn_length; lia).
  rewrite check8_ok, ascii_or; auto using bytes_firstn, bytes_skipn, bytes_or.
  - apply cover. lia.
  - rewrite firstn_length, skipn_length; lia.
  - apply len_map2; [rewrite firstn_length|rewrite skipn_length]; lia.
Qed.

Lemma firstn_add {A} (l : list A) n k : firstn (n + k) l = firstn n l ++ firstn k (skipn n l).
Proof.
  revert l. induction n as [|n IH]; intro l; [reflexivity|]. destruct l as [|a l]; cbn [Nat.add firstn skipn app].
  - now rewrite firstn_nil.
  - now rewrite IH.
Qed.
Definition Pre (data : list Z) (n : nat) (x : list Z) : Prop := length x = 16%nat /\ bytes x /\ ascii x = ascii (firstn n data).
Lemma or_load_ok m b o data x k (Q : list Z -> mem -> Prop) : bytes_at m b o data -> (k + 16 <= length data)%nat ->
  Q (map2 u8_or x (firstn 16 (skipn k data))) m -> wp (or_load x (b, o) k) Q m.
Proof.
  intros H L HQ. unfold or_load. apply wp_bind. eapply wp_add0; [exact H|lia|]. apply wp_bind.
  eapply wp_load_exact; [apply (bytes_at_firstn m b (o + k) (skipn k data) 16), bytes_at_skipn; [lia|exact H]|rewrite firstn_length, skipn_length; lia|].
  now apply wp_ret.
Qed.
Lemma part_len {A} (data : list A) k : (k + 16 <= length data)%nat -> length (firstn 16 (skipn k data)) = 16%nat.
Proof. intro. rewrite firstn_length, skipn_length. lia. Qed.
Lemma Pre_next data n x : bytes data -> (n + 16 <= length data)%nat -> Pre data n x ->
  Pre data (n + 16) (map2 u8_or x (firstn 16 (skipn n data))).
Proof.
  intros B L (L1 & B1 & E1). pose proof (part_len data n L). assert (bytes (firstn 16 (skipn n data))) by auto using bytes_firstn, bytes_skipn.
  split; [now apply len_map2|]. split; [now apply bytes_or|]. rewrite ascii_or by (auto; congruence). now rewrite E1, firstn_add, ascii_app.
Qed.
Lemma check_medium_ok m b o data : bytes data -> bytes_at m b o data -> (16 < length data <= 64)%nat ->
  wp (check_medium (b, o) (length data)) (fun r m' => r = ascii data /\ m' = m) m.
Proof.
  intros B H L. unfold check_medium. apply wp_bind.
  eapply wp_load_exact; [apply (bytes_at_firstn _ _ _ _ 16 H)|rewrite firstn_length; lia|].
  assert (P0 : Pre data 16 (firstn 16 data)) by (split; [rewrite firstn_length; lia|split; [now apply bytes_firstn|reflexivity]]).
  revert P0. generalize (firstn 16 data). intros x P0.
  (* after the second load *)
  assert (F : forall n x, Pre data n x -> (length data <= n + 16)%nat -> wp (l <- psub_len (length data) 16 ;; x <- or_load x (b, o) l ;; ret (check16 x))
     (fun r m' => r = ascii data /\ m' = m) m).
  { clear x P0. intros n x (L1 & B1 & E1) Ln. apply wp_bind. unfold psub_len. destruct (Nat.leb_spec 16 (length data)) as [_|]; [|lia]. apply wp_ret.
    apply wp_bind. eapply or_load_ok; [exact H|lia|]. apply wp_ret. split; [|reflexivity].
    assert (Lp := part_len data (length data - 16) ltac:(lia)).
    rewrite check16_ok, ascii_or, E1 by (auto using bytes_firstn, bytes_skipn; congruence).
    rewrite (firstn_all2 (n := 16) (skipn _ _)) by (rewrite skipn_length; lia). apply cover. lia. }
  apply wp_bind. destruct (Nat.leb_spec 32 (length data)).
  - eapply or_load_ok; [exact H|lia|]. apply (Pre_next data 16) in P0; [|auto|lia]. apply wp_bind.
    destruct (Nat.leb_spec 48 (length data)).
    + eapply or_load_ok; [exact H|lia|]. apply (Pre_next data 32) in P0; [|auto|lia]. apply (F 48%nat); [exact P0|lia].
    + apply wp_ret. apply (F 32%nat); [exact P0|lia].
  - apply wp_ret. apply wp_bind. destruct (Nat.leb_spec 48 (length data)); [lia|]. apply wp_ret. apply (F 16%nat); [exact P0|lia].
Qed.

Lemma skipn_add {A} a b (l : list A) : skipn a (skipn b l) = skipn (b + a) l.
Proof. revert l. induction b as [|b IH]; intro l; [reflexivity|]. destruct l; cbn [skipn Nat.add]; [apply skipn_nil|apply IH]. Qed.
Lemma quarters x : bytes x -> length x = 64%nat ->
  ascii (map2 u8_or (map2 u8_or (firstn 16 (skipn 0 x)) (firstn 16 (skipn 16 x)))
                    (map2 u8_or (firstn 16 (skipn 32 x)) (firstn 16 (skipn 48 x)))) = ascii x.
Proof.
  intros B L. set (q := fun k => firstn 16 (skipn k x)). fold (q 0%nat) (q 16%nat) (q 32%nat) (q 48%nat).
  assert (Lq : forall k, (k + 16 <= 64)%nat -> length (q k) = 16%nat) by (intros; apply part_len; lia).
  assert (Bq : forall k, bytes (q k)) by (intro; unfold q; auto using bytes_firstn, bytes_skipn).
  assert (L0 := Lq 0%nat ltac:(lia)). assert (L1 := Lq 16%nat ltac:(lia)). assert (L2 := Lq 32%nat ltac:(lia)). assert (L3 := Lq 48%nat ltac:(lia)).
  rewrite !ascii_or by (auto using bytes_or; rewrite ?map2_length; congruence).
  replace x with (q 0%nat ++ q 16%nat ++ q 32%nat ++ q 48%nat) at 1.
  - rewrite !ascii_app. now rewrite <- !andb_assoc.
  - transitivity (firstn (16 + (16 + (16 + 16))) x); [|apply firstn_all2; lia]. now rewrite !firstn_add, !skipn_add.
Qed.

Lemma check_long_ok m b o data : bytes data -> bytes_at m b o data ->
  wp (check_long (b, o) (length data)) (fun r m' => r = ascii data /\ m' = m) m.
Proof.
  intros B H. unfold check_long. set (n := (length data / 64 * 64)%nat).
  assert (Ln : (n <= length data)%nat) by (unfold n; lia).
  apply wp_bind. eapply wp_add0; [exact H|exact Ln|].
  destruct (split_at data n Ln) as (a & t & E & La). rewrite <- La.
  assert (Lt : length t = (length data mod 64)%nat).
  { assert (length data = n + length t)%nat by (rewrite E, app_length; lia). unfold n in *. lia. }
  apply wp_bind. replace (b, o) with (b, o + length (@nil Z))%nat by (cbn [length]; now rewrite Nat.add_0_r).
  apply (loop_io_res (fun c r => (b, o + length c)%nat)
    (fun c r m' => m' = m /\ a = c ++ r /\ ascii c = true /\ (length r mod 64 = 0)%nat) _ _ _ [] a).
  - split; [reflexivity|]. split; [reflexivity|]. split; [reflexivity|]. rewrite La. unfold n. apply Nat.mod_mul. discriminate.
  - lia.
  - intros c r m' (-> & Ea & Ac & Hm) C. unfold plt in C. cbn [fst snd] in C. apply Nat.ltb_lt in C.
    assert (L64 : (64 <= length r)%nat) by (rewrite Ea, app_length in C; lia).
    destruct (split_at r 64 L64) as (x & r' & -> & Lx). pose proof H as H'. rewrite E, Ea, <- !app_assoc in H'.
    assert (Bx : bytes x). { rewrite E, Ea in B. apply bytes_app in B as [B _]. apply bytes_app in B as [_ B]. now apply bytes_app in B. }
    apply wp_bind. eapply wp_load_mid; [exact H'|exact Lx|]. cbn zeta. rewrite check16_ok.
    change (16 * 0)%nat with 0%nat. change (16 * 1)%nat with 16%nat. change (16 * 2)%nat with 32%nat. change (16 * 3)%nat with 48%nat.
    rewrite quarters by auto. destruct (ascii x) eqn:Ax.
    + apply wp_bind. eapply wp_add_in; [exact H'|rewrite !app_length; lia|]. apply wp_ret. exists (c ++ x), r'.
      rewrite app_length, Lx. split; [reflexivity|]. rewrite !app_length in *. split; [|lia]. split; [reflexivity|].
      split; [now rewrite <- app_assoc|]. split; [rewrite ascii_app, Ac, Ax; reflexivity|]. lia.
    + apply wp_ret. apply wp_ret. split; [|reflexivity]. rewrite E, Ea, !ascii_app, Ax, !andb_false_r. reflexivity.
  - intros c r m' (-> & Ea & Ac & Hm) C. unfold plt in C. cbn [fst snd] in C. apply Nat.ltb_ge in C.
    assert (r = []) as -> by (rewrite Ea, app_length in C; destruct r; [reflexivity|cbn [length] in C; lia]).
    rewrite app_nil_r in Ea. subst c. rewrite E in B, H. apply bytes_app in B as [_ B]. apply bytes_at_app in H as [_ H].
    rewrite E, ascii_app, Ac, andb_true_l. rewrite <- E, <- Lt. assert (Lt' : (length t < 64)%nat) by lia.
    destruct (Nat.eqb_spec (length t) 0) as [Z0|]; [|destruct (Nat.leb_spec (length t) 8); [|destruct (Nat.leb_spec (length t) 16)]].
    + apply wp_ret. destruct t; [|discriminate Z0]. auto.
    + apply check_tiny_ok; auto.
    + apply check_short_ok; auto.
    + apply check_medium_ok; auto. lia.
Qed.

Lemma is_ascii_sse2_ok m b o data : bytes data -> bytes_at m b o data ->
  wp (is_ascii_sse2 (b, o) (length data)) (fun r m' => r = ascii data /\ m' = m) m.
Proof.
  intros B H. unfold is_ascii_sse2.
  destruct (Nat.leb_spec (length data) 8); [now apply check_tiny_ok|].
  destruct (Nat.leb_spec (length data) 16); [now apply check_short_ok|].
  destruct (Nat.ltb_spec (length data) 64); [apply check_medium_ok; auto; lia|now apply check_long_ok].
Qed.

Lemma is_ascii_ok x64 s m b o data : bytes data -> bytes_at m b o data ->
  wp (is_ascii x64 s (b, o) (length data)) (fun r m' => r = ascii data /\ m' = m) m.
Proof.
  intros B H. destruct (simd_dec s) as [->|Hs]; [now apply is_ascii_fallback_ok|].
  assert (W : wp (is_ascii_simd x64 s (b, o) (length data)) (fun r m' => r = ascii data /\ m' = m) m).
  { unfold is_ascii_simd. destruct (x64 && matches_isa s [ISSE2]); [now apply is_ascii_sse2_ok|now apply is_ascii_v256_ok]. }
  unfold is_ascii. destruct s; try exact W. discriminate Hs.
Qed.
