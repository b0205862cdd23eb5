(** Which bits of the source are in a character, and which bits of a text are in a byte: facts about bit strings,
    used by PropPosition.v. *)
From Coq Require Import ZArith List Bool Lia ZifyBool ZifyNat.
From Verif Require Import Bytes Spec SpecFacts PrefixFacts.
Import ListNotations.
Open Scope Z_scope.
Ltac Zify.zify_post_hook ::= Z.div_mod_to_equations.

(** bit [p] of the bytes [x], from the most significant bit of the first byte; false beyond the end *)
Definition bit (x : list Z) (p : nat) : bool := Z.testbit (nth (p / 8) x 0) (7 - Z.of_nat (p mod 8)).

(** ** Bits of numbers *)
Lemma nth_bits n v : forall i, (i < n)%nat -> nth i (bits_of n v) false = Z.testbit v (Z.of_nat n - 1 - Z.of_nat i).
Proof.
  induction n as [|n IH]; intros i L; [lia|]. destruct i as [|i]; cbn [bits_of nth].
  - f_equal; lia.
  - rewrite IH by lia. f_equal; lia.
Qed.
Lemma nth_flat k l : forall j i, (i < k)%nat -> (j < length l)%nat ->
  nth (k * j + i) (flat_map (bits_of k) l) false = Z.testbit (nth j l 0) (Z.of_nat k - 1 - Z.of_nat i).
Proof.
  induction l as [|v l IH]; intros j i Li Lj; [cbn in Lj; lia|]. cbn [flat_map]. destruct j as [|j].
  - rewrite app_nth1 by (rewrite bits_of_len; lia). cbn [nth]. replace (k * 0 + i)%nat with i by lia. now apply nth_bits.
  - rewrite app_nth2 by (rewrite bits_of_len; lia). rewrite bits_of_len. replace (k * S j + i - k)%nat with (k * j + i)%nat by lia.
    cbn [nth]. apply IH; [exact Li|]. cbn in Lj. lia.
Qed.
Lemma nth_bytes_bits x p : nth p (bits_of_bytes x) false = bit x p.
Proof.
  unfold bit. destruct (Nat.lt_ge_cases p (8 * length x)) as [L|L].
  - replace p with (8 * (p / 8) + p mod 8)%nat at 1 by lia. unfold bits_of_bytes. rewrite nth_flat by lia. f_equal; lia.
  - rewrite !nth_overflow by (rewrite ?bits_of_bytes_len; lia). now rewrite Z.testbit_0_l.
Qed.
Lemma nth_zeros (l : list bool) p q : nth q (l ++ repeat false p) false = nth q l false.
Proof.
  destruct (Nat.lt_ge_cases q (length l)) as [L|L]; [now apply app_nth1|]. rewrite app_nth2 by lia.
  rewrite (nth_overflow l) by lia. set (r := (q - length l)%nat). clearbody r. revert r. induction p as [|p IH]; intros [|r]; cbn; auto.
Qed.
Lemma values_len k x : (0 < k)%nat -> length (rfc_values k x) = ((8 * length x + (k - 1)) / k)%nat.
Proof.
  intros K. destruct (bits_values k x K) as (p & P & E). apply (f_equal (@length bool)) in E.
  rewrite app_length, repeat_length, bits_of_bytes_len in E.
  assert (F : length (flat_map (bits_of k) (rfc_values k x)) = (k * length (rfc_values k x))%nat).
  { clear. induction (rfc_values k x) as [|v l IH]; [cbn; lia|]. cbn [flat_map length]. rewrite app_length, bits_of_len, IH. lia. }
  rewrite F in E. apply Nat.div_unique with (k - 1 - p)%nat; lia.
Qed.
(** bit [i] of value [j] is bit [k * j + i] of the source *)
Lemma value_bit k x j i : (i < k)%nat -> (j < length (rfc_values k x))%nat ->
  Z.testbit (nth j (rfc_values k x) 0) (Z.of_nat k - 1 - Z.of_nat i) = bit x (k * j + i).
Proof.
  intros Li Lj. rewrite <- nth_flat by assumption. destruct (bits_values k x ltac:(lia)) as (p & _ & ->). now rewrite nth_zeros, nth_bytes_bits.
Qed.
Lemma value_range k x j : 0 <= nth j (rfc_values k x) 0 < 2 ^ Z.of_nat k.
Proof.
  destruct (Nat.lt_ge_cases j (length (rfc_values k x))) as [L|L].
  - assert (F := groups_bound k (bits_of_bytes x) (length (bits_of_bytes x))). rewrite Forall_forall in F. apply F. now apply nth_In.
  - rewrite nth_overflow by exact L. assert (0 < 2 ^ Z.of_nat k) by (apply Z.pow_pos_nonneg; lia). lia.
Qed.
(** numbers below [2 ^ k] with the same [k] bits *)
Lemma same_bits k u v : 0 <= u < 2 ^ Z.of_nat k -> 0 <= v < 2 ^ Z.of_nat k ->
  (forall i, (i < k)%nat -> Z.testbit u (Z.of_nat k - 1 - Z.of_nat i) = Z.testbit v (Z.of_nat k - 1 - Z.of_nat i)) -> u = v.
Proof.
  intros Hu Hv H. apply Z.bits_inj'. intros n N. destruct (Z.lt_ge_cases n (Z.of_nat k)) as [L|L].
  - specialize (H (k - 1 - Z.to_nat n)%nat ltac:(lia)). now replace (Z.of_nat k - 1 - Z.of_nat (k - 1 - Z.to_nat n)) with n in H by lia.
  - rewrite <- (Z.mod_small u (2 ^ Z.of_nat k)), <- (Z.mod_small v (2 ^ Z.of_nat k)) by assumption. now rewrite !Z.mod_pow2_bits_high by lia.
Qed.
Lemma join_bit k a b n : 0 <= k -> 0 <= b < 2 ^ k -> 0 <= n -> Z.testbit (2 ^ k * a + b) n = if n <? k then Z.testbit b n else Z.testbit a (n - k).
Proof.
  intros K B N. destruct (Z.ltb_spec n k) as [L|L].
  - rewrite <- (Z.mod_pow2_bits_low _ k n) by lia. f_equal. rewrite Z.add_comm, Z.mul_comm, Z.mod_add by (apply Z.pow_nonzero; lia). now apply Z.mod_small.
  - replace n with (n - k + k) at 1 by lia. rewrite <- Z.div_pow2_bits by lia. f_equal.
    rewrite Z.add_comm, Z.mul_comm, Z.div_add by (apply Z.pow_nonzero; lia). rewrite Z.div_small by lia. lia.
Qed.
(** bit [n] of [w / 2 ^ e mod 2 ^ k] *)
Lemma window_bit w e k n : 0 <= e -> 0 <= n < k -> Z.testbit (w / 2 ^ e mod 2 ^ k) n = Z.testbit w (n + e).
Proof. intros E N. rewrite Z.mod_pow2_bits_low by lia. apply Z.div_pow2_bits; lia. Qed.

(** ** The characters of an encoding *)
(** the [k] bits from bit [k * j] on, as a number: they are in two neighbouring bytes *)
Definition window (k : nat) (x : list Z) (j : nat) : Z :=
  (256 * nth (k * j / 8) x 0 + nth (k * j / 8 + 1) x 0) / 2 ^ (16 - Z.of_nat k - Z.of_nat (k * j mod 8)) mod 2 ^ Z.of_nat k.
Lemma nth_byte x j : bytes x -> 0 <= nth j x 0 < 2 ^ 8.
Proof.
  intros B. change (2 ^ 8) with 256. destruct (Nat.lt_ge_cases j (length x)) as [L|L]; [|rewrite nth_overflow by exact L; lia].
  unfold bytes in B. rewrite Forall_forall in B. apply B. now apply nth_In.
Qed.
Lemma window_ok k x j : (0 < k <= 8)%nat -> bytes x -> (j < length (rfc_values k x))%nat -> nth j (rfc_values k x) 0 = window k x j.
Proof.
  intros K B L. apply (same_bits k); [apply value_range|unfold window; apply Z.mod_pos_bound, Z.pow_pos_nonneg; lia|].
  intros i Li. rewrite value_bit by assumption. unfold window.
  set (q := (k * j / 8)%nat). set (r := (k * j mod 8)%nat). assert (E : (k * j = 8 * q + r)%nat) by (unfold q, r; lia).
  assert (R : (r < 8)%nat) by (unfold r; lia). clearbody q r.
  rewrite window_bit by lia. change 256 with (2 ^ 8). rewrite join_bit by (lia || now apply nth_byte).
  unfold bit. rewrite E. destruct (Z.ltb_spec (Z.of_nat k - 1 - Z.of_nat i + (16 - Z.of_nat k - Z.of_nat r)) 8) as [H|H].
  - replace ((8 * q + r + i) / 8)%nat with (q + 1)%nat by lia. f_equal; lia.
  - replace ((8 * q + r + i) / 8)%nat with q by lia. f_equal; lia.
Qed.

(** ** Encodings as lists of characters *)
Lemma rfc_chars_nth k al x j : (j < length (rfc_values k x))%nat -> nth j (rfc_chars k al x) 0 = nth (Z.to_nat (nth j (rfc_values k x) 0)) al 0.
Proof.
  intros L. unfold rfc_chars. rewrite (nth_indep _ 0 (nth (Z.to_nat 0) al 0)) by now rewrite map_length.
  now rewrite (map_nth (fun v => nth (Z.to_nat v) al 0)).
Qed.
Lemma rfc_encode_positions k blk al pad x : (0 < k <= 8)%nat -> (0 < blk)%nat -> bytes x ->
  let t := rfc_encode k blk al pad x in let n := ((8 * length x + (k - 1)) / k)%nat in
  length t = (if pad then (n + (blk - 1)) / blk * blk else n)%nat /\
  (forall j, (j < n)%nat -> nth j t 0 = nth (Z.to_nat (window k x j)) al 0) /\
  (forall j, (n <= j < length t)%nat -> nth j t 0 = 61).
Proof.
  intros K Kb B. cbn zeta. set (n := ((8 * length x + (k - 1)) / k)%nat). assert (Ln : length (rfc_values k x) = n) by (apply values_len; lia).
  assert (Lc : length (rfc_chars k al x) = n) by (unfold rfc_chars; now rewrite map_length).
  unfold rfc_encode. cbn zeta. rewrite Lc. clearbody n. split; [|split].
  - rewrite app_length, Lc. destruct pad; [|cbn [length]; lia]. rewrite repeat_length. unfold rfc_pad_len.
    assert (M : (n mod blk < blk)%nat) by (apply Nat.mod_upper_bound; lia). assert (D := Nat.div_mod n blk ltac:(lia)).
    destruct (Nat.eq_dec (n mod blk) 0) as [Z0|Z0].
    + rewrite Z0, Nat.sub_0_r, Nat.mod_same by lia. rewrite <- (Nat.div_unique (n + (blk - 1)) blk (n / blk) (blk - 1)) by lia. lia.
    + rewrite (Nat.mod_small (blk - n mod blk)) by lia. rewrite <- (Nat.div_unique (n + (blk - 1)) blk (n / blk + 1) (n mod blk - 1)) by lia. lia.
  - intros j Lj. rewrite app_nth1 by lia. rewrite rfc_chars_nth by lia. now rewrite window_ok by (auto; lia).
  - intros j [L1 L2]. rewrite app_nth2 by lia. rewrite Lc. rewrite app_length, Lc in L2. destruct pad; [|cbn [length] in L2; lia].
    rewrite repeat_length in L2. change 61 with pad_char. assert (L : (j - n < rfc_pad_len blk n)%nat) by lia. revert L. generalize (j - n)%nat as q, (rfc_pad_len blk n) as w.
    clear. induction q as [|q IH]; intros [|w] L; cbn; [lia|reflexivity|lia|]. apply IH. lia.
Qed.

(** ** The bytes of a decoded text *)
(** two values give a byte of base64 *)
Lemma bytes_of_6 x i : bytes x -> (i < length x)%nat ->
  nth i x 0 = (64 * nth (8 * i / 6) (rfc_values 6 x) 0 + nth (8 * i / 6 + 1) (rfc_values 6 x) 0) / 2 ^ (4 - Z.of_nat (8 * i mod 6)) mod 256.
Proof.
  intros B L. assert (Ln := values_len 6 x ltac:(lia)).
  apply (same_bits 8); [change (Z.of_nat 8) with 8; now apply nth_byte|change 256 with (2 ^ Z.of_nat 8); apply Z.mod_pos_bound; lia|].
  intros m Lm. change 256 with (2 ^ 8). change (Z.of_nat 8) with 8.
  assert (E : Z.testbit (nth i x 0) (8 - 1 - Z.of_nat m) = bit x (8 * i + m)).
  { unfold bit. replace ((8 * i + m) / 8)%nat with i by lia. f_equal; lia. }
  rewrite E. set (q := (8 * i / 6)%nat). set (r := (8 * i mod 6)%nat). assert (Q : (8 * i = 6 * q + r)%nat) by (unfold q, r; lia).
  assert (R : (r <= 4)%nat) by (unfold r; lia). clearbody q r. rewrite window_bit by lia.
  change 64 with (2 ^ 6). rewrite join_bit by (lia || apply (value_range 6)). rewrite Q.
  destruct (Z.ltb_spec (8 - 1 - Z.of_nat m + (4 - Z.of_nat r)) 6) as [H|H].
  - replace (6 * q + r + m)%nat with (6 * (q + 1) + (r + m - 6))%nat by lia. rewrite <- value_bit by lia. f_equal; lia.
  - replace (6 * q + r + m)%nat with (6 * q + (r + m))%nat by lia. rewrite <- value_bit by lia. f_equal; lia.
Qed.
(** three values give a byte of base32; the third may be one beyond the last, and then has no part in it *)
Lemma bytes_of_5 x i e : bytes x -> (i < length x)%nat -> 0 <= e < 32 ->
  let v j := if (j <? length (rfc_values 5 x))%nat then nth j (rfc_values 5 x) 0 else e in
  nth i x 0 = (1024 * v (8 * i / 5)%nat + 32 * v (8 * i / 5 + 1)%nat + v (8 * i / 5 + 2)%nat) / 2 ^ (7 - Z.of_nat (8 * i mod 5)) mod 256.
Proof.
  intros B L Be v. assert (Ln := values_len 5 x ltac:(lia)).
  assert (Hv : forall j, 0 <= v j < 2 ^ 5).
  { intros j. unfold v. destruct (j <? _)%nat; [apply (value_range 5)|exact Be]. }
  apply (same_bits 8); [change (Z.of_nat 8) with 8; now apply nth_byte|change 256 with (2 ^ Z.of_nat 8); apply Z.mod_pos_bound; lia|].
  intros m Lm. change 256 with (2 ^ 8). change (Z.of_nat 8) with 8.
  assert (E : Z.testbit (nth i x 0) (8 - 1 - Z.of_nat m) = bit x (8 * i + m)).
  { unfold bit. replace ((8 * i + m) / 8)%nat with i by lia. f_equal; lia. }
  rewrite E. set (q := (8 * i / 5)%nat). set (r := (8 * i mod 5)%nat). assert (Q : (8 * i = 5 * q + r)%nat) by (unfold q, r; lia).
  assert (R : (r <= 4)%nat) by (unfold r; lia). clearbody q r. rewrite window_bit by lia.
  replace (1024 * v q + 32 * v (q + 1)%nat + v (q + 2)%nat) with (2 ^ 5 * (2 ^ 5 * v q + v (q + 1)%nat) + v (q + 2)%nat) by (change (2 ^ 5) with 32; lia).
  rewrite join_bit by (lia || apply Hv). rewrite Q.
  assert (G : forall j i, (i < 5)%nat -> (j < length (rfc_values 5 x))%nat -> Z.testbit (v j) (4 - Z.of_nat i) = bit x (5 * j + i)).
  { intros j i' Li Lj. rewrite <- value_bit by assumption. unfold v. apply Nat.ltb_lt in Lj. rewrite Lj. f_equal. }
  destruct (Z.ltb_spec (8 - 1 - Z.of_nat m + (7 - Z.of_nat r)) 5) as [H|H].
  - replace (5 * q + r + m)%nat with (5 * (q + 2) + (r + m - 10))%nat by lia. rewrite <- G by lia. f_equal; lia.
  - rewrite join_bit by (lia || apply Hv). destruct (Z.ltb_spec (8 - 1 - Z.of_nat m + (7 - Z.of_nat r) - 5) 5) as [H'|H'].
    + replace (5 * q + r + m)%nat with (5 * (q + 1) + (r + m - 5))%nat by lia. rewrite <- G by lia. f_equal; lia.
    + replace (5 * q + r + m)%nat with (5 * q + (r + m))%nat by lia. rewrite <- G by lia. f_equal; lia.
Qed.

(** ** One change *)
Lemma bit_change a b c d p : (p / 8 <> length a)%nat -> bit (a ++ c :: b) p = bit (a ++ d :: b) p.
Proof.
  intros N. unfold bit. f_equal. destruct (Nat.lt_ge_cases (p / 8) (length a)) as [L|L]; [now rewrite !app_nth1 by lia|].
  rewrite !app_nth2 by lia. destruct (p / 8 - length a)%nat eqn:E; [lia|reflexivity].
Qed.
(** a value that has no bit of the changed byte is the same *)
Lemma value_change k a b c d j : (0 < k)%nat -> (k * (j + 1) <= 8 * length a \/ 8 * (length a + 1) <= k * j)%nat ->
  nth j (rfc_values k (a ++ c :: b)) 0 = nth j (rfc_values k (a ++ d :: b)) 0.
Proof.
  intros K H. assert (Ln : length (rfc_values k (a ++ c :: b)) = length (rfc_values k (a ++ d :: b))) by (rewrite !values_len, !app_length by lia; reflexivity).
  destruct (Nat.lt_ge_cases j (length (rfc_values k (a ++ c :: b)))) as [L|L]; [|rewrite !nth_overflow by lia; reflexivity].
  apply (same_bits k); [apply value_range..|]. intros i Li. rewrite !value_bit by lia. apply bit_change. lia.
Qed.
Lemma encode_change k blk al pad a b c d : (0 < k)%nat ->
  let t := rfc_encode k blk al pad (a ++ c :: b) in let u := rfc_encode k blk al pad (a ++ d :: b) in
  length t = length u /\ forall j, (k * (j + 1) <= 8 * length a \/ 8 * (length a + 1) <= k * j)%nat -> nth j t 0 = nth j u 0.
Proof.
  intros K. cbn zeta. unfold rfc_encode. cbn zeta.
  assert (Ln : length (rfc_values k (a ++ c :: b)) = length (rfc_values k (a ++ d :: b))) by (rewrite !values_len, !app_length by lia; reflexivity).
  assert (Lc : length (rfc_chars k al (a ++ c :: b)) = length (rfc_chars k al (a ++ d :: b))) by (unfold rfc_chars; now rewrite !map_length).
  split; [now rewrite !app_length, Lc|]. intros j H. destruct (Nat.lt_ge_cases j (length (rfc_chars k al (a ++ c :: b)))) as [L|L].
  - rewrite !app_nth1 by lia. unfold rfc_chars in L. rewrite map_length in L. rewrite !rfc_chars_nth by lia. now rewrite (value_change k a b c d).
  - rewrite !app_nth2 by lia. now rewrite Lc.
Qed.

(** Texts that differ in one place: the values are the same except there, so the bytes without bits of it are the same. *)
Lemma decode_change k al n x y i : (0 < k <= 8)%nat -> distinct k al -> bytes x -> bytes y -> length x = length y ->
  (forall j, j <> n -> nth j (rfc_chars k al x) 0 = nth j (rfc_chars k al y) 0 \/ (length (rfc_chars k al x) <= j)%nat) ->
  (8 * (i + 1) <= k * n \/ k * (n + 1) <= 8 * i)%nat -> nth i x 0 = nth i y 0.
Proof.
  intros K D Bx By Lxy H Hi. destruct (Nat.lt_ge_cases i (length x)) as [L|L]; [|rewrite !nth_overflow by lia; reflexivity].
  apply (same_bits 8); [change (Z.of_nat 8) with 8; now apply nth_byte..|]. intros m Lm.
  assert (E : forall z, Z.testbit (nth i z 0) (Z.of_nat 8 - 1 - Z.of_nat m) = bit z (8 * i + m)).
  { intros z. unfold bit. replace ((8 * i + m) / 8)%nat with i by lia. f_equal; lia. }
  rewrite !E. set (p := (8 * i + m)%nat) in *.
  assert (Ex := values_len k x ltac:(lia)). assert (Ey := values_len k y ltac:(lia)). rewrite <- Lxy in Ey.
  set (j := (p / k)%nat). assert (Dj := Nat.div_mod p k ltac:(lia)). fold j in Dj. assert (Mj := Nat.mod_upper_bound p k ltac:(lia)).
  assert (Lj : (j < length (rfc_values k x))%nat).
  { rewrite Ex. apply Nat.div_lt_upper_bound; [lia|]. assert (M1 := Nat.mod_upper_bound (8 * length x + (k - 1)) k ltac:(lia)).
    assert (D1 := Nat.div_mod (8 * length x + (k - 1)) k ltac:(lia)). lia. }
  assert (Nj : j <> n) by nia.
  rewrite Dj, <- !value_bit by lia. f_equal. destruct (H j Nj) as [G|G].
  - rewrite !rfc_chars_nth in G by lia. apply D in G; [exact G|apply value_range..].
  - unfold rfc_chars in G. rewrite map_length in G. lia.
Qed.
Lemma nth_change {A} (a b : list A) c d j z : j <> length a -> nth j (a ++ c :: b) z = nth j (a ++ d :: b) z.
Proof.
  intros N. destruct (Nat.lt_ge_cases j (length a)) as [L|L]; [now rewrite !app_nth1 by lia|].
  rewrite !app_nth2 by lia. destruct (j - length a)%nat eqn:E; [lia|reflexivity].
Qed.
Lemma no_pad_filter (l : list Z) : ~ In 61 l -> filter (fun c => negb (c =? 61)) l = l.
Proof.
  induction l as [|c l IH]; intros N; [reflexivity|]. cbn [filter]. destruct (Z.eqb_spec c 61) as [->|_]; [elim N; now left|].
  cbn [negb]. now rewrite IH by (intro; apply N; now right).
Qed.
Lemma encode_filter k blk al pad x : ~ In 61 (rfc_chars k al x) -> filter (fun c => negb (c =? 61)) (rfc_encode k blk al pad x) = rfc_chars k al x.
Proof.
  intros N. unfold rfc_encode. cbn zeta. rewrite filter_app, no_pad_filter by exact N. unfold pad_char.
  assert (E : forall j, filter (fun c => negb (c =? 61)) (repeat 61 j) = []) by (induction j; [reflexivity|]; cbn; auto).
  destruct pad; [rewrite E|]; apply app_nil_r.
Qed.
Lemma chars_len_inj k al x y : (0 < k <= 8)%nat -> length (rfc_chars k al x) = length (rfc_chars k al y) -> length x = length y.
Proof.
  intros K E. unfold rfc_chars in E. rewrite !map_length in E.
  assert (F : forall l, length (flat_map (bits_of k) l) = (k * length l)%nat).
  { clear. induction l as [|v l IH]; [cbn; lia|]. cbn [flat_map length]. rewrite app_length, bits_of_len, IH. lia. }
  destruct (bits_values k x ltac:(lia)) as (p & P & Ep). destruct (bits_values k y ltac:(lia)) as (q & Q & Eq).
  apply (f_equal (@length bool)) in Ep, Eq. rewrite F, app_length, repeat_length, bits_of_bytes_len in Ep, Eq. rewrite E in Ep. lia.
Qed.
(** two accepted texts that differ in one character that is not padding *)
Lemma text_change k blk al pad a b c d x y : (0 < k <= 8)%nat -> distinct k al -> bytes x -> bytes y ->
  ~ In 61 (rfc_chars k al x) -> ~ In 61 (rfc_chars k al y) -> c <> 61 -> d <> 61 ->
  rfc_encode k blk al pad x = a ++ c :: b -> rfc_encode k blk al pad y = a ++ d :: b ->
  length x = length y /\
  forall i, (8 * (i + 1) <= k * length a \/ k * (length a + 1) <= 8 * i)%nat -> nth i x 0 = nth i y 0.
Proof.
  intros K D Bx By Nx Ny Nc Nd Ex Ey.
  assert (Lc : length (rfc_chars k al x) = length (rfc_chars k al y)).
  { rewrite <- (encode_filter k blk al pad x Nx), <- (encode_filter k blk al pad y Ny), Ex, Ey, !filter_app, !app_length. cbn [filter].
    apply Z.eqb_neq in Nc, Nd. now rewrite Nc, Nd. }
  assert (L := chars_len_inj k al x y K Lc). split; [exact L|]. intros i Hi.
  apply (decode_change k al (length a)); auto. intros j Nj. destruct (Nat.lt_ge_cases j (length (rfc_chars k al x))) as [H|H]; [left|now right].
  assert (G : forall z, (j < length (rfc_chars k al z))%nat -> nth j (rfc_encode k blk al pad z) 0 = nth j (rfc_chars k al z) 0).
  { intros z Hz. unfold rfc_encode. cbn zeta. now apply app_nth1. }
  rewrite <- !G, Ex, Ey by lia. now apply nth_change.
Qed.
(** the values of a text are those of its characters *)
Lemma text_values k blk al pad x v j : (0 < k <= 8)%nat -> distinct k al -> (j < length (rfc_values k x))%nat ->
  0 <= v < 2 ^ Z.of_nat k -> nth (Z.to_nat v) al 0 = nth j (rfc_encode k blk al pad x) 0 -> v = nth j (rfc_values k x) 0.
Proof.
  intros K D L V E. unfold rfc_encode in E. cbn zeta in E. rewrite app_nth1 in E by (unfold rfc_chars; now rewrite map_length).
  rewrite rfc_chars_nth in E by exact L. apply D in E; [exact E|exact V|apply value_range].
Qed.

(** ** Hexadecimal: four bits a character *)
Lemma hex_chars al x : bytes x -> rfc_chars 4 al x = rfc_hex_encode al x.
Proof.
  intros B. induction B as [|b x Hb B IH]; [reflexivity|].
  cbn [rfc_hex_encode flat_map]. fold (rfc_hex_encode al x). rewrite <- IH. unfold rfc_chars.
  assert (E1 : val_of (firstn 4 (bits_of 8 b)) = b / 16) by (apply Z.eqb_eq; revert b Hb; apply byte_sweep; vm_compute; reflexivity).
  assert (E2 : val_of (skipn 4 (bits_of 8 b)) = b mod 16) by (clear E1; apply Z.eqb_eq; revert b Hb; apply byte_sweep; vm_compute; reflexivity).
  assert (E : rfc_values 4 (b :: x) = b / 16 :: b mod 16 :: rfc_values 4 x); [|now rewrite E].
  unfold rfc_values. change (bits_of_bytes (b :: x)) with (bits_of 8 b ++ bits_of_bytes x).
  rewrite (groups_fuel 4 _ ltac:(lia) _ (S (S (length (bits_of 8 b ++ bits_of_bytes x))))) by lia.
  replace (bits_of 8 b) with (firstn 4 (bits_of 8 b) ++ skipn 4 (bits_of 8 b)) at 2 by apply firstn_skipn.
  rewrite <- app_assoc, groups_cons by (reflexivity || lia). rewrite groups_cons by (reflexivity || lia).
  rewrite E1, E2. do 2 f_equal. apply groups_fuel; [lia|rewrite app_length; lia|lia].
Qed.
