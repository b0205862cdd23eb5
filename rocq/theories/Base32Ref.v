(** Group-wise base32 (five bytes to eight characters and back), and its relation to the bit-string
    specification of Spec.v. *)
From Coq Require Import ZArith List Bool Lia ZifyBool ZifyNat.
From Verif Require Import Bytes Mem Spec SpecFacts Simd SimdFacts Alsw Ints Loops Base64Ref Base32 Base32SimdFacts Base32SimdDec.
Import ListNotations.
Open Scope Z_scope.
Ltac Zify.zify_post_hook ::= Z.div_mod_to_equations.

Ltac short l H := destruct l as [|? [|? [|? [|? [|? [|? [|? [|? ?]]]]]]]]; try (cbn [length] in H; lia).

Definition b32_alphabet (k : b32_kind) : list Z := match k with KBase32 => base32_std | KBase32Hex => base32_hex end.
Lemma b32_charset_alphabet k : b32_charset k = b32_alphabet k.
Proof. now destruct k. Qed.

(** ** Encoding *)
Definition b32_tail (k : b32_kind) (pad : bool) (l : list Z) : list Z :=
  let pads n := if pad then repeat 61 n else [] in
  match l with
  | [a] => b32_chars k (firstn 2 (oct a 0 0 0 0)) ++ pads 6%nat
  | [a; b] => b32_chars k (firstn 4 (oct a b 0 0 0)) ++ pads 4%nat
  | [a; b; c] => b32_chars k (firstn 5 (oct a b c 0 0)) ++ pads 3%nat
  | [a; b; c; d] => b32_chars k (firstn 7 (oct a b c d 0)) ++ pads 1%nat
  | _ => []
  end.
Fixpoint b32e (k : b32_kind) (pad : bool) (l : list Z) : list Z :=
  match l with
  | a :: b :: c :: d :: e :: r => b32_chars k (oct a b c d e) ++ b32e k pad r
  | _ => b32_tail k pad l
  end.
Lemma b32e_5 k pad a b c d e r : b32e k pad (a :: b :: c :: d :: e :: r) = b32_chars k (oct a b c d e) ++ b32e k pad r.
Proof. reflexivity. Qed.

(** values of the bit groups *)
Lemma u1 a : byte a -> val_of (firstn 5 (bits_of 8 a)) = a / 8.
Proof. intro H. apply Z.eqb_eq. revert a H. apply byte_sweep. vm_compute. reflexivity. Qed.
Lemma u2 a b : byte a -> byte b -> val_of (skipn 5 (bits_of 8 a) ++ firstn 2 (bits_of 8 b)) = (a mod 8) * 4 + b / 64.
Proof. intros H H'. apply (val_app2 _ _ 2); [reflexivity|sweep_val a H|sweep_val b H']. Qed.
Lemma u3 b : byte b -> val_of (firstn 5 (skipn 2 (bits_of 8 b))) = (b / 2) mod 32.
Proof. intro H. apply Z.eqb_eq. revert b H. apply byte_sweep. vm_compute. reflexivity. Qed.
Lemma u4 b c : byte b -> byte c -> val_of (skipn 7 (bits_of 8 b) ++ firstn 4 (bits_of 8 c)) = (b mod 2) * 16 + c / 16.
Proof. intros H H'. apply (val_app2 _ _ 4); [reflexivity|sweep_val b H|sweep_val c H']. Qed.
Lemma u5 c d : byte c -> byte d -> val_of (skipn 4 (bits_of 8 c) ++ firstn 1 (bits_of 8 d)) = (c mod 16) * 2 + d / 128.
Proof. intros H H'. apply (val_app2 _ _ 1); [reflexivity|sweep_val c H|sweep_val d H']. Qed.
Lemma u6 d : byte d -> val_of (firstn 5 (skipn 1 (bits_of 8 d))) = (d / 4) mod 32.
Proof. intro H. apply Z.eqb_eq. revert d H. apply byte_sweep. vm_compute. reflexivity. Qed.
Lemma u7 d e : byte d -> byte e -> val_of (skipn 6 (bits_of 8 d) ++ firstn 3 (bits_of 8 e)) = (d mod 4) * 8 + e / 32.
Proof. intros H H'. apply (val_app2 _ _ 3); [reflexivity|sweep_val d H|sweep_val e H']. Qed.
Lemma u8 e : byte e -> val_of (skipn 3 (bits_of 8 e)) = e mod 32.
Proof. intro H. apply Z.eqb_eq. revert e H. apply byte_sweep. vm_compute. reflexivity. Qed.

Lemma byte0' : byte 0.
Proof. unfold byte. lia. Qed.

Lemma rfc_values5_5 a b c d e r : byte a -> byte b -> byte c -> byte d -> byte e ->
  rfc_values 5 (a :: b :: c :: d :: e :: r) = oct a b c d e ++ rfc_values 5 r.
Proof.
  intros. unfold rfc_values. cbn zeta. rewrite bits_of_bytes_len.
  replace (bits_of_bytes (a :: b :: c :: d :: e :: r)) with
    (firstn 5 (bits_of 8 a) ++ (skipn 5 (bits_of 8 a) ++ firstn 2 (bits_of 8 b)) ++ firstn 5 (skipn 2 (bits_of 8 b)) ++
     (skipn 7 (bits_of 8 b) ++ firstn 4 (bits_of 8 c)) ++ (skipn 4 (bits_of 8 c) ++ firstn 1 (bits_of 8 d)) ++
     firstn 5 (skipn 1 (bits_of 8 d)) ++ (skipn 6 (bits_of 8 d) ++ firstn 3 (bits_of 8 e)) ++ skipn 3 (bits_of 8 e) ++
     bits_of_bytes r) by reflexivity.
  cbn [length]. replace (8 * S (S (S (S (S (length r))))))%nat with (S (S (S (S (S (S (S (S (32 + 8 * length r))))))))) by lia.
  rewrite !groups_cons by (reflexivity || lia). rewrite u1, u2, u3, u4, u5, u6, u7, u8 by auto.
  unfold oct. cbn [app]. do 8 f_equal. apply groups_fuel; rewrite ?bits_of_bytes_len; lia.
Qed.

Lemma rfc_values5_1 a : byte a -> rfc_values 5 [a] = firstn 2 (oct a 0 0 0 0).
Proof.
  intros Ha. unfold rfc_values. cbn zeta. rewrite bits_of_bytes_len.
  replace (bits_of_bytes [a]) with (firstn 5 (bits_of 8 a) ++ skipn 5 (bits_of 8 a)) by reflexivity.
  change (8 * length [a])%nat with 8%nat. rewrite groups_cons by (reflexivity || lia).
  rewrite groups_last by (cbn [bits_of skipn length]; lia).
  change (repeat false (5 - length (skipn 5 (bits_of 8 a)))) with (firstn 2 (bits_of 8 0)).
  rewrite u1, u2 by auto using byte0'. reflexivity.
Qed.
Lemma rfc_values5_2 a b : byte a -> byte b -> rfc_values 5 [a; b] = firstn 4 (oct a b 0 0 0).
Proof.
  intros Ha Hb. unfold rfc_values. cbn zeta. rewrite bits_of_bytes_len.
  replace (bits_of_bytes [a; b]) with (firstn 5 (bits_of 8 a) ++ (skipn 5 (bits_of 8 a) ++ firstn 2 (bits_of 8 b)) ++
    firstn 5 (skipn 2 (bits_of 8 b)) ++ skipn 7 (bits_of 8 b)) by reflexivity.
  change (8 * length [a; b])%nat with 16%nat. rewrite !groups_cons by (reflexivity || lia).
  rewrite groups_last by (cbn [bits_of skipn length]; lia).
  change (repeat false (5 - length (skipn 7 (bits_of 8 b)))) with (firstn 4 (bits_of 8 0)).
  rewrite u1, u2, u3, u4 by auto using byte0'. reflexivity.
Qed.
Lemma rfc_values5_3 a b c : byte a -> byte b -> byte c -> rfc_values 5 [a; b; c] = firstn 5 (oct a b c 0 0).
Proof.
  intros Ha Hb Hc. unfold rfc_values. cbn zeta. rewrite bits_of_bytes_len.
  replace (bits_of_bytes [a; b; c]) with (firstn 5 (bits_of 8 a) ++ (skipn 5 (bits_of 8 a) ++ firstn 2 (bits_of 8 b)) ++
    firstn 5 (skipn 2 (bits_of 8 b)) ++ (skipn 7 (bits_of 8 b) ++ firstn 4 (bits_of 8 c)) ++ skipn 4 (bits_of 8 c)) by reflexivity.
  change (8 * length [a; b; c])%nat with 24%nat. rewrite !groups_cons by (reflexivity || lia).
  rewrite groups_last by (cbn [bits_of skipn length]; lia).
  change (repeat false (5 - length (skipn 4 (bits_of 8 c)))) with (firstn 1 (bits_of 8 0)).
  rewrite u1, u2, u3, u4, u5 by auto using byte0'. reflexivity.
Qed.
Lemma rfc_values5_4 a b c d : byte a -> byte b -> byte c -> byte d -> rfc_values 5 [a; b; c; d] = firstn 7 (oct a b c d 0).
Proof.
  intros Ha Hb Hc Hd. unfold rfc_values. cbn zeta. rewrite bits_of_bytes_len.
  replace (bits_of_bytes [a; b; c; d]) with (firstn 5 (bits_of 8 a) ++ (skipn 5 (bits_of 8 a) ++ firstn 2 (bits_of 8 b)) ++
    firstn 5 (skipn 2 (bits_of 8 b)) ++ (skipn 7 (bits_of 8 b) ++ firstn 4 (bits_of 8 c)) ++
    (skipn 4 (bits_of 8 c) ++ firstn 1 (bits_of 8 d)) ++ firstn 5 (skipn 1 (bits_of 8 d)) ++ skipn 6 (bits_of 8 d)) by reflexivity.
  change (8 * length [a; b; c; d])%nat with 32%nat. rewrite !groups_cons by (reflexivity || lia).
  rewrite groups_last by (cbn [bits_of skipn length]; lia).
  change (repeat false (5 - length (skipn 6 (bits_of 8 d)))) with (firstn 3 (bits_of 8 0)).
  rewrite u1, u2, u3, u4, u5, u6, u7 by auto using byte0'. reflexivity.
Qed.

Lemma rfc_pad_len_add8 n : rfc_pad_len 8 (8 + n) = rfc_pad_len 8 n.
Proof. unfold rfc_pad_len. replace (8 + n)%nat with (n + 1 * 8)%nat by lia. now rewrite Nat.mod_add by lia. Qed.
Lemma b32_chars_len k l : length (b32_chars k l) = length l.
Proof. apply map_length. Qed.

Lemma b32e_rfc k pad l : bytes l -> b32e k pad l = rfc_base32 (b32_alphabet k) pad l.
Proof.
  unfold rfc_base32, rfc_encode, rfc_chars. cbn zeta. rewrite <- b32_charset_alphabet.
  induction l as [l H|a b c d e r IH] using list_ind5; intro B.
  - short l H; inv_bytes.
    + cbn. now destruct pad.
    + rewrite rfc_values5_1 by auto. destruct pad; reflexivity.
    + rewrite rfc_values5_2 by auto. destruct pad; reflexivity.
    + rewrite rfc_values5_3 by auto. destruct pad; reflexivity.
    + rewrite rfc_values5_4 by auto. destruct pad; reflexivity.
  - inv_bytes. rewrite b32e_5, rfc_values5_5 by auto. rewrite map_app, app_length, map_length.
    change (length (oct a b c d e)) with 8%nat. rewrite rfc_pad_len_add8, <- app_assoc, <- IH by auto. reflexivity.
Qed.

Lemma b32e_app k pad x r : (length x mod 5 = 0)%nat -> b32e k pad (x ++ r) = b32e k pad x ++ b32e k pad r.
Proof.
  induction x as [l H|a b c d e x IH] using list_ind5; intro L.
  - rewrite Nat.mod_small in L by auto. destruct l; [reflexivity|discriminate].
  - cbn [app]. rewrite !b32e_5, <- app_assoc, IH; [reflexivity|]. cbn [length] in L. lia.
Qed.
Lemma b32e_octs k pad x : (length x mod 5 = 0)%nat -> b32e k pad x = b32_chars k (octs x).
Proof.
  induction x as [l H|a b c d e x IH] using list_ind5; intro L.
  - rewrite Nat.mod_small in L by auto. destruct l; [reflexivity|discriminate].
  - rewrite b32e_5. cbn [octs]. unfold b32_chars at 2. rewrite map_app. fold (b32_chars k (oct a b c d e)). rewrite IH; [reflexivity|].
    cbn [length] in L. lia.
Qed.
(** number of padding characters after [n mod 5] left-over bytes *)
Definition b32_pads (r : nat) : nat := nth r [0; 6; 4; 3; 1]%nat 0%nat.
Lemma mod5_add n : (S (S (S (S (S n)))) mod 5 = n mod 5)%nat.
Proof. lia. Qed.
Lemma b32e_pads k l : b32e k true l = b32e k false l ++ repeat 61 (b32_pads (length l mod 5)).
Proof.
  induction l as [l H|a b c d e r IH] using list_ind5.
  - short l H; try reflexivity; cbn [b32e b32_tail]; cbn zeta; rewrite app_nil_r; reflexivity.
  - rewrite !b32e_5, IH, <- app_assoc. cbn [length]. now rewrite mod5_add.
Qed.
Lemma b32e_len k pad l : length (b32e k pad l) = b32_encoded_length_unchecked (length l) pad.
Proof.
  unfold b32_encoded_length_unchecked. cbn zeta.
  induction l as [l H|a b c d e r IH] using list_ind5.
  - short l H; destruct pad; reflexivity.
  - rewrite b32e_5, app_length, b32_chars_len, IH. change (length (oct a b c d e)) with 8%nat. cbn [length]. rewrite mod5_add.
    replace (S (S (S (S (S (length r))))) / 5)%nat with (S (length r / 5)) by lia.
    destruct (Nat.eqb_spec (length r mod 5) 0); [lia|]. destruct pad; lia.
Qed.

(** ** Decoding: unpadded text *)
Definition dv32 (k : b32_kind) (c : Z) : Z := al_decode (b32_alsw k) c.

Definition b32d_tail (k : b32_kind) (l : list Z) : option (list Z) :=
  if existsb (b32_bad k) l then None else
  match map (dv32 k) l with
  | [] => Some []
  | [a; b] => if b mod 4 =? 0 then Some (firstn 1 (quint a b 0 0 0 0 0 0)) else None
  | [a; b; c; d] => if d mod 16 =? 0 then Some (firstn 2 (quint a b c d 0 0 0 0)) else None
  | [a; b; c; d; e] => if e mod 2 =? 0 then Some (firstn 3 (quint a b c d e 0 0 0)) else None
  | [a; b; c; d; e; f; g] => if g mod 8 =? 0 then Some (firstn 4 (quint a b c d e f g 0)) else None
  | _ => None
  end.
Fixpoint b32d (k : b32_kind) (l : list Z) : option (list Z) :=
  match l with
  | a :: b :: c :: d :: e :: f :: g :: h :: r =>
      if existsb (b32_bad k) [a; b; c; d; e; f; g; h] then None
      else oapp (quint (dv32 k a) (dv32 k b) (dv32 k c) (dv32 k d) (dv32 k e) (dv32 k f) (dv32 k g) (dv32 k h)) (b32d k r)
  | _ => b32d_tail k l
  end.
Lemma b32d_8 k a b c d e f g h r : b32d k (a :: b :: c :: d :: e :: f :: g :: h :: r) =
  if existsb (b32_bad k) [a; b; c; d; e; f; g; h] then None
  else oapp (quint (dv32 k a) (dv32 k b) (dv32 k c) (dv32 k d) (dv32 k e) (dv32 k f) (dv32 k g) (dv32 k h)) (b32d k r).
Proof. reflexivity. Qed.
Lemma b32d_small k l : (length l < 8)%nat -> b32d k l = b32d_tail k l.
Proof. intro H. short l H; reflexivity. Qed.

Lemma b32d_block k x r : (length x mod 8 = 0)%nat ->
  b32d k (x ++ r) = if existsb (b32_bad k) x then None else oapp (quints (map (dv32 k) x)) (b32d k r).
Proof.
  induction x as [l H|a b c d e f g h x IH] using list_ind8; intro L.
  - rewrite Nat.mod_small in L by auto. destruct l; [|discriminate]. cbn [app existsb map quints]. now rewrite oapp_nil.
  - cbn [app]. rewrite b32d_8.
    change (a :: b :: c :: d :: e :: f :: g :: h :: x) with ([a; b; c; d; e; f; g; h] ++ x). rewrite existsb_app.
    destruct (existsb (b32_bad k) [a; b; c; d; e; f; g; h]); [reflexivity|]. cbn [orb app map quints].
    rewrite IH by (cbn [length] in L; lia).
    destruct (existsb (b32_bad k) x); [reflexivity|]. now rewrite oapp_oapp.
Qed.
Lemma b32d_quints k x : (length x mod 8 = 0)%nat ->
  b32d k x = if existsb (b32_bad k) x then None else Some (quints (map (dv32 k) x)).
Proof.
  intro H. rewrite <- (app_nil_r x) at 1. rewrite b32d_block by auto. destruct (existsb _ x); [reflexivity|].
  cbn. now rewrite app_nil_r.
Qed.

(** whole bytes in [n] characters; possible unpadded lengths *)
Definition b32_dl (n : nat) : nat := (5 * n / 8)%nat.
Lemma b32_dl_add n : b32_dl (8 + n) = (5 + b32_dl n)%nat.
Proof. unfold b32_dl. lia. Qed.
Definition b32_len_ok (n : nat) : bool := match (n mod 8)%nat with 1%nat | 3%nat | 6%nat => false | _ => true end.
Lemma mod8_add n : (S (S (S (S (S (S (S (S n))))))) mod 8 = n mod 8)%nat.
Proof. lia. Qed.
Lemma b32d_len k t d : b32d k t = Some d -> length d = b32_dl (length t).
Proof.
  revert d. induction t as [l L|a b c d e f g h x IH] using list_ind8; intros o H.
  - rewrite b32d_small in H by auto. unfold b32d_tail in H. destruct (existsb _ l); [discriminate|].
    short l L; cbn [map] in H; try discriminate H; try (destruct (_ =? 0); [|discriminate H]); 
      injection H as <-; reflexivity.
  - rewrite b32d_8 in H. destruct (existsb _ _); [discriminate|]. destruct (b32d k x) as [p|]; [|discriminate]. cbn [oapp] in H.
    assert (o = quint (dv32 k a) (dv32 k b) (dv32 k c) (dv32 k d) (dv32 k e) (dv32 k f) (dv32 k g) (dv32 k h) ++ p) as -> by congruence.
    rewrite app_length, (IH p eq_refl). change (length (a :: b :: c :: d :: e :: f :: g :: h :: x)) with (8 + length x)%nat. rewrite b32_dl_add. reflexivity.
Qed.
Lemma b32d_bad_len k t : b32_len_ok (length t) = false -> b32d k t = None.
Proof.
  induction t as [l L|a b c d e f g h x IH] using list_ind8; intros H.
  - rewrite b32d_small by auto. unfold b32d_tail. destruct (existsb _ l); [reflexivity|]. short l L; try discriminate H; reflexivity.
  - rewrite b32d_8, IH; [now destruct (existsb _ _)|]. unfold b32_len_ok in *. cbn [length] in H. now rewrite mod8_add in H.
Qed.

(** ** Characters *)
Lemma dv32_five k c : byte c -> b32_bad k c = false -> five (dv32 k c).
Proof. apply b32_val_five. Qed.
Lemma dv32_index k c : byte c -> index_of c (b32_alphabet k) = if b32_bad k c then None else Some (dv32 k c).
Proof.
  intro Hc. set (eqo := fun x y : option Z => match x, y with Some a, Some b => a =? b | None, None => true | _, _ => false end).
  enough (G : eqo (index_of c (b32_alphabet k)) (if b32_bad k c then None else Some (dv32 k c)) = true).
  { unfold eqo in G. destruct (index_of c (b32_alphabet k)), (if b32_bad k c then None else Some (dv32 k c)); try discriminate G; try reflexivity.
    apply Z.eqb_eq in G. now subst. }
  destruct k; revert c Hc; apply byte_sweep; vm_compute; reflexivity.
Qed.
Lemma dv32_char k c : byte c -> b32_bad k c = false -> nth (Z.to_nat (dv32 k c)) (b32_charset k) 0 = c.
Proof.
  intros Hc H. enough (G : b32_bad k c || (nth (Z.to_nat (dv32 k c)) (b32_charset k) 0 =? c) = true).
  { rewrite H in G. cbn [orb] in G. lia. }
  clear H. destruct k; revert c Hc; apply byte_sweep; vm_compute; reflexivity.
Qed.
Lemma dv32_chars k l : bytes l -> existsb (b32_bad k) l = false -> b32_chars k (map (dv32 k) l) = l.
Proof.
  induction l as [|c l IH]; intros B H; [reflexivity|]. inv_bytes. cbn [existsb] in H. apply orb_false_iff in H as [H1 H2].
  unfold b32_chars in *. cbn [map]. rewrite dv32_char, IH by auto. reflexivity.
Qed.
Lemma char32_ok k v : five v -> let c := nth (Z.to_nat v) (b32_charset k) 0 in
  byte c /\ b32_bad k c = false /\ dv32 k c = v /\ c <> 61 /\ 0 <= c < 128.
Proof.
  intro Hv. cbn zeta. set (P := fun v => let c := nth (Z.to_nat v) (b32_charset k) 0 in
    byteb c && negb (b32_bad k c) && (dv32 k c =? v) && negb (c =? 61) && (0 <=? c) && (c <? 128)).
  assert (G : P v = true) by (revert v Hv; apply (sweep1 32); destruct k; vm_compute; reflexivity).
  unfold P in G. cbn zeta in G. rewrite !andb_true_iff, !negb_true_iff in G.
  destruct G as (((((G1 & G2) & G3) & G4) & G5) & G6). apply byteb_byte in G1. repeat split; try apply G1; auto; lia.
Qed.
Lemma chars32_ok k l : Forall five l -> existsb (b32_bad k) (b32_chars k l) = false /\ map (dv32 k) (b32_chars k l) = l.
Proof.
  induction 1 as [|v l Hv F [IH1 IH2]]; [split; reflexivity|]. unfold b32_chars in *. cbn [map existsb].
  destruct (char32_ok k v Hv) as (_ & -> & -> & _). rewrite IH1, IH2. auto.
Qed.
Lemma b32_bad_eq k : b32_bad k 61 = true.
Proof. destruct k; reflexivity. Qed.

(** ** Decoding is the inverse of encoding *)
Lemma oct_quint a b c d e f g h : five a -> five b -> five c -> five d -> five e -> five f -> five g -> five h ->
  oct (8 * a + b / 4) ((b mod 4) * 64 + c * 2 + d / 16) ((d mod 16) * 16 + e / 2) ((e mod 2) * 128 + f * 4 + g / 8) ((g mod 8) * 32 + h)
  = [a; b; c; d; e; f; g; h] /\ bytes (quint a b c d e f g h).
Proof.
  unfold five. intros. split.
  - unfold oct. repeat (apply f_equal2; [lia|]). reflexivity.
  - unfold quint. repeat constructor; lia.
Qed.
Lemma quint_oct a b c d e : byte a -> byte b -> byte c -> byte d -> byte e ->
  quint (a / 8) ((a mod 8) * 4 + b / 64) ((b / 2) mod 32) ((b mod 2) * 16 + c / 16)
    ((c mod 16) * 2 + d / 128) ((d / 4) mod 32) ((d mod 4) * 8 + e / 32) (e mod 32) = [a; b; c; d; e].
Proof. unfold byte. intros. unfold quint. repeat (apply f_equal2; [lia|]). reflexivity. Qed.

Lemma five0 : five 0.
Proof. unfold five. lia. Qed.

Lemma b32_tail_sound k t : (length t < 8)%nat -> bytes t -> forall d, b32d_tail k t = Some d -> bytes d /\ b32e k false d = t.
Proof.
  intros L B d H. unfold b32d_tail in H. destruct (existsb (b32_bad k) t) eqn:X; [discriminate|].
  pose proof (b32_vals_five k t B X) as F. fold (dv32 k) in F. pose proof (dv32_chars k t B X) as C.
  short t L; cbn [map] in *; try discriminate H.
  - injection H as <-. split; [constructor|reflexivity].
  - match type of H with (if ?q =? 0 then _ else _) = _ => destruct (Z.eqb_spec q 0) as [M|]; [|discriminate H] end.
    inv_five. destruct (oct_quint (dv32 k z) (dv32 k z0) 0 0 0 0 0 0) as [O Bq]; auto using five0.
    set (x := dv32 k z) in *. set (y := dv32 k z0) in *.
    assert (d = [8 * x + y / 4]) as -> by (unfold quint in H; cbn [firstn] in H; congruence).
    split; [first [apply (bytes_firstn 1) in Bq; exact Bq | apply (bytes_firstn 2) in Bq; exact Bq | apply (bytes_firstn 3) in Bq; exact Bq | apply (bytes_firstn 4) in Bq; exact Bq]|].
    rewrite <- C. cbn [b32e b32_tail]. cbn zeta. rewrite app_nil_r. f_equal.
    change [x; y] with (firstn 2 [x; y; 0; 0; 0; 0; 0; 0]). rewrite <- O. f_equal. f_equal; lia.
  - match type of H with (if ?q =? 0 then _ else _) = _ => destruct (Z.eqb_spec q 0) as [M|]; [|discriminate H] end.
    inv_five. destruct (oct_quint (dv32 k z) (dv32 k z0) (dv32 k z1) (dv32 k z2) 0 0 0 0) as [O Bq]; auto using five0.
    set (x := dv32 k z) in *. set (y := dv32 k z0) in *. set (u := dv32 k z1) in *. set (v := dv32 k z2) in *.
    assert (d = [8 * x + y / 4; (y mod 4) * 64 + u * 2 + v / 16]) as -> by (unfold quint in H; cbn [firstn] in H; congruence).
    split; [first [apply (bytes_firstn 1) in Bq; exact Bq | apply (bytes_firstn 2) in Bq; exact Bq | apply (bytes_firstn 3) in Bq; exact Bq | apply (bytes_firstn 4) in Bq; exact Bq]|].
    rewrite <- C. cbn [b32e b32_tail]. cbn zeta. rewrite app_nil_r. f_equal.
    change [x; y; u; v] with (firstn 4 [x; y; u; v; 0; 0; 0; 0]). rewrite <- O. f_equal. f_equal; lia.
  - match type of H with (if ?q =? 0 then _ else _) = _ => destruct (Z.eqb_spec q 0) as [M|]; [|discriminate H] end.
    inv_five. destruct (oct_quint (dv32 k z) (dv32 k z0) (dv32 k z1) (dv32 k z2) (dv32 k z3) 0 0 0) as [O Bq]; auto using five0.
    set (x := dv32 k z) in *. set (y := dv32 k z0) in *. set (u := dv32 k z1) in *. set (v := dv32 k z2) in *. set (w := dv32 k z3) in *.
    assert (d = [8 * x + y / 4; (y mod 4) * 64 + u * 2 + v / 16; (v mod 16) * 16 + w / 2]) as -> by (unfold quint in H; cbn [firstn] in H; congruence).
    split; [first [apply (bytes_firstn 1) in Bq; exact Bq | apply (bytes_firstn 2) in Bq; exact Bq | apply (bytes_firstn 3) in Bq; exact Bq | apply (bytes_firstn 4) in Bq; exact Bq]|].
    rewrite <- C. cbn [b32e b32_tail]. cbn zeta. rewrite app_nil_r. f_equal.
    change [x; y; u; v; w] with (firstn 5 [x; y; u; v; w; 0; 0; 0]). rewrite <- O. f_equal. f_equal; lia.
  - match type of H with (if ?q =? 0 then _ else _) = _ => destruct (Z.eqb_spec q 0) as [M|]; [|discriminate H] end.
    inv_five. destruct (oct_quint (dv32 k z) (dv32 k z0) (dv32 k z1) (dv32 k z2) (dv32 k z3) (dv32 k z4) (dv32 k z5) 0) as [O Bq]; auto using five0.
    set (x := dv32 k z) in *. set (y := dv32 k z0) in *. set (u := dv32 k z1) in *. set (v := dv32 k z2) in *.
    set (w := dv32 k z3) in *. set (p := dv32 k z4) in *. set (q := dv32 k z5) in *.
    assert (d = [8 * x + y / 4; (y mod 4) * 64 + u * 2 + v / 16; (v mod 16) * 16 + w / 2; (w mod 2) * 128 + p * 4 + q / 8]) as ->
      by (unfold quint in H; cbn [firstn] in H; congruence).
    split; [first [apply (bytes_firstn 1) in Bq; exact Bq | apply (bytes_firstn 2) in Bq; exact Bq | apply (bytes_firstn 3) in Bq; exact Bq | apply (bytes_firstn 4) in Bq; exact Bq]|].
    rewrite <- C. cbn [b32e b32_tail]. cbn zeta. rewrite app_nil_r. f_equal.
    change [x; y; u; v; w; p; q] with (firstn 7 [x; y; u; v; w; p; q; 0]). rewrite <- O. f_equal. f_equal; lia.
Qed.

Lemma b32d_sound k t : bytes t -> forall d, b32d k t = Some d -> bytes d /\ b32e k false d = t /\ existsb (b32_bad k) t = false.
Proof.
  induction t as [l L|a b c d e f g h x IH] using list_ind8; intros B o H.
  - rewrite b32d_small in H by auto. destruct (b32_tail_sound k l L B o H) as [H1 H2]. split; [auto|]. split; [auto|].
    unfold b32d_tail in H. now destruct (existsb (b32_bad k) l).
  - rewrite b32d_8 in H. destruct (existsb (b32_bad k) [a; b; c; d; e; f; g; h]) eqn:X; [discriminate|].
    destruct (b32d k x) as [p|]; [|discriminate]. cbn [oapp] in H.
    change (a :: b :: c :: d :: e :: f :: g :: h :: x) with ([a; b; c; d; e; f; g; h] ++ x) in B |- *.
    apply bytes_app in B as [B1 B2].
    pose proof (b32_vals_five k _ B1 X) as F. fold (dv32 k) in F. pose proof (dv32_chars k _ B1 X) as C.
    cbn [map] in F, C. inv_five.
    destruct (IH B2 p eq_refl) as (Bp & Ep & Xp).
    destruct (oct_quint (dv32 k a) (dv32 k b) (dv32 k c) (dv32 k d) (dv32 k e) (dv32 k f) (dv32 k g) (dv32 k h)) as [O Bq]; auto.
    assert (o = quint (dv32 k a) (dv32 k b) (dv32 k c) (dv32 k d) (dv32 k e) (dv32 k f) (dv32 k g) (dv32 k h) ++ p) as -> by congruence.
    split; [apply bytes_app; auto|]. split.
    + unfold quint. cbn [app]. rewrite b32e_5, O, C, Ep. reflexivity.
    + rewrite existsb_app, X, Xp. reflexivity.
Qed.

Lemma b32d_complete k d : bytes d -> b32d k (b32e k false d) = Some d.
Proof.
  intros B. induction d as [l L|a b c d e r IH] using list_ind5.
  - short l L; inv_bytes.
    + reflexivity.
    + destruct (chars32_ok k (firstn 2 (oct z 0 0 0 0))) as [X V].
      { cbn [oct firstn]. unfold five, byte in *. repeat constructor; lia. }
      assert (Q := quint_oct z 0 0 0 0 ltac:(assumption) byte0' byte0' byte0' byte0').
      cbn [b32e b32_tail]. cbn zeta. rewrite app_nil_r.
      rewrite b32d_small by (rewrite b32_chars_len; cbn [oct firstn length]; lia).
      unfold b32d_tail. rewrite X, V. cbn [oct firstn].
      match goal with |- (if ?q =? 0 then _ else _) = _ => replace (q =? 0) with true by lia end.
      unfold quint in *. cbn [firstn] in *. f_equal. f_equal. congruence.
    + destruct (chars32_ok k (firstn 4 (oct z z0 0 0 0))) as [X V].
      { cbn [oct firstn]. unfold five, byte in *. repeat constructor; lia. }
      assert (Q := quint_oct z z0 0 0 0 ltac:(assumption) ltac:(assumption) byte0' byte0' byte0').
      cbn [b32e b32_tail]. cbn zeta. rewrite app_nil_r.
      rewrite b32d_small by (rewrite b32_chars_len; cbn [oct firstn length]; lia).
      unfold b32d_tail. rewrite X, V. cbn [oct firstn].
      match goal with |- (if ?q =? 0 then _ else _) = _ => replace (q =? 0) with true by lia end.
      unfold quint in *. cbn [firstn] in *. f_equal. f_equal; [|f_equal]; congruence.
    + destruct (chars32_ok k (firstn 5 (oct z z0 z1 0 0))) as [X V].
      { cbn [oct firstn]. unfold five, byte in *. repeat constructor; lia. }
      assert (Q := quint_oct z z0 z1 0 0 ltac:(assumption) ltac:(assumption) ltac:(assumption) byte0' byte0').
      cbn [b32e b32_tail]. cbn zeta. rewrite app_nil_r.
      rewrite b32d_small by (rewrite b32_chars_len; cbn [oct firstn length]; lia).
      unfold b32d_tail. rewrite X, V. cbn [oct firstn].
      match goal with |- (if ?q =? 0 then _ else _) = _ => replace (q =? 0) with true by lia end.
      unfold quint in *. cbn [firstn] in *. f_equal. f_equal; [|f_equal; [|f_equal]]; congruence.
    + destruct (chars32_ok k (firstn 7 (oct z z0 z1 z2 0))) as [X V].
      { cbn [oct firstn]. unfold five, byte in *. repeat constructor; lia. }
      assert (Q := quint_oct z z0 z1 z2 0 ltac:(assumption) ltac:(assumption) ltac:(assumption) ltac:(assumption) byte0').
      cbn [b32e b32_tail]. cbn zeta. rewrite app_nil_r.
      rewrite b32d_small by (rewrite b32_chars_len; cbn [oct firstn length]; lia).
      unfold b32d_tail. rewrite X, V. cbn [oct firstn].
      match goal with |- (if ?q =? 0 then _ else _) = _ => replace (q =? 0) with true by lia end.
      unfold quint in *. cbn [firstn] in *. f_equal. f_equal; [|f_equal; [|f_equal; [|f_equal]]]; congruence.
  - inv_bytes. rewrite b32e_5.
    destruct (chars32_ok k (oct a b c d e)) as [X V]; [apply oct_range; auto|].
    rewrite b32d_block by (rewrite b32_chars_len; reflexivity). rewrite X, V, IH by auto.
    unfold oct. cbn [quints oapp]. rewrite quint_oct by auto. reflexivity.
Qed.

Lemma b32_chars_good k l : Forall five l -> Forall (fun c => byte c /\ c <> 61 /\ 0 <= c < 128) (b32_chars k l).
Proof.
  intro F. unfold b32_chars. apply Forall_forall. intros c Hc. apply in_map_iff in Hc as (v & <- & Hv).
  rewrite Forall_forall in F. destruct (char32_ok k v (F v Hv)) as (H1 & _ & _ & H2 & H3). auto.
Qed.
Lemma b32e_chars_ok k l : bytes l -> Forall (fun c => byte c /\ c <> 61 /\ 0 <= c < 128) (b32e k false l).
Proof.
  induction l as [l L|a b c d e r IH] using list_ind5; intro B.
  - short l L; [apply Forall_nil|..]; inv_bytes; cbn [b32e b32_tail]; cbn zeta; rewrite ?app_nil_r;
      apply b32_chars_good; cbn [oct firstn]; unfold five, byte in *; repeat constructor; lia.
  - inv_bytes. rewrite b32e_5. apply Forall_app. split; [|auto]. apply b32_chars_good, oct_range; auto.
Qed.

(** ** Padding *)
Definition count_eq (l : list Z) : nat := length (filter (fun x => x =? 61) l).
(** the text that is decoded: with padding, what is left after removing as many characters as there are
    [=] among the last six *)
Definition b32_unpad (padding : bool) (s : list Z) : option (list Z) :=
  if padding then
    if (length s mod 8 =? 0)%nat then Some (firstn (length s - count_eq (skipn (length s - 6) s)) s) else None
  else Some s.
Definition b32_dec (cfg : b32_config) (s : list Z) : option (list Z) :=
  match b32_unpad (b32_padding cfg) s with
  | Some t => b32d (b32_kind_of cfg) t
  | None => None
  end.

Lemma count_eq_app a b : count_eq (a ++ b) = (count_eq a + count_eq b)%nat.
Proof. unfold count_eq. now rewrite filter_app, app_length. Qed.
Lemma count_eq_le l : (count_eq l <= length l)%nat.
Proof. unfold count_eq. induction l as [|c l IH]; cbn [filter length]; [lia|]. destruct (c =? 61); cbn [length]; lia. Qed.
Lemma count_eq_none k l : existsb (b32_bad k) l = false -> count_eq l = 0%nat.
Proof.
  unfold count_eq. induction l as [|c l IH]; cbn [filter existsb length]; intro H; [reflexivity|].
  apply orb_false_iff in H as [H1 H2]. destruct (Z.eqb_spec c 61) as [->|]; [now rewrite b32_bad_eq in H1|auto].
Qed.
Lemma count_eq_all l : count_eq l = length l -> l = repeat 61 (length l).
Proof.
  induction l as [|c l IH]; intro H; [reflexivity|]. pose proof (count_eq_le l). unfold count_eq in *. cbn [filter length repeat] in *.
  destruct (Z.eqb_spec c 61) as [->|]; cbn [length] in H; [|lia]. f_equal. apply IH. lia.
Qed.
Lemma count_eq_repeat n : count_eq (repeat 61 n) = n.
Proof. unfold count_eq. induction n; cbn [repeat filter Z.eqb Pos.eqb length]; auto. Qed.
Lemma count_eq_no l : (forall c, In c l -> c <> 61) -> count_eq l = 0%nat.
Proof.
  unfold count_eq. induction l as [|c l IH]; intro H; [reflexivity|]. cbn [filter].
  destruct (Z.eqb_spec c 61) as [->|]; [now destruct (H 61 (or_introl eq_refl))|]. apply IH. intros x Hx. apply H. now right.
Qed.
Lemma existsb_skipn {A} (f : A -> bool) n l : existsb f l = false -> existsb f (skipn n l) = false.
Proof. intro H. rewrite <- (firstn_skipn n l), existsb_app in H. now apply orb_false_iff in H. Qed.

(** if the remaining text decodes, then exactly the trailing [=] were removed *)
Lemma unpad32_sound k s t : (length s mod 8 = 0)%nat -> t = firstn (length s - count_eq (skipn (length s - 6) s)) s ->
  existsb (b32_bad k) t = false -> exists j, s = t ++ repeat 61 j /\ (length t + j = length s)%nat /\ (j <= 6)%nat.
Proof.
  intros L E X. set (j := count_eq (skipn (length s - 6) s)) in *.
  assert (J6 : (j <= 6)%nat).
  { unfold j. pose proof (count_eq_le (skipn (length s - 6) s)) as H. rewrite skipn_length in H. lia. }
  assert (Js : (j <= length s)%nat).
  { unfold j. pose proof (count_eq_le (skipn (length s - 6) s)) as H. rewrite skipn_length in H. lia. }
  exists j. assert (Lt : length t = (length s - j)%nat) by (rewrite E, firstn_length; lia).
  split; [|split; lia].
  set (u := skipn (length s - j) s). assert (Es : s = t ++ u) by (rewrite E; symmetry; apply firstn_skipn).
  assert (Lu : length u = j) by (unfold u; rewrite skipn_length; lia).
  rewrite Es at 1. f_equal. rewrite <- Lu. apply count_eq_all. rewrite Lu.
  transitivity (count_eq (skipn (length s - 6) s)); [|reflexivity].
  rewrite Es at 2. rewrite skipn_app, count_eq_app.
  rewrite (count_eq_none k (skipn (length s - 6) t)) by (now apply existsb_skipn).
  replace (length s - 6 - length t)%nat with 0%nat by lia. reflexivity.
Qed.

Lemma b32e_nopad_mod k d : (length (b32e k false d) mod 8 = nth (length d mod 5) [0; 2; 4; 5; 7] 0)%nat.
Proof.
  rewrite b32e_len. unfold b32_encoded_length_unchecked. cbn zeta.
  pose proof (Nat.mod_upper_bound (length d) 5 ltac:(lia)).
  destruct (length d mod 5)%nat as [|[|[|[|[|?]]]]] eqn:E; cbn [Nat.eqb nth]; lia.
Qed.

Lemma unpad32_complete t j : (forall c, In c t -> c <> 61) -> ((length t + j) mod 8 = 0)%nat -> (j <= 6)%nat ->
  b32_unpad true (t ++ repeat 61 j) = Some t.
Proof.
  intros H L J. unfold b32_unpad. rewrite app_length, repeat_length, L. cbn [Nat.eqb]. f_equal.
  assert (count_eq (skipn (length t + j - 6) (t ++ repeat 61 j)) = j) as ->.
  - rewrite skipn_app, count_eq_app.
    rewrite (count_eq_no (skipn _ t)).
    2:{ intros c Hc. apply H. rewrite <- (firstn_skipn (length t + j - 6) t). apply in_or_app. now right. }
    replace (length t + j - 6 - length t)%nat with 0%nat by lia. cbn [skipn]. rewrite count_eq_repeat. reflexivity.
  - replace (length t + j - j)%nat with (length t) by lia. now rewrite firstn_app_exact.
Qed.

Lemma b32_dec_strict cfg s d : bytes s ->
  b32_dec cfg s = Some d <->
  bytes d /\ rfc_base32 (b32_alphabet (b32_kind_of cfg)) (b32_padding cfg) d = s.
Proof.
  intros B. destruct cfg as [k p]. unfold b32_dec. cbn [b32_kind_of b32_padding].
  split.
  - intro H. destruct p.
    + unfold b32_unpad in H. destruct (Nat.eqb_spec (length s mod 8) 0) as [E|]; [|discriminate].
      set (t := firstn (length s - count_eq (skipn (length s - 6) s)) s) in *.
      assert (Bt : bytes t) by (apply bytes_firstn, B).
      destruct (b32d_sound k t Bt d H) as (Bd & Ed & X). split; [exact Bd|].
      destruct (unpad32_sound k s t E eq_refl X) as (j & Es & Lj & J).
      rewrite <- b32e_rfc by auto. rewrite b32e_pads, Ed. transitivity (t ++ repeat 61 j); [|symmetry; exact Es]. do 2 f_equal.
      pose proof (b32e_nopad_mod k d) as M. rewrite Ed in M. clearbody t.
      pose proof (Nat.mod_upper_bound (length d) 5 ltac:(lia)).
      unfold b32_pads. destruct (length d mod 5)%nat as [|[|[|[|[|?]]]]]; cbn [nth] in *; lia.
    + destruct (b32d_sound k s B d H) as (Bd & Ed & X). split; [exact Bd|]. now rewrite <- b32e_rfc by auto.
  - intros [Bd Ed]. rewrite <- b32e_rfc in Ed by auto. destruct p.
    + rewrite b32e_pads in Ed. pose proof (b32e_nopad_mod k d) as M.
      pose proof (Nat.mod_upper_bound (length d) 5 ltac:(lia)) as U.
      rewrite <- Ed. rewrite unpad32_complete.
      * now apply b32d_complete.
      * intros c Hc. pose proof (b32e_chars_ok k d Bd) as F. rewrite Forall_forall in F. now apply F.
      * unfold b32_pads. destruct (length d mod 5)%nat as [|[|[|[|[|?]]]]]; cbn [nth] in *; lia.
      * unfold b32_pads. destruct (length d mod 5)%nat as [|[|[|[|[|?]]]]]; cbn [nth] in *; lia.
    + rewrite <- Ed. now apply b32d_complete.
Qed.
