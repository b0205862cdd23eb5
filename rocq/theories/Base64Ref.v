(** Group-wise base64 (three bytes to four characters and back), and its relation to the bit-string
    specification of Spec.v. *)
From Coq Require Import ZArith List Bool Lia ZifyBool ZifyNat.
From Verif Require Import Bytes Mem Spec SpecFacts Simd SimdFacts Alsw Ints Loops Base64 Base64SimdFacts.
Import ListNotations.
Open Scope Z_scope.
Ltac Zify.zify_post_hook ::= Z.div_mod_to_equations.

Definition b64_alphabet (k : b64_kind) : list Z := match k with Standard => base64_std | UrlSafe => base64_url end.
Lemma charset_alphabet k : b64_charset k = b64_alphabet k.
Proof. now destruct k. Qed.

(** ** Encoding *)
Definition b64_tail (k : b64_kind) (pad : bool) (l : list Z) : list Z :=
  match l with
  | [a] => b64_chars k [a / 4; (a mod 4) * 16] ++ (if pad then [61; 61] else [])
  | [a; b] => b64_chars k [a / 4; (a mod 4) * 16 + b / 16; (b mod 16) * 4] ++ (if pad then [61] else [])
  | _ => []
  end.
Fixpoint b64e (k : b64_kind) (pad : bool) (l : list Z) : list Z :=
  match l with
  | a :: b :: c :: r => b64_chars k (sext a b c) ++ b64e k pad r
  | _ => b64_tail k pad l
  end.

Lemma b64e_3 k pad a b c r : b64e k pad (a :: b :: c :: r) = b64_chars k (sext a b c) ++ b64e k pad r.
Proof. reflexivity. Qed.

(** values of the bit groups *)
Lemma v1 a : byte a -> val_of (firstn 6 (bits_of 8 a)) = a / 4.
Proof. intro H. apply Z.eqb_eq. revert a H. apply byte_sweep. vm_compute. reflexivity. Qed.
Lemma v2 a b : byte a -> byte b -> val_of (skipn 6 (bits_of 8 a) ++ firstn 4 (bits_of 8 b)) = (a mod 4) * 16 + b / 16.
Proof. intros H H'. apply (val_app2 _ _ 4); [reflexivity|sweep_val a H|sweep_val b H']. Qed.
Lemma v3 b c : byte b -> byte c -> val_of (skipn 4 (bits_of 8 b) ++ firstn 2 (bits_of 8 c)) = (b mod 16) * 4 + c / 64.
Proof. intros H H'. apply (val_app2 _ _ 2); [reflexivity|sweep_val b H|sweep_val c H']. Qed.
Lemma v4 c : byte c -> val_of (skipn 2 (bits_of 8 c)) = c mod 64.
Proof. intro H. apply Z.eqb_eq. revert c H. apply byte_sweep. vm_compute. reflexivity. Qed.
Lemma v2' a : byte a -> val_of (skipn 6 (bits_of 8 a) ++ repeat false 4) = (a mod 4) * 16.
Proof. intro H. apply Z.eqb_eq. revert a H. apply byte_sweep. vm_compute. reflexivity. Qed.
Lemma v3' b : byte b -> val_of (skipn 4 (bits_of 8 b) ++ repeat false 2) = (b mod 16) * 4.
Proof. intro H. apply Z.eqb_eq. revert b H. apply byte_sweep. vm_compute. reflexivity. Qed.

Lemma rfc_values6_3 a b c r : byte a -> byte b -> byte c ->
  rfc_values 6 (a :: b :: c :: r) = sext a b c ++ rfc_values 6 r.
Proof.
  intros Ha Hb Hc. unfold rfc_values. cbn zeta. rewrite bits_of_bytes_len.
  replace (bits_of_bytes (a :: b :: c :: r)) with
    (firstn 6 (bits_of 8 a) ++ (skipn 6 (bits_of 8 a) ++ firstn 4 (bits_of 8 b)) ++
     (skipn 4 (bits_of 8 b) ++ firstn 2 (bits_of 8 c)) ++ skipn 2 (bits_of 8 c) ++ bits_of_bytes r) by reflexivity.
  cbn [length]. replace (8 * S (S (S (length r))))%nat with (S (S (S (S (20 + 8 * length r))))) by lia.
  rewrite !groups_cons by (reflexivity || lia). rewrite v1, v2, v3, v4 by auto.
  unfold sext. cbn [app]. do 4 f_equal. apply groups_fuel; rewrite ?bits_of_bytes_len; lia.
Qed.
Lemma rfc_values6_1 a : byte a -> rfc_values 6 [a] = [a / 4; (a mod 4) * 16].
Proof.
  intros Ha. unfold rfc_values. cbn zeta. rewrite bits_of_bytes_len.
  replace (bits_of_bytes [a]) with (firstn 6 (bits_of 8 a) ++ skipn 6 (bits_of 8 a)) by reflexivity.
  change (8 * length [a])%nat with 8%nat. rewrite groups_cons by (reflexivity || lia).
  rewrite groups_last by (cbn [bits_of skipn length]; lia). change (6 - length (skipn 6 (bits_of 8 a)))%nat with 4%nat. now rewrite v1, v2' by auto.
Qed.
Lemma rfc_values6_2 a b : byte a -> byte b -> rfc_values 6 [a; b] = [a / 4; (a mod 4) * 16 + b / 16; (b mod 16) * 4].
Proof.
  intros Ha Hb. unfold rfc_values. cbn zeta. rewrite bits_of_bytes_len.
  replace (bits_of_bytes [a; b]) with (firstn 6 (bits_of 8 a) ++ (skipn 6 (bits_of 8 a) ++ firstn 4 (bits_of 8 b)) ++ skipn 4 (bits_of 8 b)) by reflexivity.
  change (8 * length [a; b])%nat with 16%nat. rewrite !groups_cons by (reflexivity || lia).
  rewrite groups_last by (cbn [bits_of skipn length]; lia). change (6 - length (skipn 4 (bits_of 8 b)))%nat with 2%nat. now rewrite v1, v2, v3' by auto.
Qed.

Lemma rfc_pad_len_add4 n : rfc_pad_len 4 (4 + n) = rfc_pad_len 4 n.
Proof. unfold rfc_pad_len. replace (4 + n)%nat with (n + 1 * 4)%nat by lia. now rewrite Nat.mod_add by lia. Qed.

Lemma b64_chars_len k l : length (b64_chars k l) = length l.
Proof. apply map_length. Qed.

Lemma b64e_rfc k pad l : bytes l -> b64e k pad l = rfc_base64 (b64_alphabet k) pad l.
Proof.
  unfold rfc_base64, rfc_encode, rfc_chars. cbn zeta. rewrite <- charset_alphabet.
  induction l as [|a|a b|a b c r IH] using list_ind3; intro B; inv_bytes.
  - cbn. now destruct pad.
  - rewrite rfc_values6_1 by auto. destruct pad; reflexivity.
  - rewrite rfc_values6_2 by auto. destruct pad; reflexivity.
  - rewrite b64e_3, rfc_values6_3 by auto. rewrite map_app, app_length, map_length.
    change (length (sext a b c)) with 4%nat. rewrite rfc_pad_len_add4, <- app_assoc, <- IH by auto. reflexivity.
Qed.

Lemma b64e_app k pad x r : (length x mod 3 = 0)%nat -> b64e k pad (x ++ r) = b64e k pad x ++ b64e k pad r.
Proof.
  induction x as [|a|a b|a b c x IH] using list_ind3; intro H; try discriminate H.
  - reflexivity.
  - cbn [app]. rewrite !b64e_3, <- app_assoc, IH; [reflexivity|]. cbn [length] in H. lia.
Qed.
Lemma b64e_sextets k pad x : (length x mod 3 = 0)%nat -> b64e k pad x = b64_chars k (sextets x).
Proof.
  induction x as [|a|a b|a b c x IH] using list_ind3; intro H; try discriminate H.
  - reflexivity.
  - rewrite b64e_3. cbn [sextets]. unfold b64_chars at 2. rewrite map_app. fold (b64_chars k (sext a b c)). rewrite IH; [reflexivity|].
    cbn [length] in H. lia.
Qed.
Lemma b64e_pads k l : b64e k true l = b64e k false l ++ repeat 61 (match (length l mod 3)%nat with 0%nat => 0 | 1%nat => 2 | _ => 1 end).
Proof.
  induction l as [|a|a b|a b c r IH] using list_ind3; try reflexivity.
  rewrite !b64e_3, IH, <- app_assoc. do 3 f_equal. cbn [length].
  replace (S (S (S (length r)))) with (length r + 1 * 3)%nat by lia. now rewrite Nat.mod_add by lia.
Qed.
Lemma b64e_len k e l : length (b64e k (b64_padding e) l) = b64_encoded_length_unchecked (length l) {| b64_kind_of := k; b64_extra_of := e |}.
Proof.
  unfold b64_encoded_length_unchecked. cbn [b64_extra_of].
  induction l as [|a|a b|a b c r IH] using list_ind3.
  - reflexivity.
  - destruct e; reflexivity.
  - destruct e; reflexivity.
  - rewrite b64e_3, app_length, b64_chars_len, IH. change (length (sext a b c)) with 4%nat. cbn [length].
    replace (S (S (S (length r)))) with (length r + 1 * 3)%nat by lia.
    rewrite Nat.mod_add, Nat.div_add by lia. destruct (Nat.eqb_spec (length r mod 3) 0); [lia|]. destruct (b64_padding e); lia.
Qed.

(** ** Decoding: unpadded text *)
Definition dv (k : b64_kind) (c : Z) : Z := al_decode (b64_alsw k) c.

Definition b64d_tail (k : b64_kind) (fg : bool) (l : list Z) : option (list Z) :=
  match l with
  | [] => Some []
  | [a; b] => if b64_bad k a || b64_bad k b then None
              else if fg || (dv k b mod 16 =? 0) then Some [4 * dv k a + dv k b / 16] else None
  | [a; b; c] => if b64_bad k a || b64_bad k b || b64_bad k c then None
              else if fg || (dv k c mod 4 =? 0) then Some [4 * dv k a + dv k b / 16; (dv k b mod 16) * 16 + dv k c / 4] else None
  | _ => None
  end.
Fixpoint b64d (k : b64_kind) (fg : bool) (l : list Z) : option (list Z) :=
  match l with
  | a :: b :: c :: d :: r =>
      if b64_bad k a || b64_bad k b || b64_bad k c || b64_bad k d then None
      else oapp (trip (dv k a) (dv k b) (dv k c) (dv k d)) (b64d k fg r)
  | _ => b64d_tail k fg l
  end.
Lemma b64d_4 k fg a b c d r : b64d k fg (a :: b :: c :: d :: r) =
  if b64_bad k a || b64_bad k b || b64_bad k c || b64_bad k d then None
  else oapp (trip (dv k a) (dv k b) (dv k c) (dv k d)) (b64d k fg r).
Proof. reflexivity. Qed.

Lemma oapp_nil p : oapp [] p = p.
Proof. now destruct p. Qed.
Lemma oapp_oapp a b p : oapp a (oapp b p) = oapp (a ++ b) p.
Proof. destruct p; cbn; [|reflexivity]. now rewrite app_assoc. Qed.

Lemma b64d_block k fg x r : (length x mod 4 = 0)%nat ->
  b64d k fg (x ++ r) = if existsb (b64_bad k) x then None else oapp (triples (map (dv k) x)) (b64d k fg r).
Proof.
  induction x as [|a|a b|a b c|a b c d x IH] using list_ind4; intro H; try discriminate H.
  - cbn [app existsb map triples]. now rewrite oapp_nil.
  - cbn [app]. rewrite b64d_4. cbn [existsb map triples].
    rewrite IH by (cbn [length] in H; lia).
    destruct (b64_bad k a), (b64_bad k b), (b64_bad k c), (b64_bad k d); try reflexivity.
    cbn [orb]. destruct (existsb (b64_bad k) x); [reflexivity|]. now rewrite oapp_oapp.
Qed.
Lemma b64d_triples k fg x : (length x mod 4 = 0)%nat ->
  b64d k fg x = if existsb (b64_bad k) x then None else Some (triples (map (dv k) x)).
Proof.
  intro H. rewrite <- (app_nil_r x) at 1. rewrite b64d_block by auto. destruct (existsb _ x); [reflexivity|].
  cbn. now rewrite app_nil_r.
Qed.

(** bytes produced from [n] characters *)
Definition b64_dl (n : nat) : nat := (n / 4 * 3 + (n mod 4 - 1))%nat.
Lemma b64_dl_add n : b64_dl (4 + n) = (3 + b64_dl n)%nat.
Proof.
  unfold b64_dl. replace (4 + n)%nat with (n + 1 * 4)%nat by lia. rewrite Nat.mod_add, Nat.div_add by lia. lia.
Qed.
Lemma b64d_len k fg t d : b64d k fg t = Some d -> length d = b64_dl (length t).
Proof.
  revert d. induction t as [|a|a b|a b c|a b c e x IH] using list_ind4; intros d H; cbn [b64d b64d_tail] in H.
  - injection H as <-. reflexivity.
  - discriminate.
  - destruct (_ || _); [discriminate|]. destruct (_ || _); [|discriminate]. injection H as <-. reflexivity.
  - destruct (_ || _); [discriminate|]. destruct (_ || _); [|discriminate]. injection H as <-. reflexivity.
  - destruct (_ || _); [discriminate|]. destruct (b64d k fg x) as [o|]; [|discriminate]. cbn [oapp] in H.
    assert (d = trip (dv k a) (dv k b) (dv k c) (dv k e) ++ o) as -> by congruence.
    rewrite app_length, (IH o eq_refl). change (length (a :: b :: c :: e :: x)) with (4 + length x)%nat. rewrite b64_dl_add. reflexivity.
Qed.
Lemma b64d_mod1 k fg t : (length t mod 4 = 1)%nat -> b64d k fg t = None.
Proof.
  induction t as [|a|a b|a b c|a b c e x IH] using list_ind4; intros H; try discriminate H; [reflexivity|].
  rewrite b64d_4, IH by (cbn [length] in H; lia). now destruct (_ || _).
Qed.

(** ** Characters *)
Lemma dv_index k c : byte c -> index_of c (b64_alphabet k) = if b64_bad k c then None else Some (dv k c).
Proof.
  intro Hc. set (eqo := fun x y : option Z => match x, y with Some a, Some b => a =? b | None, None => true | _, _ => false end).
  enough (G : eqo (index_of c (b64_alphabet k)) (if b64_bad k c then None else Some (dv k c)) = true).
  { unfold eqo in G. destruct (index_of c (b64_alphabet k)), (if b64_bad k c then None else Some (dv k c)); try discriminate G; try reflexivity.
    apply Z.eqb_eq in G. now subst. }
  destruct k; revert c Hc; apply byte_sweep; vm_compute; reflexivity.
Qed.
Lemma dv_six k c : byte c -> b64_bad k c = false -> six (dv k c).
Proof. apply b64_val_six. Qed.
Lemma dv_char k c : byte c -> b64_bad k c = false -> nth (Z.to_nat (dv k c)) (b64_charset k) 0 = c.
Proof.
  intros Hc H. enough (G : b64_bad k c || (nth (Z.to_nat (dv k c)) (b64_charset k) 0 =? c) = true).
  { rewrite H in G. cbn [orb] in G. lia. }
  clear H. destruct k; revert c Hc; apply byte_sweep; vm_compute; reflexivity.
Qed.
Lemma char_ok k v : six v -> let c := nth (Z.to_nat v) (b64_charset k) 0 in
  byte c /\ b64_bad k c = false /\ dv k c = v /\ c <> 61 /\ 0 <= c < 128.
Proof.
  intro Hv. cbn zeta. set (P := fun v => let c := nth (Z.to_nat v) (b64_charset k) 0 in
    byteb c && negb (b64_bad k c) && (dv k c =? v) && negb (c =? 61) && (0 <=? c) && (c <? 128)).
  assert (G : P v = true) by (revert v Hv; apply (sweep1 64); destruct k; vm_compute; reflexivity).
  unfold P in G. cbn zeta in G. rewrite !andb_true_iff, !negb_true_iff in G.
  destruct G as (((((G1 & G2) & G3) & G4) & G5) & G6). apply byteb_byte in G1. repeat split; try apply G1; auto; lia.
Qed.

(** ** Strict decoding is the inverse of encoding *)
Lemma enc_trip k a b c d : byte a -> byte b -> byte c -> byte d ->
  b64_bad k a = false -> b64_bad k b = false -> b64_bad k c = false -> b64_bad k d = false ->
  bytes (trip (dv k a) (dv k b) (dv k c) (dv k d)) /\
  forall pad r, b64e k pad (trip (dv k a) (dv k b) (dv k c) (dv k d) ++ r) = [a; b; c; d] ++ b64e k pad r.
Proof.
  intros Ha Hb Hc Hd Ba Bb Bc Bd.
  pose proof (dv_six k a Ha Ba) as Sa. pose proof (dv_six k b Hb Bb) as Sb.
  pose proof (dv_six k c Hc Bc) as Sc. pose proof (dv_six k d Hd Bd) as Sd.
  pose proof (dv_char k a Ha Ba) as Ca. pose proof (dv_char k b Hb Bb) as Cb.
  pose proof (dv_char k c Hc Bc) as Cc. pose proof (dv_char k d Hd Bd) as Cd.
  set (x := dv k a) in *. set (y := dv k b) in *. set (z := dv k c) in *. set (w := dv k d) in *. unfold six in *.
  split.
  - unfold trip. repeat constructor; unfold byte; lia.
  - intros pad r. unfold trip. cbn [app]. rewrite b64e_3. unfold sext.
    replace ((4 * x + y / 16) / 4) with x by lia.
    replace ((4 * x + y / 16) mod 4 * 16 + (y mod 16 * 16 + z / 4) / 16) with y by lia.
    replace ((y mod 16 * 16 + z / 4) mod 16 * 4 + (z mod 4 * 64 + w) / 64) with z by lia.
    replace ((z mod 4 * 64 + w) mod 64) with w by lia.
    unfold b64_chars. cbn [map app]. now rewrite Ca, Cb, Cc, Cd.
Qed.

Lemma b64d_strict_sound k t : bytes t -> forall d, b64d k false t = Some d -> bytes d /\ b64e k false d = t.
Proof.
  induction t as [|a|a b|a b c|a b c e x IH] using list_ind4; intros B d H; inv_bytes.
  - injection H as <-. split; [constructor|reflexivity].
  - discriminate.
  - cbn [b64d b64d_tail] in H. destruct (b64_bad k a) eqn:Ba; [discriminate|]. destruct (b64_bad k b) eqn:Bb; [discriminate|].
    cbn [orb] in H. destruct (Z.eqb_spec (dv k b mod 16) 0) as [Z0|]; [|discriminate].
    assert (d = [4 * dv k a + dv k b / 16]) as -> by congruence.
    pose proof (dv_six k a ltac:(assumption) Ba) as Sa. pose proof (dv_six k b ltac:(assumption) Bb) as Sb.
    pose proof (dv_char k a ltac:(assumption) Ba) as Ca. pose proof (dv_char k b ltac:(assumption) Bb) as Cb.
    set (x := dv k a) in *. set (y := dv k b) in *. unfold six in *. split; [repeat constructor; unfold byte; lia|].
    cbn [b64e b64_tail]. replace ((4 * x + y / 16) / 4) with x by lia.
    replace ((4 * x + y / 16) mod 4 * 16) with y by lia. unfold b64_chars. cbn [map app]. now rewrite Ca, Cb.
  - cbn [b64d b64d_tail] in H. destruct (b64_bad k a) eqn:Ba; [discriminate|]. destruct (b64_bad k b) eqn:Bb; [discriminate|].
    destruct (b64_bad k c) eqn:Bc; [discriminate|].
    cbn [orb] in H. destruct (Z.eqb_spec (dv k c mod 4) 0) as [Z0|]; [|discriminate].
    assert (d = [4 * dv k a + dv k b / 16; (dv k b mod 16) * 16 + dv k c / 4]) as -> by congruence.
    pose proof (dv_six k a ltac:(assumption) Ba) as Sa. pose proof (dv_six k b ltac:(assumption) Bb) as Sb.
    pose proof (dv_six k c ltac:(assumption) Bc) as Sc. pose proof (dv_char k c ltac:(assumption) Bc) as Cc.
    pose proof (dv_char k a ltac:(assumption) Ba) as Ca. pose proof (dv_char k b ltac:(assumption) Bb) as Cb.
    set (x := dv k a) in *. set (y := dv k b) in *. set (z := dv k c) in *. unfold six in *. split; [repeat constructor; unfold byte; lia|].
    cbn [b64e b64_tail]. replace ((4 * x + y / 16) / 4) with x by lia.
    replace ((4 * x + y / 16) mod 4 * 16 + (y mod 16 * 16 + z / 4) / 16) with y by lia.
    replace ((y mod 16 * 16 + z / 4) mod 16 * 4) with z by lia.
    unfold b64_chars. cbn [map app]. now rewrite Ca, Cb, Cc.
  - rewrite b64d_4 in H. destruct (b64_bad k a) eqn:Ba; [discriminate|]. destruct (b64_bad k b) eqn:Bb; [discriminate|].
    destruct (b64_bad k c) eqn:Bc; [discriminate|]. destruct (b64_bad k e) eqn:Be; [discriminate|]. cbn [orb] in H.
    destruct (b64d k false x) as [o|]; [|discriminate]. cbn [oapp] in H.
    assert (d = trip (dv k a) (dv k b) (dv k c) (dv k e) ++ o) as -> by congruence.
    destruct (IH ltac:(assumption) o eq_refl) as [Bo Eo].
    destruct (enc_trip k a b c e) as [Bt Et]; auto. split; [apply bytes_app; auto|]. now rewrite Et, Eo.
Qed.

Lemma b64d_complete k fg pad d : bytes d -> pad = false -> b64d k fg (b64e k pad d) = Some d.
Proof.
  intros B ->. induction d as [|a|a b|a b c d IH] using list_ind3; inv_bytes; unfold byte in *.
  - reflexivity.
  - cbn [b64e b64_tail b64_chars map app b64d b64d_tail].
    destruct (char_ok k (a / 4)) as (_ & -> & -> & _); [unfold six; lia|].
    destruct (char_ok k (a mod 4 * 16)) as (_ & -> & -> & _); [unfold six; lia|]. cbn [orb].
    replace (a mod 4 * 16 mod 16 =? 0) with true by lia. rewrite orb_true_r. do 2 f_equal. lia.
  - cbn [b64e b64_tail b64_chars map app b64d b64d_tail].
    destruct (char_ok k (a / 4)) as (_ & -> & -> & _); [unfold six; lia|].
    destruct (char_ok k (a mod 4 * 16 + b / 16)) as (_ & -> & -> & _); [unfold six; lia|].
    destruct (char_ok k (b mod 16 * 4)) as (_ & -> & -> & _); [unfold six; lia|]. cbn [orb].
    replace (b mod 16 * 4 mod 4 =? 0) with true by lia. rewrite orb_true_r.
    replace (4 * (a / 4) + (a mod 4 * 16 + b / 16) / 16) with a by lia.
    replace ((a mod 4 * 16 + b / 16) mod 16 * 16 + b mod 16 * 4 / 4) with b by lia. reflexivity.
  - rewrite b64e_3. unfold b64_chars, sext. cbn [map app]. rewrite b64d_4.
    destruct (char_ok k (a / 4)) as (_ & -> & -> & _); [unfold six; lia|].
    destruct (char_ok k (a mod 4 * 16 + b / 16)) as (_ & -> & -> & _); [unfold six; lia|].
    destruct (char_ok k (b mod 16 * 4 + c / 64)) as (_ & -> & -> & _); [unfold six; lia|].
    destruct (char_ok k (c mod 64)) as (_ & -> & -> & _); [unfold six; lia|]. cbn [orb].
    rewrite IH by auto. cbn [oapp]. unfold trip. cbn [app].
    replace (4 * (a / 4) + (a mod 4 * 16 + b / 16) / 16) with a by lia.
    replace ((a mod 4 * 16 + b / 16) mod 16 * 16 + (b mod 16 * 4 + c / 64) / 4) with b by lia.
    replace ((b mod 16 * 4 + c / 64) mod 4 * 64 + c mod 64) with c by lia. reflexivity.
Qed.

Lemma b64e_chars_ok k l : bytes l -> Forall (fun c => byte c /\ c <> 61 /\ 0 <= c < 128) (b64e k false l).
Proof.
  assert (G : forall v, six v -> byte (nth (Z.to_nat v) (b64_charset k) 0) /\ nth (Z.to_nat v) (b64_charset k) 0 <> 61 /\ 0 <= nth (Z.to_nat v) (b64_charset k) 0 < 128).
  { intros v Hv. destruct (char_ok k v Hv) as (H1 & _ & _ & H2 & H3). auto. }
  induction l as [|a|a b|a b c r IH] using list_ind3; intro B; inv_bytes; unfold byte in *.
  - constructor.
  - cbn [b64e b64_tail b64_chars map app]. repeat (constructor; [apply G; unfold six; lia|]). constructor.
  - cbn [b64e b64_tail b64_chars map app]. repeat (constructor; [apply G; unfold six; lia|]). constructor.
  - rewrite b64e_3. unfold b64_chars, sext. cbn [map app]. repeat (constructor; [apply G; unfold six; lia|]). now apply IH.
Qed.

(** ** Padding *)
(** the unpadded text, if the padding is well-formed for the configuration *)
Definition b64_unpad (e : b64_extra) (s : list Z) : option (list Z) :=
  match e with
  | Pad => if (length s mod 4 =? 0)%nat then Some (whatwg_unpad s) else None
  | NoPad => Some s
  | Forgiving => Some (whatwg_unpad s)
  end.
Definition b64_dec (cfg : b64_config) (s : list Z) : option (list Z) :=
  match b64_unpad (b64_extra_of cfg) s with
  | Some t => b64d (b64_kind_of cfg) (b64_forgiving (b64_extra_of cfg)) t
  | None => None
  end.

Lemma ends_eq_snoc l c : ends_eq (l ++ [c]) = (c =? 61).
Proof. unfold ends_eq. rewrite rev_app_distr. reflexivity. Qed.
Lemma drop_last_snoc l (c : Z) : drop_last (l ++ [c]) = l.
Proof. apply removelast_last. Qed.
Lemma snoc_inv (l : list Z) : l = [] \/ exists r c, l = r ++ [c].
Proof. destruct l as [|x l]; [auto|]. right. destruct (@exists_last _ (x :: l)) as (r & c & E); [discriminate|]. eauto. Qed.

(** [whatwg_unpad s] is [s] without at most two final [=]; what is removed *)
Lemma unpad_split s : exists j, (j <= 2)%nat /\ s = whatwg_unpad s ++ repeat 61 j /\
  ((length s mod 4)%nat <> 0%nat -> j = 0%nat) /\
  ((length s mod 4 = 0)%nat -> (j < 2)%nat -> ends_eq (whatwg_unpad s) = false).
Proof.
  unfold whatwg_unpad. cbn zeta. change pad_char with 61. destruct (Nat.eqb_spec (length s mod 4) 0) as [E|E].
  - destruct (snoc_inv s) as [->|(r & c & ->)].
    { exists 0%nat. cbn. repeat split; auto; lia. }
    rewrite ends_eq_snoc, drop_last_snoc. destruct (Z.eqb_spec c 61) as [->|N].
    + destruct (snoc_inv r) as [->|(q & c' & ->)].
      { exists 1%nat. cbn. repeat split; auto; lia. }
      rewrite ends_eq_snoc, drop_last_snoc. destruct (Z.eqb_spec c' 61) as [->|N'].
      * exists 2%nat. rewrite <- app_assoc in *. repeat split; auto; lia.
      * exists 1%nat. rewrite ends_eq_snoc. repeat split; auto; lia.
    + exists 0%nat. cbn [repeat]. rewrite app_nil_r, ends_eq_snoc. repeat split; auto; lia.
  - exists 0%nat. cbn [repeat]. rewrite app_nil_r. repeat split; auto; lia.
Qed.

Lemma unpad_pads t j : (forall c, In c t -> c <> 61) -> ((length t + j) mod 4 = 0)%nat -> (j <= 2)%nat ->
  whatwg_unpad (t ++ repeat 61 j) = t.
Proof.
  intros H L J. unfold whatwg_unpad. cbn zeta. rewrite app_length, repeat_length. rewrite L. cbn [Nat.eqb].
  assert (Et : ends_eq t = false).
  { destruct (snoc_inv t) as [->|(r & c & ->)]; [reflexivity|]. rewrite ends_eq_snoc. apply Z.eqb_neq, H. apply in_or_app. right. now left. }
  destruct j as [|[|[|j]]]; [| | |lia]; cbn [repeat].
  - rewrite app_nil_r, Et. reflexivity.
  - rewrite ends_eq_snoc, drop_last_snoc. cbn. now rewrite Et.
  - replace (t ++ [61; 61]) with ((t ++ [61]) ++ [61]) by (now rewrite <- app_assoc).
    rewrite ends_eq_snoc, drop_last_snoc, ends_eq_snoc, drop_last_snoc. reflexivity.
Qed.

(** ** Strict decoding, with padding, against the specification *)
Definition strict (e : b64_extra) : Prop := e <> Forgiving.

Lemma b64e_nopad_mod k d : (length (b64e k false d) mod 4 = match length d mod 3 with 0 => 0 | 1 => 2 | _ => 3 end)%nat.
Proof.
  change false with (b64_padding NoPad). rewrite b64e_len. unfold b64_encoded_length_unchecked. cbn [b64_extra_of b64_padding].
  pose proof (Nat.mod_upper_bound (length d) 3 ltac:(lia)).
  destruct (length d mod 3)%nat as [|[|[|?]]] eqn:E; cbn [Nat.eqb]; lia.
Qed.

Lemma b64_dec_strict cfg s d : bytes s -> strict (b64_extra_of cfg) ->
  b64_dec cfg s = Some d <->
  bytes d /\ rfc_base64 (b64_alphabet (b64_kind_of cfg)) (b64_padding (b64_extra_of cfg)) d = s.
Proof.
  intros B St. destruct cfg as [k e]. cbn [b64_kind_of b64_extra_of] in *. unfold b64_dec. cbn [b64_kind_of b64_extra_of].
  assert (C : b64_forgiving e = false) by (destruct e; auto; now elim St). rewrite C.
  split.
  - intro H. destruct e; [| |now elim St]; cbn [b64_unpad b64_padding] in *.
    + destruct (Nat.eqb_spec (length s mod 4) 0) as [E|]; [|discriminate].
      destruct (unpad_split s) as (j & J & Es & _ & _).
      set (t := whatwg_unpad s) in *.
      assert (Bt : bytes t) by (rewrite Es in B; now apply bytes_app in B).
      destruct (b64d_strict_sound k t Bt d H) as [Bd Ed]. split; [exact Bd|].
      rewrite <- b64e_rfc by auto. rewrite b64e_pads, Ed. transitivity (t ++ repeat 61 j); [|symmetry; exact Es]. do 2 f_equal.
      clearbody t. rewrite Es, app_length, repeat_length in E.
      pose proof (b64e_nopad_mod k d) as M. rewrite Ed in M.
      pose proof (Nat.mod_upper_bound (length d) 3 ltac:(lia)).
      destruct (length d mod 3)%nat as [|[|[|?]]]; lia.
    + destruct (b64d_strict_sound k s B d H) as [Bd Ed]. split; [exact Bd|]. now rewrite <- b64e_rfc by auto.
  - intros [Bd Ed]. rewrite <- b64e_rfc in Ed by auto. destruct e; [| |now elim St]; cbn [b64_unpad b64_padding] in *.
    + rewrite b64e_pads in Ed. pose proof (b64e_nopad_mod k d) as M.
      pose proof (Nat.mod_upper_bound (length d) 3 ltac:(lia)) as U.
      set (j := match (length d mod 3)%nat with 0%nat => 0%nat | 1%nat => 2%nat | _ => 1%nat end) in *.
      assert (J : (j <= 2)%nat) by (unfold j; destruct (length d mod 3)%nat as [|[|?]]; lia).
      assert (Lm : ((length (b64e k false d) + j) mod 4 = 0)%nat).
      { unfold j. destruct (length d mod 3)%nat as [|[|[|?]]]; lia. }
      rewrite <- Ed. rewrite app_length, repeat_length, Lm. cbn [Nat.eqb].
      rewrite unpad_pads; auto.
      * now apply b64d_complete.
      * intros c Hc. pose proof (b64e_chars_ok k d Bd) as F. rewrite Forall_forall in F. now apply F.
    + rewrite <- Ed. now apply b64d_complete.
Qed.

(** ** Forgiving decoding against the WHATWG algorithm *)
Lemma wb1 x y : six x -> six y -> val_of (bits_of 6 x ++ firstn 2 (bits_of 6 y)) = 4 * x + y / 16.
Proof. intros H H'. rewrite (Z.mul_comm 4). apply (val_app2 _ _ 2); [reflexivity|sweep_val6 x H|sweep_val6 y H']. Qed.
Lemma wb2 y z : six y -> six z -> val_of (skipn 2 (bits_of 6 y) ++ firstn 4 (bits_of 6 z)) = y mod 16 * 16 + z / 4.
Proof. intros H H'. apply (val_app2 _ _ 4); [reflexivity|sweep_val6 y H|sweep_val6 z H']. Qed.
Lemma wb3 z w : six z -> six w -> val_of (skipn 4 (bits_of 6 z) ++ bits_of 6 w) = z mod 4 * 64 + w.
Proof. intros H H'. apply (val_app2 _ _ 6); [reflexivity|sweep_val6 z H|sweep_val6 w H']. Qed.

Definition whole (vs : list Z) : list Z := let bs := flat_map (bits_of 6) vs in whole_bytes (length bs) bs.
Lemma whole_2 x y : six x -> six y -> whole [x; y] = [4 * x + y / 16].
Proof.
  intros. unfold whole. cbn zeta.
  replace (flat_map (bits_of 6) [x; y]) with ((bits_of 6 x ++ firstn 2 (bits_of 6 y)) ++ skipn 2 (bits_of 6 y)) by reflexivity.
  rewrite app_length. change (length (bits_of 6 x ++ firstn 2 (bits_of 6 y)) + length (skipn 2 (bits_of 6 y)))%nat with 12%nat.
  rewrite whole_bytes_cons by reflexivity. now rewrite wb1 by auto.
Qed.
Lemma whole_3 x y z : six x -> six y -> six z -> whole [x; y; z] = [4 * x + y / 16; y mod 16 * 16 + z / 4].
Proof.
  intros. unfold whole. cbn zeta.
  replace (flat_map (bits_of 6) [x; y; z]) with ((bits_of 6 x ++ firstn 2 (bits_of 6 y)) ++ (skipn 2 (bits_of 6 y) ++ firstn 4 (bits_of 6 z)) ++ skipn 4 (bits_of 6 z)) by reflexivity.
  match goal with |- whole_bytes ?n _ = _ => change n with 18%nat end.
  rewrite !whole_bytes_cons by reflexivity. now rewrite wb1, wb2 by auto.
Qed.
Lemma whole_4 x y z w r : six x -> six y -> six z -> six w -> whole (x :: y :: z :: w :: r) = trip x y z w ++ whole r.
Proof.
  intros. unfold whole. cbn zeta.
  replace (flat_map (bits_of 6) (x :: y :: z :: w :: r)) with
    ((bits_of 6 x ++ firstn 2 (bits_of 6 y)) ++ (skipn 2 (bits_of 6 y) ++ firstn 4 (bits_of 6 z)) ++ (skipn 4 (bits_of 6 z) ++ bits_of 6 w) ++ flat_map (bits_of 6) r) by reflexivity.
  rewrite !app_length.
  match goal with |- whole_bytes ?n _ = _ => replace n with (S (S (S (21 + length (flat_map (bits_of 6) r))))) by reflexivity end.
  rewrite !whole_bytes_cons by reflexivity. rewrite wb1, wb2, wb3 by auto. unfold trip. cbn [app]. do 3 f_equal.
  apply whole_bytes_fuel; lia.
Qed.

Lemma b64d_forgiving k t : bytes t -> b64d k true t =
  if (length t mod 4 =? 1)%nat then None
  else match sequence (map (fun c => index_of c (b64_alphabet k)) t) with None => None | Some vs => Some (whole vs) end.
Proof.
  induction t as [|a|a b|a b c|a b c e x IH] using list_ind4; intros B; inv_bytes.
  - reflexivity.
  - reflexivity.
  - cbn [length Nat.modulo Nat.divmod Nat.sub Nat.eqb fst snd map sequence]. rewrite !dv_index by auto. cbn [b64d b64d_tail orb].
    destruct (b64_bad k a) eqn:Ba, (b64_bad k b) eqn:Bb; try reflexivity. cbn [orb sequence].
    rewrite whole_2; auto using dv_six.
  - cbn [length Nat.modulo Nat.divmod Nat.sub Nat.eqb fst snd map sequence]. rewrite !dv_index by auto. cbn [b64d b64d_tail orb].
    destruct (b64_bad k a) eqn:Ba, (b64_bad k b) eqn:Bb, (b64_bad k c) eqn:Bc; try reflexivity. cbn [orb sequence].
    rewrite whole_3; auto using dv_six.
  - rewrite b64d_4, IH by auto. replace (length (a :: b :: c :: e :: x) mod 4)%nat with (length x mod 4)%nat.
    2:{ cbn [length]. replace (S (S (S (S (length x))))) with (length x + 1 * 4)%nat by lia. now rewrite Nat.mod_add by lia. }
    cbn [map sequence]. rewrite !dv_index by auto.
    destruct (b64_bad k a) eqn:Ba, (b64_bad k b) eqn:Bb, (b64_bad k c) eqn:Bc, (b64_bad k e) eqn:Be; cbn [orb];
      try (now destruct (length x mod 4 =? 1)%nat).
    destruct (length x mod 4 =? 1)%nat; [reflexivity|].
    destruct (sequence (map (fun c => index_of c (b64_alphabet k)) x)) as [vs|]; [|reflexivity]. cbn [oapp].
    rewrite whole_4 by auto using dv_six. reflexivity.
Qed.

Lemma b64_dec_forgiving k s : bytes s ->
  b64_dec {| b64_kind_of := k; b64_extra_of := Forgiving |} s = forgiving_decode_nows (b64_alphabet k) s.
Proof.
  intro B. unfold b64_dec, forgiving_decode_nows. cbn [b64_unpad b64_extra_of b64_kind_of b64_forgiving]. cbn zeta.
  rewrite b64d_forgiving; [reflexivity|]. destruct (unpad_split s) as (j & _ & E & _).
  rewrite E in B. now apply bytes_app in B.
Qed.
