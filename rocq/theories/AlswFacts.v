(** ALSW character checking and decoding is exact for the five alphabets, whatever the
    neighbouring characters in the vector. *)
From Coq Require Import ZArith List Bool Lia.
From Verif Require Import Bytes Isa Simd SimdFacts Alsw.
Import ListNotations.
Open Scope Z_scope.
Ltac Zify.zify_post_hook ::= Z.div_mod_to_equations.

Definition check_lane (l : alsw_lut) (x sh : Z) : Z :=
  i8_add_sat x (pshufb_lane (snd l) (u8_avgr sh (pshufb_lane (fst l) x))).
Definition decode_lane (l : alsw_lut) (x sh : Z) : Z :=
  u8_add x (pshufb_lane (snd l) (u8_avgr sh (pshufb_lane (fst l) x))).

(** the byte of [x] shifted right by 3 within its 32-bit lane: the low three bits of the next byte enter on top *)
Definition shr3_of (x sh : Z) : Prop := exists n, 0 <= n < 8 /\ sh = x / 8 + 32 * n.

Lemma shr3_lanes x : (length x mod 4 = 0)%nat -> bytes x -> Forall2 shr3_of x (lanes32 (u32_shr 3) x).
Proof.
  assert (G : forall k x, (length x <= 4 * k)%nat -> (length x mod 4 = 0)%nat -> bytes x ->
              Forall2 shr3_of x (lanes32 (u32_shr 3) x)).
  { induction k; intros l Hk He B.
    - destruct l; [constructor|cbn in Hk; lia].
    - destruct l as [|a [|b [|c [|d r]]]]; try (cbn in He; discriminate); [constructor|].
      inv_bytes. cbn [lanes32]. cbn zeta.
      unfold byte in *. unfold u32_shr, pow2, mk32, byte0, byte1, byte2, byte3.
      change (2 ^ 3) with 8.
      constructor; [exists (b mod 8); lia|].
      constructor; [exists (c mod 8); lia|].
      constructor; [exists (d mod 8); lia|].
      constructor; [exists 0; lia|].
      apply IHk; auto.
      + cbn in Hk; lia.
      + cbn [length] in He. replace (S (S (S (S (length r))))) with (length r + 1 * 4)%nat in He by lia.
        now rewrite Nat.mod_add in He by lia. }
  intros. apply (G (length x)); auto. lia.
Qed.

(** What has to hold of one character and one shifted value. *)
Definition alsw_point_t (dec : Z -> Z) (ck dk : alsw_lut) (x sh : Z) : bool :=
  let c1 := check_lane ck x sh in
  let c2 := decode_lane dk x sh in
  byteb c1 && byteb c2 && eqb (128 <=? c1) (dec x =? 255) &&
  ((dec x =? 255) || (c2 =? dec x)) &&
  byteb (u8_avgr sh (pshufb_lane (fst ck) x)) &&
  byteb (u8_avgr sh (pshufb_lane (fst dk) x)).
Definition alsw_point (a : alsw_spec) := alsw_point_t (al_decode a) (check_lut a) (decode_lut a).

Definition alsw_exact (a : alsw_spec) : Prop :=
  forall x sh, byte x -> shr3_of x sh -> alsw_point a x sh = true.

Lemma alsw_exact_sweep a :
  (let p := alsw_point a in
   forallb (fun x => forallb (fun n => p x (x / 8 + 32 * n)) (range 8)) (range 256)) = true ->
  alsw_exact a.
Proof.
  intros H x sh Hx [n [Hn ->]]. cbn zeta in H.
  exact (sweep2 256 8 (fun x n => alsw_point a x (x / 8 + 32 * n)) H x n Hx Hn).
Qed.

Definition alsw_specs : list alsw_spec := [HexAlsw; StandardAlsw; UrlSafeAlsw; Base32Alsw; Base32HexAlsw].

Lemma hex_alsw_exact : alsw_exact HexAlsw.
Proof. apply alsw_exact_sweep. vm_compute. reflexivity. Qed.
Lemma std_alsw_exact : alsw_exact StandardAlsw.
Proof. apply alsw_exact_sweep. vm_compute. reflexivity. Qed.
Lemma url_alsw_exact : alsw_exact UrlSafeAlsw.
Proof. apply alsw_exact_sweep. vm_compute. reflexivity. Qed.
Lemma base32_alsw_exact : alsw_exact Base32Alsw.
Proof. apply alsw_exact_sweep. vm_compute. reflexivity. Qed.
Lemma base32hex_alsw_exact : alsw_exact Base32HexAlsw.
Proof. apply alsw_exact_sweep. vm_compute. reflexivity. Qed.

(** ** Vector level *)

Lemma hash_table_len h : length (hash_table h) = 16%nat.
Proof. reflexivity. Qed.
Lemma set_nth_len l i v : length (set_nth l i v) = length l.
Proof. revert i; induction l as [|x l IH]; intros [|i]; cbn; auto. Qed.
Lemma check_offset_len a : length (CHECK_OFFSET a) = 16%nat.
Proof.
  unfold CHECK_OFFSET. assert (G : forall cs arr, length arr = 16%nat -> length (fold_left (fun arr c =>
      if al_decode a c =? 255 then arr
      else set_nth arr (Z.to_nat (Z.land (hash (CHECK_HASH a) c) 15)) ((0 - c) mod 256)) cs arr) = 16%nat).
  { induction cs; intros; cbn [fold_left]; auto. apply IHcs. destruct (_ =? _); auto. now rewrite set_nth_len. }
  now apply G.
Qed.
Lemma decode_offset_len a : length (DECODE_OFFSET a) = 16%nat.
Proof.
  unfold DECODE_OFFSET. assert (G : forall cs arr, length arr = 16%nat -> length (fold_left (fun arr c =>
      let idx := al_decode a c in if idx =? 255 then arr
      else set_nth arr (Z.to_nat (Z.land (hash (DECODE_HASH a) c) 15)) ((idx - c) mod 256)) cs arr) = 16%nat).
  { induction cs; intros; cbn [fold_left]; auto. apply IHcs. cbn zeta. destruct (_ =? _); auto. now rewrite set_nth_len. }
  now apply G.
Qed.

Lemma ck_fst_len a : length (fst (check_lut a)) = 16%nat. Proof. reflexivity. Qed.
Lemma dk_fst_len a : length (fst (decode_lut a)) = 16%nat. Proof. reflexivity. Qed.
Lemma ck_snd_len a : length (snd (check_lut a)) = 16%nat. Proof. exact (check_offset_len a). Qed.
Lemma dk_snd_len a : length (snd (decode_lut a)) = 16%nat. Proof. exact (decode_offset_len a). Qed.
Local Opaque CHECK_OFFSET DECODE_OFFSET CHECK_HASH DECODE_HASH check_lut decode_lut.

Definition xn_luts (w : width) (l : alsw_lut) : alsw_lut := (xn_lut w (fst l), xn_lut w (snd l)).

Lemma Forall2_map2_bytes {A B} (P : A -> B -> Prop) (f : A -> B -> Z) x y :
  Forall2 P x y -> (forall a b, In a x -> P a b -> byte (f a b)) -> bytes (map2 f x y).
Proof.
  intros H. induction H; intros G; cbn; constructor.
  - apply G; [now left|assumption].
  - apply IHForall2. intros; apply G; [now right|assumption].
Qed.

Lemma map2_map_lookup (t : list Z) (f : Z -> Z -> Z) x sh :
  map2 f sh (map (pshufb_lane t) x) = map2 (fun a b => f b (pshufb_lane t a)) x sh.
Proof. revert sh; induction x as [|a x IH]; intros [|b sh]; cbn; f_equal; auto. Qed.
Lemma map2_of_map2 (f : Z -> Z -> Z) g x (sh : list Z) :
  map2 f x (map2 g x sh) = map2 (fun a b => f a (g a b)) x sh.
Proof. revert sh; induction x as [|a x IH]; intros [|b sh]; cbn; f_equal; auto. Qed.
Lemma map_map2 {A B C D} (h : C -> D) (f : A -> B -> C) x y : map h (map2 f x y) = map2 (fun a b => h (f a b)) x y.
Proof. revert y; induction x as [|a x IH]; intros [|b y]; cbn; f_equal; auto. Qed.

Lemma Forall2_len {A B} (P : A -> B -> Prop) x y : Forall2 P x y -> length x = length y.
Proof. induction 1; cbn; auto. Qed.

Lemma vlen_mod4 w (x : list Z) : length x = vlen w -> (length x mod 4 = 0)%nat.
Proof. intros ->. now destruct w. Qed.

(** What the checking table has to satisfy at one lane. *)
Definition check_exact (a : alsw_spec) : Prop := forall x sh, byte x -> shr3_of x sh ->
  byte (check_lane (check_lut a) x sh) /\ (128 <=? check_lane (check_lut a) x sh) = (al_decode a x =? 255) /\
  byte (u8_avgr sh (pshufb_lane (fst (check_lut a)) x)).
Definition c1_of (a : alsw_spec) (x sh : list Z) := map2 (check_lane (check_lut a)) x sh.
Definition c2_of (a : alsw_spec) (x sh : list Z) := map2 (decode_lane (decode_lut a)) x sh.

(** [check_ascii_xn] and [decode_ascii_xn] after the shift *)
Definition check_from (w : width) (s : isa) (sh x : list Z) (check : alsw_lut) : option bool :=
  let? l1 := u8x16xn_lookup w s (fst check) x in
  let? h1 := u8xn_avgr w s sh l1 in
  let? o1 := u8x16xn_lookup w s (snd check) h1 in
  let? c1 := i8xn_add_sat w s x o1 in
  let? hb := u8xn_highbit_any w s c1 in
  Some (negb hb).
Definition decode_from (w : width) (s : isa) (sh x : list Z) (check decode : alsw_lut) : option (list Z * list Z) :=
  let? l1 := u8x16xn_lookup w s (fst check) x in
  let? h1 := alsw_u8xn_avgr w s sh l1 in
  let? l2 := u8x16xn_lookup w s (fst decode) x in
  let? h2 := alsw_u8xn_avgr w s sh l2 in
  let? o1 := u8x16xn_lookup w s (snd check) h1 in
  let? o2 := u8x16xn_lookup w s (snd decode) h2 in
  let? c1 := i8xn_add_sat w s x o1 in
  let? c2 := u8xn_add w s x o2 in
  Some (c1, c2).

Section VecCheck.
  Context (a : alsw_spec) (point_c1 : check_exact a).
  Local Notation c1_of := (c1_of a).

  Lemma c1_high x sh : bytes x -> Forall2 shr3_of x sh ->
    highbits (c1_of x sh) = existsb (fun c => al_decode a c =? 255) x.
  Proof.
    intros B F. induction F as [|c s x sh Hc F IH]; [reflexivity|]. inversion B; subst.
    unfold AlswFacts.c1_of, highbits in *. cbn [map2 existsb]. destruct (point_c1 c s) as (_ & -> & _); auto.
    now rewrite IH.
  Qed.
  Lemma check_c1 w s x sh : swz s -> length x = vlen w -> bytes x -> Forall2 shr3_of x sh ->
    (let? l1 := u8x16xn_lookup w s (fst (xn_luts w (check_lut a))) x in
     let? h1 := u8xn_avgr w s sh l1 in
     let? o1 := u8x16xn_lookup w s (snd (xn_luts w (check_lut a))) h1 in
     i8xn_add_sat w s x o1) = Some (c1_of x sh).
  Proof.
    intros Hs Lx Bx F.
    assert (Lsh : length sh = vlen w) by (rewrite <- (Forall2_len _ _ _ F); exact Lx).
    assert (Hs' := swz_simd _ Hs).
    cbn [fst snd xn_luts].
    rewrite u8x16xn_lookup_ok by auto using ck_fst_len, dk_fst_len. cbn [obind].
    rewrite u8xn_avgr_ok by (auto; now rewrite map_length). cbn [obind].
    rewrite map2_map_lookup.
    rewrite u8x16xn_lookup_ok; [ |exact Hs|apply ck_snd_len|apply len_map2; auto| ].
    - cbn [obind]. rewrite map_map2.
      rewrite i8xn_add_sat_ok; auto.
      + now rewrite map2_of_map2.
      + apply len_map2; auto.
    - eapply Forall2_map2_bytes; [exact F|]. intros c t Hc Ht. apply point_c1; auto.
      unfold bytes in Bx. rewrite Forall_forall in Bx. auto.
  Qed.

  Lemma check_from_ok w s x sh : swz s -> length x = vlen w -> bytes x -> Forall2 shr3_of x sh ->
    check_from w s sh x (xn_luts w (check_lut a)) = Some (forallb (fun c => negb (al_decode a c =? 255)) x).
  Proof.
    intros Hs Lx Bx F. assert (Hs' := swz_simd _ Hs).
    pose proof (check_c1 w s x sh Hs Lx Bx F) as E. unfold check_from.
    destruct (u8x16xn_lookup w s (fst (xn_luts w (check_lut a))) x); cbn [obind] in *; [|easy].
    destruct (u8xn_avgr w s sh l); cbn [obind] in *; [|easy].
    destruct (u8x16xn_lookup w s (snd (xn_luts w (check_lut a))) l0); cbn [obind] in *; [|easy].
    rewrite E. cbn [obind].
    rewrite u8xn_highbit_any_ok; auto.
    - cbn [obind]. rewrite c1_high by auto. f_equal.
      rewrite <- (existsb_negb (fun c => negb (al_decode a c =? 255))). f_equal.
      clear. induction x as [|c x IH]; cbn; [reflexivity|]. now rewrite negb_involutive, IH.
    - apply len_map2; auto. now rewrite <- (Forall2_len _ _ _ F).
    - eapply Forall2_map2_bytes; [exact F|]. intros c t Hc Ht. apply point_c1; auto.
      unfold bytes in Bx. rewrite Forall_forall in Bx. auto.
  Qed.
  Lemma check_exact_xn_ok w s x : swz s -> length x = vlen w -> bytes x ->
    check_ascii_xn w s x (xn_luts w (check_lut a)) = Some (forallb (fun c => negb (al_decode a c =? 255)) x).
  Proof.
    intros Hs Lx Bx. change (check_ascii_xn w s x (xn_luts w (check_lut a)))
      with (obind (u32xn_shr w s 3 x) (fun sh => check_from w s sh x (xn_luts w (check_lut a)))).
    rewrite u32xn_shr_ok by auto using swz_simd. cbn [obind].
    apply check_from_ok; auto. apply shr3_lanes; auto. now apply (vlen_mod4 w).
  Qed.

End VecCheck.

Section Vec.
  Context (a : alsw_spec) (HA : alsw_exact a).

  Lemma point_c1 : check_exact a.
  Proof.
    intros x sh Hx Hs. pose proof (HA x sh Hx Hs) as H. unfold alsw_point, alsw_point_t in H. cbn zeta in H.
    repeat rewrite andb_true_iff in H. destruct H as (((((H1 & H2) & H3) & H4) & H5) & H6).
    apply byteb_byte in H1, H5. apply eqb_prop in H3. auto.
  Qed.
  Lemma point_c2 x sh : byte x -> shr3_of x sh ->
    byte (decode_lane (decode_lut a) x sh) /\ (al_decode a x <> 255 -> decode_lane (decode_lut a) x sh = al_decode a x) /\
    byte (u8_avgr sh (pshufb_lane (fst (decode_lut a)) x)).
  Proof.
    intros Hx Hs. pose proof (HA x sh Hx Hs) as H. unfold alsw_point, alsw_point_t in H. cbn zeta in H.
    repeat rewrite andb_true_iff in H. destruct H as (((((H1 & H2) & H3) & H4) & H5) & H6).
    apply byteb_byte in H2, H6. repeat split; try apply H2; try apply H6. intro N.
    apply orb_true_iff in H4 as [H4|H4]; apply Z.eqb_eq in H4; [contradiction|assumption].
  Qed.

  Local Notation c1_of := (c1_of a).
  Local Notation c2_of := (c2_of a).

  Lemma c2_valid x sh : bytes x -> Forall2 shr3_of x sh ->
    existsb (fun c => al_decode a c =? 255) x = false -> c2_of x sh = map (al_decode a) x.
  Proof.
    intros B F. induction F as [|c s x sh Hc F IH]; [reflexivity|]. inversion B; subst.
    unfold AlswFacts.c2_of in *. cbn [map2 existsb map]. intro V. apply orb_false_iff in V as [V1 V2].
    apply Z.eqb_neq in V1. destruct (point_c2 c s) as (_ & P & _); auto. rewrite P, IH by auto. reflexivity.
  Qed.

  Lemma check_ascii_xn_ok w s x : swz s -> length x = vlen w -> bytes x ->
    check_ascii_xn w s x (xn_luts w (check_lut a)) = Some (forallb (fun c => negb (al_decode a c =? 255)) x).
  Proof. exact (check_exact_xn_ok a point_c1 w s x). Qed.

  Lemma alsw_avgr_eq w s x y : simd s -> length x = vlen w -> length y = vlen w ->
    alsw_u8xn_avgr w s x y = u8xn_avgr w s x y.
  Proof.
    intros Hs Lx Ly. unfold alsw_u8xn_avgr. rewrite u8xn_avgr_ok by auto. now destruct (_ && _).
  Qed.

  Lemma decode_from_ok w s x sh : swz s -> length x = vlen w -> bytes x -> Forall2 shr3_of x sh ->
    exists c1 c2,
      decode_from w s sh x (xn_luts w (check_lut a)) (xn_luts w (decode_lut a)) = Some (c1, c2) /\
      length c1 = vlen w /\ length c2 = vlen w /\ bytes c1 /\ bytes c2 /\
      highbits c1 = existsb (fun c => al_decode a c =? 255) x /\
      (existsb (fun c => al_decode a c =? 255) x = false -> c2 = map (al_decode a) x).
  Proof.
    intros Hs Lx Bx F. assert (Hs' := swz_simd _ Hs).
    pose proof (check_c1 a point_c1 w s x sh Hs Lx Bx F) as E.
    assert (Lsh : length sh = vlen w) by (rewrite <- (Forall2_len _ _ _ F); exact Lx).
    exists (c1_of x sh), (c2_of x sh).
    assert (B1 : bytes (c1_of x sh)).
    { eapply Forall2_map2_bytes; [exact F|]. intros c t Hc Ht. apply point_c1; auto.
      unfold bytes in Bx. rewrite Forall_forall in Bx. auto. }
    assert (B2 : bytes (c2_of x sh)).
    { eapply Forall2_map2_bytes; [exact F|]. intros c t Hc Ht. apply point_c2; auto.
      unfold bytes in Bx. rewrite Forall_forall in Bx. auto. }
    split; [|repeat split; auto using (c1_high a point_c1), c2_valid].
    2,3: apply len_map2; auto.
    unfold decode_from.
    cbn [fst snd xn_luts] in *.
    rewrite u8x16xn_lookup_ok in * by auto using ck_fst_len, dk_fst_len. cbn [obind] in *.
    rewrite alsw_avgr_eq by (auto; now rewrite map_length).
    rewrite u8xn_avgr_ok in * by (auto; now rewrite map_length). cbn [obind] in *.
    rewrite u8x16xn_lookup_ok by auto using ck_fst_len, dk_fst_len. cbn [obind].
    rewrite alsw_avgr_eq by (auto; now rewrite map_length).
    rewrite u8xn_avgr_ok by (auto; now rewrite map_length). cbn [obind].
    destruct (u8x16xn_lookup w s (xn_lut w (snd (check_lut a))) _) as [o1|]; cbn [obind] in *; [|easy].
    rewrite map2_map_lookup.
    rewrite u8x16xn_lookup_ok; [ |exact Hs|apply dk_snd_len|apply len_map2; auto| ].
    - cbn [obind]. rewrite E. cbn [obind]. rewrite map_map2.
      rewrite u8xn_add_ok; auto.
      + cbn [obind]. do 2 f_equal. now rewrite map2_of_map2.
      + apply len_map2; auto.
    - eapply Forall2_map2_bytes; [exact F|]. intros c t Hc Ht. apply point_c2; auto.
      unfold bytes in Bx. rewrite Forall_forall in Bx. auto.
  Qed.
  Lemma decode_ascii_xn_ok w s x : swz s -> length x = vlen w -> bytes x ->
    exists c1 c2,
      decode_ascii_xn w s x (xn_luts w (check_lut a)) (xn_luts w (decode_lut a)) = Some (c1, c2) /\
      length c1 = vlen w /\ length c2 = vlen w /\ bytes c1 /\ bytes c2 /\
      highbits c1 = existsb (fun c => al_decode a c =? 255) x /\
      (existsb (fun c => al_decode a c =? 255) x = false -> c2 = map (al_decode a) x).
  Proof.
    intros Hs Lx Bx. change (decode_ascii_xn w s x (xn_luts w (check_lut a)) (xn_luts w (decode_lut a)))
      with (obind (u32xn_shr w s 3 x) (fun sh => decode_from w s sh x (xn_luts w (check_lut a)) (xn_luts w (decode_lut a)))).
    rewrite u32xn_shr_ok by auto using swz_simd. cbn [obind].
    apply decode_from_ok; auto. apply shr3_lanes; auto. now apply (vlen_mod4 w).
  Qed.
End Vec.
