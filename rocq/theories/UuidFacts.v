(** Proofs about Uuid.v. *)
From Coq Require Import ZArith List Bool Lia ZifyNat ZifyBool.
From Verif Require Import Bytes Mem MemFacts Slices Isa Simd SimdFacts Spec Alsw Ints Hex HexSimdFacts HexFacts HexApi Base64DecFacts Uuid.
Import ListNotations.
Open Scope Z_scope.
Open Scope m_scope.
Notation length := List.length.
Ltac Zify.zify_post_hook ::= Z.div_mod_to_equations.
Local Opaque unhex shl4.

(** ** Random access to a fixed-size source and destination *)

(** block [b] holds the cells [cs] at offset [o] *)
Definition cells_at (m : mem) (b o : nat) (cs : list cell) : Prop :=
  (o + length cs <= length (m b))%nat /\ forall i, (i < length cs)%nat -> nth_error (m b) (o + i) = nth_error cs i.

Record US (m0 : mem) (bs so : nat) (src : list Z) (bd d0 : nat) (cs : list cell) (m : mem) : Prop := {
  us_src : bytes_at m bs so src;
  us_cells : cells_at m bd d0 cs;
  us_frame : Frame m0 bd d0 (length cs) m;
  us_sep : (bs <> bd \/ so + length src <= d0 \/ d0 + length cs <= so)%nat }.

Lemma US_init m bs so src bd d0 n : bytes_at m bs so src -> (d0 + n <= length (m bd))%nat ->
  (bs <> bd \/ so + length src <= d0 \/ d0 + n <= so)%nat ->
  exists cs, length cs = n /\ US m bs so src bd d0 cs m.
Proof.
  intros H R S. exists (firstn n (skipn d0 (m bd))).
  assert (L : length (firstn n (skipn d0 (m bd))) = n) by (rewrite firstn_length, skipn_length; lia).
  split; [exact L|]. constructor; rewrite ?L; auto.
  - split; rewrite L; [lia|]. intros i Hi. rewrite nth_error_firstn, nth_error_skipn.
    destruct (Nat.ltb_spec i n); [reflexivity|lia].
  - apply Frame_refl.
Qed.

Section US.
  Context (m0 : mem) (bs so : nat) (src : list Z) (bd d0 : nat).
  Notation U := (US m0 bs so src bd d0).

  Lemma US_read cs m i (Q : Z -> mem -> Prop) : U cs m -> (i < length src)%nat ->
    Q (nth i src 0) m -> wp (read (bs, so) i) Q m.
  Proof. intros []. now apply wp_read. Qed.

  Lemma US_padd_src cs m k (Q : ptr -> mem -> Prop) : U cs m -> (k <= length src)%nat ->
    Q (bs, so + k)%nat m -> wp (padd (bs, so) k) Q m.
  Proof. intros [[H _] _ _ _] L HQ. apply wp_padd; cbn [fst snd]; [lia|exact HQ]. Qed.

  Lemma US_load_at cs m k c (Q : list Z -> mem -> Prop) : U cs m -> (k + c <= length src)%nat ->
    Q (firstn c (skipn k src)) m -> wp (load (bs, so + k)%nat c) Q m.
  Proof.
    intros [H _ _ _] L HQ. eapply wp_load; [apply (bytes_at_skipn m bs so src k); [lia|exact H]| |exact HQ].
    rewrite skipn_length. lia.
  Qed.
  Lemma US_load cs m c (Q : list Z -> mem -> Prop) : U cs m -> (c <= length src)%nat ->
    Q (firstn c src) m -> wp (load (bs, so) c) Q m.
  Proof. intros [H _ _ _] L HQ. eapply wp_load; eauto. Qed.

  Lemma US_padd_dst cs m k (Q : ptr -> mem -> Prop) : U cs m -> (k <= length cs)%nat ->
    Q (bd, d0 + k)%nat m -> wp (padd (bd, d0) k) Q m.
  Proof. intros [_ [H _] _ _] L HQ. apply wp_padd; cbn [fst snd]; [lia|exact HQ]. Qed.

  Lemma US_store_at cs m j ys (Q : unit -> mem -> Prop) : U cs m -> (j + length ys <= length cs)%nat ->
    (forall m', U (splice cs j ys) m' -> Q tt m') -> wp (store (bd, d0 + j)%nat ys) Q m.
  Proof.
    intros [H1 [H2 H3] H4 H5] L HQ. apply wp_store; [lia|]. apply HQ.
    assert (LS : length (splice cs j ys) = length cs) by now apply splice_length.
    constructor; rewrite ?LS; auto.
    - apply bytes_at_store_other; auto; lia.
    - split; rewrite upd_same, LS, ?splice_length by lia; [lia|].
      intros i Hi. rewrite !splice_nth by lia.
      destruct (Nat.leb_spec j i), (Nat.ltb_spec i (j + length ys)), (Nat.leb_spec (d0 + j) (d0 + i)),
        (Nat.ltb_spec (d0 + i) (d0 + j + length ys)); try lia; cbn [andb]; try (now apply H3).
      do 2 f_equal. lia.
    - destruct H4 as (A & B & C). apply Frame_store; try lia. repeat split; auto.
  Qed.
  Lemma US_store cs m ys (Q : unit -> mem -> Prop) : U cs m -> (length ys <= length cs)%nat ->
    (forall m', U (splice cs 0 ys) m' -> Q tt m') -> wp (store (bd, d0) ys) Q m.
  Proof. intros H L HQ. rewrite <- (Nat.add_0_r d0). eapply US_store_at; eauto. Qed.
  Lemma US_write cs m j y (Q : unit -> mem -> Prop) : U cs m -> (j < length cs)%nat ->
    (forall m', U (splice cs j [y]) m' -> Q tt m') -> wp (write (bd, d0) j y) Q m.
  Proof.
    intros H L HQ. unfold write. apply wp_bind. eapply US_padd_dst; [exact H|lia|].
    eapply US_store_at; [exact H|cbn [length]; lia|exact HQ].
  Qed.

  Lemma US_final l m : U (map Some l) m -> bytes_at m bd d0 l /\ Frame m0 bd d0 (length l) m.
  Proof.
    intros [_ [H1 H2] H3 _]. rewrite map_length in *. split; [|exact H3].
    apply bytes_at_nth. split; [exact H1|]. intros i Hi. rewrite H2 by exact Hi. rewrite nth_error_map.
    rewrite (nth_error_nth' l 0) by exact Hi. reflexivity.
  Qed.
End US.

Ltac rd := apply wp_bind; eapply US_read; [eassumption|cbn [length]; lia|]; cbn [nth].
Ltac ld := apply wp_bind; eapply US_load; [eassumption|cbn [length]; lia|].
Ltac lda := apply wp_bind; eapply US_padd_src; [eassumption|cbn [length]; lia|];
            apply wp_bind; eapply US_load_at; [eassumption|cbn [length]; lia|].
Ltac wr1 := eapply US_write; [eassumption|cbn [length]; lia|];
  let m' := fresh "m" in let T := fresh "T" in intros m' T;
  cbn [splice firstn skipn map app Nat.add length] in T.
Ltac wr := apply wp_bind; wr1.
Ltac lf E := apply wp_bind; eapply wp_lift; [exact E|].

Lemma le_of_le n l : length l = n -> bytes l -> le_bytes n (of_le l) = l.
Proof.
  intros <- B. unfold of_le. rewrite <- rev_length, le_bytes_of_be; [apply rev_involutive|].
  apply Forall_rev. exact B.
Qed.

(** ** parse *)
Definition parse_post (m0 : mem) (bd d0 : nat) (spec : option (list Z)) (r : result unit) (m : mem) : Prop :=
  Frame m0 bd d0 16 m /\
  match spec with Some x => r = Ok tt /\ bytes_at m bd d0 x | None => r = Err end.

(** what the scalar code stores *)
Fixpoint merged (l : list Z) : list Z := match l with a :: b :: r => Z.lor (shl4 (unhex a)) (unhex b) :: merged r | _ => [] end.
Lemma merged_ok l : Nat.even (length l) = true -> bytes l -> existsb bad l = false -> merged l = pairs (map parse_hex l).
Proof.
  intros He. pattern l. apply list_ind2; [reflexivity| |exact He]. clear.
  intros a b r IH B H. inv_bytes. cbn [existsb] in H. apply orb_false_iff in H as [Ha H]. apply orb_false_iff in H as [Hb H].
  cbn [merged map pairs]. rewrite IH, !unhex_ok by auto. f_equal. apply shl4_lor; apply parse_hex_range; auto.
Qed.

Lemma parse_scalar_end m0 bs so src bd d0 l cs f m : US m0 bs so src bd d0 cs m ->
  length l = 32%nat -> bytes l -> cs = map Some (merged l) -> f = flag_of l 0 ->
  wp (if f =? 255 then ret Err else ret (Ok tt)) (parse_post m0 bd d0 (rfc_hex_decode l)) m.
Proof.
  intros T L B -> ->. assert (LM : length (merged l) = 16%nat) by (clear T B; explode l; reflexivity).
  apply US_final in T as [T1 T2]. rewrite LM in T2.
  rewrite flag_of_ok by exact B. rewrite hex_decode_pairs by (try (now rewrite L); exact B).
  destruct (existsb bad l) eqn:E; apply wp_ret; (split; [exact T2|]); [reflexivity|].
  split; [reflexivity|]. rewrite <- merged_ok; auto. now rewrite L.
Qed.

Lemma parse_simple_fallback_ok m bs so src bd d0 : bytes src -> length src = 32%nat ->
  bytes_at m bs so src -> (d0 + 16 <= length (m bd))%nat -> (bs <> bd \/ so + 32 <= d0 \/ d0 + 16 <= so)%nat ->
  wp (parse_simple_fallback (bs, so) (bd, d0)) (parse_post m bd d0 (rfc_hex_decode src)) m.
Proof.
  intros B L H R S. destruct (US_init m bs so src bd d0 16 H R) as (cs & Lc & T); [lia|].
  clear H R S. unfold parse_simple_fallback. explode src. explode cs.
  apply wp_bind. cbn [for_ Nat.mul Nat.add].
  do 16 (apply wp_bind; rd; rd; wr; apply wp_ret).
  apply wp_ret. eapply parse_scalar_end; [eassumption|reflexivity|exact B|reflexivity|].
  cbn [flag_of fold_left]. inv_bytes. rewrite !Z.lor_assoc, !unhex_ok by assumption. reflexivity.
Qed.

(** the characters between the hyphens *)
Definition dehyphen (t : list Z) : list Z :=
  firstn 8 t ++ firstn 4 (skipn 9 t) ++ firstn 4 (skipn 14 t) ++ firstn 4 (skipn 19 t) ++ skipn 24 t.
Definition dashes (t : list Z) : bool :=
  (nth 8 t 0 =? 45) && (nth 13 t 0 =? 45) && (nth 18 t 0 =? 45) && (nth 23 t 0 =? 45).
Definition hyph_decode (t : list Z) : option (list Z) :=
  if (length t =? 36)%nat && dashes t then rfc_hex_decode (dehyphen t) else None.

Lemma check_hyphens_ok m0 bs so src bd d0 cs m (Q : bool -> mem -> Prop) : US m0 bs so src bd d0 cs m -> length src = 36%nat ->
  Q (dashes src) m -> wp (check_hyphens (bs, so)) Q m.
Proof.
  intros T L HQ. unfold check_hyphens. do 4 rd. now apply wp_ret.
Qed.

Lemma bytes_dehyphen t : bytes t -> bytes (dehyphen t).
Proof. intro B. unfold dehyphen. rewrite !bytes_app. repeat split; auto using bytes_firstn, bytes_skipn. Qed.

Lemma parse_hyphenated_fallback_ok m bs so src bd d0 : bytes src -> length src = 36%nat ->
  bytes_at m bs so src -> (d0 + 16 <= length (m bd))%nat -> (bs <> bd \/ so + 36 <= d0 \/ d0 + 16 <= so)%nat ->
  wp (parse_hyphenated_fallback (bs, so) (bd, d0)) (parse_post m bd d0 (hyph_decode src)) m.
Proof.
  intros B L H R S. destruct (US_init m bs so src bd d0 16 H R) as (cs & Lc & T); [lia|].
  clear H R S. unfold parse_hyphenated_fallback, hyph_decode. rewrite L. cbn [Nat.eqb andb].
  apply wp_bind. eapply check_hyphens_ok; [exact T|exact L|].
  destruct (dashes src); cbn [negb]; [|apply wp_ret; split; [apply Frame_refl|reflexivity]].
  assert (BD := bytes_dehyphen src B). explode src. explode cs.
  apply wp_bind. cbn [for_ Nat.mul Nat.add nth positions].
  do 8 (apply wp_bind; rd; rd; rd; rd; wr; wr; apply wp_ret).
  apply wp_ret. eapply parse_scalar_end; [eassumption|reflexivity|exact BD|reflexivity|].
  cbn [dehyphen flag_of fold_left firstn skipn app]. clear BD. inv_bytes. rewrite !Z.lor_assoc, !unhex_ok by assumption. reflexivity.
Qed.

Lemma store16_post m0 bs so src bd d0 cs m y : US m0 bs so src bd d0 cs m -> length cs = 16%nat -> length y = 16%nat ->
  wp (store (bd, d0) y ;;; ret (Ok tt)) (parse_post m0 bd d0 (Some y)) m.
Proof.
  intros T Lc Ly. apply wp_bind. eapply US_store; [exact T|lia|]. intros m' T'. apply wp_ret.
  assert (E : splice cs 0 y = map Some y).
  { unfold splice. cbn [firstn app Nat.add]. rewrite skipn_all2 by lia. now rewrite app_nil_r. }
  rewrite E in T'. apply US_final in T' as [T1 T2]. rewrite Ly in T2. split; auto.
Qed.

Lemma parse_sse2_ok m bs so src bd d0 : bytes src -> length src = 32%nat ->
  bytes_at m bs so src -> (d0 + 16 <= length (m bd))%nat -> (bs <> bd \/ so + 32 <= d0 \/ d0 + 16 <= so)%nat ->
  wp (parse_simple_simd_sse2 SSE2 (bs, so) (bd, d0)) (parse_post m bd d0 (rfc_hex_decode src)) m.
Proof.
  intros B L H R S. destruct (US_init m bs so src bd d0 16 H R) as (cs & Lc & T); [lia|].
  clear H R S. unfold parse_simple_simd_sse2.
  apply wp_bind; eapply US_load; [exact T|lia|].
  apply wp_bind; eapply US_padd_src; [exact T|lia|]. apply wp_bind; eapply US_load_at; [exact T|lia|].
  rewrite (firstn_all2 (skipn 16 src)) by (rewrite skipn_length; lia).
  set (x1 := firstn 16 src). set (x2 := skipn 16 src).
  assert (L1 : length x1 = 16%nat) by (unfold x1; rewrite firstn_length; lia).
  assert (L2 : length x2 = 16%nat) by (unfold x2; rewrite skipn_length; lia).
  assert (B1 : bytes x1) by now apply bytes_firstn. assert (B2 : bytes x2) by now apply bytes_skipn.
  assert (E12 : src = x1 ++ x2) by (symmetry; apply firstn_skipn).
  lf (sse2_nibbles_ok x1 L1). lf (sse2_nibbles_ok x2 L2). rewrite E12.
  set (g := fun c => u8_add_sat (nibble_lane c) (127 - 15)).
  assert (EO : v128_or SSE2 (map g x1) (map g x2) = Some (map2 Z.lor (map g x1) (map g x2))) by reflexivity.
  lf EO. apply wp_bind. eapply wp_lift; [reflexivity|].
  assert (EF : (movemask (map2 Z.lor (map g x1) (map g x2)) =? 0) = negb (existsb bad (x1 ++ x2))).
  { rewrite movemask_zero. f_equal.
    assert (GB : forall c, byte c -> byte (g c)).
    { intros c Hc. apply byteb_byte. revert c Hc. apply byte_sweep. vm_compute. reflexivity. }
    assert (GL : forall l, bytes l -> highbits (map g l) = existsb bad l /\ bytes (map g l)).
    { intros l Bl. induction Bl as [|a l Ha Hl [IH1 IH2]]; [split; [reflexivity|constructor]|].
      split; [|constructor; auto]. unfold highbits in *. cbn [map existsb]. rewrite IH1. f_equal.
      unfold g. now rewrite nibble_flag. }
    destruct (GL x1 B1), (GL x2 B2). rewrite highbits_or, existsb_app by (auto; rewrite !map_length; congruence). congruence. }
  rewrite EF, negb_involutive. destruct (existsb bad (x1 ++ x2)) eqn:E.
  - apply wp_ret. rewrite bad_decode_none; auto.
    + split; [apply Frame_refl|reflexivity].
    + rewrite app_length, L1, L2. reflexivity.
    + now apply Forall_app.
  - rewrite existsb_app in E. apply orb_false_iff in E as [Ea Eb].
    destruct (sse2_decode_ok x1 L1 B1 Ea) as (y1 & M1 & D1). destruct (sse2_decode_ok x2 L2 B2 Eb) as (y2 & M2 & D2).
    lf M1. lf M2. rewrite hex_decode_app, D1, D2 by (now rewrite L1).
    apply hex_decode_length in D1, D2. eapply store16_post; [exact T|exact Lc|]. rewrite app_length. lia.
Qed.

Lemma decode32_post m0 bs so src bd d0 cs m s x : US m0 bs so src bd d0 cs m -> length cs = 16%nat ->
  Frame m0 bd d0 16 m -> swz s -> length x = 32%nat -> bytes x ->
  wp (r <- lift (hex_decode_ascii32 s x) ;; match r with Err => ret Err | Ok y => store (bd, d0) y ;;; ret (Ok tt) end)
     (parse_post m0 bd d0 (rfc_hex_decode x)) m.
Proof.
  intros T Lc F Hs Lx Bx. lf (hex_decode_ascii32_ok s x Hs Lx Bx).
  destruct (rfc_hex_decode x) as [y|] eqn:E; cbn [dec_result].
  - eapply store16_post; [exact T|exact Lc|]. apply hex_decode_length in E. lia.
  - apply wp_ret. split; [exact F|reflexivity].
Qed.

Lemma parse_simple_ok s m bs so src bd d0 : bytes src -> length src = 32%nat ->
  bytes_at m bs so src -> (d0 + 16 <= length (m bd))%nat -> (bs <> bd \/ so + 32 <= d0 \/ d0 + 16 <= so)%nat ->
  wp (parse_simple_impl s (bs, so) (bd, d0)) (parse_post m bd d0 (rfc_hex_decode src)) m.
Proof.
  intros B L H R S.
  assert (G : swz s -> is_isa_type s ISSE2 = false ->
    wp (parse_simple_simd s (bs, so) (bd, d0)) (parse_post m bd d0 (rfc_hex_decode src)) m).
  { intros Hs E. unfold parse_simple_simd. rewrite E.
    destruct (US_init m bs so src bd d0 16 H R) as (cs & Lc & T); [lia|].
    apply wp_bind; eapply US_load; [exact T|lia|]. rewrite firstn_all2 by lia.
    eapply decode32_post; eauto. apply Frame_refl. }
  destruct s; try (now apply G). 
  - now apply parse_simple_fallback_ok.
  - now apply parse_sse2_ok.
Qed.

Definition hyph_isa (s : isa) : Prop := s = Fallback \/ sse41p s.

Lemma parse_hyphenated_ok s m bs so src bd d0 : hyph_isa s -> bytes src -> length src = 36%nat ->
  bytes_at m bs so src -> (d0 + 16 <= length (m bd))%nat -> (bs <> bd \/ so + 36 <= d0 \/ d0 + 16 <= so)%nat ->
  wp (parse_hyphenated_impl s (bs, so) (bd, d0)) (parse_post m bd d0 (hyph_decode src)) m.
Proof.
  intros Hs B L H R S.
  assert (G : sse41p s ->
    wp (parse_hyphenated_simd s (bs, so) (bd, d0)) (parse_post m bd d0 (hyph_decode src)) m).
  { clear Hs. intro Hs. unfold parse_hyphenated_simd, hyph_decode. rewrite L. cbn [Nat.eqb andb].
    destruct (US_init m bs so src bd d0 16 H R) as (cs & Lc & T); [lia|].
    apply wp_bind. eapply check_hyphens_ok; [exact T|exact L|].
    destruct (dashes src); cbn [negb]; [|apply wp_ret; split; [apply Frame_refl|reflexivity]].
    assert (BD := bytes_dehyphen src B). explode src.
    ld. cbn [firstn]. apply wp_bind. eapply wp_lift; [destruct s; try discriminate Hs; reflexivity|].
    lda. cbn [firstn skipn]. apply wp_bind. eapply wp_lift; [destruct s; try discriminate Hs; reflexivity|].
    lda. cbn [firstn skipn]. apply wp_bind. eapply wp_lift; [destruct s; try discriminate Hs; reflexivity|].
    cbn [dehyphen firstn skipn app] in *.
    match goal with |- wp (bind (lift (hex_decode_ascii32 _ ?x)) _) (parse_post _ _ _ (rfc_hex_decode ?y)) _ => assert (E : x = y) end.
    { match goal with |- context [of_le [?a; ?b; ?c; ?d]] => assert (E4 := le_of_le 4 [a; b; c; d] eq_refl) end.
      match goal with |- context [of_le [?a; ?b]] => assert (E2 := le_of_le 2 [a; b] eq_refl) end.
      inv_bytes. rewrite E2, E4 by (repeat (constructor; [assumption|]); constructor). reflexivity. }
    rewrite E. eapply decode32_post; eauto; [apply Frame_refl|now apply sse41p_swz]. }
  destruct Hs as [->|Hs]; [now apply parse_hyphenated_fallback_ok|].
  destruct s; try discriminate Hs; now apply G.
Qed.

(** ** format *)
Definition format_post (m0 : mem) (bd d0 : nat) (t : list Z) (m : mem) : Prop :=
  bytes_at m bd d0 t /\ Frame m0 bd d0 (length t) m.

Lemma lut_len case : length (lut_of case) = 16%nat.
Proof. destruct case; reflexivity. Qed.
Lemma charset_lut case : charset case = lut_of case.
Proof. destruct case; reflexivity. Qed.
Lemma land15 x : byte x -> Z.land x 15 = x mod 16.
Proof. intro H. apply Z.eqb_eq. revert x H. apply byte_sweep. vm_compute. reflexivity. Qed.

(** two characters of a byte *)
Definition dhi (case : ascii_case) (x : Z) : Z := nth (Z.to_nat (x / 16)) (lut_of case) 0.
Definition dlo (case : ascii_case) (x : Z) : Z := nth (Z.to_nat (x mod 16)) (lut_of case) 0.
Lemma two_digits {A} m case x (f : Z -> Z -> M A) (Q : A -> mem -> Prop) : byte x ->
  wp (f (dhi case x) (dlo case x)) Q m ->
  wp (hi <- table_get (lut_of case) (x / 16) ;; lo <- table_get (lut_of case) (Z.land x 15) ;; f hi lo) Q m.
Proof.
  intros Hx H. rewrite land15 by exact Hx. unfold byte in Hx.
  apply wp_bind, wp_table; [rewrite lut_len; lia|]. apply wp_bind, wp_table; [rewrite lut_len; lia|]. exact H.
Qed.

Lemma format_simple_fallback_ok case m bs so src bd d0 : bytes src -> length src = 16%nat ->
  bytes_at m bs so src -> (d0 + 32 <= length (m bd))%nat -> (bs <> bd \/ so + 16 <= d0 \/ d0 + 32 <= so)%nat ->
  wp (format_simple_fallback (bs, so) (bd, d0) case) (fun _ => format_post m bd d0 (uuid_simple (lut_of case) src)) m.
Proof.
  intros B L H R S. destruct (US_init m bs so src bd d0 32 H R) as (cs & Lc & T); [lia|].
  clear H R S. unfold format_simple_fallback. rewrite charset_lut. explode src. explode cs. inv_bytes.
  cbn [for_ Nat.mul Nat.add].
  do 16 (apply wp_bind; rd; apply two_digits; [assumption|]; wr; wr1).
  apply wp_ret. eapply (US_final m). eassumption.
Qed.

Tactic Notation "grp" integer(n) :=
  apply wp_bind; apply wp_bind; cbn [while_ snd Nat.ltb Nat.leb];
    do n (apply wp_bind; rd; apply two_digits; [assumption|]; wr; wr; apply wp_ret; cbn [snd Nat.ltb Nat.leb Nat.add]);
    apply wp_ret; cbn [Nat.ltb Nat.leb].
Lemma format_hyphenated_fallback_ok case m bs so src bd d0 : bytes src -> length src = 16%nat ->
  bytes_at m bs so src -> (d0 + 36 <= length (m bd))%nat -> (bs <> bd \/ so + 16 <= d0 \/ d0 + 36 <= so)%nat ->
  wp (format_hyphenated_fallback (bs, so) (bd, d0) case) (fun _ => format_post m bd d0 (uuid_hyphenated (lut_of case) src)) m.
Proof.
  intros B L H R S. destruct (US_init m bs so src bd d0 36 H R) as (cs & Lc & T); [lia|].
  clear H R S. unfold format_hyphenated_fallback. rewrite charset_lut. explode src. explode cs. inv_bytes.
  apply wp_bind. cbn [for_ nth groups].
  grp 4. wr. apply wp_ret.
  grp 2. wr. apply wp_ret.
  grp 2. wr. apply wp_ret.
  grp 2. wr. apply wp_ret.
  grp 6. apply wp_bind. apply wp_ret. apply wp_ret.
  apply wp_ret. apply wp_ret. eapply (US_final m). eassumption.
Qed.

Lemma lut_x2 case : char_lut_simd case = x2 (lut_of case).
Proof. destruct case; reflexivity. Qed.

Lemma whole_store m0 bs so src bd d0 cs m y : US m0 bs so src bd d0 cs m -> length cs = length y ->
  wp (store (bd, d0) y) (fun _ => format_post m0 bd d0 y) m.
Proof.
  intros T Lc. eapply US_store; [exact T|lia|]. intros m' T'.
  assert (E : splice cs 0 y = map Some y).
  { unfold splice. cbn [firstn app Nat.add]. rewrite skipn_all2 by lia. now rewrite app_nil_r. }
  rewrite E in T'. exact (US_final _ _ _ _ _ _ _ _ T').
Qed.

Lemma format_sse2_ok case m bs so src bd d0 : bytes src -> length src = 16%nat ->
  bytes_at m bs so src -> (d0 + 32 <= length (m bd))%nat -> (bs <> bd \/ so + 16 <= d0 \/ d0 + 32 <= so)%nat ->
  wp (format_simple_simd_sse2 SSE2 (bs, so) (bd, d0) case) (fun _ => format_post m bd d0 (uuid_simple (lut_of case) src)) m.
Proof.
  intros B L H R S. destruct (US_init m bs so src bd d0 32 H R) as (cs & Lc & T); [lia|].
  clear H R S. unfold format_simple_simd_sse2.
  apply wp_bind; eapply US_load; [exact T|lia|]. rewrite firstn_all2 by lia.
  destruct (sse2_encode16_ok case src L B) as (y1 & y2 & E & L1 & L2 & E12).
  apply wp_bind. eapply wp_lift; [destruct case; exact E|].
  apply wp_bind. eapply US_store; [exact T|lia|]. intros m1 T1.
  apply wp_bind. eapply US_padd_dst; [exact T1|rewrite splice_length; lia|].
  eapply US_store_at; [exact T1|rewrite splice_length; lia|]. intros m2 T2.
  unfold uuid_simple. rewrite <- E12. eapply (US_final m bs so src).
  replace (map Some (y1 ++ y2)) with (splice (splice cs 0 y1) 16 y2); [exact T2|].
  clear - Lc L1 L2. explode cs. explode y1. explode y2. reflexivity.
Qed.

Lemma format_simple_ok s case m bs so src bd d0 : bytes src -> length src = 16%nat ->
  bytes_at m bs so src -> (d0 + 32 <= length (m bd))%nat -> (bs <> bd \/ so + 16 <= d0 \/ d0 + 32 <= so)%nat ->
  wp (format_simple_impl s (bs, so) (bd, d0) case) (fun _ => format_post m bd d0 (uuid_simple (lut_of case) src)) m.
Proof.
  intros B L H R S.
  assert (G : swz s -> is_isa_type s ISSE2 = false ->
    wp (format_simple_simd s (bs, so) (bd, d0) case) (fun _ => format_post m bd d0 (uuid_simple (lut_of case) src)) m).
  { intros Hs E. unfold format_simple_simd. rewrite E.
    destruct (US_init m bs so src bd d0 32 H R) as (cs & Lc & T); [lia|].
    apply wp_bind; eapply US_load; [exact T|lia|]. rewrite firstn_all2, lut_x2 by lia.
    lf (encode_bytes16_ok s src (lut_of case) Hs (lut_len case) L B).
    eapply whole_store; [exact T|]. rewrite hex_encode_len. lia. }
  destruct s; try (now apply G).
  - now apply format_simple_fallback_ok.
  - now apply format_sse2_ok.
Qed.

Lemma format_hyphenated_ok s case m bs so src bd d0 : hyph_isa s -> bytes src -> length src = 16%nat ->
  bytes_at m bs so src -> (d0 + 36 <= length (m bd))%nat -> (bs <> bd \/ so + 16 <= d0 \/ d0 + 36 <= so)%nat ->
  wp (format_hyphenated_impl s (bs, so) (bd, d0) case) (fun _ => format_post m bd d0 (uuid_hyphenated (lut_of case) src)) m.
Proof.
  intros Hs B L H R S.
  assert (G : sse41p s ->
    wp (format_hyphenated_simd s (bs, so) (bd, d0) case) (fun _ => format_post m bd d0 (uuid_hyphenated (lut_of case) src)) m).
  { clear Hs. intro Hs. unfold format_hyphenated_simd.
    destruct (US_init m bs so src bd d0 36 H R) as (cs & Lc & T); [lia|].
    apply wp_bind; eapply US_load; [exact T|lia|]. rewrite firstn_all2, lut_x2 by lia.
    lf (encode_bytes16_ok s src (lut_of case) (sse41p_swz s Hs) (lut_len case) L B).
    unfold uuid_hyphenated.
    assert (LA := hex_encode_len (lut_of case) src). rewrite L in LA. assert (BA := hex_encode_bytes case src B).
    set (a := rfc_hex_encode (lut_of case) src) in *. clearbody a. clear H R S.
    explode a. explode cs.
    apply wp_bind. eapply wp_lift; [destruct s; try discriminate Hs; reflexivity|].
    apply wp_bind. eapply wp_lift; [destruct s; try discriminate Hs; reflexivity|].
    apply wp_bind. eapply US_store; [exact T|apply Nat.leb_le; reflexivity|]. intros m1 T1.
    apply wp_bind. eapply wp_lift; [destruct s; try discriminate Hs; reflexivity|].
    apply wp_bind. eapply wp_lift; [destruct s; try discriminate Hs; reflexivity|].
    apply wp_bind. eapply US_padd_dst; [exact T1|apply Nat.leb_le; reflexivity|].
    apply wp_bind. eapply US_store_at; [exact T1|apply Nat.leb_le; reflexivity|]. intros m2 T2.
    apply wp_bind. eapply US_padd_dst; [exact T2|apply Nat.leb_le; reflexivity|].
    eapply US_store_at; [exact T2|apply Nat.leb_le; reflexivity|]. intros m3 T3.
    eapply (US_final m bs so src).
    match type of T3 with US _ _ _ _ _ _ ?x _ => match goal with |- US _ _ _ _ _ _ ?y _ => assert (E : x = y) end end.
    { cbn [lo128 hi128 firstn skipn]. inv_bytes.
      rewrite !le_of_le by (try reflexivity; repeat (constructor; [assumption|]); constructor).
      cbn. rewrite ?Z.lor_0_r. reflexivity. }
    rewrite <- E. exact T3. }
  destruct Hs as [->|Hs]; [now apply format_hyphenated_fallback_ok|].
  destruct s; try discriminate Hs; now apply G.
Qed.
