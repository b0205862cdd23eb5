(** Facts about the public functions of uuid-simd, used by PropUuid.v. *)
From Coq Require Import ZArith List Bool String Lia ZifyNat ZifyBool.
From Verif Require Import Bytes Mem MemFacts Slices Codec Isa Simd SimdFacts Spec Alsw Ints Hex HexSimdFacts HexFacts HexApi Uuid UuidFacts.
Import ListNotations.
Open Scope list_scope.
Open Scope Z_scope.
Open Scope m_scope.
Notation length := List.length.
Ltac Zify.zify_post_hook ::= Z.div_mod_to_equations.

(** The functions take fixed-size arrays ([&[u8; 16]], [Out<[u8; N]>]): as codecs, they ignore the destination length. *)
Definition parse_codec (s1 s2 : isa) : codec := fun p n q _ => uuid_parse s1 s2 p n q.
Definition parse_simple_codec (s : isa) : codec := fun p n q _ => uuid_parse_simple s p n q.
Definition parse_hyphenated_codec (s : isa) : codec := fun p n q _ => uuid_parse_hyphenated s p n q.
Definition format_simple_codec (s : isa) (case : ascii_case) : codec := fun p _ q _ => r <- uuid_format_simple s p q case ;; ret (Ok r).
Definition format_hyphenated_codec (s : isa) (case : ascii_case) : codec := fun p _ q _ => r <- uuid_format_hyphenated s p q case ;; ret (Ok r).

(** [f] with a destination array of [n] bytes. *)
Definition array_safe (f : codec) (src : list Z) (n : nat) : Prop :=
  forall m b o d e, slice m b o src -> room m d e n -> separate b o (length src) d e n ->
  exists r m', f (b, o) (length src) (d, e) n m = Ret r m' /\
    slice m' b o src /\ only_changed m d e n m' /\
    match r with
    | Ok (p, k) => p = (d, e) /\ k = n /\ exists t, length t = n /\ slice m' d e t
    | Err => True
    end.
(** [f] and [g] give the same outcome and bytes, whatever the memories hold before. *)
Definition array_agree (f g : codec) (src : list Z) (n : nat) : Prop :=
  forall m1 m2 b o d e r1 r2 m1' m2',
    slice m1 b o src -> slice m2 b o src -> room m1 d e n -> room m2 d e n -> separate b o (length src) d e n ->
    f (b, o) (length src) (d, e) n m1 = Ret r1 m1' -> g (b, o) (length src) (d, e) n m2 = Ret r2 m2' ->
    r1 = r2 /\ forall x, r1 = Ok ((d, e), n) -> length x = n -> bytes_at m1' d e x -> bytes_at m2' d e x.

Lemma enc_array_safe f src t : encodes f src t -> (bytes src -> bytes t) -> array_safe f src (length t).
Proof.
  intros HE Bt m b o d e H R S. destruct (HE m b o d e (length t) H R S (le_n _)) as (m' & E & A & F).
  exists (Ok (d, e, length t)), m'. split; [exact E|]. split; [|split; [exact F|]].
  - eapply only_changed_src; eauto.
  - split; [reflexivity|]. split; [reflexivity|]. exists t. split; [reflexivity|]. split; [apply Bt, H|exact A].
Qed.
Lemma dec_array_safe f src n spec : decodes f src n spec ->
  (forall x, spec = Some x -> bytes src -> length x = n /\ bytes x) -> array_safe f src n.
Proof.
  intros HE Hx m b o d e H R S. destruct (HE m b o d e n H R S (le_n _)) as (r & m' & E & F & P).
  exists r, m'. split; [exact E|]. split; [|split; [exact F|]].
  - eapply only_changed_src; eauto.
  - destruct spec as [x|]; [|now subst]. destruct P as [-> A]. destruct (Hx x eq_refl (proj1 H)) as [<- Bx].
    split; [reflexivity|]. split; [reflexivity|]. exists x. split; [reflexivity|]. now split.
Qed.
Lemma enc_array_agree f g src t : encodes f src t -> encodes g src t -> array_agree f g src (length t).
Proof.
  intros HE HE' m1 m2 b o d e r1 r2 m1' m2' H1 H2 R1 R2 S E1 E2.
  destruct (HE m1 b o d e _ H1 R1 S (le_n _)) as (m & E & P & F).
  destruct (HE' m2 b o d e _ H2 R2 S (le_n _)) as (m' & E' & P' & F').
  rewrite E in E1. rewrite E' in E2. injection E1 as <- <-. injection E2 as <- <-.
  split; [reflexivity|]. intros x _ Ex A. now rewrite (bytes_at_inj _ _ _ _ _ A P).
Qed.
Lemma dec_array_agree f g src n spec : decodes f src n spec -> decodes g src n spec ->
  (forall x, spec = Some x -> length x = n) -> array_agree f g src n.
Proof.
  intros HE HE' HN m1 m2 b o d e r1 r2 m1' m2' H1 H2 R1 R2 S E1 E2.
  destruct (HE m1 b o d e n H1 R1 S (le_n _)) as (r & m & E & F & P).
  destruct (HE' m2 b o d e n H2 R2 S (le_n _)) as (r' & m' & E' & F' & P').
  rewrite E in E1. rewrite E' in E2. injection E1 as -> ->. injection E2 as -> ->.
  destruct spec as [y|].
  - destruct P as [-> P], P' as [-> P']. split; [reflexivity|]. intros x _ Ex A.
    rewrite <- (HN y eq_refl) in Ex. now rewrite (bytes_at_inj _ _ _ _ _ A P).
  - subst. split; [reflexivity|]. discriminate.
Qed.

(** ** format *)
Lemma hyphenate_len t : length t = 32%nat -> length (uuid_hyphenate t) = 36%nat.
Proof. intro L. explode t. reflexivity. Qed.
Lemma hyphenate_forall (P : Z -> Prop) t : P 45 -> Forall P t -> Forall P (uuid_hyphenate t).
Proof.
  intros P0 F. unfold uuid_hyphenate.
  assert (F1 : forall n l, Forall P l -> Forall P (firstn n l)) by (intros n l Hl; rewrite <- (firstn_skipn n l) in Hl; now apply Forall_app in Hl).
  assert (F2 : forall n l, Forall P l -> Forall P (skipn n l)) by (intros n l Hl; rewrite <- (firstn_skipn n l) in Hl; now apply Forall_app in Hl).
  rewrite !Forall_app. repeat split; auto.
Qed.

Lemma simple_bytes case src : bytes src -> bytes (uuid_simple (lut_of case) src).
Proof. apply hex_encode_bytes. Qed.
Lemma hyphenated_bytes case src : bytes src -> bytes (uuid_hyphenated (lut_of case) src).
Proof. intro B. apply hyphenate_forall; [unfold byte; lia|now apply hex_encode_bytes]. Qed.

Lemma format_simple_encodes s case src : length src = 16%nat ->
  encodes (format_simple_codec s case) src (uuid_simple (lut_of case) src).
Proof.
  intros L m b o d e dlen [B H] R S. unfold room, separate in *.
  assert (LE : length (uuid_simple (lut_of case) src) = 32%nat) by (unfold uuid_simple; rewrite hex_encode_len; lia).
  rewrite LE. intro Ld. unfold format_simple_codec, uuid_format_simple.
  destruct (wp_inv _ _ _ (format_simple_ok s case m b o src d e B L H ltac:(lia) ltac:(lia))) as (u & m' & E & A & F).
  exists m'. unfold bind. rewrite E. split; [reflexivity|]. rewrite LE in F. now split.
Qed.
Lemma format_hyphenated_encodes s case src : hyph_isa s -> length src = 16%nat ->
  encodes (format_hyphenated_codec s case) src (uuid_hyphenated (lut_of case) src).
Proof.
  intros Hs L m b o d e dlen [B H] R S. unfold room, separate in *.
  assert (LE : length (uuid_hyphenated (lut_of case) src) = 36%nat) by (apply hyphenate_len; rewrite hex_encode_len; lia).
  rewrite LE. intro Ld. unfold format_hyphenated_codec, uuid_format_hyphenated.
  destruct (wp_inv _ _ _ (format_hyphenated_ok s case m b o src d e Hs B L H ltac:(lia) ltac:(lia))) as (u & m' & E & A & F).
  exists m'. unfold bind. rewrite E. split; [reflexivity|]. rewrite LE in F. now split.
Qed.

(** ** parse *)
Definition simple_decode (t : list Z) : option (list Z) := if (length t =? 32)%nat then rfc_hex_decode t else None.
Definition uuid_decode (t : list Z) : option (list Z) :=
  if (length t =? 32)%nat then rfc_hex_decode t
  else if (length t =? 36)%nat then hyph_decode t
  else if (length t =? 38)%nat then
    if (nth 0 t 0 =? 123) && (nth 37 t 0 =? 125) then hyph_decode (firstn 36 (skipn 1 t)) else None
  else if (length t =? 45)%nat then
    if list_eqb (firstn 9 t) (str "urn:uuid:") then hyph_decode (skipn 9 t) else None
  else None.

Lemma simple_exactly t : exactly (simple_decode t) (uuid_text_simple t).
Proof.
  intro x. unfold simple_decode, uuid_text_simple. destruct (Nat.eqb_spec (length t) 32) as [L|L]; split.
  - intro E. split; [|exact E]. apply hex_decode_length in E. lia.
  - tauto.
  - discriminate.
  - intros [Lx E]. apply hex_decode_length in E. lia.
Qed.
Lemma dehyphen_hyphenate t : length t = 32%nat ->
  length (uuid_hyphenate t) = 36%nat /\ dashes (uuid_hyphenate t) = true /\ dehyphen (uuid_hyphenate t) = t.
Proof. intro L. explode t. repeat split. Qed.
Lemma hyphenate_dehyphen t : length t = 36%nat -> dashes t = true -> uuid_hyphenate (dehyphen t) = t /\ length (dehyphen t) = 32%nat.
Proof.
  intros L D. explode t. unfold dashes in D. cbn [nth] in D.
  apply andb_true_iff in D as [D D4]. apply andb_true_iff in D as [D D3]. apply andb_true_iff in D as [D1 D2].
  apply Z.eqb_eq in D1, D2, D3, D4. subst. split; reflexivity.
Qed.
Lemma hyph_exactly t : exactly (hyph_decode t) (uuid_text_hyphenated t).
Proof.
  intro x. unfold hyph_decode, uuid_text_hyphenated. split.
  - destruct (Nat.eqb_spec (length t) 36) as [L|L]; [|discriminate]. cbn [andb].
    destruct (dashes t) eqn:D; [|discriminate]. intro E. destruct (hyphenate_dehyphen t L D) as [H1 H2].
    exists (dehyphen t). split; [|now symmetry]. split; [|exact E]. apply hex_decode_length in E. lia.
  - intros (t' & [Lx E] & ->). assert (L : length t' = 32%nat) by (apply hex_decode_length in E; lia).
    destruct (dehyphen_hyphenate t' L) as (H1 & H2 & H3). now rewrite H1, H2, H3.
Qed.
Lemma hyph_len t x : uuid_text_hyphenated t x -> length t = 36%nat.
Proof. intros (t' & [Lx E] & ->). apply hyphenate_len. apply hex_decode_length in E. lia. Qed.

Lemma uuid_exactly t : exactly (uuid_decode t) (uuid_text t).
Proof.
  intro x. unfold uuid_decode, uuid_text.
  destruct (Nat.eqb_spec (length t) 32) as [L|L32].
  { split.
    - intro E. left. split; [|exact E]. apply hex_decode_length in E. lia.
    - intros [[_ E]|[H|[(t' & H & ->)|(t' & H & ->)]]]; [exact E|exfalso..].
      + apply hyph_len in H. lia.
      + apply hyph_len in H. rewrite app_length in L. cbn in L. lia.
      + apply hyph_len in H. rewrite !app_length in L. cbn in L. lia. }
  assert (NS : ~ uuid_text_simple t x) by (intros [Lx E]; apply hex_decode_length in E; lia).
  destruct (Nat.eqb_spec (length t) 36) as [L|L36].
  { rewrite (hyph_exactly t x). split; [tauto|].
    intros [H|[H|[(t' & H & ->)|(t' & H & ->)]]]; [tauto|exact H|exfalso..].
      + apply hyph_len in H. rewrite app_length in L. cbn in L. lia.
      + apply hyph_len in H. rewrite !app_length in L. cbn in L. lia. }
  assert (NH : ~ uuid_text_hyphenated t x) by (intro H; apply hyph_len in H; lia).
  destruct (Nat.eqb_spec (length t) 38) as [L|L38].
  { split.
    - destruct (Z.eqb_spec (nth 0 t 0) 123) as [E1|]; [|discriminate]. destruct (Z.eqb_spec (nth 37 t 0) 125) as [E2|]; [|discriminate].
      cbn [andb]. intro H. apply hyph_exactly in H. do 3 right. exists (firstn 36 (skipn 1 t)). split; [exact H|].
      clear - L E1 E2. explode t. cbn [nth] in E1, E2. now subst.
    - intros [H|[H|[(t' & H & ->)|(t' & H & ->)]]]; [tauto|tauto|exfalso|].
      + apply hyph_len in H. rewrite app_length in L. cbn in L. lia.
      + assert (Lt := hyph_len _ _ H). apply hyph_exactly in H. clear - Lt H. explode t'. exact H. }
  destruct (Nat.eqb_spec (length t) 45) as [L|L45].
  { split.
    - destruct (list_eqb (firstn 9 t) (str "urn:uuid:")) eqn:E1; [|discriminate]. apply list_eqb_eq in E1.
      intro H. apply hyph_exactly in H. do 2 right. left. exists (skipn 9 t). split; [exact H|]. rewrite <- E1. symmetry. apply firstn_skipn.
    - intros [H|[H|[(t' & H & ->)|(t' & H & ->)]]]; [tauto|tauto| |exfalso].
      + change (list_eqb (firstn 9 (str "urn:uuid:" ++ t')) (str "urn:uuid:")) with true.
        change (skipn 9 (str "urn:uuid:" ++ t')) with t'. cbn iota. now apply hyph_exactly.
      + apply hyph_len in H. rewrite !app_length in L. cbn in L. lia. }
  split; [discriminate|]. intros [H|[H|[(t' & H & ->)|(t' & H & ->)]]]; [tauto|tauto|exfalso..].
  + apply hyph_len in H. rewrite app_length in L45. cbn in L45. lia.
  + apply hyph_len in H. rewrite !app_length in L38. cbn in L38. lia.
Qed.


Lemma hyph_spec_bytes t x : bytes t -> hyph_decode t = Some x -> length x = 16%nat /\ bytes x.
Proof.
  intros B H. assert (G := proj1 (hyph_exactly t x) H). destruct G as (t' & [L _] & _). split; [exact L|].
  unfold hyph_decode in H. destruct ((length t =? 36)%nat && dashes t); [|discriminate].
  eapply hex_decode_bytes; [|exact H]. now apply bytes_dehyphen.
Qed.
Lemma simple_spec_bytes t x : bytes t -> simple_decode t = Some x -> length x = 16%nat /\ bytes x.
Proof.
  intros B H. split; [now apply (simple_exactly t)|]. unfold simple_decode in H. destruct (length t =? 32)%nat; [|discriminate].
  now apply hex_decode_bytes in H.
Qed.
Lemma uuid_spec_bytes t x : bytes t -> uuid_decode t = Some x -> length x = 16%nat /\ bytes x.
Proof.
  intros B. unfold uuid_decode.
  destruct (Nat.eqb_spec (length t) 32) as [L|_].
  { intro H. apply simple_spec_bytes with t; auto. unfold simple_decode. now rewrite L. }
  destruct (length t =? 36)%nat; [now apply hyph_spec_bytes|].
  destruct (length t =? 38)%nat.
  { destruct (_ && _); [|discriminate]. apply hyph_spec_bytes. now apply bytes_firstn, bytes_skipn. }
  destruct (length t =? 45)%nat; [|discriminate].
  destruct (list_eqb _ _); [|discriminate]. apply hyph_spec_bytes. now apply bytes_skipn.
Qed.

Lemma parsed m b d e spec c : (forall x, spec = Some x -> length x = 16%nat) -> wp c (parse_post m d e spec) b ->
  wp (try_ c (fun _ => ret (Ok ((d, e), 16%nat)))) (fun r m' => decoded spec m d e 16 r m') b.
Proof.
  intros HN W. apply wp_try. eapply wp_mono; [exact W|]. intros r m' [F P].
  destruct spec as [x|].
  - destruct P as [-> P]. apply wp_ret. split; [exact F|]. rewrite (HN x eq_refl). now split.
  - subst r. now split.
Qed.

Lemma wp_some {A} (c : M A) (Q : A -> mem -> Prop) m : wp c Q m -> exists r m', c m = Ret r m' /\ Q r m'.
Proof. apply wp_inv. Qed.

Lemma parse_simple_decodes s src : decodes (parse_simple_codec s) src 16 (simple_decode src).
Proof.
  intros m b o d e dlen [B H] R S L. unfold room, separate in *. apply wp_inv.
  unfold parse_simple_codec, uuid_parse_simple. assert (HN := fun x => simple_spec_bytes src x B). unfold simple_decode in *.
  destruct (Nat.eqb_spec (length src) 32) as [L32|]; cbn [negb].
  - apply parsed; [firstorder|]. apply parse_simple_ok; auto; lia.
  - apply wp_ret. split; [apply Frame_refl|reflexivity].
Qed.
Lemma parse_hyphenated_decodes s src : hyph_isa s -> decodes (parse_hyphenated_codec s) src 16 (hyph_decode src).
Proof.
  intros Hs m b o d e dlen [B H] R S L. unfold room, separate in *. apply wp_inv.
  unfold parse_hyphenated_codec, uuid_parse_hyphenated. assert (HN := fun x => hyph_spec_bytes src x B).
  destruct (Nat.eqb_spec (length src) 36) as [L36|N]; cbn [negb].
  - apply parsed; [firstorder|]. apply parse_hyphenated_ok; auto; lia.
  - apply wp_ret. split; [apply Frame_refl|]. unfold hyph_decode. apply Nat.eqb_neq in N. now rewrite N.
Qed.

Lemma uuid_parse_decodes s1 s2 src : hyph_isa s2 -> decodes (parse_codec s1 s2) src 16 (uuid_decode src).
Proof.
  intros Hs m b o d e dlen [B H] R S L. unfold room, separate in *. apply wp_inv.
  unfold parse_codec, uuid_parse. assert (HN := fun x => uuid_spec_bytes src x B). unfold uuid_decode in *.
  destruct (Nat.eqb_spec (length src) 32) as [L32|_].
  { apply parsed; [firstorder|]. apply parse_simple_ok; auto; lia. }
  apply wp_try.
  destruct (Nat.eqb_spec (length src) 36) as [L36|_].
  { apply wp_ret. apply parsed; [firstorder|]. apply parse_hyphenated_ok; auto; lia. }
  destruct (Nat.eqb_spec (length src) 38) as [L38|_].
  { apply wp_bind. eapply wp_read; [exact H|lia|].
    destruct (nth 0 src 0 =? 123); cbn [negb andb]; [|apply wp_ret; split; [apply Frame_refl|reflexivity]].
    apply wp_bind. eapply wp_read; [exact H|lia|].
    destruct (nth 37 src 0 =? 125); cbn [negb andb]; [|apply wp_ret; split; [apply Frame_refl|reflexivity]].
    assert (HB := proj1 H). apply wp_bind, wp_padd; cbn [fst snd]; [lia|]. apply wp_ret. apply parsed; [firstorder|].
    assert (H' := bytes_at_firstn _ _ _ _ 36 (bytes_at_skipn m b o src 1 ltac:(lia) H)).
    apply parse_hyphenated_ok; auto; try lia.
    - now apply bytes_firstn, bytes_skipn.
    - rewrite firstn_length, skipn_length. lia. }
  destruct (Nat.eqb_spec (length src) 45) as [L45|_].
  { apply wp_bind. eapply wp_load; [exact H|lia|]. unfold URN_PREFIX.
    destruct (list_eqb _ _); [|apply wp_ret; split; [apply Frame_refl|reflexivity]].
    assert (HB := proj1 H). apply wp_bind, wp_padd; cbn [fst snd]; [lia|]. apply wp_ret. apply parsed; [firstorder|].
    assert (H' := bytes_at_skipn m b o src 9 ltac:(lia) H).
    apply parse_hyphenated_ok; auto; try lia.
    - now apply bytes_skipn.
    - rewrite skipn_length. lia. }
  apply wp_ret. split; [apply Frame_refl|reflexivity].
Qed.

(** formatted text parses to the bytes *)
Lemma simple_roundtrip case src : bytes src -> length src = 16%nat -> uuid_text_simple (uuid_simple (lut_of case) src) src.
Proof. intros B L. split; [exact L|]. now apply hex_decode_encode. Qed.
Lemma hyphenated_roundtrip case src : bytes src -> length src = 16%nat -> uuid_text_hyphenated (uuid_hyphenated (lut_of case) src) src.
Proof. intros B L. exists (uuid_simple (lut_of case) src). split; [now apply simple_roundtrip|reflexivity]. Qed.
