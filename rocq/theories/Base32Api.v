(** Facts about the public functions of base32-simd, used by PropBase32.v. *)
From Coq Require Import ZArith List Bool Lia ZifyNat ZifyBool.
From Verif Require Import Bytes Mem MemFacts Loops Loops2 Slices Codec Isa Simd SimdFacts Alsw Spec Ints
  Base64Facts Base64DecFacts Base32 Base32SimdFacts Base32SimdDec Base32Ref Base32Facts Base32DecFacts.
Import ListNotations.
Open Scope Z_scope.
Open Scope m_scope.
Ltac Zify.zify_post_hook ::= Z.div_mod_to_equations.

(** the instruction sets that base32 encode and decode are compiled for, and the scalar code *)
Definition b32_isa (s : isa) : Prop := s = Fallback \/ sse41p s.
(** the same for check *)
Definition b32_chk_isa (s : isa) : Prop := s = Fallback \/ swz s.
(** RFC 4648 encoding of a configuration *)
Definition b32_rfc (cfg : b32_config) (src : list Z) : list Z :=
  rfc_base32 (b32_alphabet (b32_kind_of cfg)) (b32_padding cfg) src.
(** number of destination cells that decoding [s] needs: that of the whole bytes in the 5-bit groups left
    after removing padding; 0 if the length is impossible *)
Definition b32_need (cfg : b32_config) (s : list Z) : nat :=
  match b32_unpad (b32_padding cfg) s with
  | Some t => if b32_len_ok (length t) then (5 * length t / 8)%nat else 0%nat
  | None => 0%nat
  end.

(** ** encode *)
Lemma b32_encode_ok t s cfg src : b32_isa s -> encodes (b32_encode t s cfg) src (b32_rfc cfg src).
Proof.
  intros Hs m b o d e dlen [B H] R S. unfold room, separate in *. destruct cfg as [k x]. unfold b32_rfc. cbn [b32_kind_of b32_padding].
  rewrite <- b32e_rfc by auto. assert (LE := b32e_len k x src). rewrite LE. intro L.
  assert (W : wp (b32_encode t s {| b32_kind_of := k; b32_padding := x |} (b, o) (length src) (d, e) dlen) (fun r m' =>
     r = Ok ((d, e), b32_encoded_length_unchecked (length src) x) /\
     bytes_at m' d e (b32e k x src) /\
     only_changed m d e (b32_encoded_length_unchecked (length src) x) m') m).
  { unfold b32_encode. cbn zeta. cbn [b32_kind_of b32_padding]. set (cap := b32_encoded_length_unchecked _ _) in *.
    destruct (Nat.leb_spec cap dlen) as [G|G]; [|lia]. cbn [negb].
    apply wp_bind. rewrite <- (pp_total b o src), <- (qq_nil d e) at 1.
    eapply wp_mono; [apply (b32_encode_impl_ok m b o src d e cap); auto; try lia; apply EI_init; auto; lia|].
    intros u m' T. apply wp_ret. unfold done32 in T. split; [|split].
    - reflexivity.
    - eapply TS_out; exact T.
    - eapply TS_frame; exact T. }
  apply wp_inv in W as (r & m' & E & -> & H1 & H2). eauto.
Qed.

Lemma b32_rfc_len cfg src : bytes src -> length (b32_rfc cfg src) = b32_encoded_length_unchecked (length src) (b32_padding cfg).
Proof. intro B. unfold b32_rfc. rewrite <- b32e_rfc by auto. apply b32e_len. Qed.

Lemma b32_encode_short t s cfg src : rejects_short (b32_encode t s cfg) src (length (b32_rfc cfg src)).
Proof.
  intros m b o d e dlen [B _] L. rewrite b32_rfc_len in L by auto. unfold b32_encode. cbn zeta.
  destruct (Nat.leb_spec (b32_encoded_length_unchecked (length src) (b32_padding cfg)) dlen); [lia|reflexivity].
Qed.

Lemma b32_rfc_chars cfg src : bytes src -> Forall (fun c => 0 <= c < 128) (b32_rfc cfg src).
Proof.
  intro B. unfold b32_rfc. rewrite <- b32e_rfc by auto.
  assert (G : Forall (fun c => 0 <= c < 128) (b32e (b32_kind_of cfg) false src)).
  { eapply Forall_impl; [|apply b32e_chars_ok; exact B]. cbn beta. intros a H. apply H. }
  destruct (b32_padding cfg); [|exact G]. rewrite b32e_pads. apply Forall_app. split; [exact G|].
  apply Forall_forall. intros c Hc. apply repeat_spec in Hc. lia.
Qed.
Lemma b32_rfc_bytes cfg src : bytes src -> bytes (b32_rfc cfg src).
Proof. intro B. eapply Forall_impl; [|apply b32_rfc_chars; exact B]. cbn beta. unfold byte. lia. Qed.
Lemma b32_ascii t s cfg src x : b32_isa s -> bytes src -> encodes (b32_encode_as_str t s cfg) src x -> Forall ascii_char x.
Proof.
  intros Hs B H. rewrite (encodes_det _ _ _ _ B H (b32_encode_ok t s cfg src Hs)). eapply Forall_impl; [|now apply b32_rfc_chars].
  cbn beta. unfold ascii_char. lia.
Qed.

(** ** decoded_length *)
Definition dl_result32 (cfg : b32_config) (s : list Z) : result (nat * nat) :=
  match b32_unpad (b32_padding cfg) s with
  | Some t => if b32_len_ok (length t) then Ok (length t, b32_dl (length t)) else Err
  | None => Err
  end.
Lemma dl_match32 (n : nat) (Q : result (nat * nat) -> mem -> Prop) m :
  Q (if b32_len_ok n then Ok (n, b32_dl n) else Err) m ->
  wp (let extra := nth (n mod 8) [0; 255; 1; 255; 2; 3; 255; 4]%nat 0%nat in
      if (extra =? 255)%nat then ret Err else ret (Ok (n, n / 8 * 5 + extra)%nat)) Q m.
Proof.
  unfold b32_dl, b32_len_ok. pose proof (Nat.mod_upper_bound n 8 ltac:(lia)) as U. cbn zeta. intro HQ.
  assert (E : (5 * n / 8 = n / 8 * 5 + 5 * (n mod 8) / 8)%nat) by lia. rewrite E in HQ. clear E. revert HQ.
  destruct (n mod 8)%nat as [|[|[|[|[|[|[|[|?]]]]]]]]; [..|lia]; intro HQ; cbn [nth Nat.eqb]; apply wp_ret; exact HQ.
Qed.
Lemma b32_decoded_length_wp m b o s cfg (Q : result (nat * nat) -> mem -> Prop) : bytes_at m b o s -> Q (dl_result32 cfg s) m ->
  wp (b32_decoded_length (b, o) (length s) (b32_padding cfg)) Q m.
Proof.
  intros H HQ. unfold b32_decoded_length, dl_result32 in *. destruct cfg as [k e]. cbn [b32_padding] in *.
  destruct (Nat.eqb_spec (length s) 0) as [E0|N0].
  - apply length_zero_iff_nil in E0. subst s. apply wp_ret. destruct e; exact HQ.
  - apply wp_try. unfold b32_unpad in HQ. destruct e.
    + destruct (Nat.eqb_spec (length s mod 8) 0) as [E8|N8]; [|apply wp_ret; exact HQ].
      assert (L6 : (6 <= length s)%nat) by (clear - N0 E8; lia).
      unfold psub_len. destruct (Nat.leb_spec 6 (length s)); [|lia]. apply wp_bind, wp_ret.
      assert (HL := bytes_at_skipn m b o s (length s - 6)%nat ltac:(lia) H).
      apply wp_bind. apply wp_padd; cbn [fst snd]; [destruct H; lia|].
      apply wp_bind. eapply wp_load_exact; [exact HL|rewrite skipn_length; lia|].
      apply wp_ret. apply dl_match32. fold (count_eq (skipn (length s - 6) s)).
      rewrite firstn_length_le in HQ by lia. exact HQ.
    + apply wp_ret. now apply dl_match32.
Qed.

Lemma unpad32_prefix pad s t : b32_unpad pad s = Some t -> exists u, s = t ++ u.
Proof.
  unfold b32_unpad. destruct pad; intro H.
  - destruct (length s mod 8 =? 0)%nat; [|discriminate]. injection H as <-. eexists. symmetry. apply firstn_skipn.
  - injection H as <-. exists []. now rewrite app_nil_r.
Qed.
Lemma slice_prefix32 m b o t u : slice m b o (t ++ u) -> slice m b o t.
Proof.
  intros [B H]. apply bytes_app in B as [B _]. split; [exact B|]. apply (bytes_at_firstn m b o _ (length t)) in H.
  now rewrite firstn_app_exact in H.
Qed.

(** ** decode *)
Lemma b32_impl_run tg s k m b o t d f : b32_isa s -> slice m b o t -> room m d f (b32_dl (length t)) ->
  (b <> d \/ o + length t <= f \/ f <= o)%nat -> b32_len_ok (length t) = true ->
  wp (b32_decode_impl tg s (b, o) (length t) (d, f) k) (fun r m' =>
    only_changed m d f (b32_dl (length t)) m' /\
    match b32d k t with
    | Some x => r = Ok tt /\ bytes_at m' d f x /\ length x = b32_dl (length t)
    | None => r = Err
    end) m.
Proof.
  intros Hs [B H] R S L. unfold room in *. rewrite <- (pp_total b o t), <- (qq_nil d f).
  eapply wp_mono; [apply (b32_decode_impl_ok m b o t d f (b32_dl (length t))); auto|].
  - now apply DI_init.
  - intros r m' (F & P). split; [exact F|]. destruct r as [[]|].
    + destruct P as (x & -> & Lx & T). split; [reflexivity|]. split; [eapply TS_out; exact T|exact Lx].
    + now rewrite P.
Qed.

Lemma b32_decode_run tg s cfg m b o src d e dlen (inpl : bool) : b32_isa s ->
  slice m b o src -> room m d e (b32_need cfg src) ->
  (b <> d \/ o + length src <= e \/ e <= o)%nat -> (b32_need cfg src <= dlen)%nat ->
  wp (try_ (b32_decoded_length (b, o) (length src) (b32_padding cfg)) (fun nm =>
      if negb inpl && negb (snd nm <=? dlen)%nat then ret Err else
      try_ (b32_decode_impl tg s (b, o) (fst nm) (d, e) (b32_kind_of cfg)) (fun _ => ret (Ok ((d, e), snd nm)))))
   (decoded (b32_dec cfg src) m d e (b32_need cfg src)) m.
Proof.
  intros Hs H R S L. apply wp_try. apply (b32_decoded_length_wp m b o src cfg); [apply H|].
  unfold dl_result32, b32_need, b32_dec in *. destruct (b32_unpad (b32_padding cfg) src) as [t|] eqn:U.
  2:{ split; [apply Frame_refl|reflexivity]. }
  destruct (b32_len_ok (length t)) eqn:LO.
  2:{ split; [apply Frame_refl|]. now rewrite b32d_bad_len. }
  fold (b32_dl (length t)) in *. cbn [fst snd].
  destruct (unpad32_prefix _ _ _ U) as [u Eu]. assert (Hl : (length t <= length src)%nat) by (rewrite Eu, app_length; lia).
  assert (Ht : slice m b o t) by (rewrite Eu in H; now apply slice_prefix32 in H).
  destruct (Nat.leb_spec (b32_dl (length t)) dlen) as [G|G]; [|lia]. rewrite andb_false_r.
  apply wp_try. destruct cfg as [k x]. cbn [b32_kind_of b32_padding] in *.
  eapply wp_mono; [apply b32_impl_run; auto; lia|].
  intros r m' (F & P). unfold decoded. destruct (b32d k t) as [y|].
  - destruct P as (-> & A & Ly). apply wp_ret. split; [exact F|]. rewrite Ly. auto.
  - subst r. split; [exact F|reflexivity].
Qed.

Lemma b32_decode_ok tg s cfg src : b32_isa s -> decodes (b32_decode tg s cfg) src (b32_need cfg src) (b32_dec cfg src).
Proof.
  intros Hs m b o d e dlen H R S L.
  assert (W : wp (b32_decode tg s cfg (b, o) (length src) (d, e) dlen) (decoded (b32_dec cfg src) m d e (b32_need cfg src)) m).
  { apply (b32_decode_run tg s cfg m b o src d e dlen false Hs H); auto; unfold room, separate in *; lia. }
  apply wp_inv in W as (r & m' & E & P). eauto.
Qed.
Lemma b32_need_le cfg src : (b32_need cfg src <= length src)%nat.
Proof.
  unfold b32_need. destruct (b32_unpad _ src) as [t|] eqn:U; [|lia]. destruct (b32_len_ok (length t)); [|lia].
  destruct (unpad32_prefix _ _ _ U) as [j ->]. rewrite app_length. lia.
Qed.
Lemma b32_decode_inplace_ok tg s cfg data : b32_isa s ->
  decodes_inplace (b32_decode_inplace tg s cfg) data (b32_need cfg data) (b32_dec cfg data).
Proof.
  intros Hs m b o H.
  assert (W : wp (b32_decode_inplace tg s cfg (b, o) (length data)) (decoded (b32_dec cfg data) m b o (b32_need cfg data)) m).
  { pose proof (b32_need_le cfg data).
    apply (b32_decode_run tg s cfg m b o data b o (b32_need cfg data) true Hs H); auto; unfold room; destruct H as [_ [H _]]; lia. }
  apply wp_inv in W as (r & m' & E & P). eauto.
Qed.
Lemma b32_decode_short tg s cfg src : rejects_short (b32_decode tg s cfg) src (b32_need cfg src).
Proof.
  intros m b o d e dlen [B H] L.
  assert (W : wp (b32_decode tg s cfg (b, o) (length src) (d, e) dlen) (fun r m' => r = Err /\ m' = m) m).
  { unfold b32_decode. apply wp_try. apply (b32_decoded_length_wp m b o src cfg); [exact H|].
    unfold dl_result32, b32_need in *. destruct (b32_unpad (b32_padding cfg) src) as [t|]; [|lia].
    destruct (b32_len_ok (length t)); [|lia]. fold (b32_dl (length t)) in L. cbn [fst snd].
    destruct (Nat.leb_spec (b32_dl (length t)) dlen) as [G|G]; [lia|]. cbn [negb]. now apply wp_ret. }
  apply wp_inv in W as (r & m' & E & -> & ->). exact E.
Qed.

(** ** check *)
Lemma b32_check_ok tg s cfg src : b32_chk_isa s ->
  checks (b32_check tg s cfg) src (match b32_dec cfg src with Some _ => true | None => false end).
Proof.
  intros Hs m b o [B H].
  assert (W : wp (b32_check tg s cfg (b, o) (length src)) (fun r m' =>
    r = (if match b32_dec cfg src with Some _ => true | None => false end then Ok tt else Err) /\ same_mem m m') m).
  { unfold b32_check. apply wp_try. apply (b32_decoded_length_wp m b o src cfg); [exact H|].
    unfold dl_result32, b32_dec. destruct (b32_unpad (b32_padding cfg) src) as [t|] eqn:U.
    2:{ split; [reflexivity|]. intro. reflexivity. }
    destruct (b32_len_ok (length t)) eqn:LO.
    2:{ rewrite b32d_bad_len by exact LO. split; [reflexivity|]. intro. reflexivity. }
    destruct (unpad32_prefix _ _ _ U) as [u Eu].
    assert (Ht : slice m b o t) by (apply (slice_prefix32 m b o t u); rewrite <- Eu; now split).
    destruct Ht as [Bt Ht]. destruct cfg as [k e]. cbn [b32_kind_of b32_padding fst].
    rewrite <- (pp_total b o t). eapply wp_mono; [apply (b32_check_impl_ok m b o t tg k); auto; now apply CI_init|].
    intros r m' [F ->]. split; [|exact F]. unfold V32, isSome. reflexivity. }
  apply wp_inv in W as (r & m' & E & -> & F). eauto.
Qed.

(** ** Consequences *)
Lemma b32_dec_facts cfg s x : bytes s -> b32_dec cfg s = Some x -> length x = b32_need cfg s /\ bytes x.
Proof.
  intros B. unfold b32_dec, b32_need. destruct (b32_unpad (b32_padding cfg) s) as [t|] eqn:U; [|discriminate]. intro H.
  destruct (unpad32_prefix _ _ _ U) as [u Eu]. assert (Bt : bytes t) by (rewrite Eu in B; now apply bytes_app in B).
  destruct (b32_len_ok (length t)) eqn:LO; [|rewrite b32d_bad_len in H by auto; discriminate].
  split; [eapply b32d_len; exact H|]. now apply b32d_sound in H.
Qed.
Lemma b32_exact tg s cfg src : b32_isa s ->
  decodes_exactly (b32_decode tg s cfg) src (fun x => bytes x /\ b32_rfc cfg x = src).
Proof.
  intros Hs. apply (exactly_decodes _ _ (b32_need cfg src) (b32_dec cfg src)); [now apply b32_decode_ok|apply b32_decode_short| |].
  - intros B x. now apply b32_dec_strict.
  - intros B x Hx. now apply b32_dec_facts.
Qed.
Lemma b32_inplace_exact tg s cfg data : b32_isa s ->
  inplace_exactly (b32_decode_inplace tg s cfg) data (fun x => bytes x /\ b32_rfc cfg x = data).
Proof.
  intros Hs. apply (exactly_inplace _ _ (b32_need cfg data) (b32_dec cfg data)); [now apply b32_decode_inplace_ok| |apply b32_need_le|].
  - intros B x. now apply b32_dec_strict.
  - intros B x Hx. now apply b32_dec_facts.
Qed.
Lemma b32_dec_rfc cfg src : bytes src -> b32_dec cfg (b32_rfc cfg src) = Some src.
Proof. intros B. apply b32_dec_strict; [now apply b32_rfc_bytes|]. now split. Qed.
Lemma b32_need_rfc cfg src : bytes src -> b32_need cfg (b32_rfc cfg src) = length src.
Proof.
  intros B. symmetry. eapply b32_dec_facts; [apply b32_rfc_bytes; exact B|]. now apply b32_dec_rfc.
Qed.
Lemma b32_roundtrip t1 t2 s1 s2 cfg src : b32_isa s1 -> b32_isa s2 -> bytes src ->
  roundtrips (b32_encode t1 s1 cfg) (b32_decode t2 s2 cfg) src (length (b32_rfc cfg src)).
Proof.
  intros H1 H2 B. apply roundtrip; [now apply b32_encode_ok| |apply b32_rfc_bytes].
  rewrite <- (b32_need_rfc cfg src) at 1 by auto. rewrite <- (b32_dec_rfc cfg src) by auto. now apply b32_decode_ok.
Qed.
Lemma b32_enc_safe t s cfg src : b32_isa s -> bytes src -> mem_safe (b32_encode t s cfg) src (length (b32_rfc cfg src)).
Proof. intros Hs B. apply enc_safe; [now apply b32_encode_ok|apply b32_encode_short|now apply b32_rfc_bytes]. Qed.
Lemma b32_dec_safe t s cfg src : b32_isa s -> mem_safe (b32_decode t s cfg) src (b32_need cfg src).
Proof.
  intros Hs. eapply dec_safe; [now apply b32_decode_ok|apply b32_decode_short|].
  intros x Hx B. now apply b32_dec_facts.
Qed.
Lemma b32_decode_agree t1 t2 s1 s2 cfg src : b32_isa s1 -> b32_isa s2 ->
  agree (b32_decode t1 s1 cfg) (b32_decode t2 s2 cfg) src.
Proof. intros H1 H2. eapply dec_agree; eauto using b32_decode_ok, b32_decode_short. Qed.
Lemma b32_encode_agree t1 t2 s1 s2 cfg src : b32_isa s1 -> b32_isa s2 -> agree (b32_encode t1 s1 cfg) (b32_encode t2 s2 cfg) src.
Proof. intros H1 H2. eapply enc_agree; eauto using b32_encode_ok, b32_encode_short. Qed.

Lemma b32_rfc_app cfg a b : bytes a -> bytes b -> (length a mod 5 = 0)%nat -> b32_rfc cfg (a ++ b) = b32_rfc cfg a ++ b32_rfc cfg b.
Proof.
  intros Ba Bb L. unfold b32_rfc. rewrite <- !b32e_rfc; auto; [now apply b32e_app|]. apply bytes_app. now split.
Qed.
Lemma b32_rfc_inj cfg a b : bytes a -> bytes b -> b32_rfc cfg a = b32_rfc cfg b -> a = b.
Proof.
  intros Ba Bb H. assert (Ea := b32_dec_rfc cfg a Ba). rewrite H, b32_dec_rfc in Ea by auto. congruence.
Qed.
Lemma b32_compositional t1 t2 t3 s1 s2 s3 cfg a b x y : b32_isa s1 -> b32_isa s2 -> b32_isa s3 -> bytes a -> bytes b -> (length a mod 5 = 0)%nat ->
  encodes (b32_encode t1 s1 cfg) a x -> encodes (b32_encode t2 s2 cfg) b y -> encodes (b32_encode t3 s3 cfg) (a ++ b) (x ++ y).
Proof.
  intros I1 I2 I3 Ba Bb L H1 H2.
  rewrite (encodes_det _ _ _ _ Ba H1 (b32_encode_ok t1 s1 cfg a I1)), (encodes_det _ _ _ _ Bb H2 (b32_encode_ok t2 s2 cfg b I2)).
  rewrite <- b32_rfc_app by auto. now apply b32_encode_ok.
Qed.
Lemma b32_injective t1 t2 s1 s2 cfg a b x : b32_isa s1 -> b32_isa s2 -> bytes a -> bytes b ->
  encodes (b32_encode t1 s1 cfg) a x -> encodes (b32_encode t2 s2 cfg) b x -> a = b.
Proof.
  intros I1 I2 Ba Bb H1 H2. apply (b32_rfc_inj cfg); auto.
  now rewrite <- (encodes_det _ _ _ _ Ba H1 (b32_encode_ok t1 s1 cfg a I1)), <- (encodes_det _ _ _ _ Bb H2 (b32_encode_ok t2 s2 cfg b I2)).
Qed.

(** check, decode and canonical texts *)
Lemma b32_check_exact tg s cfg src m b o : b32_chk_isa s -> slice m b o src ->
  exists r m', b32_check tg s cfg (b, o) (length src) m = Ret r m' /\ same_mem m m' /\
    (r = Ok tt <-> exists x, bytes x /\ b32_rfc cfg x = src).
Proof.
  intros Hs H. destruct (b32_check_ok tg s cfg src Hs m b o H) as (m' & E & F). do 2 eexists. split; [exact E|]. split; [exact F|].
  destruct (b32_dec cfg src) as [x|] eqn:D.
  - split; [|reflexivity]. intros _. exists x. apply b32_dec_strict; [apply H|exact D].
  - split; [discriminate|]. intros (x & Hx). apply b32_dec_strict in Hx; [congruence|apply H].
Qed.
Lemma b32_check_iff t1 t2 s1 s2 cfg src m b o m2 d e dlen r1 m1' r2 m2' : b32_chk_isa s1 -> b32_isa s2 ->
  slice m b o src -> slice m2 b o src -> room m2 d e dlen -> separate b o (length src) d e dlen -> (b32_need cfg src <= dlen)%nat ->
  b32_check t1 s1 cfg (b, o) (length src) m = Ret r1 m1' ->
  b32_decode t2 s2 cfg (b, o) (length src) (d, e) dlen m2 = Ret r2 m2' ->
  (r1 = Ok tt <-> exists n, r2 = Ok ((d, e), n)) /\ (r1 = Err <-> r2 = Err).
Proof.
  intros H1 H2 S1 S2 R S L E1 E2.
  destruct (b32_check_ok t1 s1 cfg src H1 m b o S1) as (m' & E & _). rewrite E in E1. injection E1 as <- <-.
  destruct (b32_decode_ok t2 s2 cfg src H2 m2 b o d e dlen S2 R S L) as (r & m'' & E' & _ & P). rewrite E' in E2. injection E2 as <- <-.
  destruct (b32_dec cfg src) as [x|].
  - destruct P as [-> _]. split; split; eauto; discriminate.
  - subst r. split; split; auto; try discriminate. intros [n Hn]. discriminate Hn.
Qed.

(** ** Lengths *)
Lemma b32_encoded_length_ok bits cfg src : 16 <= bits -> bytes src -> Z.of_nat (length src) <= usize_max bits ->
  b32_encoded_length bits (Z.of_nat (length src)) cfg =
  if Z.of_nat (length src) <=? usize_max bits / 2 then Some (Z.of_nat (length (b32_rfc cfg src))) else None.
Proof.
  intros Hb B Hn. rewrite b32_rfc_len by exact B. unfold b32_encoded_length, b32_encoded_length_unchecked, usize_max in *.
  assert (P : 2 ^ 16 <= 2 ^ bits) by (apply Z.pow_le_mono_r; lia). change (2 ^ 16) with 65536 in P.
  destruct (Z.leb_spec (Z.of_nat (length src)) ((2 ^ bits - 1) / 2)) as [L|L]; [|reflexivity]. cbn zeta.
  set (B2 := 2 ^ bits) in *. clearbody B2. f_equal. set (n := length src) in *. clearbody n.
  assert (EM : Z.of_nat n mod 5 = Z.of_nat (n mod 5)) by lia. rewrite EM.
  rewrite (Z.mod_small (Z.of_nat n / 5 * 8)) by lia.
  pose proof (Nat.mod_upper_bound n 5 ltac:(lia)) as U. assert (ED : Z.of_nat n / 5 = Z.of_nat (n / 5)) by lia. rewrite ED.
  assert (BD : Z.of_nat (n / 5) * 8 + 8 < B2) by lia. clear EM ED L Hn.
  destruct (n mod 5)%nat as [|[|[|[|[|?]]]]]; [..|lia]; destruct (b32_padding cfg);
    (match goal with |- context [Z.to_nat (Z.of_nat ?k)] => let v := eval vm_compute in (Z.to_nat (Z.of_nat k)) in change (Z.to_nat (Z.of_nat k)) with v | _ => idtac end);
    cbn [nth Z.of_nat Z.eqb Pos.of_succ_nat Pos.succ Nat.eqb]; rewrite ?Z.mod_small by lia; lia.
Qed.
Lemma b32_decoded_length_ok m b o s cfg : slice m b o s ->
  exists r, b32_decoded_length (b, o) (length s) (b32_padding cfg) m = Ret r m /\
    (r = Err <-> match b32_unpad (b32_padding cfg) s with Some t => In (length t mod 8)%nat [1; 3; 6]%nat | None => True end) /\
    (forall n k, r = Ok (n, k) -> k = b32_need cfg s) /\
    (forall x, b32_dec cfg s = Some x -> exists n, r = Ok (n, length x)).
Proof.
  intros [B H].
  assert (W : wp (b32_decoded_length (b, o) (length s) (b32_padding cfg)) (fun r m' => r = dl_result32 cfg s /\ m' = m) m)
    by (apply (b32_decoded_length_wp m b o s cfg); auto).
  apply wp_inv in W as (r & m' & E & -> & ->). exists (dl_result32 cfg s). split; [exact E|]. split; [|split].
  - unfold dl_result32. destruct (b32_unpad _ s) as [t|]; [|tauto]. unfold b32_len_ok. cbn [In].
    destruct (length t mod 8)%nat as [|[|[|[|[|[|[|?]]]]]]]; split; try discriminate; try tauto; intros [X|[X|[X|[]]]]; discriminate.
  - unfold dl_result32, b32_need. destruct (b32_unpad _ s) as [t|]; [|discriminate]. destruct (b32_len_ok (length t)); [|discriminate].
    intros n k Ek. now assert (k = b32_dl (length t)) as -> by congruence.
  - intros x Hx. pose proof (b32_dec_facts cfg s x B Hx) as [Lx _]. unfold b32_dec, dl_result32, b32_need in *.
    destruct (b32_unpad _ s) as [t|]; [|discriminate Hx]. destruct (b32_len_ok (length t)) eqn:LO.
    + exists (length t). rewrite Lx. reflexivity.
    + now rewrite b32d_bad_len in Hx.
Qed.
Lemma b32_estimated_ok bits cfg s : 16 <= bits -> Z.of_nat (length s) <= usize_max bits ->
  b32_estimated_decoded_length bits (Z.of_nat (length s)) = Z.of_nat ((length s + 7) / 8 * 5) /\
  (b32_need cfg s <= (length s + 7) / 8 * 5)%nat.
Proof.
  intros Hb Hn. split.
  - unfold b32_estimated_decoded_length, usize_max in *.
    assert (P : 2 ^ 16 <= 2 ^ bits) by (apply Z.pow_le_mono_r; lia). change (2 ^ 16) with 65536 in P.
    set (B2 := 2 ^ bits) in *. clearbody B2. set (n := length s) in *. clearbody n.
    destruct (Z.eqb_spec (Z.of_nat n mod 8) 0).
    + rewrite Z.mod_small by lia. lia.
    + rewrite (Z.mod_small (Z.of_nat n / 8 + 1)) by lia. rewrite Z.mod_small by lia. lia.
  - unfold b32_need. destruct (b32_unpad _ s) as [t|] eqn:U; [|lia]. destruct (b32_len_ok (length t)); [|lia].
    destruct (unpad32_prefix _ _ _ U) as [j ->]. rewrite app_length. lia.
Qed.

(** ** Table *)
Lemma b32_table_inverse k c : byte c ->
  nth (Z.to_nat c) (b32_table k) 0 = match index_of c (b32_alphabet k) with Some v => v | None => 255 end.
Proof. intro H. apply Z.eqb_eq. destruct k; revert c H; apply byte_sweep; vm_compute; reflexivity. Qed.

(** ** [decoded_length] does not look at where the [=] are: it accepts texts that are no encoding of anything.
    Written for texts of 8 characters: any '=' count among the last six that leaves a possible length. *)
Lemma b32_decoded_length_lax cfg s m b o : b32_padding cfg = true -> slice m b o s -> length s = 8%nat ->
  In (count_eq (skipn 2 s)) [0; 1; 3; 4; 6]%nat ->
  exists n k, b32_decoded_length (b, o) (length s) (b32_padding cfg) m = Ret (Ok (n, k)) m.
Proof.
  intros P [B H] L C.
  assert (W : wp (b32_decoded_length (b, o) (length s) (b32_padding cfg)) (fun r m' => r = dl_result32 cfg s /\ m' = m) m)
    by (apply (b32_decoded_length_wp m b o s cfg); auto).
  apply wp_inv in W as (r & m' & E & -> & ->). rewrite E. unfold dl_result32, b32_unpad. rewrite P, L. change (8 mod 8 =? 0)%nat with true. change (8 - 6)%nat with 2%nat. cbn iota.
  rewrite firstn_length_le by lia. cbn [In] in C.
  destruct C as [<-|[<-|[<-|[<-|[<-|[]]]]]]; do 2 eexists; reflexivity.
Qed.
