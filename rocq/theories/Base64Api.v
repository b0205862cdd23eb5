(** Facts about the public functions of base64-simd, used by PropBase64.v. *)
From Coq Require Import ZArith List Bool Lia ZifyNat ZifyBool.
From Verif Require Import Bytes Mem MemFacts Loops Slices Codec Isa Simd SimdFacts Alsw Spec Ints
  Base64 Base64SimdFacts Base64Ref Base64Facts Base64DecFacts.
Import ListNotations.
Open Scope Z_scope.
Open Scope m_scope.
Ltac Zify.zify_post_hook ::= Z.div_mod_to_equations.

(** the instruction sets that base64 functions are compiled for, and the scalar code *)
Definition b64_isa (s : isa) : Prop := s = Fallback \/ swz s.
(** RFC 4648 encoding of a configuration *)
Definition b64_rfc (cfg : b64_config) (src : list Z) : list Z :=
  rfc_base64 (b64_alphabet (b64_kind_of cfg)) (b64_padding (b64_extra_of cfg)) src.
(** number of destination cells that decoding [s] needs: that of the whole bytes in the 6-bit groups left
    after removing padding; 0 if the length is impossible *)
Definition b64_need (cfg : b64_config) (s : list Z) : nat :=
  match b64_unpad (b64_extra_of cfg) s with
  | Some t => if (length t mod 4 =? 1)%nat then 0%nat else (6 * length t / 8)%nat
  | None => 0%nat
  end.

Lemma b64_dl_bits n : b64_dl n = (6 * n / 8)%nat.
Proof. unfold b64_dl. lia. Qed.

(** ** encode *)
Lemma b64_encode_ok s cfg src : b64_isa s -> encodes (b64_encode s cfg) src (b64_rfc cfg src).
Proof.
  intros Hs m b o d e dlen [B H] R S. unfold room, separate in *. destruct cfg as [k x]. unfold b64_rfc. cbn [b64_kind_of b64_extra_of].
  rewrite <- b64e_rfc by auto. assert (LE := b64e_len k x src). rewrite LE. intro L.
  assert (W : wp (b64_encode s {| b64_kind_of := k; b64_extra_of := x |} (b, o) (length src) (d, e) dlen) (fun r m' =>
     r = Ok ((d, e), b64_encoded_length_unchecked (length src) {| b64_kind_of := k; b64_extra_of := x |}) /\
     bytes_at m' d e (b64e k (b64_padding x) src) /\
     only_changed m d e (b64_encoded_length_unchecked (length src) {| b64_kind_of := k; b64_extra_of := x |}) m') m).
  { unfold b64_encode. cbn zeta. set (cap := b64_encoded_length_unchecked _ _) in *.
    destruct (Nat.leb_spec cap dlen) as [G|G]; [|lia]. cbn [negb].
    apply wp_bind. rewrite <- (pp_total b o src), <- (qq_nil d e) at 1.
    eapply wp_mono; [apply (b64_encode_impl_ok m b o src d e cap); auto; try lia; apply EI_init; auto; lia|].
    intros u m' T. apply wp_ret. unfold done in T. split; [|split].
    - reflexivity.
    - eapply TS_out; exact T.
    - eapply TS_frame; exact T. }
  apply wp_inv in W as (r & m' & E & -> & H1 & H2). eauto.
Qed.

Lemma b64_rfc_len cfg src : bytes src -> length (b64_rfc cfg src) = b64_encoded_length_unchecked (length src) cfg.
Proof. intro B. destruct cfg as [k x]. unfold b64_rfc. cbn [b64_kind_of b64_extra_of]. rewrite <- b64e_rfc by auto. apply b64e_len. Qed.

Lemma b64_encode_short s cfg src : rejects_short (b64_encode s cfg) src (length (b64_rfc cfg src)).
Proof.
  intros m b o d e dlen [B _] L. rewrite b64_rfc_len in L by auto. unfold b64_encode. cbn zeta.
  destruct (Nat.leb_spec (b64_encoded_length_unchecked (length src) cfg) dlen); [lia|reflexivity].
Qed.

Lemma b64_rfc_chars cfg src : bytes src -> Forall (fun c => 0 <= c < 128) (b64_rfc cfg src).
Proof.
  intro B. destruct cfg as [k x]. unfold b64_rfc. cbn [b64_kind_of b64_extra_of]. rewrite <- b64e_rfc by auto.
  assert (G : Forall (fun c => 0 <= c < 128) (b64e k false src)).
  { eapply Forall_impl; [|apply b64e_chars_ok; exact B]. cbn beta. intros a H. apply H. }
  destruct (b64_padding x); [|exact G]. rewrite b64e_pads. apply Forall_app. split; [exact G|].
  apply Forall_forall. intros c Hc. apply repeat_spec in Hc. lia.
Qed.
Lemma b64_rfc_bytes cfg src : bytes src -> bytes (b64_rfc cfg src).
Proof. intro B. eapply Forall_impl; [|apply b64_rfc_chars; exact B]. cbn beta. unfold byte. lia. Qed.
Lemma b64_ascii s cfg src t : b64_isa s -> bytes src -> encodes (b64_encode_as_str s cfg) src t -> Forall ascii_char t.
Proof.
  intros Hs B H. rewrite (encodes_det _ _ _ _ B H (b64_encode_ok s cfg src Hs)). eapply Forall_impl; [|now apply b64_rfc_chars].
  cbn beta. unfold ascii_char. lia.
Qed.

(** ** decoded_length *)
Lemma unpad_prefix s : exists j, s = whatwg_unpad s ++ repeat 61 j.
Proof. destruct (unpad_split s) as (j & _ & E & _). eauto. Qed.

Lemma count_pad_ok m b o s (Q : nat -> mem -> Prop) : bytes_at m b o s -> (length s <> 0)%nat -> (length s mod 4 = 0)%nat ->
  Q (length s - length (whatwg_unpad s))%nat m -> wp (b64_count_pad (b, o) (length s)) Q m.
Proof.
  intros H N L HQ. unfold b64_count_pad, psub_len.
  destruct (snoc_inv s) as [->|(r & c & ->)]; [now elim N|].
  destruct (snoc_inv r) as [->|(q & c' & ->)]; [now cbn in L|].
  assert (Ls : length ((q ++ [c']) ++ [c]) = (length q + 2)%nat) by (rewrite !app_length; cbn [length]; lia).
  assert (EU : whatwg_unpad ((q ++ [c']) ++ [c]) = if c =? 61 then if c' =? 61 then q else q ++ [c'] else (q ++ [c']) ++ [c]).
  { unfold whatwg_unpad. rewrite L. cbn [Nat.eqb]. cbn zeta. now rewrite ends_eq_snoc, drop_last_snoc, ends_eq_snoc, drop_last_snoc. }
  rewrite EU in HQ.
  destruct (Nat.leb_spec 1 (length ((q ++ [c']) ++ [c]))); [|lia]. apply wp_bind, wp_ret.
  apply wp_bind. eapply wp_read; [exact H|lia|].
  destruct (Nat.leb_spec 2 (length ((q ++ [c']) ++ [c]))); [|lia]. apply wp_bind, wp_ret.
  apply wp_bind. eapply wp_read; [exact H|lia|]. apply wp_ret.
  assert (N1 : nth (length ((q ++ [c']) ++ [c]) - 1) ((q ++ [c']) ++ [c]) 0 = c).
  { rewrite Ls. rewrite app_nth2; rewrite app_length; cbn [length]; [|lia]. now replace (length q + 2 - 1 - (length q + 1))%nat with 0%nat by lia. }
  assert (N2 : nth (length ((q ++ [c']) ++ [c]) - 2) ((q ++ [c']) ++ [c]) 0 = c').
  { rewrite Ls. rewrite app_nth1; [|rewrite app_length; cbn [length]; lia]. rewrite app_nth2 by lia.
    now replace (length q + 2 - 2 - length q)%nat with 0%nat by lia. }
  rewrite N1, N2.
  assert (L1 : length (q ++ [c']) = (length q + 1)%nat) by (rewrite app_length; reflexivity).
  destruct (c =? 61); [destruct (c' =? 61)|].
  - replace 2%nat with (length ((q ++ [c']) ++ [c]) - length q)%nat by lia. exact HQ.
  - replace 1%nat with (length ((q ++ [c']) ++ [c]) - length (q ++ [c']))%nat by lia. exact HQ.
  - replace 0%nat with (length ((q ++ [c']) ++ [c]) - length ((q ++ [c']) ++ [c]))%nat by lia. exact HQ.
Qed.

Definition dl_result (cfg : b64_config) (s : list Z) : result (nat * nat) :=
  match b64_unpad (b64_extra_of cfg) s with
  | Some t => if (length t mod 4 =? 1)%nat then Err else Ok (length t, b64_dl (length t))
  | None => Err
  end.
Lemma unpad_le s : (length (whatwg_unpad s) <= length s)%nat.
Proof. destruct (unpad_prefix s) as [j E]. rewrite E at 2. rewrite app_length. lia. Qed.
Lemma dl_match (n : nat) (Q : result (nat * nat) -> mem -> Prop) m :
  Q (if (n mod 4 =? 1)%nat then Err else Ok (n, b64_dl n)) m ->
  wp (match (n mod 4)%nat with
      | 0%nat => ret (Ok (n, n / 4 * 3))%nat
      | 1%nat => ret Err
      | 2%nat => ret (Ok (n, n / 4 * 3 + 1))%nat
      | 3%nat => ret (Ok (n, n / 4 * 3 + 2))%nat
      | _ => ub
      end) Q m.
Proof.
  unfold b64_dl. pose proof (Nat.mod_upper_bound n 4 ltac:(lia)) as U.
  destruct (n mod 4)%nat as [|[|[|[|?]]]]; [..|lia]; cbn [Nat.eqb Nat.sub]; intro HQ; apply wp_ret; try exact HQ.
  now rewrite Nat.add_0_r in HQ.
Qed.
Lemma decoded_length_wp m b o s cfg (Q : result (nat * nat) -> mem -> Prop) : bytes_at m b o s -> Q (dl_result cfg s) m ->
  wp (b64_decoded_length (b, o) (length s) cfg) Q m.
Proof.
  intros H HQ. unfold b64_decoded_length, dl_result in *. destruct cfg as [k e]. cbn [b64_extra_of] in *.
  destruct (Nat.eqb_spec (length s) 0) as [E0|N0].
  - apply length_zero_iff_nil in E0. subst s. apply wp_ret. destruct e; exact HQ.
  - apply wp_try. destruct e; cbn [b64_unpad] in HQ.
    + destruct (Nat.eqb_spec (length s mod 4) 0) as [E4|N4]; [|apply wp_ret; exact HQ].
      apply wp_bind. apply count_pad_ok; auto. apply wp_ret.
      pose proof (unpad_le s). replace (length s - (length s - length (whatwg_unpad s)))%nat with (length (whatwg_unpad s)) by lia.
      now apply dl_match.
    + apply wp_ret. now apply dl_match.
    + destruct (Nat.eqb_spec (length s mod 4) 0) as [E4|N4].
      * apply wp_bind. apply count_pad_ok; auto. apply wp_ret.
        pose proof (unpad_le s). replace (length s - (length s - length (whatwg_unpad s)))%nat with (length (whatwg_unpad s)) by lia.
        now apply dl_match.
      * apply wp_ret. unfold whatwg_unpad in HQ. destruct (Nat.eqb_spec (length s mod 4) 0); [easy|]. now apply dl_match.
Qed.

Lemma unpad_firstn e s t : b64_unpad e s = Some t -> exists j, s = t ++ repeat 61 j.
Proof.
  destruct e; cbn [b64_unpad]; intro H.
  - destruct (length s mod 4 =? 0)%nat; [|discriminate]. injection H as <-. apply unpad_prefix.
  - injection H as <-. exists 0%nat. cbn. now rewrite app_nil_r.
  - injection H as <-. apply unpad_prefix.
Qed.
Lemma slice_prefix m b o t u : slice m b o (t ++ u) -> slice m b o t.
Proof.
  intros [B H]. apply bytes_app in B as [B _]. split; [exact B|]. apply (bytes_at_firstn m b o _ (length t)) in H.
  now rewrite firstn_app_exact in H.
Qed.

(** ** decode *)
Lemma b64_impl_run en s k e m b o t d f : b64_isa s -> slice m b o t -> room m d f (b64_dl (length t)) ->
  (b <> d \/ o + length t <= f \/ f <= o)%nat -> (length t mod 4 <> 1)%nat ->
  wp (b64_decode_impl en s (b, o) (d, f) (length t) {| b64_kind_of := k; b64_extra_of := e |}) (fun r m' =>
    only_changed m d f (b64_dl (length t)) m' /\
    match b64d k (b64_forgiving e) t with
    | Some x => r = Ok tt /\ bytes_at m' d f x /\ length x = b64_dl (length t)
    | None => r = Err
    end) m.
Proof.
  intros Hs [B H] R S L. unfold room in *. rewrite <- (pp_total b o t), <- (qq_nil d f).
  eapply wp_mono; [apply (b64_decode_impl_ok m b o t d f (b64_dl (length t))); auto|].
  - now apply DI_init.
  - intros r m' (F & P). split; [exact F|]. destruct r as [[]|].
    + destruct P as (x & -> & Lx & T). split; [reflexivity|]. split; [eapply TS_out; exact T|exact Lx].
    + now rewrite P.
Qed.

Lemma b64_decode_run en s cfg m b o src d e dlen (inpl : bool) : b64_isa s ->
  slice m b o src -> room m d e (b64_need cfg src) ->
  (b <> d \/ o + length src <= e \/ e <= o)%nat -> (b64_need cfg src <= dlen)%nat ->
  wp (try_ (b64_decoded_length (b, o) (length src) cfg) (fun nm =>
      if negb inpl && negb (snd nm <=? dlen)%nat then ret Err else
      try_ (b64_decode_impl en s (b, o) (d, e) (fst nm) cfg) (fun _ => ret (Ok ((d, e), snd nm)))))
   (decoded (b64_dec cfg src) m d e (b64_need cfg src)) m.
Proof.
  intros Hs H R S L. apply wp_try. apply (decoded_length_wp m b o src cfg); [apply H|].
  unfold dl_result, b64_need, b64_dec in *. destruct (b64_unpad (b64_extra_of cfg) src) as [t|] eqn:U.
  2:{ split; [apply Frame_refl|reflexivity]. }
  destruct (Nat.eqb_spec (length t mod 4) 1) as [E1|N1].
  { split; [apply Frame_refl|]. now rewrite b64d_mod1. }
  rewrite <- b64_dl_bits in *. cbn [fst snd].
  destruct (unpad_firstn _ _ _ U) as [j Ej]. assert (Hl : (length t <= length src)%nat) by (rewrite Ej, app_length; lia).
  assert (Ht : slice m b o t) by (rewrite Ej in H; now apply slice_prefix in H).
  destruct (Nat.leb_spec (b64_dl (length t)) dlen) as [G|G]; [|lia]. rewrite andb_false_r.
  apply wp_try. destruct cfg as [k x]. cbn [b64_kind_of b64_extra_of] in *.
  eapply wp_mono; [apply b64_impl_run; auto; lia|].
  intros r m' (F & P). unfold decoded. destruct (b64d k (b64_forgiving x) t) as [y|].
  - destruct P as (-> & A & Ly). apply wp_ret. split; [exact F|]. rewrite Ly. auto.
  - subst r. split; [exact F|reflexivity].
Qed.

Lemma b64_decode_ok en s cfg src : b64_isa s -> decodes (b64_decode en s cfg) src (b64_need cfg src) (b64_dec cfg src).
Proof.
  intros Hs m b o d e dlen H R S L.
  assert (W : wp (b64_decode en s cfg (b, o) (length src) (d, e) dlen) (decoded (b64_dec cfg src) m d e (b64_need cfg src)) m).
  { apply (b64_decode_run en s cfg m b o src d e dlen false Hs H); auto; unfold room, separate in *; lia. }
  apply wp_inv in W as (r & m' & E & P). eauto.
Qed.
Lemma b64_need_le cfg src : (b64_need cfg src <= length src)%nat.
Proof.
  unfold b64_need. destruct (b64_unpad _ src) as [t|] eqn:U; [|lia]. destruct (length t mod 4 =? 1)%nat; [lia|].
  destruct (unpad_firstn _ _ _ U) as [j ->]. rewrite app_length. lia.
Qed.
Lemma b64_decode_inplace_ok en s cfg data : b64_isa s ->
  decodes_inplace (b64_decode_inplace en s cfg) data (b64_need cfg data) (b64_dec cfg data).
Proof.
  intros Hs m b o H.
  assert (W : wp (b64_decode_inplace en s cfg (b, o) (length data)) (decoded (b64_dec cfg data) m b o (b64_need cfg data)) m).
  { pose proof (b64_need_le cfg data).
    apply (b64_decode_run en s cfg m b o data b o (b64_need cfg data) true Hs H); auto; unfold room; destruct H as [_ [H _]]; lia. }
  apply wp_inv in W as (r & m' & E & P). eauto.
Qed.
Lemma b64_decode_short en s cfg src : rejects_short (b64_decode en s cfg) src (b64_need cfg src).
Proof.
  intros m b o d e dlen [B H] L.
  assert (W : wp (b64_decode en s cfg (b, o) (length src) (d, e) dlen) (fun r m' => r = Err /\ m' = m) m).
  { unfold b64_decode. apply wp_try. apply (decoded_length_wp m b o src cfg); [exact H|].
    unfold dl_result, b64_need in *. destruct (b64_unpad (b64_extra_of cfg) src) as [t|]; [|lia].
    destruct (length t mod 4 =? 1)%nat; [lia|]. rewrite <- b64_dl_bits in L. cbn [fst snd].
    destruct (Nat.leb_spec (b64_dl (length t)) dlen) as [G|G]; [lia|]. cbn [negb]. now apply wp_ret. }
  apply wp_inv in W as (r & m' & E & -> & ->). exact E.
Qed.

(** ** check *)
Lemma b64_check_ok en s cfg src : b64_isa s ->
  checks (b64_check en s cfg) src (match b64_dec cfg src with Some _ => true | None => false end).
Proof.
  intros Hs m b o [B H].
  assert (W : wp (b64_check en s cfg (b, o) (length src)) (fun r m' =>
    r = (if match b64_dec cfg src with Some _ => true | None => false end then Ok tt else Err) /\ same_mem m m') m).
  { unfold b64_check. apply wp_try. apply (decoded_length_wp m b o src cfg); [exact H|].
    unfold dl_result, b64_dec. destruct (b64_unpad (b64_extra_of cfg) src) as [t|] eqn:U.
    2:{ split; [reflexivity|]. intro. reflexivity. }
    destruct (Nat.eqb_spec (length t mod 4) 1) as [E1|N1].
    { rewrite b64d_mod1 by exact E1. split; [reflexivity|]. intro. reflexivity. }
    destruct (unpad_firstn _ _ _ U) as [j Ej].
    assert (Ht : slice m b o t) by (apply (slice_prefix m b o t (repeat 61 j)); rewrite <- Ej; now split).
    destruct Ht as [Bt Ht]. destruct cfg as [k e]. cbn [b64_kind_of b64_extra_of fst].
    rewrite <- (pp_total b o t). eapply wp_mono; [apply (b64_check_impl_ok m b o t k e en); auto; now apply CI_init|].
    intros r m' [F ->]. split; [|exact F]. unfold V, isSome. reflexivity. }
  apply wp_inv in W as (r & m' & E & -> & F). eauto.
Qed.

(** ** Consequences *)
Lemma b64_dec_facts cfg s x : bytes s -> b64_dec cfg s = Some x -> length x = b64_need cfg s /\ bytes x.
Proof.
  intros B. unfold b64_dec, b64_need. destruct (b64_unpad (b64_extra_of cfg) s) as [t|] eqn:U; [|discriminate]. intro H.
  destruct (unpad_firstn _ _ _ U) as [j Ej]. assert (Bt : bytes t) by (rewrite Ej in B; now apply bytes_app in B).
  destruct (Nat.eqb_spec (length t mod 4) 1) as [E1|N1]; [rewrite b64d_mod1 in H by auto; discriminate|].
  split; [rewrite <- b64_dl_bits; eapply b64d_len; exact H|].
  clear - H Bt. revert x H. induction t as [|a|a b|a b c|a b c e t IH] using list_ind4; intros x H; inv_bytes.
  - injection H as <-. constructor.
  - discriminate H.
  - cbn [b64d b64d_tail] in H. destruct (b64_bad _ a) eqn:Ga, (b64_bad _ b) eqn:Gb; try discriminate H. cbn [orb] in H.
    destruct (_ || _); [|discriminate H]. assert (E : x = [4 * dv (b64_kind_of cfg) a + dv (b64_kind_of cfg) b / 16]) by congruence.
    pose proof (dv_six (b64_kind_of cfg) a ltac:(auto) Ga). pose proof (dv_six (b64_kind_of cfg) b ltac:(auto) Gb).
    rewrite E. constructor; [|constructor]. unfold byte, six in *. lia.
  - cbn [b64d b64d_tail] in H. destruct (b64_bad _ a) eqn:Ga, (b64_bad _ b) eqn:Gb, (b64_bad _ c) eqn:Gc; try discriminate H. cbn [orb] in H.
    destruct (_ || _); [|discriminate H]. assert (E : x = [4 * dv (b64_kind_of cfg) a + dv (b64_kind_of cfg) b / 16; dv (b64_kind_of cfg) b mod 16 * 16 + dv (b64_kind_of cfg) c / 4]) by congruence.
    pose proof (dv_six (b64_kind_of cfg) a ltac:(auto) Ga). pose proof (dv_six (b64_kind_of cfg) b ltac:(auto) Gb). pose proof (dv_six (b64_kind_of cfg) c ltac:(auto) Gc).
    rewrite E. constructor; [|constructor; [|constructor]]; unfold byte, six in *; lia.
  - rewrite b64d_4 in H. destruct (_ || _ || _ || _) eqn:G; [discriminate H|].
    apply orb_false_iff in G as [G Ge]. apply orb_false_iff in G as [G Gc]. apply orb_false_iff in G as [Ga Gb].
    destruct (b64d (b64_kind_of cfg) (b64_forgiving (b64_extra_of cfg)) t) as [y|] eqn:Ey; [|discriminate H].
    cbn [oapp] in H. assert (E : x = trip (dv (b64_kind_of cfg) a) (dv (b64_kind_of cfg) b) (dv (b64_kind_of cfg) c) (dv (b64_kind_of cfg) e) ++ y) by congruence.
    pose proof (dv_six (b64_kind_of cfg) a ltac:(auto) Ga). pose proof (dv_six (b64_kind_of cfg) b ltac:(auto) Gb). pose proof (dv_six (b64_kind_of cfg) c ltac:(auto) Gc). pose proof (dv_six (b64_kind_of cfg) e ltac:(auto) Ge).
    rewrite E. apply Forall_app. split; [|now apply IH]. unfold trip. repeat constructor; unfold six in *; lia.
Qed.

Lemma b64_exact en s cfg src : b64_isa s -> b64_extra_of cfg <> Forgiving ->
  decode_exact (b64_decode en s cfg) src (b64_need cfg src) (fun x => bytes x /\ b64_rfc cfg x = src).
Proof.
  intros Hs St. apply (exact_decode _ _ _ (b64_dec cfg src)); [now apply b64_decode_ok|].
  intros B x. now apply b64_dec_strict.
Qed.
Lemma b64_exactly en s cfg src : b64_isa s -> b64_extra_of cfg <> Forgiving ->
  decodes_exactly (b64_decode en s cfg) src (fun x => bytes x /\ b64_rfc cfg x = src).
Proof.
  intros Hs St. apply (exactly_decodes _ _ (b64_need cfg src) (b64_dec cfg src)); [now apply b64_decode_ok|apply b64_decode_short| |].
  - intros B x. now apply b64_dec_strict.
  - intros B x Hx. now apply b64_dec_facts.
Qed.
Lemma b64_inplace_exact en s cfg data : b64_isa s -> b64_extra_of cfg <> Forgiving ->
  inplace_exactly (b64_decode_inplace en s cfg) data (fun x => bytes x /\ b64_rfc cfg x = data).
Proof.
  intros Hs St. apply (exactly_inplace _ _ (b64_need cfg data) (b64_dec cfg data)); [now apply b64_decode_inplace_ok| |apply b64_need_le|].
  - intros B x. now apply b64_dec_strict.
  - intros B x Hx. now apply b64_dec_facts.
Qed.
Lemma b64_check_exact en s cfg src m b o : b64_isa s -> b64_extra_of cfg <> Forgiving -> slice m b o src ->
  exists r m', b64_check en s cfg (b, o) (length src) m = Ret r m' /\ same_mem m m' /\
    (r = Ok tt <-> exists x, bytes x /\ b64_rfc cfg x = src).
Proof.
  intros Hs St H. destruct (b64_check_ok en s cfg src Hs m b o H) as (m' & E & F). do 2 eexists. split; [exact E|]. split; [exact F|].
  destruct (b64_dec cfg src) as [x|] eqn:D.
  - split; [|reflexivity]. intros _. exists x. apply b64_dec_strict; [apply H|exact St|exact D].
  - split; [discriminate|]. intros (x & Hx). apply b64_dec_strict in Hx; [congruence|apply H|exact St].
Qed.
Lemma b64_dec_rfc cfg src : bytes src -> b64_extra_of cfg <> Forgiving -> b64_dec cfg (b64_rfc cfg src) = Some src.
Proof. intros B St. apply b64_dec_strict; [now apply b64_rfc_bytes|exact St|]. now split. Qed.

(** the forgiving configuration decodes the padded and unpadded encodings too *)
Lemma forgiving_of_strict k s x : b64d k false s = Some x -> b64d k true s = Some x.
Proof.
  revert x. induction s as [|a|a b|a b c|a b c e t IH] using list_ind4; intros x H; auto.
  - cbn [b64d b64d_tail orb] in *. destruct (b64_bad k a || b64_bad k b); [discriminate H|]. now destruct (_ =? 0).
  - cbn [b64d b64d_tail orb] in *. destruct (b64_bad k a || b64_bad k b || b64_bad k c); [discriminate H|]. now destruct (_ =? 0).
  - rewrite b64d_4 in *. destruct (_ || _ || _ || _); [discriminate H|].
    destruct (b64d k false t) as [y|] eqn:Ey; [|discriminate H]. now rewrite (IH y).
Qed.
Lemma b64_dec_forgiving_rfc k pad src : bytes src ->
  b64_dec {| b64_kind_of := k; b64_extra_of := Forgiving |} (rfc_base64 (b64_alphabet k) pad src) = Some src.
Proof.
  intro B. unfold b64_dec. cbn [b64_kind_of b64_extra_of b64_unpad b64_forgiving]. destruct pad.
  - assert (H := b64_dec_rfc {| b64_kind_of := k; b64_extra_of := Pad |} src B ltac:(discriminate)).
    unfold b64_dec, b64_rfc in H. cbn [b64_kind_of b64_extra_of b64_unpad b64_forgiving b64_padding] in H.
    destruct (_ =? 0)%nat in H; [|discriminate H]. now apply forgiving_of_strict.
  - assert (H := b64_dec_rfc {| b64_kind_of := k; b64_extra_of := NoPad |} src B ltac:(discriminate)).
    unfold b64_dec, b64_rfc in H. cbn [b64_kind_of b64_extra_of b64_unpad b64_forgiving b64_padding] in H.
    apply forgiving_of_strict. rewrite <- b64e_rfc in * by auto. rewrite <- (app_nil_r (b64e k false src)) at 1. change [] with (repeat 61 0).
    destruct (Nat.eqb_spec (length (b64e k false src) mod 4) 0) as [E|N].
    + rewrite unpad_pads; [exact H| |now rewrite Nat.add_0_r|lia].
      intros c Hc. pose proof (b64e_chars_ok k src B) as F. rewrite Forall_forall in F. now apply F.
    + cbn [repeat]. rewrite app_nil_r. unfold whatwg_unpad. destruct (Nat.eqb_spec (length (b64e k false src) mod 4) 0); easy.
Qed.
Lemma b64_need_rfc cfg src : bytes src -> b64_extra_of cfg <> Forgiving -> b64_need cfg (b64_rfc cfg src) = length src.
Proof.
  intros B St. symmetry. eapply b64_dec_facts; [apply b64_rfc_bytes; exact B|]. now apply b64_dec_rfc.
Qed.
Lemma b64_roundtrip en s1 s2 cfg src : b64_isa s1 -> b64_isa s2 -> b64_extra_of cfg <> Forgiving -> bytes src ->
  roundtrips (b64_encode s1 cfg) (b64_decode en s2 cfg) src (length (b64_rfc cfg src)).
Proof.
  intros H1 H2 St B. apply roundtrip; [now apply b64_encode_ok| |apply b64_rfc_bytes].
  rewrite <- (b64_need_rfc cfg src) at 1 by auto. rewrite <- (b64_dec_rfc cfg src) by auto. now apply b64_decode_ok.
Qed.

Lemma b64_enc_safe s cfg src : b64_isa s -> bytes src -> mem_safe (b64_encode s cfg) src (length (b64_rfc cfg src)).
Proof. intros Hs B. apply enc_safe; [now apply b64_encode_ok|apply b64_encode_short|now apply b64_rfc_bytes]. Qed.
Lemma b64_dec_safe en s cfg src : b64_isa s -> mem_safe (b64_decode en s cfg) src (b64_need cfg src).
Proof.
  intros Hs. eapply dec_safe; [now apply b64_decode_ok|apply b64_decode_short|].
  intros x Hx B. now apply b64_dec_facts.
Qed.
Lemma b64_decode_agree en1 en2 s1 s2 cfg src : b64_isa s1 -> b64_isa s2 ->
  agree (b64_decode en1 s1 cfg) (b64_decode en2 s2 cfg) src.
Proof. intros H1 H2. eapply dec_agree; eauto using b64_decode_ok, b64_decode_short. Qed.
Lemma b64_encode_agree s1 s2 cfg src : b64_isa s1 -> b64_isa s2 -> agree (b64_encode s1 cfg) (b64_encode s2 cfg) src.
Proof. intros H1 H2. eapply enc_agree; eauto using b64_encode_ok, b64_encode_short. Qed.

Lemma b64_rfc_app cfg a b : bytes a -> bytes b -> (length a mod 3 = 0)%nat -> b64_rfc cfg (a ++ b) = b64_rfc cfg a ++ b64_rfc cfg b.
Proof.
  intros Ba Bb L. unfold b64_rfc. rewrite <- !b64e_rfc; auto; [now apply b64e_app|]. apply bytes_app. now split.
Qed.
Lemma b64_rfc_inj cfg a b : bytes a -> bytes b -> b64_rfc cfg a = b64_rfc cfg b -> a = b.
Proof.
  intros Ba Bb H. destruct cfg as [k e]. unfold b64_rfc in H. cbn [b64_kind_of b64_extra_of] in H.
  assert (Ea := b64_dec_forgiving_rfc k (b64_padding e) a Ba). rewrite H, b64_dec_forgiving_rfc in Ea by auto. congruence.
Qed.
Lemma b64_compositional s1 s2 s3 cfg a b x y : b64_isa s1 -> b64_isa s2 -> b64_isa s3 -> bytes a -> bytes b -> (length a mod 3 = 0)%nat ->
  encodes (b64_encode s1 cfg) a x -> encodes (b64_encode s2 cfg) b y -> encodes (b64_encode s3 cfg) (a ++ b) (x ++ y).
Proof.
  intros I1 I2 I3 Ba Bb L H1 H2.
  rewrite (encodes_det _ _ _ _ Ba H1 (b64_encode_ok s1 cfg a I1)), (encodes_det _ _ _ _ Bb H2 (b64_encode_ok s2 cfg b I2)).
  rewrite <- b64_rfc_app by auto. now apply b64_encode_ok.
Qed.
Lemma b64_injective s1 s2 cfg a b t : b64_isa s1 -> b64_isa s2 -> bytes a -> bytes b ->
  encodes (b64_encode s1 cfg) a t -> encodes (b64_encode s2 cfg) b t -> a = b.
Proof.
  intros I1 I2 Ba Bb H1 H2. apply (b64_rfc_inj cfg); auto.
  now rewrite <- (encodes_det _ _ _ _ Ba H1 (b64_encode_ok s1 cfg a I1)), <- (encodes_det _ _ _ _ Bb H2 (b64_encode_ok s2 cfg b I2)).
Qed.

(** check and decode agree, as programs *)
Lemma b64_check_iff en1 en2 s1 s2 cfg src m b o m2 d e dlen r1 m1' r2 m2' : b64_isa s1 -> b64_isa s2 ->
  slice m b o src -> slice m2 b o src -> room m2 d e dlen -> separate b o (length src) d e dlen -> (b64_need cfg src <= dlen)%nat ->
  b64_check en1 s1 cfg (b, o) (length src) m = Ret r1 m1' ->
  b64_decode en2 s2 cfg (b, o) (length src) (d, e) dlen m2 = Ret r2 m2' ->
  (r1 = Ok tt <-> exists n, r2 = Ok ((d, e), n)) /\ (r1 = Err <-> r2 = Err).
Proof.
  intros H1 H2 S1 S2 R S L E1 E2.
  destruct (b64_check_ok en1 s1 cfg src H1 m b o S1) as (m' & E & _). rewrite E in E1. injection E1 as <- <-.
  destruct (b64_decode_ok en2 s2 cfg src H2 m2 b o d e dlen S2 R S L) as (r & m'' & E' & _ & P). rewrite E' in E2. injection E2 as <- <-.
  destruct (b64_dec cfg src) as [x|].
  - destruct P as [-> _]. split; split; eauto; discriminate.
  - subst r. split; split; auto; try discriminate. intros [n Hn]. discriminate Hn.
Qed.

(** ** Lengths *)
Lemma b64_encoded_length_ok bits cfg src : 16 <= bits -> bytes src -> Z.of_nat (length src) <= usize_max bits ->
  b64_encoded_length bits (Z.of_nat (length src)) cfg =
  if Z.of_nat (length src) <=? usize_max bits / 2 then Some (Z.of_nat (length (b64_rfc cfg src))) else None.
Proof.
  intros Hb B Hn. rewrite b64_rfc_len by exact B. unfold b64_encoded_length, b64_encoded_length_unchecked, usize_max in *.
  assert (P : 2 ^ 16 <= 2 ^ bits) by (apply Z.pow_le_mono_r; lia). change (2 ^ 16) with 65536 in P.
  destruct (Z.leb_spec (Z.of_nat (length src)) ((2 ^ bits - 1) / 2)) as [L|L]; [|reflexivity]. cbn zeta.
  set (B2 := 2 ^ bits) in *. clearbody B2. f_equal. set (n := length src) in *. clearbody n.
  destruct (Z.eqb_spec (Z.of_nat n mod 3) 0); destruct (Nat.eqb_spec (n mod 3) 0); try lia.
  - rewrite Z.mod_small by lia. lia.
  - rewrite (Z.mod_small (Z.of_nat n / 3 * 4)) by lia. destruct (b64_padding _).
    + rewrite Z.mod_small by lia. lia.
    + rewrite (Z.mod_small (_ + Z.of_nat n mod 3)) by lia. rewrite Z.mod_small by lia. lia.
Qed.
Lemma b64_decoded_length_ok m b o s cfg : slice m b o s ->
  exists r, b64_decoded_length (b, o) (length s) cfg m = Ret r m /\
    (r = Err <-> match b64_unpad (b64_extra_of cfg) s with Some t => (length t mod 4 = 1)%nat | None => True end) /\
    (forall n k, r = Ok (n, k) -> k = b64_need cfg s) /\
    (forall x, b64_dec cfg s = Some x -> exists n, r = Ok (n, length x)).
Proof.
  intros [B H].
  assert (W : wp (b64_decoded_length (b, o) (length s) cfg) (fun r m' => r = dl_result cfg s /\ m' = m) m)
    by (apply (decoded_length_wp m b o s cfg); auto).
  apply wp_inv in W as (r & m' & E & -> & ->). exists (dl_result cfg s). split; [exact E|]. split; [|split].
  - unfold dl_result. destruct (b64_unpad _ s) as [t|]; [|tauto]. destruct (Nat.eqb_spec (length t mod 4) 1); split; auto; try discriminate. contradiction.
  - unfold dl_result, b64_need. destruct (b64_unpad _ s) as [t|]; [|discriminate]. destruct (length t mod 4 =? 1)%nat; [discriminate|].
    intros n k Ek. assert (k = b64_dl (length t)) as -> by congruence. apply b64_dl_bits.
  - intros x Hx. pose proof (b64_dec_facts cfg s x B Hx) as [Lx _]. unfold b64_dec, dl_result, b64_need in *.
    destruct (b64_unpad _ s) as [t|]; [|discriminate Hx]. destruct (Nat.eqb_spec (length t mod 4) 1) as [E1|].
    + now rewrite b64d_mod1 in Hx.
    + exists (length t). rewrite Lx, b64_dl_bits. reflexivity.
Qed.
Lemma b64_estimated_ok bits cfg s : 16 <= bits -> Z.of_nat (length s) <= usize_max bits ->
  b64_estimated_decoded_length bits (Z.of_nat (length s)) = Z.of_nat ((length s + 3) / 4 * 3) /\
  (b64_need cfg s <= (length s + 3) / 4 * 3)%nat.
Proof.
  intros Hb Hn. split.
  - unfold b64_estimated_decoded_length, usize_max in *.
    assert (P : 2 ^ 16 <= 2 ^ bits) by (apply Z.pow_le_mono_r; lia). change (2 ^ 16) with 65536 in P.
    set (B2 := 2 ^ bits) in *. clearbody B2. set (n := length s) in *. clearbody n.
    destruct (Z.eqb_spec (Z.of_nat n mod 4) 0).
    + rewrite (Z.mod_small (Z.of_nat n / 4 + 0)) by lia. rewrite Z.mod_small by lia. lia.
    + rewrite (Z.mod_small (Z.of_nat n / 4 + 1)) by lia. rewrite Z.mod_small by lia. lia.
  - unfold b64_need. destruct (b64_unpad _ s) as [t|] eqn:U; [|lia]. destruct (length t mod 4 =? 1)%nat; [lia|].
    destruct (unpad_firstn _ _ _ U) as [j ->]. rewrite app_length. lia.
Qed.

(** ** Tables and alphabets *)
Lemma b64_table_inverse k c : byte c ->
  nth (Z.to_nat c) (b64_table k) 0 = match index_of c (b64_alphabet k) with Some v => v | None => 255 end.
Proof. intro H. apply Z.eqb_eq. destruct k; revert c H; apply byte_sweep; vm_compute; reflexivity. Qed.

(** '+' to '-', '/' to '_' *)
Definition to_url (c : Z) : Z := if c =? 43 then 45 else if c =? 47 then 95 else c.
Lemma b64_url_chars v : six v -> nth (Z.to_nat v) (b64_alphabet UrlSafe) 0 = to_url (nth (Z.to_nat v) (b64_alphabet Standard) 0).
Proof. intro H. apply Z.eqb_eq. revert v H. apply (sweep1 64). vm_compute. reflexivity. Qed.
Lemma dv_url c : byte c -> c <> 45 -> c <> 95 -> dv UrlSafe (to_url c) = dv Standard c.
Proof.
  intros H N1 N2. assert (G : (c =? 45) || (c =? 95) || (dv UrlSafe (to_url c) =? dv Standard c) = true)
    by (clear N1 N2; revert c H; apply byte_sweep; vm_compute; reflexivity). lia.
Qed.
Lemma url_alphabet : base64_url = map to_url base64_std.
Proof. reflexivity. Qed.
Lemma b64_rfc_url pad src : rfc_base64 base64_url pad src = map to_url (rfc_base64 base64_std pad src).
Proof.
  unfold rfc_base64, rfc_encode. cbn zeta. rewrite map_app. f_equal.
  - unfold rfc_chars. rewrite map_map. apply map_ext. intro v. rewrite url_alphabet. now rewrite <- (map_nth to_url).
  - unfold rfc_chars. rewrite !map_length. destruct pad; [|reflexivity].
    generalize (rfc_pad_len 4 (length (rfc_values 6 src))). intro n. induction n; [reflexivity|]. cbn [repeat map]. now rewrite <- IHn.
Qed.
Lemma b64d_map k k' fg f s : Forall (fun c => dv k' (f c) = dv k c) s -> b64d k' fg (map f s) = b64d k fg s.
Proof.
  induction s as [|a|a b|a b c|a b c e t IH] using list_ind4; intro H;
    repeat match goal with H : Forall _ (_ :: _) |- _ => inversion H; clear H; subst end.
  - reflexivity.
  - reflexivity.
  - cbn [map b64d b64d_tail]. unfold b64_bad. fold (dv k' (f a)) (dv k' (f b)) (dv k a) (dv k b).
    repeat match goal with H : dv k' _ = _ |- _ => rewrite !H; clear H end. reflexivity.
  - cbn [map b64d b64d_tail]. unfold b64_bad. fold (dv k' (f a)) (dv k' (f b)) (dv k' (f c)) (dv k a) (dv k b) (dv k c).
    repeat match goal with H : dv k' _ = _ |- _ => rewrite !H; clear H end. reflexivity.
  - cbn [map]. rewrite !b64d_4. unfold b64_bad. fold (dv k' (f a)) (dv k' (f b)) (dv k' (f c)) (dv k' (f e)) (dv k a) (dv k b) (dv k c) (dv k e).
    repeat match goal with H : dv k' _ = _ |- _ => rewrite !H; clear H end. now rewrite IH.
Qed.
Lemma unpad_map f s : Forall (fun c => (f c =? 61) = (c =? 61)) s -> whatwg_unpad (map f s) = map f (whatwg_unpad s).
Proof.
  intro H. unfold whatwg_unpad. rewrite map_length. destruct (length s mod 4 =? 0)%nat; [|reflexivity].
  destruct (snoc_inv s) as [->|(r & c & ->)]; [reflexivity|]. apply Forall_app in H as [Hr Hc]. inversion Hc as [|? ? Ec _]; subst.
  rewrite map_app. cbn [map]. rewrite !ends_eq_snoc, !drop_last_snoc, Ec. cbn zeta.
  destruct (c =? 61); [|now rewrite map_app].
  destruct (snoc_inv r) as [->|(q & c' & ->)]; [reflexivity|]. apply Forall_app in Hr as [_ Hc']. inversion Hc' as [|? ? Ec' _]; subst.
  rewrite map_app. cbn [map]. rewrite !ends_eq_snoc, !drop_last_snoc, Ec'. destruct (c' =? 61); [reflexivity|now rewrite map_app].
Qed.
Lemma b64_dec_url e s : bytes s -> ~ In 45 s -> ~ In 95 s ->
  b64_dec {| b64_kind_of := UrlSafe; b64_extra_of := e |} (map to_url s) = b64_dec {| b64_kind_of := Standard; b64_extra_of := e |} s.
Proof.
  intros B N1 N2. unfold b64_dec. cbn [b64_kind_of b64_extra_of].
  assert (G : forall t, (forall c, In c t -> In c s) -> Forall (fun c => dv UrlSafe (to_url c) = dv Standard c) t).
  { intros t Ht. apply Forall_forall. intros c Hc. apply Ht in Hc. apply dv_url.
    - unfold bytes in B. rewrite Forall_forall in B. auto.
    - intros ->. auto.
    - intros ->. auto. }
  assert (P : Forall (fun c => (to_url c =? 61) = (c =? 61)) s).
  { apply Forall_forall. intros c Hc. unfold to_url. destruct (Z.eqb_spec c 43); [subst; reflexivity|]. destruct (Z.eqb_spec c 47); [subst|]; reflexivity. }
  assert (I : forall c, In c (whatwg_unpad s) -> In c s).
  { intros c Hc. destruct (unpad_prefix s) as [j E]. rewrite E. apply in_or_app. now left. }
  destruct e; cbn [b64_unpad]; rewrite ?map_length, ?unpad_map by exact P.
  - destruct (length s mod 4 =? 0)%nat; [|reflexivity]. apply b64d_map, G, I.
  - apply b64d_map, G. auto.
  - apply b64d_map, G, I.
Qed.
Lemma b64d_bad k fg t c : In c t -> b64_bad k c = true -> b64d k fg t = None.
Proof.
  intros I Hc. induction t as [|a|a b|a b d|a b d e t IH] using list_ind4; cbn [In] in I.
  - easy.
  - reflexivity.
  - destruct I as [->|[->|[]]]; cbn [b64d b64d_tail]; rewrite Hc, ?orb_true_r; reflexivity.
  - destruct I as [->|[->|[->|[]]]]; cbn [b64d b64d_tail]; rewrite Hc, ?orb_true_r; reflexivity.
  - rewrite b64d_4. destruct I as [->|[->|[->|[->|I]]]]; rewrite ?Hc, ?orb_true_r; try reflexivity.
    rewrite (IH I). now destruct (_ || _).
Qed.
(** characters of the other alphabet are rejected *)
Lemma b64_dec_foreign cfg s c : In c s -> byte c -> c <> 61 -> index_of c (b64_alphabet (b64_kind_of cfg)) = None -> b64_dec cfg s = None.
Proof.
  intros I Bc N Hc. rewrite dv_index in Hc by exact Bc. destruct (b64_bad (b64_kind_of cfg) c) eqn:G; [|discriminate Hc].
  unfold b64_dec. destruct (b64_unpad (b64_extra_of cfg) s) as [t|] eqn:U; [|reflexivity].
  destruct (unpad_firstn _ _ _ U) as [j Ej]. apply (b64d_bad _ _ _ c); [|exact G].
  rewrite Ej in I. apply in_app_or in I as [I|I]; [exact I|]. apply repeat_spec in I. contradiction.
Qed.
