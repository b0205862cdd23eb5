(** The borrows of base64-simd, without whitespace *)
From Coq Require Import ZArith List Bool Lia ZifyBool ZifyNat.
From Verif Require Import Bytes Mem MemFacts Slices Codec Conc ConcFacts Reify ConcApi ConcApiFacts Isa Simd Ints Base64 Base64Ref Base64Api
  Borrows BorrowsApi BorrowsFacts BorrowsLib BorrowsCalls BorrowsBridge.
Import ListNotations.
Ltac Zify.zify_post_hook ::= Z.div_mod_to_equations.
Open Scope nat_scope. Open Scope m_scope. Open Scope borrow_scope.

Lemma b64_decoded_length_le cfg p n m y m' : b64_decoded_length p n cfg m = Ret (Ok y) m' -> fst y <= n /\ snd y <= n.
Proof.
  unfold b64_decoded_length. destruct (n =? 0). { intro E. injection E as <- _. cbn. lia. }
  assert (G : forall a, a <= n -> (match a mod 4 with
      | 0 => ret (Ok (a, a / 4 * 3)) | 1 => ret Err | 2 => ret (Ok (a, a / 4 * 3 + 1)) | 3 => ret (Ok (a, a / 4 * 3 + 2)) | _ => ub end) m = Ret (Ok y) m' ->
      fst y <= n /\ snd y <= n).
  { intros a L. assert (D : a = 4 * (a / 4) + a mod 4) by (apply Nat.div_mod; lia). revert D. generalize (a / 4) (a mod 4). intros d e D.
    destruct e as [|[|[|[|]]]]; intro E; try discriminate E; injection E as <- _; cbn [fst snd]; lia. }
  assert (K : forall (c : M (result nat)) (h : nat -> M (result (nat * nat))), (forall r m1, c m = Ret (Ok r) m1 -> r <= n /\ m1 = m) ->
     (forall a, a <= n -> h a m = Ret (Ok y) m' -> fst y <= n /\ snd y <= n) -> try_ c h m = Ret (Ok y) m' -> fst y <= n /\ snd y <= n).
  { intros c h HC HH E. unfold try_, bind in E. destruct (c m) as [[r|] m1| | |] eqn:EC; try discriminate E. destruct (HC _ _ eq_refl) as [L ->].
    exact (HH r L E). }
  apply K; [|exact G]. intros r m1 E. assert (CP : forall c m2, b64_count_pad p n m = Ret c m2 -> m2 = m).
  { intros c m2 EC. destruct (rei_b64_count_pad (H := True) (P := fun _ => False) p n) as [q HF HS]. eapply (stores_none _ q (HS I)).
    rewrite (follows_imp _ _ HF). exact EC. }
  unfold bind in E. destruct (b64_extra_of cfg).
  - destruct (n mod 4 =? 0); [|discriminate E]. destruct (b64_count_pad p n m) as [c m2| | |] eqn:EC; try discriminate E. assert (EM := CP _ _ eq_refl). subst m2. injection E as <- <-. split; [lia|reflexivity].
  - injection E as <- <-. split; [lia|reflexivity].
  - destruct (n mod 4 =? 0); [|injection E as <- <-; split; [lia|reflexivity]]. destruct (b64_count_pad p n m) as [c m2| | |] eqn:EC; try discriminate E. assert (EM := CP _ _ eq_refl). subst m2. injection E as <- <-. split; [lia|reflexivity].
Qed.

(** ** Annotations *)
Lemma b64_check_ann en s cfg p n t : annotates (fun a => a) (b64_check_b en s cfg p n t) (b64_check en s cfg p n).
Proof.
  unfold b64_check_b, b64_check, b64_decoded_length_b. ann. eexists. split; [intro; reflexivity|]. intros [y|]; ann.
  exists (fun y => ret y). split; [apply bind_ret_eq|]. ann.
Qed.
Lemma b64_encode_ann s cfg p n q k ts td : annotates fst (b64_encode_b s cfg p n q k ts td) (b64_encode s cfg p n q k).
Proof. unfold b64_encode_b, b64_encode. ann. destruct (negb _); [ann|]. ann. eexists. split; [intro; reflexivity|]. intros y. ann. Qed.
Lemma b64_decode_ann en s cfg p n q k ts td : annotates fst (b64_decode_b en s cfg p n q k ts td) (b64_decode en s cfg p n q k).
Proof.
  unfold b64_decode_b, b64_decode, b64_decoded_length_b. ann. eexists. split; [intro; reflexivity|]. intros [y|]; ann. destruct (negb _); [ann|]. ann.
  eexists. split; [intro; reflexivity|]. intros [z|]; ann.
Qed.
Lemma b64_decode_inplace_ann en s cfg p n t : annotates fst (b64_decode_inplace_b en s cfg p n t) (b64_decode_inplace en s cfg p n).
Proof.
  unfold b64_decode_inplace_b, b64_decode_inplace, b64_decoded_length_b. ann. eexists. split; [intro; reflexivity|]. intros [y|]; ann.
  eexists. split; [intro; reflexivity|]. intros [z|]; ann.
Qed.

(** ** Steps *)
Lemma b64_decoded_length_shape cfg p n t : b64_decoded_length_b cfg p n t =
  fn (u <== shared_param p n t ;; v <== (slice_len p n u ;=; slice_len p n u ;=; Return u) ;; exec (via1 (fst p) v) (b64_decoded_length p n cfg)).
Proof. reflexivity. Qed.
Lemma b64_check_good en s cfg n : good_check (b64_check_b en s cfg) n.
Proof.
  intros F p t Q st mm HI W LT RI H. unfold b64_check_b. apply into_start; auto. intros u s1 I1 R1 L1.
  rewrite b64_decoded_length_shape. eapply (into_reader F st p n t u); [intro; apply ro_lens|apply (rei_b64_decoded_length p n cfg)|exact I1|exact LT|exact R1|exact L1|exact HI|].
  intros [y|] s2 I2 R2 L2 E; [|apply (check_end F st p n t); auto]. iro.
  eapply (into_read F st p n t _ _ _ (fun y => Return y)); [apply rei_b64_check_impl|eassumption|eassumption|exact HI|]. intros z E'.
  apply (check_end F st p n t); auto.
Qed.
Lemma b64_encode_good s cfg n k : good_into of_result (b64_encode_b s cfg) n k.
Proof.
  intros F p q ts td Q st mm N HF HI W LT RI OT H. unfold b64_encode_b. apply into_start; auto. intros u s1 I1 R1 L1. iro. cbv zeta.
  destruct (negb _) eqn:EN; [apply (into_fail F st p n q k ts); auto|]. iro.
  eapply into_exec; [apply (rei_b64_encode_impl s p n q cfg); reflexivity|eassumption|eassumption|assumption|eassumption|exact HF|].
  intros y mm' _. apply (into_give F st p n q k ts td); auto. apply negb_false_iff, Nat.leb_le in EN. exact EN.
Qed.
Lemma b64_decode_good en s cfg n k : good_into of_result (b64_decode_b en s cfg) n k.
Proof.
  intros F p q ts td Q st mm N HF HI W LT RI OT H. unfold b64_decode_b. apply into_start; auto. intros u s1 I1 R1 L1.
  rewrite b64_decoded_length_shape. eapply (into_reader F st p n ts u); [intro; apply ro_lens|apply (rei_b64_decoded_length p n cfg)|exact I1|exact LT|exact R1|exact L1|exact HI|].
  intros [y|] s2 I2 R2 L2 E; [|apply (into_fail F st p n q k ts); auto]. cbn [fst snd].
  destruct (negb _) eqn:EN; [apply (into_fail F st p n q k ts); auto|]. iro.
  eapply into_exec; [apply (rei_b64_decode_impl en s p q (fst y) cfg); reflexivity|eassumption|eassumption|assumption|eassumption|exact HF|].
  intros [z|] mm' _; [|apply (into_fail F st p n q k ts); auto]. apply (into_give F st p n q k ts td); auto.
  apply negb_false_iff, Nat.leb_le in EN. exact EN.
Qed.
Lemma b64_decode_inplace_good en s cfg n : good_inplace of_result (b64_decode_inplace_b en s cfg) n.
Proof.
  intros F p t base Q st mm HF HI W WI H. unfold b64_decode_inplace_b. apply (inplace_start F p n t base); auto. intros g s1 I1. pro.
  rewrite b64_decoded_length_shape. eapply (inplace_reader F st p n base g); [intro; apply ro_lens|apply (rei_b64_decoded_length p n cfg)|eassumption|eassumption|assumption|exact HI|].
  intros [y|] s3 I3 E; [|apply (own_fail F st p n base g); auto]. apply b64_decoded_length_le in E as [_ LE].
  eapply inplace_raw; [exact W|eassumption|]. intros r s6 I6.
  eapply inplace_exec; [apply (rei_b64_decode_impl en s p p (fst y) cfg); reflexivity|eassumption|exact HF|].
  intros [z|] mm' _; [|apply (raw_fail F st p n base r); auto]. apply (raw_give F st p n base r); auto.
Qed.

Lemma b64_encode_borrows s cfg src dlen : b64_isa s -> borrows_into of_result (b64_encode_b s cfg) (b64_encode s cfg) src dlen.
Proof.
  intro HS. apply borrows_into_of; [intros; apply b64_encode_ann| |apply b64_encode_good]. intros _. eapply settles_does, does_enc; [now apply b64_encode_ok|apply b64_encode_short].
Qed.
Lemma b64_decode_borrows en s cfg src dlen : b64_isa s -> borrows_into of_result (b64_decode_b en s cfg) (b64_decode en s cfg) src dlen.
Proof.
  intro HS. apply borrows_into_of; [intros; apply b64_decode_ann| |apply b64_decode_good]. intros _. eapply settles_dec; [now apply b64_decode_ok|apply b64_decode_short].
Qed.
Lemma b64_decode_inplace_borrows en s cfg data : b64_isa s -> borrows_inplace of_result (b64_decode_inplace_b en s cfg) (b64_decode_inplace en s cfg) data.
Proof.
  intro HS. apply borrows_inplace_of; [intros; apply b64_decode_inplace_ann| |apply b64_decode_inplace_good]. intros _.
  eapply settles_inplace_dec; [now apply b64_decode_inplace_ok|apply b64_need_le].
Qed.
Lemma b64_check_borrows en s cfg src : b64_isa s -> borrows_check (b64_check_b en s cfg) (b64_check en s cfg) src.
Proof.
  intro HS. apply borrows_check_of; [intros; apply b64_check_ann| |apply b64_check_good]. intros _. eapply settles_check. now apply b64_check_ok.
Qed.
