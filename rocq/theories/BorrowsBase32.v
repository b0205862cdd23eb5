(** The borrows of base32-simd *)
From Coq Require Import ZArith List Bool Lia ZifyBool ZifyNat.
From Verif Require Import Bytes Mem MemFacts Slices Codec Conc ConcFacts Reify ConcApi ConcApiFacts Isa Simd Ints Base32 Base32Ref Base32Api
  Borrows BorrowsApi BorrowsFacts BorrowsLib BorrowsCalls BorrowsBridge.
Import ListNotations.
Ltac Zify.zify_post_hook ::= Z.div_mod_to_equations.
Open Scope nat_scope. Open Scope m_scope. Open Scope borrow_scope.

Lemma b32_decoded_length_le padding p n m y m' : b32_decoded_length p n padding m = Ret (Ok y) m' -> fst y <= n /\ snd y <= n.
Proof.
  unfold b32_decoded_length. destruct (n =? 0). { intro E. injection E as <- _. cbn. lia. }
  assert (G : forall a m1, a <= n -> (let extra := nth (a mod 8) [0; 255; 1; 255; 2; 3; 255; 4] 0 in
      if extra =? 255 then ret Err else ret (Ok (a, a / 8 * 5 + extra))) m1 = Ret (Ok y) m' -> fst y <= n /\ snd y <= n).
  { intros a m1 L. assert (D : a = 8 * (a / 8) + a mod 8) by (apply Nat.div_mod; lia). assert (B : a mod 8 < 8) by (apply Nat.mod_upper_bound; lia).
    revert D B. generalize (a / 8) (a mod 8). intros d e D B. cbv zeta.
    do 8 (destruct e as [|e]; [cbn [nth Nat.eqb]; intro E; try discriminate E; injection E as <- _; cbn [fst snd]; lia|]). lia. }
  intro E. unfold try_, bind in E. destruct padding.
  - destruct (n mod 8 =? 0); [|discriminate E].
    destruct (psub_len n 6 m) as [q m1| | |]; try discriminate E. destruct (padd p q m1) as [p' m2| | |]; try discriminate E.
    destruct (load p' 6 m2) as [l m3| | |]; try discriminate E. cbn [ret] in E. apply (G (n - length (filter (fun x => (x =? 61)%Z) l)) m3); [lia|exact E].
  - apply (G n m); [lia|exact E].
Qed.

(** ** Annotations *)
Lemma b32_check_ann tg s cfg p n t : annotates (fun a => a) (b32_check_b tg s cfg p n t) (b32_check tg s cfg p n).
Proof.
  unfold b32_check_b, b32_check, b32_decoded_length_b. ann. eexists. split; [intro; reflexivity|]. intros [y|]; ann.
  exists (fun y => ret y). split; [apply bind_ret_eq|]. ann.
Qed.
Lemma b32_encode_ann tg s cfg p n q k ts td : annotates fst (b32_encode_b tg s cfg p n q k ts td) (b32_encode tg s cfg p n q k).
Proof. unfold b32_encode_b, b32_encode. ann. destruct (negb _); [ann|]. ann. eexists. split; [intro; reflexivity|]. intros y. ann. Qed.
Lemma b32_decode_ann tg s cfg p n q k ts td : annotates fst (b32_decode_b tg s cfg p n q k ts td) (b32_decode tg s cfg p n q k).
Proof.
  unfold b32_decode_b, b32_decode, b32_decoded_length_b. ann. eexists. split; [intro; reflexivity|]. intros [y|]; ann. destruct (negb _); [ann|]. ann.
  eexists. split; [intro; reflexivity|]. intros [z|]; ann.
Qed.
Lemma b32_decode_inplace_ann tg s cfg p n t : annotates fst (b32_decode_inplace_b tg s cfg p n t) (b32_decode_inplace tg s cfg p n).
Proof.
  unfold b32_decode_inplace_b, b32_decode_inplace, b32_decoded_length_b. ann. eexists. split; [intro; reflexivity|]. intros [y|]; ann.
  eexists. split; [intro; reflexivity|]. intros [z|]; ann.
Qed.

(** ** Steps *)
Lemma b32_decoded_length_shape padding p n t : b32_decoded_length_b padding p n t =
  fn (u <== shared_param p n t ;; v <== (slice_len p n u ;=; slice_len p n u ;=; Return u) ;; exec (via1 (fst p) v) (b32_decoded_length p n padding)).
Proof. reflexivity. Qed.
Lemma b32_check_good tg s cfg n : good_check (b32_check_b tg s cfg) n.
Proof.
  intros F p t Q st mm HI W LT RI H. unfold b32_check_b. apply into_start; auto. intros u s1 I1 R1 L1.
  rewrite b32_decoded_length_shape. eapply (into_reader F st p n t u); [intro; apply ro_lens|apply (rei_b32_decoded_length p n (b32_padding cfg))|exact I1|exact LT|exact R1|exact L1|exact HI|].
  intros [y|] s2 I2 R2 L2 E; [|apply (check_end F st p n t); auto]. iro.
  eapply (into_read F st p n t _ _ _ (fun y => Return y)); [apply rei_b32_check_impl|eassumption|eassumption|exact HI|]. intros z E'.
  apply (check_end F st p n t); auto.
Qed.
Lemma b32_encode_good tg s cfg n k : good_into of_result (b32_encode_b tg s cfg) n k.
Proof.
  intros F p q ts td Q st mm N HF HI W LT RI OT H. unfold b32_encode_b. apply into_start; auto. intros u s1 I1 R1 L1. iro. cbv zeta.
  destruct (negb _) eqn:EN; [apply (into_fail F st p n q k ts); auto|]. iro.
  eapply into_exec; [apply (rei_b32_encode_impl tg s p n q (b32_kind_of cfg) (b32_padding cfg)); reflexivity|eassumption|eassumption|assumption|eassumption|exact HF|].
  intros y mm' _. apply (into_give F st p n q k ts td); auto. apply negb_false_iff, Nat.leb_le in EN. exact EN.
Qed.
Lemma b32_decode_good tg s cfg n k : good_into of_result (b32_decode_b tg s cfg) n k.
Proof.
  intros F p q ts td Q st mm N HF HI W LT RI OT H. unfold b32_decode_b. apply into_start; auto. intros u s1 I1 R1 L1.
  rewrite b32_decoded_length_shape. eapply (into_reader F st p n ts u); [intro; apply ro_lens|apply (rei_b32_decoded_length p n (b32_padding cfg))|exact I1|exact LT|exact R1|exact L1|exact HI|].
  intros [y|] s2 I2 R2 L2 E; [|apply (into_fail F st p n q k ts); auto]. cbn [fst snd].
  destruct (negb _) eqn:EN; [apply (into_fail F st p n q k ts); auto|]. iro.
  eapply into_exec; [apply (rei_b32_decode_impl tg s p (fst y) q (b32_kind_of cfg)); reflexivity|eassumption|eassumption|assumption|eassumption|exact HF|].
  intros [z|] mm' _; [|apply (into_fail F st p n q k ts); auto]. apply (into_give F st p n q k ts td); auto.
  apply negb_false_iff, Nat.leb_le in EN. exact EN.
Qed.
Lemma b32_decode_inplace_good tg s cfg n : good_inplace of_result (b32_decode_inplace_b tg s cfg) n.
Proof.
  intros F p t base Q st mm HF HI W WI H. unfold b32_decode_inplace_b. apply (inplace_start F p n t base); auto. intros g s1 I1. pro.
  rewrite b32_decoded_length_shape. eapply (inplace_reader F st p n base g); [intro; apply ro_lens|apply (rei_b32_decoded_length p n (b32_padding cfg))|eassumption|eassumption|assumption|exact HI|].
  intros [y|] s3 I3 E; [|apply (own_fail F st p n base g); auto]. apply b32_decoded_length_le in E as [_ LE].
  eapply inplace_raw; [exact W|eassumption|]. intros r s6 I6.
  eapply inplace_exec; [apply (rei_b32_decode_impl tg s p (fst y) p (b32_kind_of cfg)); reflexivity|eassumption|exact HF|].
  intros [z|] mm' _; [|apply (raw_fail F st p n base r); auto]. apply (raw_give F st p n base r); auto.
Qed.

Lemma b32_encode_borrows tg s cfg src dlen : b32_isa s -> borrows_into of_result (b32_encode_b tg s cfg) (b32_encode tg s cfg) src dlen.
Proof.
  intro HS. apply borrows_into_of; [intros; apply b32_encode_ann| |apply b32_encode_good]. intros _. eapply settles_does, does_enc; [now apply b32_encode_ok|apply b32_encode_short].
Qed.
Lemma b32_decode_borrows tg s cfg src dlen : b32_isa s -> borrows_into of_result (b32_decode_b tg s cfg) (b32_decode tg s cfg) src dlen.
Proof.
  intro HS. apply borrows_into_of; [intros; apply b32_decode_ann| |apply b32_decode_good]. intros _. eapply settles_dec; [now apply b32_decode_ok|apply b32_decode_short].
Qed.
Lemma b32_decode_inplace_borrows tg s cfg data : b32_isa s -> borrows_inplace of_result (b32_decode_inplace_b tg s cfg) (b32_decode_inplace tg s cfg) data.
Proof.
  intro HS. apply borrows_inplace_of; [intros; apply b32_decode_inplace_ann| |apply b32_decode_inplace_good]. intros _.
  eapply settles_inplace_dec; [now apply b32_decode_inplace_ok|apply b32_need_le].
Qed.
Lemma b32_check_borrows tg s cfg src : b32_chk_isa s -> borrows_check (b32_check_b tg s cfg) (b32_check tg s cfg) src.
Proof.
  intro HS. apply borrows_check_of; [intros; apply b32_check_ann| |apply b32_check_good]. intros _. eapply settles_check. now apply b32_check_ok.
Qed.
