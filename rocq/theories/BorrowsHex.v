(** The borrows of hex-simd *)
From Coq Require Import ZArith List Bool Lia ZifyBool ZifyNat.
From Verif Require Import Bytes Mem MemFacts Slices Codec Conc ConcFacts Reify ConcApi ConcApiFacts Isa Simd Spec Ints Hex HexSimdFacts HexApi
  Borrows BorrowsApi BorrowsFacts BorrowsLib BorrowsCalls BorrowsBridge.
Import ListNotations.
Open Scope nat_scope. Open Scope m_scope. Open Scope borrow_scope.

Lemma hex_check_ann s p n t : annotates (fun a => a) (hex_check_b s p n t) (hex_check s p n).
Proof. unfold hex_check_b. ann. exists (fun y => ret y). split; [apply bind_ret_eq|]. intro. ann. Qed.
Lemma hex_encode_ann s case p n q k ts td : annotates fst (hex_encode_b s case p n q k ts td) (hex_encode s p n q k case).
Proof.
  unfold hex_encode_b, hex_encode. ann. destruct (negb _); [ann|]. ann. eexists. split; [intro; reflexivity|]. intros y. ann.
Qed.
Lemma hex_decode_ann s p n q k ts td : annotates fst (hex_decode_b s p n q k ts td) (hex_decode s p n q k).
Proof.
  unfold hex_decode_b, hex_decode. ann. destruct (negb _); [ann|]. ann. eexists. split; [intro; reflexivity|]. intros [y|]; ann.
Qed.
Lemma hex_decode_inplace_ann s p n t : annotates fst (hex_decode_inplace_b s p n t) (hex_decode_inplace s p n).
Proof.
  unfold hex_decode_inplace_b, hex_decode_inplace. ann. destruct (negb _); [ann|]. ann. eexists. split; [intro; reflexivity|]. intros [y|]; ann.
Qed.

Lemma hex_encode_good s case n k : good_into of_result (fun p n q k ts td => hex_encode_b s case p n q k ts td) n k.
Proof.
  intros F p q ts td Q st mm N HF HI W LT RI OT H. unfold hex_encode_b. apply into_start; auto. intros u s1 I1 R1 L1. iro.
  destruct (negb _) eqn:EN; [apply (into_fail F st p n q k ts); auto|]. iro.
  eapply into_exec; [apply (rei_hex_encode_impl s p n q case); reflexivity|eassumption|eassumption|assumption|eassumption|exact HF|].
  intros y mm' _. apply (into_give F st p n q k ts td); auto. apply negb_false_iff, Nat.leb_le in EN. lia.
Qed.
Lemma hex_decode_good s n k : good_into of_result (hex_decode_b s) n k.
Proof.
  intros F p q ts td Q st mm N HF HI W LT RI OT H. unfold hex_decode_b. apply into_start; auto. intros u s1 I1 R1 L1. iro. iro.
  destruct (negb _) eqn:EN; [apply (into_fail F st p n q k ts); auto|]. iro. iro.
  eapply into_exec; [apply (rei_hex_decode_impl s p n q); reflexivity|eassumption|eassumption|assumption|eassumption|exact HF|].
  intros [y|] mm' _; [|apply (into_fail F st p n q k ts); auto]. apply (into_give F st p n q k ts td); auto. lia.
Qed.

Lemma hex_check_good s n : good_check (hex_check_b s) n.
Proof.
  intros F p t Q st mm HI W LT RI H. unfold hex_check_b. apply into_start; auto. intros u s1 I1 R1 L1. iro.
  eapply (into_read F st p n t _ _ _ (fun y => Return y)); [apply rei_hex_check_impl|eassumption|eassumption|exact HI|]. intros y E.
  apply (check_end F st p n t); auto.
Qed.
Lemma hex_decode_inplace_good s n : good_inplace of_result (hex_decode_inplace_b s) n.
Proof.
  intros F p t base Q st mm HF HI W WI H. unfold hex_decode_inplace_b. apply (inplace_start F p n t base); auto. intros g s1 I1. pro. pro.
  destruct (negb _) eqn:EN; [apply (own_fail F st p n base g); auto|]. pro. pro. eapply inplace_raw; [exact W|eassumption|]. intros r s6 I6.
  eapply inplace_exec; [apply (rei_hex_decode_impl s p n p); reflexivity|eassumption|exact HF|].
  intros [y|] mm' _; [|apply (raw_fail F st p n base r); auto]. apply (raw_give F st p n base r); auto. lia.
Qed.

Lemma hex_encode_borrows s case src dlen :
  borrows_into of_result (fun p n q k ts td => hex_encode_b s case p n q k ts td) (fun p n q k => hex_encode s p n q k case) src dlen.
Proof.
  apply borrows_into_of; [intros; apply hex_encode_ann| |apply hex_encode_good]. intros _. eapply settles_does, does_enc; [apply hex_encode_ok|].
  intros m0 b0 o0 d0 e0 k0 _ L. apply hex_encode_short. rewrite hex_encode_len in L. exact L.
Qed.
Lemma hex_decode_borrows s src dlen : borrows_into of_result (hex_decode_b s) (hex_decode s) src dlen.
Proof.
  apply borrows_into_of; [intros; apply hex_decode_ann| |apply hex_decode_good]. intros _. eapply settles_dec; [apply hex_decode_ok|].
  intros m0 b0 o0 d0 e0 k0 _ L. now apply hex_decode_short.
Qed.
Lemma hex_decode_inplace_borrows s data : borrows_inplace of_result (hex_decode_inplace_b s) (hex_decode_inplace s) data.
Proof.
  apply borrows_inplace_of; [intros; apply hex_decode_inplace_ann| |apply hex_decode_inplace_good]. intros _.
  eapply settles_inplace_dec; [apply hex_decode_inplace_ok|lia].
Qed.
Lemma hex_check_borrows s src : borrows_check (hex_check_b s) (hex_check s) src.
Proof.
  apply borrows_check_of; [intros; apply hex_check_ann| |apply hex_check_good]. intros _. eapply settles_check, hex_check_ok.
Qed.
