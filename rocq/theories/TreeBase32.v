(** base32-simd under the rules of TreeBorrows.v *)
From Coq Require Import ZArith List Bool Lia ZifyBool ZifyNat.
From Verif Require Import Bytes Mem MemFacts Slices Codec Conc ConcFacts Reify ConcApi ConcApiFacts Isa Simd Ints Base32 Base32Ref Base32Api
  Borrows BorrowsApi BorrowsFacts BorrowsBridge BorrowsBase32 TreeBorrows TreeFacts TreeCalls TreeBridge.
Import ListNotations.
Ltac Zify.zify_post_hook ::= Z.div_mod_to_equations.
Open Scope nat_scope. Open Scope m_scope. Open Scope borrow_scope.

Lemma b32_check_tgood tg s cfg n : good_check (b32_check_b tg s cfg) n.
Proof.
  intros F p t Q st mm HI W LT RI WD H. unfold b32_check_b. apply (into_start F p n t p 0 t); auto. intros u s1 I1 R1 L1.
  rewrite b32_decoded_length_shape. eapply (into_reader F st p n p 0 t t u); [intro; apply ro_lens|apply (rei_b32_decoded_length p n (b32_padding cfg))|exact I1|exact LT|exact R1|exact L1|exact HI|].
  intros [y|] s2 I2 R2 L2 E; [|apply (into_fail F st p n p 0 t t); auto]. iro.
  eapply (into_read F st p n p 0 t t _ _ _ (fun y => Return y)); [apply rei_b32_check_impl|eassumption|eassumption|exact HI|exact LT|]. intros z sx Ix _ E'.
  apply (into_fail F st p n p 0 t t); auto.
Qed.
Lemma b32_encode_tgood tg s cfg n k : good_into of_result (b32_encode_b tg s cfg) n k.
Proof.
  intros F p q ts td Q st mm N HF HI W LT RI OT H. unfold b32_encode_b. apply (into_start F p n ts q k td); auto. intros u s1 I1 R1 L1. iro. cbv zeta.
  destruct (negb _) eqn:EN; [apply (into_fail F st p n q k ts td); auto|]. iro.
  eapply into_exec; [apply (rei_b32_encode_impl tg s p n q (b32_kind_of cfg) (b32_padding cfg)); reflexivity|eassumption|eassumption|assumption|eassumption|exact HF|].
  intros y mm' sx Ix _. apply (into_give F st p n q k ts td); auto. apply negb_false_iff, Nat.leb_le in EN. exact EN.
Qed.
Lemma b32_decode_tgood tg s cfg n k : good_into of_result (b32_decode_b tg s cfg) n k.
Proof.
  intros F p q ts td Q st mm N HF HI W LT RI OT H. unfold b32_decode_b. apply (into_start F p n ts q k td); auto. intros u s1 I1 R1 L1.
  rewrite b32_decoded_length_shape. eapply (into_reader F st p n q k ts td u); [intro; apply ro_lens|apply (rei_b32_decoded_length p n (b32_padding cfg))|exact I1|exact LT|exact R1|exact L1|exact HI|].
  intros [y|] s2 I2 R2 L2 E; [|apply (into_fail F st p n q k ts td); auto]. cbn [fst snd].
  destruct (negb _) eqn:EN; [apply (into_fail F st p n q k ts td); auto|]. iro.
  eapply into_exec; [apply (rei_b32_decode_impl tg s p (fst y) q (b32_kind_of cfg)); reflexivity|eassumption|eassumption|assumption|eassumption|exact HF|].
  intros [z|] mm' sx Ix _; [|apply (into_fail F st p n q k ts td); auto]. apply (into_give F st p n q k ts td); auto.
  apply negb_false_iff, Nat.leb_le in EN. exact EN.
Qed.
Lemma b32_decode_inplace_tgood tg s cfg n : good_inplace of_result (b32_decode_inplace_b tg s cfg) n.
Proof.
  intros F p t Q st mm HF HI W WI H. unfold b32_decode_inplace_b. apply (inplace_start F p n t); auto. intros g s1 I1. pro.
  rewrite b32_decoded_length_shape. eapply (inplace_reader F st p n t g); [intro; apply ro_lens|apply (rei_b32_decoded_length p n (b32_padding cfg))|eassumption|eassumption|assumption|exact HI|].
  intros [y|] s3 I3 E; [|apply (own_fail F st p n t g); auto]. apply b32_decoded_length_le in E as [_ LE].
  eapply inplace_raw; [eassumption|]. intros r s6 I6.
  eapply inplace_exec; [apply (rei_b32_decode_impl tg s p (fst y) p (b32_kind_of cfg)); reflexivity|eassumption|exact HF|].
  intros [z|] mm' sx Ix _; [|apply (raw_fail F st p n t r); auto]. apply (raw_give F st p n t r); auto.
Qed.
Lemma b32_encode_trees tg s cfg src dlen : b32_isa s -> tree_into of_result (b32_encode_b tg s cfg) (b32_encode tg s cfg) src dlen.
Proof.
  intro HS. apply tree_into_of; [intros; apply b32_encode_ann| |apply b32_encode_tgood]. intros _. eapply settles_does, does_enc; [now apply b32_encode_ok|apply b32_encode_short].
Qed.
Lemma b32_decode_trees tg s cfg src dlen : b32_isa s -> tree_into of_result (b32_decode_b tg s cfg) (b32_decode tg s cfg) src dlen.
Proof.
  intro HS. apply tree_into_of; [intros; apply b32_decode_ann| |apply b32_decode_tgood]. intros _. eapply settles_dec; [now apply b32_decode_ok|apply b32_decode_short].
Qed.
Lemma b32_decode_inplace_trees tg s cfg data : b32_isa s -> tree_inplace of_result (b32_decode_inplace_b tg s cfg) (b32_decode_inplace tg s cfg) data.
Proof.
  intro HS. apply tree_inplace_of; [intros; apply b32_decode_inplace_ann| |apply b32_decode_inplace_tgood]. intros _.
  eapply settles_inplace_dec; [now apply b32_decode_inplace_ok|apply b32_need_le].
Qed.
Lemma b32_check_trees tg s cfg src : b32_chk_isa s -> tree_check (b32_check_b tg s cfg) (b32_check tg s cfg) src.
Proof.
  intro HS. apply tree_check_of; [intros; apply b32_check_ann| |apply b32_check_tgood]. intros _. eapply settles_check. now apply b32_check_ok.
Qed.
