(** Forgiving decoding on big-endian AArch64 (LaneOrderWhole.v). *)
From Coq Require Import ZArith List Bool Lia ZifyNat.
From Verif Require Import Bytes Mem MemFacts Slices Codec Isa Simd Spec Ints Base64 Base64Ref Base64Facts Base64Api Forgiving ForgivingFacts
  LaneOrder LaneOrderWhole LaneOrderExactWhole.
Import ListNotations.
Open Scope Z_scope.
Open Scope m_scope.

Lemma inplace_tail_be m0 m b o n t : bytes t -> bytes_at m b o t -> (length t <= n)%nat -> Frame m0 b o n m ->
  wp (b64_decode_inplace_ord BE STANDARD_FORGIVING (b, o) (length t)) (decoded (b64_be_dec STANDARD_FORGIVING t) m0 b o n) m.
Proof.
  intros B A L F. destruct (b64_decode_inplace_be_ok STANDARD_FORGIVING t m b o (conj B A)) as (r & m' & E & F' & D).
  apply wp_intro with r m'; [exact E|]. split; [|exact D].
  apply (Frame_trans _ m); [exact F|]. eapply Frame_weaken; [exact F'|]. pose proof (b64_need_le STANDARD_FORGIVING t). lia.
Qed.

Lemma forgiving_inplace_be data :
  decodes_inplace (forgiving_decode_inplace_ord BE) data (length data) (b64_be_dec STANDARD_FORGIVING (strip_whitespace data)).
Proof.
  intros m b o [B H]. apply wp_inv. unfold forgiving_decode_inplace_ord. apply wp_bind.
  eapply wp_mono; [apply remove_inplace_ok; [exact B|exact H]|]. intros r m' (-> & A & F).
  apply inplace_tail_be; auto using strip_bytes, strip_le.
Qed.

Lemma forgiving_be src :
  decodes (forgiving_decode_ord BE) src (length src) (b64_be_dec STANDARD_FORGIVING (strip_whitespace src)).
Proof.
  intros m b o d e dlen [B H] R S L. apply wp_inv. unfold forgiving_decode_ord, room, separate in *.
  destruct (Nat.leb_spec (length src) dlen) as [_|]; [|lia]. cbn [negb]. apply wp_bind.
  eapply wp_mono; [apply find_ok; [exact B|exact H]|]. intros pos m' (-> & ->).
  pose proof (find_ws_le src) as Hp. assert (E := strip_find src).
  apply wp_bind. apply wp_dassert; [exact Hp|].
  destruct (Nat.eqb_spec (find_ws src) (length src)) as [Ep|Np].
  - rewrite Ep, firstn_all, skipn_all in E. change (strip_whitespace []) with (@nil Z) in E. rewrite app_nil_r in E. rewrite E.
    pose proof (b64_need_le STANDARD_FORGIVING src) as Ln.
    destruct (b64_decode_be_ok STANDARD_FORGIVING src m b o d e dlen (conj B H) R S ltac:(lia)) as (r & m' & Er & F & D).
    apply wp_intro with r m'; [exact Er|]. split; [|exact D]. eapply Frame_weaken; [exact F|lia].
  - set (k := find_ws src) in *.
    assert (Lf : length (firstn k src) = k) by (rewrite firstn_length; lia).
    assert (Lk : (length src - k)%nat = length (skipn k src)) by now rewrite skipn_length.
    pose proof (bytes_at_firstn _ _ _ _ k H) as Hf.
    apply wp_bind. rewrite <- Lf at 1. apply wp_copy; rewrite ?Lf; [exact Hf|lia|lia|]. intros m1 A1 F1.
    assert (H1 : bytes_at m1 b o src) by (eapply Frame_bytes_at; [exact F1|exact H|]; lia).
    assert (R1 : (e + dlen <= length (m1 d))%nat) by (destruct F1 as (_ & -> & _); exact R).
    apply wp_bind. eapply padd_in; [exact H1|lia|]. apply wp_bind.
    unfold psub_len. destruct (Nat.leb_spec k (length src)) as [_|]; [|lia]. apply wp_ret.
    apply wp_bind. apply wp_padd; cbn [fst snd]; [lia|].
    apply wp_bind. rewrite Lk. eapply wp_mono; [apply (remove_ok m1 b (o + k) (skipn k src) d (e + k))|].
    + apply bytes_skipn; exact B.
    + apply bytes_at_skipn; [lia|exact H1].
    + rewrite <- Lk. lia.
    + rewrite <- Lk. lia.
    + intros r m2 (-> & A2 & F2). pose proof (strip_le (skipn k src)) as Ls. rewrite <- Lk in *. apply wp_bind. apply wp_dassert; [exact Ls|].
      assert (Ln : (k + length (strip_whitespace (skipn k src)))%nat = length (strip_whitespace src)) by (rewrite E, app_length, Lf; reflexivity).
      rewrite Ln. apply inplace_tail_be; auto using strip_bytes; try lia.
      * rewrite E. apply bytes_at_app. rewrite Lf. split; [|exact A2].
        eapply Frame_bytes_at; [exact F2|exact A1|]. rewrite Lf. lia.
      * apply (Frame_trans _ m1); (eapply Frame_weaken; [eassumption|lia]).
Qed.
