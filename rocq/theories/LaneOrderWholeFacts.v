(** What the whole functions of LaneOrderWhole.v compute on big-endian AArch64, and that they are those of Hex.v, Base64.v, Base32.v
    and Uuid.v on little-endian. *)
From Coq Require Import ZArith List Bool Lia ZifyNat.
From Verif Require Import Bytes Mem MemFacts Loops Loops2 Slices Codec Isa Simd SimdFacts Alsw AlswFacts Spec Ints Hex HexSimdFacts HexFacts HexApi
  Base64 Base64Facts Base64SimdFacts Base64DecFacts Base64Api Base32 Base32Facts Base32SimdFacts Base32SimdDec Base32DecFacts Base32Api
  Base64Ref Base32Ref Uuid LaneOrder LaneOrderFacts LaneOrderWhole.
Import ListNotations.
Open Scope Z_scope.
Open Scope m_scope.
Ltac Zify.zify_post_hook ::= Z.div_mod_to_equations.

(** ** Hexadecimal encoding *)

(** full blocks of 16 bytes with the digits of every byte exchanged, the rest as it should be *)
Definition hex_be_encode (cs l : list Z) : list Z :=
  let k := (length l / 16 * 16)%nat in swapped cs (firstn k l) ++ rfc_hex_encode cs (skipn k l).

Lemma swapped_app cs x r : swapped cs (x ++ r) = swapped cs x ++ swapped cs r.
Proof. induction x as [|a x IH]; [reflexivity|]. cbn [app swapped]. now rewrite IH. Qed.
Lemma swapped_len cs l : length (swapped cs l) = (2 * length l)%nat.
Proof. induction l as [|a l IH]; [reflexivity|]. cbn [swapped length]. rewrite IH. lia. Qed.
Lemma be_encode_len cs l : length (hex_be_encode cs l) = (2 * length l)%nat.
Proof. unfold hex_be_encode. rewrite app_length, swapped_len, hex_encode_len, firstn_length, skipn_length. lia. Qed.
Lemma be_encode_16 cs x : length x = 16%nat -> hex_be_encode cs x = swapped cs x.
Proof.
  intro L. unfold hex_be_encode. rewrite L. change (16 / 16 * 16)%nat with 16%nat. rewrite <- L, firstn_all, skipn_all.
  apply app_nil_r.
Qed.
Lemma be_encode_app cs x r : length x = 16%nat -> hex_be_encode cs (x ++ r) = hex_be_encode cs x ++ hex_be_encode cs r.
Proof.
  intro L. rewrite (be_encode_16 cs x) by exact L. unfold hex_be_encode. rewrite app_length, L.
  replace ((16 + length r) / 16 * 16)%nat with (length x + length r / 16 * 16)%nat by lia.
  rewrite firstn_app_2, skipn_app. rewrite (skipn_all2 x) by lia. cbn [app].
  replace (length x + length r / 16 * 16 - length x)%nat with (length r / 16 * 16)%nat by lia.
  now rewrite swapped_app, <- app_assoc.
Qed.
Lemma be_encode_small cs l : (length l < 16)%nat -> hex_be_encode cs l = rfc_hex_encode cs l.
Proof. intro L. unfold hex_be_encode. now rewrite Nat.div_small. Qed.

(** the scalar loop as a triple of its own *)
Lemma short_run m bs p l bd q case (Q : unit -> mem -> Prop) : bytes l -> bytes_at m bs p l -> (q + 2 * length l <= length (m bd))%nat ->
  (bs <> bd \/ p + length l <= q \/ q + 2 * length l <= p)%nat ->
  (forall m', Frame m bd q (2 * length l) m' -> bytes_at m' bd q (rfc_hex_encode (lut_of case) l) -> Q tt m') ->
  wp (encode_short (bs, p) (length l) (bd, q) (charset case)) Q m.
Proof.
  intros B H R S HQ. rewrite <- (pp_total bs p l), <- (qq_nil bd q).
  assert (L := hex_encode_len (lut_of case) l).
  eapply wp_mono; [apply (encode_short_ok m bs p l bd q (2 * length l) case); auto; apply EI_init; auto; lia|].
  intros [] m' T. unfold done in T. apply HQ; [eapply TS_frame; exact T|eapply TS_out; exact T].
Qed.
Lemma short_dec_run s m bs p l bd q (Q : result unit -> mem -> Prop) : bytes l -> bytes_at m bs p l -> (q + length l / 2 <= length (m bd))%nat ->
  (bs <> bd \/ p + length l <= q \/ q <= p)%nat -> Nat.even (length l) = true ->
  (forall r m', Frame m bd q (length l / 2) m' ->
     match rfc_hex_decode l with Some x => r = Ok tt /\ bytes_at m' bd q x | None => r = Err end -> Q r m') ->
  wp (decode_short s (bs, p) (length l) (bd, q)) Q m.
Proof.
  intros B H R S Ev HQ. rewrite <- (pp_total bs p l), <- (qq_nil bd q).
  eapply wp_mono; [apply (decode_short_ok m bs p l bd q (length l / 2)); auto; apply DI_init; auto|].
  intros r m' (F & P). apply HQ; [exact F|]. destruct r as [[]|].
  - destruct P as (x & -> & _ & T). split; [reflexivity|eapply TS_out; exact T].
  - now rewrite P.
Qed.

Section Encode.
  Context (m0 : mem) (bs so : nat) (total : list Z) (bd d0 cap : nat) (case : ascii_case).
  Notation ppt := (pp bs so total).
  Notation qqt := (qq bd d0).
  Notation TSt := (TS m0 bs so total bd d0 cap).
  Notation E := (hex_be_encode (lut_of case)).
  Notation EIt := (EI m0 bs so total bd d0 cap E).
  Hypothesis HB : bytes total.
  Hypothesis cap_eq : cap = length (E total).
  Hypothesis disj : (bs <> bd \/ so + length total <= d0 \/ d0 + cap <= so)%nat.

  Lemma enc_be_ok m n : EIt [] total m -> n = length total ->
    wp (hex_encode_simd_ord BE (ppt total) n (qqt []) case)
       (fun _ m' => Frame m0 bd d0 cap m' /\ bytes_at m' bd d0 (E total)) m.
  Proof.
    intros HI ->. unfold hex_encode_simd_ord. rewrite encode_lut_of.
    destruct (split_blocks total 16) as (a & b & Et & La & Lb); [lia|].
    replace (ppt total) with (ppt (a ++ b)) by (now rewrite <- Et).
    apply wp_bind. eapply (wp_src_end m0 bs so total bd d0 cap [] a b m); [rewrite <- Et; exact (proj1 HI)|exact La|].
    apply wp_bind. eapply (enc_loop m0 bs so total bd d0 cap E cap_eq disj 16); [lia| | | | | |].
    - intros. now apply be_encode_app.
    - now rewrite <- Et.
    - rewrite La. apply Nat.mod_mul. lia.
    - rewrite <- Et. lia.
    - clear m HI. intros out x r m T Lx Hc Ha. cbn [fst snd].
      apply wp_bind. eapply wp_src_load; [exact T|exact Lx|].
      assert (Bx := TS_bytes _ _ _ _ _ _ _ _ _ _ HB T). apply bytes_app in Bx as [Bx _].
      apply wp_bind. eapply wp_lift; [apply encode_bytes16_be; auto; apply lut_len|]. rewrite <- be_encode_16 by exact Lx.
      apply wp_bind. eapply wp_dst_store; eauto. intros m' T'.
      apply wp_bind. eapply wp_dst_add; [exact T'|rewrite be_encode_len, Lx; reflexivity|].
      apply wp_bind. eapply wp_src_end; [exact T'|exact Lx|]. apply TS_adv in T'. apply wp_ret. auto.
    - intros out' m' [T HE]. cbn [fst snd]. rewrite <- Lb.
      assert (Bb := TS_bytes _ _ _ _ _ _ _ _ _ _ HB T).
      pose proof T as (_ & [F C O OL SR AL]).
      assert (Lb' : (length b < 16)%nat) by (rewrite Lb; apply Nat.mod_upper_bound; lia).
      rewrite (be_encode_small _ b) in HE by exact Lb'.
      assert (LL : (length out' + 2 * length b = cap)%nat).
      { rewrite cap_eq, <- HE, app_length, hex_encode_len. reflexivity. }
      assert (Ls := TS_suffix _ _ _ _ _ _ _ _ _ _ T).
      destruct (Nat.eqb_spec (length b) 0) as [Z0|N].
      + destruct b; [|easy]. apply wp_ret. split; [exact F|]. rewrite <- HE. cbn [rfc_hex_encode flat_map]. now rewrite app_nil_r.
      + unfold pp, qq. apply short_run; auto.
        * destruct F as (_ & F2 & _). rewrite F2. lia.
        * lia.
        * intros m2 F' O'. split.
          -- eapply Frame_trans; [exact F|]. eapply Frame_weaken; [exact F'|]. lia.
          -- rewrite <- HE. apply bytes_at_app. split; [|exact O'].
             eapply Frame_bytes_at; [exact F'|exact O|]. lia.
  Qed.
End Encode.

Lemma hex_encode_be_ok case src :
  encodes (fun p n q k => hex_encode_ord BE p n q k case) src (hex_be_encode (lut_of case) src).
Proof.
  intros m b o d e dlen [B H] R S. unfold room, separate in *.
  assert (LE := be_encode_len (lut_of case) src). rewrite LE. intro L.
  assert (W : wp (hex_encode_ord BE (b, o) (length src) (d, e) dlen case) (fun r m' =>
     r = Ok ((d, e), 2 * length src)%nat /\ bytes_at m' d e (hex_be_encode (lut_of case) src) /\
     only_changed m d e (2 * length src) m') m).
  { unfold hex_encode_ord. destruct (Nat.leb_spec (length src) (dlen / 2)) as [G|G]; [|lia]. cbn [negb].
    apply wp_bind. rewrite <- (pp_total b o src), <- (qq_nil d e) at 1.
    eapply wp_mono; [apply (enc_be_ok m b o src d e (2 * length src)); auto; try lia; apply EI_init; auto; lia|].
    intros u m' [F O]. apply wp_ret. split; [now rewrite Nat.mul_comm|]. split; [exact O|exact F]. }
  apply wp_inv in W as (r & m' & E & -> & H1 & H2). eauto.
Qed.

(** ** Hexadecimal decoding *)

(** the bytes of full blocks of 16 digits lose their low digit *)
Definition hi_digit (b : Z) : Z := 16 * (b / 16).
Definition hex_be_decode (l : list Z) : option (list Z) :=
  match rfc_hex_decode l with
  | Some o => let k := (length l / 16 * 8)%nat in Some (map hi_digit (firstn k o) ++ skipn k o)
  | None => None
  end.
Lemma be_decode_length l o : hex_be_decode l = Some o -> length l = (2 * length o)%nat.
Proof.
  unfold hex_be_decode. destruct (rfc_hex_decode l) as [x|] eqn:Ex; [|discriminate]. intro H. injection H as <-.
  apply hex_decode_even in Ex. rewrite app_length, map_length, firstn_length, skipn_length. lia.
Qed.
Lemma be_decode_block x : (length x = 16 \/ length x = 32)%nat ->
  hex_be_decode x = match rfc_hex_decode x with Some o => Some (map hi_digit o) | None => None end.
Proof.
  intro L. unfold hex_be_decode. destruct (rfc_hex_decode x) as [o|] eqn:Ex; [|reflexivity]. apply hex_decode_even in Ex. f_equal.
  replace (length x / 16 * 8)%nat with (length o) by lia. rewrite firstn_all, skipn_all. apply app_nil_r.
Qed.
Lemma be_decode_app x r : (length x = 16 \/ length x = 32)%nat ->
  hex_be_decode (x ++ r) = match hex_be_decode x with Some o => oapp o (hex_be_decode r) | None => None end.
Proof.
  intro L. rewrite (be_decode_block x) by exact L. unfold hex_be_decode.
  rewrite hex_decode_app by (destruct L as [-> | ->]; reflexivity).
  destruct (rfc_hex_decode x) as [o|] eqn:Ex; [|reflexivity]. destruct (rfc_hex_decode r) as [o2|]; [|reflexivity].
  apply hex_decode_even in Ex. cbn [oapp]. f_equal. rewrite app_length.
  replace ((length x + length r) / 16 * 8)%nat with (length o + length r / 16 * 8)%nat by lia.
  rewrite firstn_app_2, map_app, <- app_assoc. do 2 f_equal.
  rewrite skipn_app, skipn_all2 by lia. cbn [app]. f_equal. lia.
Qed.
Lemma be_decode_small l : (length l < 16)%nat -> hex_be_decode l = rfc_hex_decode l.
Proof. intro L. unfold hex_be_decode. rewrite Nat.div_small by exact L. now destruct (rfc_hex_decode l). Qed.
Lemma clear_low_be x : (length x = 16 \/ length x = 32)%nat -> clear_low (dec_result (rfc_hex_decode x)) = dec_result (hex_be_decode x).
Proof. intro L. rewrite be_decode_block by exact L. now destruct (rfc_hex_decode x). Qed.

Lemma half_sum k n : (k mod 2 = 0)%nat -> ((k + n) / 2 = k / 2 + n / 2)%nat.
Proof. intro H. lia. Qed.

Section Decode.
  Context (m0 : mem) (bs so : nat) (total : list Z) (bd d0 cap : nat).
  Notation ppt := (pp bs so total).
  Notation qqt := (qq bd d0).
  Notation TSt := (TS m0 bs so total bd d0 cap).
  Notation D := hex_be_decode.
  Notation half := (fun n => n / 2)%nat.
  Notation DIt := (DI m0 bs so total bd d0 cap D half).
  Hypothesis HB : bytes total.

  Lemma dec_be_block k (f : list Z -> option (result (list Z))) out x r m (Q : result unit -> mem -> Prop) :
    TSt out (x ++ r) m -> length x = k -> (k = 16 \/ k = 32)%nat -> f x = Some (dec_result (D x)) ->
    (length out + k / 2 + length r / 2 = cap)%nat -> (length out + length (x ++ r) <= length total)%nat ->
    (forall m', D x = None -> Frame m0 bd d0 cap m' -> Q Err m') ->
    (forall o m', D x = Some o -> length o = (k / 2)%nat -> TSt (out ++ o) r m' -> Q (Ok tt) m') ->
    wp (v <- load (ppt (x ++ r)) k ;; y <- lift (f v) ;;
        match y with Err => ret Err | Ok y => store (qqt out) y ;;; ret (Ok tt) end) Q m.
  Proof.
    intros T Lx Hk Hf Hc Ha HE HQ. apply wp_bind. eapply wp_src_load; [exact T|exact Lx|].
    assert (L := TS_suffix _ _ _ _ _ _ _ _ _ _ T). assert (I := inv_alias _ _ _ _ _ _ _ _ _ (proj2 T)).
    apply wp_bind. eapply wp_lift; [exact Hf|]. destruct (D x) as [o|] eqn:Ex; cbn [dec_result].
    - assert (Lo := be_decode_length _ _ Ex). apply TS_adv in T. rewrite app_length in *.
      apply wp_bind. eapply wp_dst_store; [exact T|lia|lia|]. intros m' T'. apply wp_ret. eapply HQ; eauto. lia.
    - apply wp_ret. apply HE; auto. eapply TS_frame; exact T.
  Qed.
  Lemma dec16_be out x r m (Q : result unit -> mem -> Prop) :
    TSt out (x ++ r) m -> length x = 16%nat ->
    (length out + 16 / 2 + length r / 2 = cap)%nat -> (length out + length (x ++ r) <= length total)%nat ->
    (forall m', D x = None -> Frame m0 bd d0 cap m' -> Q Err m') ->
    (forall o m', D x = Some o -> length o = (16 / 2)%nat -> TSt (out ++ o) r m' -> Q (Ok tt) m') ->
    wp (dec16_ord BE (ppt (x ++ r)) (qqt out)) Q m.
  Proof.
    intros T Lx. assert (Bx := TS_bytes _ _ _ _ _ _ _ _ _ _ HB T). apply bytes_app in Bx as [Bx _].
    unfold dec16_ord. apply dec_be_block; auto. rewrite hex_decode_ascii16_be by auto. f_equal. apply clear_low_be. auto.
  Qed.
  Lemma dec32_be out x r m (Q : result unit -> mem -> Prop) :
    TSt out (x ++ r) m -> length x = 32%nat ->
    (length out + 32 / 2 + length r / 2 = cap)%nat -> (length out + length (x ++ r) <= length total)%nat ->
    (forall m', D x = None -> Frame m0 bd d0 cap m' -> Q Err m') ->
    (forall o m', D x = Some o -> length o = (32 / 2)%nat -> TSt (out ++ o) r m' -> Q (Ok tt) m') ->
    wp (dec32_ord BE (ppt (x ++ r)) (qqt out)) Q m.
  Proof.
    intros T Lx. assert (Bx := TS_bytes _ _ _ _ _ _ _ _ _ _ HB T). apply bytes_app in Bx as [Bx _].
    unfold dec32_ord. apply dec_be_block; auto. rewrite hex_decode_ascii32_be by auto. f_equal. apply clear_low_be. auto.
  Qed.

  Definition be_post (r : result unit) (m : mem) : Prop :=
    Frame m0 bd d0 cap m /\ match D total with Some x => r = Ok tt /\ bytes_at m bd d0 x | None => r = Err end.
  Lemma be_err m : D total = None -> Frame m0 bd d0 cap m -> be_post Err m.
  Proof. intros H F. split; [exact F|]. now rewrite H. Qed.

  (** the digits after the last full block *)
  Lemma dec_be_tail out rest m : DIt out rest m -> (length rest < 16)%nat -> (length rest mod 2 = 0)%nat ->
    wp (decode_short NEON64 (ppt rest) (length rest) (qqt out)) be_post m.
  Proof.
    intros (T & HD & HL & HA) L Ev. assert (Br := TS_bytes _ _ _ _ _ _ _ _ _ _ HB T).
    pose proof T as (_ & [F C O OL SR AL]). rewrite (be_decode_small rest) in HD by exact L.
    assert (Ls := TS_suffix _ _ _ _ _ _ _ _ _ _ T).
    unfold pp, qq. apply short_dec_run; auto.
    - destruct F as (_ & F2 & _). rewrite F2. lia.
    - lia.
    - now apply even_mod2.
    - intros r m' F' P. split; [eapply Frame_trans; [exact F|]; eapply Frame_weaken; [exact F'|]; lia|].
      rewrite HD. destruct (rfc_hex_decode rest) as [x|]; cbn [oapp]; [|exact P]. destruct P as [-> P]. split; [reflexivity|].
      apply bytes_at_app. split; [|exact P]. eapply Frame_bytes_at; [exact F'|exact O|]. lia.
  Qed.

  Lemma dec_be_ok m n : DIt [] total m -> n = length total -> Nat.even n = true ->
    wp (hex_decode_simd_ord BE (ppt total) n (qqt [])) be_post m.
  Proof.
    intros HI -> He. unfold hex_decode_simd_ord. apply even_mod2 in He.
    destruct (split_blocks total 32) as (a & b & Et & La & Lb); [lia|].
    replace (ppt total) with (ppt (a ++ b)) by (now rewrite <- Et).
    apply wp_bind. eapply (wp_src_end m0 bs so total bd d0 cap [] a b m); [rewrite <- Et; exact (proj1 HI)|exact La|].
    apply wp_try. eapply (dec_loop m0 bs so total bd d0 cap D half 32); [lia| | | | | | | | |].
    - intros x r Lx. apply be_decode_app. now right.
    - intro k. now apply half_sum.
    - cbn. lia.
    - now rewrite <- Et.
    - rewrite La. apply Nat.mod_mul. lia.
    - rewrite <- Et. lia.
    - clear m HI. intros out x r m T Lx Hc Ha. cbn [fst snd].
      assert (L := TS_suffix _ _ _ _ _ _ _ _ _ _ T).
      apply wp_try. apply dec32_be; auto.
      intros o m' Ho Lo T'. apply wp_bind. eapply wp_src_add; [exact T'|exact Lx| |exact L].
      apply wp_bind. eapply wp_dst_add; [exact T'|exact Lo|]. apply wp_ret. eauto.
    - intros m' HN F. now apply be_err.
    - intros out' m' HI'. cbn [fst snd]. rewrite <- Lb.
      assert (Lb' : (length b < 32)%nat) by (rewrite Lb; apply Nat.mod_upper_bound; lia).
      assert (Evb : (length b mod 2 = 0)%nat) by (rewrite Lb; lia).
      destruct (Nat.eqb_spec (length b) 0) as [Z0|N].
      { destruct b; [|easy]. destruct HI' as (T & HD & _). cbn in HD. rewrite app_nil_r in HD.
        apply wp_ret. split; [eapply TS_frame; exact T|]. rewrite HD. split; [reflexivity|eapply TS_out; exact T]. }
      apply wp_try. destruct (Nat.leb_spec 16 (length b)) as [G|G].
      2:{ apply wp_ret. now apply dec_be_tail. }
      destruct (split_at b 16) as (x & r & -> & Lx); [lia|].
      pose proof HI' as (T & HD & HL & HA).
      assert (L := TS_suffix _ _ _ _ _ _ _ _ _ _ T).
      rewrite (be_decode_app x r) in HD by auto.
      assert (HC : (length out' + 16 / 2 + length r / 2 = cap)%nat).
      { rewrite app_length, Lx, half_sum in HL by reflexivity. lia. }
      apply wp_try. apply dec16_be; auto.
      + intros m1 HN F. apply be_err; auto. now rewrite HD, HN.
      + intros o m1 Ho Lo T1. apply wp_bind. eapply wp_src_add; [exact T1|exact Lx| |exact L].
        apply wp_bind. eapply wp_dst_add; [exact T1|exact Lo|]. apply wp_ret.
        rewrite app_length, Lx in *. replace (16 + length r - 16)%nat with (length r) by lia.
        apply dec_be_tail; [|lia|lia]. split; [exact T1|]. split; [|rewrite app_length; change (16 / 2)%nat with 8%nat in *; lia].
        rewrite HD, Ho. now rewrite oapp_oapp.
  Qed.
End Decode.

Lemma hex_decode_be_run m b o src d e :
  slice m b o src -> room m d e (length src / 2) ->
  (b <> d \/ o + length src <= e \/ e <= o)%nat -> (length src mod 2 = 0)%nat ->
  wp (hex_decode_simd_ord BE (b, o) (length src) (d, e)) (be_post m src d e (length src / 2)) m.
Proof.
  intros [B H] R S L. unfold room in *. rewrite <- (pp_total b o src), <- (qq_nil d e).
  apply (dec_be_ok m b o src d e (length src / 2)); auto.
  - apply DI_init; auto.
  - now apply even_mod2.
Qed.
Lemma be_decode_odd l : (length l mod 2 <> 0)%nat -> hex_be_decode l = None.
Proof. intro H. unfold hex_be_decode. now rewrite hex_decode_odd. Qed.

Lemma hex_decode_be_ok src : decodes (hex_decode_ord BE) src (length src / 2) (hex_be_decode src).
Proof.
  intros m b o d e dlen H R S L.
  assert (W : wp (hex_decode_ord BE (b, o) (length src) (d, e) dlen)
     (decoded (hex_be_decode src) m d e (length src / 2)) m).
  { unfold hex_decode_ord. destruct (Nat.eqb_spec (length src mod 2) 0) as [Ev|Od].
    - destruct (Nat.leb_spec (length src / 2) dlen) as [G|G]; [|lia]. cbn [andb negb].
      apply wp_try. unfold room, separate in *. eapply wp_mono; [apply hex_decode_be_run; auto; unfold room; lia|].
      intros r m' (F & P). unfold decoded. destruct (hex_be_decode src) as [x|] eqn:Ex.
      + destruct P as [-> P]. apply wp_ret. split; [exact F|]. split; [|exact P].
        apply be_decode_length in Ex. do 2 f_equal. lia.
      + subst r. split; [exact F|reflexivity].
    - cbn [andb negb]. apply wp_ret. split; [apply Frame_refl|]. now rewrite be_decode_odd. }
  apply wp_inv in W as (r & m' & E & P). eauto.
Qed.
Lemma hex_decode_inplace_be_ok data :
  decodes_inplace (hex_decode_inplace_ord BE) data (length data / 2) (hex_be_decode data).
Proof.
  intros m b o H.
  assert (W : wp (hex_decode_inplace_ord BE (b, o) (length data)) (decoded (hex_be_decode data) m b o (length data / 2)) m).
  { unfold hex_decode_inplace_ord. destruct (Nat.eqb_spec (length data mod 2) 0) as [Ev|Od].
    - cbn [negb]. apply wp_try.
      eapply wp_mono; [apply hex_decode_be_run; auto; unfold room; destruct H as [_ [H _]]; lia|].
      intros r m' (F & P). unfold decoded. destruct (hex_be_decode data) as [x|] eqn:Ex.
      + destruct P as [-> P]. apply wp_ret. split; [exact F|]. split; [|exact P].
        apply be_decode_length in Ex. do 2 f_equal. lia.
      + subst r. split; [exact F|reflexivity].
    - cbn [negb]. apply wp_ret. split; [apply Frame_refl|]. now rewrite be_decode_odd. }
  apply wp_inv in W as (r & m' & E & P). eauto.
Qed.

(** ** The checks: base64 and base32 *)
Section Check64.
  Context (m0 : mem) (bs so : nat) (total : list Z) (k : b64_kind) (e : b64_extra) (en : endian).
  Notation ppt := (pp bs so total).
  Notation V := (V k e).
  Notation CIt := (CI m0 bs so total V).
  Notation post := (chk_post m0 total V).
  Notation cfg := {| b64_kind_of := k; b64_extra_of := e |}.
  Notation good := (fun x => negb (existsb (b64_bad k) x)).
  Hypothesis HB : bytes total.

  Lemma b64_check_ascii32_ord x : length x = 32%nat -> bytes x ->
    check_ascii_xn_ord en W256 x (lut_x2 (check_lut (b64_alsw k))) = Some (negb (existsb (b64_bad k) x)).
  Proof.
    intros L B. rewrite lut_x2_xn. rewrite check_ascii_xn_ord_ok; auto.
    - f_equal. clear. induction x as [|c x IH]; cbn [forallb existsb]; [reflexivity|]. rewrite negb_orb, IH. reflexivity.
    - apply point_c1, b64_alsw_exact.
  Qed.
  Lemma b64_check_ord_simd rest m n : CIt rest m -> n = length rest -> (n mod 4 <> 1)%nat ->
    wp (b64_check_simd_ord en (ppt rest) n cfg) post m.
  Proof.
    intros HI -> HN. unfold b64_check_simd_ord. cbn [b64_kind_of b64_extra_of]. cbn zeta.
    apply wp_try. eapply (chk_wloop m0 bs so total V 38 32 good); [lia| |exact HB|exact HI|lia| |apply post_false|].
    { intros. now apply (V_block k e 32). }
    { intros x r m' T Lx Bx Lr. cbn [fst snd]. assert (T' := T). apply RS_adv in T'.
      apply wp_bind. eapply wp_src_load; [exact T|exact Lx|].
      apply wp_bind. eapply wp_lift; [apply b64_check_ascii32_ord; auto|].
      destruct (negb _) eqn:G.
      - apply wp_bind. eapply wp_src_end; [exact T|exact Lx|]. apply wp_ret. split; [exact T'|]. rewrite app_length, Lx. do 2 f_equal. lia.
      - apply wp_ret. auto. }
    intros r m' HI' _ Hm Hl. cbn [fst snd]. apply b64_check_fallback_ok; auto. lia.
  Qed.
End Check64.

Lemma b64_check_ord_ok en cfg src :
  checks (b64_check_ord en cfg) src (match b64_dec cfg src with Some _ => true | None => false end).
Proof.
  intros m b o [B H].
  assert (W : wp (b64_check_ord en cfg (b, o) (length src)) (fun r m' =>
    r = (if match b64_dec cfg src with Some _ => true | None => false end then Ok tt else Err) /\ same_mem m m') m).
  { unfold b64_check_ord. apply wp_try. apply (decoded_length_wp m b o src cfg); [exact H|].
    unfold dl_result, b64_dec. destruct (b64_unpad (b64_extra_of cfg) src) as [t|] eqn:U.
    2:{ split; [reflexivity|]. intro. reflexivity. }
    destruct (Nat.eqb_spec (length t mod 4) 1) as [E1|N1].
    { rewrite b64d_mod1 by exact E1. split; [reflexivity|]. intro. reflexivity. }
    destruct (unpad_firstn _ _ _ U) as [j Ej].
    assert (Ht : slice m b o t) by (apply (slice_prefix m b o t (repeat 61 j)); rewrite <- Ej; now split).
    destruct Ht as [Bt Ht]. destruct cfg as [k e]. cbn [b64_kind_of b64_extra_of fst].
    rewrite <- (pp_total b o t). eapply wp_mono; [apply (b64_check_ord_simd m b o t k e en); auto; now apply CI_init|].
    intros r m' [F ->]. split; [|exact F]. unfold V, isSome. reflexivity. }
  apply wp_inv in W as (r & m' & E & -> & F). eauto.
Qed.

Section Check32.
  Context (m0 : mem) (bs so : nat) (total : list Z) (k : b32_kind) (en : endian).
  Notation ppt := (pp bs so total).
  Notation V := (V32 k).
  Notation CIt := (CI m0 bs so total V).
  Notation post := (chk_post m0 total V).
  Notation good := (fun x => negb (existsb (b32_bad k) x)).
  Hypothesis HB : bytes total.

  Lemma b32_check_ascii32_ord x : length x = 32%nat -> bytes x ->
    check_ascii_xn_ord en W256 x (lut_x2 (check_lut (b32_alsw k))) = Some (negb (existsb (b32_bad k) x)).
  Proof.
    intros L B. rewrite lut_x2_xn. rewrite check_ascii_xn_ord_ok; auto.
    - f_equal. clear. induction x as [|c x IH]; cbn [forallb existsb]; [reflexivity|]. rewrite negb_orb, IH. reflexivity.
    - apply point_c1, b32_alsw_exact.
  Qed.
  Lemma b32_check_ord_simd rest m n : CIt rest m -> n = length rest -> b32_len_ok n = true ->
    wp (b32_check_simd_ord en (ppt rest) n k) post m.
  Proof.
    intros HI -> HN. unfold b32_check_simd_ord. cbn zeta.
    destruct (split_blocks rest 32) as (a & b & -> & La & Lb); [lia|].
    apply wp_bind. eapply wp_src_end; [exact (proj1 HI)|exact La|].
    apply wp_try. eapply (chk_loop m0 bs so total V 32 good); [lia| |exact HI| |lia| |apply post32_false|].
    - intros. now apply (V32_block k 32).
    - rewrite La. apply Nat.mod_mul. lia.
    - clear m HI HN La Lb a b. intros x r m T Lx. assert (T' := T). apply RS_adv in T'.
      assert (Bx := TS_bytes _ _ _ _ _ _ _ _ _ _ HB T). apply bytes_app in Bx as [Bx _].
      apply wp_bind. eapply wp_src_load; [exact T|exact Lx|].
      apply wp_bind. eapply wp_lift; [apply b32_check_ascii32_ord; auto|].
      destruct (negb _) eqn:G.
      + apply wp_bind. eapply wp_src_end; [exact T|exact Lx|]. apply wp_ret. auto.
      + apply wp_ret. auto.
    - intros m' HI'. rewrite <- Lb. apply b32_check_fallback_ok; auto. rewrite <- b32_len_ok_mod in HN |- *.
      rewrite Lb. replace ((length (a ++ b) mod 32) mod 8)%nat with (length (a ++ b) mod 8)%nat by lia. exact HN.
  Qed.
End Check32.
Lemma b32_check_ord_ok en cfg src :
  checks (b32_check_ord en cfg) src (match b32_dec cfg src with Some _ => true | None => false end).
Proof.
  intros m b o [B H].
  assert (W : wp (b32_check_ord en cfg (b, o) (length src)) (fun r m' =>
    r = (if match b32_dec cfg src with Some _ => true | None => false end then Ok tt else Err) /\ same_mem m m') m).
  { unfold b32_check_ord. apply wp_try. apply (b32_decoded_length_wp m b o src cfg); [exact H|].
    unfold dl_result32, b32_dec. destruct (b32_unpad (b32_padding cfg) src) as [t|] eqn:U.
    2:{ split; [reflexivity|]. intro. reflexivity. }
    destruct (b32_len_ok (length t)) eqn:LO.
    2:{ rewrite b32d_bad_len by exact LO. split; [reflexivity|]. intro. reflexivity. }
    destruct (unpad32_prefix _ _ _ U) as [u Eu].
    assert (Ht : slice m b o t) by (apply (slice_prefix32 m b o t u); rewrite <- Eu; now split).
    destruct Ht as [Bt Ht]. destruct cfg as [k e]. cbn [b32_kind_of b32_padding fst].
    rewrite <- (pp_total b o t). eapply wp_mono; [apply (b32_check_ord_simd m b o t k en); auto; now apply CI_init|].
    intros r m' [F ->]. split; [|exact F]. unfold V32, isSome. reflexivity. }
  apply wp_inv in W as (r & m' & E & -> & F). eauto.
Qed.

(** ** Programs that differ in a kernel only *)
Lemma bindE {X Y} (c1 c2 : M X) (k1 k2 : X -> M Y) m : c1 m = c2 m -> (forall x m', k1 x m' = k2 x m') -> bind c1 k1 m = bind c2 k2 m.
Proof. intros H K. unfold bind. rewrite H. destruct (c2 m); auto. Qed.
Lemma liftE {X} (a b : option X) m : a = b -> lift a m = lift b m.
Proof. now intros ->. Qed.
Lemma tryE {X Y} (c1 c2 : M (result X)) (k1 k2 : X -> M (result Y)) m :
  c1 m = c2 m -> (forall x m', k1 x m' = k2 x m') -> try_ c1 k1 m = try_ c2 k2 m.
Proof. intros H K. unfold try_. apply bindE; [exact H|]. intros [x|] m'; [apply K|reflexivity]. Qed.
Lemma whileE {S} fuel c (b1 b2 : S -> M S) st m : (forall st m, b1 st m = b2 st m) -> while_ fuel c b1 st m = while_ fuel c b2 st m.
Proof.
  intro H. revert st m. induction fuel as [|f IH]; intros st m; [reflexivity|]. cbn [while_]. destruct (c st); [|reflexivity].
  apply bindE; [apply H|]. intros; apply IH.
Qed.
Lemma whileresE {S} fuel c (b1 b2 : S -> M (result S)) st m :
  (forall st m, b1 st m = b2 st m) -> while_res fuel c b1 st m = while_res fuel c b2 st m.
Proof.
  intro H. revert st m. induction fuel as [|f IH]; intros st m; [reflexivity|]. cbn [while_res]. destruct (c st); [|reflexivity].
  apply bindE; [apply H|]. intros [x|] m'; [apply IH|reflexivity].
Qed.

(** the loops over vectors are not entered when the input is short *)
Lemma b64_decoded_length_le src len cfg m nm m' : b64_decoded_length src len cfg m = Ret (Ok nm) m' -> (fst nm <= len)%nat.
Proof.
  unfold b64_decoded_length. destruct (len =? 0)%nat; [intro H; injection H as <- _; cbn; lia|].
  unfold try_, bind at 1. match goal with |- match ?c m with _ => _ end = _ -> _ => assert (K : forall r m1, c m = Ret r m1 -> match r with Ok n => (n <= len)%nat | Err => True end) end.
  { intros r m1. unfold bind, ret. destruct (b64_extra_of cfg); [| |]; try destruct (_ =? 0)%nat;
      try (destruct (b64_count_pad src len m) as [c mm| | |]; try discriminate); intro H; injection H as <- _; try exact I; lia. }
  match goal with |- match ?c m with _ => _ end = _ -> _ => destruct (c m) as [r m1| | |] eqn:E; try discriminate end.
  specialize (K _ _ eq_refl). destruct r as [n|]; [|discriminate]. unfold ret, ub.
  destruct (n mod 4)%nat as [|[|[|[|]]]]; try discriminate; intro H; injection H as <- _; exact K.
Qed.
Lemma b32_decoded_length_le src len p m nm m' : b32_decoded_length src len p m = Ret (Ok nm) m' -> (fst nm <= len)%nat.
Proof.
  unfold b32_decoded_length. destruct (len =? 0)%nat; [intro H; injection H as <- _; cbn; lia|].
  unfold try_, bind at 1. match goal with |- match ?c m with _ => _ end = _ -> _ => assert (K : forall r m1, c m = Ret r m1 -> match r with Ok n => (n <= len)%nat | Err => True end) end.
  { intros r m1. destruct p; [|unfold ret; intro H; injection H as <- _; lia].
    destruct (_ =? 0)%nat; [|unfold ret; intro H; injection H as <- _; exact I]. unfold bind.
    destruct (psub_len len 6 m) as [q m2| | |]; try discriminate. destruct (padd src q m2) as [q2 m3| | |]; try discriminate.
    destruct (load q2 6 m3) as [l m4| | |]; try discriminate. unfold ret. intro H. injection H as <- _. lia. }
  match goal with |- match ?c m with _ => _ end = _ -> _ => destruct (c m) as [r m1| | |] eqn:E; try discriminate end.
  specialize (K _ _ eq_refl). destruct r as [n|]; [|discriminate]. unfold ret.
  destruct (_ =? 255)%nat; [discriminate|]; intro H; injection H as <- _; exact K.
Qed.

(** ** UUIDs in simple form *)
Lemma uuid_format_simple_be case u : length u = 16%nat ->
  encodes (fun p _ q _ => r <- uuid_format_simple_ord BE p q case ;; ret (Ok r)) u (swapped (lut_of case) u).
Proof.
  intros L m b o d e dlen [B H] R S. unfold room, separate in *.
  assert (LE := swapped_len (lut_of case) u). rewrite LE, L in *. intro Ld.
  assert (W : wp (r <- uuid_format_simple_ord BE (b, o) (d, e) case ;; ret (Ok r)) (fun r m' =>
     r = Ok ((d, e), 32%nat) /\ bytes_at m' d e (swapped (lut_of case) u) /\ only_changed m d e 32 m') m).
  { unfold uuid_format_simple_ord, char_lut_simd. rewrite encode_lut_of. apply wp_bind, wp_bind, wp_bind.
    rewrite <- (pp_total b o u).
    assert (T : TS m b o u d e 32 [] u m) by (apply TS_init; auto; lia).
    rewrite <- (app_nil_r u) in T at 2. replace (pp b o u u) with (pp b o u (u ++ [])) by (now rewrite app_nil_r).
    eapply wp_src_load; [exact T|exact L|].
    apply wp_bind. eapply wp_lift; [apply encode_bytes16_be; auto; apply lut_len|].
    rewrite <- (qq_nil d e). eapply wp_dst_store; [exact T|cbn [length]; lia| |].
    - rewrite app_nil_r. cbn [length]. lia.
    - intros m' T'. apply wp_ret, wp_ret. split; [reflexivity|]. split; [eapply TS_out in T'; exact T'|eapply TS_frame; exact T']. }
  apply wp_inv in W as (r & m' & E & -> & H1 & H2). eauto.
Qed.
Lemma uuid_parse_simple_be t :
  decodes (fun p n q _ => uuid_parse_simple_ord BE p n q) t 16
    (if (length t =? 32)%nat then match rfc_hex_decode t with Some u => Some (map hi_digit u) | None => None end else None).
Proof.
  intros m b o d e dlen [B H] R S L. unfold room, separate in *. apply wp_inv. unfold uuid_parse_simple_ord.
  destruct (Nat.eqb_spec (length t) 32) as [L32|]; cbn [negb].
  2:{ apply wp_ret. split; [apply Frame_refl|reflexivity]. }
  rewrite <- be_decode_block by auto. apply wp_try.
  assert (T : TS m b o t d e 16 [] t m) by (apply TS_init; auto; lia).
  rewrite <- (pp_total b o t), <- (qq_nil d e). rewrite <- (app_nil_r t) in T at 2.
  replace (pp b o t t) with (pp b o t (t ++ [])) by (now rewrite app_nil_r).
  apply (dec32_be m b o t d e 16 B [] t [] m); auto.
  - rewrite app_nil_r. cbn [length]. lia.
  - intros m' HN F. rewrite HN. split; [exact F|reflexivity].
  - intros x m' HD Lx T'. cbn [app] in T'. rewrite HD. apply wp_ret. split; [eapply TS_frame; exact T'|].
    split; [rewrite Lx, qq_nil; reflexivity|eapply TS_out; exact T'].
Qed.
