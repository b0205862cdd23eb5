(** What base64 and base32 encoding and decoding compute on big-endian AArch64 (LaneOrderWhole.v), exactly. *)
From Coq Require Import ZArith List Bool Lia ZifyNat.
From Verif Require Import Bytes Mem MemFacts Loops Loops2 Slices Codec Isa Simd SimdFacts Alsw AlswFacts Spec Ints Hex HexSimdFacts
  Base64 Base64Facts Base64SimdFacts Base64DecFacts Base64Api Base32 Base32Facts Base32SimdFacts Base32SimdDec Base32DecFacts Base32Api
  Base64Ref Base32Ref LaneOrder LaneOrderFacts LaneOrderWhole LaneOrderExact.
Import ListNotations.
Open Scope Z_scope.
Open Scope m_scope.
Ltac Zify.zify_post_hook ::= Z.div_mod_to_equations.

Section Blocks.
  Context (m0 : mem) (bs so : nat) (total : list Z) (bd d0 cap : nat).
  Notation ppt := (pp bs so total).
  Notation qqt := (qq bd d0).
  Notation TSt := (TS m0 bs so total bd d0 cap).

  (** an encoder with an invariant result, whose blocks may depend on how much is left *)
  Section Enc.
    Context (F B : list Z -> list Z) (res : list Z).
    Hypothesis cap_eq : cap = length res.
    Hypothesis disj : (bs <> bd \/ so + length total <= d0 \/ d0 + cap <= so)%nat.
    Definition FI (out rest : list Z) (m : mem) : Prop := TSt out rest m /\ out ++ F rest = res.

    Lemma FI_cap out rest m ys zs : FI out rest m -> F rest = ys ++ zs -> (length out + length ys <= cap)%nat.
    Proof.
      clear disj. intros [_ H] HE. rewrite HE in H. apply (f_equal (@length Z)) in H. rewrite !app_length in H. lia.
    Qed.
    Lemma FI_alias out rest m ys zs : FI out rest m -> F rest = ys ++ zs ->
      (bs <> bd \/ so + length total <= d0 \/ d0 + length out + length ys <= so + (length total - length rest))%nat.
    Proof. intros H HE. pose proof (FI_cap _ _ _ _ _ H HE). lia. Qed.

    Lemma blk_wloop c k fuel body out rest m (Q : ptr * ptr * nat -> mem -> Prop) :
      (0 < k <= c)%nat -> (forall x r, length x = k -> (c <= length (x ++ r))%nat -> F (x ++ r) = B x ++ F r) ->
      FI out rest m -> (length rest < fuel)%nat ->
      (forall out x r m, TSt out (x ++ r) m -> length x = k -> (c <= length (x ++ r) <= length rest)%nat ->
         (length out + length (B x) <= cap)%nat ->
         (bs <> bd \/ so + length total <= d0 \/ d0 + length out + length (B x) <= so + (length total - length (x ++ r)))%nat ->
         wp (body (ppt (x ++ r), qqt out, length (x ++ r)))
            (fun st m' => st = (ppt r, qqt (out ++ B x), length r) /\ TSt (out ++ B x) r m') m) ->
      (forall out r m, FI out r m -> (length r < c)%nat -> (length r <= length rest)%nat -> Q (ppt r, qqt out, length r) m) ->
      wp (while_ fuel (fun st => (c <=? snd st)%nat) body (ppt rest, qqt out, length rest)) Q m.
    Proof.
      intros Hk HE HI Hf Hb HQ.
      apply (loop_io (fun o r => (ppt r, qqt o, length r)) (fun o r m => FI o r m /\ (length r <= length rest)%nat)); auto.
      - intros out' rest' m' [HI' L'] C. cbn [snd] in C. apply Nat.leb_le in C.
        destruct (split_at rest' k) as (x & r & -> & Lx); [lia|]. assert (EX := HE x r Lx C).
        eapply wp_mono.
        + apply Hb; auto; [exact (proj1 HI')|eapply FI_cap; eauto|eapply FI_alias; eauto].
        + intros st m2 [-> T]. exists (out' ++ B x), r. rewrite app_length in L' |- *.
          split; [reflexivity|]. split; [split; [split; [exact T|]|lia]|lia].
          rewrite <- app_assoc, <- EX. exact (proj2 HI').
      - intros out' rest' m' [HI' L'] C. cbn [snd] in C. apply Nat.leb_gt in C. now apply HQ.
    Qed.
  End Enc.

  (** a decoder likewise *)
  Section Dec.
    Context (R B : list Z -> option (list Z)) (dl : nat -> nat).
    Notation DIt := (DI m0 bs so total bd d0 cap R dl).
    Lemma blk_dwloop c k fuel body out rest m (Q : result (ptr * ptr * nat) -> mem -> Prop) :
      (0 < k <= c)%nat ->
      (forall x r, length x = k -> bytes x -> (c <= length (x ++ r))%nat -> R (x ++ r) = match B x with Some o => oapp o (R r) | None => None end) ->
      (forall n, dl (k + n) = dl k + dl n)%nat -> (dl k <= k)%nat -> bytes total ->
      DIt out rest m -> (length rest < fuel)%nat ->
      (forall out x r m, TSt out (x ++ r) m -> length x = k -> bytes x -> (c <= length (x ++ r))%nat ->
         (length out + dl k + dl (length r) = cap)%nat ->
         (length out + length (x ++ r) <= length total)%nat ->
         wp (body (ppt (x ++ r), qqt out, length (x ++ r))) (fun st m' => match st with
           | Err => B x = None /\ Frame m0 bd d0 cap m'
           | Ok st => exists o, B x = Some o /\ length o = dl k /\ st = (ppt r, qqt (out ++ o), length r) /\ TSt (out ++ o) r m'
           end) m) ->
      (forall m, R total = None -> Frame m0 bd d0 cap m -> Q Err m) ->
      (forall out r m, DIt out r m -> (length r < c)%nat -> (length r mod k = length rest mod k)%nat -> Q (Ok (ppt r, qqt out, length r)) m) ->
      wp (while_res fuel (fun st => (c <=? snd st)%nat) body (ppt rest, qqt out, length rest)) Q m.
    Proof.
      intros Hk HD Hdl Hle HB HI Hf Hb HE HQ.
      apply (loop_io_res (fun o r => (ppt r, qqt o, length r)) (fun o r m => DIt o r m /\ (length r mod k = length rest mod k)%nat)); auto.
      - intros out' rest' m' [HI' L'] C. cbn [snd] in C. apply Nat.leb_le in C.
        destruct (split_at rest' k) as (x & r & -> & Lx); [lia|].
        pose proof HI' as (T & H & HL & HA).
        assert (Bx := TS_bytes _ _ _ _ _ _ _ _ _ _ HB T). apply bytes_app in Bx as [Bx _].
        assert (DX := HD x r Lx Bx C).
        eapply wp_mono.
        + apply Hb; auto. rewrite app_length, Lx, Hdl in HL. lia.
        + intros [st|] m2.
          * intros (o & Ho & Lo & -> & T'). exists (out' ++ o), r. rewrite Ho in DX. rewrite app_length in *.
            split; [reflexivity|]. split; [split|lia].
            -- eapply DI_step; eauto; [rewrite app_length, Lx, Hdl; lia|lia].
            -- rewrite <- L', Lx. replace (k + length r)%nat with (length r + 1 * k)%nat by lia. now rewrite Nat.mod_add by lia.
          * intros [HN F]. apply HE; auto. rewrite HN in DX. eapply DI_fail; eauto.
      - intros out' rest' m' [HI' L'] C. cbn [snd] in C. apply Nat.leb_gt in C. now apply HQ.
    Qed.
  End Dec.

  (** portable code that takes over in the middle *)
  Lemma enc_rerun E (prog : ptr -> nat -> ptr -> M unit) out rest m :
    (forall m b o src d e, bytes src -> bytes_at m b o src -> (e + length (E src) <= length (m d))%nat ->
       (b <> d \/ o + length src <= e \/ e + length (E src) <= o)%nat ->
       wp (prog (b, o) (length src) (d, e)) (fun _ m' => bytes_at m' d e (E src) /\ Frame m d e (length (E src)) m') m) ->
    bytes total -> (bs <> bd \/ so + length total <= d0 \/ d0 + cap <= so)%nat ->
    TSt out rest m -> (length out + length (E rest) = cap)%nat ->
    wp (prog (ppt rest) (length rest) (qqt out)) (fun _ m' => bytes_at m' bd d0 (out ++ E rest) /\ Frame m0 bd d0 cap m') m.
  Proof.
    intros HP HB D T HL. assert (Bx := TS_bytes _ _ _ _ _ _ _ _ _ _ HB T). assert (Lt := TS_suffix _ _ _ _ _ _ _ _ _ _ T).
    pose proof T as [_ [F Hc Ho Hol Hs Ha]]. pose proof F as (_ & FL & _).
    unfold pp, qq. eapply wp_mono; [apply HP; auto; lia|]. intros _ m' [A F']. split.
    - apply bytes_at_app. split; [|exact A]. eapply Frame_bytes_at; [exact F'|exact Ho|lia].
    - eapply Frame_trans; [exact F|]. eapply Frame_weaken; [exact F'|]. lia.
  Qed.
  Lemma dec_rerun D (dl : nat -> nat) (prog : ptr -> nat -> ptr -> M (result unit)) out rest m :
    (forall m b o src d e, slice m b o src -> room m d e (dl (length src)) -> (b <> d \/ o + length src <= e \/ e <= o)%nat ->
       length src = length rest ->
       wp (prog (b, o) (length src) (d, e)) (fun r m' => only_changed m d e (dl (length src)) m' /\
         match D src with Some x => r = Ok tt /\ bytes_at m' d e x /\ length x = dl (length src) | None => r = Err end) m) ->
    bytes total -> (bs <> bd \/ so + length total <= d0 \/ d0 <= so)%nat ->
    TSt out rest m -> (length out + dl (length rest) = cap)%nat -> (length out + length rest <= length total)%nat ->
    wp (prog (ppt rest) (length rest) (qqt out)) (fun r m' => Frame m0 bd d0 cap m' /\
       match oapp out (D rest) with Some x => r = Ok tt /\ bytes_at m' bd d0 x /\ length x = cap | None => r = Err end) m.
  Proof.
    intros HP HB A T HL HA. assert (Bx := TS_bytes _ _ _ _ _ _ _ _ _ _ HB T). assert (Lt := TS_suffix _ _ _ _ _ _ _ _ _ _ T).
    pose proof T as [_ [F Hc Ho Hol Hs Ha]]. pose proof F as (_ & FL & _).
    unfold pp, qq. eapply wp_mono; [apply HP; auto; [split; auto|unfold room; lia|lia]|]. intros r m' [F' P]. split.
    - eapply Frame_trans; [exact F|]. eapply Frame_weaken; [exact F'|]. lia.
    - destruct (D rest) as [x|]; cbn [oapp]; [|exact P]. destruct P as (-> & P & Lx). split; [reflexivity|]. split; [|rewrite app_length; lia].
      apply bytes_at_app. split; [|exact P]. eapply Frame_bytes_at; [exact F'|exact Ho|lia].
  Qed.
End Blocks.

(** ** base64 encoding *)
Lemma lsextets_app x r : (length x mod 3 = 0)%nat -> lsextets (x ++ r) = lsextets x ++ lsextets r.
Proof.
  induction x as [|a|a b|a b c x IH] using list_ind3; intro H; try discriminate H; [reflexivity|].
  cbn [app lsextets]. rewrite IH; [now rewrite app_assoc|cbn [length] in H; lia].
Qed.
Section Enc64.
  Context (k : b64_kind) (e : b64_extra).
  Notation E := (b64e k (b64_padding e)).
  (** the last vector of twelve bytes, then what follows the vectors of 24 bytes *)
  Definition be64_cut (j : nat) (l : list Z) : list Z := b64_chars k (lsextets (firstn j l)) ++ E (skipn j l).
  Definition be64_t (n : nat) : nat := if (16 <=? n)%nat then 12%nat else 0%nat.
  Definition be64_j (n : nat) : nat := ((n - 4) / 24 * 24)%nat.
  Definition be64_tail (l : list Z) : list Z := be64_cut (be64_t (length l)) l.
  Definition be64_mid (l : list Z) : list Z :=
    let j := be64_j (length l) in be64_cut (j + be64_t (length l - j)) l.
  Definition be64 (l : list Z) : list Z := if (34 <=? length l)%nat then E (firstn 6 l) ++ be64_mid (skipn 6 l) else be64_tail l.

  Lemma be64_cut_app j x r : (length x mod 3 = 0)%nat -> be64_cut (length x + j) (x ++ r) = b64_chars k (lsextets x) ++ be64_cut j r.
  Proof.
    intro H. unfold be64_cut. rewrite firstn_app_2. rewrite lsextets_app by exact H. unfold b64_chars. rewrite map_app, <- app_assoc.
    do 3 f_equal. rewrite skipn_app. rewrite skipn_all2 by lia. cbn [app]. f_equal. lia.
  Qed.
  Lemma be64_mid_step x r : length x = 24%nat -> (28 <= length (x ++ r))%nat -> be64_mid (x ++ r) = b64_chars k (lsextets x) ++ be64_mid r.
  Proof.
    intros Lx L. unfold be64_mid. cbn zeta. rewrite app_length, Lx in *.
    assert (EJ : be64_j (24 + length r) = (24 + be64_j (length r))%nat) by (unfold be64_j; lia). rewrite EJ.
    replace (24 + length r - (24 + be64_j (length r)))%nat with (length r - be64_j (length r))%nat by lia.
    rewrite <- Nat.add_assoc. rewrite <- Lx. apply be64_cut_app. now rewrite Lx.
  Qed.
  Lemma be64_mid_small r : (length r < 28)%nat -> be64_mid r = be64_tail r.
  Proof.
    intro L. unfold be64_mid, be64_tail. cbn zeta. assert (EJ : be64_j (length r) = 0%nat) by (unfold be64_j; lia). rewrite EJ, Nat.sub_0_r. reflexivity.
  Qed.
  Lemma be64_cut_len j l : (j <= length l)%nat -> (j mod 3 = 0)%nat -> length (be64_cut j l) = length (E l).
  Proof.
    intros L J. unfold be64_cut. rewrite app_length, b64_chars_len, lsextets_len, firstn_length_le by exact L.
    rewrite <- (firstn_skipn j l) at 2. rewrite b64e_app by (rewrite firstn_length_le; auto). rewrite app_length. f_equal.
    rewrite b64e_sextets by (rewrite firstn_length_le; auto). rewrite b64_chars_len, sextets_len, firstn_length_le by exact L. reflexivity.
  Qed.
  Lemma be64_mid_len l : length (be64_mid l) = length (E l).
  Proof. unfold be64_mid. cbn zeta. unfold be64_t, be64_j. destruct (Nat.leb_spec 16 (length l - (length l - 4) / 24 * 24)); apply be64_cut_len; lia. Qed.
  Lemma be64_tail_len l : length (be64_tail l) = length (E l).
  Proof. unfold be64_tail, be64_t. destruct (Nat.leb_spec 16 (length l)); apply be64_cut_len; lia. Qed.
  Lemma be64_len l : length (be64 l) = length (E l).
  Proof.
    unfold be64. destruct (Nat.leb_spec 34 (length l)); [|apply be64_tail_len].
    rewrite app_length, be64_mid_len. rewrite <- (firstn_skipn 6 l) at 3. rewrite b64e_app by (rewrite firstn_length_le by lia; reflexivity).
    now rewrite app_length.
  Qed.
End Enc64.

Lemma b64_fallback_run cfg m b o src d e : bytes src -> bytes_at m b o src ->
  let E := b64e (b64_kind_of cfg) (b64_padding (b64_extra_of cfg)) in
  (e + length (E src) <= length (m d))%nat -> (b <> d \/ o + length src <= e \/ e + length (E src) <= o)%nat ->
  wp (b64_encode_fallback (b, o) (length src) (d, e) cfg) (fun _ m' => bytes_at m' d e (E src) /\ Frame m d e (length (E src)) m') m.
Proof.
  destruct cfg as [k x]. cbn [b64_kind_of b64_extra_of]. cbv zeta. intros B A R S.
  rewrite <- (pp_total b o src), <- (qq_nil d e). eapply wp_mono.
  - apply (b64_encode_fallback_ok m b o src d e (length (b64e k (b64_padding x) src))); auto. apply EI_init; auto. 
  - intros u m' T. unfold done in T. split; [eapply TS_out; exact T|eapply TS_frame; exact T].
Qed.

Section Enc64Run.
  Context (m0 : mem) (bs so : nat) (total : list Z) (bd d0 cap : nat) (k : b64_kind) (e : b64_extra).
  Notation ppt := (pp bs so total).
  Notation qqt := (qq bd d0).
  Notation TSt := (TS m0 bs so total bd d0 cap).
  Notation E := (b64e k (b64_padding e)).
  Notation cfg := {| b64_kind_of := k; b64_extra_of := e |}.
  Hypothesis HB : bytes total.
  Hypothesis cap_eq : cap = length (be64 k e total).
  Hypothesis disj : (bs <> bd \/ so + length total <= d0 \/ d0 + cap <= so)%nat.
  Hypothesis HA : bytes_at m0 bs so total.
  Hypothesis room : (d0 + cap <= length (m0 bd))%nat.
  Definition edone (_ : unit) (m : mem) : Prop := bytes_at m bd d0 (be64 k e total) /\ Frame m0 bd d0 cap m.

  Lemma be64_tail_run out rest m : TSt out rest m -> out ++ be64_tail k e rest = be64 k e total ->
    wp (let '(src, dst, len) := (ppt rest, qqt out, length rest) in
        ' (src, dst, len) <-
          (if (12 + 4 <=? len)%nat then
             x <- load src 16 ;;
             y <- lift (encode_bytes12_ord BE x (encoding_shift (b64_charset k))) ;;
             store dst y ;;;
             src <- padd src 12 ;;
             dst <- padd dst 16 ;;
             ret (src, dst, len - 12)%nat
           else ret (src, dst, len)) ;;
        b64_encode_fallback src len dst cfg) edone m.
  Proof.
    intros T HR. unfold edone. rewrite <- HR in *. clear HR. rewrite app_length in cap_eq. change (12 + 4)%nat with 16%nat.
    unfold be64_tail, be64_t in *. destruct (Nat.leb_spec 16 (length rest)) as [G|G].
    - destruct (split_at rest 16) as (v & r & -> & Lv); [lia|].
      destruct (split_at v 12) as (x & y & -> & Lx); [lia|].
      assert (Ly : length y = 4%nat) by (rewrite app_length in Lv; lia).
      assert (Bx := TS_bytes _ _ _ _ _ _ _ _ _ _ HB T). apply bytes_app in Bx as [Bv _].
      apply wp_bind, wp_bind. eapply wp_src_load; [exact T|exact Lv|].
      apply wp_bind. eapply wp_lift; [apply encode_bytes12_be; auto|].
      unfold be64_cut in *. rewrite <- app_assoc in *. rewrite !(firstn_app_exact x) in * by exact Lx. rewrite !(skipn_app_exact x) in * by exact Lx.
      set (z := b64_chars k (lsextets x)) in *. rewrite (app_length z) in cap_eq.
      apply wp_bind. eapply wp_dst_store; [exact T|lia|lia|]. intros m1 T1.
      apply wp_bind. eapply wp_src_end; [exact T1|exact Lx|]. apply TS_adv in T1.
      apply wp_bind. eapply wp_dst_add; [exact T1|unfold z; rewrite b64_chars_len, lsextets_len, Lx; reflexivity|].
      apply wp_ret. rewrite (app_assoc out). replace (length (x ++ y ++ r) - 12)%nat with (length (y ++ r)) by (rewrite (app_length x); lia).
      apply (enc_rerun m0 bs so total bd d0 cap E (fun p n q => b64_encode_fallback p n q cfg)); auto.
      + intros. now apply (b64_fallback_run cfg).
      + rewrite app_length. lia.
    - apply wp_bind, wp_ret. unfold be64_cut in *. cbn [firstn lsextets skipn] in *. change (b64_chars k []) with (@nil Z) in *. cbn [app] in *.
      apply (enc_rerun m0 bs so total bd d0 cap E (fun p n q => b64_encode_fallback p n q cfg)); auto.
      intros. now apply (b64_fallback_run cfg).
  Qed.

  Lemma be64_run : wp (b64_encode_simd_ord BE (ppt total) (length total) (qqt []) cfg) edone m0.
  Proof.
    assert (T : TSt [] total m0) by (apply TS_init; auto; lia).
    unfold b64_encode_simd_ord. cbn [b64_kind_of b64_extra_of]. cbn zeta.
    assert (RES : [] ++ be64 k e total = be64 k e total) by reflexivity. unfold be64 at 1 in RES.
    apply wp_bind. change (6 + 24 + 4)%nat with 34%nat. destruct (Nat.leb_spec 34 (length total)) as [G|G]; [|apply wp_ret; now apply be64_tail_run].
    destruct (split_at total 6) as (h & r & Et & Lh); [lia|].
    assert (Lr := app_length h r). rewrite <- Et in Lr.
    rewrite Et in RES at 1 2. rewrite firstn_app_exact in RES by exact Lh. rewrite skipn_app_exact in RES by exact Lh. cbn [app] in RES.
    assert (Hc : (length (E h) + length (be64_mid k e r) = cap)%nat) by (rewrite cap_eq, <- RES; now rewrite app_length).
    apply wp_bind. eapply wp_mono with (Q := fun st m' => st = (ppt r, qqt (E h), length r) /\ TSt (E h) r m').
    { assert (CE : cap = length (E total)) by (rewrite cap_eq; apply be64_len). clear RES. destruct (split_at h 3) as (h1 & h2 & -> & L1); [lia|]. assert (L2 : length h2 = 3%nat) by (rewrite app_length in Lh; lia).
      assert (EH : E (h1 ++ h2) = E h1 ++ E h2) by (apply b64e_app; now rewrite L1). rewrite EH, (app_length (E h1)) in Hc. rewrite EH.
      assert (Lt : length total = (3 + (3 + length r))%nat) by lia.
      assert (T0 : TSt [] (h1 ++ h2 ++ r) m0) by (rewrite app_assoc, <- Et; exact T).
      assert (PE : ppt total = ppt (h1 ++ h2 ++ r)) by (rewrite app_assoc, <- Et; reflexivity). rewrite PE.
      cbn [for_]. apply wp_bind, wp_bind. cbn [fst snd]. eapply wp_mono; [apply (enc24_ok m0 bs so total bd d0 cap k e HB CE disj [] h1 (h2 ++ r)); [exact T0|exact L1|lia|cbn [length]; lia|]|].
      { cbn [length]. rewrite !app_length. lia. }
      intros st m' [-> T']. apply wp_ret. cbn [fst snd app].
      apply wp_bind, wp_bind. eapply wp_mono; [apply (enc24_ok m0 bs so total bd d0 cap k e HB CE disj (E h1) h2 r); [exact T'|exact L2|lia|lia|]|].
      { rewrite !app_length. lia. }
      intros st m2 [-> T2]. apply wp_ret, wp_ret. split; [|exact T2]. f_equal. lia. }
    intros st m1 [-> T1]. change (24 + 4)%nat with 28%nat.
    eapply (blk_wloop m0 bs so total bd d0 cap (be64_mid k e) (fun x => b64_chars k (lsextets x)) (be64 k e total) cap_eq disj 28 24); [lia| |split; [exact T1|exact RES]|lia| |].
    { intros. now apply be64_mid_step. }
    { intros out' x q m' T' Lx Lq Hc' Ha'.
      assert (Lxq := app_length x q).
      eapply (wp_load_back m0 bs so total bd d0 cap disj); [exact HA|exact HB|exact T'|lia|lia|].
      rewrite Lx. intros v Lv Bv Ev.
      apply wp_bind. eapply wp_lift; [apply encode_bytes24_be; auto|]. rewrite Ev.
      apply wp_bind. eapply wp_dst_store; [exact T'|exact Hc'|exact Ha'|]. intros m2 T2.
      apply wp_bind. eapply wp_src_end; [exact T2|exact Lx|]. apply TS_adv in T2.
      apply wp_bind. eapply wp_dst_add; [exact T2|rewrite b64_chars_len, lsextets_len, Lx; reflexivity|].
      apply wp_ret. split; [|exact T2]. f_equal. lia. }
    intros out' r' m' [T' R'] L _. apply be64_tail_run; [exact T'|]. now rewrite <- be64_mid_small.
  Qed.
End Enc64Run.

Lemma b64_encode_be_ok cfg src : encodes (b64_encode_ord BE cfg) src (be64 (b64_kind_of cfg) (b64_extra_of cfg) src).
Proof.
  intros m b o d e dlen [B H] R S. unfold Slices.room, separate in *. destruct cfg as [k x]. cbn [b64_kind_of b64_extra_of].
  assert (LE := b64e_len k x src). assert (LB := be64_len k x src). rewrite LB, LE. intro L.
  assert (W : wp (b64_encode_ord BE {| b64_kind_of := k; b64_extra_of := x |} (b, o) (length src) (d, e) dlen) (fun r m' =>
     r = Ok ((d, e), b64_encoded_length_unchecked (length src) {| b64_kind_of := k; b64_extra_of := x |}) /\
     bytes_at m' d e (be64 k x src) /\
     only_changed m d e (b64_encoded_length_unchecked (length src) {| b64_kind_of := k; b64_extra_of := x |}) m') m).
  { unfold b64_encode_ord. cbn zeta. set (cap := b64_encoded_length_unchecked _ _) in *.
    destruct (Nat.leb_spec cap dlen) as [G|G]; [|lia]. cbn [negb].
    apply wp_bind. rewrite <- (pp_total b o src), <- (qq_nil d e) at 1.
    eapply wp_mono; [apply (be64_run m b o src d e cap); auto; lia|].
    intros u m' [A F]. apply wp_ret. auto. }
  apply wp_inv in W as (r & m' & EE & -> & H1 & H2). eauto.
Qed.

(** ** base32 encoding *)
Lemma bocts_app x r : (length x mod 5 = 0)%nat -> bocts (x ++ r) = bocts x ++ bocts r.
Proof.
  induction x as [l H|a b c d e x IH] using list_ind5; intro L.
  - rewrite Nat.mod_small in L by exact H. destruct l; [reflexivity|discriminate L].
  - cbn [app bocts]. rewrite IH; [now rewrite app_assoc|cbn [length] in L; lia].
Qed.
Section Enc32.
  Context (k : b32_kind) (pad : bool).
  Notation E := (b32e k pad).
  Definition be32_j (n : nat) : nat := ((n - 6) / 20 * 20)%nat.
  Definition be32_mid (l : list Z) : list Z :=
    let j := be32_j (length l) in b32_chars k (bocts (firstn j l)) ++ E (skipn j l).
  Definition be32 (l : list Z) : list Z := if (36 <=? length l)%nat then E (firstn 10 l) ++ be32_mid (skipn 10 l) else E l.

  Lemma be32_mid_step x r : length x = 20%nat -> (26 <= length (x ++ r))%nat -> be32_mid (x ++ r) = b32_chars k (bocts x) ++ be32_mid r.
  Proof.
    intros Lx L. unfold be32_mid. cbn zeta. rewrite app_length, Lx in *.
    assert (EJ : be32_j (20 + length r) = (length x + be32_j (length r))%nat) by (unfold be32_j; lia). rewrite EJ.
    rewrite firstn_app_2. rewrite bocts_app by (now rewrite Lx). unfold b32_chars. rewrite map_app, <- app_assoc.
    do 3 f_equal. rewrite skipn_app. rewrite skipn_all2 by lia. cbn [app]. f_equal. lia.
  Qed.
  Lemma be32_mid_small r : (length r < 26)%nat -> be32_mid r = E r.
  Proof.
    intro L. unfold be32_mid. cbn zeta. assert (EJ : be32_j (length r) = 0%nat) by (unfold be32_j; lia). rewrite EJ. reflexivity.
  Qed.
  Lemma be32_mid_len l : length (be32_mid l) = length (E l).
  Proof.
    unfold be32_mid. cbn zeta. set (j := be32_j (length l)). assert (L : (j <= length l)%nat) by (unfold j, be32_j; lia).
    assert (J : (j mod 5 = 0)%nat) by (unfold j, be32_j; lia).
    rewrite app_length, b32_chars_len, bocts_len, firstn_length_le by exact L.
    rewrite <- (firstn_skipn j l) at 2. rewrite b32e_app by (rewrite firstn_length_le; auto). rewrite app_length. f_equal.
    rewrite b32e_octs by (rewrite firstn_length_le; auto). rewrite b32_chars_len, octs_len, firstn_length_le by exact L. reflexivity.
  Qed.
  Lemma be32_len l : length (be32 l) = length (E l).
  Proof.
    unfold be32. destruct (Nat.leb_spec 36 (length l)); [|reflexivity].
    rewrite app_length, be32_mid_len. rewrite <- (firstn_skipn 10 l) at 3. rewrite b32e_app by (rewrite firstn_length_le by lia; reflexivity).
    now rewrite app_length.
  Qed.
End Enc32.

Lemma b32_fallback_run t k pad m b o src d e : bytes src -> bytes_at m b o src ->
  (e + length (b32e k pad src) <= length (m d))%nat -> (b <> d \/ o + length src <= e \/ e + length (b32e k pad src) <= o)%nat ->
  wp (b32_encode_fallback t (b, o) (length src) (d, e) k pad)
    (fun _ m' => bytes_at m' d e (b32e k pad src) /\ Frame m d e (length (b32e k pad src)) m') m.
Proof.
  intros B A R S.
  rewrite <- (pp_total b o src), <- (qq_nil d e). eapply wp_mono.
  - apply (b32_encode_fallback_ok m b o src d e (length (b32e k pad src))); auto. apply EI_init; auto.
  - intros u m' T. unfold done32 in T. split; [eapply TS_out; exact T|eapply TS_frame; exact T].
Qed.

Section Enc32Run.
  Context (m0 : mem) (bs so : nat) (total : list Z) (bd d0 cap : nat) (k : b32_kind) (pad : bool).
  Notation ppt := (pp bs so total).
  Notation qqt := (qq bd d0).
  Notation TSt := (TS m0 bs so total bd d0 cap).
  Notation E := (b32e k pad).
  Hypothesis HB : bytes total.
  Hypothesis cap_eq : cap = length (be32 k pad total).
  Hypothesis disj : (bs <> bd \/ so + length total <= d0 \/ d0 + cap <= so)%nat.
  Hypothesis HA : bytes_at m0 bs so total.
  Hypothesis room : (d0 + cap <= length (m0 bd))%nat.
  Definition edone32 (_ : unit) (m : mem) : Prop := bytes_at m bd d0 (be32 k pad total) /\ Frame m0 bd d0 cap m.

  Lemma be32_tail_run out rest m : TSt out rest m -> out ++ E rest = be32 k pad total ->
    wp (b32_encode_fallback (aarch64 BE) (ppt rest) (length rest) (qqt out) k pad) edone32 m.
  Proof.
    intros T HR. unfold edone32. rewrite <- HR in *. clear HR. rewrite app_length in cap_eq.
    apply (enc_rerun m0 bs so total bd d0 cap E (fun p n q => b32_encode_fallback (aarch64 BE) p n q k pad)); auto.
    intros. now apply b32_fallback_run.
  Qed.
  Lemma be32_run : wp (b32_encode_simd_ord BE (ppt total) (length total) (qqt []) k pad) edone32 m0.
  Proof.
    assert (T : TSt [] total m0) by (apply TS_init; auto; lia).
    unfold b32_encode_simd_ord. cbn zeta. change (10 + 20 + 6)%nat with 36%nat. change (20 + 6)%nat with 26%nat.
    assert (RES : [] ++ be32 k pad total = be32 k pad total) by reflexivity. unfold be32 at 1 in RES.
    apply wp_bind. destruct (Nat.leb_spec 36 (length total)) as [G|G]; [|apply wp_ret; now apply be32_tail_run].
    destruct (split_at total 10) as (h & r & Et & Lh); [lia|].
    assert (Lr := app_length h r). rewrite <- Et in Lr.
    rewrite Et in RES at 1 2. rewrite firstn_app_exact in RES by exact Lh. rewrite skipn_app_exact in RES by exact Lh. cbn [app] in RES.
    assert (Hc : (length (E h) + length (be32_mid k pad r) = cap)%nat) by (rewrite cap_eq, <- RES; now rewrite app_length).
    assert (CE : cap = length (E total)) by (rewrite cap_eq; apply be32_len).
    destruct (split_at h 5) as (h1 & h2 & -> & L1); [lia|]. assert (L2 : length h2 = 5%nat) by (rewrite app_length in Lh; lia).
    assert (EH : E (h1 ++ h2) = E h1 ++ E h2) by (apply b32e_app; now rewrite L1). rewrite EH in *. rewrite (app_length (E h1)) in Hc.
    assert (Lt : length total = (5 + (5 + length r))%nat) by lia.
    assert (T0 : TSt [] (h1 ++ h2 ++ r) m0) by (rewrite app_assoc, <- Et; exact T).
    assert (PE : ppt total = ppt (h1 ++ h2 ++ r)) by (rewrite app_assoc, <- Et; reflexivity). rewrite PE.
    apply wp_bind. eapply wp_mono; [apply (enc40_ok m0 bs so total bd d0 cap (aarch64 BE) k pad HB CE disj [] h1 (h2 ++ r)); [exact T0|exact L1|cbn [length]; lia|]|].
    { cbn [length]. rewrite !app_length. lia. }
    intros st m1 [-> T1]. cbn [app] in T1 |- *.
    apply wp_bind. eapply wp_mono; [apply (enc40_ok m0 bs so total bd d0 cap (aarch64 BE) k pad HB CE disj (E h1) h2 r); [exact T1|exact L2|lia|]|].
    { rewrite !app_length. lia. }
    intros st m2 [-> T2].
    replace (length total - 10)%nat with (length r) by lia.
    eapply (blk_wloop m0 bs so total bd d0 cap (be32_mid k pad) (fun x => b32_chars k (bocts x)) (be32 k pad total) cap_eq disj 26 20); [lia| |split; [exact T2|exact RES]|lia| |].
    { intros. now apply be32_mid_step. }
    { intros out' x q m' T' Lx Lq Hc' Ha'.
      assert (Lxq := app_length x q).
      eapply (wp_load_back m0 bs so total bd d0 cap disj); [exact HA|exact HB|exact T'|lia|lia|].
      rewrite Lx. intros v Lv Bv Ev.
      apply wp_bind. eapply wp_lift; [apply encode_bytes20_be; auto|]. rewrite Ev.
      apply wp_bind. eapply wp_dst_store; [exact T'|exact Hc'|exact Ha'|]. intros m3 T3.
      apply wp_bind. eapply wp_src_end; [exact T3|exact Lx|]. apply TS_adv in T3.
      apply wp_bind. eapply wp_dst_add; [exact T3|rewrite b32_chars_len, bocts_len, Lx; reflexivity|].
      apply wp_ret. split; [|exact T3]. f_equal. lia. }
    intros out' r' m' [T' R'] L _. apply be32_tail_run; [exact T'|]. now rewrite <- be32_mid_small.
  Qed.
End Enc32Run.

Lemma b32_encode_be_ok cfg src : encodes (b32_encode_ord BE cfg) src (be32 (b32_kind_of cfg) (b32_padding cfg) src).
Proof.
  intros m b o d e dlen [B H] R S. unfold Slices.room, separate in *. destruct cfg as [k x]. cbn [b32_kind_of b32_padding].
  assert (LE := b32e_len k x src). assert (LB := be32_len k x src). rewrite LB, LE. intro L.
  assert (W : wp (b32_encode_ord BE {| b32_kind_of := k; b32_padding := x |} (b, o) (length src) (d, e) dlen) (fun r m' =>
     r = Ok ((d, e), b32_encoded_length_unchecked (length src) x) /\
     bytes_at m' d e (be32 k x src) /\
     only_changed m d e (b32_encoded_length_unchecked (length src) x) m') m).
  { unfold b32_encode_ord. cbn zeta. cbn [b32_kind_of b32_padding]. set (cap := b32_encoded_length_unchecked _ _) in *.
    destruct (Nat.leb_spec cap dlen) as [G|G]; [|lia]. cbn [negb].
    apply wp_bind. rewrite <- (pp_total b o src), <- (qq_nil d e) at 1.
    eapply wp_mono; [apply (be32_run m b o src d e cap); auto; lia|].
    intros u m' [A F]. apply wp_ret. auto. }
  apply wp_inv in W as (r & m' & EE & -> & H1 & H2). eauto.
Qed.

(** ** base64 decoding *)

(** three right bytes and what is stored for them *)
Fixpoint garble3 (l : list Z) : list Z :=
  match l with
  | p :: q :: r :: t => btrip (p / 4) ((p mod 4) * 16 + q / 16) ((q mod 16) * 4 + r / 64) (r mod 64) ++ garble3 t
  | _ => []
  end.
Lemma garble3_app x r : (length x mod 3 = 0)%nat -> garble3 (x ++ r) = garble3 x ++ garble3 r.
Proof.
  induction x as [|a|a b|a b c x IH] using list_ind3; intro H; try discriminate H; [reflexivity|].
  cbn [app garble3]. rewrite IH; [now rewrite app_assoc|cbn [length] in H; lia].
Qed.
Lemma garble3_len x : (length x mod 3 = 0)%nat -> length (garble3 x) = length x.
Proof.
  induction x as [|a|a b|a b c x IH] using list_ind3; intro H; try discriminate H; [reflexivity|].
  cbn [garble3 btrip app length]. rewrite IH; [lia|cbn [length] in H; lia].
Qed.
Lemma btriples_garble l : (length l mod 4 = 0)%nat -> Forall six l -> btriples l = garble3 (triples l).
Proof.
  induction l as [|a|a b|a b c|a b c d r IH] using list_ind4; intros L F; try reflexivity; try discriminate L.
  cbn [btriples triples trip app garble3].
  assert (H : six a /\ six b /\ six c /\ six d /\ Forall six r).
  { do 4 (inversion F as [|? ? ? F']; subst; clear F; rename F' into F). auto. }
  destruct H as (Ha & Hb & Hc & Hd & Hr). rewrite <- IH; [|cbn [length] in L; lia|exact Hr]. unfold six in *.
  f_equal. f_equal; lia.
Qed.
Definition be64d_j (n : nat) : nat := (24 * ((n - 6) / 32))%nat.
Definition be64d (k : b64_kind) (fg : bool) (l : list Z) : option (list Z) :=
  match b64d k fg l with
  | Some o => let j := be64d_j (length l) in Some (garble3 (firstn j o) ++ skipn j o)
  | None => None
  end.
Definition be64d_block (k : b64_kind) (x : list Z) : option (list Z) :=
  if existsb (b64_bad k) x then None else Some (garble3 (triples (map (dv k) x))).
Lemma be64d_step k fg x r : length x = 32%nat -> (38 <= length (x ++ r))%nat ->
  be64d k fg (x ++ r) = match be64d_block k x with Some o => oapp o (be64d k fg r) | None => None end.
Proof.
  intros Lx L. unfold be64d, be64d_block. rewrite b64d_block by (now rewrite Lx). destruct (existsb (b64_bad k) x); [reflexivity|].
  destruct (b64d k fg r) as [o|]; cbn [oapp]; [|reflexivity]. rewrite app_length in *.
  set (y := triples (map (dv k) x)). assert (Ly : length y = 24%nat) by (unfold y; rewrite triples_len, map_length, Lx; reflexivity).
  assert (EJ : be64d_j (length x + length r) = (length y + be64d_j (length r))%nat) by (unfold be64d_j; lia). rewrite EJ.
  rewrite firstn_app_2, garble3_app by (now rewrite Ly). rewrite skipn_app, skipn_all2 by lia. cbn [app].
  replace (length y + be64d_j (length r) - length y)%nat with (be64d_j (length r)) by lia. now rewrite app_assoc.
Qed.
Lemma be64d_small k fg r : (length r < 38)%nat -> be64d k fg r = b64d k fg r.
Proof.
  intro L. unfold be64d. assert (EJ : be64d_j (length r) = 0%nat) by (unfold be64d_j; lia). rewrite EJ. destruct (b64d k fg r); reflexivity.
Qed.

Section Dec64Run.
  Context (m0 : mem) (bs so : nat) (total : list Z) (bd d0 cap : nat) (k : b64_kind) (e : b64_extra).
  Notation ppt := (pp bs so total).
  Notation qqt := (qq bd d0).
  Notation TSt := (TS m0 bs so total bd d0 cap).
  Notation fg := (b64_forgiving e).
  Notation cfg := {| b64_kind_of := k; b64_extra_of := e |}.
  Notation R := (be64d k fg).
  Hypothesis HB : bytes total.
  Hypothesis alias : (bs <> bd \/ so + length total <= d0 \/ d0 <= so)%nat.
  Definition ddone (r : result unit) (m : mem) : Prop := Frame m0 bd d0 cap m /\
    match R total with Some x => r = Ok tt /\ bytes_at m bd d0 x /\ length x = cap | None => r = Err end.

  Lemma be64d_run : DI m0 bs so total bd d0 cap R b64_dl [] total m0 -> (length total mod 4 <> 1)%nat ->
    wp (b64_decode_simd_ord BE (ppt total) (qqt []) (length total) cfg) ddone m0.
  Proof.
    intros HI HN. unfold b64_decode_simd_ord. cbn [b64_kind_of b64_extra_of]. cbn zeta.
    apply wp_try. eapply (blk_dwloop m0 bs so total bd d0 cap R (be64d_block k) b64_dl 38 32); [lia| | | |exact HB|exact HI|lia| | |].
    - intros. now apply be64d_step.
    - intro. now apply dl_add.
    - change (b64_dl 32) with 24%nat. lia.
    - clear HI HN. intros out x r m T Lx Bx Lr Hc Ha. change (b64_dl 32) with 24%nat in *.
      assert (Lt := TS_suffix _ _ _ _ _ _ _ _ _ _ T).
      assert (Lxr := app_length x r).
      assert (R2 : (4 <= b64_dl (length r))%nat) by (unfold b64_dl; lia).
      apply wp_bind. eapply wp_src_load; [exact T|exact Lx|].
      apply wp_bind. eapply wp_lift; [apply b64_decode_ascii32_be; auto|].
      unfold be64d_block. destruct (existsb (b64_bad k) x) eqn:G.
      { apply wp_ret. split; [reflexivity|eapply TS_frame; exact T]. }
      assert (S6 := b64_vals_six k x Bx G).
      apply TS_adv in T. change (al_decode (b64_alsw k)) with (dv k) in *.
      rewrite <- btriples_garble by (auto; now rewrite map_length, Lx).
      assert (Lm : length (map (dv k) x) = 32%nat) by (now rewrite map_length). revert Lm S6. generalize (map (dv k) x). intros v Lv S6.
      destruct (split_at v 16) as (x1 & x2 & -> & L1); [lia|].
      assert (L2 : length x2 = 16%nat) by (rewrite app_length in Lv; lia).
      set (y1 := btriples x1). set (y2 := btriples x2).
      assert (Lt1 : length y1 = 12%nat) by (unfold y1; clear - L1; explode x1; reflexivity).
      assert (Lt2 : length y2 = 12%nat) by (unfold y2; clear - L2; explode x2; reflexivity).
      assert (EM : bmerged (x1 ++ x2) = (y1 ++ [0; 0; 0; 0]) ++ (y2 ++ [0; 0; 0; 0])).
      { unfold bmerged. rewrite firstn_app_exact, skipn_app_exact by exact L1. now rewrite <- !app_assoc. }
      rewrite EM. unfold lo128, hi128. rewrite firstn_app_exact, skipn_app_exact by (rewrite app_length, Lt1; reflexivity).
      assert (ET : btriples (x1 ++ x2) = y1 ++ y2) by (unfold y1, y2; clear - L1; explode x1; reflexivity).
      rewrite ET.
      apply wp_bind. eapply (wp_dst_store_part m0 bs so total bd d0 cap _ _ _ _ 12); [exact T| | | |].
      1,2,3: rewrite app_length, Lt1; cbn [length]; lia.
      rewrite firstn_app_exact by exact Lt1. intros m1 T1.
      apply wp_bind. eapply wp_dst_add; [exact T1|exact Lt1|].
      apply wp_bind. eapply (wp_dst_store_part m0 bs so total bd d0 cap _ _ _ _ 12); [exact T1| | | |].
      1,2,3: rewrite ?app_length, ?Lt1, ?Lt2; cbn [length]; lia.
      rewrite firstn_app_exact by exact Lt2. intros m2 T2. rewrite <- app_assoc in T2.
      apply wp_bind. eapply wp_src_add; [exact T2|exact Lx| |exact Lt].
      apply wp_bind. eapply wp_dst_add; [exact T2|rewrite app_length, Lt1, Lt2; reflexivity|]. apply wp_ret.
      eexists. split; [reflexivity|]. split; [rewrite app_length, Lt1, Lt2; reflexivity|].
      split; [|exact T2]. do 2 f_equal. lia.
    - intros m' HF F. split; [exact F|]. now rewrite HF.
    - intros out r m' (T & HR & HL & HA) Hr Hm. rewrite (be64d_small k fg r) in HR by exact Hr.
      unfold ddone. rewrite HR.
      apply (dec_rerun m0 bs so total bd d0 cap (b64d k fg) b64_dl (fun p n q => b64_decode_fallback BE p q n cfg)); auto.
      intros m2 b o src d f Hs Hroom Hal Hlen.
      apply (b64_impl_run BE Fallback k e); auto; [now left|rewrite Hlen; lia].
  Qed.
End Dec64Run.

(** the text without its padding decides how many bytes vectors handle *)
Definition b64_be_dec (cfg : b64_config) (src : list Z) : option (list Z) :=
  match b64_unpad (b64_extra_of cfg) src with
  | Some t => be64d (b64_kind_of cfg) (b64_forgiving (b64_extra_of cfg)) t
  | None => None
  end.
Lemma be64d_len k fg t x : be64d k fg t = Some x -> length x = b64_dl (length t).
Proof.
  unfold be64d. destruct (b64d k fg t) as [o|] eqn:D; [|discriminate]. cbn zeta. intro H. injection H as <-.
  apply b64d_len in D. rewrite <- D. set (j := be64d_j (length t)). assert (L : (j <= length o)%nat).
  { rewrite D. unfold j, be64d_j, b64_dl. lia. }
  rewrite app_length, garble3_len, skipn_length; rewrite firstn_length_le by exact L; [lia|]. unfold j, be64d_j. lia.
Qed.
Lemma b64_decode_be_run cfg m b o src d e dlen (inpl : bool) : slice m b o src -> room m d e (b64_need cfg src) ->
  (b <> d \/ o + length src <= e \/ e <= o)%nat -> (b64_need cfg src <= dlen)%nat ->
  wp (try_ (b64_decoded_length (b, o) (length src) cfg) (fun nm =>
      if negb inpl && negb (snd nm <=? dlen)%nat then ret Err else
      try_ (b64_decode_simd_ord BE (b, o) (d, e) (fst nm) cfg) (fun _ => ret (Ok ((d, e), snd nm)))))
   (decoded (b64_be_dec cfg src) m d e (b64_need cfg src)) m.
Proof.
  intros H R S L. unfold Slices.room in *.
  apply wp_try. apply (decoded_length_wp m b o src cfg); [apply H|].
  unfold dl_result, b64_need, b64_be_dec in *. destruct (b64_unpad (b64_extra_of cfg) src) as [t|] eqn:U.
  2:{ split; [apply Frame_refl|reflexivity]. }
  destruct (Nat.eqb_spec (length t mod 4) 1) as [E1|N1].
  { split; [apply Frame_refl|]. unfold be64d. now rewrite b64d_mod1. }
  rewrite <- b64_dl_bits in *. cbn [fst snd].
  destruct (unpad_firstn _ _ _ U) as [j Ej]. assert (Hl : (length t <= length src)%nat) by (rewrite Ej, app_length; lia).
  assert (Ht : slice m b o t) by (rewrite Ej in H; now apply slice_prefix in H).
  destruct (Nat.leb_spec (b64_dl (length t)) dlen) as [G|G]; [|lia]. rewrite andb_false_r.
  apply wp_try. destruct cfg as [k x]. cbn [b64_kind_of b64_extra_of] in *. destruct Ht as [Bt Ht].
  rewrite <- (pp_total b o t), <- (qq_nil d e).
  eapply wp_mono; [apply (be64d_run m b o t d e (b64_dl (length t)) k x); auto; [lia|apply DI_init; auto; lia]|].
  intros r m' (F & P). unfold decoded. destruct (be64d k (b64_forgiving x) t) as [y|].
  - destruct P as (-> & A & Ly). apply wp_ret. split; [exact F|]. rewrite Ly, qq_nil. auto.
  - subst r. split; [exact F|reflexivity].
Qed.
Lemma b64_decode_be_ok cfg src : decodes (b64_decode_ord BE cfg) src (b64_need cfg src) (b64_be_dec cfg src).
Proof.
  intros m b o d e dlen H R S L. apply wp_inv. apply (b64_decode_be_run cfg m b o src d e dlen false); auto; unfold room, separate in *; lia.
Qed.
Lemma b64_decode_inplace_be_ok cfg data : decodes_inplace (b64_decode_inplace_ord BE cfg) data (b64_need cfg data) (b64_be_dec cfg data).
Proof.
  intros m b o H. apply wp_inv. pose proof (b64_need_le cfg data).
  apply (b64_decode_be_run cfg m b o data b o (b64_need cfg data) true); auto; unfold room; destruct H as [_ [H _]]; lia.
Qed.

(** ** base32 decoding *)
Fixpoint garble5 (l : list Z) : list Z :=
  match l with
  | p :: q :: r :: s :: t :: u =>
      bquint (p / 8) ((p mod 8) * 4 + q / 64) (q / 2 mod 32) ((q mod 2) * 16 + r / 16) ((r mod 16) * 2 + s / 128) (s / 4 mod 32)
             ((s mod 4) * 8 + t / 32) (t mod 32) ++ garble5 u
  | _ => []
  end.
Lemma garble5_app x r : (length x mod 5 = 0)%nat -> garble5 (x ++ r) = garble5 x ++ garble5 r.
Proof.
  induction x as [l H|a b c d e x IH] using list_ind5; intro L.
  - rewrite Nat.mod_small in L by exact H. destruct l; [reflexivity|discriminate L].
  - cbn [app garble5]. rewrite IH; [now rewrite app_assoc|cbn [length] in L; lia].
Qed.
Lemma garble5_len x : (length x mod 5 = 0)%nat -> length (garble5 x) = length x.
Proof.
  induction x as [l H|a b c d e x IH] using list_ind5; intro L.
  - rewrite Nat.mod_small in L by exact H. destruct l; [reflexivity|discriminate L].
  - cbn [garble5 bquint app length]. rewrite IH; [lia|cbn [length] in L; lia].
Qed.
Lemma bquints_garble l : (length l mod 8 = 0)%nat -> Forall five l -> bquints l = garble5 (quints l).
Proof.
  induction l as [l H|a b c d e f g h r IH] using list_ind8; intros L F.
  - rewrite Nat.mod_small in L by exact H. destruct l; [reflexivity|discriminate L].
  - unfold bquints in *. cbn [groups8 quints quint app garble5]. inv_five.
    rewrite <- IH; [|cbn [length] in L; lia|assumption]. unfold five in *.
    f_equal. f_equal; lia.
Qed.
Definition be32d_j (n : nat) : nat := (20 * ((n - 10) / 32))%nat.
Definition be32d (k : b32_kind) (l : list Z) : option (list Z) :=
  match b32d k l with
  | Some o => let j := be32d_j (length l) in Some (garble5 (firstn j o) ++ skipn j o)
  | None => None
  end.
Definition be32d_block (k : b32_kind) (x : list Z) : option (list Z) :=
  if existsb (b32_bad k) x then None else Some (garble5 (quints (map (dv32 k) x))).
Lemma be32d_step k x r : length x = 32%nat -> (42 <= length (x ++ r))%nat ->
  be32d k (x ++ r) = match be32d_block k x with Some o => oapp o (be32d k r) | None => None end.
Proof.
  intros Lx L. unfold be32d, be32d_block. rewrite b32d_block by (now rewrite Lx). destruct (existsb (b32_bad k) x); [reflexivity|].
  destruct (b32d k r) as [o|]; cbn [oapp]; [|reflexivity]. rewrite app_length in *.
  set (y := quints (map (dv32 k) x)). assert (Ly : length y = 20%nat) by (unfold y; rewrite quints_len, map_length, Lx; reflexivity).
  assert (EJ : be32d_j (length x + length r) = (length y + be32d_j (length r))%nat) by (unfold be32d_j; lia). rewrite EJ.
  rewrite firstn_app_2, garble5_app by (now rewrite Ly). rewrite skipn_app, skipn_all2 by lia. cbn [app].
  replace (length y + be32d_j (length r) - length y)%nat with (be32d_j (length r)) by lia. now rewrite app_assoc.
Qed.
Lemma be32d_small k r : (length r < 42)%nat -> be32d k r = b32d k r.
Proof.
  intro L. unfold be32d. assert (EJ : be32d_j (length r) = 0%nat) by (unfold be32d_j; lia). rewrite EJ. destruct (b32d k r); reflexivity.
Qed.

Section Dec32Run.
  Context (m0 : mem) (bs so : nat) (total : list Z) (bd d0 cap : nat) (k : b32_kind).
  Notation ppt := (pp bs so total).
  Notation qqt := (qq bd d0).
  Notation TSt := (TS m0 bs so total bd d0 cap).
  Notation R := (be32d k).
  Hypothesis HB : bytes total.
  Hypothesis alias : (bs <> bd \/ so + length total <= d0 \/ d0 <= so)%nat.
  Definition ddone32 (r : result unit) (m : mem) : Prop := Frame m0 bd d0 cap m /\
    match R total with Some x => r = Ok tt /\ bytes_at m bd d0 x /\ length x = cap | None => r = Err end.

  Lemma be32d_run : DI m0 bs so total bd d0 cap R b32_dl [] total m0 -> b32_len_ok (length total) = true ->
    wp (b32_decode_simd_ord BE (ppt total) (length total) (qqt []) k) ddone32 m0.
  Proof.
    intros HI HN. unfold b32_decode_simd_ord. cbn zeta.
    apply wp_try. eapply (blk_dwloop m0 bs so total bd d0 cap R (be32d_block k) b32_dl 42 32); [lia| | | |exact HB|exact HI|lia| | |].
    - intros. now apply be32d_step.
    - intro. now apply b32_dl_add'.
    - change (b32_dl 32) with 20%nat. lia.
    - clear HI HN. intros out x r m T Lx Bx Lr Hc Ha. change (b32_dl 32) with 20%nat in *.
      assert (Lt := TS_suffix _ _ _ _ _ _ _ _ _ _ T).
      assert (Lxr := app_length x r).
      assert (R2 : (6 <= b32_dl (length r))%nat) by (unfold b32_dl; lia).
      apply wp_bind. eapply wp_src_load; [exact T|exact Lx|].
      apply wp_bind. eapply wp_lift; [apply b32_decode_ascii32_be; auto|].
      unfold be32d_block. destruct (existsb (b32_bad k) x) eqn:G.
      { apply wp_ret. split; [reflexivity|eapply TS_frame; exact T]. }
      assert (S5 := b32_vals_five k x Bx G).
      apply TS_adv in T. change (al_decode (b32_alsw k)) with (dv32 k) in *.
      rewrite <- bquints_garble by (auto; now rewrite map_length, Lx).
      assert (Lm : length (map (dv32 k) x) = 32%nat) by (now rewrite map_length). revert Lm S5. generalize (map (dv32 k) x). intros v Lv S5.
      destruct (split_at v 16) as (x1 & x2 & -> & L1); [lia|].
      assert (L2 : length x2 = 16%nat) by (rewrite app_length in Lv; lia).
      set (y1 := bquints x1). set (y2 := bquints x2).
      assert (Lt1 : length y1 = 10%nat) by (unfold y1; clear - L1; explode x1; reflexivity).
      assert (Lt2 : length y2 = 10%nat) by (unfold y2; clear - L2; explode x2; reflexivity).
      assert (EM : bmerged32 (x1 ++ x2) = (y1 ++ zeros6) ++ (y2 ++ zeros6)).
      { unfold bmerged32. rewrite firstn_app_exact, skipn_app_exact by exact L1. now rewrite <- !app_assoc. }
      rewrite EM. unfold lo128, hi128. rewrite firstn_app_exact, skipn_app_exact by (rewrite app_length, Lt1; reflexivity).
      assert (ET : bquints (x1 ++ x2) = y1 ++ y2) by (unfold y1, y2; clear - L1; explode x1; reflexivity).
      rewrite ET.
      apply wp_bind. eapply (wp_dst_store_part m0 bs so total bd d0 cap _ _ _ _ 10); [exact T| | | |].
      1,2,3: rewrite app_length, Lt1; cbn [length zeros6]; lia.
      rewrite firstn_app_exact by exact Lt1. intros m1 T1.
      apply wp_bind. eapply wp_dst_add; [exact T1|exact Lt1|].
      apply wp_bind. eapply (wp_dst_store_part m0 bs so total bd d0 cap _ _ _ _ 10); [exact T1| | | |].
      1,2,3: rewrite ?app_length, ?Lt1, ?Lt2; cbn [length zeros6]; lia.
      rewrite firstn_app_exact by exact Lt2. intros m2 T2. rewrite <- app_assoc in T2.
      apply wp_bind. eapply wp_src_add; [exact T2|exact Lx| |exact Lt].
      apply wp_bind. eapply wp_dst_add; [exact T2|rewrite app_length, Lt1, Lt2; reflexivity|]. apply wp_ret.
      eexists. split; [reflexivity|]. split; [rewrite app_length, Lt1, Lt2; reflexivity|].
      split; [|exact T2]. do 2 f_equal. lia.
    - intros m' HF F. split; [exact F|]. now rewrite HF.
    - intros out r m' (T & HR & HL & HA) Hr Hm. rewrite (be32d_small k r) in HR by exact Hr.
      unfold ddone32. rewrite HR.
      apply (dec_rerun m0 bs so total bd d0 cap (b32d k) b32_dl (fun p n q => b32_decode_fallback (aarch64 BE) p n q k)); auto.
      intros m2 b o src d f Hs Hroom Hal Hlen.
      apply (b32_impl_run (aarch64 BE) Fallback k); auto; [now left|]. rewrite Hlen, <- b32_len_ok_mod.
      rewrite <- b32_len_ok_mod in HN. replace (length r mod 8)%nat with (length total mod 8)%nat by lia. exact HN.
  Qed.
End Dec32Run.
Definition b32_be_dec (cfg : b32_config) (src : list Z) : option (list Z) :=
  match b32_unpad (b32_padding cfg) src with Some t => be32d (b32_kind_of cfg) t | None => None end.
Lemma b32_decode_be_run cfg m b o src d e dlen (inpl : bool) : slice m b o src -> room m d e (b32_need cfg src) ->
  (b <> d \/ o + length src <= e \/ e <= o)%nat -> (b32_need cfg src <= dlen)%nat ->
  wp (try_ (b32_decoded_length (b, o) (length src) (b32_padding cfg)) (fun nm =>
      if negb inpl && negb (snd nm <=? dlen)%nat then ret Err else
      try_ (b32_decode_simd_ord BE (b, o) (fst nm) (d, e) (b32_kind_of cfg)) (fun _ => ret (Ok ((d, e), snd nm)))))
   (decoded (b32_be_dec cfg src) m d e (b32_need cfg src)) m.
Proof.
  intros H R S L. unfold Slices.room in *.
  apply wp_try. apply (b32_decoded_length_wp m b o src cfg); [apply H|].
  unfold dl_result32, b32_need, b32_be_dec in *. destruct (b32_unpad (b32_padding cfg) src) as [t|] eqn:U.
  2:{ split; [apply Frame_refl|reflexivity]. }
  destruct (b32_len_ok (length t)) eqn:LO.
  2:{ split; [apply Frame_refl|]. unfold be32d. now rewrite b32d_bad_len. }
  fold (b32_dl (length t)) in *. cbn [fst snd].
  destruct (unpad32_prefix _ _ _ U) as [u Eu]. assert (Hl : (length t <= length src)%nat) by (rewrite Eu, app_length; lia).
  assert (Ht : slice m b o t) by (rewrite Eu in H; now apply slice_prefix32 in H).
  destruct (Nat.leb_spec (b32_dl (length t)) dlen) as [G|G]; [|lia]. rewrite andb_false_r.
  apply wp_try. destruct cfg as [k x]. cbn [b32_kind_of b32_padding] in *. destruct Ht as [Bt Ht].
  rewrite <- (pp_total b o t), <- (qq_nil d e).
  eapply wp_mono; [apply (be32d_run m b o t d e (b32_dl (length t)) k); auto; [lia|apply DI_init; auto; lia]|].
  intros r m' (F & P). unfold decoded. destruct (be32d k t) as [y|].
  - destruct P as (-> & A & Ly). apply wp_ret. split; [exact F|]. rewrite Ly, qq_nil. auto.
  - subst r. split; [exact F|reflexivity].
Qed.
Lemma b32_decode_be_ok cfg src : decodes (b32_decode_ord BE cfg) src (b32_need cfg src) (b32_be_dec cfg src).
Proof.
  intros m b o d e dlen H R S L. apply wp_inv. apply (b32_decode_be_run cfg m b o src d e dlen false); auto; unfold room, separate in *; lia.
Qed.
Lemma b32_decode_inplace_be_ok cfg data : decodes_inplace (b32_decode_inplace_ord BE cfg) data (b32_need cfg data) (b32_be_dec cfg data).
Proof.
  intros m b o H. apply wp_inv. pose proof (b32_need_le cfg data).
  apply (b32_decode_be_run cfg m b o data b o (b32_need cfg data) true); auto; unfold room; destruct H as [_ [H _]]; lia.
Qed.
