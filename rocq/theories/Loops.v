(** Loop rules for code that walks over a source and appends to a destination. *)
From Coq Require Import ZArith List Bool Lia ZifyNat.
From Verif Require Import Bytes Mem MemFacts.
Import ListNotations.
Open Scope m_scope.
Ltac Zify.zify_post_hook ::= Z.div_mod_to_equations.

Lemma loop_io {S} (mk : list Z -> list Z -> S) (I : list Z -> list Z -> mem -> Prop)
    fuel cond (body : S -> M S) out rest m (Q : S -> mem -> Prop) :
  I out rest m -> (length rest < fuel)%nat ->
  (forall out rest m, I out rest m -> cond (mk out rest) = true ->
     wp (body (mk out rest)) (fun st m' => exists out' rest',
        st = mk out' rest' /\ I out' rest' m' /\ (length rest' < length rest)%nat) m) ->
  (forall out rest m, I out rest m -> cond (mk out rest) = false -> Q (mk out rest) m) ->
  wp (while_ fuel cond body (mk out rest)) Q m.
Proof.
  intros HI Hf Hb HQ. revert out rest m HI Hf. induction fuel as [|f IH]; intros out rest m HI Hf; [lia|].
  cbn [while_]. destruct (cond (mk out rest)) eqn:C; [|now apply wp_ret, HQ].
  apply wp_bind. eapply wp_mono; [now apply Hb|]. intros st m' (out' & rest' & -> & HI' & L).
  apply IH; [exact HI'|lia].
Qed.

Lemma loop_io_res {S} (mk : list Z -> list Z -> S) (I : list Z -> list Z -> mem -> Prop)
    fuel cond (body : S -> M (result S)) out rest m (Q : result S -> mem -> Prop) :
  I out rest m -> (length rest < fuel)%nat ->
  (forall out rest m, I out rest m -> cond (mk out rest) = true ->
     wp (body (mk out rest)) (fun r m' => match r with
        | Ok st => exists out' rest', st = mk out' rest' /\ I out' rest' m' /\ (length rest' < length rest)%nat
        | Err => Q Err m' end) m) ->
  (forall out rest m, I out rest m -> cond (mk out rest) = false -> Q (Ok (mk out rest)) m) ->
  wp (while_res fuel cond body (mk out rest)) Q m.
Proof.
  intros HI Hf Hb HQ. revert out rest m HI Hf. induction fuel as [|f IH]; intros out rest m HI Hf; [lia|].
  cbn [while_res]. destruct (cond (mk out rest)) eqn:C; [|now apply wp_ret, HQ].
  apply wp_bind. eapply wp_mono; [now apply Hb|]. intros [st|] m'.
  - intros (out' & rest' & -> & HI' & L). apply IH; [exact HI'|lia].
  - intro HE. now apply wp_ret.
Qed.

Lemma wp_and {A} (c : M A) (P : Prop) Q m : P -> wp c Q m -> wp c (fun a m' => P /\ Q a m') m.
Proof. intros HP H. eapply wp_mono; [exact H|]. auto. Qed.

(** a suffix of a multiple-of-[k] prefix: peel one block *)
Lemma peel_block {A} (a tail : list A) k :
  (0 < k)%nat -> (length a mod k = 0)%nat -> (length (a ++ tail) =? length tail)%nat = false ->
  exists x a', a = x ++ a' /\ length x = k /\ (length a' mod k = 0)%nat.
Proof.
  intros Hk Hm H. apply Nat.eqb_neq in H. rewrite app_length in H.
  assert (k <= length a)%nat.
  { apply Nat.mod_divide in Hm; [|lia]. destruct Hm as [q Hq]. destruct q; nia. }
  destruct (split_at a k) as (x & a' & -> & Lx); auto. exists x, a'. repeat split; auto.
  rewrite app_length, Lx in Hm. replace (k + length a')%nat with (length a' + 1 * k)%nat in Hm by lia.
  now rewrite Nat.mod_add in Hm by lia.
Qed.

Section IO.
  Context (m0 : mem) (bs so : nat) (total : list Z) (bd d0 cap : nat).
  Notation ppt := (pp bs so total).
  Notation qqt := (qq bd d0).
  Notation TSt := (TS m0 bs so total bd d0 cap).

  Lemma pp_total : ppt total = (bs, so).
  Proof. unfold pp. now rewrite Nat.sub_diag, Nat.add_0_r. Qed.
  Lemma qq_nil : qqt [] = (bd, d0).
  Proof. unfold qq. cbn [length]. now rewrite Nat.add_0_r. Qed.

  Lemma TS_bytes out rest m : bytes total -> TSt out rest m -> bytes rest.
  Proof. intros B [[c E] _]. rewrite E in B. now apply bytes_app in B. Qed.

  Lemma wp_src_end out x rest m k (Q : ptr -> mem -> Prop) :
    TSt out (x ++ rest) m -> length x = k -> Q (ppt rest) m -> wp (padd (ppt (x ++ rest)) k) Q m.
  Proof.
    intros T L HQ. eapply wp_src_add; [eapply TS_adv; exact T|exact L|exact HQ|].
    eapply TS_suffix; exact T.
  Qed.

  Lemma wp_src_end_all out rest m k (Q : ptr -> mem -> Prop) :
    TSt out rest m -> length rest = k -> Q (ppt []) m -> wp (padd (ppt rest) k) Q m.
  Proof.
    intros T L HQ. rewrite <- (app_nil_r rest) in T |- *. now apply (wp_src_end out).
  Qed.

  Lemma wp_src_read1 out a rest m (Q : Z -> mem -> Prop) :
    TSt out (a :: rest) m -> Q a m -> wp (read (ppt (a :: rest)) 0) Q m.
  Proof. intros T HQ. apply (wp_src_read m0 bs so total bd d0 cap out [a] rest); auto. Qed.

  Lemma TS_frame out rest m : TSt out rest m -> Frame m0 bd d0 cap m.
  Proof. now intros [_ []]. Qed.
  Lemma TS_out out rest m : TSt out rest m -> bytes_at m bd d0 out.
  Proof. now intros [_ []]. Qed.

  (** *** Encoders: [out ++ E rest] never changes *)
  Section Enc.
    Context (E : list Z -> list Z).
    Hypothesis cap_eq : cap = length (E total).
    Hypothesis disj : (bs <> bd \/ so + length total <= d0 \/ d0 + cap <= so)%nat.
    Definition EI (out rest : list Z) (m : mem) : Prop := TSt out rest m /\ out ++ E rest = E total.

    Lemma EI_init : bytes_at m0 bs so total -> (d0 + cap <= length (m0 bd))%nat -> EI [] total m0.
    Proof. intros H1 H2. split; [|reflexivity]. apply TS_init; auto. lia. Qed.

    (** appending a prefix of what is to come *)
    Lemma EI_cap out rest m ys zs : EI out rest m -> E rest = ys ++ zs -> (length out + length ys <= cap)%nat.
    Proof.
      clear disj. intros [_ H] HE. rewrite HE in H. apply (f_equal (@length Z)) in H. rewrite !app_length in H. lia.
    Qed.
    Lemma EI_alias out rest m ys zs : EI out rest m -> E rest = ys ++ zs ->
      (bs <> bd \/ so + length total <= d0 \/ d0 + length out + length ys <= so + (length total - length rest))%nat.
    Proof. intros H HE. pose proof (EI_cap _ _ _ _ _ H HE). lia. Qed.

    Lemma enc_loop k fuel body out a tail m (Q : ptr * ptr -> mem -> Prop) :
      (0 < k)%nat ->
      (forall x r, length x = k -> E (x ++ r) = E x ++ E r) ->
      EI out (a ++ tail) m -> (length a mod k = 0)%nat -> (length (a ++ tail) < fuel)%nat ->
      (forall out x r m, TSt out (x ++ r) m -> length x = k ->
         (length out + length (E x) <= cap)%nat ->
         (bs <> bd \/ so + length total <= d0 \/ d0 + length out + length (E x) <= so + (length total - length (x ++ r)))%nat ->
         wp (body (ppt (x ++ r), qqt out)) (fun st m' => st = (ppt r, qqt (out ++ E x)) /\ TSt (out ++ E x) r m') m) ->
      (forall out m, EI out tail m -> Q (ppt tail, qqt out) m) ->
      wp (while_ fuel (fun st => plt (fst st) (ppt tail)) body (ppt (a ++ tail), qqt out)) Q m.
    Proof.
      intros Hk HE HI Hm Hf Hb HQ.
      apply (loop_io (fun o r => (ppt r, qqt o))
        (fun o r m => EI o r m /\ exists a, r = a ++ tail /\ (length a mod k = 0)%nat)); auto.
      - split; [auto|]. exists a. auto.
      - clear out a m HI Hm Hf. intros out rest m [HI (a & -> & Hm)] C. cbn [fst] in C.
        assert (L := TS_suffix _ _ _ _ _ _ _ _ _ _ (proj1 HI)).
        rewrite plt_pp in C by (auto; rewrite app_length; lia). apply negb_true_iff in C.
        destruct (peel_block a tail k Hk Hm C) as (x & a' & -> & Lx & Hm'). rewrite <- app_assoc in *.
        assert (EX : E (x ++ a' ++ tail) = E x ++ E (a' ++ tail)) by auto.
        eapply wp_mono.
        + apply Hb; auto; [exact (proj1 HI)|eapply EI_cap; eauto|eapply EI_alias; eauto].
        + intros st m' [-> T]. exists (out ++ E x), (a' ++ tail). split; [reflexivity|].
          split; [split; [split; [exact T|]|]|].
          * rewrite <- app_assoc, <- EX. exact (proj2 HI).
          * eauto.
          * rewrite (app_length x). lia.
      - clear out a m HI Hm Hf. intros out rest m [HI (a & -> & Hm)] C. cbn [fst] in C.
        assert (L := TS_suffix _ _ _ _ _ _ _ _ _ _ (proj1 HI)).
        rewrite plt_pp in C by (auto; rewrite app_length; lia). apply negb_false_iff, Nat.eqb_eq in C.
        destruct a; [|rewrite app_length in C; cbn in C; lia]. cbn [app] in *. now apply HQ.
    Qed.
    Lemma enc_loop_nil k fuel body out a m (Q : ptr * ptr -> mem -> Prop) :
      (0 < k)%nat ->
      (forall x r, length x = k -> E (x ++ r) = E x ++ E r) ->
      EI out a m -> (length a mod k = 0)%nat -> (length a < fuel)%nat ->
      (forall out x r m, TSt out (x ++ r) m -> length x = k ->
         (length out + length (E x) <= cap)%nat ->
         (bs <> bd \/ so + length total <= d0 \/ d0 + length out + length (E x) <= so + (length total - length (x ++ r)))%nat ->
         wp (body (ppt (x ++ r), qqt out)) (fun st m' => st = (ppt r, qqt (out ++ E x)) /\ TSt (out ++ E x) r m') m) ->
      (forall out m, EI out [] m -> Q (ppt [], qqt out) m) ->
      wp (while_ fuel (fun st => plt (fst st) (ppt [])) body (ppt a, qqt out)) Q m.
    Proof.
      intros Hk HE HI Hm Hf Hb HQ. rewrite <- (app_nil_r a) in HI, Hf |- *.
      eapply enc_loop; eauto.
    Qed.
  End Enc.

  (** *** Decoders: what is still to come decides the result *)
  Section Dec.
    Context (D : list Z -> option (list Z)) (dl : nat -> nat).
    Definition oapp (o : list Z) (p : option (list Z)) : option (list Z) :=
      match p with Some l => Some (o ++ l) | None => None end.
    Definition DI (out rest : list Z) (m : mem) : Prop :=
      TSt out rest m /\ D total = oapp out (D rest) /\ (length out + dl (length rest) = cap)%nat /\
      (length out + length rest <= length total)%nat.

    Lemma oapp_nil p : oapp [] p = p.
    Proof. now destruct p. Qed.
    Lemma oapp_oapp a b p : oapp a (oapp b p) = oapp (a ++ b) p.
    Proof. destruct p; cbn; [|reflexivity]. now rewrite app_assoc. Qed.

    Lemma DI_init : cap = dl (length total) -> (bs <> bd \/ so + length total <= d0 \/ d0 <= so)%nat ->
      bytes_at m0 bs so total -> (d0 + cap <= length (m0 bd))%nat -> DI [] total m0.
    Proof.
      intros cap_eq alias H1 H2. split; [now apply TS_init|]. split; [symmetry; apply oapp_nil|]. cbn. lia.
    Qed.

    Lemma DI_fail out rest m : DI out rest m -> D rest = None -> D total = None.
    Proof. intros (_ & H & _) HN. now rewrite H, HN. Qed.

    (** advance by a block [x] that decodes to [o] *)
    Lemma DI_step out x r o m m' : DI out (x ++ r) m -> D (x ++ r) = oapp o (D r) ->
      (dl (length (x ++ r)) = length o + dl (length r))%nat -> (length o <= length x)%nat ->
      TSt (out ++ o) r m' -> DI (out ++ o) r m'.
    Proof.
      intros (T & H & HL & HA) HD Hl Ho T'. split; [exact T'|]. split; [|split].
      - now rewrite H, HD, oapp_oapp.
      - rewrite app_length. lia.
      - rewrite app_length in *. lia.
    Qed.

    Lemma dec_loop k fuel body out a tail m (Q : result (ptr * ptr) -> mem -> Prop) :
      (0 < k)%nat ->
      (forall x r, length x = k -> D (x ++ r) = match D x with Some o => oapp o (D r) | None => None end) ->
      (forall n, dl (k + n) = dl k + dl n)%nat -> (dl k <= k)%nat ->
      DI out (a ++ tail) m -> (length a mod k = 0)%nat -> (length (a ++ tail) < fuel)%nat ->
      (forall out x r m, TSt out (x ++ r) m -> length x = k ->
         (length out + dl k + dl (length r) = cap)%nat ->
         (length out + length (x ++ r) <= length total)%nat ->
         wp (body (ppt (x ++ r), qqt out)) (fun st m' => match st with
           | Err => D x = None /\ Frame m0 bd d0 cap m'
           | Ok st => exists o, D x = Some o /\ length o = dl k /\ st = (ppt r, qqt (out ++ o)) /\ TSt (out ++ o) r m'
           end) m) ->
      (forall m, D total = None -> Frame m0 bd d0 cap m -> Q Err m) ->
      (forall out m, DI out tail m -> Q (Ok (ppt tail, qqt out)) m) ->
      wp (while_res fuel (fun st => plt (fst st) (ppt tail)) body (ppt (a ++ tail), qqt out)) Q m.
    Proof.
      intros Hk HD Hdl Hle HI Hm Hf Hb HE HQ.
      apply (loop_io_res (fun o r => (ppt r, qqt o))
        (fun o r m => DI o r m /\ exists a, r = a ++ tail /\ (length a mod k = 0)%nat)); auto.
      - split; [auto|]. exists a. auto.
      - clear out a m HI Hm Hf. intros out rest m [HI (a & -> & Hm)] C. cbn [fst] in C.
        assert (L := TS_suffix _ _ _ _ _ _ _ _ _ _ (proj1 HI)).
        rewrite plt_pp in C by (auto; rewrite app_length; lia). apply negb_true_iff in C.
        destruct (peel_block a tail k Hk Hm C) as (x & a' & -> & Lx & Hm'). rewrite <- app_assoc in *.
        assert (DX := HD x (a' ++ tail) Lx).
        pose proof HI as (T & H & HL & HA).
        eapply wp_mono.
        + apply Hb; auto. rewrite app_length, Lx, Hdl in HL. lia.
        + intros [st|] m'.
          * intros (o & Ho & Lo & -> & T'). exists (out ++ o), (a' ++ tail). rewrite Ho in DX.
            split; [reflexivity|]. split; [split|].
            -- eapply DI_step; eauto; [rewrite app_length, Lx, Hdl; lia|lia].
            -- eauto.
            -- rewrite (app_length x). lia.
          * intros [HN F]. apply HE; auto. rewrite HN in DX. eapply DI_fail; eauto.
      - clear out a m HI Hm Hf. intros out rest m [HI (a & -> & Hm)] C. cbn [fst] in C.
        assert (L := TS_suffix _ _ _ _ _ _ _ _ _ _ (proj1 HI)).
        rewrite plt_pp in C by (auto; rewrite app_length; lia). apply negb_false_iff, Nat.eqb_eq in C.
        destruct a; [|rewrite app_length in C; cbn in C; lia]. cbn [app] in *. now apply HQ.
    Qed.
    Lemma dec_loop_nil k fuel body out a m (Q : result (ptr * ptr) -> mem -> Prop) :
      (0 < k)%nat ->
      (forall x r, length x = k -> D (x ++ r) = match D x with Some o => oapp o (D r) | None => None end) ->
      (forall n, dl (k + n) = dl k + dl n)%nat -> (dl k <= k)%nat ->
      DI out a m -> (length a mod k = 0)%nat -> (length a < fuel)%nat ->
      (forall out x r m, TSt out (x ++ r) m -> length x = k ->
         (length out + dl k + dl (length r) = cap)%nat ->
         (length out + length (x ++ r) <= length total)%nat ->
         wp (body (ppt (x ++ r), qqt out)) (fun st m' => match st with
           | Err => D x = None /\ Frame m0 bd d0 cap m'
           | Ok st => exists o, D x = Some o /\ length o = dl k /\ st = (ppt r, qqt (out ++ o)) /\ TSt (out ++ o) r m'
           end) m) ->
      (forall m, D total = None -> Frame m0 bd d0 cap m -> Q Err m) ->
      (forall out m, DI out [] m -> Q (Ok (ppt [], qqt out)) m) ->
      wp (while_res fuel (fun st => plt (fst st) (ppt [])) body (ppt a, qqt out)) Q m.
    Proof.
      intros Hk HD Hdl Hle HI Hm Hf Hb HE HQ. rewrite <- (app_nil_r a) in HI, Hf |- *.
      eapply dec_loop; eauto.
    Qed.
  End Dec.
End IO.

(** Read-only walks: nothing is written, and a validity predicate [V] of the whole source is reduced
    step by step to that of the unread suffix. *)
Section RO.
  Context (m0 : mem) (bs so : nat) (total : list Z).
  Notation ppt := (pp bs so total).
  Definition RS (rest : list Z) (m : mem) : Prop := TS m0 bs so total bs 0 0 [] rest m.
  Context (V : list Z -> bool).
  Definition CI (rest : list Z) (m : mem) : Prop := RS rest m /\ V total = V rest.
  Definition chk_post (r : result unit) (m : mem) : Prop :=
    (forall b, m b = m0 b) /\ r = if V total then Ok tt else Err.

  Lemma RS_same rest m : RS rest m -> forall b, m b = m0 b.
  Proof. intro T. apply TS_frame in T. eapply Frame_zero; exact T. Qed.
  Lemma CI_init : bytes_at m0 bs so total -> CI total m0.
  Proof. intro H. split; [|reflexivity]. apply TS_init; [exact H|lia|lia]. Qed.
  Lemma RS_adv x r m : RS (x ++ r) m -> RS r m.
  Proof. apply TS_adv. Qed.

  Lemma chk_err rest m : CI rest m -> V rest = false -> chk_post Err m.
  Proof. intros [T H] E. split; [eapply RS_same; exact T|]. now rewrite H, E. Qed.
  Lemma chk_ok rest m : CI rest m -> V rest = true -> chk_post (Ok tt) m.
  Proof. intros [T H] E. split; [eapply RS_same; exact T|]. now rewrite H, E. Qed.
  Lemma CI_step x r m m' : CI (x ++ r) m -> V (x ++ r) = V r -> RS r m' -> CI r m'.
  Proof. intros [_ H] E T. split; [exact T|]. now rewrite H. Qed.

  Lemma chk_loop k v fuel body a tail m (Q : result ptr -> mem -> Prop) :
    (0 < k)%nat -> (forall x r, length x = k -> V (x ++ r) = v x && V r) ->
    CI (a ++ tail) m -> (length a mod k = 0)%nat -> (length (a ++ tail) < fuel)%nat ->
    (forall x r m, RS (x ++ r) m -> length x = k ->
       wp (body (ppt (x ++ r))) (fun st m' => RS r m' /\ st = if v x : bool then Ok (ppt r) else Err) m) ->
    (forall m, V total = false -> (forall b, m b = m0 b) -> Q Err m) ->
    (forall m, CI tail m -> Q (Ok (ppt tail)) m) ->
    wp (while_res fuel (fun st => plt st (ppt tail)) body (ppt (a ++ tail))) Q m.
  Proof.
    intros Hk HV HI Hm Hf Hb HE HQ.
    apply (loop_io_res (fun _ r => ppt r)
      (fun _ r m => CI r m /\ exists a, r = a ++ tail /\ (length a mod k = 0)%nat) fuel _ _ []); auto.
    - split; [auto|]. exists a. auto.
    - clear a m HI Hm Hf. intros _ rest m [HI (a & -> & Hm)] C.
      assert (L := TS_suffix _ _ _ _ _ _ _ _ _ _ (proj1 HI)).
      rewrite plt_pp in C by (auto; rewrite app_length; lia). apply negb_true_iff in C.
      destruct (peel_block a tail k Hk Hm C) as (x & a' & -> & Lx & Hm'). rewrite <- app_assoc in *.
      eapply wp_mono; [apply Hb; [exact (proj1 HI)|exact Lx]|].
      intros st m' [T ->]. assert (E := HV x (a' ++ tail) Lx). destruct (v x).
      + exists [], (a' ++ tail). split; [reflexivity|]. split; [split|].
        * eapply CI_step; eauto.
        * eauto.
        * rewrite (app_length x). lia.
      + apply HE; [|eapply RS_same; exact T]. rewrite (proj2 HI). exact E.
    - clear a m HI Hm Hf. intros _ rest m [HI (a & -> & Hm)] C.
      assert (L := TS_suffix _ _ _ _ _ _ _ _ _ _ (proj1 HI)).
      rewrite plt_pp in C by (auto; rewrite app_length; lia). apply negb_false_iff, Nat.eqb_eq in C.
      destruct a; [|rewrite app_length in C; cbn in C; lia]. cbn [app] in *. now apply HQ.
  Qed.
  Lemma chk_loop_nil k v fuel body a m (Q : result ptr -> mem -> Prop) :
    (0 < k)%nat -> (forall x r, length x = k -> V (x ++ r) = v x && V r) ->
    CI a m -> (length a mod k = 0)%nat -> (length a < fuel)%nat ->
    (forall x r m, RS (x ++ r) m -> length x = k ->
       wp (body (ppt (x ++ r))) (fun st m' => RS r m' /\ st = if v x : bool then Ok (ppt r) else Err) m) ->
    (forall m, V total = false -> (forall b, m b = m0 b) -> Q Err m) ->
    (forall m, CI [] m -> Q (Ok (ppt [])) m) ->
    wp (while_res fuel (fun st => plt st (ppt [])) body (ppt a)) Q m.
  Proof.
    intros Hk HV HI Hm Hf Hb HE HQ. rewrite <- (app_nil_r a) in HI, Hf |- *. eapply chk_loop; eauto.
  Qed.
End RO.
