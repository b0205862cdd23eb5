(** More loop rules: loops that count the remaining length, block loops, table loops. *)
From Coq Require Import ZArith List Bool Lia ZifyNat.
From Verif Require Import Bytes Mem MemFacts Loops.
Import ListNotations.
Open Scope m_scope.
Ltac Zify.zify_post_hook ::= Z.div_mod_to_equations.

Section IO2.
  Context (m0 : mem) (bs so : nat) (total : list Z) (bd d0 cap : nat).
  Notation ppt := (pp bs so total).
  Notation qqt := (qq bd d0).
  Notation TSt := (TS m0 bs so total bd d0 cap).

  (** table look-ups driven by a loop over the source *)
  Lemma wp_for_table {S} (table : list Z) (f : nat -> Z -> S -> S) out x r m n s (Q : S -> mem -> Prop) :
    TSt out (x ++ r) m -> length x = n -> bytes x -> length table = 256%nat ->
    Q (fold_left (fun s p => f (fst p) (snd p) s) (combine (seq 0 n) (map (fun c => nth (Z.to_nat c) table 0%Z) x)) s) m ->
    wp (for_ n 0 (fun i s => c <- read (ppt (x ++ r)) i ;; b <- table_get table c ;; ret (f i b s)) s) Q m.
  Proof.
    intros T L B LT HQ.
    assert (G : forall n pre y s (Q : S -> mem -> Prop), x = pre ++ y -> length y = n ->
      Q (fold_left (fun s p => f (fst p) (snd p) s) (combine (seq (length pre) n) (map (fun c => nth (Z.to_nat c) table 0%Z) y)) s) m ->
      wp (for_ n (length pre) (fun i s => c <- read (ppt (x ++ r)) i ;; b <- table_get table c ;; ret (f i b s)) s) Q m).
    { clear n s Q L HQ. induction n as [|n IH]; intros pre y s Q E Ly HQ.
      - destruct y; [|easy]. cbn [for_]. apply wp_ret. exact HQ.
      - destruct y as [|c y]; [easy|]. cbn [length] in Ly. cbn [for_].
        apply wp_bind, wp_bind. eapply wp_src_read; [exact T|rewrite E, app_length; cbn [length]; lia|].
        assert (N : nth (length pre) x 0%Z = c) by (rewrite E, app_nth2, Nat.sub_diag by lia; reflexivity).
        rewrite N. apply wp_bind. apply wp_table.
        { assert (byte c) by (rewrite E in B; apply bytes_app in B as [_ B]; now inversion B). unfold byte in *. lia. }
        apply wp_ret. replace (Datatypes.S (length pre)) with (length (pre ++ [c])) by (rewrite app_length; cbn; lia).
        apply (IH (pre ++ [c]) y); [now rewrite <- app_assoc|lia|].
        cbn [seq combine map fold_left fst snd] in HQ.
        replace (length (pre ++ [c])) with (Datatypes.S (length pre)) by (rewrite app_length; cbn; lia). exact HQ. }
    now apply (G n [] x).
  Qed.

  (** table look-ups written to consecutive cells *)
  Lemma wp_for_write cs (f : nat -> Z) out z rest m n i (Q : unit -> mem -> Prop) :
    TSt (out ++ z) rest m -> length z = i -> (length out + i + n <= cap)%nat ->
    (bs <> bd \/ so + length total <= d0 \/ d0 + length out + i + n <= so + (length total - length rest))%nat ->
    (forall j, (i <= j < i + n)%nat -> (0 <= f j < Z.of_nat (length cs))%Z) ->
    (forall m', TSt (out ++ z ++ map (fun j => nth (Z.to_nat (f j)) cs 0%Z) (seq i n)) rest m' -> Q tt m') ->
    wp (for_ n i (fun i _ => y <- table_get cs (f i) ;; write (qqt out) i y) tt) Q m.
  Proof.
    revert z i m. induction n as [|n IH]; intros z i m T Lz Hc Ha Hf HQ; cbn [for_].
    - apply wp_ret. apply HQ. cbn [seq map]. now rewrite app_nil_r.
    - apply wp_bind, wp_bind. apply wp_table; [apply Hf; lia|].
      eapply wp_dst_write_at; [exact T|exact Lz|lia|lia|]. intros m' T'.
      apply (IH (z ++ [nth (Z.to_nat (f i)) cs 0%Z]) (S i) m'); auto.
      + rewrite app_length. cbn [length]. lia.
      + lia.
      + lia.
      + intros j Hj. apply Hf. lia.
      + intros m2 T2. apply HQ. rewrite <- app_assoc in T2. exact T2.
  Qed.

  Section Enc.
    Context (E : list Z -> list Z).
    Hypothesis cap_eq : cap = length (E total).
    Hypothesis disj : (bs <> bd \/ so + length total <= d0 \/ d0 + cap <= so)%nat.
    Notation EIt := (EI m0 bs so total bd d0 cap E).

    Lemma enc_wloop c k fuel body out rest m (Q : ptr * ptr * nat -> mem -> Prop) :
      (0 < k <= c)%nat -> (forall x r, length x = k -> E (x ++ r) = E x ++ E r) ->
      EIt out rest m -> (length rest < fuel)%nat ->
      (forall out x r m, TSt out (x ++ r) m -> length x = k -> (c <= length (x ++ r) <= length rest)%nat ->
         (length out + length (E x) <= cap)%nat ->
         (bs <> bd \/ so + length total <= d0 \/ d0 + length out + length (E x) <= so + (length total - length (x ++ r)))%nat ->
         wp (body (ppt (x ++ r), qqt out, length (x ++ r)))
            (fun st m' => st = (ppt r, qqt (out ++ E x), length r) /\ TSt (out ++ E x) r m') m) ->
      (forall out r m, EIt out r m -> (length r < c)%nat -> (length r <= length rest)%nat -> Q (ppt r, qqt out, length r) m) ->
      wp (while_ fuel (fun st => (c <=? snd st)%nat) body (ppt rest, qqt out, length rest)) Q m.
    Proof.
      intros Hk HE HI Hf Hb HQ.
      apply (loop_io (fun o r => (ppt r, qqt o, length r)) (fun o r m => EIt o r m /\ (length r <= length rest)%nat)); auto.
      - intros out' rest' m' [HI' L'] C. cbn [snd] in C. apply Nat.leb_le in C.
        destruct (split_at rest' k) as (x & r & -> & Lx); [lia|]. assert (EX := HE x r Lx).
        eapply wp_mono.
        + apply Hb; auto; [exact (proj1 HI')|eapply EI_cap; eauto|eapply EI_alias; eauto].
        + intros st m2 [-> T]. exists (out' ++ E x), r. rewrite app_length in L' |- *.
          split; [reflexivity|]. split; [split; [split; [exact T|]|lia]|lia].
          rewrite <- app_assoc, <- EX. exact (proj2 HI').
      - intros out' rest' m' [HI' L'] C. cbn [snd] in C. apply Nat.leb_gt in C. now apply HQ.
    Qed.

    (** [n] steps of [k] bytes, of which each may look [la] bytes ahead *)
    Lemma enc_for k la n i step out x r m :
      (forall x r, length x = k -> E (x ++ r) = E x ++ E r) -> E [] = [] ->
      (forall out x r m, TSt out (x ++ r) m -> length x = k -> (la <= length r)%nat ->
         (length out + length (E x) <= cap)%nat ->
         (bs <> bd \/ so + length total <= d0 \/ d0 + length out + length (E x) <= so + (length total - length (x ++ r)))%nat ->
         wp (step (ppt (x ++ r), qqt out)) (fun st m' => st = (ppt r, qqt (out ++ E x)) /\ TSt (out ++ E x) r m') m) ->
      TSt out (x ++ r) m -> length x = (n * k)%nat -> (la <= length r)%nat ->
      (length out + length (E x) <= cap)%nat ->
      (bs <> bd \/ so + length total <= d0 \/ d0 + length out + length (E x) <= so + (length total - length (x ++ r)))%nat ->
      wp (for_ n i (fun _ st => step st) (ppt (x ++ r), qqt out))
         (fun st m' => st = (ppt r, qqt (out ++ E x)) /\ TSt (out ++ E x) r m') m.
    Proof.
      clear cap_eq disj. intros HE HN Hs. revert i out x m. induction n as [|n IH]; intros i out x m T Lx Hr Hc Ha; cbn [for_].
      - destruct x; [|easy]. apply wp_ret. rewrite HN, app_nil_r. auto.
      - destruct (split_at x k) as (y & x' & -> & Ly); [lia|]. rewrite HE, app_length in * by auto. rewrite <- app_assoc in *.
        apply wp_bind. eapply wp_mono; [apply Hs; auto|].
        + rewrite app_length. lia.
        + lia.
        + lia.
        + intros st m' [-> T']. eapply wp_mono; [apply IH; auto|].
          * lia.
          * rewrite app_length. lia.
          * rewrite app_length. destruct Ha as [?|[?|Ha]]; auto. right; right.
            assert (L := TS_suffix _ _ _ _ _ _ _ _ _ _ T). rewrite !app_length in *. lia.
          * intros st m2 [-> T2]. rewrite <- app_assoc in T2 |- *. auto.
    Qed.

    (** loads that start before the current position *)
    Lemma wp_load_back {A} (f : list Z -> M A) out x r m j k (Q : A -> mem -> Prop) :
      bytes_at m0 bs so total -> bytes total -> TSt out (x ++ r) m ->
      (length (x ++ r) + j <= length total)%nat -> (j + length x <= k <= j + length (x ++ r))%nat ->
      (forall v, length v = k -> bytes v -> firstn (length x) (skipn j v) = x -> wp (f v) Q m) ->
      wp (q <- psub (ppt (x ++ r)) j ;; v <- load q k ;; f v) Q m.
    Proof.
      clear cap_eq E. intros AT B T Hj Hk HQ. pose proof T as [[c Ec] _].
      assert (Lt : length total = (length c + length (x ++ r))%nat) by (rewrite Ec at 1; apply app_length).
      destruct (split_at c (length c - j)) as (c1 & c2 & -> & L1); [lia|].
      assert (Lc := app_length c1 c2). assert (Lx := app_length x r).
      apply wp_bind, wp_psub; unfold pp; cbn [fst snd]; [lia|].
      assert (A' : bytes_at m bs so total).
      { eapply Frame_bytes_at; [eapply TS_frame; exact T|exact AT|lia]. }
      rewrite Ec, <- app_assoc in A'. apply bytes_at_app in A' as [_ A'].
      apply wp_bind. replace (so + (length total - length (x ++ r)) - j)%nat with (so + length c1)%nat by lia.
      assert (L2 : length c2 = j) by lia.
      eapply wp_load; [exact A'|rewrite !app_length; lia|].
      apply HQ.
      - rewrite firstn_length_le; [reflexivity|]. rewrite !app_length. lia.
      - apply bytes_firstn. rewrite Ec, <- app_assoc in B. now apply bytes_app in B.
      - rewrite firstn_app, L2. rewrite (firstn_all2 c2) by lia. rewrite skipn_app, L2, Nat.sub_diag.
        rewrite (skipn_all2 c2) by lia. cbn [app skipn].
        rewrite firstn_firstn. replace (Nat.min (length x) (k - j)) with (length x) by lia.
        now apply firstn_app_exact.
    Qed.
  End Enc.

  Section Dec.
    Context (D : list Z -> option (list Z)) (dl : nat -> nat).
    Notation DIt := (DI m0 bs so total bd d0 cap D dl).

    Lemma dec_wloop c k fuel body out rest m (Q : result (ptr * ptr * nat) -> mem -> Prop) :
      (0 < k <= c)%nat ->
      (forall x r, length x = k -> bytes x -> D (x ++ r) = match D x with Some o => oapp o (D r) | None => None end) ->
      (forall n, dl (k + n) = dl k + dl n)%nat -> (dl k <= k)%nat -> bytes total ->
      DIt out rest m -> (length rest < fuel)%nat ->
      (forall out x r m, TSt out (x ++ r) m -> length x = k -> bytes x -> (c <= length (x ++ r))%nat ->
         (length out + dl k + dl (length r) = cap)%nat ->
         (length out + length (x ++ r) <= length total)%nat ->
         wp (body (ppt (x ++ r), qqt out, length (x ++ r))) (fun st m' => match st with
           | Err => D x = None /\ Frame m0 bd d0 cap m'
           | Ok st => exists o, D x = Some o /\ length o = dl k /\ st = (ppt r, qqt (out ++ o), length r) /\ TSt (out ++ o) r m'
           end) m) ->
      (forall m, D total = None -> Frame m0 bd d0 cap m -> Q Err m) ->
      (forall out r m, DIt out r m -> (length r < c)%nat -> (length r mod k = length rest mod k)%nat -> Q (Ok (ppt r, qqt out, length r)) m) ->
      wp (while_res fuel (fun st => (c <=? snd st)%nat) body (ppt rest, qqt out, length rest)) Q m.
    Proof.
      intros Hk HD Hdl Hle HB HI Hf Hb HE HQ.
      apply (loop_io_res (fun o r => (ppt r, qqt o, length r)) (fun o r m => DIt o r m /\ (length r mod k = length rest mod k)%nat)); auto.
      - intros out' rest' m' [HI' L'] C. cbn [snd] in C. apply Nat.leb_le in C.
        destruct (split_at rest' k) as (x & r & -> & Lx); [lia|].
        pose proof HI' as (T & H & HL & HA).
        assert (Bx := TS_bytes _ _ _ _ _ _ _ _ _ _ HB T). apply bytes_app in Bx as [Bx _].
        assert (DX := HD x r Lx Bx).
        eapply wp_mono.
        + apply Hb; auto. rewrite app_length, Lx, Hdl in HL. lia.
        + intros [st|] m2.
          * intros (o & Ho & Lo & -> & T'). exists (out' ++ o), r. rewrite Ho in DX. rewrite app_length in *.
            split; [reflexivity|]. split; [split|lia].
            -- eapply DI_step; eauto; [rewrite app_length, Lx, Hdl; lia|lia].
            -- rewrite <- L', Lx. replace (k + length r)%nat with (length r + 1 * k)%nat by lia. now rewrite Nat.mod_add by lia.
          * intros [HN F]. apply HE; auto. rewrite HN in DX. eapply DI_fail; eauto.
      - intros out' rest' m' [HI' L'] C. cbn [snd] in C. apply Nat.leb_gt in C. now apply HQ.
    Qed.
  End Dec.
End IO2.

Section RO2.
  Context (m0 : mem) (bs so : nat) (total : list Z) (V : list Z -> bool).
  Notation ppt := (pp bs so total).
  Notation CIt := (CI m0 bs so total V).
  Notation RSt := (RS m0 bs so total).

  Lemma chk_wloop c k v fuel body rest m (Q : result (ptr * nat) -> mem -> Prop) :
    (0 < k <= c)%nat -> (forall x r, length x = k -> bytes x -> V (x ++ r) = v x && V r) -> bytes total ->
    CIt rest m -> (length rest < fuel)%nat ->
    (forall x r m, RSt (x ++ r) m -> length x = k -> bytes x -> (c <= length (x ++ r))%nat ->
       wp (body (ppt (x ++ r), length (x ++ r))) (fun st m' => RSt r m' /\ st = if v x : bool then Ok (ppt r, length r) else Err) m) ->
    (forall m, V total = false -> (forall b, m b = m0 b) -> Q Err m) ->
    (forall r m, CIt r m -> (length r < c)%nat -> (length r mod k = length rest mod k)%nat -> (length r <= length rest)%nat -> Q (Ok (ppt r, length r)) m) ->
    wp (while_res fuel (fun st => (c <=? snd st)%nat) body (ppt rest, length rest)) Q m.
  Proof.
    intros Hk HV HB HI Hf Hb HE HQ.
    apply (loop_io_res (fun _ r => (ppt r, length r)) (fun _ r m => CIt r m /\ (length r mod k = length rest mod k)%nat /\ (length r <= length rest)%nat) fuel _ _ []); auto.
    - intros _ rest' m' [HI' [L1 L2]] C. cbn [snd] in C. apply Nat.leb_le in C.
      destruct (split_at rest' k) as (x & r & -> & Lx); [lia|].
      assert (Bx := TS_bytes _ _ _ _ _ _ _ _ _ _ HB (proj1 HI')). apply bytes_app in Bx as [Bx _].
      eapply wp_mono; [apply Hb; auto; exact (proj1 HI')|].
      intros st m2 [T ->]. assert (X := HV x r Lx Bx). destruct (v x).
      + exists [], r. rewrite app_length in *. split; [reflexivity|]. split; [|lia]. split; [eapply CI_step; eauto|].
        split; [|lia]. rewrite <- L1, Lx. replace (k + length r)%nat with (length r + 1 * k)%nat by lia. now rewrite Nat.mod_add by lia.
      + apply HE; [|eapply RS_same; exact T]. rewrite (proj2 HI'). exact X.
    - intros _ rest' m' [HI' [L1 L2]] C. cbn [snd] in C. apply Nat.leb_gt in C. now apply HQ.
  Qed.
End RO2.
