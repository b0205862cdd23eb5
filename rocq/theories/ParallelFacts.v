(** Facts about Parallel.v: the jobs write disjoint pieces that make up the encoding. *)
From Coq Require Import ZArith List Bool Lia ZifyBool ZifyNat Permutation.
From Verif Require Import Bytes Mem MemFacts Slices Codec Isa Simd Spec Base64 Base64Ref Base64Facts Base64Api HeapFacts Parallel.
Import ListNotations.
Open Scope list_scope. Open Scope nat_scope. Open Scope m_scope.
Ltac Zify.zify_post_hook ::= Z.div_mod_to_equations.

(** The scheduler runs every job once. *)
Definition schedule (order : nat -> list nat) : Prop := forall n, Permutation (order n) (seq 0 n).

Lemma run_all_ok (job : nat -> M unit) (I : mem -> Prop) (P : nat -> mem -> Prop) n :
  (forall i m, i < n -> I m -> exists m', job i m = Ret tt m' /\ I m' /\ P i m' /\ (forall j, j < n -> j <> i -> P j m -> P j m')) ->
  forall order done m, NoDup order -> (forall i, In i order -> i < n) -> (forall i, In i done -> i < n /\ ~ In i order) ->
    I m -> (forall i, In i done -> P i m) ->
    exists m', run_all job order m = Ret tt m' /\ I m' /\ (forall i, In i (done ++ order) -> P i m').
Proof.
  intro HJ. induction order as [|i order IH]; intros dn m ND Hn Hd HI HP; cbn [run_all].
  - exists m. split; [reflexivity|]. split; [exact HI|]. intro i. rewrite app_nil_r. apply HP.
  - inversion ND as [|? ? Ni ND']; subst. destruct (HJ i m (Hn i (or_introl eq_refl)) HI) as (m1 & E & I1 & P1 & K).
    rewrite (bind_ret _ _ _ _ _ E).
    destruct (IH (dn ++ [i]) m1) as (m' & E' & I' & P'); auto.
    + intros j Hj. apply Hn. now right.
    + intros j Hj. apply in_app_iff in Hj as [Hj|[<-|[]]].
      * destruct (Hd j Hj) as [A B]. split; [exact A|]. intro. apply B. now right.
      * split; [apply Hn; now left|exact Ni].
    + intros j Hj. apply in_app_iff in Hj as [Hj|[<-|[]]]; [|exact P1].
      destruct (Hd j Hj) as [A B]. apply K; [exact A| |now apply HP]. intros ->. apply B. now left.
    + exists m'. split; [exact E'|]. split; [exact I'|]. intros j Hj. apply P'. rewrite <- app_assoc. exact Hj.
Qed.

(** the [i]-th chunk of the source and what it is encoded to *)
Definition chunk (c : nat) (src : list Z) (i : nat) : list Z := firstn (c * 3) (skipn (i * (c * 3)) src).
Lemma chunk_length c src i : length (chunk c src i) = chunk_len (length src) (c * 3) i.
Proof. unfold chunk, chunk_len. now rewrite firstn_length, skipn_length. Qed.
Lemma chunk_bytes c src i : bytes src -> bytes (chunk c src i).
Proof. intro B. unfold chunk. apply bytes_firstn, bytes_skipn, B. Qed.

Lemma b64_rfc_nil cfg : b64_rfc cfg [] = [].
Proof. apply length_zero_iff_nil. rewrite b64_rfc_len by constructor. reflexivity. Qed.
Lemma b64_rfc_nopad cfg src : bytes src -> (length src mod 3 = 0) ->
  b64_rfc {| b64_kind_of := b64_kind_of cfg; b64_extra_of := NoPad |} src = b64_rfc cfg src.
Proof.
  intros B L. destruct cfg as [k x]. unfold b64_rfc. cbn [b64_kind_of b64_extra_of b64_padding]. rewrite <- !b64e_rfc by auto.
  destruct (b64_padding x); [|reflexivity]. rewrite b64e_pads, L. cbn [repeat]. now rewrite app_nil_r.
Qed.

(** lengths: 3 bytes become 4 characters *)
Lemma enc_mono_lt cfg l X : 3 * X < l -> 4 * X < b64_encoded_length_unchecked l cfg.
Proof. intro H. unfold b64_encoded_length_unchecked. destruct (Nat.eqb_spec (l mod 3) 0), (b64_padding (b64_extra_of cfg)); lia. Qed.
Lemma enc_mono_le cfg l X : l <= 3 * X -> b64_encoded_length_unchecked l cfg <= 4 * X.
Proof. intro H. unfold b64_encoded_length_unchecked. destruct (Nat.eqb_spec (l mod 3) 0), (b64_padding (b64_extra_of cfg)); lia. Qed.
Lemma enc_whole cfg X : b64_encoded_length_unchecked (3 * X) cfg = 4 * X.
Proof. unfold b64_encoded_length_unchecked. replace ((3 * X) mod 3) with 0 by lia. cbn [Nat.eqb]. lia. Qed.
(** taking 3X bytes away takes 4X characters away *)
Lemma enc_minus cfg l X : 3 * X <= l -> b64_encoded_length_unchecked (l - 3 * X) cfg + 4 * X = b64_encoded_length_unchecked l cfg.
Proof.
  intro H. unfold b64_encoded_length_unchecked. replace ((l - 3 * X) mod 3) with (l mod 3) by lia.
  destruct (Nat.eqb_spec (l mod 3) 0), (b64_padding (b64_extra_of cfg)); lia.
Qed.

(** how often [k] fits *)
Lemma count_spec len k : 0 < k -> len <= k * chunk_count len k /\ (forall n, n < chunk_count len k -> k * n < len).
Proof.
  intro K. unfold chunk_count. assert (D := Nat.div_mod (len + k - 1) k ltac:(lia)).
  assert (B := Nat.mod_upper_bound (len + k - 1) k ltac:(lia)). set (q := (len + k - 1) / k) in *. split; [lia|].
  intros n Hn. assert (k * S n <= k * q) by (apply Nat.mul_le_mono_l; lia). rewrite Nat.mul_succ_r in H. lia.
Qed.
Lemma count_uniq len k n : 0 < k -> len <= k * n -> (forall j, j < n -> k * j < len) -> chunk_count len k = n.
Proof.
  intros K H1 H2. destruct (count_spec len k K) as [C1 C2]. set (q := chunk_count len k) in *.
  destruct (Nat.lt_trichotomy q n) as [L|[E|L]]; [|exact E|].
  - specialize (H2 q L). lia.
  - specialize (C2 n L). lia.
Qed.
Lemma counts_agree cfg l c : 0 < c -> chunk_count (b64_encoded_length_unchecked l cfg) (c * 4) = chunk_count l (c * 3).
Proof.
  intro C. destruct (count_spec l (c * 3) ltac:(lia)) as [C1 C2]. set (q := chunk_count l (c * 3)) in *.
  apply count_uniq; [lia| |].
  - replace (c * 4 * q) with (4 * (c * q)) by lia. apply enc_mono_le. lia.
  - intros j Hj. specialize (C2 j Hj). replace (c * 4 * j) with (4 * (c * j)) by lia. apply enc_mono_lt. lia.
Qed.

Lemma skip_skip {A} (a b : nat) (l : list A) : skipn a (skipn b l) = skipn (a + b) l.
Proof.
  revert l. induction b as [|b IH]; intro l; [now rewrite Nat.add_0_r|]. rewrite Nat.add_succ_r. destruct l as [|x l]; [apply skipn_nil|].
  cbn [skipn]. apply IH.
Qed.
(** the pieces make up the encoding *)
Lemma assemble cfg c m d : 0 < c -> forall n src e, bytes src -> length src <= c * 3 * n -> (forall j, j < n -> c * 3 * j < length src) ->
  e <= length (m d) -> (forall i, i < n -> bytes_at m d (e + i * (c * 4)) (b64_rfc cfg (chunk c src i))) ->
  bytes_at m d e (b64_rfc cfg src).
Proof.
  intros C. induction n as [|n IH]; intros src e B L1 L2 R HP.
  - destruct src; [|cbn [length] in L1; lia]. rewrite b64_rfc_nil. now apply bytes_at_nil.
  - assert (P0 := HP 0 ltac:(lia)). unfold chunk in P0. cbn [Nat.mul] in P0. rewrite Nat.add_0_r, skipn_O in P0.
    destruct (Nat.eq_dec n 0) as [->|N]. { rewrite firstn_all2 in P0 by lia. exact P0. }
    assert (L3 := L2 1 ltac:(lia)).
    assert (LF : length (firstn (c * 3) src) = c * 3) by (rewrite firstn_length; lia).
    assert (BF : bytes (firstn (c * 3) src)) by now apply bytes_firstn.
    assert (BS : bytes (skipn (c * 3) src)) by now apply bytes_skipn.
    assert (LR : length (b64_rfc cfg (firstn (c * 3) src)) = c * 4).
    { rewrite b64_rfc_len by exact BF. rewrite LF. replace (c * 3) with (3 * c) by lia. rewrite enc_whole. lia. }
    rewrite <- (firstn_skipn (c * 3) src). rewrite b64_rfc_app; auto; [|rewrite LF; lia].
    apply bytes_at_app. split; [exact P0|]. rewrite LR. destruct P0 as [P0 _]. rewrite LR in P0.
    apply IH; auto.
    + rewrite skipn_length. lia.
    + intros j Hj. rewrite skipn_length. specialize (L2 (S j) ltac:(lia)). lia.
    + intros i Hi. specialize (HP (S i) ltac:(lia)). unfold chunk in *. rewrite skip_skip.
      replace (i * (c * 3) + c * 3) with (S i * (c * 3)) by lia. replace (e + c * 4 + i * (c * 4)) with (e + S i * (c * 4)) by lia. exact HP.
Qed.

(** where the pieces are *)
Lemma piece_bounds cfg c src i n : bytes src -> 0 < c -> n = chunk_count (length src) (c * 3) -> i < n ->
  i * (c * 3) + length (chunk c src i) <= length src /\
  0 < length (chunk c src i) <= c * 3 /\
  length (b64_rfc cfg (chunk c src i)) <= c * 4 /\
  i * (c * 4) + length (b64_rfc cfg (chunk c src i)) <= b64_encoded_length_unchecked (length src) cfg.
Proof.
  intros B C -> Hi. destruct (count_spec (length src) (c * 3) ltac:(lia)) as [C1 C2]. specialize (C2 i Hi).
  rewrite b64_rfc_len by now apply chunk_bytes. rewrite chunk_length. unfold chunk_len.
  split; [lia|]. split; [lia|]. split.
  - replace (c * 4) with (4 * c) by lia. apply enc_mono_le. lia.
  - rewrite <- (enc_minus cfg (length src) (c * i)) by lia. replace (i * (c * 4)) with (4 * (c * i)) by lia. rewrite Nat.add_comm.
    apply Nat.add_le_mono_r. replace (length src - 3 * (c * i)) with (length src - i * (c * 3)) by lia.
    destruct (Nat.le_ge_cases (length src - i * (c * 3)) (c * 3)) as [G|G].
    + rewrite Nat.min_r by lia. lia.
    + rewrite Nat.min_l by lia. assert (E := enc_minus cfg (length src - i * (c * 3)) c ltac:(lia)).
      assert (W := enc_whole cfg c). replace (3 * c) with (c * 3) in W by lia. rewrite W. lia.
Qed.

(** one job *)
Lemma job_ok s cfg c src i m b o d e : (forall i, b64_isa (s i)) -> 0 < c -> bytes src -> i < chunk_count (length src) (c * 3) ->
  slice m b (o + i * (c * 3)) (chunk c src i) -> room m d (e + i * (c * 4)) (length (b64_rfc cfg (chunk c src i))) ->
  separate b (o + i * (c * 3)) (length (chunk c src i)) d (e + i * (c * 4)) (length (b64_rfc cfg (chunk c src i))) ->
  exists m', b64_par_job s cfg (b, o) (length src) (d, e) c i m = Ret tt m' /\
    bytes_at m' d (e + i * (c * 4)) (b64_rfc cfg (chunk c src i)) /\
    only_changed m d (e + i * (c * 4)) (length (b64_rfc cfg (chunk c src i))) m'.
Proof.
  intros Hs C B Hi S R SEP. destruct (piece_bounds cfg c src i _ B C eq_refl Hi) as (B1 & B2 & B3 & B4).
  assert (BC := chunk_bytes c src i B).
  unfold b64_par_job, chunk_off. cbn zeta. rewrite <- chunk_length.
  assert (E1 : padd (b, o) (i * (c * 3)) m = Ret (b, o + i * (c * 3)) m).
  { unfold padd. cbn [fst snd]. destruct S as [_ [S _]]. destruct (Nat.leb_spec (o + i * (c * 3)) (length (m b))); [reflexivity|lia]. }
  assert (E2 : padd (d, e) (i * (c * 4)) m = Ret (d, e + i * (c * 4)) m).
  { unfold padd. cbn [fst snd]. unfold room in R. destruct (Nat.leb_spec (e + i * (c * 4)) (length (m d))); [reflexivity|lia]. }
  rewrite (bind_ret _ _ _ _ _ E1), (bind_ret _ _ _ _ _ E2).
  assert (HC := b64_enc (s i) cfg (chunk c src i) (Hs i) BC m b (o + i * (c * 3)) d (e + i * (c * 4)) S R SEP).
  destruct (b64_padding (b64_extra_of cfg)); [|exact HC].
  destruct (Nat.eqb_spec (length (chunk c src i) mod 3) 0) as [Z|Z]; [|exact HC].
  rewrite <- (b64_rfc_nopad cfg (chunk c src i) BC Z) in *.
  apply (b64_enc (s i) _ (chunk c src i) (Hs i) BC); assumption.
Qed.

(** the chunk is inside the slice *)
Lemma slice_chunk m b o src c i : slice m b o src -> i * (c * 3) <= length src -> slice m b (o + i * (c * 3)) (chunk c src i).
Proof.
  intros [B H] L. split; [now apply chunk_bytes|]. unfold chunk. apply bytes_at_firstn. now apply bytes_at_skipn.
Qed.

Lemma par_path_ok p order s cfg src : schedule order -> (forall i, b64_isa (s i)) -> 0 < p -> bytes src ->
  encodes (b64_par_path p order s cfg) src (b64_rfc cfg src).
Proof.
  intros HO Hs Hp B m b o d e dlen HS HR SEP. rewrite b64_rfc_len by exact B. intro LD. unfold b64_par_path. cbn zeta.
  set (E := b64_encoded_length_unchecked (length src) cfg) in *.
  destruct (Nat.ltb_spec dlen E) as [|_]; [lia|]. set (c := (length src / 3 + p) / p).
  assert (C : 0 < c).
  { unfold c. replace (length src / 3 + p) with (length src / 3 + 1 * p) by lia. rewrite Nat.div_add by lia. rewrite Nat.add_1_r. apply Nat.lt_0_succ. }
  destruct (Nat.eqb_spec c 0) as [|_]; [lia|].
  unfold b64_par_jobs. cbn zeta. fold c. unfold E at 1. rewrite counts_agree, Nat.min_id by exact C.
  set (n := chunk_count (length src) (c * 3)). destruct (count_spec (length src) (c * 3) ltac:(lia)) as [N1 N2]. fold n in N1, N2.
  assert (PO := HO n).
  destruct (run_all_ok (b64_par_job s cfg (b, o) (length src) (d, e) c)
     (fun m' => slice m' b o src /\ only_changed m d e E m')
     (fun i m' => bytes_at m' d (e + i * (c * 4)) (b64_rfc cfg (chunk c src i))) n) with (order := order n) (done := @nil nat) (m := m)
     as (m' & ER & [S' F'] & P').
  - intros i m1 Hi [S1 F1]. destruct (piece_bounds cfg c src i n B C eq_refl Hi) as (B1 & B2 & B3 & B4).
    destruct F1 as (F1 & F2 & F3). unfold room, separate in HR, SEP.
    destruct (job_ok s cfg c src i m1 b o d e Hs C B Hi) as (m' & EJ & A & F).
    + apply slice_chunk; [exact S1|lia].
    + unfold room. rewrite F2. lia.
    + unfold separate. lia.
    + exists m'. split; [exact EJ|]. split; [split|split; [exact A|]].
      * eapply only_changed_src; [exact S1| |apply le_n|exact F]. unfold separate. lia.
      * eapply Frame_trans; [split; [exact F1|split; [exact F2|exact F3]]|]. eapply Frame_weaken; [exact F|]. lia.
      * intros j Hj Nj HPj. destruct (piece_bounds cfg c src j n B C eq_refl Hj) as (D1 & D2 & D3 & D4).
        eapply Frame_bytes_at; [exact F|exact HPj|]. right.
        destruct (Nat.lt_ge_cases j i) as [Lj|Lj]; [left|right].
        -- assert ((j + 1) * (c * 4) <= i * (c * 4)) by (apply Nat.mul_le_mono_r; lia). lia.
        -- assert ((i + 1) * (c * 4) <= j * (c * 4)) by (apply Nat.mul_le_mono_r; lia). lia.
  - apply (Permutation_NoDup (Permutation_sym PO)), seq_NoDup.
  - intros i Hi. apply (Permutation_in _ PO), in_seq in Hi. lia.
  - intros i [].
  - split; [exact HS|]. apply Frame_refl.
  - intros i [].
  - exists m'. rewrite (bind_ret _ _ _ _ _ ER). split; [reflexivity|]. split; [|exact F'].
    apply (assemble cfg c m' d C n); auto.
    + destruct F' as (_ & -> & _). unfold room in HR. lia.
    + intros i Hi. apply P'. cbn [app]. apply (Permutation_in _ (Permutation_sym PO)), in_seq. lia.
Qed.

Lemma par_sequential_pos p slen : b64_par_sequential p slen = false -> 0 < p.
Proof. unfold b64_par_sequential. lia. Qed.
Lemma par_encode_ok p order s cfg src : schedule order -> (forall i, b64_isa (s i)) -> bytes src ->
  encodes (b64_par_encode p order s cfg) src (b64_rfc cfg src).
Proof.
  intros HO Hs B. unfold encodes, b64_par_encode. destruct (b64_par_sequential p (length src)) eqn:Q.
  - now apply b64_encode_ok.
  - apply par_path_ok; auto. eapply par_sequential_pos; exact Q.
Qed.
