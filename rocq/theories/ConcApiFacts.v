(** Calls of public functions in several threads at once. *)
From Coq Require Import ZArith List Bool Lia ZifyBool ZifyNat.
From Verif Require Import Bytes Mem MemFacts Slices Codec Isa Simd Spec Hex HexSimdFacts HexApi Base64 Base64Ref Base64Api Base32 Base32Ref Base32Api
  SimdFacts Ints Uuid UuidFacts UuidApi Unicode UnicodeSpec SwapFacts Forgiving ForgivingFacts PropUnicode
  Conc ConcFacts ConcBase64Facts Reify ConcApi.
Import ListNotations.
Open Scope nat_scope. Open Scope m_scope.

(** ** One call alone *)
Definition unaltered (m : mem) (c : call) (m' : mem) : Prop :=
  match c with
  | Into _ _ _ _ d e dlen _ => only_changed m d e dlen m'
  | InPlace _ data b o _ => only_changed m b o (length data) m'
  | Check _ _ _ _ _ => same_mem m m'
  end.
Definition alone (c : call) : Prop :=
  forall m, ready m c -> exists m', code c m = Ret tt m' /\ delivered m' c /\ unaltered m c m'.

Lemma expect_ok out m d e n r m' : decoded out m d e n r m' -> expect r (d, e) out = ret tt.
Proof.
  intros [_ H]. destruct out as [x|]; [destruct H as [-> _]|subst r]; [|reflexivity]. cbn [expect fst snd]. now rewrite !Nat.eqb_refl.
Qed.
Lemma decoded_wide out m d e n k r m' : n <= k -> decoded out m d e n r m' -> decoded out m d e k r m'.
Proof. intros L [F H]. split; [|exact H]. eapply Frame_weaken; [exact F|]. lia. Qed.
(** [f] returns [out] when given [dlen] cells *)
Definition does (f : codec) (src : list Z) (dlen : nat) (out : option (list Z)) : Prop :=
  forall m b o d e, slice m b o src -> room m d e dlen -> separate b o (length src) d e dlen ->
    exists r m', f (b, o) (length src) (d, e) dlen m = Ret r m' /\ decoded out m d e dlen r m'.
Lemma into_alone f src b o d e dlen out : (bytes src -> does f src dlen out) -> alone (Into f src b o d e dlen out).
Proof.
  intros W m (S & R & SEP). destruct (W (proj1 S) m b o d e S R SEP) as (r & m' & E & D). exists m'. cbn [code]. unfold bind. rewrite E.
  rewrite (expect_ok _ _ _ _ _ _ _ D). split; [reflexivity|]. destruct D as [F H]. split; [|exact F]. cbn [delivered].
  destruct out as [x|]; [apply H|exact I].
Qed.
Lemma inplace_alone f data b o n out : (bytes data -> decodes_inplace f data n out) -> n <= length data -> alone (InPlace f data b o out).
Proof.
  intros W L m S. destruct (W (proj1 S) m b o S) as (r & m' & E & D). apply (decoded_wide _ _ _ _ _ (length data)) in D; [|exact L].
  exists m'. cbn [code]. unfold bind. rewrite E. rewrite (expect_ok _ _ _ _ _ _ _ D). split; [reflexivity|]. destruct D as [F H].
  split; [|exact F]. cbn [delivered]. destruct out as [x|]; [apply H|exact I].
Qed.
Lemma check_alone f src b o answer : (bytes src -> checks f src answer) -> alone (Check f src b o answer).
Proof.
  intros W m S. destruct (W (proj1 S) m b o S) as (m' & E & F). exists m'. cbn [code]. unfold bind. rewrite E.
  split; [|split; [exact I|exact F]]. now destruct answer.
Qed.
Lemma does_enc f src t dlen : encodes f src t -> rejects_short f src (length t) -> does f src dlen (fits dlen t).
Proof.
  intros HE HS m b o d e S R SEP. unfold fits. destruct (Nat.leb_spec (length t) dlen) as [L|L].
  - destruct (HE m b o d e dlen S R SEP L) as (m' & E & A & F). do 2 eexists. split; [exact E|].
    apply (decoded_wide _ _ _ _ (length t)); [exact L|]. split; [exact F|]. now split.
  - do 2 eexists. split; [now apply HS|]. split; [apply Frame_refl|reflexivity].
Qed.
Lemma exactly_unique o1 o2 P : exactly o1 P -> exactly o2 P -> o1 = o2.
Proof.
  intros H1 H2. destruct o1 as [x|], o2 as [y|]; auto.
  - symmetry. now apply H2, H1.
  - symmetry. now apply H2, H1.
  - now apply H1, H2.
Qed.
Lemma does_dec f src n spec P dlen out : decodes f src n spec -> rejects_short f src n -> exactly spec P ->
  (forall x, spec = Some x -> length x = n) -> exactly out (fun x => P x /\ length x <= dlen) -> does f src dlen out.
Proof.
  intros HD HS HP HN HO m b o d e S R SEP. destruct (Nat.le_gt_cases n dlen) as [L|L].
  - destruct (HD m b o d e dlen S R SEP L) as (r & m' & E & D). exists r, m'. split; [exact E|].
    apply (decoded_wide _ _ _ _ n); [exact L|]. replace out with spec; [exact D|]. apply (exactly_unique _ _ P); [exact HP|].
    intro x. rewrite (HO x). split; [tauto|]. intro Px. split; [exact Px|]. apply HP in Px. apply HN in Px. lia.
  - do 2 eexists. split; [now apply HS|]. split; [apply Frame_refl|]. destruct out as [x|]; [|reflexivity]. exfalso.
    destruct (proj1 (HO x) eq_refl) as [Px Lx]. apply HP, HN in Px. lia.
Qed.
Lemma does_array f src n spec : decodes f src n spec -> does f src n spec.
Proof. intros HD m b o d e S R SEP. now apply HD. Qed.
Lemma does_array_enc f src t : encodes f src t -> does f src (length t) (Some t).
Proof.
  intros HE m b o d e S R SEP. destruct (HE m b o d e (length t) S R SEP (le_n _)) as (m' & E & A & F).
  do 2 eexists. split; [exact E|]. split; [exact F|]. now split.
Qed.
Lemma inplace_is f data n o1 o2 P : decodes_inplace f data n o1 -> exactly o1 P -> exactly o2 P -> decodes_inplace f data n o2.
Proof. intros H E1 E2. now rewrite (exactly_unique _ _ _ E2 E1). Qed.
Lemma checks_is f src (a1 a2 : bool) (P : Prop) : checks f src a1 -> (a1 = true <-> P) -> (a2 = true <-> P) -> checks f src a2.
Proof. intros H E1 E2. replace a2 with a1; [exact H|]. apply eq_true_iff_eq. tauto. Qed.
Definition hex_table : list Z := hex_lower ++ hex_upper.
Lemma hex_char_in c : byte c -> hex_char c = true <-> In c hex_lower \/ In c hex_upper.
Proof.
  intro B. assert (G : forallb (fun c => Bool.eqb (hex_char c) (existsb (Z.eqb c) hex_table)) (map Z.of_nat (seq 0 256)) = true)
    by (vm_compute; reflexivity).
  rewrite forallb_forall in G. assert (I : In c (map Z.of_nat (seq 0 256))).
  { apply in_map_iff. exists (Z.to_nat c). unfold byte in B. split; [lia|]. apply in_seq. lia. }
  apply G, Bool.eqb_prop in I. rewrite I, existsb_exists. unfold hex_table. split.
  - intros (y & Hy & E). apply Z.eqb_eq in E. subst y. now apply in_app_or.
  - intro H. exists c. split; [now apply in_or_app|apply Z.eqb_refl].
Qed.
Lemma esize_pos t : 0 < esize t. Proof. destruct t; cbn [esize]; lia. Qed.
Lemma esize_div t n : esize t * n / esize t = n.
Proof. rewrite Nat.mul_comm. apply Nat.div_mul. pose proof (esize_pos t). lia. Qed.

Lemma public_alone c : public c -> alone c.
Proof.
  destruct 1.
  - apply into_alone. intros _. change (digits_of case) with (alphabet_of case).
    apply does_enc; [apply hex_encode_ok|]. intros m0 b0 o0 d0 e0 k0 _ L. apply hex_encode_short. rewrite hex_encode_len in L. exact L.
  - apply into_alone. intros B. eapply (does_dec _ _ _ _ _ _ _ (hex_decode_ok s src)); [| | |exact H].
    + intros m0 b0 o0 d0 e0 k0 _ L. now apply hex_decode_short.
    + intro x. now apply hex_decode_iff.
    + intros x Hx. apply hex_decode_even in Hx. rewrite Hx. now rewrite Nat.mul_comm, Nat.div_mul.
  - apply (inplace_alone _ _ _ _ (length data / 2)); [|lia]. intro B. eapply inplace_is; [apply hex_decode_inplace_ok| |eassumption].
    intro x. now apply hex_decode_iff.
  - apply check_alone. intro B. eapply checks_is; [apply hex_check_ok| |eassumption]. rewrite forallb_forall. split; intros G x Hx.
    + apply hex_char_in; [exact (proj1 (Forall_forall _ _) B x Hx)|now apply G].
    + apply hex_char_in; [exact (proj1 (Forall_forall _ _) B x Hx)|now apply G].
  - apply into_alone. intros _. apply does_enc; [now apply b64_encode_ok|apply b64_encode_short].
  - apply into_alone. intro B. eapply does_dec; [now apply b64_decode_ok|apply b64_decode_short| | |exact H1].
    + intro x. now apply b64_dec_strict.
    + intros x Hx. now apply b64_dec_facts.
  - apply into_alone. intro B. eapply does_dec; [now apply b64_decode_ok|apply b64_decode_short| | |exact H0].
    + intro x. cbv beta. now rewrite <- b64_dec_forgiving.
    + intros x Hx. now apply b64_dec_facts.
  - eapply inplace_alone; [|apply b64_need_le]. intro B. eapply inplace_is; [now apply b64_decode_inplace_ok| |eassumption].
    intro x. now apply b64_dec_strict.
  - eapply inplace_alone; [|apply b64_need_le]. intro B. rewrite <- b64_dec_forgiving by exact B. now apply b64_decode_inplace_ok.
  - apply check_alone. intro B. eapply checks_is; [now apply b64_check_ok| |eassumption].
    assert (D := fun x => b64_dec_strict cfg src x B H0). destruct (b64_dec cfg src) as [y|].
    + split; [|reflexivity]. intros _. exists y. now apply D.
    + split; [discriminate|]. intros (x & Hx). apply D in Hx. discriminate Hx.
  - apply check_alone. intro B. eapply checks_is; [now apply b64_check_ok| |eassumption]. rewrite b64_dec_forgiving by exact B.
    destruct (forgiving_decode_nows _ _) as [y|]; [split; [eauto|reflexivity]|]. split; [discriminate|]. intros (x & Hx). discriminate Hx.
  - apply into_alone. intros _ m b0 o0 d0 e0 S R SEP. destruct (Nat.leb_spec (length src) dlen) as [L|L].
    + destruct (forgiving_decode_ok en s1 s2 src H m b0 o0 d0 e0 dlen S R SEP L) as (r & m' & E & D). exists r, m'. split; [exact E|].
      eapply decoded_wide; [exact L|exact D].
    + do 2 eexists. split; [now apply forgiving_decode_short|]. split; [apply Frame_refl|reflexivity].
  - eapply inplace_alone; [|apply le_n]. intros _. now apply forgiving_decode_inplace_ok.
  - apply into_alone. intros _. apply does_enc; [now apply b32_encode_ok|apply b32_encode_short].
  - apply into_alone. intro B. eapply does_dec; [now apply b32_decode_ok|apply b32_decode_short| | |exact H0].
    + intro x. now apply b32_dec_strict.
    + intros x Hx. now apply b32_dec_facts.
  - eapply inplace_alone; [|apply b32_need_le]. intro B. eapply inplace_is; [now apply b32_decode_inplace_ok| |eassumption].
    intro x. now apply b32_dec_strict.
  - apply check_alone. intro B. eapply checks_is; [now apply b32_check_ok| |eassumption].
    assert (D := fun x => b32_dec_strict cfg src x B). destruct (b32_dec cfg src) as [y|].
    + split; [|reflexivity]. intros _. exists y. now apply D.
    + split; [discriminate|]. intros (x & Hx). apply D in Hx. discriminate Hx.
  - apply into_alone. intros _. apply does_array. rewrite (exactly_unique _ _ _ H0 (uuid_exactly src)). now apply uuid_parse_decodes.
  - apply into_alone. intros _. apply does_array. rewrite (exactly_unique _ _ _ H (simple_exactly src)). now apply parse_simple_decodes.
  - apply into_alone. intros _. apply does_array. rewrite (exactly_unique _ _ _ H0 (hyph_exactly src)). now apply parse_hyphenated_decodes.
  - apply into_alone. intros _. change (digits_of case) with (alphabet_of case).
    replace 32 with (length (uuid_simple (alphabet_of case) u)) by (unfold uuid_simple; rewrite hex_encode_len; lia).
    apply does_array_enc. now apply format_simple_encodes.
  - apply into_alone. intros _. change (digits_of case) with (alphabet_of case).
    replace 36 with (length (uuid_hyphenated (alphabet_of case) u)) by (apply hyphenate_len; rewrite hex_encode_len; lia).
    apply does_array_enc. now apply format_hyphenated_encodes.
  - apply check_alone. intros _ m b0 o0 S. destruct (C34_is_ascii x64 s m b0 o0 src S) as (r & E & G). exists m. unfold answers, bind. rewrite E.
    replace r with answer by (apply eq_true_iff_eq; tauto). split; [now destruct answer|]. now intro.
  - apply check_alone. intros _ m b0 o0 [_ S]. destruct (C35_is_utf32le en s m b0 o0 xs H H0 S) as (r & E & G). exists m. unfold answers, bind.
    rewrite arr_len, Nat.mul_comm, Nat.div_mul, E by lia.
    replace r with answer by (apply eq_true_iff_eq; tauto). split; [now destruct answer|]. now intro.
  - apply into_alone. intros _ m b0 o0 d0 e0 [_ S] R SEP. rewrite arr_len in *.
    destruct (C36_swap en t s m b0 o0 d0 e0 xs dlen H H0 S R SEP H1) as (m' & E & A & F). unfold swap_codec, bind.
    rewrite !esize_div, E. do 2 eexists. split; [reflexivity|]. apply (decoded_wide _ _ _ _ (esize t * length xs)); [nia|]. split; [exact F|].
    change (swapped t) with (swap_of_type t). rewrite arr_len, map_length. cbn [fst snd]. now rewrite (Nat.mul_comm (length xs)).
  - eapply inplace_alone; [|apply le_n]. intros _ m b0 o0 [_ S]. destruct (C36_swap_inplace en t s m b0 o0 xs H H0 S) as (m' & E & A & F).
    unfold swap_inplace_codec, bind. rewrite arr_len, esize_div, E. do 2 eexists. split; [reflexivity|]. split; [exact F|].
    change (swapped t) with (swap_of_type t). now rewrite arr_len, map_length.
Qed.

(** ** All at once *)
Definition targetb (c : call) (b' : nat) : bool :=
  match c with Into _ _ _ _ d _ _ _ => d =? b' | InPlace _ _ b _ _ => b =? b' | Check _ _ _ _ _ => false end.
Lemma targetb_target c b' : target c b' -> targetb c b' = true.
Proof. destruct c; cbn; intro H; [apply Nat.eqb_eq, H|apply Nat.eqb_eq, H|contradiction]. Qed.
Lemma writes_is c b' o' : writes c b' o' = targetb c b' && accesses c b' o'.
Proof.
  destruct c; cbn [writes targetb accesses]; [reflexivity| |reflexivity]. unfold within. rewrite (Nat.eqb_sym b b').
  destruct (b' =? b); reflexivity.
Qed.

Lemma next_stores P {A} (Q : A -> Prop) (p : prog A) m p' m' : stores_in P Q p -> next p m = Some (p', m') ->
  (forall b o, next_writes p b o -> P b) /\ stores_in P Q p'.
Proof.
  destruct p as [a|f|b k|q n k|q xs k]; cbn [stores_in next next_writes]; intros S H; try discriminate H.
  - injection H as <- <-. split; [easy|apply S].
  - destruct (load q n m); try discriminate H. injection H as <- <-. split; [easy|apply S].
  - destruct (store q xs m); try discriminate H. injection H as <- <-. split; [|apply S]. intros b o [-> _]. apply S.
Qed.
Lemma solo_stores P {A} (Q : A -> Prop) W k (p : prog A) m a m1 (V : nat -> bool) : solo W k p m a m1 -> stores_in P Q p ->
  (forall b, P b -> V b = true) -> solo (fun b o => V b && W b o) k p m a m1.
Proof.
  intros SO S HV. induction SO as [|k p m p' m' a m1 E HW _ IH]; [constructor|]. destruct (next_stores _ _ _ _ _ _ S E) as [NW S'].
  apply (solo_next _ _ _ _ _ _ _ _ E); [|now apply IH]. intros b o H. rewrite HV by (eapply NW; eauto). cbn [andb]. now apply HW.
Qed.
Lemma solo_ext {A} (W W' : nat -> nat -> bool) k (p : prog A) m a m1 : (forall b o, W b o = true -> W' b o = true) -> solo W k p m a m1 -> solo W' k p m a m1.
Proof. intros H SO. induction SO as [|k p m p' m' a m1 E HW _ IH]; [constructor|]. apply (solo_next _ _ _ _ _ _ _ _ E); auto. Qed.

Lemma masked_ready m c mm : masked (accesses c) m mm -> ready m c -> ready mm c.
Proof.
  intros HM. destruct c as [f src b o d e dlen out|f data b o out|f src b o answer]; cbn [ready accesses] in *.
  - intros ([B S] & R & SEP). split; [split; [exact B|]|split; [|exact SEP]].
    + apply (masked_bytes _ _ _ _ _ _ HM S). intros i Hi. cbn [accesses]. unfold within. lia.
    + unfold room in *. now rewrite (proj1 (HM d)).
  - intros [B S]. split; [exact B|]. apply (masked_bytes _ _ _ _ _ _ HM S). intros i Hi. cbn [accesses]. unfold within. lia.
  - intros [B S]. split; [exact B|]. apply (masked_bytes _ _ _ _ _ _ HM S). intros i Hi. cbn [accesses]. unfold within. lia.
Qed.
Lemma unaltered_outside m c m' b' o' : unaltered m c m' -> accesses c b' o' = false -> nth_error (m' b') o' = nth_error (m b') o'.
Proof.
  destruct c as [f src b o d e dlen out|f data b o out|f src b o answer]; cbn [unaltered accesses]; unfold within.
  - intros (F1 & F2 & F3) H. destruct (Nat.eq_dec b' d) as [->|N]; [|now rewrite F1]. apply F3. lia.
  - intros (F1 & F2 & F3) H. destruct (Nat.eq_dec b' b) as [->|N]; [|now rewrite F1]. apply F3. lia.
  - intros S _. now rewrite S.
Qed.
Lemma delivered_at m' m1 c : (forall b o x, nth_error (m1 b) o = Some (Some x) -> nth_error (m' b) o = Some (Some x)) ->
  (forall b, length (m' b) = length (m1 b)) -> delivered m1 c -> delivered m' c.
Proof.
  intros H L. assert (G : forall d e x, bytes_at m1 d e x -> bytes_at m' d e x).
  { intros d e x B. apply bytes_at_nth in B as [BL BN]. apply bytes_at_nth. split; [now rewrite L|]. intros i Hi. specialize (BN i Hi).
    destruct (nth_error x i) as [y|] eqn:E; [|apply nth_error_None in E; lia]. now apply H. }
  destruct c as [f src b o d e dlen [x|]|f data b o [x|]|f src b o answer]; cbn [delivered]; auto.
Qed.

Theorem calls_interleave n (cs : nat -> call) ps m :
  (forall i, i < n -> alone (cs i) /\ ready m (cs i)) ->
  (forall i j b o, i < n -> j < n -> i <> j -> writes (cs i) b o = true -> accesses (cs j) b o = false) ->
  (forall i, i < n -> implements (ps i) (code (cs i)) /\ stores_in (target (cs i)) any (ps i)) ->
  undisturbed n ps m (fun m' =>
    (forall i, i < n -> delivered m' (cs i)) /\
    (forall b, length (m' b) = length (m b)) /\
    (forall b o, (forall i, i < n -> writes (cs i) b o = false) -> nth_error (m' b) o = nth_error (m b) o)).
Proof.
  intros HC HX HP. set (F := fun i => accesses (cs i)). set (W := fun i => writes (cs i)).
  assert (RUN : forall i, i < n -> exists m1, code (cs i) (mask (F i) m) = Ret tt m1 /\ delivered m1 (cs i) /\ unaltered (mask (F i) m) (cs i) m1).
  { intros i Hi. destruct (HC i Hi) as [A R]. apply A. exact (masked_ready _ _ _ (mask_masked _ m) R). }
  assert (CH : forall n', n' <= n -> exists m1 : nat -> mem, forall i, i < n' ->
     code (cs i) (mask (F i) m) = Ret tt (m1 i) /\ delivered (m1 i) (cs i) /\ unaltered (mask (F i) m) (cs i) (m1 i)).
  { induction n' as [|n' IH]; intro L; [exists (fun _ => m); lia|]. destruct (IH ltac:(lia)) as [m1 H1].
    destruct (RUN n' L) as (mn & Hn). exists (fun i => if i =? n' then mn else m1 i). intros i Hi.
    destruct (Nat.eqb_spec i n') as [->|]; [exact Hn|]. apply H1. lia. }
  destruct (CH n (le_n n)) as [m1 H1]. clear CH RUN.
  assert (INIT : forall i b o x, i < n -> nth_error (m1 i b) o = Some (Some x) -> F i b o = true).
  { intros i b o x Hi Hx. destruct (H1 i Hi) as (_ & _ & U). destruct (F i b o) eqn:EF; [reflexivity|]. exfalso.
    rewrite (unaltered_outside _ _ _ _ _ U EF) in Hx. destruct (mask_masked (F i) m b) as [ML MN].
    assert (Lo : o < length (m b)) by (rewrite <- ML; apply nth_error_Some; congruence). rewrite MN, EF in Hx by exact Lo. discriminate Hx. }
  assert (SO : forall i, i < n -> exists k, solo (W i) k (ps i) (mask (F i) m) tt (m1 i)).
  { intros i Hi. destruct (H1 i Hi) as (E & D & U). destruct (HP i Hi) as [HI HS].
    destruct (run_solo_all (ps i) (mask (F i) m) tt (m1 i) ltac:(rewrite HI; exact E)) as [k SO]. exists k.
    assert (SN : solo (F i) k (ps i) (mask (F i) m) tt (m1 i)). { apply (solo_narrow _ _ _ _ _ _ SO). intros b o x. now apply INIT. }
    assert (SW := solo_stores _ _ _ _ _ _ _ _ (targetb (cs i)) SN HS (targetb_target (cs i))).
    revert SW. apply solo_ext. intros b o. unfold W. now rewrite writes_is. }
  assert (SEP : separated n F W).
  { split; [|intros i j b o Hi Hj N H; now apply (HX i j)]. intros i b o Hi H. unfold W in H. rewrite writes_is in H. now apply andb_true_iff in H. }
  destruct (interleave n F W m1 ps m SEP) as [N HN].
  { intros i Hi. destruct (SO i Hi) as [k S]. exists k, (mask (F i) m). split; [apply mask_masked|exact S]. }
  exists N. intros k ps' m' ST. destruct (HN k ps' m' ST) as (G1 & G2 & G3 & G4 & G5). split; [exact G1|]. split; [exact G2|]. split; [exact G3|].
  split; [exact G4|]. intro AD. destruct (G5 AD) as (L5 & V5 & O5). split; [|split; [exact L5|exact O5]].
  intros i Hi. destruct (H1 i Hi) as (_ & D & U). revert D. apply delivered_at.
  - intros b o x Hx. exact (eq_trans (V5 i b o Hi (INIT i b o x Hi Hx)) Hx).
  - intro b. destruct (SO i Hi) as [k' S]. exact (eq_trans (L5 b) (eq_trans (eq_sym (proj1 (mask_masked (F i) m b))) (eq_sym (solo_length _ _ _ _ _ _ S b)))).
Qed.

(** ** The calls as programs *)
Lemma rei_code_into {f : codec} {src b o d e dlen} out (Q : result (ptr * nat) -> Prop) : reified True (eq d) Q (f (b, o) (length src) (d, e) dlen) ->
  exists p, follows (code (Into f src b o d e dlen out)) p /\ implements p (code (Into f src b o d e dlen out)) /\ stores_in (target (Into f src b o d e dlen out)) any p.
Proof.
  intro R. assert (K : reified True (eq d) any (code (Into f src b o d e dlen out))).
  { cbn [code]. apply (rei_bind Q); [exact R|]. intros r. unfold expect. destruct r as [[p n]|], out as [x|]; try apply rei_panic; try (now apply rei_ret).
    destruct (_ && _); [now apply rei_ret|apply rei_panic]. }
  exists (the_prog K). split; [apply reified_fol|]. split; [apply reified_imp|]. now apply (reified_in K).
Qed.
Lemma rei_code_inplace {f data b o} out (Q : result (ptr * nat) -> Prop) : reified True (eq b) Q (f (b, o) (length data)) ->
  exists p, follows (code (InPlace f data b o out)) p /\ implements p (code (InPlace f data b o out)) /\ stores_in (target (InPlace f data b o out)) any p.
Proof.
  intro R. assert (K : reified True (eq b) any (code (InPlace f data b o out))).
  { cbn [code]. apply (rei_bind Q); [exact R|]. intros r. unfold expect. destruct r as [[p n]|], out as [x|]; try apply rei_panic; try (now apply rei_ret).
    destruct (_ && _); [now apply rei_ret|apply rei_panic]. }
  exists (the_prog K). split; [apply reified_fol|]. split; [apply reified_imp|]. now apply (reified_in K).
Qed.
Lemma rei_code_check {f src b o} answer (Q : result unit -> Prop) : reified True (fun _ => False) Q (f (b, o) (length src)) ->
  exists p, follows (code (Check f src b o answer)) p /\ implements p (code (Check f src b o answer)) /\ stores_in (target (Check f src b o answer)) any p.
Proof.
  intro R. assert (K : reified True (fun _ => False) any (code (Check f src b o answer))).
  { cbn [code]. apply (rei_bind Q); [exact R|]. intros r. destruct r as [u|], answer; try apply rei_panic; now apply rei_ret. }
  exists (the_prog K). split; [apply reified_fol|]. split; [apply reified_imp|]. now apply (reified_in K).
Qed.
Lemma public_program c : public c -> exists p, follows (code c) p /\ implements p (code c) /\ stores_in (target c) any p.
Proof.
  destruct 1.
  - eapply rei_code_into. now apply rei_hex_encode.
  - eapply rei_code_into. now apply rei_hex_decode.
  - eapply rei_code_inplace. now apply rei_hex_decode_inplace.
  - eapply rei_code_check. apply rei_hex_check.
  - eapply rei_code_into. now apply rei_b64_encode.
  - eapply rei_code_into. now apply rei_b64_decode.
  - eapply rei_code_into. now apply rei_b64_decode.
  - eapply rei_code_inplace. now apply rei_b64_decode_inplace.
  - eapply rei_code_inplace. now apply rei_b64_decode_inplace.
  - eapply rei_code_check. apply rei_b64_check.
  - eapply rei_code_check. apply rei_b64_check.
  - eapply rei_code_into. now apply rei_forg_forgiving_decode.
  - eapply rei_code_inplace. now apply rei_forg_forgiving_decode_inplace.
  - eapply rei_code_into. now apply rei_b32_encode.
  - eapply rei_code_into. now apply rei_b32_decode.
  - eapply rei_code_inplace. now apply rei_b32_decode_inplace.
  - eapply rei_code_check. apply rei_b32_check.
  - eapply rei_code_into. now apply rei_uuid_parse.
  - eapply rei_code_into. now apply rei_uuid_parse_simple.
  - eapply rei_code_into. now apply rei_uuid_parse_hyphenated.
  - eapply rei_code_into. unfold format_simple_codec. eapply rei_bind; [now apply rei_uuid_format_simple|]. intro r. now apply (rei_ret any).
  - eapply rei_code_into. unfold format_hyphenated_codec. eapply rei_bind; [now apply rei_uuid_format_hyphenated|]. intro r. now apply (rei_ret any).
  - eapply rei_code_check. unfold answers. eapply rei_bind; [apply rei_uni_is_ascii|]. intro r. now apply (rei_ret any).
  - eapply rei_code_check. unfold answers. eapply rei_bind; [apply rei_uni_is_utf32le|]. intro r. now apply (rei_ret any).
  - eapply rei_code_into. unfold swap_codec. eapply rei_bind; [now apply rei_uni_swap_endianness_to|]. intro r. now apply (rei_ret any).
  - eapply rei_code_inplace. unfold swap_inplace_codec. eapply rei_bind; [now apply rei_uni_swap_endianness_inplace|]. intro r. now apply (rei_ret any).
Qed.
