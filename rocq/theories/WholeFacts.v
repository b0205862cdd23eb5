(** Facts about whole programs: the steps within [auto] only choose the function that [selected] gives, and everything else is
    an execution in the sense of Conc.v. *)
From Coq Require Import ZArith List Bool Lia Arith.
From Verif Require Import Dispatch DispatchFacts.
From Verif Require Import Bytes Mem MemFacts Slices Codec Isa Simd Spec Hex Base64 Base64Ref Base64Api Base32 Base32Ref Base32Api
  SimdFacts Ints Uuid UuidFacts UuidApi Unicode UnicodeSpec SwapFacts Forgiving Conc ConcFacts Reify ConcApi ConcApiFacts Whole.
Import ListNotations.
Open Scope nat_scope. Open Scope m_scope.

Definition sel (c : build) (cpu : feature -> bool) (e : entry) : isa := selected c cpu (invocation e).

(** ** Embedded programs *)
Lemma run_embed pick p : forall m, run (erase pick (embed p)) m = run p m.
Proof.
  induction p as [[]|f|b k IH|q n k IH|q xs k IH]; intro m; cbn [embed erase run]; [reflexivity|reflexivity| | |].
  - apply IH.
  - unfold bind. destruct (load q n m); auto.
  - unfold bind. destruct (store q xs m); auto.
Qed.
Lemma stores_embed P pick p : stores_in P any p -> stores_in P any (erase pick (embed p)).
Proof.
  induction p as [a|f|b k IH|q n k IH|q xs k IH]; cbn [embed erase stores_in]; intros H; try exact H.
  - intro n. apply IH, H.
  - intro l. apply IH, H.
  - split; [apply H|apply IH, H].
Qed.
Lemma autos_embed d p : autos d (embed p).
Proof. induction p; cbn [embed autos]; auto. Qed.
Lemma autos_mono d d' x : d <= d' -> autos d x -> autos d' x.
Proof.
  revert d d'. induction x as [|f|b k IH|q n k IH|q xs k IH|e k IH]; intros d d' L; cbn [autos]; auto.
  - intros H n. eauto.
  - intros H l. eauto.
  - eauto.
  - destruct d as [|d]; [contradiction|]. destruct d' as [|d']; [lia|]. intros H s. apply (IH s d d'); [lia|apply H].
Qed.
Lemma isa_choice {A} (R : isa -> A -> Prop) : (forall s, exists a, R s a) -> exists f, forall s, R s (f s).
Proof.
  intro H. destruct (H Fallback) as [a0 H0], (H SSE2) as [a1 H1], (H SSSE3) as [a2 H2], (H SSE41) as [a3 H3], (H AVX2) as [a4 H4],
    (H NEON32) as [a5 H5], (H NEON64) as [a6 H6], (H WASM128) as [a7 H7].
  exists (fun s => match s with Fallback => a0 | SSE2 => a1 | SSSE3 => a2 | SSE41 => a3 | AVX2 => a4 | NEON32 => a5 | NEON64 => a6 | WASM128 => a7 end).
  intros []; assumption.
Qed.
(** [x] is a program for the call [f] *)
Definition follows (x : xprog) (f : (entry -> isa) -> call) : Prop :=
  forall pick, implements (erase pick x) (code (f pick)) /\ stores_in (target (f pick)) any (erase pick x).
Definition programmable (k : call) : Prop := exists p, implements p (code k) /\ stores_in (target k) any p.
Lemma programmable_of c : (exists p, Conc.follows (code c) p /\ implements p (code c) /\ stores_in (target c) any p) -> programmable c.
Proof. intros (p & _ & I). now exists p. Qed.
Lemma follows_one e (g : isa -> call) : (forall s, programmable (g s)) -> exists x, autos 2 x /\ follows x (fun pick => g (pick e)).
Proof.
  intro H. destruct (isa_choice _ H) as [f Hf]. exists (XAuto e (fun s => embed (f s))). split; [intro; apply autos_embed|].
  intro pick. cbn [erase]. destruct (Hf (pick e)) as [I S]. split; [|now apply stores_embed]. intro m. rewrite run_embed. apply I.
Qed.
Lemma follows_two e1 e2 (g : isa -> isa -> call) : (forall s1 s2, programmable (g s1 s2)) ->
  exists x, autos 2 x /\ follows x (fun pick => g (pick e1) (pick e2)).
Proof.
  intro H. assert (H' : forall s1, exists f, forall s2, implements (f s2) (code (g s1 s2)) /\ stores_in (target (g s1 s2)) any (f s2))
    by (intro s1; exact (isa_choice _ (H s1))).
  destruct (isa_choice _ H') as [f Hf]. exists (XAuto e1 (fun s1 => XAuto e2 (fun s2 => embed (f s1 s2)))). split; [intros s1 s2; apply autos_embed|].
  intro pick. cbn [erase]. destruct (Hf (pick e1) (pick e2)) as [I S]. split; [|now apply stores_embed]. intro m. rewrite run_embed. apply I.
Qed.
Lemma api_follows c t sw f : api c t sw f -> exists x, autos 2 x /\ follows x f.
Proof.
  destruct 1.
  - apply (follows_one _ (fun s => Into (fun p n q k => hex_encode s p n q k case) _ _ _ _ _ _ _)). intro s. eapply programmable_of, rei_code_into. now apply rei_hex_encode.
  - apply (follows_one _ (fun s => Into (hex_decode s) _ _ _ _ _ _ _)). intro s. eapply programmable_of, rei_code_into. now apply rei_hex_decode.
  - apply (follows_one _ (fun s => InPlace (hex_decode_inplace s) _ _ _ _)). intro s. eapply programmable_of, rei_code_inplace. now apply rei_hex_decode_inplace.
  - apply (follows_one _ (fun s => Check (hex_check s) _ _ _ _)). intro s. eapply programmable_of, rei_code_check. apply rei_hex_check.
  - apply (follows_one _ (fun s => Into (b64_encode s cfg) _ _ _ _ _ _ _)). intro s. eapply programmable_of, rei_code_into. now apply rei_b64_encode.
  - apply (follows_one _ (fun s => Into (b64_decode _ s cfg) _ _ _ _ _ _ _)). intro s. eapply programmable_of, rei_code_into. now apply rei_b64_decode.
  - apply (follows_one _ (fun s => InPlace (b64_decode_inplace _ s cfg) _ _ _ _)). intro s. eapply programmable_of, rei_code_inplace. now apply rei_b64_decode_inplace.
  - apply (follows_one _ (fun s => Check (b64_check _ s cfg) _ _ _ _)). intro s. eapply programmable_of, rei_code_check. apply rei_b64_check.
  - apply (follows_one _ (fun s => Into (b64_decode _ s _) _ _ _ _ _ _ _)). intro s. eapply programmable_of, rei_code_into. now apply rei_b64_decode.
  - apply (follows_one _ (fun s => InPlace (b64_decode_inplace _ s _) _ _ _ _)). intro s. eapply programmable_of, rei_code_inplace. now apply rei_b64_decode_inplace.
  - apply (follows_one _ (fun s => Check (b64_check _ s _) _ _ _ _)). intro s. eapply programmable_of, rei_code_check. apply rei_b64_check.
  - apply (follows_two _ _ (fun s1 s2 => Into (forgiving_decode _ s1 s2) _ _ _ _ _ _ _)). intros s1 s2. eapply programmable_of, rei_code_into. now apply rei_forg_forgiving_decode.
  - apply (follows_two _ _ (fun s1 s2 => InPlace (forgiving_decode_inplace _ s1 s2) _ _ _ _)). intros s1 s2. eapply programmable_of, rei_code_inplace. now apply rei_forg_forgiving_decode_inplace.
  - apply (follows_one _ (fun s => Into (b32_encode t s cfg) _ _ _ _ _ _ _)). intro s. eapply programmable_of, rei_code_into. now apply rei_b32_encode.
  - apply (follows_one _ (fun s => Into (b32_decode t s cfg) _ _ _ _ _ _ _)). intro s. eapply programmable_of, rei_code_into. now apply rei_b32_decode.
  - apply (follows_one _ (fun s => InPlace (b32_decode_inplace t s cfg) _ _ _ _)). intro s. eapply programmable_of, rei_code_inplace. now apply rei_b32_decode_inplace.
  - apply (follows_one _ (fun s => Check (b32_check t s cfg) _ _ _ _)). intro s. eapply programmable_of, rei_code_check. apply rei_b32_check.
  - apply (follows_two _ _ (fun s1 s2 => Into (parse_codec s1 s2) _ _ _ _ _ _ _)). intros s1 s2. eapply programmable_of, rei_code_into. now apply rei_uuid_parse.
  - apply (follows_one _ (fun s => Into (parse_simple_codec s) _ _ _ _ _ _ _)). intro s. eapply programmable_of, rei_code_into. now apply rei_uuid_parse_simple.
  - apply (follows_one _ (fun s => Into (parse_hyphenated_codec s) _ _ _ _ _ _ _)). intro s. eapply programmable_of, rei_code_into. now apply rei_uuid_parse_hyphenated.
  - apply (follows_one _ (fun s => Into (format_simple_codec s case) _ _ _ _ _ _ _)). intro s.
    eapply programmable_of, rei_code_into. unfold format_simple_codec. eapply rei_bind; [now apply rei_uuid_format_simple|]. intro r. now apply (rei_ret any).
  - apply (follows_one _ (fun s => Into (format_hyphenated_codec s case) _ _ _ _ _ _ _)). intro s.
    eapply programmable_of, rei_code_into. unfold format_hyphenated_codec. eapply rei_bind; [now apply rei_uuid_format_hyphenated|]. intro r. now apply (rei_ret any).
  - apply (follows_one _ (fun s => Check (answers (is_ascii _ s)) _ _ _ _)). intro s.
    eapply programmable_of, rei_code_check. unfold answers. eapply rei_bind; [apply rei_uni_is_ascii|]. intro r. now apply (rei_ret any).
  - apply (follows_one _ (fun s => Check (answers (fun p n => is_utf32le _ s p (n / 4))) _ _ _ _)). intro s.
    eapply programmable_of, rei_code_check. unfold answers. eapply rei_bind; [apply rei_uni_is_utf32le|]. intro r. now apply (rei_ret any).
  - apply (follows_one _ (fun s => Into (swap_codec _ U16 s) _ _ _ _ _ _ _)). intro s.
    eapply programmable_of, rei_code_into. unfold swap_codec. eapply rei_bind; [now apply rei_uni_swap_endianness_to|]. intro r. now apply (rei_ret any).
  - apply (follows_one _ (fun s => InPlace (swap_inplace_codec _ U16 s) _ _ _ _)). intro s.
    eapply programmable_of, rei_code_inplace. unfold swap_inplace_codec. eapply rei_bind; [now apply rei_uni_swap_endianness_inplace|]. intro r. now apply (rei_ret any).
  - apply (follows_one _ (fun s => Into (swap_codec _ U32 s) _ _ _ _ _ _ _)). intro s.
    eapply programmable_of, rei_code_into. unfold swap_codec. eapply rei_bind; [now apply rei_uni_swap_endianness_to|]. intro r. now apply (rei_ret any).
  - apply (follows_one _ (fun s => InPlace (swap_inplace_codec _ U32 s) _ _ _ _)). intro s.
    eapply programmable_of, rei_code_inplace. unfold swap_inplace_codec. eapply rei_bind; [now apply rei_uni_swap_endianness_inplace|]. intro r. now apply (rei_ret any).
Qed.

(** ** The chosen functions do what they should *)
Lemma invocation_incl e : incl (fastest (invocation e)) (targets (invocation e)).
Proof. destruct e; intros f Hf; destruct Hf as [<-|[<-|[<-|[]]]]; cbn; tauto. Qed.
Lemma sel_supported c cpu e : compiled_for c cpu -> supported c cpu (invocation e) (sel c cpu e).
Proof. intro H. apply selected_supported; [exact H|apply invocation_incl]. Qed.
Lemma sel_ssse3 c cpu e : compiled_for c cpu -> invocation e = avx2_ssse3 -> sel c cpu e = Fallback \/ swz (sel c cpu e).
Proof.
  intros H E. destruct (sel_supported c cpu e H) as [->|(f & J & -> & _)]; [now left|]. right. rewrite E in J.
  destruct J as [<-|[<-|[<-|[<-|[]]]]]; cbn [isa_of]; try destruct (is_arm _); reflexivity.
Qed.
Lemma sel_sse41 c cpu e : compiled_for c cpu -> invocation e = avx2_sse41 -> sel c cpu e = Fallback \/ sse41p (sel c cpu e).
Proof.
  intros H E. destruct (sel_supported c cpu e H) as [->|(f & J & -> & _)]; [now left|]. right. rewrite E in J.
  destruct J as [<-|[<-|[<-|[<-|[]]]]]; cbn [isa_of]; try destruct (is_arm _); reflexivity.
Qed.
Lemma sel_utf32 c cpu t : compiled_for c cpu -> target_of c t ->
  sel c cpu E_is_utf32le = Fallback \/ (sse41p (sel c cpu E_is_utf32le) /\ t_endian t = LE).
Proof.
  intros H [_ T]. destruct (sel_supported c cpu E_is_utf32le H) as [->|(f & J & E & A & _)]; [now left|].
  destruct T as [T|T]; [|rewrite T in A; now destruct f].
  destruct (sel_sse41 c cpu E_is_utf32le H eq_refl) as [->|S]; [now left|now right].
Qed.
Lemma sel_swap c cpu e : compiled_for c cpu -> swaps_work c cpu -> invocation e = D_utf16_swap -> swap_isa (sel c cpu e).
Proof.
  intros H W E. destruct (sel_supported c cpu e H) as [->|(f & J & Es & A & _)]; [now left|]. right. rewrite E in J.
  destruct J as [<-|[<-|[<-|[<-|[]]]]]; try (rewrite Es; cbn [isa_of]; try destruct (is_arm _); reflexivity).
  exfalso. cbn [has_arch] in A. apply (W A). unfold sel, selected in Es. rewrite E in Es. exact Es.
Qed.
Lemma api_public c cpu t sw f : compiled_for c cpu -> target_of c t -> (sw = true -> swaps_work c cpu) -> api c t sw f -> public (f (sel c cpu)).
Proof.
  intros H T W. destruct 1.
  - apply pub_hex_encode.
  - now apply pub_hex_decode.
  - now apply pub_hex_decode_inplace.
  - now apply pub_hex_check.
  - apply pub_b64_encode. now apply sel_ssse3.
  - apply pub_b64_decode; auto. now apply sel_ssse3.
  - apply pub_b64_decode_inplace; auto. now apply sel_ssse3.
  - apply pub_b64_check; auto. now apply sel_ssse3.
  - apply pub_b64_decode_forgiving; auto. now apply sel_ssse3.
  - apply pub_b64_decode_inplace_forgiving; auto. now apply sel_ssse3.
  - apply pub_b64_check_forgiving; auto. now apply sel_ssse3.
  - apply pub_forgiving_decode. now apply sel_ssse3.
  - apply pub_forgiving_decode_inplace. now apply sel_ssse3.
  - apply pub_b32_encode. now apply sel_sse41.
  - apply pub_b32_decode; auto. now apply sel_sse41.
  - apply pub_b32_decode_inplace; auto. now apply sel_sse41.
  - apply pub_b32_check; auto. now apply sel_ssse3.
  - apply pub_uuid_parse; auto. now apply sel_sse41.
  - now apply pub_uuid_parse_simple.
  - apply pub_uuid_parse_hyphenated; auto. now apply sel_sse41.
  - now apply pub_uuid_format_simple.
  - apply pub_uuid_format_hyphenated; auto. now apply sel_sse41.
  - now apply pub_is_ascii.
  - apply pub_is_utf32; auto. now apply sel_utf32.
  - apply (pub_swap _ U16); auto. now apply sel_swap; auto.
  - apply (pub_swap_inplace _ U16); auto. now apply sel_swap; auto.
  - apply (pub_swap _ U32); auto. now apply sel_swap; auto.
  - apply (pub_swap_inplace _ U32); auto. now apply sel_swap; auto.
Qed.

(** what a call delivers does not depend on the instruction set *)
Lemma api_delivered c t sw f : api c t sw f -> forall m pick pick', delivered m (f pick) = delivered m (f pick').
Proof. destruct 1; reflexivity. Qed.

(** ** Executions of whole programs *)
Definition h_inv (c : build) (cpu : feature -> bool) (h : pointers) : Prop :=
  forall e, In InitIfunc (h e) /\ forall f, In f (h e) -> f = InitIfunc \/ f = Impl (sel c cpu e).
Definition t_inv (c : build) (cpu : feature -> bool) (t : tstate) : Prop :=
  match t with
  | At _ => True
  | Got e f _ => indirect c = true /\ resolve_static c (fastest (invocation e)) = None /\ (f = InitIfunc \/ f = Impl (sel c cpu e))
  | Will e s _ => s = sel c cpu e
  end.
Definition t_erase (pick : entry -> isa) (t : tstate) : prog unit :=
  match t with At x => erase pick x | Got e _ k | Will e _ k => erase pick (k (pick e)) end.
(** at most [w] more steps within [auto] *)
Definition t_left (w : nat) (t : tstate) : Prop :=
  match t with
  | At x => exists d, autos d x /\ 3 * d <= w
  | Got _ _ k => exists d, (forall s, autos d (k s)) /\ 3 * d + 2 <= w
  | Will _ _ k => exists d, (forall s, autos d (k s)) /\ 3 * d + 1 <= w
  end.
Lemma entry_eqb_eq a b : entry_eqb a b = true -> a = b.
Proof. destruct a, b; cbn; congruence. Qed.
Lemma h_inv_fresh c cpu : h_inv c cpu fresh_pointers.
Proof. intro e. split; [now left|]. intros f [<-|[]]. now left. Qed.
Lemma h_inv_store c cpu h e : h_inv c cpu h -> h_inv c cpu (store_pointer h e (Impl (sel c cpu e))).
Proof.
  intros H e'. unfold store_pointer. destruct (entry_eqb e' e) eqn:E; [|apply H]. apply entry_eqb_eq in E as ->. split; [right; apply H|].
  intros f [<-|J]; [now right|]. now apply H.
Qed.
Lemma astep_inv c cpu h t h' t' w : astep c cpu h t h' t' -> h_inv c cpu h -> t_inv c cpu t -> t_left w t ->
  h_inv c cpu h' /\ t_inv c cpu t' /\ t_erase (sel c cpu) t' = t_erase (sel c cpu) t /\ exists w', w = S w' /\ t_left w' t'.
Proof.
  intros A HI TI L.
  assert (G : forall w0 n, n < w0 -> exists w', w0 = S w' /\ n <= w') by (intros w0 n Hn; exists (w0 - 1); lia).
  destruct A as [h e k s I Es X|h e k s I R X|h e k f I R J|h e s k X|h e k|h e s k X]; cbn [t_inv t_erase t_left] in *.
  1-3: destruct L as ([|d] & La & Lw); cbn [autos] in La; [contradiction|].
  - assert (E : sel c cpu e = match resolve_static c (targets (invocation e)) with Some s => s | None => Fallback end).
    { unfold sel, selected, auto. rewrite I. now destruct (resolve_static c (targets (invocation e))). }
    rewrite Es, <- E. split; [exact HI|split; [exact Logic.I|split; [reflexivity|]]]. destruct (G w (3 * d)) as (w' & -> & Lw'); [lia|].
    exists w'. split; [reflexivity|]. exists d. split; [apply La|exact Lw'].
  - assert (E : sel c cpu e = s) by (unfold sel, selected, auto; now rewrite I, R).
    rewrite <- E. split; [exact HI|split; [exact Logic.I|split; [reflexivity|]]]. destruct (G w (3 * d)) as (w' & -> & Lw'); [lia|].
    exists w'. split; [reflexivity|]. exists d. split; [apply La|exact Lw'].
  - split; [exact HI|split; [|split; [reflexivity|]]].
    + split; [exact I|split; [exact R|]]. now apply HI.
    + destruct (G w (3 * d + 2)) as (w' & -> & Lw'); [lia|]. exists w'. split; [reflexivity|]. exists d. split; [apply La|exact Lw'].
  - destruct TI as (_ & _ & [TI|TI]); [discriminate TI|]. injection TI as ->. destruct L as (d & La & Lw).
    split; [exact HI|split; [exact Logic.I|split; [reflexivity|]]]. destruct (G w (3 * d)) as (w' & -> & Lw'); [lia|].
    exists w'. split; [reflexivity|]. exists d. split; [apply La|exact Lw'].
  - destruct TI as (I & R & _). destruct L as (d & La & Lw). split; [exact HI|split; [symmetry; now apply selected_resolve|split; [reflexivity|]]].
    destruct (G w (3 * d + 1)) as (w' & -> & Lw'); [lia|]. exists w'. split; [reflexivity|]. exists d. split; [apply La|exact Lw'].
  - subst s. destruct L as (d & La & Lw). split; [now apply h_inv_store|split; [exact Logic.I|split; [reflexivity|]]].
    destruct (G w (3 * d)) as (w' & -> & Lw'); [lia|]. exists w'. split; [reflexivity|]. exists d. split; [apply La|exact Lw'].
Qed.
Lemma xnext_inv pick t m t' m' w : xnext t m = Some (t', m') -> t_left w t ->
  next (t_erase pick t) m = Some (t_erase pick t', m') /\ t_left w t' /\ exists x', t' = At x'.
Proof.
  destruct t as [x|e f k|e s k]; cbn [xnext]; try discriminate. destruct x as [|f|b k|q n k|q xs k|e k]; try discriminate; cbn [t_erase erase next t_left].
  - intro E. injection E as <- <-. intros (d & La & Lw). cbn [autos t_left t_erase] in *. eauto 10.
  - destruct (load q n m); try discriminate. intro E. injection E as <- <-. intros (d & La & Lw). cbn [autos t_left t_erase] in *. eauto 10.
  - destruct (store q xs m); try discriminate. intro E. injection E as <- <-. intros (d & La & Lw). cbn [autos t_left t_erase] in *. eauto 10.
Qed.
(** after [k] steps, [a] of them accesses to memory *)
Definition follows_course c cpu n (ps0 : threads) m0 (W k : nat) (st : state) : Prop :=
  exists a ps' ws, steps n a ps0 m0 ps' (mem_of_state st) /\ h_inv c cpu (pointers_of st) /\
    (forall i, i < n -> t_inv c cpu (threads_of st i) /\ ps' i = t_erase (sel c cpu) (threads_of st i) /\ t_left (ws i) (threads_of st i)) /\
    k + total n ws = a + W.
Lemma follows_step c cpu n ps0 m0 W k st st' : follows_course c cpu n ps0 m0 W k st -> xstep c cpu n st st' -> follows_course c cpu n ps0 m0 W (S k) st'.
Proof.
  intros (a & ps' & ws & ST & HI & HT & HE) X. destruct X as [h ts m i t m' Hi E|h ts m i h' t Hi A]; cbn [pointers_of threads_of mem_of_state] in *.
  - destruct (HT i Hi) as (TI & PE & L). destruct (xnext_inv (sel c cpu) _ _ _ _ _ E L) as (N & L' & x' & ->). rewrite <- PE in N.
    exists (S a), (set_thread ps' i (t_erase (sel c cpu) (At x'))), ws. split; [now apply (steps_more n a ps0 m0 ps' m i _ m')|]. split; [exact HI|].
    split; [|lia]. intros j Hj. cbn [threads_of]. unfold set_tstate, set_thread. destruct (Nat.eqb_spec j i) as [->|D]; [|now apply HT]. split; [exact I|]. split; [reflexivity|exact L'].
  - destruct (HT i Hi) as (TI & PE & L). destruct (astep_inv _ _ _ _ _ _ _ A HI TI L) as (HI' & TI' & PE' & w' & Ew & L').
    exists a, ps', (fun j => if j =? i then w' else ws j). split; [exact ST|]. split; [exact HI'|]. split.
    + intros j Hj. cbn [threads_of]. unfold set_tstate. destruct (Nat.eqb_spec j i) as [->|D]; [|now apply HT]. split; [exact TI'|]. split; [congruence|exact L'].
    + assert (G := total_dec n ws (fun j => if j =? i then w' else ws j) i Hi). cbn beta in G. rewrite Nat.eqb_refl in G. specialize (G Ew).
      rewrite G in HE; [lia|]. intros j D. now apply Nat.eqb_neq in D as ->.
Qed.
Lemma follows_steps c cpu n ps0 m0 W k st st' : xsteps c cpu n k st st' -> follows_course c cpu n ps0 m0 W 0 st -> follows_course c cpu n ps0 m0 W k st'.
Proof. intros X H. induction X as [|k st st' st'' X IH S]; [exact H|]. apply (follows_step c cpu n ps0 m0 W k st'); auto. Qed.
Lemma writes_erase pick t b o : x_writes t b o -> next_writes (t_erase pick t) b o.
Proof. destruct t as [[]| |]; intro H; first [exact H|contradiction H]. Qed.
Lemma reads_erase pick t b o : x_reads t b o -> next_reads (t_erase pick t) b o.
Proof. destruct t as [[]| |]; intro H; first [exact H|contradiction H]. Qed.
Lemma sel_executable c cpu e : compiled_for c cpu -> executable c cpu (sel c cpu e) = true.
Proof.
  intro H. destruct (sel_supported c cpu e H) as [->|(f & _ & -> & A & U)]; [reflexivity|].
  destruct f; cbn [isa_of executable has_arch] in *; try (now rewrite A, U).
  destruct (target_arch c) eqn:EA; try discriminate A; cbn [is_arm executable is_aarch64]; rewrite EA; exact U.
Qed.
(** a thread that is not done can go on, unless its memory access is impossible *)
Lemma t_moves c cpu st i : compiled_for c cpu -> h_inv c cpu (pointers_of st) -> t_inv c cpu (threads_of st i) -> threads_of st i <> At XDone ->
  (exists p m', next (t_erase (sel c cpu) (threads_of st i)) (mem_of_state st) = Some (p, m')) \/ t_erase (sel c cpu) (threads_of st i) = Done tt ->
  x_moves c cpu st i.
Proof.
  intros HC HI TI ND H. unfold x_moves. assert (A : (exists h' t, astep c cpu (pointers_of st) (threads_of st i) h' t) \/
    (exists x, threads_of st i = At x /\ match x with XAuto _ _ => False | _ => True end)).
  { destruct (threads_of st i) as [x|e f k|e s k]; cbn [t_inv] in TI.
    - destruct x as [|f|b k|q n k|q xs k|e k]; try (right; eexists; split; [reflexivity|exact I]). left.
      assert (X := sel_executable c cpu e HC). unfold sel, selected, auto in X. destruct (indirect c) eqn:I.
      + destruct (resolve_static c (fastest (invocation e))) as [s|] eqn:R; [do 2 eexists; now apply (a_static _ _ _ _ _ s)|].
        do 2 eexists. apply (a_load _ _ _ _ _ InitIfunc); auto. apply HI.
      + do 2 eexists. apply a_direct; [exact I|reflexivity|]. now destruct (resolve_static c (targets (invocation e))).
    - left. destruct f as [|s]; do 2 eexists; [apply a_resolve|apply a_call]. destruct TI as (_ & _ & [TI|TI]); [discriminate TI|].
      injection TI as ->. now apply sel_executable.
    - left. do 2 eexists. apply a_store. subst s. now apply sel_executable. }
  destruct A as [A|(x & E & NA)]; [now right|]. destruct H as [H|H]; rewrite E in *; left.
  - destruct H as (p & m' & H). destruct x as [|f|b k|q n k|q xs k|e k]; cbn [t_erase erase next xnext] in *; try discriminate H; try contradiction.
    + eauto.
    + destruct (load q n (mem_of_state st)); try discriminate H. eauto.
    + destruct (store q xs (mem_of_state st)); try discriminate H. eauto.
  - destruct x as [|f|b k|q n k|q xs k|e k]; cbn [t_erase erase] in H; try discriminate H; contradiction.
Qed.
Theorem whole_interleave c cpu n (xs : nat -> xprog) m Q : compiled_for c cpu ->
  (forall i, i < n -> exists d, autos d (xs i)) ->
  undisturbed n (fun i => erase (sel c cpu) (xs i)) m Q -> whole_undisturbed c cpu n xs m Q.
Proof.
  intros HC HA [N HN].
  assert (HD : exists ds, forall i, i < n -> autos (ds i) (xs i)).
  { assert (G : forall n', n' <= n -> exists ds, forall i, i < n' -> autos (ds i) (xs i)); [|now apply (G n)].
    induction n' as [|n' IH]; intro L; [exists (fun _ => 0); lia|]. destruct (IH ltac:(lia)) as [ds H]. destruct (HA n' L) as [d Hd].
    exists (fun i => if i =? n' then d else ds i). intros i Hi. destruct (Nat.eqb_spec i n') as [->|]; [exact Hd|]. apply H. lia. }
  destruct HD as [ds HD].
  set (ws0 := fun i => 3 * ds i). exists (N + total n ws0). intros k st X.
  apply (follows_steps c cpu n (fun i => erase (sel c cpu) (xs i)) m (total n ws0)) in X.
  2: { exists 0, (fun i => erase (sel c cpu) (xs i)), ws0. cbn [pointers_of threads_of mem_of_state]. split; [constructor|]. split; [apply h_inv_fresh|].
       split; [|lia]. intros i Hi. split; [exact I|]. split; [reflexivity|]. exists (ds i). split; [now apply HD|unfold ws0; lia]. }
  destruct X as (a & ps' & ws & ST & HI & HT & HE). destruct (HN _ _ _ ST) as (HK & HR & HS & HD' & HQ).
  split; [lia|]. split; [|split].
  - intros (i & j & b & o & Hi & Hj & D & HW & HRW). apply HR. exists i, j, b, o. destruct (HT i Hi) as (_ & -> & _), (HT j Hj) as (_ & -> & _).
    split; [exact Hi|]. split; [exact Hj|]. split; [exact D|]. split; [now apply writes_erase|]. destruct HRW as [HRW|HRW]; [left; now apply reads_erase|right; now apply writes_erase].
  - intros i Hi. destruct (HT i Hi) as (TI & PE & L).
    assert (DEC : threads_of st i = At XDone \/ threads_of st i <> At XDone) by (destruct (threads_of st i) as [[]| |]; (now left) || (right; discriminate)).
    destruct DEC as [DN|ND]; [now left|right]. apply t_moves; [exact HC|exact HI|exact TI|exact ND|].
    destruct (next (ps' i) (mem_of_state st)) as [[p m']|] eqn:EN; [left; rewrite <- PE; eauto|]. right. rewrite <- PE.
    destruct (ps' i) as [[]|f|b0 k0|q0 n0 k0|q0 x0 k0] eqn:EP; [reflexivity| | | |]; exfalso; apply HS; exists i; rewrite EP; (split; [exact Hi|split; [discriminate|exact EN]]).
  - intro XD. apply HQ. intros i Hi. destruct (HT i Hi) as (_ & -> & _). now rewrite (XD i Hi).
Qed.
