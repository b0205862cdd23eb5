(** Property theorems for run-time dispatch: C39 and C40. *)
From Coq Require Import ZArith List Bool Lia.
From Verif Require Import Bytes Mem Ints MemFacts Slices Codec Isa Simd SimdFacts Spec Hex HexApi Base64 Base64Ref Base64Api
  Base32 Base32Ref Base32Api Uuid UuidFacts UuidApi Forgiving ForgivingFacts UnicodeSpec Unicode UnicodeFacts SwapFacts Dispatch DispatchFacts PropHex PropBase64 PropBase32 PropUuid PropForgiving PropUnicode.
Import ListNotations.
Open Scope list_scope. Open Scope Z_scope. Open Scope m_scope.

(** All invocations of [dispatch!]. *)
Definition dispatches : list dispatch :=
  [D_hex_check; D_hex_encode; D_hex_decode; D_b64_encode; D_b64_decode; D_b64_check; D_find_ws; D_b32_check; D_b32_decode; D_b32_encode;
   D_parse_simple; D_parse_hyphenated; D_format_simple; D_format_hyphenated; D_is_ascii; D_is_utf32le; D_utf32_swap; D_utf16_swap].
Lemma dispatches_kinds d : In d dispatches -> d = avx2_sse2 \/ d = avx2_ssse3 \/ d = avx2_ssse3_sse2 \/ d = avx2_sse41.
Proof. intro H. unfold dispatches in H. repeat (destruct H as [<-|H]; [now auto|]). destruct H. Qed.
Lemma dispatches_incl d : In d dispatches -> incl (fastest d) (targets d).
Proof.
  intro H. destruct (dispatches_kinds d H) as [->|[->|[->| ->]]]; intros f Hf; destruct Hf as [<-|[<-|[<-|[]]]]; cbn; tauto.
Qed.

(** ** C39 *)

(** In every execution (any calls, any threads, any visible relaxed values), every call runs the fallback or one of the
    invocation's targets whose feature exists on the architecture and is present on the CPU. *)
Theorem C39_dispatch_sound : forall c cpu d ex k, compiled_for c cpu -> In d dispatches -> execution c cpu d ex -> In k ex ->
  supported c cpu d (c_run k).
Proof.
  intros c cpu d ex k H D E I. rewrite (run_selected c cpu d ex k E I). apply selected_supported; auto using dispatches_incl.
Qed.
Print Assumptions C39_dispatch_sound.
(** The function that is run depends on the build and the CPU only: any two calls of any two executions run the same one. *)
Theorem C39_dispatch_history : forall c cpu d ex ex' k k', execution c cpu d ex -> execution c cpu d ex' -> In k ex -> In k' ex' ->
  c_run k = c_run k'.
Proof. intros. now rewrite (run_selected c cpu d ex k), (run_selected c cpu d ex' k'). Qed.
Print Assumptions C39_dispatch_history.
(** The same for the transition system, where threads interleave between the load, the detection and the store. *)
Theorem C39_dispatch_interleaving : forall c cpu d m i s, compiled_for c cpu -> In d dispatches -> steps c cpu d initial m ->
  threads m i = Running s -> supported c cpu d s.
Proof.
  intros c cpu d m i s H D S R. destruct (inv_steps c cpu d _ _ (inv_initial c cpu d) S) as [_ T]. specialize (T i). rewrite R in T. subst s.
  apply selected_supported; auto using dispatches_incl.
Qed.
Print Assumptions C39_dispatch_interleaving.
Theorem C39_dispatch_interleaving_history : forall c cpu d m m' i j s s', steps c cpu d initial m -> steps c cpu d initial m' ->
  threads m i = Running s -> threads m' j = Running s' -> s = s'.
Proof.
  intros c cpu d m m' i j s s' S S' R R'.
  destruct (inv_steps c cpu d _ _ (inv_initial c cpu d) S) as [_ T]. specialize (T i). rewrite R in T.
  destruct (inv_steps c cpu d _ _ (inv_initial c cpu d) S') as [_ T']. specialize (T' j). rewrite R' in T'. congruence.
Qed.
Print Assumptions C39_dispatch_interleaving_history.
(** On a CPU whose x86 features form the usual chain, every instruction set that [matches_isa!] lets the function use is present. *)
Theorem C39_dispatch_instructions : forall c cpu d ex k i g, compiled_for c cpu -> x86_chain cpu -> In d dispatches -> execution c cpu d ex -> In k ex ->
  matches_isa (c_run k) [i] = true -> id_feature i = Some g -> cpu g = true.
Proof.
  intros c cpu d ex k i g H X D E I M G. destruct (C39_dispatch_sound c cpu d ex k H D E I) as [F|(f & _ & F & A & U)]; rewrite F in M.
  - destruct i; try discriminate M; discriminate G.
  - unfold matches_isa in M. cbn [existsb] in M. rewrite orb_false_r in M. eapply inherits_on_cpu; eauto.
Qed.
Print Assumptions C39_dispatch_instructions.
(** With detection, the first enabled target is run, also when the fastest one was chosen at compile time. *)
Theorem C39_dispatch_first : forall c cpu d ex k, cargo_ok c -> In d dispatches -> detect c = true -> target_arch c <> WASM32 ->
  execution c cpu d ex -> In k ex ->
  c_run k = match find (fun f => dynamic_cfg c f && is_enabled c cpu f) (targets d) with Some f => isa_of (target_arch c) f | None => Fallback end.
Proof.
  intros c cpu d ex k G D HD HA E I. rewrite (run_selected c cpu d ex k E I). apply static_is_resolve; auto using dispatches_kinds.
  unfold indirect. rewrite HD. destruct (target_arch c); auto; contradiction.
Qed.
Print Assumptions C39_dispatch_first.
(** The function pointer: a call stores it exactly when detection is compiled in, the fastest target (AVX2 on x86, NEON on ARM) is
    not one the compiler may assume, and its load still gave [init_ifunc]; it stores the function that it runs. *)
Theorem C39_dispatch_pointer : forall c cpu d ex k p, In d dispatches -> execution c cpu d ex -> In k ex ->
  (c_store k = Some p <->
   p = Impl (c_run k) /\ detect c = true /\ c_load k = InitIfunc /\
   match target_arch c with
   | X86 | X86_64 => target_feature c Favx2 = false
   | ARM => unstable c = true -> target_feature c Fneon = false
   | AARCH64 => target_feature c Fneon = false
   | WASM32 => False
   | OTHER => True
   end).
Proof.
  intros c cpu d ex k p D E I. destruct (E k I) as [A _].
  assert (F : fastest d = FASTEST) by (unfold dispatches in D; repeat (destruct D as [<-|D]; [reflexivity|]); destruct D).
  unfold auto, indirect, init_ifunc, resolve_static in A. rewrite F in A. unfold FASTEST in A. cbn [find static_arm] in A.
  destruct (detect c), (target_arch c), (target_feature c Favx2), (target_feature c Fneon), (unstable c), (c_load k);
    cbn in A; repeat match type of A with (match ?x with _ => _ end) = _ => destruct x end; injection A as <- <-; split; try (intros (X & Y & Z & W); subst; solve [reflexivity | discriminate | contradiction | discriminate (W eq_refl)]);
    intro X; try discriminate X; injection X as <-; repeat split; try discriminate; auto.
Qed.
Print Assumptions C39_dispatch_pointer.
(** The same in terms of the machine only, with and without detection. A target is available when it belongs to the architecture
    and its CPU feature is known to be there: because the program was compiled for it, or by detection (x86 and ARM only).
    The NEON functions for 32-bit ARM need the cargo feature "unstable". *)
Definition known (c : build) (cpu : feature -> bool) (f : feature) : Prop :=
  target_feature c f = true \/
  (detect c = true /\ cpu f = true /\ (target_arch c = X86 \/ target_arch c = X86_64 \/ target_arch c = ARM \/ target_arch c = AARCH64)).
Definition available (c : build) (cpu : feature -> bool) (f : feature) : Prop :=
  known c cpu f /\
  match f with
  | Favx2 | Fsse41 | Fssse3 | Fsse2 => target_arch c = X86 \/ target_arch c = X86_64
  | Fneon => target_arch c = AARCH64 \/ (target_arch c = ARM /\ unstable c = true)
  | Fsimd128 => target_arch c = WASM32
  end.
Definition code_for (a : arch) (f : feature) (s : isa) : Prop :=
  match f with
  | Favx2 => s = AVX2 | Fsse41 => s = SSE41 | Fssse3 => s = SSSE3 | Fsse2 => s = SSE2 | Fsimd128 => s = WASM128
  | Fneon => (a = ARM /\ s = NEON32) \/ (a = AARCH64 /\ s = NEON64)
  end.
Ltac avail1 := split; [intro HH; first [discriminate|split; [first [left; reflexivity|right; auto 7]|auto]]|
  intros [A Z]; repeat match goal with K : _ \/ _ |- _ => destruct K | K : _ /\ _ |- _ => destruct K end; first [reflexivity|discriminate]].
(** The function that runs is the one for the first available target; the fallback runs only when there is none. *)
Theorem C39_dispatch_best : forall c cpu d ex k, cargo_ok c -> In d dispatches -> execution c cpu d ex -> In k ex ->
  (exists before f after, targets d = before ++ f :: after /\ available c cpu f /\ (forall g, In g before -> ~ available c cpu g) /\
     code_for (target_arch c) f (c_run k)) \/
  ((forall g, In g (targets d) -> ~ available c cpu g) /\ c_run k = Fallback).
Proof.
  intros c cpu d ex k G D E I.
  assert (K : exists p, (forall f, p f = true <-> available c cpu f) /\
    c_run k = match find p (targets d) with Some f => isa_of (target_arch c) f | None => Fallback end).
  { destruct (indirect c) eqn:X.
    - exists (dynamic_arm c cpu). unfold indirect in X. apply andb_true_iff in X as [HD HW]. split; [|rewrite (run_selected c cpu d ex k E I);
        apply static_is_resolve; auto using dispatches_kinds; unfold indirect; now rewrite HD, HW].
      destruct G as [GD GU]. specialize (GD HD). intro f. clear E I D ex k d. unfold dynamic_arm, dynamic_cfg, is_enabled, is_feature_detected, available, known.
      destruct (target_feature c f), (cpu f), (unstable c) eqn:U; try rewrite (GU eq_refl); rewrite ?GD, HD; destruct (target_arch c), f; cbn in *; avail1.
    - exists (static_arm c). split.
      + intro f. clear E I D G ex k d. unfold indirect in X. unfold static_arm, available, known.
        destruct (target_feature c f), (cpu f), (unstable c), (detect c), (target_arch c), f; cbn in *; try discriminate X; avail1.
      + destruct (E k I) as [A _]. unfold auto in A. rewrite X in A. unfold resolve_static in A. destruct (find _ _); cbn in A; congruence. }
  destruct K as (p & P & ->). clear E I. induction (targets d) as [|f l IH]; cbn [find]; [right; split; [intros g []|reflexivity]|].
  destruct (p f) eqn:F.
  - left. exists [], f, l. apply P in F. split; [reflexivity|]. split; [exact F|]. split; [intros g []|].
    destruct F as [_ F]. destruct f; cbn in *; try reflexivity. destruct F as [->|[-> _]]; cbn; auto.
  - assert (~ available c cpu f) by (intro; rewrite <- P in *; congruence).
    destruct IH as [(b & g & a & -> & A & B & C)|[A B]].
    + left. exists (f :: b), g, a. split; [reflexivity|]. split; [exact A|]. split; [|exact C]. intros h [<-|]; auto.
    + right. split; [|exact B]. intros g [<-|]; auto.
Qed.
Print Assumptions C39_dispatch_best.
(** On an x86-64 machine up to SSE4.1 the functions with an AVX2, an SSSE3 and an SSE2 version run the SSSE3 one. *)
Example C39_dispatch_best_ex : targets D_hex_encode = [Favx2; Fssse3; Fsse2; Fneon; Fsimd128] /\
  (forall x, available {| target_arch := X86_64; target_feature := fun f => match f with Fsse2 => true | _ => false end;
     detect := true; vdetect := true; unstable := false; vunstable := false |} (fun f => match f with Fsse41 | Fssse3 | Fsse2 => true | _ => false end) x <->
   x = Fsse41 \/ x = Fssse3 \/ x = Fsse2) /\
  (forall cpu x, available {| target_arch := WASM32; target_feature := fun f => match f with Fsimd128 => true | _ => false end;
     detect := true; vdetect := true; unstable := false; vunstable := false |} cpu x <-> x = Fsimd128).
Proof.
  refine (conj eq_refl (conj _ _)); intros; unfold available, known; destruct x; cbn; intuition (try discriminate).
Qed.
(** vsimd::native: the closure is run with a feature that the CPU has. *)
Theorem C39_native : forall c cpu f, compiled_for c cpu -> native_exec c (native_detect c cpu) = Some f -> cpu f = true.
Proof. intros c cpu f H E. now destruct (native_ok c cpu f H E). Qed.
Print Assumptions C39_native.
(** ... and with the best feature that is available, in the order AVX2, SSE4.1, SSE2, NEON, SIMD128; with none, plainly.
    Here the cargo features are those of vsimd itself. *)
Theorem C39_native_best : forall c cpu,
  let v := {| target_arch := target_arch c; target_feature := target_feature c; detect := vdetect c; vdetect := vdetect c;
              unstable := vunstable c; vunstable := vunstable c |} in
  match native_exec c (native_detect c cpu) with
  | Some f => exists before after, [Favx2; Fsse41; Fsse2; Fneon; Fsimd128] = before ++ f :: after /\ available v cpu f /\
      (forall g, In g before -> ~ available v cpu g)
  | None => forall g, In g [Favx2; Fsse41; Fsse2; Fneon; Fsimd128] -> ~ available v cpu g
  end.
Proof.
  intros c cpu v.
  assert (K : exists p, (forall f, p f = true <-> available v cpu f) /\
    native_exec c (native_detect c cpu) = find p [Favx2; Fsse41; Fsse2; Fneon; Fsimd128]).
  { exists (dynamic_arm v cpu). split.
    - intro f. subst v. unfold dynamic_arm, dynamic_cfg, is_enabled, is_feature_detected, available, known.
      destruct (target_feature c f) eqn:T, (cpu f) eqn:U, (vunstable c), (vdetect c), (target_arch c), f; cbn in *; rewrite ?T, ?U; cbn; avail1.
    - subst v. unfold native_exec, native_detect, dynamic_arm, dynamic_cfg, is_enabled. cbn [find target_arch unstable vunstable vdetect]. unfold is_feature_detected. cbn [target_arch target_feature vdetect].
      destruct (target_arch c), (vunstable c), (vdetect c); cbn; try reflexivity;
        repeat (match goal with |- context [target_feature c ?f] => destruct (target_feature c f) | |- context [cpu ?f] => destruct (cpu f) end; cbn; try reflexivity). }
  destruct K as (p & P & ->). generalize [Favx2; Fsse41; Fsse2; Fneon; Fsimd128]. intro l. induction l as [|f l IH]; cbn [find]; [intros g []|].
  destruct (p f) eqn:F.
  - exists [], l. split; [reflexivity|]. split; [now apply P|intros g []].
  - assert (~ available v cpu f) by (intro; rewrite <- P in *; congruence).
    destruct (find p l) as [x|].
    + destruct IH as (b & a & -> & A & B). exists (f :: b), a. split; [reflexivity|]. split; [exact A|]. intros g [<-|]; auto.
    + intros g [<-|]; auto.
Qed.
Print Assumptions C39_native_best.
Example C39_native_best_ex : let c := {| target_arch := AARCH64; target_feature := fun _ => false; detect := true; vdetect := true; unstable := false; vunstable := false |} in
  native_exec c (native_detect c (fun _ => true)) = Some Fneon /\ native_exec c (native_detect c (fun _ => false)) = None.
Proof. split; reflexivity. Qed.

(** Non-vacuity: an x86-64 build with detection on a CPU up to SSE4.1. Two calls race on the initial pointer, a third sees
    the stored one. *)
Definition x64 : build := {| target_arch := X86_64; target_feature := fun f => match f with Fsse2 => true | _ => false end;
  detect := true; vdetect := true; unstable := false; vunstable := false |}.
Definition cpu_sse41 (f : feature) : bool := match f with Fsse41 | Fssse3 | Fsse2 => true | _ => false end.
Definition cpu_ssse3 (f : feature) : bool := match f with Fssse3 | Fsse2 => true | _ => false end.
Definition race : list call :=
  [{| c_load := InitIfunc; c_run := SSSE3; c_store := Some (Impl SSSE3) |};
   {| c_load := Impl SSSE3; c_run := SSSE3; c_store := None |};
   {| c_load := InitIfunc; c_run := SSSE3; c_store := Some (Impl SSSE3) |}].
Example C39_ex : compiled_for x64 cpu_sse41 /\ cargo_ok x64 /\ x86_chain cpu_sse41 /\ execution x64 cpu_sse41 D_b64_encode race.
Proof.
  split; [intros []; cbn; easy|]. split; [now split|]. split; [now repeat split|].
  intros k [<-|[<-|[<-|[]]]]; (split; [reflexivity|cbn]); auto. right. eexists. split; [left; reflexivity|reflexivity].
Qed.
Example C39_ex_machine : exists m, steps x64 cpu_sse41 D_b64_encode initial m /\ threads m 0 = Running SSSE3 /\ threads m 1 = Running SSSE3.
Proof.
  eexists. split; [|split; cycle 1].
  - eapply steps_next; [eapply steps_next; [eapply steps_next; [eapply steps_next; [eapply steps_next; [eapply steps_next; [apply steps_refl|]|]|]|]|]|].
    + apply (step_load _ _ _ _ _ 0%nat InitIfunc); try reflexivity. now left.
    + apply (step_load _ _ _ _ _ 1%nat InitIfunc); try reflexivity. now left.
    + apply (step_resolve _ _ _ _ _ 0%nat). reflexivity.
    + apply (step_resolve _ _ _ _ _ 1%nat). reflexivity.
    + apply (step_store _ _ _ _ _ 1%nat SSSE3). reflexivity.
    + apply (step_store _ _ _ _ _ 0%nat SSSE3). reflexivity.
  - reflexivity.
  - reflexivity.
Qed.

(** ** C40 *)

(** Some call of some execution of the dispatcher runs the function for [s]. *)
Definition can_run (c : build) (cpu : feature -> bool) (d : dispatch) (s : isa) : Prop :=
  compiled_for c cpu /\ exists ex k, execution c cpu d ex /\ In k ex /\ c_run k = s.
Lemma can_run_in c cpu d s : In d dispatches -> can_run c cpu d s ->
  s = Fallback \/ exists f, In f (targets d) /\ s = isa_of (target_arch c) f.
Proof.
  intros D (H & ex & k & E & I & <-). destruct (C39_dispatch_sound c cpu d ex k H D E I) as [->|(f & J & F & _)]; eauto.
Qed.
Ltac all_dispatches := unfold dispatches; cbn [In]; tauto.
Lemma can_run_ssse3 c cpu s : can_run c cpu avx2_ssse3 s -> s = Fallback \/ swz s.
Proof.
  intro R. destruct (can_run_in c cpu avx2_ssse3 s) as [->|(f & J & ->)]; auto; [all_dispatches|]. right.
  destruct J as [<-|[<-|[<-|[<-|[]]]]]; cbn [isa_of]; try destruct (is_arm _); reflexivity.
Qed.
Lemma can_run_sse41 c cpu s : can_run c cpu avx2_sse41 s -> s = Fallback \/ sse41p s.
Proof.
  intro R. destruct (can_run_in c cpu avx2_sse41 s) as [->|(f & J & ->)]; auto; [all_dispatches|]. right.
  destruct J as [<-|[<-|[<-|[<-|[]]]]]; cbn [isa_of]; try destruct (is_arm _); reflexivity.
Qed.

(** [f] returns (it does not panic) for every source and destination, with any lengths *)
Definition codec_returns (f : codec) : Prop :=
  forall m b o d e src dlen, slice m b o src -> room m d e dlen -> separate b o (List.length src) d e dlen ->
  exists r m', f (b, o) (List.length src) (d, e) dlen m = Ret r m'.
(** the same for functions of one slice *)
Definition returns1 {A} (f : ptr -> nat -> M A) : Prop :=
  forall m b o src, slice m b o src -> exists r m', f (b, o) (List.length src) m = Ret r m'.
(** the same for functions with a source and a destination of fixed lengths *)
Definition array_returns (f : codec) (n : nat) (P : list Z -> Prop) : Prop :=
  forall m b o d e src, P src -> slice m b o src -> room m d e n -> separate b o (List.length src) d e n ->
  exists r m', f (b, o) (List.length src) (d, e) n m = Ret r m'.

Lemma safe_returns f n : (forall src, bytes src -> mem_safe f src (n src)) -> codec_returns f.
Proof. intros H m b o d e src dlen S R P. destruct (H src (proj1 S) m b o d e dlen S R P) as (r & m' & E & _). eauto. Qed.
Lemma checks_returns f ok : (forall src, checks f src (ok src)) -> returns1 f.
Proof. intros H m b o src S. destruct (H src m b o S) as (m' & E & _). eauto. Qed.
Lemma inplace_returns f n spec : (forall src, decodes_inplace f src (n src) (spec src)) -> returns1 f.
Proof. intros H m b o src S. destruct (H src m b o S) as (r & m' & E & _). eauto. Qed.
Lemma array_safe_returns f n (P : list Z -> Prop) : (forall src, P src -> array_safe f src n) -> array_returns f n P.
Proof. intros H m b o d e src HP S R Q. destruct (H src HP m b o d e S R Q) as (r & m' & E & _). eauto. Qed.

(** The instruction sets for which the theorems of the codecs are stated, one by one. *)
Theorem C40_instruction_sets : forall s,
  (b64_isa s <-> In s [Fallback; SSSE3; SSE41; AVX2; NEON32; NEON64; WASM128]) /\
  (b32_chk_isa s <-> In s [Fallback; SSSE3; SSE41; AVX2; NEON32; NEON64; WASM128]) /\
  (b32_isa s <-> In s [Fallback; SSE41; AVX2; NEON32; NEON64; WASM128]) /\
  (hyph_isa s <-> In s [Fallback; SSE41; AVX2; NEON32; NEON64; WASM128]) /\
  (swap_isa s <-> In s [Fallback; SSE41; AVX2; NEON32; NEON64; WASM128]).
Proof.
  intro s. unfold b64_isa, b32_chk_isa, b32_isa, hyph_isa, swap_isa, swz, sse41p.
  destruct s; cbn; repeat split; intro H;
    try (now left); try (right; reflexivity); try (destruct H as [H|H]; discriminate H); try tauto;
    repeat (destruct H as [H|H]; [discriminate H|]); destruct H.
Qed.
Print Assumptions C40_instruction_sets.

Theorem C40_hex : forall c cpu s1 s2 s3 case,
  can_run c cpu D_hex_check s1 -> can_run c cpu D_hex_encode s2 -> can_run c cpu D_hex_decode s3 ->
  returns1 (hex_check s1) /\
  codec_returns (fun src len dst dlen => hex_encode s2 src len dst dlen case) /\
  codec_returns (hex_decode s3) /\ returns1 (hex_decode_inplace s3).
Proof.
  intros c cpu s1 s2 s3 case _ _ _. split; [exact (checks_returns _ _ (C19_hex_check s1))|]. split; [|split].
  - intros m b o d e src dlen S R P. destruct (C21_hex_encode_safe s2 case src m b o d e dlen S R P) as (r & m' & E & _). eauto.
  - intros m b o d e src dlen S R P. destruct (C21_hex_decode_safe s3 src m b o d e dlen S R P) as (r & m' & E & _). eauto.
  - exact (inplace_returns _ _ _ (C22_hex_decode_inplace s3)).
Qed.
Print Assumptions C40_hex.

Theorem C40_base64 : forall c cpu en s1 s2 s3 cfg,
  can_run c cpu D_b64_encode s1 -> can_run c cpu D_b64_decode s2 -> can_run c cpu D_b64_check s3 ->
  codec_returns (b64_encode s1 cfg) /\ codec_returns (b64_decode en s2 cfg) /\ returns1 (b64_decode_inplace en s2 cfg) /\
  returns1 (b64_check en s3 cfg).
Proof.
  intros c cpu en s1 s2 s3 cfg R1 R2 R3. apply can_run_ssse3 in R1, R2, R3.
  split; [|split; [|split]].
  - apply (safe_returns _ (fun src => List.length (b64_rfc cfg src))). intros. now apply C06_base64_encode_safe.
  - apply (safe_returns _ (b64_need cfg)). intros. now apply C07_base64_decode_safe.
  - apply (inplace_returns _ (b64_need cfg) (b64_dec cfg)). intros. now apply C08_base64_decode_inplace.
  - exact (checks_returns _ _ (fun src => C05_base64_check en s3 cfg src R3)).
Qed.
Print Assumptions C40_base64.

Theorem C40_forgiving : forall c cpu en s1 s2, can_run c cpu D_find_ws s1 -> can_run c cpu D_b64_decode s2 ->
  returns1 (find_non_ascii_whitespace s1) /\ returns1 (remove_ascii_whitespace_inplace s1) /\
  codec_returns (forgiving_decode en s1 s2) /\ returns1 (forgiving_decode_inplace en s1 s2).
Proof.
  intros c cpu en s1 s2 _ R2. apply can_run_ssse3 in R2. split; [|split; [|split]].
  - intros m b o src S. destruct (C12_find_whitespace s1 m b o src S) as (p & E & _). eauto.
  - intros m b o src S. destruct (C11_remove_whitespace_inplace s1 m b o src S) as (m' & E & _). eauto.
  - intros m b o d e src dlen S R P. destruct (Nat.le_gt_cases (List.length src) dlen) as [L|L].
    + destruct (C11_forgiving_decode en s1 s2 src R2 m b o d e dlen S R P L) as (r & m' & E & _). eauto.
    + rewrite (C10_forgiving_short en s1 s2 src m b o d e dlen S L). eauto.
  - exact (inplace_returns _ _ _ (fun src => C11_forgiving_decode_inplace en s1 s2 src R2)).
Qed.
Print Assumptions C40_forgiving.

Theorem C40_base32 : forall c cpu t s1 s2 s3 cfg,
  can_run c cpu D_b32_check s1 -> can_run c cpu D_b32_encode s2 -> can_run c cpu D_b32_decode s3 ->
  returns1 (b32_check t s1 cfg) /\ codec_returns (b32_encode t s2 cfg) /\ codec_returns (b32_decode t s3 cfg) /\
  returns1 (b32_decode_inplace t s3 cfg).
Proof.
  intros c cpu t s1 s2 s3 cfg R1 R2 R3. apply can_run_ssse3 in R1. apply can_run_sse41 in R2, R3.
  split; [|split; [|split]].
  - intros m b o src S. destruct (C26_base32_check t s1 cfg src m b o R1 S) as (r & m' & E & _). eauto.
  - apply (safe_returns _ (fun src => List.length (b32_rfc cfg src))). intros. now apply C27_base32_encode_safe.
  - apply (safe_returns _ (b32_need cfg)). intros. now apply C27_base32_decode_safe.
  - intros m b o src S. destruct (C28_base32_decode_inplace t s3 cfg src R3 m b o S) as (r & m' & E & _). eauto.
Qed.
Print Assumptions C40_base32.

Theorem C40_uuid : forall c cpu s1 s2 s3 s4 case,
  can_run c cpu D_parse_simple s1 -> can_run c cpu D_parse_hyphenated s2 ->
  can_run c cpu D_format_simple s3 -> can_run c cpu D_format_hyphenated s4 ->
  array_returns (parse_codec s1 s2) 16 (fun _ => True) /\ array_returns (parse_simple_codec s1) 16 (fun _ => True) /\
  array_returns (parse_hyphenated_codec s2) 16 (fun _ => True) /\
  array_returns (format_simple_codec s3 case) 32 (fun u => List.length u = 16%nat) /\
  array_returns (format_hyphenated_codec s4 case) 36 (fun u => List.length u = 16%nat).
Proof.
  intros c cpu s1 s2 s3 s4 case _ R2 _ R4. apply can_run_sse41 in R2, R4.
  repeat match goal with |- _ /\ _ => split end; apply array_safe_returns; intros src H.
  - now apply C33_uuid_parse_memory.
  - apply C33_uuid_parse_simple_memory.
  - now apply C33_uuid_parse_hyphenated_memory.
  - now apply C33_uuid_format_simple_memory.
  - now apply C33_uuid_format_hyphenated_memory.
Qed.
Print Assumptions C40_uuid.

(** unicode-simd, except swapping. SIMD code is little endian, see DESIGN. *)
Theorem C40_unicode : forall c cpu en s1 s2, can_run c cpu D_is_ascii s1 -> can_run c cpu D_is_utf32le s2 ->
  returns1 (is_ascii (match target_arch c with X86_64 => true | _ => false end) s1) /\
  (s2 = Fallback \/ en = LE -> forall m b o xs, Forall (uint 4) xs -> bytes_at m b o (arr en 4 xs) ->
   exists r m', is_utf32le en s2 (b, o) (List.length xs) m = Ret r m').
Proof.
  intros c cpu en s1 s2 _ R2. apply can_run_sse41 in R2. split.
  - intros m b o src S. destruct (C34_is_ascii (match target_arch c with X86_64 => true | _ => false end) s1 m b o src S) as (r & E & _). eauto.
  - intros HE m b o xs F H. assert (G : s2 = Fallback \/ (sse41p s2 /\ en = LE)) by tauto.
    destruct (C35_is_utf32le en s2 m b o xs G F H) as (r & E & _). eauto.
Qed.
Print Assumptions C40_unicode.

(** C37 through the dispatcher: on an x86 CPU with SSSE3 but without AVX2 the swap functions panic. *)
Theorem C37_dispatched_swap_panics : forall en t m b o d e xs dlen, Forall (uint (esize t)) xs -> bytes_at m b o (arr en (esize t) xs) ->
  room m d e (esize t * dlen) -> separate b o (esize t * List.length xs) d e (esize t * dlen) -> (List.length xs <= dlen)%nat ->
  (32 <= esize t * List.length xs)%nat ->
  exists s, can_run x64 cpu_ssse3 D_utf16_swap s /\ can_run x64 cpu_ssse3 D_utf32_swap s /\
    swap_endianness_to en t s (b, o) (List.length xs) (d, e) dlen m = Panic.
Proof.
  intros en t m b o d e xs dlen F H R S L G. exists SSSE3.
  assert (C : can_run x64 cpu_ssse3 avx2_ssse3 SSSE3).
  { split; [intros []; cbn; easy|]. exists race, {| c_load := InitIfunc; c_run := SSSE3; c_store := Some (Impl SSSE3) |}.
    split; [|split; [now left|reflexivity]].
    intros k [<-|[<-|[<-|[]]]]; (split; [reflexivity|cbn]); auto. right. eexists. split; [left; reflexivity|reflexivity]. }
  split; [exact C|]. split; [exact C|]. apply (C37_swap_ssse3_panics en t SSSE3 m b o d e xs dlen); auto.
Qed.
Print Assumptions C37_dispatched_swap_panics.

Example C40_ex : can_run x64 cpu_sse41 D_b64_encode SSSE3 /\ can_run x64 cpu_sse41 D_b64_decode SSSE3.
Proof.
  assert (can_run x64 cpu_sse41 D_b64_encode SSSE3); [|auto].
  split; [apply C39_ex|]. exists race. eexists. split; [apply C39_ex|]. split; [left; reflexivity|reflexivity].
Qed.
