(** C80: no illegal instruction on x86. Every intrinsic stands under a guard that implies its CPU extension, and dispatch runs code under
    such a guard only on a CPU that has it. *)
From Coq Require Import ZArith List Bool String.
From Verif Require Import Isa Simd Vsimd Float Dispatch DispatchFacts PropDispatch Intrinsics.
Import ListNotations.
Open Scope list_scope.

(** What the types SSE2, SSSE3, SSE41, AVX2 of vsimd promise of the CPU. *)
Definition promised (s : isa) (e : ext) : bool :=
  match s, e with
  | AVX2, _ => true
  | SSE41, (SSE | SSE2x | SSSE3x | SSE41x) => true
  | SSSE3, (SSE | SSE2x | SSSE3x) => true
  | SSE2, (SSE | SSE2x) => true
  | _, _ => false
  end.
Definition all_isas : list isa := [Fallback; SSE2; SSSE3; SSE41; AVX2; NEON32; NEON64; WASM128].
Lemma in_all_isas s : In s all_isas.
Proof. destruct s; cbn; tauto. Qed.
(** For every instruction set, every block of /repo whose guard holds for it calls only intrinsics of extensions it promises. *)
Theorem C80_guards : forall s a i, In a arms -> matches_isa s (guard a) = true -> In i (calls a) ->
  exists e, needs i = Some e /\ promised s e = true.
Proof.
  assert (H : forallb (fun s => forallb (fun a => negb (matches_isa s (guard a)) ||
      forallb (fun i => match needs i with Some e => promised s e | None => false end) (calls a)) arms) all_isas = true) by (vm_compute; reflexivity).
  intros s a i HA HG HI. rewrite forallb_forall in H. specialize (H s (in_all_isas s)). rewrite forallb_forall in H. specialize (H a HA).
  rewrite HG in H. cbn [negb orb] in H. rewrite forallb_forall in H. specialize (H i HI). destruct (needs i) as [e|]; [eauto|discriminate].
Qed.
Print Assumptions C80_guards.

(** On the CPU: an extension is there when the feature that detection asks for is. *)
Definition cpu_has (cpu : feature -> bool) (e : ext) : bool :=
  match e with SSE | SSE2x => cpu Fsse2 | SSSE3x => cpu Fssse3 | SSE41x => cpu Fsse41 | AVX | AVX2x => cpu Favx2 end.
(** Whatever dispatch runs, in any execution by any threads: where the guard of a block holds, its intrinsics are instructions of the CPU. *)
Theorem C80_no_illegal_instruction : forall c cpu d ex k a i, compiled_for c cpu -> x86_chain cpu -> In d dispatches ->
  execution c cpu d ex -> In k ex -> In a arms -> matches_isa (c_run k) (guard a) = true -> In i (calls a) ->
  exists e, needs i = Some e /\ cpu_has cpu e = true.
Proof.
  intros c cpu d ex k a i H X D E I HA HG HI. destruct (C80_guards _ _ _ HA HG HI) as (e & N & P). exists e. split; [exact N|].
  assert (G : forall g, matches_isa (c_run k) [g] = true -> forall f, id_feature g = Some f -> cpu f = true).
  { intros g M f F. exact (C39_dispatch_instructions c cpu d ex k g f H X D E I M F). }
  destruct (c_run k); try discriminate P; destruct e; try discriminate P; cbn [cpu_has];
    first [ apply (G ISSE2); reflexivity | apply (G ISSSE3); reflexivity | apply (G ISSE41); reflexivity | apply (G IAVX2); reflexivity ].
Qed.
Print Assumptions C80_no_illegal_instruction.

(** On the other architectures no guard of these blocks holds. *)
Theorem C80_x86_only : forall a f b, In b arms -> matches_isa (isa_of a f) (guard b) = true ->
  f = Favx2 \/ f = Fsse41 \/ f = Fssse3 \/ f = Fsse2.
Proof.
  intros a f b HB HG. destruct f; auto; exfalso; cbn [isa_of] in HG.
  - assert (H : forallb (fun b => negb (matches_isa NEON32 (guard b)) && negb (matches_isa NEON64 (guard b))) arms = true) by (vm_compute; reflexivity).
    rewrite forallb_forall in H. specialize (H b HB). destruct (is_arm a); rewrite HG in H; cbn in H; [discriminate|].
    destruct (matches_isa NEON32 (guard b)); discriminate.
  - assert (H : forallb (fun b => negb (matches_isa WASM128 (guard b))) arms = true) by (vm_compute; reflexivity).
    rewrite forallb_forall in H. specialize (H b HB). rewrite HG in H. discriminate.
Qed.
Print Assumptions C80_x86_only.

(** The 256-bit rows of the generic operations (unified.rs) are taken with AVX2 only; with everything else a 256-bit vector is split. *)
Theorem C80_wide_rows : forall s t u,
  (select s t splat_avx2 <> None -> s = AVX2) /\ (select s t add_avx2 <> None -> s = AVX2) /\ (select s t sub_avx2 <> None -> s = AVX2) /\
  (select s t eq_avx2 <> None -> s = AVX2) /\ (select s t lt_avx2 <> None -> s = AVX2) /\ (select s t add_sat_avx2 <> None -> s = AVX2) /\
  (select s t sub_sat_avx2 <> None -> s = AVX2) /\ (select s t max_avx2 <> None -> s = AVX2) /\ (select s t min_avx2 <> None -> s = AVX2) /\
  (fselect s u fmax_avx2 <> None -> s = AVX2) /\ (fselect s u fmin_avx2 <> None -> s = AVX2).
Proof. intros s t u. destruct s, t, u; repeat apply conj; intro H; first [reflexivity | elim H; reflexivity]. Qed.
Print Assumptions C80_wide_rows.

(** Non-vacuity: all blocks are reachable with AVX2, and each level has intrinsics that the level below does not promise. *)
Example C80_ex :
  forallb (fun a => matches_isa AVX2 (guard a)) arms = true /\ List.length arms = 100%nat /\
  existsb (fun a => matches_isa SSE2 (guard a)) arms = true /\
  needs "_mm_shuffle_epi8" = Some SSSE3x /\ promised SSE2 SSSE3x = false /\ promised SSSE3 SSSE3x = true /\
  needs "_mm_max_epu32" = Some SSE41x /\ promised SSSE3 SSE41x = false /\ promised SSE41 SSE41x = true /\
  needs "_mm256_add_epi8" = Some AVX2x /\ promised SSE41 AVX2x = false.
Proof. vm_compute. auto 20. Qed.
(** A detected AVX2 machine. *)
Example C80_run_ex :
  let c := {| target_arch := X86_64; target_feature := fun f => match f with Fsse2 => true | _ => false end;
              detect := true; vdetect := true; unstable := false; vunstable := false |} in
  let cpu := fun f => match f with Fneon | Fsimd128 => false | _ => true end in
  compiled_for c cpu /\ x86_chain cpu /\
  execution c cpu D_b64_encode [{| c_load := InitIfunc; c_run := AVX2; c_store := Some (Impl AVX2) |}].
Proof.
  cbn zeta. split; [intros []; cbn; auto|]. split; [repeat split|].
  intros k [<-|[]]. split; [reflexivity|now left].
Qed.
