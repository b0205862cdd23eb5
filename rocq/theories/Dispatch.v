(** Model of the run-time dispatch: vsimd/src/macros.rs:55-392 [dispatch!], vsimd/src/isa.rs:95-305 [is_enabled],
    the 18 invocations of [dispatch!], and vsimd/src/native.rs. *)
From Coq Require Import List Bool.
From Verif Require Import Isa.
Import ListNotations.

Inductive arch := X86 | X86_64 | ARM | AARCH64 | WASM32 | OTHER.
(** The target names of [dispatch!] are also the names of the CPU features. *)
Inductive feature := Favx2 | Fsse41 | Fssse3 | Fsse2 | Fneon | Fsimd128.

(** A compilation: [target_arch], [target_feature]s, and the cargo features "detect" and "unstable" of the crate in which
    [dispatch!] is expanded ([detect], [unstable]) and of vsimd ([vdetect], [vunstable]). *)
Record build := {
  target_arch : arch;
  target_feature : feature -> bool;
  detect : bool; vdetect : bool; unstable : bool; vunstable : bool
}.
Definition is_x86 (a : arch) : bool := match a with X86 | X86_64 => true | _ => false end.
Definition is_arm (a : arch) : bool := match a with ARM => true | _ => false end.
Definition is_aarch64 (a : arch) : bool := match a with AARCH64 => true | _ => false end.
Definition is_wasm32 (a : arch) : bool := match a with WASM32 => true | _ => false end.

(** isa.rs:95-132 [is_feature_detected!]; [cpu] is what the [is_*_feature_detected!] macros of std answer *)
Definition is_feature_detected (c : build) (cpu : feature -> bool) (f : feature) : bool :=
  if target_feature c f then true
  else if vdetect c then
    match target_arch c with X86 | X86_64 | ARM | AARCH64 => cpu f | _ => false end
  else false.

(** isa.rs:135-147 [x86_is_enabled!], 162, 184, 206, 228, 251, 291 [is_enabled] *)
Definition is_enabled (c : build) (cpu : feature -> bool) (f : feature) : bool :=
  match f with
  | Favx2 | Fsse41 | Fssse3 | Fsse2 => if is_x86 (target_arch c) then is_feature_detected c cpu f else false
  | Fneon =>
      match target_arch c with
      | ARM => if vunstable c then is_feature_detected c cpu f else false
      | AARCH64 => is_feature_detected c cpu f
      | _ => false
      end
  | Fsimd128 => if is_wasm32 (target_arch c) then is_feature_detected c cpu f else false
  end.

(** The instruction-set type of the function compiled for a target, macros.rs:304-391. *)
Definition isa_of (a : arch) (f : feature) : isa :=
  match f with
  | Favx2 => AVX2 | Fsse41 => SSE41 | Fssse3 => SSSE3 | Fsse2 => SSE2
  | Fneon => if is_arm a then NEON32 else NEON64
  | Fsimd128 => WASM128
  end.

(** macros.rs:152-210 [@resolve_static]: is the [return] compiled? *)
Definition static_arm (c : build) (f : feature) : bool :=
  match f with
  | Favx2 | Fsse41 | Fssse3 | Fsse2 => is_x86 (target_arch c) && target_feature c f
  | Fneon => (unstable c && is_arm (target_arch c) && target_feature c f) || (is_aarch64 (target_arch c) && target_feature c f)
  | Fsimd128 => is_wasm32 (target_arch c) && target_feature c f
  end.
(** macros.rs:227-267 [@resolve_dynamic]: is the [if] compiled, and does it hold? *)
Definition dynamic_cfg (c : build) (f : feature) : bool :=
  match f with
  | Favx2 | Fsse41 | Fssse3 | Fsse2 => is_x86 (target_arch c)
  | Fneon => (unstable c && is_arm (target_arch c)) || is_aarch64 (target_arch c)
  | Fsimd128 => is_wasm32 (target_arch c)
  end.
Definition dynamic_arm (c : build) (cpu : feature -> bool) (f : feature) : bool := dynamic_cfg c f && is_enabled c cpu f.

(** macros.rs:135-150 [@iter_resolve_static]: the first compiled [return], if any *)
Definition resolve_static (c : build) (targets : list feature) : option isa :=
  option_map (isa_of (target_arch c)) (find (static_arm c) targets).
(** macros.rs:212-225 [@iter_resolve_dynamic] and 106-110 [resolve] *)
Definition resolve (c : build) (cpu : feature -> bool) (targets : list feature) : isa :=
  match find (dynamic_arm c cpu) targets with Some f => isa_of (target_arch c) f | None => Fallback end.

(** One invocation of [dispatch!]. *)
Record dispatch := { targets : list feature; fastest : list feature }.

(** What the static [IFUNC] can point to: [init_ifunc] or one of the compiled functions. *)
Inductive fptr := InitIfunc | Impl (s : isa).

(** macros.rs:113-117 [init_ifunc]: the function it runs and the pointer it stores *)
Definition init_ifunc (c : build) (cpu : feature -> bool) (d : dispatch) : isa * option fptr :=
  let f := resolve c cpu (targets d) in (f, Some (Impl f)).

(** macros.rs:88 and 99: which [auto] is compiled *)
Definition indirect (c : build) : bool := detect c && negb (is_wasm32 (target_arch c)).

(** macros.rs:90-97 and 121-130 [auto]. [load] is the value returned by [IFUNC.load(Relaxed)], if it is reached.
    Result: the instruction set of the function that is run, and the pointer stored to [IFUNC], if any. *)
Definition auto (c : build) (cpu : feature -> bool) (d : dispatch) (load : fptr) : isa * option fptr :=
  if indirect c then
    match resolve_static c (fastest d) with
    | Some s => (s, None)
    | None => match load with InitIfunc => init_ifunc c cpu d | Impl s => (s, None) end
    end
  else match resolve_static c (targets d) with Some s => (s, None) | None => (Fallback, None) end.

(** ** The invocations *)
Definition FASTEST : list feature := [Favx2; Fneon; Fsimd128].
Definition mk (ts : list feature) : dispatch := {| targets := ts; fastest := FASTEST |}.
Definition avx2_sse2 := mk [Favx2; Fsse2; Fneon; Fsimd128].
Definition avx2_ssse3 := mk [Favx2; Fssse3; Fneon; Fsimd128].
Definition avx2_ssse3_sse2 := mk [Favx2; Fssse3; Fsse2; Fneon; Fsimd128].
Definition avx2_sse41 := mk [Favx2; Fsse41; Fneon; Fsimd128].

(** hex-simd/src/multiversion.rs:5, 14, 23 *)
Definition D_hex_check := avx2_sse2.
Definition D_hex_encode := avx2_ssse3_sse2.
Definition D_hex_decode := avx2_ssse3_sse2.
(** base64-simd/src/multiversion.rs:3, 12, 21, 30 *)
Definition D_b64_encode := avx2_ssse3.
Definition D_b64_decode := avx2_ssse3.
Definition D_b64_check := avx2_ssse3.
Definition D_find_ws := avx2_sse2.
(** base32-simd/src/multiversion.rs:3, 12, 21 *)
Definition D_b32_check := avx2_ssse3.
Definition D_b32_decode := avx2_sse41.
Definition D_b32_encode := avx2_sse41.
(** uuid-simd/src/multiversion.rs:5, 14, 23, 32 *)
Definition D_parse_simple := avx2_ssse3_sse2.
Definition D_parse_hyphenated := avx2_sse41.
Definition D_format_simple := avx2_ssse3_sse2.
Definition D_format_hyphenated := avx2_sse41.
(** unicode-simd/src/multiversion.rs:3, 12, 21, 30 *)
Definition D_is_ascii := avx2_sse2.
Definition D_is_utf32le := avx2_sse41.
Definition D_utf32_swap := avx2_ssse3.
Definition D_utf16_swap := avx2_ssse3.

(** ** Concurrent executions *)

(** One call of [auto]: the value its load returns, the function it runs, the pointer it stores. *)
Record call := { c_load : fptr; c_run : isa; c_store : option fptr }.
(** An execution is any collection of calls, by any number of threads. [IFUNC] is accessed with relaxed loads and stores,
    so the order of the calls gives no guarantee: a load may return the initial value or the value of any store of the
    execution, also one that is later in any order. The only thing assumed of the memory model is that loads do not
    return values that are never stored. *)
Definition execution (c : build) (cpu : feature -> bool) (d : dispatch) (ex : list call) : Prop :=
  forall k, In k ex ->
    auto c cpu d (c_load k) = (c_run k, c_store k) /\
    (c_load k = InitIfunc \/ exists k', In k' ex /\ c_store k' = Some (c_load k)).

(** ** The same as a transition system: threads interleave at the level of single accesses to [IFUNC] *)
Inductive thread := Start | Loaded (f : fptr) | Resolved (s : isa) | Running (s : isa).
(** All values stored so far, and the state of each thread. A relaxed load may see any value stored so far. *)
Record machine := { history : list fptr; threads : nat -> thread }.
Definition set_thread (ts : nat -> thread) (i : nat) (t : thread) : nat -> thread := fun j => if Nat.eqb j i then t else ts j.
Inductive step (c : build) (cpu : feature -> bool) (d : dispatch) : machine -> machine -> Prop :=
| step_direct : forall h ts i s, ts i = Start -> indirect c = false ->
    s = match resolve_static c (targets d) with Some s => s | None => Fallback end ->
    step c cpu d {| history := h; threads := ts |} {| history := h; threads := set_thread ts i (Running s) |}
| step_static : forall h ts i s, ts i = Start -> indirect c = true -> resolve_static c (fastest d) = Some s ->
    step c cpu d {| history := h; threads := ts |} {| history := h; threads := set_thread ts i (Running s) |}
| step_load : forall h ts i f, ts i = Start -> indirect c = true -> resolve_static c (fastest d) = None -> In f h ->
    step c cpu d {| history := h; threads := ts |} {| history := h; threads := set_thread ts i (Loaded f) |}
| step_call : forall h ts i s, ts i = Loaded (Impl s) ->
    step c cpu d {| history := h; threads := ts |} {| history := h; threads := set_thread ts i (Running s) |}
| step_resolve : forall h ts i, ts i = Loaded InitIfunc ->
    step c cpu d {| history := h; threads := ts |} {| history := h; threads := set_thread ts i (Resolved (resolve c cpu (targets d))) |}
| step_store : forall h ts i s, ts i = Resolved s ->
    step c cpu d {| history := h; threads := ts |} {| history := Impl s :: h; threads := set_thread ts i (Running s) |}
| step_return : forall h ts i s, ts i = Running s ->
    step c cpu d {| history := h; threads := ts |} {| history := h; threads := set_thread ts i Start |}.
Inductive steps (c : build) (cpu : feature -> bool) (d : dispatch) : machine -> machine -> Prop :=
| steps_refl : forall m, steps c cpu d m m
| steps_next : forall m1 m2 m3, steps c cpu d m1 m2 -> step c cpu d m2 m3 -> steps c cpu d m1 m3.
(** macros.rs:103: the initial value of [IFUNC] *)
Definition initial : machine := {| history := [InitIfunc]; threads := fun _ => Start |}.

(** ** native.rs *)
Inductive native := NAvx2 | NSse41 | NSse2 | NNeon | NSimd128 | NFallback.
(** native.rs:27-55 [Native::detect] *)
Definition native_detect (c : build) (cpu : feature -> bool) : native :=
  if is_x86 (target_arch c) && is_feature_detected c cpu Favx2 then NAvx2
  else if is_x86 (target_arch c) && is_feature_detected c cpu Fsse41 then NSse41
  else if is_x86 (target_arch c) && is_feature_detected c cpu Fsse2 then NSse2
  else if (vunstable c && is_arm (target_arch c) || is_aarch64 (target_arch c)) && is_feature_detected c cpu Fneon then NNeon
  else if is_wasm32 (target_arch c) && is_feature_detected c cpu Fsimd128 then NSimd128
  else NFallback.
(** native.rs:58-96 [Native::exec]: the CPU feature with which the closure is run, if any.
    The arms that are not compiled for an architecture are [None] here as well. *)
Definition native_exec (c : build) (n : native) : option feature :=
  if is_x86 (target_arch c) then
    match n with NAvx2 => Some Favx2 | NSse41 => Some Fsse41 | NSse2 => Some Fsse2 | _ => None end
  else if vunstable c && is_arm (target_arch c) || is_aarch64 (target_arch c) then
    match n with NNeon => Some Fneon | _ => None end
  else if is_wasm32 (target_arch c) then
    match n with NSimd128 => Some Fsimd128 | _ => None end
  else None.
