(** Facts about the dispatch. *)
From Coq Require Import List Bool Lia Arith.
From Verif Require Import Isa Dispatch.
Import ListNotations.

(** The program runs on a CPU that has the features it was compiled for. *)
Definition compiled_for (c : build) (cpu : feature -> bool) : Prop := forall f, target_feature c f = true -> cpu f = true.
(** Cargo: the features "detect" and "unstable" of a crate enable those of vsimd. *)
Definition cargo_ok (c : build) : Prop := (detect c = true -> vdetect c = true) /\ (unstable c = true -> vunstable c = true).

(** The function for [s] is one of the invocation's targets, its feature belongs to the architecture and the CPU has it. *)
Definition has_arch (a : arch) (f : feature) : bool :=
  match f with Fneon => is_arm a || is_aarch64 a | Fsimd128 => is_wasm32 a | _ => is_x86 a end.
Definition supported (c : build) (cpu : feature -> bool) (d : dispatch) (s : isa) : Prop :=
  s = Fallback \/ exists f, In f (targets d) /\ s = isa_of (target_arch c) f /\ has_arch (target_arch c) f = true /\ cpu f = true.

Lemma detected_cpu c cpu f : compiled_for c cpu -> is_feature_detected c cpu f = true -> cpu f = true.
Proof.
  unfold is_feature_detected. intros H E. destruct (target_feature c f) eqn:T; [auto|].
  destruct (vdetect c); [|discriminate]. destruct (target_arch c); auto; discriminate.
Qed.
Lemma dynamic_ok c cpu f : compiled_for c cpu -> dynamic_arm c cpu f = true -> has_arch (target_arch c) f = true /\ cpu f = true.
Proof.
  intros H E. unfold dynamic_arm in E. apply andb_true_iff in E as [E1 E2].
  assert (D : is_feature_detected c cpu f = true /\ has_arch (target_arch c) f = true).
  { destruct f; cbn in *; rewrite ?E1 in E2; auto.
    destruct (target_arch c); try discriminate; auto. destruct (vunstable c); [auto|discriminate]. }
  destruct D as [D A]. split; [exact A|]. eapply detected_cpu; eauto.
Qed.
Lemma static_ok c cpu f : compiled_for c cpu -> static_arm c f = true -> has_arch (target_arch c) f = true /\ cpu f = true.
Proof.
  intros H E. assert (D : target_feature c f = true /\ has_arch (target_arch c) f = true); [|destruct D; auto].
  destruct f; cbn in *; try (apply andb_true_iff in E as [E1 E2]; split; [exact E2|exact E1]).
  apply orb_true_iff in E as [E|E]; [apply andb_true_iff in E as [E E2]; apply andb_true_iff in E as [E0 E1]|apply andb_true_iff in E as [E1 E2]];
    rewrite E1, ?orb_true_r; auto.
Qed.
Lemma find_In {A} (p : A -> bool) l x : find p l = Some x -> In x l /\ p x = true.
Proof. apply find_some. Qed.

Lemma resolve_supported c cpu d : compiled_for c cpu -> supported c cpu d (resolve c cpu (targets d)).
Proof.
  intro H. unfold resolve. destruct (find _ _) as [f|] eqn:E; [|now left].
  apply find_In in E as [I E]. right. exists f. destruct (dynamic_ok c cpu f H E). auto.
Qed.
Lemma static_supported c cpu d ts s : compiled_for c cpu -> incl ts (targets d) -> resolve_static c ts = Some s -> supported c cpu d s.
Proof.
  intros H I. unfold resolve_static. destruct (find _ _) as [f|] eqn:E; [|discriminate]. cbn [option_map]. injection 1 as <-.
  apply find_In in E as [J E]. right. exists f. destruct (static_ok c cpu f H E). auto.
Qed.

(** Which function runs, as a function of the build and the CPU alone. *)
Definition selected (c : build) (cpu : feature -> bool) (d : dispatch) : isa := fst (auto c cpu d InitIfunc).

Lemma store_selected c cpu d l s f : auto c cpu d l = (s, Some f) -> f = Impl (selected c cpu d).
Proof.
  unfold selected, auto. destruct (indirect c).
  - destruct (resolve_static c (fastest d)); [discriminate|]. destruct l; unfold init_ifunc; [|discriminate]. cbn. now injection 1 as <- <-.
  - destruct (resolve_static c (targets d)); discriminate.
Qed.
Lemma run_selected c cpu d ex k : execution c cpu d ex -> In k ex -> c_run k = selected c cpu d.
Proof.
  intros H I. destruct (H k I) as [E L].
  assert (G : c_load k = InitIfunc \/ c_load k = Impl (selected c cpu d)).
  { destruct L as [L|(k' & I' & L)]; [now left|right]. destruct (H k' I') as [E' _]. rewrite L in E'. eapply store_selected, E'. }
  destruct G as [G|G]; rewrite G in E.
  - unfold selected. now rewrite E.
  - unfold selected, auto in *. destruct (indirect c).
    + destruct (resolve_static c (fastest d)); [cbn; congruence|]. congruence.
    + destruct (resolve_static c (targets d)); cbn; congruence.
Qed.
Lemma selected_supported c cpu d : compiled_for c cpu -> incl (fastest d) (targets d) -> supported c cpu d (selected c cpu d).
Proof.
  intros H I. unfold selected, auto. destruct (indirect c).
  - destruct (resolve_static c (fastest d)) eqn:E; [eapply static_supported; eauto|]. apply resolve_supported, H.
  - destruct (resolve_static c (targets d)) as [i|] eqn:E; [|now left]. exact (static_supported c cpu d (targets d) i H (incl_refl _) E).
Qed.

(** ** The transition system *)
Definition inv (c : build) (cpu : feature -> bool) (d : dispatch) (m : machine) : Prop :=
  (forall f, In f (history m) -> f = InitIfunc \/ f = Impl (selected c cpu d)) /\
  (forall i, match threads m i with
             | Start => True
             | Loaded f => indirect c = true /\ resolve_static c (fastest d) = None /\ (f = InitIfunc \/ f = Impl (selected c cpu d))
             | Resolved s | Running s => s = selected c cpu d
             end).
Lemma inv_initial c cpu d : inv c cpu d initial.
Proof. split; [|intro; exact I]. intros f [<-|[]]. now left. Qed.
Lemma selected_resolve c cpu d : indirect c = true -> resolve_static c (fastest d) = None -> selected c cpu d = resolve c cpu (targets d).
Proof. intros H E. unfold selected, auto, init_ifunc. now rewrite H, E. Qed.
Lemma inv_step c cpu d m m' : inv c cpu d m -> step c cpu d m m' -> inv c cpu d m'.
Proof.
  intros [H T] S. destruct S as [h ts i s E E1 ->|h ts i s E E1 E2|h ts i f E E1 E2 I|h ts i s E|h ts i E|h ts i s E|h ts i s E]; cbn in *.
  all: assert (Ti := T i); rewrite E in Ti.
  all: split; cbn; [|intro j; unfold set_thread; destruct (Nat.eqb j i); [|apply T]]; auto.
  - unfold selected, auto. rewrite E1. destruct (resolve_static c (targets d)); reflexivity.
  - unfold selected, auto. rewrite E1, E2. reflexivity.
  - destruct Ti as (_ & _ & [Ti|Ti]); congruence.
  - destruct Ti as (E1 & E2 & _). symmetry. now apply selected_resolve.
  - intros f [<-|I]; [right; congruence|auto].
Qed.
Lemma inv_steps c cpu d m m' : inv c cpu d m -> steps c cpu d m m' -> inv c cpu d m'.
Proof. intros H S. induction S; eauto using inv_step. Qed.

(** Every chunk of features implied by an instruction set. *)
Definition id_feature (i : isa_id) : option feature :=
  match i with IFallback => None | ISSE2 => Some Fsse2 | ISSSE3 => Some Fssse3 | ISSE41 => Some Fsse41 | IAVX2 => Some Favx2
             | INEON => Some Fneon | IWASM128 => Some Fsimd128 end.
(** On x86 the features form a chain. *)
Definition x86_chain (cpu : feature -> bool) : Prop :=
  (cpu Favx2 = true -> cpu Fsse41 = true) /\ (cpu Fsse41 = true -> cpu Fssse3 = true) /\ (cpu Fssse3 = true -> cpu Fsse2 = true).
Lemma inherits_on_cpu c cpu f i g : x86_chain cpu -> cpu f = true -> has_arch (target_arch c) f = true ->
  inherits (id_of (isa_of (target_arch c) f)) i = true -> id_feature i = Some g -> cpu g = true.
Proof.
  intros (A & B & C) H HA I E.
  destruct f, i; cbn in *; try discriminate I; try discriminate E; injection E as <-; auto; destruct (is_arm (target_arch c)); discriminate I || auto.
Qed.

(** Compile-time choice of the fastest implementation is the choice [resolve] would make. *)
Lemma static_is_resolve c cpu d : cargo_ok c -> d = avx2_sse2 \/ d = avx2_ssse3 \/ d = avx2_ssse3_sse2 \/ d = avx2_sse41 ->
  indirect c = true -> selected c cpu d = resolve c cpu (targets d).
Proof.
  intros [CD CU] HD HI. destruct (resolve_static c (fastest d)) as [s|] eqn:E; [|now apply selected_resolve].
  unfold selected, auto. rewrite HI, E. cbn [fst].
  assert (F : fastest d = FASTEST) by (destruct HD as [->|[->|[->| ->]]]; reflexivity). rewrite F in E. clear F.
  unfold resolve_static, FASTEST, find, static_arm in E. unfold indirect in HI. apply andb_true_iff in HI as [HD' HW].
  specialize (CD HD').
  assert (G : resolve c cpu (targets d) = s); [|now rewrite G].
  unfold resolve. unfold dynamic_arm, dynamic_cfg, is_enabled, is_feature_detected. rewrite CD.
  destruct c as [a tf dt vdt un vun]; cbn in *.
  destruct HD as [->|[->|[->| ->]]]; destruct a; cbn in *; try discriminate;
    destruct (tf Favx2) eqn:?, (tf Fneon) eqn:?, un, vun; cbn in *; try discriminate; try (specialize (CU eq_refl); discriminate);
    try (now injection E as <-).
Qed.

(** ** native.rs *)
Lemma native_ok c cpu f : compiled_for c cpu -> native_exec c (native_detect c cpu) = Some f -> cpu f = true /\ has_arch (target_arch c) f = true.
Proof.
  intros H. unfold native_exec, native_detect.
  destruct (is_feature_detected c cpu Favx2) eqn:E1, (is_feature_detected c cpu Fsse41) eqn:E2, (is_feature_detected c cpu Fsse2) eqn:E3,
    (is_feature_detected c cpu Fneon) eqn:E4, (is_feature_detected c cpu Fsimd128) eqn:E5;
  destruct (target_arch c) eqn:A, (vunstable c) eqn:U; cbn; try discriminate; injection 1 as <-;
  (split; [eapply detected_cpu; eauto|reflexivity]).
Qed.
