(** Property theorems for whole programs (C72): threads call public functions at the same time, from the first call on, so
    that the run-time dispatch (C39) and the memory accesses of the chosen functions (C70) interleave in one execution.

    [fs i] is the call that thread [i] makes, given the function that each [auto] calls (Whole.v, [api]); [xs i] is any
    program that, whatever the dispatcher chooses, has the effect of that call and panics unless it returns what it should,
    and that stores only to the allocation of its destination. C72_calls_as_programs gives one for each call.
    The pointers start as [init_ifunc]; a relaxed load of a pointer returns any value stored so far. *)
From Coq Require Import ZArith List Bool Lia String.
From Verif Require Import Dispatch DispatchFacts.
From Verif Require Import Bytes Mem MemFacts Slices Codec Isa Simd SimdFacts Ints Spec Hex Base64 Base64Ref Base64Api Base32 Base32Api
  Uuid UuidFacts UuidApi Unicode UnicodeSpec Forgiving Conc Reify ConcApi ConcApiFacts PropConc Whole WholeFacts.
Import ListNotations.
Open Scope list_scope. Open Scope nat_scope. Open Scope m_scope.

(** C72 *)
Theorem C72_whole_program : forall c cpu t n fs xs m,
  compiled_for c cpu -> target_of c t ->
  (forall i, i < n -> exists sw, api c t sw (fs i) /\ (sw = true -> swaps_work c cpu)) ->
  (forall i pick, i < n -> ready m (fs i pick)) ->
  (forall i j b o pick, i < n -> j < n -> i <> j -> writes (fs i pick) b o = true -> accesses (fs j pick) b o = false) ->
  (forall i, i < n -> (exists d, autos d (xs i)) /\
     forall pick, implements (erase pick (xs i)) (code (fs i pick)) /\ stores_in (ConcApi.target (fs i pick)) any (erase pick (xs i))) ->
  whole_undisturbed c cpu n xs m (fun m' =>
    (forall i pick, i < n -> delivered m' (fs i pick)) /\
    (forall b, List.length (m' b) = List.length (m b)) /\
    (forall b o, (forall i pick, i < n -> writes (fs i pick) b o = false) -> nth_error (m' b) o = nth_error (m b) o)).
Proof.
  intros c cpu t n fs xs m HC HT HA HR HW HX. apply whole_interleave; [exact HC|intros i Hi; now apply HX|].
  destruct (calls_interleave n (fun i => fs i (sel c cpu)) (fun i => erase (sel c cpu) (xs i)) m) as [N HN].
  - intros i Hi. split; [|now apply HR]. destruct (HA i Hi) as (sw & A & W). apply public_alone. now apply (api_public c cpu t sw).
  - intros i j b o Hi Hj D W. now apply (HW i j b o (sel c cpu)).
  - intros i Hi. now apply HX.
  - exists N. intros k ps' m' ST. destruct (HN k ps' m' ST) as (G1 & G2 & G3 & G4 & G5). repeat (split; [assumption|]). intro AD.
    destruct (G5 AD) as (D1 & D2 & D3). split; [|split; [exact D2|]].
    + intros i pick Hi. destruct (HA i Hi) as (sw & A & _). rewrite (api_delivered _ _ _ _ A m' pick (sel c cpu)). now apply D1.
    + intros b o NW. apply D3. intros i Hi. now apply NW.
Qed.
Print Assumptions C72_whole_program.
(** Every call of a public function is such a program, with at most two dispatches. *)
Theorem C72_calls_as_programs : forall c t sw f, api c t sw f -> exists x, autos 2 x /\
  forall pick, implements (erase pick x) (code (f pick)) /\ stores_in (ConcApi.target (f pick)) any (erase pick x).
Proof. exact api_follows. Qed.
Print Assumptions C72_calls_as_programs.

(** ** Examples *)
(** A scheduler: each entry says which thread is next, and which value it sees if it loads a pointer. *)
Definition isa_eqb (s t : isa) : bool :=
  match s, t with
  | Fallback, Fallback | SSE2, SSE2 | SSSE3, SSSE3 | SSE41, SSE41 | AVX2, AVX2 | NEON32, NEON32 | NEON64, NEON64 | WASM128, WASM128 => true
  | _, _ => false
  end.
Definition fptr_eqb (f g : fptr) : bool :=
  match f, g with InitIfunc, InitIfunc => true | Impl s, Impl s' => isa_eqb s s' | _, _ => false end.
Definition astep_fun (c : build) (cpu : feature -> bool) (h : pointers) (t : tstate) (f : fptr) : option (pointers * tstate) :=
  match t with
  | At (XAuto e k) =>
      if indirect c then
        match resolve_static c (fastest (invocation e)) with
        | Some s => if executable c cpu s then Some (h, At (k s)) else None
        | None => if existsb (fptr_eqb f) (h e) then Some (h, Got e f k) else None
        end
      else
        let s := match resolve_static c (targets (invocation e)) with Some s => s | None => Fallback end in
        if executable c cpu s then Some (h, At (k s)) else None
  | Got e (Impl s) k => if executable c cpu s then Some (h, At (k s)) else None
  | Got e InitIfunc k => Some (h, Will e (resolve c cpu (targets (invocation e))) k)
  | Will e s k => if executable c cpu s then Some (store_pointer h e (Impl s), At (k s)) else None
  | _ => None
  end.
Definition xstep_fun (c : build) (cpu : feature -> bool) (st : state) (i : nat) (f : fptr) : option state :=
  match xnext (threads_of st i) (mem_of_state st) with
  | Some (t, m') => Some {| pointers_of := pointers_of st; threads_of := set_tstate (threads_of st) i t; mem_of_state := m' |}
  | None =>
      match astep_fun c cpu (pointers_of st) (threads_of st i) f with
      | Some (h', t) => Some {| pointers_of := h'; threads_of := set_tstate (threads_of st) i t; mem_of_state := mem_of_state st |}
      | None => None
      end
  end.
Fixpoint xrun (c : build) (cpu : feature -> bool) (order : list (nat * fptr)) (k : nat) (st : state) : nat * state :=
  match order with
  | [] => (k, st)
  | (i, f) :: r => match xstep_fun c cpu st i f with Some st' => xrun c cpu r (S k) st' | None => xrun c cpu r k st end
  end.
Lemma fptr_eqb_eq f g : fptr_eqb f g = true -> f = g.
Proof. destruct f as [|[]], g as [|[]]; cbn; congruence. Qed.
Lemma astep_fun_ok c cpu h t f h' t' : astep_fun c cpu h t f = Some (h', t') -> astep c cpu h t h' t'.
Proof.
  destruct t as [x|e g k|e s k]; cbn [astep_fun].
  - destruct x as [| | | | |e k]; try discriminate. destruct (indirect c) eqn:I.
    + destruct (resolve_static c (fastest (invocation e))) as [s|] eqn:R.
      * destruct (executable c cpu s) eqn:X; [|discriminate]. injection 1 as <- <-. now apply a_static.
      * destruct (existsb (fptr_eqb f) (h e)) eqn:X; [|discriminate]. injection 1 as <- <-. apply a_load; auto.
        apply existsb_exists in X as (g & J & Eg). apply fptr_eqb_eq in Eg. now subst g.
    + cbv zeta. destruct (executable c cpu _) eqn:X; [|discriminate]. injection 1 as <- <-. now apply a_direct.
  - destruct g as [|s]; [injection 1 as <- <-; constructor|]. destruct (executable c cpu s) eqn:X; [|discriminate]. injection 1 as <- <-. now constructor.
  - destruct (executable c cpu s) eqn:X; [|discriminate]. injection 1 as <- <-. now constructor.
Qed.
Lemma xrun_ok c cpu n order : (forall i f, In (i, f) order -> i < n) -> forall k st0 st k' st',
  xsteps c cpu n k st0 st -> xrun c cpu order k st = (k', st') -> xsteps c cpu n k' st0 st'.
Proof.
  induction order as [|[i f] r IH]; intros Hi k st0 st k' st' X E; cbn [xrun] in E; [now injection E as <- <-|].
  assert (Hr : forall i f, In (i, f) r -> i < n) by (intros j g J; apply (Hi j g); now right).
  unfold xstep_fun in E. destruct (xnext (threads_of st i) (mem_of_state st)) as [[t m']|] eqn:EN.
  - refine (IH Hr _ _ _ _ _ _ E). refine (xsteps_more _ _ _ _ _ _ _ X _). destruct st as [h ts m]. apply x_mem; [|exact EN]. apply (Hi i f). now left.
  - destruct (astep_fun c cpu (pointers_of st) (threads_of st i) f) as [[h' t]|] eqn:EA.
    + refine (IH Hr _ _ _ _ _ _ E). refine (xsteps_more _ _ _ _ _ _ _ X _). destruct st as [h ts m]. apply x_auto; [apply (Hi i f); now left|].
      now apply astep_fun_ok in EA.
    + exact (IH Hr _ _ _ _ _ X E).
Qed.
Lemma below_in n order : forallb (fun p : nat * fptr => fst p <? n) order = true -> forall i f, In (i, f) order -> i < n.
Proof. rewrite forallb_forall. intros H i f J. apply H in J. now apply Nat.ltb_lt. Qed.

Definition x64 : build := {| target_arch := X86_64; target_feature := fun f => match f with Fsse2 => true | _ => false end;
  detect := true; vdetect := true; unstable := false; vunstable := false |}.
Definition cpu_sse41 (f : feature) : bool := match f with Fsse41 | Fssse3 | Fsse2 => true | _ => false end.
Definition x64_target : Base32.target := {| t_endian := LE; t_wasm32 := false |}.
Definition start (xs : nat -> xprog) (m : mem) : state := {| pointers_of := fresh_pointers; threads_of := fun i => At (xs i); mem_of_state := m |}.
Definition is_xdone (t : tstate) : bool := match t with At XDone => true | _ => false end.
Definition is_panicked (t : tstate) : bool := match t with At (XFail Panicked) => true | _ => false end.

(** two threads encode the same bytes, and both are the first to call: both resolve, both store *)
Definition pair_src := str "Hi!"%string.
Definition pair_mem := mem_of [cells pair_src; uninit 6; uninit 6].
Definition pair_calls (i : nat) : (entry -> isa) -> call := fun pick =>
  Into (fun p n q k => hex_encode (pick E_hex_encode) p n q k Lower) pair_src 0 0 (S (i mod 2)) 0 6 (fits 6 (rfc_hex_encode (digits_of Lower) pair_src)).
Example C72_ex : compiled_for x64 cpu_sse41 /\ target_of x64 x64_target /\
  (forall i, i < 2 -> exists sw, api x64 x64_target sw (pair_calls i) /\ (sw = true -> swaps_work x64 cpu_sse41)) /\
  (forall i pick, i < 2 -> ready pair_mem (pair_calls i pick)) /\
  (forall i j b o pick, i < 2 -> j < 2 -> i <> j -> writes (pair_calls i pick) b o = true -> accesses (pair_calls j pick) b o = false).
Proof.
  split; [intros []; cbn; easy|]. split; [split; [reflexivity|now left]|]. split; [|split].
  - intros i Hi. exists false. split; [apply api_hex_encode|discriminate].
  - intros i pick Hi. assert (B : bytes pair_src) by (repeat constructor; cbv; congruence).
    destruct i as [|[|i]]; [| |lia]; (split; [apply slice_whole; [exact B|reflexivity]|split; [cbv; lia|left; discriminate]]).
  - intros i j b o pick Hi Hj D. destruct i as [|[|i]], j as [|[|j]]; try lia; unfold pair_calls; cbn [writes accesses]; unfold within;
      cbn [Nat.modulo Nat.divmod fst snd Nat.sub List.length pair_src];
      rewrite <- not_true_iff_false, ?orb_true_iff, ?andb_true_iff, ?orb_true_iff, ?andb_true_iff, ?Nat.eqb_eq; cbn; intuition lia.
Qed.
Definition hex_thread (d : nat) : xprog := XAuto E_hex_encode (fun s =>
  embed (pbind (the_prog (rei_hex_encode (H := True) (d := d) s (0, 0) 3 (d, 0) 6 Lower (fun _ => eq_refl))) (fun _ => Done tt))).
Definition both_first : list (nat * fptr) :=
  [(0, InitIfunc); (1, InitIfunc); (0, InitIfunc); (1, InitIfunc); (1, InitIfunc); (1, InitIfunc); (0, InitIfunc)] ++
  List.concat (repeat [(0, InitIfunc); (1, InitIfunc)] 30).
(** ... and the second sees the pointer that the first has stored *)
Definition one_first : list (nat * fptr) :=
  [(0, InitIfunc); (0, InitIfunc); (0, InitIfunc); (1, Impl SSSE3); (1, InitIfunc)] ++ List.concat (repeat [(0, InitIfunc); (1, InitIfunc)] 30).
Example C72_race_on_pointer : forall order, In order [both_first; one_first] ->
  exists k st, xsteps x64 cpu_sse41 2 k (start (fun i => hex_thread (S i)) pair_mem) st /\
  is_xdone (threads_of st 0) = true /\ is_xdone (threads_of st 1) = true /\
  mem_of_state st 1 = cells (str "486921"%string) /\ mem_of_state st 2 = cells (str "486921"%string).
Proof.
  intros order HO. destruct (xrun x64 cpu_sse41 order 0 (start (fun i => hex_thread (S i)) pair_mem)) as [k st] eqn:R. exists k, st. split.
  - refine (xrun_ok _ _ _ order _ _ _ _ _ _ (xsteps_none _ _ _ _) R). destruct HO as [<-|[<-|[]]]; apply below_in; vm_compute; reflexivity.
  - assert (E : let st := snd (xrun x64 cpu_sse41 order 0 (start (fun i => hex_thread (S i)) pair_mem)) in
      (is_xdone (threads_of st 0), is_xdone (threads_of st 1), mem_of_state st 1, mem_of_state st 2) =
      (true, true, cells (str "486921"%string), cells (str "486921"%string)))
      by (destruct HO as [<-|[<-|[]]]; vm_compute; reflexivity).
    rewrite R in E. cbn [snd] in E. injection E as E0 E1 E2 E3. auto.
Qed.
(** The condition on the endianness swaps is needed: on a CPU with SSE4.1 but without AVX2 the function for SSSE3 is chosen, and it panics. *)
Definition swap_thread : xprog := XAuto E_utf16_swap (fun s =>
  embed (pbind (the_prog (rei_uni_swap_endianness_to (H := True) (d := 1) LE U16 s (0, 0) 16 (1, 0) 16 (fun _ => eq_refl))) (fun _ => Done tt))).
Definition swap_mem := mem_of [cells (repeat 7%Z 32); uninit 32].
Theorem C72_swap_refuted : compiled_for x64 cpu_sse41 /\ ~ swaps_work x64 cpu_sse41 /\
  exists k st, xsteps x64 cpu_sse41 1 k (start (fun _ => swap_thread) swap_mem) st /\ threads_of st 0 = At (XFail Panicked).
Proof.
  split; [intros []; cbn; easy|]. split; [intro H; apply (H eq_refl); reflexivity|].
  destruct (xrun x64 cpu_sse41 (repeat (0, InitIfunc) 40) 0 (start (fun _ => swap_thread) swap_mem)) as [k st] eqn:R. exists k, st. split.
  - refine (xrun_ok _ _ _ (repeat (0, InitIfunc) 40) _ _ _ _ _ _ (xsteps_none _ _ _ _) R). apply below_in; vm_compute; reflexivity.
  - assert (E : is_panicked (threads_of (snd (xrun x64 cpu_sse41 (repeat (0, InitIfunc) 40) 0 (start (fun _ => swap_thread) swap_mem))) 0) = true)
      by (vm_compute; reflexivity).
    rewrite R in E. cbn [snd] in E. destruct (threads_of st 0) as [[|[]| | | |]| |]; (discriminate E || reflexivity).
Qed.
Print Assumptions C72_swap_refuted.
