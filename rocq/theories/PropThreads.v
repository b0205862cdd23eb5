(** Property theorems for threads that call public functions at the same time (C70): the sources may be shared, because no
    function ever writes to its source, not even for a moment.

    [public c] (ConcApi.v) says that [c] is a call of a public function that works on memory given by the caller, with the
    result that it is specified to return. [ps i] is any program of single memory accesses that has the effect of "make the
    call and panic unless it returns what it should", and that stores only to the allocation of its destination.
    C70_calls_as_programs gives the one that follows the code. [undisturbed] (Conc.v): in every interleaving there is no data
    race and no invalid access, no thread panics (so each call returns the specified result), all of them end, and then the
    memory is as described. *)
From Coq Require Import ZArith List Bool Lia String.
From Verif Require Import Bytes Mem MemFacts Slices Codec Isa Simd SimdFacts Ints Spec Hex Base64 Base64Ref Base64Api Base32 Base32Api
  Uuid UuidFacts UuidApi Unicode UnicodeSpec Forgiving Conc Reify ConcApi ConcApiFacts PropConc.
Import ListNotations.
Open Scope list_scope. Open Scope nat_scope. Open Scope m_scope.

(** C70 *)
Theorem C70_calls_interleaved : forall n cs ps m,
  (forall i, i < n -> public (cs i) /\ ready m (cs i)) ->
  (forall i j b o, i < n -> j < n -> i <> j -> writes (cs i) b o = true -> accesses (cs j) b o = false) ->
  (forall i, i < n -> implements (ps i) (code (cs i)) /\ stores_in (target (cs i)) any (ps i)) ->
  undisturbed n ps m (fun m' =>
    (forall i, i < n -> delivered m' (cs i)) /\
    (forall b, List.length (m' b) = List.length (m b)) /\
    (forall b o, (forall i, i < n -> writes (cs i) b o = false) -> nth_error (m' b) o = nth_error (m b) o)).
Proof.
  intros n cs ps m HC. apply calls_interleave. intros i Hi. destruct (HC i Hi) as [P R]. split; [now apply public_alone|exact R].
Qed.
Print Assumptions C70_calls_interleaved.
(** Every such call is such a program, access by access: it never stores to an allocation other than the one of its destination, whatever its
    loads return; functions that only check never store at all. *)
Theorem C70_calls_as_programs : forall c, public c -> exists p, follows (code c) p /\ implements p (code c) /\ stores_in (target c) any p.
Proof. exact public_program. Qed.
Print Assumptions C70_calls_as_programs.
(** [accesses] and [writes], which the conditions on other threads are about, spelled out: the cells of the slices, exactly *)
Definition cells_of (b o n : nat) : list (nat * nat) := map (fun i => (b, o + i)) (seq 0 n).
Theorem C70_footprints :
  (forall f src b o d e dlen out a, let c := Into f src b o d e dlen out in
     (accesses c (fst a) (snd a) = true <-> In a (cells_of b o (List.length src) ++ cells_of d e dlen)) /\
     (writes c (fst a) (snd a) = true <-> fst a = d /\ In a (cells_of b o (List.length src) ++ cells_of d e dlen))) /\
  (forall f data b o out a, let c := InPlace f data b o out in
     (accesses c (fst a) (snd a) = true <-> In a (cells_of b o (List.length data))) /\
     (writes c (fst a) (snd a) = true <-> In a (cells_of b o (List.length data)))) /\
  (forall f src b o answer a, let c := Check f src b o answer in
     (accesses c (fst a) (snd a) = true <-> In a (cells_of b o (List.length src))) /\ writes c (fst a) (snd a) = false).
Proof.
  assert (W : forall b o n a, within b o n (fst a) (snd a) = true <-> In a (cells_of b o n)).
  { intros b o n [x y]. unfold within, cells_of. cbn [fst snd]. rewrite !andb_true_iff, Nat.eqb_eq, Nat.leb_le, Nat.ltb_lt, in_map_iff. split.
    - intros [[-> H1] H2]. exists (y - o). rewrite in_seq. split; [f_equal|]; lia.
    - intros (i & E & I). injection E as <- <-. rewrite in_seq in I. lia. }
  split; [|split].
  - intros f src b o d e dlen out a c. subst c. cbn [accesses writes]. rewrite andb_true_iff, orb_true_iff, !W, in_app_iff, Nat.eqb_eq.
    split; [reflexivity|]. split; intros [E I]; (split; [now symmetry|exact I]).
  - intros f data b o out a c. subst c. cbn [accesses writes]. rewrite W. split; reflexivity.
  - intros f src b o answer a c. subst c. cbn [accesses writes]. rewrite W. split; reflexivity.
Qed.
Print Assumptions C70_footprints.
(** In particular, any number of threads may work on one source at the same time, into different allocations. *)
Theorem C70_shared_source : forall n cs m,
  (forall i, i < n -> public (cs i) /\ ready m (cs i)) ->
  (forall i j b o b' o', i < n -> j < n -> i <> j -> writes (cs i) b o = true -> accesses (cs j) b' o' = true -> b <> b') ->
  exists ps, (forall i, i < n -> implements (ps i) (code (cs i))) /\
    undisturbed n ps m (fun m' => forall i, i < n -> delivered m' (cs i)).
Proof.
  intros n cs m HC HX.
  assert (HP : forall n', n' <= n -> exists ps : threads, forall i, i < n' -> implements (ps i) (code (cs i)) /\ stores_in (target (cs i)) any (ps i)).
  { induction n' as [|k IH]; intro L; [exists (fun _ => Done tt); lia|]. destruct (IH ltac:(lia)) as [ps H].
    destruct (public_program (cs k) (proj1 (HC k L))) as (p & _ & Hp). exists (fun i => if i =? k then p else ps i). intros i Hi.
    destruct (Nat.eqb_spec i k) as [->|]; [exact Hp|]. apply H. lia. }
  destruct (HP n (le_n n)) as [ps H]. exists ps. split; [intros i Hi; now apply H|].
  destruct (C70_calls_interleaved n cs ps m HC) as [N HN].
  - intros i j b o Hi Hj D W. apply not_true_is_false. intro A. now apply (HX i j b o b o Hi Hj D W A).
  - exact H.
  - exists N. intros k ps' m' ST. destruct (HN k ps' m' ST) as (G1 & G2 & G3 & G4 & G5). repeat (split; [assumption|]). intro AD. now apply G5.
Qed.
Print Assumptions C70_shared_source.

(** ** Examples *)
(** one source, five threads: encode it three ways, check it, and decode another text in place *)
Definition five_src := str "Hi!"%string.
Definition five_mem := mem_of [cells five_src; uninit 6; uninit 4; uninit 2; cells (str "4869"%string)].
Definition five (i : nat) : call :=
  nth i [ Into (fun p n q k => hex_encode AVX2 p n q k Lower) five_src 0 0 1 0 6 (fits 6 (rfc_hex_encode (digits_of Lower) five_src));
          Into (b64_encode SSE41 STANDARD) five_src 0 0 2 0 4 (fits 4 (b64_rfc STANDARD five_src));
          Into (b64_encode Fallback STANDARD) five_src 0 0 3 0 2 (fits 2 (b64_rfc STANDARD five_src));
          Check (answers (is_ascii true SSE2)) five_src 0 0 true ]
    (InPlace (hex_decode_inplace NEON64) (str "4869"%string) 4 0 (Some (str "Hi"%string))).
Lemma str_bytes l : forallb (fun c => ((0 <=? c) && (c <? 256))%Z) l = true -> bytes l.
Proof. rewrite forallb_forall. intro H. apply Forall_forall. intros x Hx. apply H in Hx. unfold byte. lia. Qed.
Lemma five_public : forall i, i < 5 -> public (five i) /\ ready five_mem (five i).
Proof.
  assert (B : bytes five_src) by (now apply str_bytes).
  assert (S0 : slice five_mem 0 0 five_src) by (apply slice_whole; auto).
  intros i Hi. destruct i as [|[|[|[|[|i]]]]]; [| | | | |lia]; cbn [five nth].
  - split; [apply pub_hex_encode|]. split; [exact S0|]. split; [cbv; lia|left; discriminate].
  - split; [apply pub_b64_encode; now right|]. split; [exact S0|]. split; [cbv; lia|left; discriminate].
  - split; [apply pub_b64_encode; now left|]. split; [exact S0|]. split; [cbv; lia|left; discriminate].
  - split; [apply pub_is_ascii|exact S0]. split; [|reflexivity]. intros _ c [<-|[<-|[<-|[]]]]; vm_compute; split; congruence.
  - split; [|apply slice_whole; [now apply str_bytes|reflexivity]]. apply pub_hex_decode_inplace. intro x. split.
    + injection 1 as <-. split; [now apply str_bytes|reflexivity].
    + intros [Bx E]. f_equal. assert (E2 : map ascii_lower (str "4869"%string) = rfc_hex_encode hex_lower (str "Hi"%string)) by reflexivity.
      rewrite E2 in E. apply (HexApi.hex_encode_inj Lower); [now apply str_bytes|exact Bx|exact E].
Qed.
Example C70_five : exists ps, (forall i, i < 5 -> implements (ps i) (code (five i))) /\
  undisturbed 5 ps five_mem (fun m' => bytes_at m' 1 0 (str "486921"%string) /\ bytes_at m' 2 0 (str "SGkh"%string) /\ bytes_at m' 4 0 (str "Hi"%string)).
Proof.
  destruct (C70_shared_source 5 five five_mem five_public) as (ps & HI & N & HN).
  - intros i j b o b' o' Hi Hj D. destruct i as [|[|[|[|[|i]]]]], j as [|[|[|[|[|j]]]]]; try lia; cbn [five nth writes accesses];
      unfold within; rewrite ?orb_true_iff, ?andb_true_iff, ?orb_true_iff, ?andb_true_iff, ?Nat.eqb_eq; intros; try discriminate; intuition lia.
  - exists ps. split; [exact HI|]. exists N. intros k ps' m' ST. destruct (HN k ps' m' ST) as (G1 & G2 & G3 & G4 & G5). repeat (split; [assumption|]).
    intro AD. specialize (G5 AD). split; [exact (G5 0 ltac:(lia))|]. split; [exact (G5 1 ltac:(lia))|exact (G5 4 ltac:(lia))].
Qed.
(** the programs themselves: two threads encode the same three bytes, access by access in turn *)
Definition two_jobs : threads := fun i =>
  match i with
  | 0 => pbind (the_prog (rei_hex_encode (H := True) (d := 1) SSE41 (0, 0) 3 (1, 0) 6 Lower (fun _ => eq_refl))) (fun _ => Done tt)
  | _ => pbind (the_prog (rei_b64_encode (H := True) (d := 2) AVX2 STANDARD (0, 0) 3 (2, 0) 4 (fun _ => eq_refl))) (fun _ => Done tt)
  end.
Fixpoint alternate (fuel : nat) (ps : threads) (m : mem) : threads * mem :=
  match fuel with
  | O => (ps, m)
  | S f =>
      let '(ps, m) := match next (ps 0) m with Some (p, m') => (set_thread ps 0 p, m') | None => (ps, m) end in
      let '(ps, m) := match next (ps 1) m with Some (p, m') => (set_thread ps 1 p, m') | None => (ps, m) end in
      alternate f ps m
  end.
Example C70_two : let '(ps, m) := alternate 40 two_jobs five_mem in
  is_done (ps 0) = true /\ is_done (ps 1) = true /\ m 0 = cells five_src /\ m 1 = cells (str "486921"%string) /\ m 2 = cells (str "SGkh"%string).
Proof. vm_compute. repeat split; reflexivity. Qed.
(** a program that has the effect of [hex_check] but writes to its source in between, which would be a data race, is not a
    program in the sense of C70 *)
Definition touching : prog unit := Load (0, 0) 1 (fun l => Store (0, 0) [0%Z] (Store (0, 0) l (Done tt))).
Example C70_touching : (exists m', run touching (mem_of [cells [7%Z]]) = Ret tt m' /\ m' 0 = cells [7%Z]) /\
  ~ stores_in (fun _ => False) any touching.
Proof. split; [eexists; split; reflexivity|]. intro H. exact (proj1 (H [7%Z])). Qed.
(** and two threads that share a destination do race *)
Definition clash : threads := fun _ =>
  pbind (the_prog (rei_hex_encode (H := True) (d := 1) Fallback (0, 0) 3 (1, 0) 6 Lower (fun _ => eq_refl))) (fun _ => Done tt).
Definition about_to_store (p : prog unit) : option (ptr * nat) := match p with Store q xs _ => Some (q, List.length xs) | _ => None end.
Example C70_same_destination : exists k ps m, steps 2 k clash five_mem ps m /\ race 2 ps.
Proof.
  assert (E : match schedule_run [0; 0; 0; 0; 0; 1; 1; 1; 1; 1] clash five_mem with
              | Some (ps', m') => Some (about_to_store (ps' 0), about_to_store (ps' 1))
              | None => None
              end = Some (Some ((1, 0), 1), Some ((1, 0), 1))) by (vm_compute; reflexivity).
  destruct (schedule_run _ clash five_mem) as [[ps m]|] eqn:R; [|discriminate E]. injection E as E0 E1.
  exists 10, ps, m. split.
  - apply (schedule_steps 2 _ clash five_mem ps m) in R; [exact R|]. intros i Hi. cbn in Hi. lia.
  - exists 0, 1, 1, 0. unfold about_to_store in E0, E1. destruct (ps 0) as [| | | |q0 x0 k0]; try discriminate E0.
    destruct (ps 1) as [| | | |q1 x1 k1]; try discriminate E1. injection E0 as -> L0. injection E1 as -> L1. cbn [next_writes fst snd]. repeat split; auto; try lia.
Qed.
