(** Property theorems for the threads of [par_encode] (C69): the memory accesses of the jobs interleaved one by one.

    [ps i] is any program that, run alone, has the effect of job [i]: whatever single accesses it makes, in whatever sizes
    and order. C69_jobs_as_programs gives the one that follows the source text. [undisturbed n ps m Q] (Conc.v) says that
    in every interleaving of the [n] threads there is no data race and no invalid access, all of them end, and then the
    memory satisfies [Q]. *)
From Coq Require Import ZArith List Bool Lia String.
From Verif Require Import Bytes Mem MemFacts Slices Codec Isa Simd Spec Base64 Base64Ref Base64Api Parallel ParallelFacts
  Conc ConcFacts ConcBase64 ConcBase64Facts.
Import ListNotations.
Open Scope list_scope. Open Scope nat_scope.

(** C69 *)
Theorem C69_par_encode_interleaved : forall s cfg src p ps m b o d e dlen,
  (forall i, b64_isa (s i)) -> 0 < p ->
  slice m b o src -> room m d e dlen -> separate b o (length src) d e dlen -> length (b64_rfc cfg src) <= dlen ->
  let chunks := (length src / 3 + p) / p in
  let n := b64_par_jobs p (length src) (b64_encoded_length_unchecked (length src) cfg) in
  (forall i, i < n -> implements (ps i) (b64_par_job s cfg (b, o) (length src) (d, e) chunks i)) ->
  undisturbed n ps m (fun m' => bytes_at m' d e (b64_rfc cfg src) /\ only_changed m d e (length (b64_rfc cfg src)) m').
Proof.
  intros s cfg src p ps m b o d e dlen Hs P SL R SEP L chunks n HP.
  assert (C : 0 < chunks). { unfold chunks. apply Nat.div_str_pos. lia. }
  assert (E : n = chunk_count (length src) (chunks * 3)).
  { unfold n, b64_par_jobs. fold chunks. rewrite counts_agree by exact C. apply Nat.min_id. }
  rewrite E in *. apply (jobs_interleave s cfg src chunks ps m b o d e); auto.
  - unfold room in *. lia.
  - unfold separate in *. lia.
Qed.
Print Assumptions C69_par_encode_interleaved.
(** The code of job [i] is such a program, and all its stores go to the allocation of the destination: the source, if it
    is another one, is only read. *)
Theorem C69_jobs_as_programs : forall s cfg src slen dst chunks i,
  implements (p_par_job s cfg src slen dst chunks i) (b64_par_job s cfg src slen dst chunks i) /\
  stores_to (fst dst) (fun _ => True) (p_par_job s cfg src slen dst chunks i).
Proof. intros. split; [apply imp_job|now apply st_job]. Qed.
Print Assumptions C69_jobs_as_programs.
(** The general fact: threads that only write what no other thread accesses run as if they were alone. [F i] are the
    cells that thread [i] accesses, [W i] those it writes; [m1 i] is what it leaves behind when it runs alone on its own
    cells. *)
Theorem C69_separate_threads : forall n F W m1 ps m, separated n F W ->
  (forall i, i < n -> exists k mm, masked (F i) m mm /\ solo (W i) k (ps i) mm tt (m1 i)) ->
  undisturbed n ps m (final n F W m1 m).
Proof. exact interleave. Qed.
Print Assumptions C69_separate_threads.

(** ** Examples *)
(** a scheduler: [order] says which thread is next *)
Fixpoint schedule_run (order : list nat) (ps : threads) (m : mem) : option (threads * mem) :=
  match order with
  | [] => Some (ps, m)
  | i :: r => match next (ps i) m with Some (p, m') => schedule_run r (set_thread ps i p) m' | None => None end
  end.
Lemma schedule_steps n order : forall ps m ps' m', (forall i, In i order -> i < n) -> schedule_run order ps m = Some (ps', m') ->
  steps n (length order) ps m ps' m'.
Proof.
  induction order as [|i r IH] using rev_ind; intros ps m ps' m' Hi E; [injection E as <- <-; constructor|].
  assert (G : exists ps1 m1, schedule_run r ps m = Some (ps1, m1) /\ schedule_run [i] ps1 m1 = Some (ps', m')).
  { clear IH Hi. revert ps m E. induction r as [|j r IH]; intros ps m E; [exists ps, m; auto|]. cbn [app schedule_run] in *.
    destruct (next (ps j) m) as [[p m2]|]; [|discriminate E]. now apply IH. }
  destruct G as (ps1 & m1 & E1 & E2). cbn [schedule_run] in E2. destruct (next (ps1 i) m1) as [[p m2]|] eqn:EN; [|discriminate E2].
  injection E2 as <- <-. rewrite app_length, Nat.add_1_r. apply steps_more with (m' := m1); auto.
  - apply IH; auto. intros j Hj. apply Hi, in_or_app. now left.
  - apply Hi, in_or_app. right. now left.
Qed.
(** "Hello, world!!" by three threads, one access each in turn *)
Definition hello := str "Hello, world!!"%string.
Definition hello_mem := mem_of [cells hello; uninit 21].
Definition hello_jobs : threads :=
  fun i => p_par_job (fun i => nth i [Fallback; AVX2; SSE41] Fallback) STANDARD (0, 0) 14 (1, 0) 2 i.
Definition turns : list nat := List.concat (repeat [0; 1; 2] 15) ++ List.concat (repeat [1; 0] 20).
Definition is_done (p : prog unit) : bool := match p with Done _ => true | _ => false end.
Example C69_n : b64_par_jobs 3 14 (b64_encoded_length_unchecked 14 STANDARD) = 3 /\ (14 / 3 + 3) / 3 = 2.
Proof. vm_compute. auto. Qed.
Example C69_run : exists ps' m', steps 3 85 hello_jobs hello_mem ps' m' /\ all_done 3 ps' /\
  m' 1 = cells (str "SGVsbG8sIHdvcmxkISE="%string) ++ uninit 1.
Proof.
  assert (E : match schedule_run turns hello_jobs hello_mem with
              | Some (ps', m') => Some (map (fun i => is_done (ps' i)) [0; 1; 2], m' 1)
              | None => None
              end = Some ([true; true; true], cells (str "SGVsbG8sIHdvcmxkISE="%string) ++ uninit 1)) by (vm_compute; reflexivity).
  destruct (schedule_run turns hello_jobs hello_mem) as [[ps' m']|] eqn:R; [|discriminate E]. exists ps', m'.
  split; [|split].
  - apply (schedule_steps 3 turns); [|exact R]. intros i Hi.
    assert (F : forallb (fun i => i <? 3) turns = true) by (vm_compute; reflexivity). rewrite forallb_forall in F. now apply Nat.ltb_lt, F.
  - assert (D : map (fun i => is_done (ps' i)) [0; 1; 2] = [true; true; true]) by congruence. cbn [map] in D. injection D as D0 D1 D2.
    intros i Hi. assert (G : is_done (ps' i) = true) by (destruct i as [|[|[|i]]]; [exact D0|exact D1|exact D2|lia]).
    destruct (ps' i) as [[]| | | |]; (reflexivity || discriminate G).
  - congruence.
Qed.
(** two threads that write the same byte are a race *)
Example C69_race : race 2 (fun i => Store (0, 0) [Z.of_nat i] (Done tt)).
Proof. exists 0, 1, 0, 0. cbn. repeat split; auto; lia. Qed.
Example C69_not_race : ~ race 2 (fun i => Store (0, i) [5%Z] (Done tt)).
Proof. intros (i & j & b & o & Hi & Hj & N & [E1 H1] & [[]|[E2 H2]]). cbn in *. lia. Qed.
