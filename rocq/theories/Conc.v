(** Programs that run at the same time on one memory.

    Mem.v describes a function by the effect of a whole call. Here a function is a [prog], a tree of single memory
    accesses, so that the accesses of several threads can be interleaved one by one. [run] gives the effect of the whole
    program in terms of Mem.v; [implements] compares the two.
    The order of accesses in a thread is the program order, and all threads see the stores in one common order. That is
    weaker than what real machines and compilers do, but programs without data races cannot tell the difference (this is
    the guarantee of the memory model of Rust), and the absence of data races is part of what is proved.
    Definitions only; facts are in ConcFacts.v. *)
From Coq Require Import ZArith List Bool.
From Verif Require Import Bytes Mem Slices.
Import ListNotations.
Open Scope nat_scope. Open Scope m_scope.

Inductive failure := Undefined | Panicked | NoFuel.
Inductive prog (A : Type) : Type :=
| Done (a : A)
| Fail (f : failure)
| Size (b : nat) (k : nat -> prog A)                  (* how large the allocation is (it never changes): for [padd] *)
| Load (q : ptr) (n : nat) (k : list Z -> prog A)
| Store (q : ptr) (xs : list Z) (k : prog A).
Arguments Done {A}. Arguments Fail {A}. Arguments Size {A}. Arguments Load {A}. Arguments Store {A}.

Fixpoint run {A} (p : prog A) : M A :=
  match p with
  | Done a => ret a
  | Fail Undefined => ub
  | Fail Panicked => panic
  | Fail NoFuel => out_of_fuel
  | Size b k => fun m => run (k (length (m b))) m
  | Load q n k => l <- load q n ;; run (k l)
  | Store q xs k => store q xs ;;; run k
  end.
Definition implements {A} (p : prog A) (c : M A) : Prop := forall m, run p m = c m.

(** ** One access *)
Definition next {A} (p : prog A) (m : mem) : option (prog A * mem) :=
  match p with
  | Done _ | Fail _ => None
  | Size b k => Some (k (length (m b)), m)
  | Load q n k => match load q n m with Ret l _ => Some (k l, m) | _ => None end
  | Store q xs k => match store q xs m with Ret _ m' => Some (k, m') | _ => None end
  end.
Definition next_reads {A} (p : prog A) (b o : nat) : Prop :=
  match p with Load q n _ => b = fst q /\ snd q <= o < snd q + n | _ => False end.
Definition next_writes {A} (p : prog A) (b o : nat) : Prop :=
  match p with Store q xs _ => b = fst q /\ snd q <= o < snd q + length xs | _ => False end.

(** ** [n] threads. In each step some thread, chosen by the scheduler, makes its next access. *)
Definition threads := nat -> prog unit.
Definition set_thread (ps : threads) (i : nat) (p : prog unit) : threads := fun j => if Nat.eqb j i then p else ps j.
(** [steps n k ps m ps' m']: [k] steps of the threads [0..n) lead from [ps], [m] to [ps'], [m'] *)
Inductive steps (n : nat) : nat -> threads -> mem -> threads -> mem -> Prop :=
| steps_none ps m : steps n 0 ps m ps m
| steps_more k ps m ps' m' i p m'' :
    steps n k ps m ps' m' -> i < n -> next (ps' i) m' = Some (p, m'') -> steps n (S k) ps m (set_thread ps' i p) m''.
(** Two threads are about to access the same byte, at least one to write it. *)
Definition race (n : nat) (ps : threads) : Prop :=
  exists i j b o, i < n /\ j < n /\ i <> j /\ next_writes (ps i) b o /\ (next_reads (ps j) b o \/ next_writes (ps j) b o).
(** A thread has panicked, or is about to access memory that it may not access. *)
Definition stuck (n : nat) (ps : threads) (m : mem) : Prop :=
  exists i, i < n /\ ps i <> Done tt /\ next (ps i) m = None.
Definition all_done (n : nat) (ps : threads) : Prop := forall i, i < n -> ps i = Done tt.
(** Whatever the scheduler does: no data race, nothing goes wrong, every execution can be continued until all threads are
    done, which is after [N] steps, and then [Q] holds. *)
Definition undisturbed (n : nat) (ps : threads) (m : mem) (Q : mem -> Prop) : Prop :=
  exists N, forall k ps' m', steps n k ps m ps' m' ->
    k <= N /\ ~ race n ps' /\ ~ stuck n ps' m' /\ (all_done n ps' <-> k = N) /\ (all_done n ps' -> Q m').

(** ** Writing programs *)
Fixpoint pbind {A B} (p : prog A) (f : A -> prog B) : prog B :=
  match p with
  | Done a => f a
  | Fail x => Fail x
  | Size b k => Size b (fun n => pbind (k n) f)
  | Load q n k => Load q n (fun l => pbind (k l) f)
  | Store q xs k => Store q xs (pbind k f)
  end.
Declare Scope prog_scope.
Notation "x <~ c ;; d" := (pbind c (fun x => d)) (at level 61, c at next level, right associativity) : prog_scope.
Notation "' p <~ c ;; d" := (pbind c (fun p => d)) (at level 61, p pattern, c at next level, right associativity) : prog_scope.
Notation "c ~;; d" := (pbind c (fun _ => d)) (at level 61, right associativity) : prog_scope.
Open Scope prog_scope.
(** the operations of Mem.v *)
Definition p_padd (p : ptr) (k : nat) : prog ptr :=
  Size (fst p) (fun n => if (snd p + k <=? n)%nat then Done (fst p, snd p + k) else Fail Undefined).
Definition p_psub (p : ptr) (k : nat) : prog ptr := if (k <=? snd p)%nat then Done (fst p, snd p - k) else Fail Undefined.
Definition p_load (p : ptr) (n : nat) : prog (list Z) := Load p n Done.
Definition p_store (p : ptr) (xs : list Z) : prog unit := Store p xs (Done tt).
Definition p_lift {A} (o : option A) : prog A := match o with Some a => Done a | None => Fail Panicked end.
Definition p_read (p : ptr) (i : nat) : prog Z :=
  q <~ p_padd p i ;; l <~ p_load q 1 ;; match l with [x] => Done x | _ => Fail Undefined end.
Definition p_write (p : ptr) (i : nat) (x : Z) : prog unit := q <~ p_padd p i ;; p_store q [x].
(** [follows c p]: [p] is [c] read as a program, access by access. The primitive operations of Mem.v become the operations
    above, and everything else is put together with [bind]; so [p] makes the accesses that the definition of [c] spells
    out, in that order. ([implements] compares effects only.) *)
Inductive follows : forall A : Type, M A -> prog A -> Prop :=
| fol_ret A (a : A) : follows A (ret a) (Done a)
| fol_ub A : follows A ub (Fail Undefined)
| fol_panic A : follows A panic (Fail Panicked)
| fol_fuel A : follows A out_of_fuel (Fail NoFuel)
| fol_padd p k : follows ptr (padd p k) (p_padd p k)
| fol_psub p k : follows ptr (psub p k) (p_psub p k)
| fol_load p n : follows (list Z) (load p n) (p_load p n)
| fol_store p xs : follows unit (store p xs) (p_store p xs)
| fol_bind A B (c : M A) (f : A -> M B) p k :
    follows A c p -> (forall a, follows B (f a) (k a)) -> follows B (bind c f) (pbind p k).
Arguments follows {A}.
Definition p_table_get (t : list Z) (i : Z) : prog Z :=
  if (i <? 0)%Z then Fail Undefined else match nth_error t (Z.to_nat i) with Some x => Done x | None => Fail Undefined end.
Fixpoint p_while {S} (fuel : nat) (cond : S -> bool) (body : S -> prog S) (s : S) : prog S :=
  match fuel with
  | O => Fail NoFuel
  | Datatypes.S f => if cond s then s' <~ body s ;; p_while f cond body s' else Done s
  end.
Fixpoint p_for {S} (n : nat) (i : nat) (body : nat -> S -> prog S) (s : S) : prog S :=
  match n with
  | O => Done s
  | Datatypes.S n' => s' <~ body i s ;; p_for n' (Datatypes.S i) body s'
  end.
(** every store of [p] goes to block [d], whatever the loads return; if it ends, [Q] holds of the result *)
Fixpoint stores_to (d : nat) {A} (Q : A -> Prop) (p : prog A) : Prop :=
  match p with
  | Done a => Q a
  | Fail _ => True
  | Size b k => forall n, stores_to d Q (k n)
  | Load q n k => forall l, stores_to d Q (k l)
  | Store q xs k => fst q = d /\ stores_to d Q k
  end.
