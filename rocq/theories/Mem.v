(** Memory, and a small imperative monad with undefined behaviour, panics and fuel.

    Models the raw pointer operations used by the crates: [*const u8]/[*mut u8]
    [.add], [.sub], [read]/[write] (/repo/crates/vsimd/src/tools.rs:44-57),
    [read_unaligned], [write_unaligned], unaligned vector loads and stores.
    Definitions only; facts are in MemFacts.v. *)
From Coq Require Import ZArith List Bool.
From Verif Require Import Bytes.
Import ListNotations.

(** A memory cell holds a byte or is uninitialised ([MaybeUninit]). *)
Definition cell := option Z.
(** Memory: block number -> contents. A block is one allocation. *)
Definition mem := nat -> list cell.
(** Pointer: block and offset. *)
Definition ptr := (nat * nat)%type.

(** [null_mut()]: only ever passed to code that does not use it (WRITE = false). *)
Definition null : ptr := (0, 0)%nat.

Inductive res (A : Type) : Type :=
| Ret (a : A) (m : mem)
| UB                      (* out-of-bounds, uninitialised read, unreachable_unchecked *)
| Panic                   (* panic!, unreachable!, unimplemented!, failed assert/index *)
| OutOfFuel.              (* a model loop ran out of fuel: never happens (proved) *)
Arguments Ret {A}. Arguments UB {A}. Arguments Panic {A}. Arguments OutOfFuel {A}.

Definition M (A : Type) := mem -> res A.

Definition ret {A} (a : A) : M A := fun m => Ret a m.
Definition bind {A B} (c : M A) (f : A -> M B) : M B :=
  fun m => match c m with
           | Ret a m' => f a m'
           | UB => UB | Panic => Panic | OutOfFuel => OutOfFuel
           end.
Definition ub {A} : M A := fun _ => UB.
Definition panic {A} : M A := fun _ => Panic.
Definition out_of_fuel {A} : M A := fun _ => OutOfFuel.
(** A vsimd primitive without an arm for the instruction set ends in [unreachable!()]/[unimplemented!()]. *)
Definition lift {A} (o : option A) : M A := match o with Some a => ret a | None => panic end.

Declare Scope m_scope.
Notation "x <- c ;; d" := (bind c (fun x => d)) (at level 61, c at next level, right associativity) : m_scope.
Notation "' p <- c ;; d" := (bind c (fun p => d)) (at level 61, p pattern, c at next level, right associativity) : m_scope.
Notation "c ;;; d" := (bind c (fun _ => d)) (at level 61, right associativity) : m_scope.
Open Scope m_scope.

(** Rust [Result<T, Error>] (the error carries no information in these crates). *)
Inductive result (A : Type) : Type := Ok (a : A) | Err.
Arguments Ok {A}. Arguments Err {A}.

(** [p.add(k)]: must stay inside the allocation or one past its end. *)
Definition padd (p : ptr) (k : nat) : M ptr :=
  fun m => if (snd p + k <=? length (m (fst p)))%nat then Ret (fst p, snd p + k)%nat m else UB.

(** [p.sub(k)] *)
Definition psub (p : ptr) (k : nat) : M ptr :=
  fun m => if (k <=? snd p)%nat then Ret (fst p, snd p - k)%nat m else UB.

(** [a.offset_from(b)] on pointers into the same allocation. *)
Definition offset_from (a b : ptr) : M nat :=
  if (Nat.eqb (fst a) (fst b) && (snd b <=? snd a)%nat)%bool then ret (snd a - snd b)%nat else ub.

(** Read [k] bytes at [p]; all must be inside the block and initialised. *)
Definition load (p : ptr) (k : nat) : M (list Z) :=
  fun m => if (snd p + k <=? length (m (fst p)))%nat
           then match sequence (firstn k (skipn (snd p) (m (fst p)))) with
                | Some l => Ret l m
                | None => UB
                end
           else UB.

Definition upd (m : mem) (b : nat) (l : list cell) : mem :=
  fun b' => if Nat.eqb b' b then l else m b'.

Definition splice (l : list cell) (o : nat) (xs : list Z) : list cell :=
  firstn o l ++ map Some xs ++ skipn (o + length xs) l.

(** Write the bytes [xs] at [p]. *)
Definition store (p : ptr) (xs : list Z) : M unit :=
  fun m => if (snd p + length xs <=? length (m (fst p)))%nat
           then Ret tt (upd m (fst p) (splice (m (fst p)) (snd p) xs))
           else UB.

(** vsimd/tools.rs:44 [read(base, offset)]: one byte at [base.add(offset)]. *)
Definition read (p : ptr) (i : nat) : M Z :=
  q <- padd p i ;; l <- load q 1 ;; match l with [x] => ret x | _ => ub end.
(** vsimd/tools.rs:50 [write(base, offset, value)]. *)
Definition write (p : ptr) (i : nat) (x : Z) : M unit :=
  q <- padd p i ;; store q [x].

(** Read of a [&'static [u8; N]] table through a raw pointer: index must be in bounds. *)
Definition table_get (t : list Z) (i : Z) : M Z :=
  if (i <? 0)%Z then ub else
  match nth_error t (Z.to_nat i) with Some x => ret x | None => ub end.

(** [while cond { body }] with explicit fuel. *)
Fixpoint while_ {S} (fuel : nat) (cond : S -> bool) (body : S -> M S) (s : S) : M S :=
  match fuel with
  | O => out_of_fuel
  | Datatypes.S f => if cond s then s' <- body s ;; while_ f cond body s' else ret s
  end.

(** [while cond { body? }]: the body may leave the function with [Err]. *)
Fixpoint while_res {S} (fuel : nat) (cond : S -> bool) (body : S -> M (result S)) (s : S) : M (result S) :=
  match fuel with
  | O => out_of_fuel
  | Datatypes.S f =>
      if cond s then r <- body s ;; match r with Ok s' => while_res f cond body s' | Err => ret Err end
      else ret (Ok s)
  end.

(** [while cond { body }] where the body may [break] (second component [true]). *)
Fixpoint while_break {S} (fuel : nat) (cond : S -> bool) (body : S -> M (S * bool)) (s : S) : M S :=
  match fuel with
  | O => out_of_fuel
  | Datatypes.S f =>
      if cond s then r <- body s ;; if snd r then ret (fst r) else while_break f cond body (fst r)
      else ret s
  end.

(** Bounded counting loop [while i < n { body i; i += 1 }] with an accumulator. *)
Fixpoint for_ {S} (n : nat) (i : nat) (body : nat -> S -> M S) (s : S) : M S :=
  match n with
  | O => ret s
  | Datatypes.S n' => s' <- body i s ;; for_ n' (Datatypes.S i) body s'
  end.

(** Pointer comparison used as a pure loop condition on pointers of one block. *)
Definition plt (a b : ptr) : bool := (snd a <? snd b)%nat.

(** [f()?; k] *)
Definition try_ {A B} (c : M (result A)) (k : A -> M (result B)) : M (result B) :=
  r <- c ;; match r with Err => ret Err | Ok a => k a end.

(** [usize::MAX] for a pointer width of [bits] bits *)
Definition usize_max (bits : Z) : Z := (2 ^ bits - 1)%Z.
