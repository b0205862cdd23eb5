(** Which pointers may be used when: references and raw pointers as in the Stacked Borrows model of Rust's aliasing rules
    (R. Jung, H.-H. Dang, J. Kang, D. Dreyer, POPL 2020, with the refinements of Miri: retags that only read disable
    [Unique] items instead of removing them; a cast to a mutable raw pointer is no access).
    Each byte of memory has a stack of items; each reference or raw pointer has a tag. An access through a pointer needs an
    item with its tag; what lies above that item and conflicts with the access is removed. It is undefined behaviour to
    access through a pointer whose item is gone, and to remove an item that belongs to a parameter of a running function.
    Definitions only; facts are in BorrowsFacts.v. *)
From Coq Require Import ZArith List Bool.
From Verif Require Import Bytes Mem Slices Conc.
Import ListNotations.
Open Scope nat_scope. Open Scope m_scope.

Inductive perm := Unique | SharedRW | SharedRO | Disabled.
(** [i_call]: the item belongs to a parameter of this call ("protector") *)
Record item := { i_perm : perm; i_tag : nat; i_call : option nat }.
(** top first *)
Definition stack := list item.
(** [stacks b o]: of the byte at offset [o] of allocation [b]; [fresh]: the next tag or call number; [active]: the calls
    that have not returned, innermost first *)
Record borrows := { stacks : nat -> nat -> stack; fresh : nat; active : list nat }.

(** ** One byte *)
Definition protected (act : list nat) (i : item) : bool :=
  match i_call i with Some c => existsb (Nat.eqb c) act | None => false end.
Definition grants (w : bool) (t : nat) (i : item) : bool :=
  (i_tag i =? t) && match i_perm i with Unique | SharedRW => true | SharedRO => negb w | Disabled => false end.
(** the topmost item that grants the access to tag [t], what is above it, and what is below it *)
Fixpoint locate (w : bool) (t : nat) (s : stack) : option (stack * item * stack) :=
  match s with
  | [] => None
  | i :: s' => if grants w t i then Some ([], i, s')
               else match locate w t s' with Some (above, g, below) => Some (i :: above, g, below) | None => None end
  end.
Definition is_unique (i : item) : bool := match i_perm i with Unique => true | _ => false end.
Definition is_shared_rw (i : item) : bool := match i_perm i with SharedRW => true | _ => false end.
Definition disable (i : item) : item :=
  if is_unique i then {| i_perm := Disabled; i_tag := i_tag i; i_call := i_call i |} else i.
(** a read through [t] *)
Definition read_at (act : list nat) (t : nat) (s : stack) : option stack :=
  match locate false t s with
  | None => None
  | Some (above, g, below) =>
      if existsb (fun i => is_unique i && protected act i) above then None else Some (map disable above ++ g :: below)
  end.
(** what a write through [g] removes of [above], and what it keeps: the [SharedRW] items directly above a [SharedRW] item *)
Fixpoint split_rw (above : stack) : stack * stack :=
  match above with
  | [] => ([], [])
  | i :: r => match split_rw r with
              | ([], k) => if is_shared_rw i then ([], i :: k) else ([i], k)
              | (p, k) => (i :: p, k)
              end
  end.
Definition split_above (g : item) (above : stack) : stack * stack := if is_shared_rw g then split_rw above else (above, []).
(** a write through [t] *)
Definition write_at (act : list nat) (t : nat) (s : stack) : option stack :=
  match locate true t s with
  | None => None
  | Some (above, g, below) =>
      let (p, k) := split_above g above in
      if existsb (protected act) p then None else Some (k ++ g :: below)
  end.
(** A new pointer [new] made from [t]: [&mut *t], [&*t], [t as *mut], [t as *const] *)
Inductive kind := MutRef | SharedRef | RawMut | RawConst.
Definition retag_at (act : list nat) (x : kind) (call : option nat) (t new : nat) (s : stack) : option stack :=
  match x with
  | MutRef => match write_at act t s with
              | Some s' => Some ({| i_perm := Unique; i_tag := new; i_call := call |} :: s') | None => None end
  | SharedRef | RawConst =>
      match read_at act t s with
      | Some s' => Some ({| i_perm := SharedRO; i_tag := new; i_call := call |} :: s') | None => None end
  | RawMut => match locate true t s with
              | None => None
              | Some (above, g, below) =>
                  let (p, k) := split_above g above in
                  Some (p ++ {| i_perm := SharedRW; i_tag := new; i_call := call |} :: k ++ g :: below)
              end
  end.

(** ** Ranges of bytes *)
Definition in_range (b o n b' o' : nat) : bool := (b' =? b) && (o <=? o') && (o' <? o + n).
Definition across (st : nat -> nat -> stack) (q : ptr) (n : nat) (f : stack -> option stack) : option (nat -> nat -> stack) :=
  if forallb (fun i => match f (st (fst q) (snd q + i)) with Some _ => true | None => false end) (seq 0 n) then
    Some (fun b' o' => if in_range (fst q) (snd q) n b' o'
                       then match f (st b' o') with Some s => s | None => [] end else st b' o')
  else None.
Definition put (s : borrows) (o : option (nat -> nat -> stack)) : option borrows :=
  match o with Some st => Some {| stacks := st; fresh := fresh s; active := active s |} | None => None end.
(** an access through tag [t] ([None]: there is no pointer; then only an access to no bytes is allowed) *)
Definition via (f : nat -> stack -> option stack) (t : option nat) : stack -> option stack :=
  match t with Some t => f t | None => fun _ => None end.
Definition tread (t : option nat) (q : ptr) (n : nat) (s : borrows) : option borrows :=
  put s (across (stacks s) q n (via (read_at (active s)) t)).
Definition twrite (t : option nat) (q : ptr) (n : nat) (s : borrows) : option borrows :=
  put s (across (stacks s) q n (via (write_at (active s)) t)).
(** Calls begin and end; pointers are made. [param]: the new pointer is a parameter of the call that has just begun. *)
Inductive borrow := Enter | Leave | Retag (x : kind) (param : bool) (t : nat) (q : ptr) (n : nat).
Definition perform (x : borrow) (s : borrows) : option (nat * borrows) :=
  match x with
  | Enter => Some (fresh s, {| stacks := stacks s; fresh := S (fresh s); active := fresh s :: active s |})
  | Leave => match active s with
             | [] => None
             | _ :: r => Some (0, {| stacks := stacks s; fresh := fresh s; active := r |})
             end
  | Retag x param t q n =>
      match across (stacks s) q n (retag_at (active s) x (if param then hd_error (active s) else None) t (fresh s)) with
      | Some st => Some (fresh s, {| stacks := st; fresh := S (fresh s); active := active s |})
      | None => None
      end
  end.

(** ** Programs
    [view]: the pointer through which a piece of code accesses an allocation *)
Definition view := nat -> option nat.
Definition via1 (b t : nat) : view := fun x => if x =? b then Some t else None.
Definition via2 (b t b' t' : nat) : view := fun x => if x =? b then Some t else if x =? b' then Some t' else None.
Fixpoint trun {A} (v : view) (p : prog A) (s : borrows) (m : mem) : option (A * borrows * mem) :=
  match p with
  | Done a => Some (a, s, m)
  | Fail _ => None
  | Size b k => trun v (k (length (m b))) s m
  | Load q n k =>
      match tread (v (fst q)) q n s with
      | None => None
      | Some s' => match load q n m with Ret l m' => trun v (k l) s' m' | _ => None end
      end
  | Store q xs k =>
      match twrite (v (fst q)) q (length xs) s with
      | None => None
      | Some s' => match store q xs m with Ret _ m' => trun v k s' m' | _ => None end
      end
  end.
(** A function as a sequence of pieces of code of the model, each with its view, and of the borrows between them *)
Inductive bcode (A : Type) : Type :=
| Return (a : A)
| Borrow (x : borrow) (k : nat -> bcode A)
| Exec (X : Type) (v : view) (c : M X) (k : X -> bcode A).
Arguments Return {A}. Arguments Borrow {A}. Arguments Exec {A X}.
(** Without the borrows, [x] is [c]; [f] takes the tags out of the result. *)
Fixpoint annotates {A B} (f : A -> B) (x : bcode A) (c : M B) : Prop :=
  match x with
  | Return a => forall m, c m = Ret (f a) m
  | Borrow _ k => forall t, annotates f (k t) c
  | Exec _ c0 k => exists g, (forall m, c m = bind c0 g m) /\ forall y, annotates f (k y) (g y)
  end.
(** It runs without undefined behaviour: each piece of code makes the accesses of a program that [follows] it (Conc.v), and
    each of them, and each borrow, is allowed. *)
Inductive runs : forall A : Type, bcode A -> borrows -> mem -> A -> borrows -> mem -> Prop :=
| runs_return A (a : A) s m : runs A (Return a) s m a s m
| runs_borrow A x (k : nat -> bcode A) s m t s1 a s' m' :
    perform x s = Some (t, s1) -> runs A (k t) s1 m a s' m' -> runs A (Borrow x k) s m a s' m'
| runs_exec A X v (c : M X) (k : X -> bcode A) p s m y s1 m1 a s' m' :
    follows c p -> trun v p s m = Some (y, s1, m1) -> runs A (k y) s1 m1 a s' m' -> runs A (Exec v c k) s m a s' m'.
Arguments runs {A}.

(** ** Putting functions together *)
Fixpoint bbind {A B} (x : bcode A) (f : A -> bcode B) : bcode B :=
  match x with
  | Return a => f a
  | Borrow y k => Borrow y (fun t => bbind (k t) f)
  | Exec v c k => Exec v c (fun y => bbind (k y) f)
  end.
Declare Scope borrow_scope.
Notation "x <== c ;; d" := (bbind c (fun x => d)) (at level 61, c at next level, right associativity) : borrow_scope.
Notation "c ;=; d" := (bbind c (fun _ => d)) (at level 61, right associativity) : borrow_scope.
Open Scope borrow_scope.
Definition do_ (x : borrow) : bcode nat := Borrow x (fun t => Return t).
Definition exec {X} (v : view) (c : M X) : bcode X := Exec v c (fun y => Return y).
Definition fn {A} (body : bcode A) : bcode A := Borrow Enter (fun _ => bbind body (fun a => Borrow Leave (fun _ => Return a))).
