(** Borrows.v when two slices may be parts of one allocation. There a piece of code accesses an allocation through one tag
    ([view]). Here the block of a pointer is a name for where the pointer comes from (the source or the destination); [g]
    says in which allocation that is, and may give the same allocation to two names. Definitions only. *)
From Coq Require Import ZArith List Bool.
From Verif Require Import Bytes Mem MemFacts Slices Conc Borrows BorrowsApi Rename.
Import ListNotations.
Open Scope nat_scope. Open Scope m_scope. Open Scope borrow_scope.

Definition borrow_at (g : nat -> nat) (x : borrow) : borrow := match x with Retag x param t q n => Retag x param t (place g q) n | _ => x end.
(** as [trun], with the accesses where [g] says *)
Fixpoint trun_at (g : nat -> nat) {A} (v : view) (p : prog A) (s : borrows) (m : mem) : option (A * borrows * mem) :=
  match p with
  | Done a => Some (a, s, m)
  | Fail _ => None
  | Size b k => trun_at g v (k (length (m (g b)))) s m
  | Load q n k =>
      match tread (v (fst q)) (place g q) n s with
      | None => None
      | Some s' => match load (place g q) n m with Ret l m' => trun_at g v (k l) s' m' | _ => None end
      end
  | Store q xs k =>
      match twrite (v (fst q)) (place g q) (length xs) s with
      | None => None
      | Some s' => match store (place g q) xs m with Ret _ m' => trun_at g v k s' m' | _ => None end
      end
  end.
(** as [runs] *)
Inductive runs_at (g : nat -> nat) : forall A : Type, bcode A -> borrows -> mem -> A -> borrows -> mem -> Prop :=
| runs_at_return A (a : A) s m : runs_at g A (Return a) s m a s m
| runs_at_borrow A x (k : nat -> bcode A) s m t s1 a s' m' :
    perform (borrow_at g x) s = Some (t, s1) -> runs_at g A (k t) s1 m a s' m' -> runs_at g A (Borrow x k) s m a s' m'
| runs_at_exec A X v (c : M X) (k : X -> bcode A) p s m y s1 m1 a s' m' :
    follows c p -> trun_at g v p s m = Some (y, s1, m1) -> runs_at g A (k y) s1 m1 a s' m' -> runs_at g A (Exec v c k) s m a s' m'.
Arguments runs_at g {A}.

(** the name [D] for the destination, in allocation [d]; other names stand for themselves *)
Definition named (D d : nat) : nat -> nat := fun x => if x =? D then d else x.
Definition placed (g : nat -> nat) (sl : option (ptr * nat)) : option (ptr * nat) := match sl with Some (q, k) => Some (place g q, k) | None => None end.
(** As [borrows_into] (BorrowsApi.v), with the source at ([b], [o]) and the destination at ([d], [e]) anywhere, if only they do
    not overlap. The result, and what is in the two slices in the end, is the same as that of [f] without borrows on a copy of
    the memory in which [D] is an allocation of its own. *)
Definition borrows_parts {A} (ret : A -> option (ptr * nat)) (x : ptr -> nat -> ptr -> nat -> nat -> nat -> bcode (A * nat))
    (f : ptr -> nat -> ptr -> nat -> M A) (src : list Z) (dlen : nat) : Prop :=
  forall m s b o d e ts td D, slice m b o src -> room m d e dlen -> separate b o (length src) d e dlen -> b <> D ->
    state_ok s -> ts < fresh s -> td < fresh s -> may_read s (b, o) (length src) ts -> on_top s (d, e) dlen td ->
    let g := named D d in
    exists r u s' m', runs_at g (x (b, o) (length src) (D, e) dlen ts td) s m (r, u) s' m' /\
      leaves s s' (b, o) (length src) (d, e) dlen /\ returned s s' (placed g (ret r)) u /\
      may_read s' (b, o) (length src) ts /\ may_write s' (d, e) dlen td /\
      (forall y i, in_range b o (length src) y i = false -> in_range d e dlen y i = false -> nth_error (m' y) i = nth_error (m y) i) /\
      exists m2, f (b, o) (length src) (D, e) dlen (fun y => m (g y)) = Ret r m2 /\
        (forall i, i < length src -> nth_error (m' b) (o + i) = nth_error (m2 b) (o + i)) /\
        (forall i, i < dlen -> nth_error (m' d) (e + i) = nth_error (m2 D) (e + i)).
