(** The allocating functions of BorrowsHeap.v under Tree Borrows (TreeBorrows.v).
    A new allocation is the root of a tree of its own. A [Box] is a reference like [&mut], as in BorrowsHeap.v. Memory is freed by a write to
    all of it through the pointer of its owner, and no parameter of a running function may point to it (stronger than what Miri
    asks for: there a parameter that has not been used does not count, nor does a box).
    Definitions only; facts are in TreeHeapFacts.v. *)
From Coq Require Import ZArith List Bool.
From Verif Require Import Bytes Mem MemFacts Slices Codec Conc Heap Borrows BorrowsApi BorrowsHeap TreeBorrows.
Import ListNotations.
Open Scope nat_scope. Open Scope m_scope. Open Scope borrow_scope.

(** [n] bytes are allocated at [b] *)
Definition tree_block (s : trees) (b n : nat) : trees :=
  {| perms := fun b' o => if b' =? b then fun u => if (u =? tfresh s) && (o <? n) then Some TActive else None else perms s b' o;
     path := fun u => if u =? tfresh s then [tfresh s] else path s u; tfresh := S (tfresh s); calls := calls s |}.
(** one byte may be freed through the node with path [pt] *)
Definition tree_may_free (pl pt : list nat) (st : cell) : bool :=
  match write_acc pl pt none_of st with
  | Some _ => forallb (fun u => match st u with None => true | Some _ => false end) pl
  | None => false
  end.
(** the [n] bytes at [b] are freed through [t] *)
Definition tree_release (s : trees) (b n t : nat) : option trees :=
  if (t <? tfresh s) && forallb (fun i => tree_may_free (guarded s) (path s t) (perms s b i)) (seq 0 n) then
    Some {| perms := fun b' o => if b' =? b then fun _ => None else perms s b' o; path := path s; tfresh := tfresh s; calls := calls s |}
  else None.

(** It runs without undefined behaviour; as [hruns] *)
Inductive tree_hruns : forall A : Type, hcode A -> trees -> mem -> A -> trees -> mem -> Prop :=
| thruns_return A (a : A) s m : tree_hruns A (HReturn a) s m a s m
| thruns_borrow A x (k : nat -> hcode A) s m t s1 a s' m' :
    tperform x s = Some (t, s1) -> tree_hruns A (k t) s1 m a s' m' -> tree_hruns A (HBorrow x k) s m a s' m'
| thruns_exec A X v (c : M X) (k : X -> hcode A) p s m y s1 m1 a s' m' :
    follows c p -> tree_run v p s m = Some (y, s1, m1) -> tree_hruns A (k y) s1 m1 a s' m' -> tree_hruns A (HExec v c k) s m a s' m'
| thruns_pure A X (c : M X) (k : X -> hcode A) s m y a s' m' :
    c m = Ret y m -> tree_hruns A (k y) s m a s' m' -> tree_hruns A (HPure c k) s m a s' m'
| thruns_alloc A M n (k : nat -> nat -> hcode A) s m b m1 a s' m' :
    alloc M n m = Ret b m1 -> tree_hruns A (k b (tfresh s)) (tree_block s b n) m1 a s' m' -> tree_hruns A (HAlloc M n k) s m a s' m'
| thruns_stay A M v n t (k : vec -> nat -> hcode A) s m a s' m' :
    v_len v + n <= length (m (v_block v)) -> tree_hruns A (k v t) s m a s' m' -> tree_hruns A (HGrow M v n t k) s m a s' m'
| thruns_move A M v n t (k : vec -> nat -> hcode A) s m w m1 s1 a s' m' :
    length (m (v_block v)) < v_len v + n -> reserve_exact M v n m = Ret w m1 ->
    tree_release s (v_block v) (length (m (v_block v))) t = Some s1 ->
    tree_hruns A (k w (tfresh s1)) (tree_block s1 (v_block w) (length (m1 (v_block w)))) m1 a s' m' -> tree_hruns A (HGrow M v n t k) s m a s' m'
| thruns_free A b t (k : hcode A) s m s1 m1 a s' m' :
    tree_release s b (length (m b)) t = Some s1 -> free b m = Ret tt m1 -> tree_hruns A k s1 m1 a s' m' -> tree_hruns A (HFree b t k) s m a s' m'.
Arguments tree_hruns {A}.

(** ** What a caller relies on *)
(** [t] may free the bytes, and write to them *)
Definition tree_owns (s : trees) (b n t : nat) : Prop :=
  t < tfresh s /\ forall i, i < n -> tree_may_free (guarded s) (path s t) (perms s b i) = true.
(** outside the source and the two blocks the permissions are as they were, the old nodes are where they were, and no call is left running *)
Definition tree_leaves_heap (s s' : trees) (p : ptr) (n b1 b2 : nat) : Prop :=
  tree_ok s' /\ tfresh s <= tfresh s' /\ calls s' = calls s /\ (forall t, t < tfresh s -> path s' t = path s t) /\
  forall b o, in_range (fst p) (snd p) n b o = false -> b <> b1 -> b <> b2 -> perms s' b o = perms s b o.
(** As [borrows_new] and [borrows_append]; all that is asked of the pointer of the vector is that it may free its memory. All
    pointers that could read the source before still may. *)
Definition tree_new {A} (ret : A -> option nat) (M : machine) (x : ptr -> nat -> nat -> hcode (A * nat)) (f : ptr -> nat -> Mem.M A) (src : list Z) : Prop :=
  forall m s b o ts, slice m b o src -> (Z.of_nat (length src) <= isize_limit M)%Z -> tree_ok s -> ts < tfresh s -> tree_may_read s (b, o) (length src) ts ->
    forall r m', f (b, o) (length src) m = Ret r m' ->
    exists u s', tree_hruns (x (b, o) (length src) ts) s m (r, u) s' m' /\
      tree_leaves_heap s s' (b, o) (length src) (new_block M) (new_block M) /\
      (forall t, t < tfresh s -> tree_may_read s (b, o) (length src) t -> tree_may_read s' (b, o) (length src) t) /\
      match ret r with
      | Some k => tfresh s <= u < tfresh s' /\ tree_owns s' k (length (m' k)) u /\ tree_may_write s' (k, 0) (length (m' k)) u
      | None => True
      end.
Definition tree_append {A} (ret : A -> vec) (M : machine) (x : ptr -> nat -> vec -> nat -> nat -> hcode (A * nat))
    (f : ptr -> nat -> vec -> Mem.M A) (src : list Z) : Prop :=
  forall m s b o v ts tv, slice m b o src -> (Z.of_nat (length src) <= isize_limit M)%Z -> b <> v_block v -> v_len v <= length (m (v_block v)) ->
    tree_ok s -> ts < tfresh s -> tree_may_read s (b, o) (length src) ts -> tree_owns s (v_block v) (length (m (v_block v))) tv ->
    forall r m', f (b, o) (length src) v m = Ret r m' ->
    exists u s', tree_hruns (x (b, o) (length src) v ts tv) s m (r, u) s' m' /\
      tree_leaves_heap s s' (b, o) (length src) (v_block v) (new_block M) /\
      (forall t, t < tfresh s -> tree_may_read s (b, o) (length src) t -> tree_may_read s' (b, o) (length src) t) /\
      tree_owns s' (v_block (ret r)) (length (m' (v_block (ret r)))) u.
