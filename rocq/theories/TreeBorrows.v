(** The other model of Rust's aliasing rules: Tree Borrows (N. Villani, J. Hostert, D. Dreyer, R. Jung, PLDI 2025), as Miri
    checks it with -Zmiri-tree-borrows. Each reference is a node of a tree, a child of the one it was made from; a raw pointer is the
    same node as what it was cast from. For each byte each node has a permission. An access through a node is an access "by a
    child" for the node and its ancestors and a "foreign" one for all others.
    The programs are those of BorrowsApi.v. Definitions only; facts are in TreeFacts.v. *)
From Coq Require Import ZArith List Bool.
From Verif Require Import Bytes Mem MemFacts Slices Codec Conc Borrows BorrowsApi.
Import ListNotations.
Open Scope nat_scope. Open Scope m_scope. Open Scope borrow_scope.

(** [conflicted]: another pointer has read while the node was protected. (No types with interior mutability.) *)
Inductive tperm := TReserved (conflicted : bool) | TActive | TFrozen | TDisabled.
(** the permissions of one byte, by tag; [None]: outside the range for which the reference was made. Miri makes up a permission
    there when it is needed; here such an access is not allowed. *)
Definition cell := nat -> option tperm.
(** [path t]: the tags of the node and its ancestors, itself first; [tfresh]: the next tag; [calls]: for each call that has not returned,
    innermost first, its parameters of reference type and their ranges *)
Record trees := { perms : nat -> nat -> cell; path : nat -> list nat; tfresh : nat; calls : list (list (nat * ptr * nat)) }.

(** ** One byte *)
Definition mem_of (t : nat) (l : list nat) : bool := existsb (Nat.eqb t) l.
(** the protected tags *)
Definition guarded (s : trees) : list nat := map (fun x => fst (fst x)) (concat (calls s)).
Definition alive (x : option tperm) : bool := match x with Some TDisabled | None => false | Some _ => true end.
Definition is_active (x : option tperm) : bool := match x with Some TActive => true | _ => false end.
(** may a write by the node itself or a child go ahead *)
Definition writable (prot : bool) (x : option tperm) : bool :=
  match x with Some TActive => true | Some (TReserved c) => negb (c && prot) | _ => false end.
Definition foreign_read (prot : bool) (x : option tperm) : option tperm :=
  match x with Some TActive => Some TFrozen | Some (TReserved c) => Some (TReserved (c || prot)) | _ => x end.
Definition foreign_write (x : option tperm) : option tperm := match x with None => None | Some _ => Some TDisabled end.
(** A read, a write, through the node with path [pt], when [pl] are protected; the nodes in [skip] take no notice.
    It is undefined behaviour to access through a disabled node or one with a disabled ancestor, to write through a frozen one, and to
    take its permission from a protected node. *)
Definition read_acc (pl pt : list nat) (skip : nat -> bool) (st : cell) : option cell :=
  if forallb (fun u => alive (st u)) pt && forallb (fun u => mem_of u pt || skip u || negb (is_active (st u))) pl
  then Some (fun u => if mem_of u pt || skip u then st u else foreign_read (mem_of u pl) (st u)) else None.
Definition write_acc (pl pt : list nat) (skip : nat -> bool) (st : cell) : option cell :=
  if forallb (fun u => writable (mem_of u pl) (st u)) pt && forallb (fun u => mem_of u pt || skip u || negb (alive (st u))) pl
  then Some (fun u => if mem_of u pt then Some TActive else if skip u then st u else foreign_write (st u)) else None.
Definition none_of (u : nat) : bool := false.

(** ** Ranges of bytes *)
Definition tacross (st : nat -> nat -> cell) (q : ptr) (n : nat) (f : cell -> option cell) : option (nat -> nat -> cell) :=
  if forallb (fun i => match f (st (fst q) (snd q + i)) with Some _ => true | None => false end) (seq 0 n) then
    Some (fun b' o' => if in_range (fst q) (snd q) n b' o'
                       then match f (st b' o') with Some s => s | None => st b' o' end else st b' o')
  else None.
Definition tput (s : trees) (o : option (nat -> nat -> cell)) : option trees :=
  match o with Some st => Some {| perms := st; path := path s; tfresh := tfresh s; calls := calls s |} | None => None end.
(** no access without a pointer *)
Definition tvia (s : trees) (f : nat -> cell -> option cell) (t : option nat) : cell -> option cell :=
  match t with Some t => if t <? tfresh s then f t else fun _ => None | None => fun _ => None end.
Definition tree_read (t : option nat) (q : ptr) (n : nat) (s : trees) : option trees :=
  tput s (tacross (perms s) q n (tvia s (fun t => read_acc (guarded s) (path s t) none_of) t)).
Definition tree_write (t : option nat) (q : ptr) (n : nat) (s : trees) : option trees :=
  tput s (tacross (perms s) q n (tvia s (fun t => write_acc (guarded s) (path s t) none_of) t)).
(** When a call returns its parameters are accessed once more, by a write where they have been written through, otherwise by a read;
    nodes made from the parameter take no notice. *)
Definition exit_acc (pl : list nat) (pth : nat -> list nat) (c : nat) (st : cell) : option cell :=
  let skip u := negb (u =? c) && mem_of c (pth u) in
  match st c with
  | None => Some st
  | Some TActive => write_acc pl (pth c) skip st
  | Some _ => read_acc pl (pth c) skip st
  end.
Fixpoint exits (l : list (nat * ptr * nat)) (s : trees) : option trees :=
  match l with
  | [] => Some s
  | (c, q, n) :: r => match tput s (tacross (perms s) q n (exit_acc (guarded s) (path s) c)) with Some s' => exits r s' | None => None end
  end.
(** A new reference is a read through what it is made from. A cast to a raw pointer changes nothing. *)
Definition fresh_perm (x : kind) : tperm := match x with MutRef => TReserved false | _ => TFrozen end.
Definition tperform (x : borrow) (s : trees) : option (nat * trees) :=
  match x with
  | Enter => Some (0, {| perms := perms s; path := path s; tfresh := tfresh s; calls := [] :: calls s |})
  | Leave => match calls s with
             | [] => None
             | fr :: r => match exits fr s with
                          | Some s' => Some (0, {| perms := perms s'; path := path s'; tfresh := tfresh s'; calls := r |})
                          | None => None
                          end
             end
  | Retag RawMut _ t _ _ | Retag RawConst _ t _ _ => Some (t, s)
  | Retag x param t q n =>
      let new := tfresh s in
      match tacross (perms s) q n (fun st => match tvia s (fun t => read_acc (guarded s) (path s t) none_of) (Some t) st with
                                             | Some st' => Some (fun u => if u =? new then Some (fresh_perm x) else st' u)
                                             | None => None end) with
      | Some st =>
          Some (new, {| perms := st; path := fun u => if u =? new then new :: path s t else path s u; tfresh := S new;
                        calls := match calls s with fr :: r => (if param then (new, q, n) :: fr else fr) :: r | [] => [] end |})
      | None => None
      end
  end.

(** ** Programs, as in Borrows.v *)
Fixpoint tree_run {A} (v : view) (p : prog A) (s : trees) (m : mem) : option (A * trees * mem) :=
  match p with
  | Done a => Some (a, s, m)
  | Fail _ => None
  | Size b k => tree_run v (k (length (m b))) s m
  | Load q n k =>
      match tree_read (v (fst q)) q n s with
      | None => None
      | Some s' => match load q n m with Ret l m' => tree_run v (k l) s' m' | _ => None end
      end
  | Store q xs k =>
      match tree_write (v (fst q)) q (length xs) s with
      | None => None
      | Some s' => match store q xs m with Ret _ m' => tree_run v k s' m' | _ => None end
      end
  end.
Inductive tree_runs : forall A : Type, bcode A -> trees -> mem -> A -> trees -> mem -> Prop :=
| truns_return A (a : A) s m : tree_runs A (Return a) s m a s m
| truns_borrow A x (k : nat -> bcode A) s m t s1 a s' m' :
    tperform x s = Some (t, s1) -> tree_runs A (k t) s1 m a s' m' -> tree_runs A (Borrow x k) s m a s' m'
| truns_exec A X v (c : M X) (k : X -> bcode A) p s m y s1 m1 a s' m' :
    follows c p -> tree_run v p s m = Some (y, s1, m1) -> tree_runs A (k y) s1 m1 a s' m' -> tree_runs A (Exec v c k) s m a s' m'.
Arguments tree_runs {A}.

(** ** What a caller relies on *)
(** The paths are those of a tree with tags below [tfresh]; protected tags and tags with a permission are below [tfresh]. *)
Definition tree_ok (s : trees) : Prop :=
  (forall t, t < tfresh s -> In t (path s t) /\ forall u, In u (path s t) -> u < tfresh s /\ incl (path s u) (path s t) /\
     forall v, In v (path s t) -> In u (path s v) \/ In v (path s u)) /\
  (forall u, In u (guarded s) -> u < tfresh s) /\
  (forall b o u, tfresh s <= u -> perms s b o u = None).
(** a read, a write through [t] is allowed *)
Definition tree_may_read (s : trees) (p : ptr) (n t : nat) : Prop :=
  forall i, i < n -> read_acc (guarded s) (path s t) none_of (perms s (fst p) (snd p + i)) <> None.
Definition tree_may_write (s : trees) (p : ptr) (n t : nat) : Prop :=
  forall i, i < n -> write_acc (guarded s) (path s t) none_of (perms s (fst p) (snd p + i)) <> None.
(** the permissions outside the two ranges are as they were, the old nodes are where they were, and no call is left running *)
Definition tree_leaves (s s' : trees) (p : ptr) (n : nat) (q : ptr) (k : nat) : Prop :=
  tree_ok s' /\ tfresh s <= tfresh s' /\ calls s' = calls s /\ (forall t, t < tfresh s -> path s' t = path s t) /\
  forall b o, in_range (fst p) (snd p) n b o = false -> in_range (fst q) (snd q) k b o = false -> perms s' b o = perms s b o.
(** the returned slice, if any, is a new reference, [u], that may be written through *)
Definition tree_returned (s s' : trees) (slice : option (ptr * nat)) (u : nat) : Prop :=
  match slice with Some (q, k) => tfresh s <= u < tfresh s' /\ tree_may_write s' q k u | None => True end.
(** As [borrows_into], [borrows_inplace] and [borrows_check]; the destination need only be writable. The caller may still use all
    pointers to the source that could read before. *)
Definition tree_into {A} (ret : A -> option (ptr * nat)) (x : ptr -> nat -> ptr -> nat -> nat -> nat -> bcode (A * nat))
    (f : ptr -> nat -> ptr -> nat -> M A) (src : list Z) (dlen : nat) : Prop :=
  forall m s b o d e ts td, slice m b o src -> room m d e dlen -> b <> d ->
    tree_ok s -> ts < tfresh s -> td < tfresh s -> tree_may_read s (b, o) (length src) ts -> tree_may_write s (d, e) dlen td ->
    exists r u s' m', tree_runs (x (b, o) (length src) (d, e) dlen ts td) s m (r, u) s' m' /\
      f (b, o) (length src) (d, e) dlen m = Ret r m' /\
      tree_leaves s s' (b, o) (length src) (d, e) dlen /\ tree_returned s s' (ret r) u /\
      (forall t, t < tfresh s -> tree_may_read s (b, o) (length src) t -> tree_may_read s' (b, o) (length src) t) /\
      tree_may_write s' (d, e) dlen td.
Definition tree_inplace {A} (ret : A -> option (ptr * nat)) (x : ptr -> nat -> nat -> bcode (A * nat))
    (f : ptr -> nat -> M A) (data : list Z) : Prop :=
  forall m s b o t, slice m b o data -> tree_ok s -> t < tfresh s -> tree_may_write s (b, o) (length data) t ->
    exists r u s' m', tree_runs (x (b, o) (length data) t) s m (r, u) s' m' /\ f (b, o) (length data) m = Ret r m' /\
      tree_leaves s s' (b, o) (length data) (b, o) (length data) /\ tree_returned s s' (ret r) u /\ tree_may_write s' (b, o) (length data) t.
Definition tree_check {A} (x : ptr -> nat -> nat -> bcode A) (f : ptr -> nat -> M A) (src : list Z) : Prop :=
  forall m s b o t, slice m b o src -> tree_ok s -> t < tfresh s -> tree_may_read s (b, o) (length src) t ->
    exists r s' m', tree_runs (x (b, o) (length src) t) s m r s' m' /\ f (b, o) (length src) m = Ret r m' /\
      tree_leaves s s' (b, o) (length src) (b, o) (length src) /\
      forall t, t < tfresh s -> tree_may_read s (b, o) (length src) t -> tree_may_read s' (b, o) (length src) t.
