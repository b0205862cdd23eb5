(** Where a call reads and writes, also when the source and the destination are parts of one allocation (as after
    [split_at_mut]). Definitions only; facts are in RenameFacts.v, the theorems in PropReach.v. *)
From Coq Require Import ZArith List Bool.
From Verif Require Import Bytes Mem MemFacts Slices Codec Conc ConcApi.
Import ListNotations.
Open Scope nat_scope. Open Scope m_scope.

(** What [p] accesses when it is started in memory [m], with sizes, in order. The access that goes wrong, if there is one, is the last. *)
Inductive touch := Reads (q : ptr) (n : nat) | Writes (q : ptr) (n : nat).
Fixpoint touches {A} (p : prog A) (m : mem) : list touch :=
  match p with
  | Done _ | Fail _ => []
  | Size b k => touches (k (length (m b))) m
  | Load q n k => Reads q n :: match load q n m with Ret l _ => touches (k l) m | _ => [] end
  | Store q xs k => Writes q (length xs) :: match store q xs m with Ret _ m' => touches k m' | _ => [] end
  end.

(** The [k] bytes at [q] are among the [n] bytes at ([b], [o]). *)
Definition inside (b o n : nat) (q : ptr) (k : nat) : Prop := forall i, i < k -> fst q = b /\ o <= snd q + i < o + n.
(** An access that lies in one of the buffers of the call (and not across both); a write lies in the buffer that is to be written *)
Definition allowed (c : call) (t : touch) : Prop :=
  match c, t with
  | Into _ src b o d e dlen _, Reads q n => inside b o (length src) q n \/ inside d e dlen q n
  | Into _ _ _ _ d e dlen _, Writes q n => inside d e dlen q n
  | InPlace _ data b o _, Reads q n | InPlace _ data b o _, Writes q n => inside b o (length data) q n
  | Check _ src b o _, Reads q n => inside b o (length src) q n
  | Check _ _ _ _ _, Writes _ _ => False
  end.
(** All accesses of [p] are such accesses, wherever the two buffers are. *)
Definition keeps_to (c : call) (p : prog unit) : Prop := forall m, ready m c -> Forall (allowed c) (touches p m).
(** The cells that the call may write: the destination, and nothing of the source even if it is in the same allocation (compare [writes] in ConcApi.v) *)
Definition changes (c : call) (b' o' : nat) : bool :=
  match c with
  | Into _ _ _ _ d e dlen _ => within d e dlen b' o'
  | InPlace _ data b o _ => within b o (length data) b' o'
  | Check _ _ _ _ _ => false
  end.
