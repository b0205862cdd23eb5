(** The addresses that a program accesses, in order (Conc.v). Definitions only; facts are in AccessFacts.v.
    Reads of the constant tables of the crates are not accesses of a program (Mem.v, [table_get]). *)
From Coq Require Import ZArith List Bool.
From Verif Require Import Bytes Mem MemFacts Conc.
Import ListNotations.
Open Scope nat_scope. Open Scope m_scope.

Inductive access := Reads (q : ptr) (n : nat) | Writes (q : ptr).
(** What [p] accesses when it is started in memory [m]. The access that goes wrong, if there is one, is the last. *)
Fixpoint trace {A} (p : prog A) (m : mem) : list access :=
  match p with
  | Done _ | Fail _ => []
  | Size b k => trace (k (length (m b))) m
  | Load q n k => Reads q n :: match load q n m with Ret l _ => trace (k l) m | _ => [] end
  | Store q xs k => Writes q :: match store q xs m with Ret _ m' => trace k m' | _ => [] end
  end.
(** allocations of the same sizes, with any contents *)
Definition same_sizes (m m' : mem) : Prop := forall b, length (m b) = length (m' b).
Definition initial_part (t t' : list access) : Prop := exists u, t' = t ++ u.

(** ** What the theorems of PropAccess.v say *)
(** [c] makes the accesses of [p], one for one (Conc.v, [follows]). In two runs of it on [similar] memories they are the same
    until one of the runs is over; and if the results of both are [good], they are the same to the end. *)
Definition fixed_pattern {A} (similar : mem -> mem -> Prop) (good : A -> Prop) (c : M A) : Prop :=
  exists p, follows c p /\ forall m m', similar m m' ->
    (initial_part (trace p m) (trace p m') \/ initial_part (trace p m') (trace p m)) /\
    forall a a' m1 m1', c m = Ret a m1 -> c m' = Ret a' m1' -> good a -> good a' -> trace p m = trace p m'.
Definition succeeds {A} (r : result A) : Prop := r <> Err.
(** Two texts of the same length, in allocations of the same sizes, with '=' at the same places among the last [k] bytes. *)
Definition same_padding (k : nat) (src : ptr) (n : nat) (m m' : mem) : Prop :=
  same_sizes m m' /\ exists x x', bytes_at m (fst src) (snd src) x /\ bytes_at m' (fst src) (snd src) x' /\ length x = n /\ length x' = n /\
    forall i, n - k <= i -> (nth i x 0%Z = 61%Z <-> nth i x' 0%Z = 61%Z).
