(** Threads that make several calls of public functions, one after the other. Definitions only.

    Which calls a thread makes, and with which contents of the slices, is a list that is fixed in advance. That is no
    restriction for a thread whose later calls depend on the results of earlier ones: what a call returns and delivers is
    determined by its arguments. *)
From Coq Require Import ZArith List Bool.
From Verif Require Import Dispatch.
From Verif Require Import Bytes Mem MemFacts Slices Isa Conc ConcApi Reify Whole.
Import ListNotations.
Open Scope nat_scope.

(** memory after the call [c], made in [m] *)
Definition after (m : mem) (c : call) (m' : mem) : Prop :=
  delivered m' c /\
  match c with
  | Into _ _ _ _ d e dlen _ => only_changed m d e dlen m'
  | InPlace _ data b o _ => only_changed m b o (length data) m'
  | Check _ _ _ _ _ => same_mem m m'
  end.
(** each slice is there when its call is made *)
Fixpoint can_make (m : mem) (cs : list call) : Prop :=
  match cs with [] => True | c :: r => ready m c /\ forall m', after m c m' -> can_make m' r end.
(** [m'] is a memory after all calls *)
Fixpoint made (m : mem) (cs : list call) (m' : mem) : Prop :=
  match cs with [] => same_mem m m' | c :: r => exists m1, after m c m1 /\ made m1 r m' end.

(** first [x], then [y] *)
Fixpoint xthen (x y : xprog) : xprog :=
  match x with
  | XDone => y
  | XFail f => XFail f
  | XSize b k => XSize b (fun n => xthen (k n) y)
  | XLoad q n k => XLoad q n (fun l => xthen (k l) y)
  | XStore q xs k => XStore q xs (xthen k y)
  | XAuto e k => XAuto e (fun s => xthen (k s) y)
  end.
Definition xseq (xs : list xprog) : xprog := fold_right xthen XDone xs.
(** [x] is a program for the call [f]: whatever the dispatcher chooses, it has the effect of the call and panics unless the
    call returns what it should, and it stores only to the allocation of its destination *)
Definition program_for (x : xprog) (f : (entry -> isa) -> call) : Prop :=
  (exists d, autos d x) /\
  forall pick, implements (erase pick x) (code (f pick)) /\ stores_in (target (f pick)) any (erase pick x).
Definition calls_with (pick : entry -> isa) (fs : list ((entry -> isa) -> call)) : list call := map (fun f => f pick) fs.
