(** C87, continued: [from_ascii] of unicode-simd keeps to the rules of Tree Borrows. *)
From Coq Require Import ZArith List Bool Lia ZifyBool ZifyNat.
From Verif Require Import Bytes Mem MemFacts Slices Conc Isa Simd Unicode Borrows BorrowsApi BorrowsExt TreeBorrows TreeExt PropBorrows PropTree.
Import ListNotations.
Open Scope nat_scope. Open Scope m_scope. Open Scope borrow_scope.

Theorem C87_from_ascii : forall x64 s src, tree_view (fun r => r) (from_ascii_b x64 s) (from_ascii x64 s) src.
Proof. exact from_ascii_trees. Qed.
Print Assumptions C87_from_ascii.
(** "41" *)
Example C87_from_ascii_case : exists u s', tree_runs (from_ascii_b true Fallback (0, 0) 2 0) towner m41 (Some ((0, 0), 2), u) s' m41 /\
  tree_may_read s' (0, 0) 2 0 /\ tree_may_read s' (0, 0) 2 u /\ u <> 0.
Proof.
  assert (RD0 : tree_may_read towner (0, 0) 2 0) by (intros i Hi; discriminate).
  destruct (C87_from_ascii true Fallback _ m41 towner 0 0 0 m41_slice towner_ok ltac:(cbn; lia) RD0) as (r & u & s' & R & E & _ & RD & RT).
  vm_compute in E. injection E as <-. destruct RT as [[L _] RT]. cbn [tfresh towner] in L. exists u, s'. split; [exact R|]. split; [now apply RD; cbn; [lia|]|]. split; [exact RT|lia].
Qed.
