(** Instruction sets. /repo/crates/vsimd/src/isa.rs *)
From Coq Require Import List Bool.
Import ListNotations.

(** [InstructionSetTypeId], isa.rs:19-27. *)
Inductive isa_id := IFallback | ISSE2 | ISSSE3 | ISSE41 | IAVX2 | INEON | IWASM128.

(** An instruction-set type together with the architecture it is compiled for.
    [NEON] behaves differently on arm ([NEON32]) and aarch64 ([NEON64]).
    The type parameter [S] of the generic functions is one of these. For every constructor
    [InstructionSet::ARCH] (isa.rs:5) is true: the code is compiled for the architecture. *)
Inductive isa := Fallback | SSE2 | SSSE3 | SSE41 | AVX2 | NEON32 | NEON64 | WASM128.

Definition id_of (s : isa) : isa_id :=
  match s with
  | Fallback => IFallback | SSE2 => ISSE2 | SSSE3 => ISSSE3 | SSE41 => ISSE41 | AVX2 => IAVX2
  | NEON32 | NEON64 => INEON | WASM128 => IWASM128
  end.

Definition id_eqb (a b : isa_id) : bool :=
  match a, b with
  | IFallback, IFallback | ISSE2, ISSE2 | ISSSE3, ISSSE3 | ISSE41, ISSE41
  | IAVX2, IAVX2 | INEON, INEON | IWASM128, IWASM128 => true
  | _, _ => false
  end.

(** isa.rs:32-52 [matches_isa_impl] (the [inherits] table, lines 41-49).
    The conjunct [S::ARCH && U::ARCH] is true for [S]; [U::ARCH] is implied by [inherits]
    except for [U = Fallback], whose ARCH is always true. *)
Definition inherits (self super : isa_id) : bool :=
  match self with
  | IFallback => existsb (id_eqb super) [IFallback]
  | ISSE2 => existsb (id_eqb super) [IFallback; ISSE2]
  | ISSSE3 => existsb (id_eqb super) [IFallback; ISSE2; ISSSE3]
  | ISSE41 => existsb (id_eqb super) [IFallback; ISSE2; ISSSE3; ISSE41]
  | IAVX2 => existsb (id_eqb super) [IFallback; ISSE2; ISSSE3; ISSE41; IAVX2]
  | INEON => existsb (id_eqb super) [IFallback; INEON]
  | IWASM128 => existsb (id_eqb super) [IFallback; IWASM128]
  end.

(** isa.rs:64-75 [matches_isa!(S, A | B | ...)]. *)
Definition matches_isa (s : isa) (us : list isa_id) : bool := existsb (inherits (id_of s)) us.

(** isa.rs:54-62 [is_isa_type!(S, U)]: exactly that type. *)
Definition is_isa_type (s : isa) (u : isa_id) : bool := id_eqb (id_of s) u.

(** [cfg!(target_arch = "arm")] / [cfg!(target_arch = "aarch64")]; only consulted after
    a match on NEON. *)
Definition arch_arm (s : isa) : bool := match s with NEON32 => true | _ => false end.
Definition arch_aarch64 (s : isa) : bool := match s with NEON64 => true | _ => false end.
(** [cfg(any(target_arch = "x86", target_arch = "x86_64"))] *)
Definition arch_x86 (s : isa) : bool :=
  match s with SSE2 | SSSE3 | SSE41 | AVX2 => true | _ => false end.

(** An arm [if matches_isa!(Self, us) { return v }] followed by the code [k]. *)
Definition arm {A} (s : isa) (us : list isa_id) (v : A) (k : option A) : option A :=
  if matches_isa s us then Some v else k.
