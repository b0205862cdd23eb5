(** The functions of uuid-simd/src/ext.rs and [from_ascii] of unicode-simd with the references they make (Borrows.v,
    BorrowsHeap.v). Paths are under /repo/crates. Without the borrows they are the functions of Public.v and Unicode.v.
    A local variable is a new allocation that is freed on return. Definitions only. *)
From Coq Require Import ZArith List Bool.
From Verif Require Import Bytes Mem MemFacts Slices Isa Simd Ints Hex Uuid Unicode Heap Public Conc Borrows BorrowsApi BorrowsHeap.
Import ListNotations.
Open Scope nat_scope. Open Scope m_scope. Open Scope borrow_scope. Open Scope heap_scope.

(** ** uuid-simd/src/ext.rs *)
(** 50 [parse_uuid]. [MaybeUninit::as_mut_ptr] makes the same references as that of slices; [Out::new] makes none;
    [assume_init] reads the variable itself. *)
Definition parse_uuid_b (M : machine) (x : ptr -> nat -> ptr -> nat -> nat -> bcode (result (ptr * nat) * nat)) (p : ptr) (n ts : nat) : hcode (result (list Z) * nat) :=
  hfn (ts <~ lift (shared_param p n ts) ;;
       a <~ halloc M 16 ;;
       td <~ lift (as_mut_ptr (at_start (fst a)) 16 (snd a)) ;;
       r <~ lift (x p n (at_start (fst a)) ts td) ;;
       match fst r with
       | Err => hfree (fst a) (snd a) ;~; HReturn (Err, 0)
       | Ok _ => u <~ hexec (via1 (fst a) (snd a)) (load (at_start (fst a)) 16) ;; hfree (fst a) (snd a) ;~; HReturn (Ok u, 0)
       end).
(** 62 [UuidExt::parse], 67 [parse_simple], 72 [parse_hyphenated]; [src.as_ref()] is left to the caller *)
Definition ext_parse_b (M : machine) (s1 s2 : isa) := parse_uuid_b M (uuid_parse_b s1 s2).
Definition ext_parse_simple_b (M : machine) (s : isa) := parse_uuid_b M (uuid_parse_simple_b s).
Definition ext_parse_hyphenated_b (M : machine) (s : isa) := parse_uuid_b M (uuid_parse_hyphenated_b s).

(** [Uuid::as_bytes] (crate uuid): [&self.0] *)
Definition as_bytes (p : ptr) (t : nat) : bcode nat := fn (t <== shared_param p 16 t ;; reborrow p 16 t).
(** [MaybeUninit::as_out(&mut self)] (crate outref): [Out::new(self.as_mut_ptr())] *)
Definition as_out (q : ptr) (k t : nat) : bcode nat := u <== reborrow_mut q k t ;; fn (u <== mut_param q k u ;; as_mut_ptr q k u).
(** [core::str::from_utf8_unchecked(v)] *)
Definition from_utf8_unchecked (q : ptr) (k t : nat) : bcode nat := fn (shared_param q k t).
(** 99 [format_uuid]; [g] has the string as parameter and reads it *)
Definition format_uuid_b {R} (M : machine) (N : nat) (x : ptr -> ptr -> nat -> nat -> bcode ((ptr * nat) * nat)) (g : list Z -> R) (p : ptr) (ts : nat) : hcode (R * nat) :=
  hfn (ts <~ lift (shared_param p 16 ts) ;;
       a <~ halloc M N ;;
       ts <~ lift (as_bytes p ts) ;;
       td <~ lift (as_out (at_start (fst a)) N (snd a)) ;;
       r <~ lift (x p (at_start (fst a)) ts td) ;;
       let q := fst (fst r) in
       let k := snd (fst r) in
       t <~ lift (reborrow q k (snd r)) ;;
       t <~ lift (from_utf8_unchecked q k t) ;;
       str <~ hfn (t <~ lift (shared_param q k t) ;; hexec (via1 (fst q) t) (load q k)) ;;
       hpure (if forallb (fun c => c <? 128)%Z str then ret tt else ub) ;~;
       hfree (fst a) (snd a) ;~; HReturn (g str, 0)).
(** 112 and 132 (simple), 120 and 140 (hyphenated); [Display] is [LowerHex] *)
Definition simple_hex_b {R} (M : machine) (s : isa) (case : ascii_case) (g : list Z -> R) := format_uuid_b M 32 (uuid_format_simple_b s case) g.
Definition hyphenated_hex_b {R} (M : machine) (s : isa) (case : ascii_case) (g : list Z -> R) := format_uuid_b M 36 (uuid_format_hyphenated_b s case) g.

(** ** unicode-simd/src/lib.rs:52 [from_ascii]; the returned string is made from the parameter *)
Definition from_ascii_b (x64 : bool) (s : isa) (p : ptr) (n ts : nat) : bcode (option (ptr * nat) * nat) :=
  fn (ts <== shared_param p n ts ;;
      u <== reborrow p n ts ;;
      b <== is_ascii_b x64 s p n u ;;
      if b : bool then u <== from_utf8_unchecked p n ts ;; Return (Some (p, n), u) else Return (None, 0)).
(** [f(&src)] returns a reference, if any, that may be read through, as may the pointer to the source *)
Definition borrows_view {A} (ret : A -> option (ptr * nat)) (x : ptr -> nat -> nat -> bcode (A * nat)) (f : ptr -> nat -> M A) (src : list Z) : Prop :=
  forall m s b o t, slice m b o src -> state_ok s -> t < fresh s -> may_read s (b, o) (length src) t ->
    exists r u s', runs (x (b, o) (length src) t) s m (r, u) s' m /\ f (b, o) (length src) m = Ret r m /\
      leaves s s' (b, o) (length src) (b, o) (length src) /\ may_read s' (b, o) (length src) t /\
      match ret r with Some (q, k) => fresh s <= u < fresh s' /\ may_read s' q k u | None => True end.
