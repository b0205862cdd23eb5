(** The allocating functions with the references and raw pointers they make (Borrows.v): vsimd/src/tools.rs, the three heap.rs
    files and [forgiving_decode_to_vec]. Paths are under /repo/crates. Without the borrows they are the functions of Heap.v
    and Public.v.

    A new allocation gets a new tag, the only one that may access it. A [Box] is a unique pointer like [&mut]: it gets a new
    tag when it is made from a raw pointer and when it is passed to a function, and is then protected like a [&mut]
    parameter (stronger than what Rust asks for: a box may be freed by the function it was passed to). The pointer in a [Vec]
    or [String] is a raw pointer. Memory is freed through the pointer of its owner, which must be allowed to write all of
    it, and no item of a parameter of a running function may be left.
    Not modelled: the references to the [Box], [Vec] and [String] themselves (their pointers and lengths are not in the memory
    of the model); what a panic does on the way out.
    Definitions only; facts are in BorrowsHeapFacts.v. *)
From Coq Require Import ZArith List Bool.
From Verif Require Import Bytes Mem MemFacts Slices Isa Simd Ints Hex Base64 Base32 Forgiving Heap Public Conc Borrows BorrowsApi.
Import ListNotations.
Open Scope nat_scope. Open Scope m_scope. Open Scope borrow_scope.

(** ** Allocations *)
(** [n] bytes are allocated at [b]: the new tag may access them *)
Definition fresh_block (s : borrows) (b n : nat) : borrows :=
  {| stacks := fun b' o => if b' =? b then (if o <? n then [{| i_perm := SharedRW; i_tag := fresh s; i_call := None |}] else [])
                           else stacks s b' o;
     fresh := S (fresh s); active := active s |}.
(** one byte may be freed through [t] *)
Definition may_free (act : list nat) (t : nat) (st : stack) : bool :=
  match locate true t st with Some _ => negb (existsb (protected act) st) | None => false end.
(** the [n] bytes at [b] are freed through [t] *)
Definition release (s : borrows) (b n t : nat) : option borrows :=
  if forallb (fun i => may_free (active s) t (stacks s b i)) (seq 0 n) then
    Some {| stacks := fun b' o => if b' =? b then [] else stacks s b' o; fresh := fresh s; active := active s |}
  else None.

(** ** Functions that allocate
    [HPure]: code that accesses no memory, or where the model only asks that memory is initialised ([assume_init],
    [boxed_str], [set_len]). [HGrow v n t]: [v.reserve_exact(n)] where [t] is the tag of the vector's pointer; if it
    reallocates, the old bytes are freed through [t] and there is a new tag. *)
Inductive hcode (A : Type) : Type :=
| HReturn (a : A)
| HBorrow (x : borrow) (k : nat -> hcode A)
| HExec (X : Type) (v : view) (c : M X) (k : X -> hcode A)
| HPure (X : Type) (c : M X) (k : X -> hcode A)
| HAlloc (M : machine) (n : nat) (k : nat -> nat -> hcode A)
| HGrow (M : machine) (v : vec) (n t : nat) (k : vec -> nat -> hcode A)
| HFree (b t : nat) (k : hcode A).
Arguments HReturn {A}. Arguments HBorrow {A}. Arguments HExec {A X}. Arguments HPure {A X}.
Arguments HAlloc {A}. Arguments HGrow {A}. Arguments HFree {A}.
(** Without the borrows, [x] is [c]; [f] takes the tags out of the result. *)
Fixpoint hannotates {A B} (f : A -> B) (x : hcode A) (c : M B) : Prop :=
  match x with
  | HReturn a => forall m, c m = Ret (f a) m
  | HBorrow _ k => forall t, hannotates f (k t) c
  | HExec _ c0 k => exists g, (forall m, c m = bind c0 g m) /\ forall y, hannotates f (k y) (g y)
  | HPure c0 k => exists g, (forall m, c m = bind c0 g m) /\ forall y, hannotates f (k y) (g y)
  | HAlloc M n k => exists g, (forall m, c m = bind (alloc M n) g m) /\ forall b t, hannotates f (k b t) (g b)
  | HGrow M v n _ k => exists g, (forall m, c m = bind (reserve_exact M v n) g m) /\ forall w t, hannotates f (k w t) (g w)
  | HFree b _ k => exists c', (forall m, c m = bind (free b) (fun _ => c') m) /\ hannotates f k c'
  end.
(** It runs without undefined behaviour. *)
Inductive hruns : forall A : Type, hcode A -> borrows -> mem -> A -> borrows -> mem -> Prop :=
| hruns_return A (a : A) s m : hruns A (HReturn a) s m a s m
| hruns_borrow A x (k : nat -> hcode A) s m t s1 a s' m' :
    perform x s = Some (t, s1) -> hruns A (k t) s1 m a s' m' -> hruns A (HBorrow x k) s m a s' m'
| hruns_exec A X v (c : M X) (k : X -> hcode A) p s m y s1 m1 a s' m' :
    follows c p -> trun v p s m = Some (y, s1, m1) -> hruns A (k y) s1 m1 a s' m' -> hruns A (HExec v c k) s m a s' m'
| hruns_pure A X (c : M X) (k : X -> hcode A) s m y a s' m' :
    c m = Ret y m -> hruns A (k y) s m a s' m' -> hruns A (HPure c k) s m a s' m'
| hruns_alloc A M n (k : nat -> nat -> hcode A) s m b m1 a s' m' :
    alloc M n m = Ret b m1 -> hruns A (k b (fresh s)) (fresh_block s b n) m1 a s' m' -> hruns A (HAlloc M n k) s m a s' m'
| hruns_stay A M v n t (k : vec -> nat -> hcode A) s m a s' m' :
    v_len v + n <= length (m (v_block v)) -> hruns A (k v t) s m a s' m' -> hruns A (HGrow M v n t k) s m a s' m'
| hruns_move A M v n t (k : vec -> nat -> hcode A) s m w m1 s1 a s' m' :
    length (m (v_block v)) < v_len v + n -> reserve_exact M v n m = Ret w m1 ->
    release s (v_block v) (length (m (v_block v))) t = Some s1 ->
    hruns A (k w (fresh s1)) (fresh_block s1 (v_block w) (length (m1 (v_block w)))) m1 a s' m' -> hruns A (HGrow M v n t k) s m a s' m'
| hruns_free A b t (k : hcode A) s m s1 m1 a s' m' :
    release s b (length (m b)) t = Some s1 -> free b m = Ret tt m1 -> hruns A k s1 m1 a s' m' -> hruns A (HFree b t k) s m a s' m'.
Arguments hruns {A}.

Fixpoint hbind {A B} (x : hcode A) (f : A -> hcode B) : hcode B :=
  match x with
  | HReturn a => f a
  | HBorrow y k => HBorrow y (fun t => hbind (k t) f)
  | HExec v c k => HExec v c (fun y => hbind (k y) f)
  | HPure c k => HPure c (fun y => hbind (k y) f)
  | HAlloc M n k => HAlloc M n (fun b t => hbind (k b t) f)
  | HGrow M v n t k => HGrow M v n t (fun w u => hbind (k w u) f)
  | HFree b t k => HFree b t (hbind k f)
  end.
Declare Scope heap_scope.
Notation "x <~ c ;; d" := (hbind c (fun x => d)) (at level 61, c at next level, right associativity) : heap_scope.
Notation "c ;~; d" := (hbind c (fun _ => d)) (at level 61, right associativity) : heap_scope.
Open Scope heap_scope.
(** a function that does not allocate *)
Fixpoint lift {A} (x : bcode A) : hcode A :=
  match x with
  | Return a => HReturn a
  | Borrow y k => HBorrow y (fun t => lift (k t))
  | Exec v c k => HExec v c (fun y => lift (k y))
  end.
Definition hfn {A} (body : hcode A) : hcode A := HBorrow Enter (fun _ => hbind body (fun a => HBorrow Leave (fun _ => HReturn a))).
Definition hexec {X} (v : view) (c : M X) : hcode X := HExec v c (fun y => HReturn y).
Definition hpure {X} (c : M X) : hcode X := HPure c (fun y => HReturn y).
Definition halloc (M : machine) (n : nat) : hcode (nat * nat) := HAlloc M n (fun b t => HReturn (b, t)).
Definition hgrow (M : machine) (v : vec) (n t : nat) : hcode (vec * nat) := HGrow M v n t (fun w u => HReturn (w, u)).
Definition hfree (b t : nat) : hcode unit := HFree b t (HReturn tt).

(** ** The standard library; the box is at [p] and has [n] bytes *)
(** [Box::into_raw(b)]: [Box::leak] and a cast *)
Definition into_raw (p : ptr) (n t : nat) : bcode nat :=
  fn (t <== mut_param p n t ;; u <== reborrow_mut p n t ;; do_ (Retag RawMut false u p n)).
(** [Box::from_raw(ptr)] *)
Definition from_raw (p : ptr) (n t : nat) : bcode nat := fn (reborrow_mut p n t).
(** [core::str::from_utf8_unchecked_mut(v)]: [&mut *(v as *mut [u8] as *mut str)] *)
Definition from_utf8_unchecked_mut (p : ptr) (n t : nat) : bcode nat :=
  fn (t <== mut_param p n t ;; r <== do_ (Retag RawMut false t p n) ;; reborrow_mut p n r).
(** [Vec::from(Box<[u8]>)]: [into_vec], which takes the pointer of the box *)
Definition vec_of_box_t (p : ptr) (n t : nat) : bcode nat := fn (t <== mut_param p n t ;; into_raw p n t).
(** [Box<str>::into_boxed_bytes] *)
Definition into_boxed_bytes_t (p : ptr) (n t : nat) : bcode nat := fn (t <== mut_param p n t ;; r <== into_raw p n t ;; from_raw p n r).
(** [String::from(Box<str>)] *)
Definition string_of_box_t (p : ptr) (n t : nat) : bcode nat :=
  fn (t <== mut_param p n t ;; t <== into_boxed_bytes_t p n t ;; vec_of_box_t p n t).

(** ** vsimd/src/tools.rs *)
(** 37 [assume_init]: [len] of the box, [Box::into_raw], a cast, [Box::from_raw] *)
Definition assume_init_t (p : ptr) (n t : nat) : bcode nat :=
  fn (t <== mut_param p n t ;; u <== reborrow p n t ;; slice_len p n u ;=; r <== into_raw p n t ;; from_raw p n r).
(** 93 [boxed_str]: [Box::from_raw(from_utf8_unchecked_mut(&mut *Box::into_raw(b)))] *)
Definition boxed_str_t (p : ptr) (n t : nat) : bcode nat :=
  fn (t <== mut_param p n t ;; r <== into_raw p n t ;; u <== reborrow_mut p n r ;; w <== from_utf8_unchecked_mut p n u ;;
      r <== do_ (Retag RawMut false w p n) ;; from_raw p n r).
Definition at_start (b : nat) : ptr := (b, 0).
(** A box comes with its tag. *)
Definition assume_init_b (b : boxed * nat) : hcode (boxed * nat) :=
  x <~ hpure (assume_init (fst b)) ;; u <~ lift (assume_init_t (at_start (x_block (fst b))) (x_len (fst b)) (snd b)) ;; HReturn (x, u).
Definition boxed_str_b (b : boxed * nat) : hcode (boxed * nat) :=
  x <~ hpure (boxed_str (fst b)) ;; u <~ lift (boxed_str_t (at_start (x_block (fst b))) (x_len (fst b)) (snd b)) ;; HReturn (x, u).
(** 18 [alloc_uninit_bytes] *)
Definition alloc_uninit_bytes_b (M : machine) (len : nat) : hcode (boxed * nat) :=
  hfn (hpure (if (0 <? Z.of_nat len)%Z && (Z.of_nat len <=? isize_limit M)%Z then ret tt else ub) ;~;
       a <~ halloc M len ;;
       u <~ lift (from_raw (at_start (fst a)) len (snd a)) ;;
       HReturn ({| x_block := fst a; x_len := len |}, u)).
(** [Box::from("")], [Box::from([])] *)
Definition box_empty_b (M : machine) : hcode (boxed * nat) :=
  a <~ halloc M 0 ;; HReturn ({| x_block := fst a; x_len := 0 |}, snd a).
Definition drop_box_b (b : boxed * nat) : hcode unit := hfree (x_block (fst b)) (snd b).

(** ** The heap.rs files
    They have the same shape. [L]: the length of the result; [g]: the function that gets raw pointers; [parts]: how the
    source becomes a raw pointer; [dl]: the decoded length. *)
Definition encode_to_boxed_str_b (M : machine) (L : nat -> Mem.M Z) (g : ptr -> nat -> ptr -> Mem.M unit) (p : ptr) (n ts : nat) : hcode (boxed * nat) :=
  hfn (ts <~ lift (shared_param p n ts) ;;
       lift (slice_len p n ts) ;~;
       if n =? 0 then box_empty_b M else
       lift (slice_len p n ts) ;~;
       m <~ hpure (L n) ;;
       hpure (assert_ (m <=? usize_limit M / 2)%Z) ;~;
       buf <~ alloc_uninit_bytes_b M (Z.to_nat m) ;;
       ts <~ lift (slice_parts p n ts) ;;
       td <~ lift (as_mut_ptr (at_start (x_block (fst buf))) (x_len (fst buf)) (snd buf)) ;;
       hexec (via2 (fst p) ts (x_block (fst buf)) td) (g p n (at_start (x_block (fst buf)))) ;~;
       b <~ assume_init_b buf ;; boxed_str_b b).
(** A vector comes with the tag of its pointer. [buf.as_mut_ptr().add(len)] makes no reference to the bytes. *)
Definition encode_append_vec_b (M : machine) (L : nat -> Mem.M Z) (g : ptr -> nat -> ptr -> Mem.M unit) (p : ptr) (n : nat) (v : vec) (ts tv : nat) : hcode (vec * nat) :=
  hfn (ts <~ lift (shared_param p n ts) ;;
       lift (slice_len p n ts) ;~;
       if n =? 0 then HReturn (v, tv) else
       lift (slice_len p n ts) ;~;
       m <~ hpure (L n) ;;
       hpure (assert_ (m <=? usize_limit M / 2)%Z) ;~;
       buf <~ hgrow M v (Z.to_nat m) tv ;;
       ts <~ lift (slice_parts p n ts) ;;
       dst <~ hpure (padd (v_block (fst buf), 0) (v_len (fst buf))) ;;
       hexec (via2 (fst p) ts (v_block (fst buf)) (snd buf)) (g p n dst) ;~;
       w <~ hpure (set_len (fst buf) (v_len (fst buf) + Z.to_nat m)) ;; HReturn (w, snd buf)).
Definition decode_to_boxed_bytes_b (M : machine) (dl : ptr -> nat -> nat -> bcode (result (nat * nat))) (parts : ptr -> nat -> nat -> bcode nat)
    (g : ptr -> nat -> ptr -> Mem.M (result unit)) (p : ptr) (n ts : nat) : hcode (result boxed * nat) :=
  hfn (ts <~ lift (shared_param p n ts) ;;
       lift (slice_len p n ts) ;~;
       if n =? 0 then b <~ box_empty_b M ;; HReturn (Ok (fst b), snd b) else
       r <~ lift (dl p n ts) ;;
       match r with
       | Err => HReturn (Err, 0)
       | Ok nm =>
           buf <~ alloc_uninit_bytes_b M (snd nm) ;;
           td <~ lift (as_mut_ptr (at_start (x_block (fst buf))) (x_len (fst buf)) (snd buf)) ;;
           ts <~ lift (parts p n ts) ;;
           r <~ hexec (via2 (fst p) ts (x_block (fst buf)) td) (g p (fst nm) (at_start (x_block (fst buf)))) ;;
           match r with
           | Err => drop_box_b buf ;~; HReturn (Err, 0)
           | Ok _ => b <~ assume_init_b buf ;; HReturn (Ok (fst b), snd b)
           end
       end).
Definition decode_append_vec_b (M : machine) (dl : ptr -> nat -> nat -> bcode (result (nat * nat))) (parts : ptr -> nat -> nat -> bcode nat)
    (g : ptr -> nat -> ptr -> Mem.M (result unit)) (p : ptr) (n : nat) (v : vec) (ts tv : nat) : hcode ((result unit * vec) * nat) :=
  hfn (ts <~ lift (shared_param p n ts) ;;
       lift (slice_len p n ts) ;~;
       if n =? 0 then HReturn ((Ok tt, v), tv) else
       r <~ lift (dl p n ts) ;;
       match r with
       | Err => HReturn ((Err, v), tv)
       | Ok nm =>
           buf <~ hgrow M v (snd nm) tv ;;
           dst <~ hpure (padd (v_block (fst buf), 0) (v_len (fst buf))) ;;
           ts <~ lift (parts p n ts) ;;
           r <~ hexec (via2 (fst p) ts (v_block (fst buf)) (snd buf)) (g p (fst nm) dst) ;;
           match r with
           | Err => HReturn ((Err, fst buf), snd buf)
           | Ok _ => w <~ hpure (set_len (fst buf) (v_len (fst buf) + snd nm)) ;; HReturn ((Ok tt, w), snd buf)
           end
       end).
(** hex-simd/src/heap.rs:13, 34: the length is tested in the function itself *)
Definition hex_dl_b (p : ptr) (n t : nat) : bcode (result (nat * nat)) :=
  slice_len p n t ;=; if negb (n mod 2 =? 0) then Return Err else slice_len p n t ;=; Return (Ok (n, n / 2)).
(** hex-simd/src/heap.rs:13, 34, 56, 78 *)
Definition hex_decode_to_boxed_bytes_b (M : machine) (s : isa) :=
  decode_to_boxed_bytes_b M hex_dl_b slice_parts (fun p n q => hex_decode_impl s p n q).
Definition hex_decode_append_vec_b (M : machine) (s : isa) :=
  decode_append_vec_b M hex_dl_b slice_parts (fun p n q => hex_decode_impl s p n q).
Definition hex_encode_to_boxed_str_b (M : machine) (s : isa) (case : ascii_case) :=
  encode_to_boxed_str_b M (fun n => usize M (Z.of_nat n * 2)) (fun p n q => hex_encode_impl s p n q case).
Definition hex_encode_append_vec_b (M : machine) (s : isa) (case : ascii_case) :=
  encode_append_vec_b M (fun n => usize M (Z.of_nat n * 2)) (fun p n q => hex_encode_impl s p n q case).
(** base64-simd/src/heap.rs:17, 39, 62, 84 *)
Definition b64_encode_to_boxed_str_b (M : machine) (s : isa) (cfg : b64_config) :=
  encode_to_boxed_str_b M (fun n => b64_encoded_length_usize M (Z.of_nat n) cfg) (fun p n q => b64_encode_impl s p n q cfg).
Definition b64_encode_append_vec_b (M : machine) (s : isa) (cfg : b64_config) :=
  encode_append_vec_b M (fun n => b64_encoded_length_usize M (Z.of_nat n) cfg) (fun p n q => b64_encode_impl s p n q cfg).
Definition b64_decode_to_boxed_bytes_b (M : machine) (en : endian) (s : isa) (cfg : b64_config) :=
  decode_to_boxed_bytes_b M (b64_decoded_length_b cfg) as_ptr (fun p n q => b64_decode_impl en s p q n cfg).
Definition b64_decode_append_vec_b (M : machine) (en : endian) (s : isa) (cfg : b64_config) :=
  decode_append_vec_b M (b64_decoded_length_b cfg) as_ptr (fun p n q => b64_decode_impl en s p q n cfg).
(** base32-simd/src/heap.rs:15, 37, 58, 80 *)
Definition b32_decode_to_boxed_bytes_b (M : machine) (t : target) (s : isa) (cfg : b32_config) :=
  decode_to_boxed_bytes_b M (b32_decoded_length_b (b32_padding cfg)) as_ptr (fun p n q => b32_decode_impl t s p n q (b32_kind_of cfg)).
Definition b32_decode_append_vec_b (M : machine) (t : target) (s : isa) (cfg : b32_config) :=
  decode_append_vec_b M (b32_decoded_length_b (b32_padding cfg)) as_ptr (fun p n q => b32_decode_impl t s p n q (b32_kind_of cfg)).
Definition b32_encode_to_boxed_str_b (M : machine) (t : target) (s : isa) (cfg : b32_config) :=
  encode_to_boxed_str_b M (fun n => b32_encoded_length_usize M (Z.of_nat n) (b32_padding cfg))
    (fun p n q => b32_encode_impl t s p n q (b32_kind_of cfg) (b32_padding cfg)).
Definition b32_encode_append_vec_b (M : machine) (t : target) (s : isa) (cfg : b32_config) :=
  encode_append_vec_b M (fun n => b32_encoded_length_usize M (Z.of_nat n) (b32_padding cfg))
    (fun p n q => b32_encode_impl t s p n q (b32_kind_of cfg) (b32_padding cfg)).

(** ** [String] and [Vec<u8>] from the box: hex-simd/src/heap.rs:107, 142, base64-simd/src/heap.rs:113, 148,
    base32-simd/src/heap.rs:109, 144 *)
Definition to_string_b (x : hcode (boxed * nat)) : hcode (vec * nat) :=
  b <~ x ;; u <~ lift (string_of_box_t (at_start (x_block (fst b))) (x_len (fst b)) (snd b)) ;; HReturn (vec_of_box (fst b), u).
Definition to_vec_b (x : hcode (result boxed * nat)) : hcode (result vec * nat) :=
  r <~ x ;;
  match fst r with
  | Err => HReturn (Err, 0)
  | Ok b => u <~ lift (vec_of_box_t (at_start (x_block b)) (x_len b) (snd r)) ;; HReturn (Ok (vec_of_box b), u)
  end.

(** ** base64-simd/src/forgiving.rs:74 [forgiving_decode_to_vec] *)
Definition forgiving_decode_to_vec_b (M : machine) (en : endian) (s1 s2 : isa) (p : ptr) (n ts : nat) : hcode (result vec * nat) :=
  hfn (ts <~ lift (shared_param p n ts) ;;
       pos <~ lift (find_b s1 p n ts) ;;
       lift (slice_len p n ts) ;~;
       hpure (debug_assert (pos <=? n)) ;~;
       lift (slice_len p n ts) ;~;
       if pos =? n then to_vec_b (b64_decode_to_boxed_bytes_b M en s2 STANDARD_FORGIVING p n ts) else
       lift (slice_len p n ts) ;~;
       hpure (if (isize_limit M <? Z.of_nat n)%Z then panic else ret tt) ;~;
       a <~ halloc M (capacity M n) ;;
       let v := {| v_block := fst a; v_len := 0 |} in
       let tv := snd a in
       let q := at_start (fst a) in
       lift (slice_len p n ts) ;~;
       ts <~ lift (as_ptr p n ts) ;;
       let w := via2 (fst p) ts (fst a) tv in
       hexec w (copy_nonoverlapping p q pos) ;~;
       p' <~ hexec w (padd p pos) ;;
       l <~ hpure (psub_len n pos) ;;
       d <~ hexec w (padd q pos) ;;
       rem <~ hexec w (remove_ascii_whitespace_fallback p' l d) ;;
       hpure (debug_assert (rem <=? l)) ;~;
       u <~ lift (slice_mut q (pos + rem) tv) ;;
       r <~ lift (b64_decode_inplace_b en s2 STANDARD_FORGIVING q (pos + rem) u) ;;
       match fst r with
       | Err => hfree (fst a) tv ;~; HReturn (Err, 0)
       | Ok x =>
           lift (slice_len q (snd x) (snd r)) ;~;
           v <~ hpure (set_len v (snd x)) ;; HReturn (Ok v, tv)
       end).

(** ** What a caller relies on *)
(** [t] may free the bytes, and write to them *)
Definition owns (s : borrows) (b n t : nat) : Prop := forall i, i < n -> may_free (active s) t (stacks s b i) = true.
(** outside the source and the two blocks, nothing has changed; no call is left running *)
Definition leaves_heap (s s' : borrows) (p : ptr) (n b1 b2 : nat) : Prop :=
  state_ok s' /\ active s' = active s /\ fresh s <= fresh s' /\
  forall b o, in_range (fst p) (snd p) n b o = false -> b <> b1 -> b <> b2 -> stacks s' b o = stacks s b o.
(** [f(&src)] returns a new allocation ([ret]: its block), if any, through the pointer to which it may be freed and written.
    The caller may still read through the pointer to the source. *)
Definition borrows_new {A} (ret : A -> option nat) (M : machine) (x : ptr -> nat -> nat -> hcode (A * nat)) (f : ptr -> nat -> Mem.M A) (src : list Z) : Prop :=
  forall m s b o ts, slice m b o src -> (Z.of_nat (length src) <= isize_limit M)%Z -> state_ok s -> ts < fresh s -> may_read s (b, o) (length src) ts ->
    forall r m', f (b, o) (length src) m = Ret r m' ->
    exists u s', hruns (x (b, o) (length src) ts) s m (r, u) s' m' /\
      leaves_heap s s' (b, o) (length src) (new_block M) (new_block M) /\ may_read s' (b, o) (length src) ts /\
      match ret r with Some k => fresh s <= u < fresh s' /\ owns s' k (length (m' k)) u /\ may_write s' (k, 0) (length (m' k)) u | None => True end.
Definition of_box (b : boxed) : option nat := Some (x_block b).
Definition of_vec (v : vec) : option nat := Some (v_block v).
Definition of_res {A} (f : A -> option nat) (r : result A) : option nat := match r with Ok a => f a | Err => None end.
(** [f(&src, &mut vec)]. The pointer of the vector may free and write all of its memory; no pointer to the part that is not in
    use has been made from it. *)
Definition vec_owned (s : borrows) (m : mem) (v : vec) (t : nat) : Prop :=
  owns s (v_block v) (length (m (v_block v))) t /\ on_top s (v_block v, v_len v) (length (m (v_block v)) - v_len v) t.
Definition borrows_append {A} (ret : A -> vec) (M : machine) (x : ptr -> nat -> vec -> nat -> nat -> hcode (A * nat))
    (f : ptr -> nat -> vec -> Mem.M A) (src : list Z) : Prop :=
  forall m s b o v ts tv, slice m b o src -> (Z.of_nat (length src) <= isize_limit M)%Z -> b <> v_block v -> v_len v <= length (m (v_block v)) ->
    state_ok s -> ts < fresh s -> tv < fresh s -> may_read s (b, o) (length src) ts -> vec_owned s m v tv ->
    forall r m', f (b, o) (length src) v m = Ret r m' ->
    exists u s', hruns (x (b, o) (length src) v ts tv) s m (r, u) s' m' /\
      leaves_heap s s' (b, o) (length src) (v_block v) (new_block M) /\ may_read s' (b, o) (length src) ts /\
      u < fresh s' /\ vec_owned s' m' (ret r) u.
