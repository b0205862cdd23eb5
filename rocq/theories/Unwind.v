(** Model of how the allocating functions stop: panics and failed allocations of vsimd/src/tools.rs, the three heap.rs files
    and [forgiving_decode_to_vec]. Paths are under /repo/crates.

    Heap.v has the same functions; there a panic ends the computation and says nothing about memory, and allocations do not
    fail. Here a function that stops still has a state, the one its caller finds when the panic is caught, when other
    destructors run, or in a hook of [handle_alloc_error]; [grant n] tells whether the allocator has [n] bytes. *)
From Coq Require Import ZArith List Bool.
From Verif Require Import Bytes Mem Isa Simd Ints Hex Base64 Base32 Forgiving Heap.
Import ListNotations.
Open Scope Z_scope.

(** Memory, and the header (pointer, length) of the vector that was passed as [&mut Vec<u8>] or [&mut String], if any. *)
Record st := { st_mem : mem; st_vec : vec }.
Inductive stop :=
| Overflowed         (* attempt to multiply/add with overflow *)
| Asserted           (* assert!(m <= usize::MAX / 2) *)
| CapacityOverflow   (* the panic of Vec::reserve_exact and Vec::with_capacity *)
| NoMemory.          (* handle_alloc_error: aborts, or panics without std *)
Inductive out (A : Type) : Type :=
| Done (a : A) (s : st)
| Stopped (why : stop) (s : st)
| Broken.            (* undefined behaviour, or a panic inside of a codec: never happens (proved) *)
Arguments Done {A}. Arguments Stopped {A}. Arguments Broken {A}.
Definition U (A : Type) := st -> out A.
Definition done {A} (a : A) : U A := fun s => Done a s.
Definition ubind {A B} (c : U A) (f : A -> U B) : U B :=
  fun s => match c s with Done a s' => f a s' | Stopped why s' => Stopped why s' | Broken => Broken end.
Declare Scope u_scope.
Notation "x <~ c ;; d" := (ubind c (fun x => d)) (at level 61, c at next level, right associativity) : u_scope.
Notation "c ~;; d" := (ubind c (fun _ => d)) (at level 61, right associativity) : u_scope.
Open Scope u_scope.

(** code that must not panic *)
Definition run {A} (c : Mem.M A) : U A :=
  fun s => match c (st_mem s) with Ret a m => Done a {| st_mem := m; st_vec := st_vec s |} | _ => Broken end.
(** arithmetic in usize: touches no memory and may panic *)
Definition arith {A} (c : Mem.M A) : U A :=
  fun s => match c (st_mem s) with Ret a _ => Done a s | Panic => Stopped Overflowed s | _ => Broken end.
(** [assert!] *)
Definition uassert (b : bool) : U unit := fun s => if b then Done tt s else Stopped Asserted s.
(** the vector of the caller *)
Definition the_vec : U vec := fun s => Done (st_vec s) s.
(** the body [c] of a scope with a local box or vector: unwinding runs [drop] *)
Definition local {A} (drop : Mem.M unit) (c : U A) : U A :=
  fun s => match c s with
           | Stopped why s' => match run drop s' with Done _ s'' => Stopped why s'' | _ => Broken end
           | r => r
           end.

(** vsimd/src/tools.rs:18 [alloc_uninit_bytes]; 28-30 the null check *)
Definition u_alloc_uninit_bytes (M : machine) (grant : nat -> bool) (len : nat) : U boxed :=
  if (0 <? Z.of_nat len) && (Z.of_nat len <=? isize_limit M) then
    fun s => if grant len then run (alloc_uninit_bytes M len) s else Stopped NoMemory s
  else fun _ => Broken.
(** [Vec::with_capacity]; without bytes there is no allocation *)
Definition u_with_capacity (M : machine) (grant : nat -> bool) (n : nat) : U vec :=
  fun s => if isize_limit M <? Z.of_nat n then Stopped CapacityOverflow s
           else if (n =? 0)%nat || grant (capacity M n) then run (with_capacity M n) s else Stopped NoMemory s.
(** [Vec::reserve_exact] of the vector of the caller; if it fails the vector is as it was *)
Definition u_reserve_exact (M : machine) (grant : nat -> bool) (k : nat) : U unit :=
  fun s =>
    let v := st_vec s in
    if (v_len v + k <=? length (st_mem s (v_block v)))%nat then Done tt s
    else if isize_limit M <? Z.of_nat (v_len v + k) then Stopped CapacityOverflow s
    else if grant (capacity M (v_len v + k)) then
      match reserve_exact M v k (st_mem s) with Ret v' m' => Done tt {| st_mem := m'; st_vec := v' |} | _ => Broken end
    else Stopped NoMemory s.
(** [Vec::set_len] of the vector of the caller *)
Definition u_set_len (n : nat) : U unit :=
  fun s => match set_len (st_vec s) n (st_mem s) with Ret v' m' => Done tt {| st_mem := m'; st_vec := v' |} | _ => Broken end.
(** [c?]; [drop] is what the scope has to drop on the way out *)
Definition u_try {A B} (c : U (result A)) (drop : U unit) (k : A -> U (result B)) : U (result B) :=
  r <~ c ;; match r with Err => drop ~;; done Err | Ok a => k a end.
Definition nothing : U unit := done tt.

(** ** hex-simd/src/heap.rs *)
(** 13 [decode_to_boxed_bytes] *)
Definition u_hex_decode_to_boxed_bytes (M : machine) (grant : nat -> bool) (s : isa) (src : ptr) (len : nat) : U (result boxed) :=
  if (len =? 0)%nat then b <~ run (box_empty M) ;; done (Ok b) else
  if negb (len mod 2 =? 0)%nat then done Err else
  buf <~ u_alloc_uninit_bytes M grant (len / 2) ;;
  u_try (local (drop_box buf) (run (hex_decode_impl s src len (x_block buf, 0%nat)))) (run (drop_box buf)) (fun _ =>
  b <~ run (assume_init buf) ;; done (Ok b)).
(** 34 [decode_append_vec] *)
Definition u_hex_decode_append_vec (M : machine) (grant : nat -> bool) (s : isa) (src : ptr) (len : nat) : U (result unit) :=
  if (len =? 0)%nat then done (Ok tt) else
  if negb (len mod 2 =? 0)%nat then done Err else
  let m := (len / 2)%nat in
  u_reserve_exact M grant m ~;;
  buf <~ the_vec ;;
  let prev_len := v_len buf in
  dst <~ run (padd (v_block buf, 0%nat) prev_len) ;;
  u_try (run (hex_decode_impl s src len dst)) nothing (fun _ =>
  u_set_len (prev_len + m) ~;; done (Ok tt)).
(** 56 [encode_to_boxed_str] *)
Definition u_hex_encode_to_boxed_str (M : machine) (grant : nat -> bool) (s : isa) (case : ascii_case) (src : ptr) (len : nat) : U boxed :=
  if (len =? 0)%nat then run (box_empty M) else
  m <~ arith (usize M (Z.of_nat len * 2)) ;;
  uassert (m <=? usize_limit M / 2) ~;;
  buf <~ u_alloc_uninit_bytes M grant (Z.to_nat m) ;;
  local (drop_box buf) (run (hex_encode_impl s src len (x_block buf, 0%nat) case)) ~;;
  b <~ run (assume_init buf) ;; run (boxed_str b).
(** 78 [encode_append_vec] *)
Definition u_hex_encode_append_vec (M : machine) (grant : nat -> bool) (s : isa) (case : ascii_case) (src : ptr) (len : nat) : U unit :=
  if (len =? 0)%nat then done tt else
  m <~ arith (usize M (Z.of_nat len * 2)) ;;
  uassert (m <=? usize_limit M / 2) ~;;
  u_reserve_exact M grant (Z.to_nat m) ~;;
  buf <~ the_vec ;;
  let prev_len := v_len buf in
  dst <~ run (padd (v_block buf, 0%nat) prev_len) ;;
  run (hex_encode_impl s src len dst case) ~;;
  u_set_len (prev_len + Z.to_nat m).

(** ** base64-simd/src/heap.rs *)
(** 17 [encode_to_boxed_str] *)
Definition u_b64_encode_to_boxed_str (M : machine) (grant : nat -> bool) (s : isa) (config : b64_config) (data : ptr) (len : nat) : U boxed :=
  if (len =? 0)%nat then run (box_empty M) else
  m <~ arith (b64_encoded_length_usize M (Z.of_nat len) config) ;;
  uassert (m <=? usize_limit M / 2) ~;;
  buf <~ u_alloc_uninit_bytes M grant (Z.to_nat m) ;;
  local (drop_box buf) (run (b64_encode_impl s data len (x_block buf, 0%nat) config)) ~;;
  b <~ run (assume_init buf) ;; run (boxed_str b).
(** 39 [encode_append_vec] *)
Definition u_b64_encode_append_vec (M : machine) (grant : nat -> bool) (s : isa) (config : b64_config) (src : ptr) (len : nat) : U unit :=
  if (len =? 0)%nat then done tt else
  m <~ arith (b64_encoded_length_usize M (Z.of_nat len) config) ;;
  uassert (m <=? usize_limit M / 2) ~;;
  u_reserve_exact M grant (Z.to_nat m) ~;;
  buf <~ the_vec ;;
  let prev_len := v_len buf in
  dst <~ run (padd (v_block buf, 0%nat) prev_len) ;;
  run (b64_encode_impl s src len dst config) ~;;
  u_set_len (prev_len + Z.to_nat m).
(** 62 [decode_to_boxed_bytes] *)
Definition u_b64_decode_to_boxed_bytes (M : machine) (grant : nat -> bool) (en : endian) (s : isa) (config : b64_config) (data : ptr) (len : nat)
    : U (result boxed) :=
  if (len =? 0)%nat then b <~ run (box_empty M) ;; done (Ok b) else
  u_try (run (b64_decoded_length data len config)) nothing (fun nm =>
  buf <~ u_alloc_uninit_bytes M grant (snd nm) ;;
  u_try (local (drop_box buf) (run (b64_decode_impl en s data (x_block buf, 0%nat) (fst nm) config))) (run (drop_box buf)) (fun _ =>
  b <~ run (assume_init buf) ;; done (Ok b))).
(** 84 [decode_append_vec] *)
Definition u_b64_decode_append_vec (M : machine) (grant : nat -> bool) (en : endian) (s : isa) (config : b64_config) (src : ptr) (len : nat)
    : U (result unit) :=
  if (len =? 0)%nat then done (Ok tt) else
  u_try (run (b64_decoded_length src len config)) nothing (fun nm =>
  u_reserve_exact M grant (snd nm) ~;;
  buf <~ the_vec ;;
  let prev_len := v_len buf in
  dst <~ run (padd (v_block buf, 0%nat) prev_len) ;;
  u_try (run (b64_decode_impl en s src dst (fst nm) config)) nothing (fun _ =>
  u_set_len (prev_len + snd nm) ~;; done (Ok tt))).

(** ** base32-simd/src/heap.rs *)
(** 15 [decode_to_boxed_bytes] *)
Definition u_b32_decode_to_boxed_bytes (M : machine) (grant : nat -> bool) (t : target) (s : isa) (config : b32_config) (src : ptr) (len : nat)
    : U (result boxed) :=
  if (len =? 0)%nat then b <~ run (box_empty M) ;; done (Ok b) else
  u_try (run (b32_decoded_length src len (b32_padding config))) nothing (fun nm =>
  buf <~ u_alloc_uninit_bytes M grant (snd nm) ;;
  u_try (local (drop_box buf) (run (b32_decode_impl t s src (fst nm) (x_block buf, 0%nat) (b32_kind_of config)))) (run (drop_box buf)) (fun _ =>
  b <~ run (assume_init buf) ;; done (Ok b))).
(** 37 [decode_append_vec] *)
Definition u_b32_decode_append_vec (M : machine) (grant : nat -> bool) (t : target) (s : isa) (config : b32_config) (src : ptr) (len : nat)
    : U (result unit) :=
  if (len =? 0)%nat then done (Ok tt) else
  u_try (run (b32_decoded_length src len (b32_padding config))) nothing (fun nm =>
  u_reserve_exact M grant (snd nm) ~;;
  buf <~ the_vec ;;
  let prev_len := v_len buf in
  dst <~ run (padd (v_block buf, 0%nat) prev_len) ;;
  u_try (run (b32_decode_impl t s src (fst nm) dst (b32_kind_of config))) nothing (fun _ =>
  u_set_len (prev_len + snd nm) ~;; done (Ok tt))).
(** 58 [encode_to_boxed_str] *)
Definition u_b32_encode_to_boxed_str (M : machine) (grant : nat -> bool) (t : target) (s : isa) (config : b32_config) (src : ptr) (len : nat) : U boxed :=
  if (len =? 0)%nat then run (box_empty M) else
  m <~ arith (b32_encoded_length_usize M (Z.of_nat len) (b32_padding config)) ;;
  uassert (m <=? usize_limit M / 2) ~;;
  buf <~ u_alloc_uninit_bytes M grant (Z.to_nat m) ;;
  local (drop_box buf) (run (b32_encode_impl t s src len (x_block buf, 0%nat) (b32_kind_of config) (b32_padding config))) ~;;
  b <~ run (assume_init buf) ;; run (boxed_str b).
(** 80 [encode_append_vec] *)
Definition u_b32_encode_append_vec (M : machine) (grant : nat -> bool) (t : target) (s : isa) (config : b32_config) (src : ptr) (len : nat) : U unit :=
  if (len =? 0)%nat then done tt else
  m <~ arith (b32_encoded_length_usize M (Z.of_nat len) (b32_padding config)) ;;
  uassert (m <=? usize_limit M / 2) ~;;
  u_reserve_exact M grant (Z.to_nat m) ~;;
  buf <~ the_vec ;;
  let prev_len := v_len buf in
  dst <~ run (padd (v_block buf, 0%nat) prev_len) ;;
  run (b32_encode_impl t s src len dst (b32_kind_of config) (b32_padding config)) ~;;
  u_set_len (prev_len + Z.to_nat m).

(** ** base64-simd/src/forgiving.rs:74 [forgiving_decode_to_vec] *)
Definition u_forgiving_decode_to_vec (M : machine) (grant : nat -> bool) (en : endian) (s1 s2 : isa) (data : ptr) (len : nat) : U (result vec) :=
  pos <~ run (find_non_ascii_whitespace s1 data len) ;;
  run (debug_assert (pos <=? len)%nat) ~;;
  if (pos =? len)%nat then
    r <~ u_b64_decode_to_boxed_bytes M grant en s2 STANDARD_FORGIVING data len ;;
    done (match r with Ok b => Ok (vec_of_box b) | Err => Err end)
  else
  v <~ u_with_capacity M grant len ;;
  local (drop_vec v) (
  let dst := (v_block v, 0%nat) in
  run (copy_nonoverlapping data dst pos) ~;;
  p <~ run (padd data pos) ;;
  l <~ run (psub_len len pos) ;;
  d <~ run (padd dst pos) ;;
  rem <~ run (remove_ascii_whitespace_fallback p l d) ;;
  run (debug_assert (rem <=? l)%nat) ~;;
  u_try (run (b64_decode_inplace en s2 STANDARD_FORGIVING dst (pos + rem))) (run (drop_vec v)) (fun r =>
  v <~ run (set_len v (snd r)) ;; done (Ok v))).
