(** Model of the allocating functions: vsimd/src/tools.rs ([alloc_uninit_bytes], [assume_init], [boxed_str]), the three
    heap.rs files and [forgiving_decode_to_vec]. Paths are under /repo/crates.

    The allocator is an adversary: [new_block] is the block that the one allocation of a call returns, and [spare] the
    capacity that a vector gets beyond the request. The theorems quantify over both, assuming that the block is not in use.
    Not modelled here: running out of memory, and what a panic leaves behind; see Unwind.v. *)
From Coq Require Import ZArith List Bool.
From Verif Require Import Bytes Mem Isa Simd Ints Hex Base64 Base32 Forgiving.
Import ListNotations.
Open Scope Z_scope.
Open Scope m_scope.

Record machine := {
  pointer_bits : Z;         (* width of usize *)
  overflow_checks : bool;   (* [-C overflow-checks]: overflow panics, otherwise it wraps *)
  new_block : nat;          (* what the allocator will return *)
  spare : nat }.
Definition usize_limit (M : machine) : Z := usize_max (pointer_bits M).
(** [isize::MAX as usize], which is also [usize::MAX / 2] *)
Definition isize_limit (M : machine) : Z := 2 ^ (pointer_bits M - 1) - 1.

(** the usize result of an operation whose exact result is [x] *)
Definition usize (M : machine) (x : Z) : Mem.M Z :=
  if (0 <=? x) && (x <=? usize_limit M) then ret x
  else if overflow_checks M then panic else ret (x mod 2 ^ pointer_bits M).
(** [assert!] *)
Definition assert_ (b : bool) : Mem.M unit := if b then ret tt else panic.

(** A block that is not in use has no cells. *)
Definition alloc (M : machine) (n : nat) : Mem.M nat :=
  fun m => match m (new_block M) with
           | [] => Ret (new_block M) (upd m (new_block M) (repeat None n))
           | _ => UB
           end.
Definition free (b : nat) : Mem.M unit := fun m => Ret tt (upd m b []).

(** ** Box and Vec *)
(** [Box<[u8]>], [Box<[MaybeUninit<u8>]>], [Box<str>]: an allocation of exactly [x_len] bytes *)
Record boxed := { x_block : nat; x_len : nat }.
(** [Vec<u8>], [String]: an allocation of at least [v_len] bytes; the capacity is the size of the block *)
Record vec := { v_block : nat; v_len : nat }.

(** vsimd/src/tools.rs:18 [alloc_uninit_bytes]; breaking its contract is undefined behaviour.
    In debug builds the contract is asserted, which is no weaker. *)
Definition alloc_uninit_bytes (M : machine) (len : nat) : Mem.M boxed :=
  if (0 <? Z.of_nat len) && (Z.of_nat len <=? isize_limit M) then
    b <- alloc M len ;; ret {| x_block := b; x_len := len |}
  else ub.
(** vsimd/src/tools.rs:37 [assume_init]: every byte of the box must be initialised *)
Definition assume_init (b : boxed) : Mem.M boxed :=
  l <- load (x_block b, 0%nat) (x_len b) ;; ret b.
(** vsimd/src/tools.rs:93 [boxed_str]: the contents must be UTF-8. The model asks for ASCII, a stronger condition. *)
Definition boxed_str (b : boxed) : Mem.M boxed :=
  l <- load (x_block b, 0%nat) (x_len b) ;; if forallb (fun c => c <? 128) l then ret b else ub.
(** [drop] of a box; a box of no bytes has no allocation *)
Definition drop_box (b : boxed) : Mem.M unit := free (x_block b).
(** [Box::from("")], [Box::from([])] *)
Definition box_empty (M : machine) : Mem.M boxed :=
  b <- alloc M 0 ;; ret {| x_block := b; x_len := 0%nat |}.
(** [Vec::from(Box<[u8]>)], [String::from(Box<str>)], [into_boxed_bytes]: no copy *)
Definition vec_of_box (b : boxed) : vec := {| v_block := x_block b; v_len := x_len b |}.

(** the capacity that a vector gets when [n] bytes are asked for; no allocation exceeds isize::MAX bytes *)
Definition capacity (M : machine) (n : nat) : nat := Z.to_nat (Z.min (Z.of_nat (n + spare M)) (isize_limit M)).
(** [Vec::with_capacity] *)
Definition with_capacity (M : machine) (n : nat) : Mem.M vec :=
  if isize_limit M <? Z.of_nat n then panic (* capacity overflow *) else
  b <- alloc M (capacity M n) ;; ret {| v_block := b; v_len := 0%nat |}.
(** [Vec::reserve_exact]: keeps the allocation if it is large enough, otherwise grows it in place or moves it *)
Definition reserve_exact (M : machine) (v : vec) (k : nat) : Mem.M vec :=
  fun m =>
    let cap := length (m (v_block v)) in
    if (v_len v + k <=? cap)%nat then Ret v m else
    if isize_limit M <? Z.of_nat (v_len v + k) then Panic (* capacity overflow *) else
    let l := (m (v_block v) ++ repeat None (capacity M (v_len v + k) - cap))%list in
    if (new_block M =? v_block v)%nat then Ret v (upd m (v_block v) l)
    else match m (new_block M) with
         | [] => Ret {| v_block := new_block M; v_len := v_len v |} (upd (upd m (v_block v) []) (new_block M) l)
         | _ => UB
         end.
(** [Vec::set_len]: the first [n] bytes must be inside the capacity and initialised *)
Definition set_len (v : vec) (n : nat) : Mem.M vec :=
  l <- load (v_block v, 0%nat) n ;; ret {| v_block := v_block v; v_len := n |}.
Definition drop_vec (v : vec) : Mem.M unit := free (v_block v).

(** [c?] where a local value must be dropped on the way out *)
Definition try_drop {A B} (c : Mem.M (result A)) (drop : Mem.M unit) (k : A -> Mem.M (result B)) : Mem.M (result B) :=
  r <- c ;; match r with Err => drop ;;; ret Err | Ok a => k a end.
(** [c?] in a function with a vector [v] that belongs to the caller, who sees it whatever happens *)
Definition try_vec {A} (c : Mem.M (result A)) (v : vec) (k : A -> Mem.M (result unit * vec)) : Mem.M (result unit * vec) :=
  r <- c ;; match r with Err => ret (Err, v) | Ok a => k a end.

(** ** hex-simd/src/heap.rs *)
(** 13 [decode_to_boxed_bytes] *)
Definition hex_decode_to_boxed_bytes (M : machine) (s : isa) (src : ptr) (len : nat) : Mem.M (result boxed) :=
  if (len =? 0)%nat then b <- box_empty M ;; ret (Ok b) else
  if negb (len mod 2 =? 0)%nat then ret Err else
  buf <- alloc_uninit_bytes M (len / 2) ;;
  try_drop (hex_decode_impl s src len (x_block buf, 0%nat)) (drop_box buf) (fun _ =>
  b <- assume_init buf ;; ret (Ok b)).
(** 34 [decode_append_vec] *)
Definition hex_decode_append_vec (M : machine) (s : isa) (src : ptr) (len : nat) (buf : vec) : Mem.M (result unit * vec) :=
  if (len =? 0)%nat then ret (Ok tt, buf) else
  if negb (len mod 2 =? 0)%nat then ret (Err, buf) else
  let m := (len / 2)%nat in
  buf <- reserve_exact M buf m ;;
  let prev_len := v_len buf in
  dst <- padd (v_block buf, 0%nat) prev_len ;;
  try_vec (hex_decode_impl s src len dst) buf (fun _ =>
  buf <- set_len buf (prev_len + m) ;; ret (Ok tt, buf)).
(** 56 [encode_to_boxed_str] *)
Definition hex_encode_to_boxed_str (M : machine) (s : isa) (case : ascii_case) (src : ptr) (len : nat) : Mem.M boxed :=
  if (len =? 0)%nat then box_empty M else
  m <- usize M (Z.of_nat len * 2) ;;
  assert_ (m <=? usize_limit M / 2) ;;;
  buf <- alloc_uninit_bytes M (Z.to_nat m) ;;
  hex_encode_impl s src len (x_block buf, 0%nat) case ;;;
  b <- assume_init buf ;; boxed_str b.
(** 78 [encode_append_vec] *)
Definition hex_encode_append_vec (M : machine) (s : isa) (case : ascii_case) (src : ptr) (len : nat) (buf : vec) : Mem.M vec :=
  if (len =? 0)%nat then ret buf else
  m <- usize M (Z.of_nat len * 2) ;;
  assert_ (m <=? usize_limit M / 2) ;;;
  buf <- reserve_exact M buf (Z.to_nat m) ;;
  let prev_len := v_len buf in
  dst <- padd (v_block buf, 0%nat) prev_len ;;
  hex_encode_impl s src len dst case ;;;
  set_len buf (prev_len + Z.to_nat m).

(** ** base64-simd/src/heap.rs *)
(** base64-simd/src/encode.rs:11 [encoded_length_unchecked] *)
Definition b64_encoded_length_usize (M : machine) (len : Z) (config : b64_config) : Mem.M Z :=
  let extra := len mod 3 in
  q <- usize M (len / 3 * 4) ;;
  if extra =? 0 then ret q
  else if b64_padding (b64_extra_of config) then usize M (q + 4)
  else t <- usize M (q + extra) ;; usize M (t + 1).
(** 17 [encode_to_boxed_str] *)
Definition b64_encode_to_boxed_str (M : machine) (s : isa) (config : b64_config) (data : ptr) (len : nat) : Mem.M boxed :=
  if (len =? 0)%nat then box_empty M else
  m <- b64_encoded_length_usize M (Z.of_nat len) config ;;
  assert_ (m <=? usize_limit M / 2) ;;;
  buf <- alloc_uninit_bytes M (Z.to_nat m) ;;
  b64_encode_impl s data len (x_block buf, 0%nat) config ;;;
  b <- assume_init buf ;; boxed_str b.
(** 39 [encode_append_vec] *)
Definition b64_encode_append_vec (M : machine) (s : isa) (config : b64_config) (src : ptr) (len : nat) (buf : vec) : Mem.M vec :=
  if (len =? 0)%nat then ret buf else
  m <- b64_encoded_length_usize M (Z.of_nat len) config ;;
  assert_ (m <=? usize_limit M / 2) ;;;
  buf <- reserve_exact M buf (Z.to_nat m) ;;
  let prev_len := v_len buf in
  dst <- padd (v_block buf, 0%nat) prev_len ;;
  b64_encode_impl s src len dst config ;;;
  set_len buf (prev_len + Z.to_nat m).
(** 62 [decode_to_boxed_bytes] *)
Definition b64_decode_to_boxed_bytes (M : machine) (en : endian) (s : isa) (config : b64_config) (data : ptr) (len : nat)
    : Mem.M (result boxed) :=
  if (len =? 0)%nat then b <- box_empty M ;; ret (Ok b) else
  try_ (b64_decoded_length data len config) (fun nm =>
  buf <- alloc_uninit_bytes M (snd nm) ;;
  try_drop (b64_decode_impl en s data (x_block buf, 0%nat) (fst nm) config) (drop_box buf) (fun _ =>
  b <- assume_init buf ;; ret (Ok b))).
(** 84 [decode_append_vec] *)
Definition b64_decode_append_vec (M : machine) (en : endian) (s : isa) (config : b64_config) (src : ptr) (len : nat) (buf : vec)
    : Mem.M (result unit * vec) :=
  if (len =? 0)%nat then ret (Ok tt, buf) else
  try_vec (b64_decoded_length src len config) buf (fun nm =>
  buf <- reserve_exact M buf (snd nm) ;;
  let prev_len := v_len buf in
  dst <- padd (v_block buf, 0%nat) prev_len ;;
  try_vec (b64_decode_impl en s src dst (fst nm) config) buf (fun _ =>
  buf <- set_len buf (prev_len + snd nm) ;; ret (Ok tt, buf))).

(** ** base32-simd/src/heap.rs *)
(** base32-simd/src/encode.rs:9 [encoded_length_unchecked] *)
Definition b32_encoded_length_usize (M : machine) (len : Z) (padding : bool) : Mem.M Z :=
  l <- usize M (len / 5 * 8) ;;
  let extra := len mod 5 in
  if extra =? 0 then ret l
  else if padding then usize M (l + 8)
  else usize M (l + nth (Z.to_nat extra) [0; 2; 4; 5; 7] 0).
(** 15 [decode_to_boxed_bytes] *)
Definition b32_decode_to_boxed_bytes (M : machine) (t : target) (s : isa) (config : b32_config) (src : ptr) (len : nat)
    : Mem.M (result boxed) :=
  if (len =? 0)%nat then b <- box_empty M ;; ret (Ok b) else
  try_ (b32_decoded_length src len (b32_padding config)) (fun nm =>
  buf <- alloc_uninit_bytes M (snd nm) ;;
  try_drop (b32_decode_impl t s src (fst nm) (x_block buf, 0%nat) (b32_kind_of config)) (drop_box buf) (fun _ =>
  b <- assume_init buf ;; ret (Ok b))).
(** 37 [decode_append_vec] *)
Definition b32_decode_append_vec (M : machine) (t : target) (s : isa) (config : b32_config) (src : ptr) (len : nat) (buf : vec)
    : Mem.M (result unit * vec) :=
  if (len =? 0)%nat then ret (Ok tt, buf) else
  try_vec (b32_decoded_length src len (b32_padding config)) buf (fun nm =>
  buf <- reserve_exact M buf (snd nm) ;;
  let prev_len := v_len buf in
  dst <- padd (v_block buf, 0%nat) prev_len ;;
  try_vec (b32_decode_impl t s src (fst nm) dst (b32_kind_of config)) buf (fun _ =>
  buf <- set_len buf (prev_len + snd nm) ;; ret (Ok tt, buf))).
(** 58 [encode_to_boxed_str] *)
Definition b32_encode_to_boxed_str (M : machine) (t : target) (s : isa) (config : b32_config) (src : ptr) (len : nat) : Mem.M boxed :=
  if (len =? 0)%nat then box_empty M else
  m <- b32_encoded_length_usize M (Z.of_nat len) (b32_padding config) ;;
  assert_ (m <=? usize_limit M / 2) ;;;
  buf <- alloc_uninit_bytes M (Z.to_nat m) ;;
  b32_encode_impl t s src len (x_block buf, 0%nat) (b32_kind_of config) (b32_padding config) ;;;
  b <- assume_init buf ;; boxed_str b.
(** 80 [encode_append_vec] *)
Definition b32_encode_append_vec (M : machine) (t : target) (s : isa) (config : b32_config) (src : ptr) (len : nat) (buf : vec) : Mem.M vec :=
  if (len =? 0)%nat then ret buf else
  m <- b32_encoded_length_usize M (Z.of_nat len) (b32_padding config) ;;
  assert_ (m <=? usize_limit M / 2) ;;;
  buf <- reserve_exact M buf (Z.to_nat m) ;;
  let prev_len := v_len buf in
  dst <- padd (v_block buf, 0%nat) prev_len ;;
  b32_encode_impl t s src len dst (b32_kind_of config) (b32_padding config) ;;;
  set_len buf (prev_len + Z.to_nat m).

(** ** base64-simd/src/forgiving.rs:74 [forgiving_decode_to_vec] *)
Definition forgiving_decode_to_vec (M : machine) (en : endian) (s1 s2 : isa) (data : ptr) (len : nat) : Mem.M (result vec) :=
  pos <- find_non_ascii_whitespace s1 data len ;;
  debug_assert (pos <=? len)%nat ;;;
  if (pos =? len)%nat then
    r <- b64_decode_to_boxed_bytes M en s2 STANDARD_FORGIVING data len ;;
    ret (match r with Ok b => Ok (vec_of_box b) | Err => Err end)
  else
  v <- with_capacity M len ;;
  let dst := (v_block v, 0%nat) in
  copy_nonoverlapping data dst pos ;;;
  p <- padd data pos ;;
  l <- psub_len len pos ;;
  d <- padd dst pos ;;
  rem <- remove_ascii_whitespace_fallback p l d ;;
  debug_assert (rem <=? l)%nat ;;;
  try_drop (b64_decode_inplace en s2 STANDARD_FORGIVING dst (pos + rem)) (drop_vec v) (fun r =>
  v <- set_len v (snd r) ;; ret (Ok v)).
