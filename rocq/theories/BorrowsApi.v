(** The public functions with the references and raw pointers they make (Borrows.v). The code between is that of the model;
    without the borrows they are the functions of Hex.v, Base64.v, Forgiving.v, Base32.v, Uuid.v and Unicode.v.
    A function gets the tags of its arguments: [ts] of the source [&[u8]], [td] of the destination [Out] or of the data
    [&mut [u8]]. [Out] (crate outref, not in the repository) holds a raw pointer: [len] and [as_mut_ptr] of it access no
    bytes and make no reference. The dispatched functions (multiversion) get raw pointers and make no references to what
    they point to. The tag of the returned [&mut] is returned with it (0 if there is none).
    Definitions only. *)
From Coq Require Import ZArith List Bool.
From Verif Require Import Bytes Mem MemFacts Slices Codec Isa Simd Ints Hex Base64 Base32 Uuid Unicode Forgiving Conc Borrows.
Import ListNotations.
Open Scope nat_scope. Open Scope m_scope. Open Scope borrow_scope.

(** ** The standard library *)
(** a parameter of reference type *)
Definition shared_param (p : ptr) (n t : nat) : bcode nat := do_ (Retag SharedRef true t p n).
Definition mut_param (p : ptr) (n t : nat) : bcode nat := do_ (Retag MutRef true t p n).
(** [&*t], [&mut *t]: references made to pass them on *)
Definition reborrow (p : ptr) (n t : nat) : bcode nat := do_ (Retag SharedRef false t p n).
Definition reborrow_mut (p : ptr) (n t : nat) : bcode nat := do_ (Retag MutRef false t p n).
(** [<[u8]>::len(&self)], [is_empty] *)
Definition slice_len (p : ptr) (n t : nat) : bcode nat := fn (shared_param p n t).
(** [<[u8]>::as_ptr(&self)] *)
Definition as_ptr (p : ptr) (n t : nat) : bcode nat := fn (u <== shared_param p n t ;; do_ (Retag RawConst false u p n)).
(** [<[u8]>::as_mut_ptr(&mut self)] *)
Definition as_mut_ptr (p : ptr) (n t : nat) : bcode nat :=
  u <== reborrow_mut p n t ;; fn (u <== mut_param p n u ;; do_ (Retag RawMut false u p n)).
(** vsimd/tools.rs:84 [slice_parts] *)
Definition slice_parts (p : ptr) (n t : nat) : bcode nat := fn (u <== shared_param p n t ;; slice_len p n u ;=; as_ptr p n u).
(** vsimd/tools.rs:59 [slice_mut]: core::slice::from_raw_parts_mut *)
Definition slice_mut (p : ptr) (n t : nat) : bcode nat := fn (fn (reborrow_mut p n t)).
Definition fails {A} : bcode (result A * nat) := Return (Err, 0).
Definition give {A} (a : A) (t : nat) : bcode (result A * nat) := Return (Ok a, t).

(** ** hex-simd/lib.rs *)
(** lib.rs:145 [check] *)
Definition hex_check_b (s : isa) (p : ptr) (n ts : nat) : bcode (result unit) :=
  fn (ts <== shared_param p n ts ;; ts <== slice_parts p n ts ;; exec (via1 (fst p) ts) (hex_check_impl s p n)).
(** lib.rs:157 [encode] *)
Definition hex_encode_b (s : isa) (case : ascii_case) (p : ptr) (n : nat) (q : ptr) (k ts td : nat) : bcode (result (ptr * nat) * nat) :=
  fn (ts <== shared_param p n ts ;;
      slice_len p n ts ;=;
      if negb (n <=? k / 2) then fails else
      ts <== slice_parts p n ts ;;
      exec (via2 (fst p) ts (fst q) td) (hex_encode_impl s p n q case) ;=;
      u <== slice_mut q (n * 2) td ;; give (q, n * 2) u).
(** lib.rs:174 [decode] *)
Definition hex_decode_b (s : isa) (p : ptr) (n : nat) (q : ptr) (k ts td : nat) : bcode (result (ptr * nat) * nat) :=
  fn (ts <== shared_param p n ts ;;
      slice_len p n ts ;=; slice_len p n ts ;=;
      if negb ((n mod 2 =? 0) && (n / 2 <=? k)) then fails else
      slice_len p n ts ;=;
      ts <== as_ptr p n ts ;;
      r <== exec (via2 (fst p) ts (fst q) td) (hex_decode_impl s p n q) ;;
      match r with Err => fails | Ok _ => u <== slice_mut q (n / 2) td ;; give (q, n / 2) u end).
(** lib.rs:191 [decode_inplace] *)
Definition hex_decode_inplace_b (s : isa) (p : ptr) (n td : nat) : bcode (result (ptr * nat) * nat) :=
  fn (td <== mut_param p n td ;;
      t <== reborrow p n td ;; slice_len p n t ;=;
      if negb (n mod 2 =? 0) then fails else
      t <== reborrow p n td ;; slice_len p n t ;=;
      tr <== as_mut_ptr p n td ;;
      r <== exec (via1 (fst p) tr) (hex_decode_impl s p n p) ;;
      match r with Err => fails | Ok _ => u <== slice_mut p (n / 2) tr ;; give (p, n / 2) u end).

(** ** base64-simd/lib.rs *)
(** decode.rs:30 [decoded_length]: [is_empty], [len] and references to single bytes, all made from the parameter *)
Definition b64_decoded_length_b (cfg : b64_config) (p : ptr) (n t : nat) : bcode (result (nat * nat)) :=
  fn (t <== shared_param p n t ;; slice_len p n t ;=; slice_len p n t ;=; exec (via1 (fst p) t) (b64_decoded_length p n cfg)).
(** lib.rs:222 [check] *)
Definition b64_check_b (en : endian) (s : isa) (cfg : b64_config) (p : ptr) (n ts : nat) : bcode (result unit) :=
  fn (ts <== shared_param p n ts ;;
      r <== b64_decoded_length_b cfg p n ts ;;
      match r with
      | Err => Return Err
      | Ok nm => ts <== as_ptr p n ts ;; exec (via1 (fst p) ts) (b64_check_impl en s p (fst nm) cfg)
      end).
(** lib.rs:232 [encode] *)
Definition b64_encode_b (s : isa) (cfg : b64_config) (p : ptr) (n : nat) (q : ptr) (k ts td : nat) : bcode (result (ptr * nat) * nat) :=
  fn (ts <== shared_param p n ts ;;
      slice_len p n ts ;=;
      let m := b64_encoded_length_unchecked n cfg in
      if negb (m <=? k) then fails else
      ts <== slice_parts p n ts ;;
      exec (via2 (fst p) ts (fst q) td) (b64_encode_impl s p n q cfg) ;=;
      u <== slice_mut q m td ;; give (q, m) u).
(** lib.rs:262 [decode] *)
Definition b64_decode_b (en : endian) (s : isa) (cfg : b64_config) (p : ptr) (n : nat) (q : ptr) (k ts td : nat) : bcode (result (ptr * nat) * nat) :=
  fn (ts <== shared_param p n ts ;;
      r <== b64_decoded_length_b cfg p n ts ;;
      match r with
      | Err => fails
      | Ok nm =>
          if negb (snd nm <=? k) then fails else
          ts <== as_ptr p n ts ;;
          r <== exec (via2 (fst p) ts (fst q) td) (b64_decode_impl en s p q (fst nm) cfg) ;;
          match r with Err => fails | Ok _ => u <== slice_mut q (snd nm) td ;; give (q, snd nm) u end
      end).
(** lib.rs:280 [decode_inplace] *)
Definition b64_decode_inplace_b (en : endian) (s : isa) (cfg : b64_config) (p : ptr) (n td : nat) : bcode (result (ptr * nat) * nat) :=
  fn (td <== mut_param p n td ;;
      t <== reborrow p n td ;;
      r <== b64_decoded_length_b cfg p n t ;;
      match r with
      | Err => fails
      | Ok nm =>
          tr <== as_mut_ptr p n td ;;
          r <== exec (via1 (fst p) tr) (b64_decode_impl en s p p (fst nm) cfg) ;;
          match r with Err => fails | Ok _ => u <== slice_mut p (snd nm) tr ;; give (p, snd nm) u end
      end).

(** ** base64-simd/ascii.rs and forgiving.rs *)
(** ascii.rs:104 [find_non_ascii_whitespace] *)
Definition find_b (s : isa) (p : ptr) (n t : nat) : bcode nat :=
  fn (t <== shared_param p n t ;; t <== slice_parts p n t ;; exec (via1 (fst p) t) (find_non_ascii_whitespace s p n)).
(** ascii.rs:129 [remove_ascii_whitespace_inplace]; the length of the returned slice, and its tag. [get_unchecked_mut] makes
    the returned reference from its parameter. *)
Definition remove_inplace_b (s : isa) (p : ptr) (n td : nat) : bcode (nat * nat) :=
  fn (td <== mut_param p n td ;;
      t <== reborrow p n td ;;
      pos <== find_b s p n t ;;
      exec (via1 (fst p) 0) (debug_assert (pos <=? n)) ;=;
      t <== reborrow p n td ;; slice_len p n t ;=;
      if pos =? n then Return (n, td) else
      t <== reborrow p n td ;; slice_len p n t ;=;
      l <== exec (via1 (fst p) 0) (psub_len n pos) ;;
      tr <== as_mut_ptr p n td ;;
      dst <== exec (via1 (fst p) tr) (padd p pos) ;;
      rem <== exec (via1 (fst p) tr) (remove_ascii_whitespace_fallback dst l dst) ;;
      exec (via1 (fst p) 0) (debug_assert (rem <=? l)) ;=;
      u <== reborrow_mut p n td ;;
      fn (u <== mut_param p n u ;;
          len <== exec (via1 (fst p) 0) (if (pos + rem <=? n) then ret (pos + rem) else ub) ;;
          u <== reborrow_mut p len u ;; Return (len, u))).
(** forgiving.rs:21 [forgiving_decode_inplace] *)
Definition forgiving_decode_inplace_b (en : endian) (s1 s2 : isa) (p : ptr) (n td : nat) : bcode (result (ptr * nat) * nat) :=
  fn (td <== mut_param p n td ;;
      t <== reborrow_mut p n td ;;
      r <== remove_inplace_b s1 p n t ;;
      t <== reborrow_mut p (fst r) (snd r) ;;
      b64_decode_inplace_b en s2 STANDARD_FORGIVING p (fst r) t).
(** forgiving.rs:38 [forgiving_decode] *)
Definition forgiving_decode_b (en : endian) (s1 s2 : isa) (p : ptr) (n : nat) (q : ptr) (k ts td : nat) : bcode (result (ptr * nat) * nat) :=
  fn (ts <== shared_param p n ts ;;
      slice_len p n ts ;=;
      if negb (n <=? k) then fails else
      pos <== find_b s1 p n ts ;;
      slice_len p n ts ;=;
      exec (via1 (fst p) ts) (debug_assert (pos <=? n)) ;=;
      slice_len p n ts ;=;
      if pos =? n then b64_decode_b en s2 STANDARD_FORGIVING p n q k ts td else
      slice_len p n ts ;=;
      tp <== as_ptr p n ts ;;
      let v := via2 (fst p) tp (fst q) td in
      exec v (copy_nonoverlapping p q pos) ;=;
      p' <== exec v (padd p pos) ;;
      l <== exec v (psub_len n pos) ;;
      d <== exec v (padd q pos) ;;
      rem <== exec v (remove_ascii_whitespace_fallback p' l d) ;;
      exec v (debug_assert (rem <=? l)) ;=;
      u <== slice_mut q (pos + rem) td ;;
      u <== reborrow_mut q (pos + rem) u ;;
      b64_decode_inplace_b en s2 STANDARD_FORGIVING q (pos + rem) u).

(** ** base32-simd/lib.rs *)
(** decode.rs:30 [decoded_length] *)
Definition b32_decoded_length_b (padding : bool) (p : ptr) (n t : nat) : bcode (result (nat * nat)) :=
  fn (t <== shared_param p n t ;; slice_len p n t ;=; slice_len p n t ;=; exec (via1 (fst p) t) (b32_decoded_length p n padding)).
(** lib.rs:173 [check] *)
Definition b32_check_b (t : target) (s : isa) (cfg : b32_config) (p : ptr) (n ts : nat) : bcode (result unit) :=
  fn (ts <== shared_param p n ts ;;
      r <== b32_decoded_length_b (b32_padding cfg) p n ts ;;
      match r with
      | Err => Return Err
      | Ok nm => ts <== as_ptr p n ts ;; exec (via1 (fst p) ts) (b32_check_impl t s p (fst nm) (b32_kind_of cfg))
      end).
(** lib.rs:184 [encode] *)
Definition b32_encode_b (t : target) (s : isa) (cfg : b32_config) (p : ptr) (n : nat) (q : ptr) (k ts td : nat) : bcode (result (ptr * nat) * nat) :=
  fn (ts <== shared_param p n ts ;;
      slice_len p n ts ;=;
      let m := b32_encoded_length_unchecked n (b32_padding cfg) in
      if negb (m <=? k) then fails else
      ts <== slice_parts p n ts ;;
      exec (via2 (fst p) ts (fst q) td) (b32_encode_impl t s p n q (b32_kind_of cfg) (b32_padding cfg)) ;=;
      u <== slice_mut q m td ;; give (q, m) u).
(** lib.rs:214 [decode] *)
Definition b32_decode_b (t : target) (s : isa) (cfg : b32_config) (p : ptr) (n : nat) (q : ptr) (k ts td : nat) : bcode (result (ptr * nat) * nat) :=
  fn (ts <== shared_param p n ts ;;
      r <== b32_decoded_length_b (b32_padding cfg) p n ts ;;
      match r with
      | Err => fails
      | Ok nm =>
          if negb (snd nm <=? k) then fails else
          ts <== as_ptr p n ts ;;
          r <== exec (via2 (fst p) ts (fst q) td) (b32_decode_impl t s p (fst nm) q (b32_kind_of cfg)) ;;
          match r with Err => fails | Ok _ => u <== slice_mut q (snd nm) td ;; give (q, snd nm) u end
      end).
(** lib.rs:232 [decode_inplace] *)
Definition b32_decode_inplace_b (t : target) (s : isa) (cfg : b32_config) (p : ptr) (n td : nat) : bcode (result (ptr * nat) * nat) :=
  fn (td <== mut_param p n td ;;
      u <== reborrow p n td ;;
      r <== b32_decoded_length_b (b32_padding cfg) p n u ;;
      match r with
      | Err => fails
      | Ok nm =>
          tr <== as_mut_ptr p n td ;;
          r <== exec (via1 (fst p) tr) (b32_decode_impl t s p (fst nm) p (b32_kind_of cfg)) ;;
          match r with Err => fails | Ok _ => u <== slice_mut p (snd nm) tr ;; give (p, snd nm) u end
      end).

(** ** uuid-simd/lib.rs. [&mut *dst.cast()] makes a reference to an array from the raw pointer. *)
(** lib.rs:120 [parse_simple] *)
Definition uuid_parse_simple_b (s : isa) (p : ptr) (n : nat) (q : ptr) (ts td : nat) : bcode (result (ptr * nat) * nat) :=
  fn (ts <== shared_param p n ts ;;
      slice_len p n ts ;=;
      if negb (n =? 32) then fails else
      ts <== as_ptr p n ts ;;
      r <== exec (via2 (fst p) ts (fst q) td) (parse_simple_impl s p q) ;;
      match r with Err => fails | Ok _ => u <== reborrow_mut q 16 td ;; give (q, 16) u end).
(** lib.rs:138 [parse_hyphenated] *)
Definition uuid_parse_hyphenated_b (s : isa) (p : ptr) (n : nat) (q : ptr) (ts td : nat) : bcode (result (ptr * nat) * nat) :=
  fn (ts <== shared_param p n ts ;;
      slice_len p n ts ;=;
      if negb (n =? 36) then fails else
      ts <== as_ptr p n ts ;;
      r <== exec (via2 (fst p) ts (fst q) td) (parse_hyphenated_impl s p q) ;;
      match r with Err => fails | Ok _ => u <== reborrow_mut q 16 td ;; give (q, 16) u end).
(** lib.rs:81 [parse]. [strip_prefix] compares the first nine bytes and makes a reference to the other 36; the pointer that
    [parse_hyphenated] gets then is made from that reference. *)
Definition uuid_parse_b (s1 s2 : isa) (p : ptr) (n : nat) (q : ptr) (ts td : nat) : bcode (result (ptr * nat) * nat) :=
  fn (ts <== shared_param p n ts ;;
      slice_len p n ts ;=;
      if n =? 32 then
        ts <== as_ptr p n ts ;;
        r <== exec (via2 (fst p) ts (fst q) td) (parse_simple_impl s1 p q) ;;
        match r with Err => fails | Ok _ => u <== reborrow_mut q 16 td ;; give (q, 16) u end
      else
        r <== (if n =? 36 then ts <== as_ptr p n ts ;; Return (Ok p, ts)
              else if n =? 38 then
                ts <== as_ptr p n ts ;;
                a <== exec (via1 (fst p) ts) (read p 0) ;;
                if negb (Z.eqb a 123) then fails else
                b <== exec (via1 (fst p) ts) (read p 37) ;;
                if negb (Z.eqb b 125) then fails else
                p' <== exec (via1 (fst p) ts) (padd p 1) ;;
                Return (Ok p', ts)
              else if n =? 45 then
                r <== fn (ts <== shared_param p n ts ;;
                         h <== exec (via1 (fst p) ts) (load p 9) ;;
                         if list_eqb h URN_PREFIX
                         then p' <== exec (via1 (fst p) ts) (padd p 9) ;; u <== reborrow p' 36 ts ;; Return (Ok p', u)
                         else fails) ;;
                match fst r with
                | Err => fails
                | Ok p' => ts <== as_ptr p' 36 (snd r) ;; Return (Ok p', ts)
                end
              else fails) ;;
        match fst r with
        | Err => fails
        | Ok p' =>
            r <== exec (via2 (fst p) (snd r) (fst q) td) (parse_hyphenated_impl s2 p' q) ;;
            match r with Err => fails | Ok _ => u <== reborrow_mut q 16 td ;; give (q, 16) u end
        end).
(** lib.rs:151 [format_simple], 163 [format_hyphenated] *)
Definition uuid_format_simple_b (s : isa) (case : ascii_case) (p q : ptr) (ts td : nat) : bcode ((ptr * nat) * nat) :=
  fn (ts <== shared_param p 16 ts ;;
      ts <== as_ptr p 16 ts ;;
      exec (via2 (fst p) ts (fst q) td) (format_simple_impl s p q case) ;=;
      u <== reborrow_mut q 32 td ;; Return ((q, 32), u)).
Definition uuid_format_hyphenated_b (s : isa) (case : ascii_case) (p q : ptr) (ts td : nat) : bcode ((ptr * nat) * nat) :=
  fn (ts <== shared_param p 16 ts ;;
      ts <== as_ptr p 16 ts ;;
      exec (via2 (fst p) ts (fst q) td) (format_hyphenated_impl s p q case) ;=;
      u <== reborrow_mut q 36 td ;; Return ((q, 36), u)).

(** ** unicode-simd/lib.rs; [n] and [k] are numbers of elements *)
(** lib.rs:44 [is_ascii], 59 [is_utf32le] *)
Definition is_ascii_b (x64 : bool) (s : isa) (p : ptr) (n ts : nat) : bcode bool :=
  fn (ts <== shared_param p n ts ;; ts <== slice_parts p n ts ;; exec (via1 (fst p) ts) (is_ascii x64 s p n)).
Definition is_utf32le_b (en : endian) (s : isa) (p : ptr) (n ts : nat) : bcode bool :=
  fn (ts <== shared_param p (4 * n) ts ;; ts <== slice_parts p (4 * n) ts ;; exec (via1 (fst p) ts) (is_utf32le en s p n)).
(** lib.rs:66, 90 [utf32_swap_endianness_inplace], [utf16_swap_endianness_inplace] *)
Definition swap_inplace_b (en : endian) (t : elem) (s : isa) (p : ptr) (n td : nat) : bcode unit :=
  let w := esize t * n in
  fn (td <== mut_param p w td ;;
      u <== reborrow p w td ;; slice_len p w u ;=;
      tr <== as_mut_ptr p w td ;;
      exec (via1 (fst p) tr) (swap_endianness en t s p n p)).
(** lib.rs:79, 103 [utf32_swap_endianness], [utf16_swap_endianness] *)
Definition swap_b (en : endian) (t : elem) (s : isa) (p : ptr) (n : nat) (q : ptr) (k ts td : nat) : bcode ((ptr * nat) * nat) :=
  let w := esize t * n in
  fn (ts <== shared_param p w ts ;;
      slice_len p w ts ;=;
      exec (via1 (fst p) ts) (if negb (n <=? k) then panic else ret tt) ;=;
      slice_len p w ts ;=;
      ts <== as_ptr p w ts ;;
      exec (via2 (fst p) ts (fst q) td) (swap_endianness en t s p n q) ;=;
      u <== slice_mut q w td ;; Return ((q, n), u)).

(** ** What a caller relies on *)
(** tags and call numbers in use are below [fresh] *)
Definition state_ok (s : borrows) : Prop :=
  (forall c, In c (active s) -> c < fresh s) /\
  forall b o i, In i (stacks s b o) -> i_tag i < fresh s /\ forall c, i_call i = Some c -> c < fresh s.
Definition may_read (s : borrows) (p : ptr) (n t : nat) : Prop :=
  forall i, i < n -> read_at (active s) t (stacks s (fst p) (snd p + i)) <> None.
Definition may_write (s : borrows) (p : ptr) (n t : nat) : Prop :=
  forall i, i < n -> write_at (active s) t (stacks s (fst p) (snd p + i)) <> None.
(** [t] may write, and no other pointer has been made from it since *)
Definition on_top (s : borrows) (p : ptr) (n t : nat) : Prop :=
  forall i, i < n -> exists g r, stacks s (fst p) (snd p + i) = g :: r /\ grants true t g = true.
(** the stacks outside the two ranges are as they were, and no call is left running *)
Definition leaves (s s' : borrows) (p : ptr) (n : nat) (q : ptr) (k : nat) : Prop :=
  state_ok s' /\ active s' = active s /\
  forall b o, in_range (fst p) (snd p) n b o = false -> in_range (fst q) (snd q) k b o = false -> stacks s' b o = stacks s b o.
(** the returned slice, if any ([ret]: where it is and how many bytes), is a new reference, [u], that may be written through *)
Definition returned (s s' : borrows) (slice : option (ptr * nat)) (u : nat) : Prop :=
  match slice with Some (q, k) => fresh s <= u /\ on_top s' q k u | None => True end.
Definition of_result {A} (r : result A) : option A := match r with Ok a => Some a | Err => None end.
(** [x] is [f] with its borrows: [f(&src, dst)], source and destination in different allocations. The caller may still read
    through the pointer to the source afterwards, and write through the pointer to the destination (when it does not use
    the returned reference any more). *)
Definition borrows_into {A} (ret : A -> option (ptr * nat)) (x : ptr -> nat -> ptr -> nat -> nat -> nat -> bcode (A * nat))
    (f : ptr -> nat -> ptr -> nat -> M A) (src : list Z) (dlen : nat) : Prop :=
  forall m s b o d e ts td, slice m b o src -> room m d e dlen -> b <> d ->
    state_ok s -> ts < fresh s -> td < fresh s -> may_read s (b, o) (length src) ts -> on_top s (d, e) dlen td ->
    exists r u s' m', runs (x (b, o) (length src) (d, e) dlen ts td) s m (r, u) s' m' /\
      f (b, o) (length src) (d, e) dlen m = Ret r m' /\
      leaves s s' (b, o) (length src) (d, e) dlen /\ returned s s' (ret r) u /\
      may_read s' (b, o) (length src) ts /\ may_write s' (d, e) dlen td.
(** [f(&mut data)] *)
Definition borrows_inplace {A} (ret : A -> option (ptr * nat)) (x : ptr -> nat -> nat -> bcode (A * nat))
    (f : ptr -> nat -> M A) (data : list Z) : Prop :=
  forall m s b o t, slice m b o data -> state_ok s -> t < fresh s -> may_write s (b, o) (length data) t ->
    exists r u s' m', runs (x (b, o) (length data) t) s m (r, u) s' m' /\ f (b, o) (length data) m = Ret r m' /\
      leaves s s' (b, o) (length data) (b, o) (length data) /\ returned s s' (ret r) u /\ may_write s' (b, o) (length data) t.
(** [f(&src)] *)
Definition borrows_check {A} (x : ptr -> nat -> nat -> bcode A) (f : ptr -> nat -> M A) (src : list Z) : Prop :=
  forall m s b o t, slice m b o src -> state_ok s -> t < fresh s -> may_read s (b, o) (length src) t ->
    exists r s' m', runs (x (b, o) (length src) t) s m r s' m' /\ f (b, o) (length src) m = Ret r m' /\
      leaves s s' (b, o) (length src) (b, o) (length src) /\ may_read s' (b, o) (length src) t.
