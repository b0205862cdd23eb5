(** Model of the outer layers of the public interface: the raw-pointer functions of hex-simd, [encode_to_string] and
    [decode_to_vec] of the three codecs, appending to a [String], and the [UuidExt] trait of uuid-simd.
    Paths are under /repo/crates.

    The generic functions [encode_type::<T>], [decode_type::<T>], [encode_append::<T>] and [decode_append::<T>] only select a
    trait implementation, so there is one definition per function and type. [impl AsRef<[u8]>] gives the slice itself. *)
From Coq Require Import ZArith List Bool.
From Verif Require Import Bytes Mem Isa Simd Ints Hex Base64 Base32 Uuid Heap.
Import ListNotations.
Open Scope Z_scope.
Open Scope m_scope.

(** ** hex-simd/src/lib.rs *)
(** 101 [check_raw] *)
Definition hex_check_raw (s : isa) (src : ptr) (len : nat) : Mem.M (result unit) := hex_check_impl s src len.
(** 115 [encode_raw] *)
Definition hex_encode_raw (M : machine) (s : isa) (src : ptr) (len : nat) (dst : ptr) (case : ascii_case) : Mem.M Z :=
  hex_encode_impl s src len dst case ;;; usize M (Z.of_nat len * 2).
(** 132 [decode_raw] *)
Definition hex_decode_raw (s : isa) (src : ptr) (len : nat) (dst : ptr) : Mem.M (result nat) :=
  if negb (len mod 2 =? 0)%nat then ret Err else
  try_ (hex_decode_impl s src len dst) (fun _ => ret (Ok (len / 2)%nat)).

(** ** heap.rs: [Vec<u8>] and [String] from the box; the conversions keep the allocation *)
Definition into_vec (f : Mem.M boxed) : Mem.M vec := b <- f ;; ret (vec_of_box b).
Definition into_vec_res (f : Mem.M (result boxed)) : Mem.M (result vec) := try_ f (fun b => ret (Ok (vec_of_box b))).

(** hex-simd/src/lib.rs:281 [encode_to_string]; heap.rs:142 [FromHexEncode for String] *)
Definition hex_encode_to_string (M : machine) (s : isa) (case : ascii_case) (data : ptr) (len : nat) : Mem.M vec :=
  into_vec (hex_encode_to_boxed_str M s case data len).
(** hex-simd/src/lib.rs:292 [decode_to_vec]; heap.rs:107 [FromHexDecode for Vec<u8>] *)
Definition hex_decode_to_vec (M : machine) (s : isa) (data : ptr) (len : nat) : Mem.M (result vec) :=
  into_vec_res (hex_decode_to_boxed_bytes M s data len).
(** base64-simd/src/lib.rs:328 [encode_to_string]; heap.rs:148 *)
Definition b64_encode_to_string (M : machine) (s : isa) (config : b64_config) (data : ptr) (len : nat) : Mem.M vec :=
  into_vec (b64_encode_to_boxed_str M s config data len).
(** base64-simd/src/lib.rs:339 [decode_to_vec]; heap.rs:113 *)
Definition b64_decode_to_vec (M : machine) (en : endian) (s : isa) (config : b64_config) (data : ptr) (len : nat) : Mem.M (result vec) :=
  into_vec_res (b64_decode_to_boxed_bytes M en s config data len).
(** base32-simd/src/lib.rs:280 [encode_to_string]; heap.rs:144 *)
Definition b32_encode_to_string (M : machine) (t : target) (s : isa) (config : b32_config) (data : ptr) (len : nat) : Mem.M vec :=
  into_vec (b32_encode_to_boxed_str M t s config data len).
(** base32-simd/src/lib.rs:291 [decode_to_vec]; heap.rs:109 *)
Definition b32_decode_to_vec (M : machine) (t : target) (s : isa) (config : b32_config) (data : ptr) (len : nat) : Mem.M (result vec) :=
  into_vec_res (b32_decode_to_boxed_bytes M t s config data len).

(** [AppendHexEncode for String] (hex-simd/src/heap.rs:159), [AppendBase64Encode for String] (base64-simd/src/heap.rs:165),
    [AppendBase32Encode for String] (base32-simd/src/heap.rs:161): [dst.as_mut_vec()] is the string itself *)
Definition hex_append_string := hex_encode_append_vec.
Definition b64_append_string := b64_encode_append_vec.
Definition b32_append_string := b32_encode_append_vec.

(** ** uuid-simd/src/ext.rs
    A local [MaybeUninit] is a new block that is freed on return. [Uuid] is a transparent wrapper of [[u8; 16]], returned by
    value as its bytes. *)
(** 50 [parse_uuid] *)
Definition parse_uuid (M : machine) (f : ptr -> nat -> ptr -> Mem.M (result (ptr * nat))) (src : ptr) (len : nat) : Mem.M (result (list Z)) :=
  uuid <- alloc M 16 ;;
  r <- f src len (uuid, 0%nat) ;;
  match r with
  | Err => free uuid ;;; ret Err
  | Ok _ => u <- load (uuid, 0%nat) 16 (* assume_init *) ;; free uuid ;;; ret (Ok u)
  end.
(** 62 [UuidExt::parse], 67 [parse_simple], 72 [parse_hyphenated] *)
Definition ext_parse (M : machine) (s1 s2 : isa) := parse_uuid M (uuid_parse s1 s2).
Definition ext_parse_simple (M : machine) (s : isa) := parse_uuid M (uuid_parse_simple s).
Definition ext_parse_hyphenated (M : machine) (s : isa) := parse_uuid M (uuid_parse_hyphenated s).

(** 99 [format_uuid]: [g] gets the string; [from_utf8_unchecked] is undefined on anything that is not UTF-8 (the model asks for
    ASCII, a stronger condition) *)
Definition format_uuid {R} (M : machine) (N : nat) (uuid : ptr) (case : ascii_case)
    (f : ptr -> ptr -> ascii_case -> Mem.M (ptr * nat)) (g : list Z -> R) : Mem.M R :=
  buf <- alloc M N ;;
  ans <- f uuid (buf, 0%nat) case ;;
  str <- load (fst ans) (snd ans) ;;
  if forallb (fun c => c <? 128) str then free buf ;;; ret (g str) else ub.
(** The [fmt] functions; [g] stands for [<str as Display>::fmt(s, f)] with the caller's formatter.
    112 and 120 [LowerHex], 132 and 140 [UpperHex], 152 and 159 [Display] *)
Definition simple_lower_hex {R} M s uuid (g : list Z -> R) := format_uuid M 32 uuid Lower (uuid_format_simple s) g.
Definition simple_upper_hex {R} M s uuid (g : list Z -> R) := format_uuid M 32 uuid Upper (uuid_format_simple s) g.
Definition hyphenated_lower_hex {R} M s uuid (g : list Z -> R) := format_uuid M 36 uuid Lower (uuid_format_hyphenated s) g.
Definition hyphenated_upper_hex {R} M s uuid (g : list Z -> R) := format_uuid M 36 uuid Upper (uuid_format_hyphenated s) g.
Definition simple_display {R} M s uuid (g : list Z -> R) := simple_lower_hex M s uuid g.
Definition hyphenated_display {R} M s uuid (g : list Z -> R) := hyphenated_lower_hex M s uuid g.
