(** Calls of the public functions, as the caller sees them: what a call is to return and to leave in memory, which cells it
    may access and which it may write. PropThreads.v states what happens when several threads make such calls at the same
    time. Definitions only. *)
From Coq Require Import ZArith List Bool.
From Verif Require Import Bytes Mem MemFacts Slices Codec Isa Simd Spec Hex Base64 Base64Ref Base64Api Base32 Base32Ref Base32Api
  SimdFacts Ints Uuid UuidFacts UuidApi Unicode UnicodeSpec SwapFacts Forgiving Conc.
Import ListNotations.
Open Scope nat_scope. Open Scope m_scope.

(** ** Calls *)
Inductive call :=
(** [f(&src, dst) -> Result<&mut [u8], Error>] with the bytes [src] at ([b], [o]) and [dlen] cells for the result at ([d], [e]);
    [out] is the result: Ok of bytes, or Err *)
| Into (f : codec) (src : list Z) (b o d e dlen : nat) (out : option (list Z))
(** [f(&mut data) -> Result<&mut [u8], Error>] *)
| InPlace (f : ptr -> nat -> M (result (ptr * nat))) (data : list Z) (b o : nat) (out : option (list Z))
(** [f(&src) -> Result<(), Error>] or [bool] *)
| Check (f : ptr -> nat -> M (result unit)) (src : list Z) (b o : nat) (answer : bool).

(** the slices are there *)
Definition ready (m : mem) (c : call) : Prop :=
  match c with
  | Into _ src b o d e dlen _ => slice m b o src /\ room m d e dlen /\ separate b o (length src) d e dlen
  | InPlace _ data b o _ => slice m b o data
  | Check _ src b o _ => slice m b o src
  end.
(** The call, and a panic unless it returns what it should: a slice at the start of the destination, of the right length,
    or Err. *)
Definition expect (r : result (ptr * nat)) (q : ptr) (out : option (list Z)) : M unit :=
  match r, out with
  | Ok (p, n), Some x => if (fst p =? fst q) && (snd p =? snd q) && (n =? length x) then ret tt else panic
  | Err, None => ret tt
  | _, _ => panic
  end.
Definition code (c : call) : M unit :=
  match c with
  | Into f src b o d e dlen out => r <- f (b, o) (length src) (d, e) dlen ;; expect r (d, e) out
  | InPlace f data b o out => r <- f (b, o) (length data) ;; expect r (b, o) out
  | Check f src b o answer =>
      r <- f (b, o) (length src) ;;
      match r, answer with Ok _, true => ret tt | Err, false => ret tt | _, _ => panic end
  end.
(** ... and the bytes are there *)
Definition delivered (m : mem) (c : call) : Prop :=
  match c with
  | Into _ _ _ _ d e _ (Some x) => bytes_at m d e x
  | InPlace _ _ b o (Some x) => bytes_at m b o x
  | _ => True
  end.

(** ** Who accesses what *)
Definition within (b o n b' o' : nat) : bool := (b' =? b) && (o <=? o') && (o' <? o + n).
Definition accesses (c : call) (b' o' : nat) : bool :=
  match c with
  | Into _ src b o d e dlen _ => within b o (length src) b' o' || within d e dlen b' o'
  | InPlace _ data b o _ => within b o (length data) b' o'
  | Check _ src b o _ => within b o (length src) b' o'
  end.
(** the allocation that the call may store to *)
Definition target (c : call) (b' : nat) : Prop :=
  match c with Into _ _ _ _ d _ _ _ => d = b' | InPlace _ _ b _ _ => b = b' | Check _ _ _ _ _ => False end.
(** The cells that the call may write: the destination (and the source, if it is in the same allocation). *)
Definition writes (c : call) (b' o' : nat) : bool :=
  match c with
  | Into _ _ _ _ d _ _ _ => (d =? b') && accesses c b' o'
  | InPlace _ _ b _ _ => accesses c b' o'
  | Check _ _ _ _ _ => false
  end.

(** ** The public functions that work on given memory, and what they are specified to return *)
Definition swap_codec (en : endian) (t : elem) (s : isa) : codec := fun p n q k =>
  r <- swap_endianness_to en t s p (n / esize t) q (k / esize t) ;; ret (Ok (fst r, snd r * esize t)).
Definition swap_inplace_codec (en : endian) (t : elem) (s : isa) (p : ptr) (n : nat) : M (result (ptr * nat)) :=
  swap_endianness_inplace en t s p (n / esize t) ;;; ret (Ok (p, n)).
Definition answers (f : ptr -> nat -> M bool) (p : ptr) (n : nat) : M (result unit) :=
  r <- f p n ;; ret (if r then Ok tt else Err).
Definition swapped (t : elem) : Z -> Z := match t with U16 => swap16 | U32 => swap32 | U64 => swap64 end.
Definition digits_of (case : ascii_case) : list Z := match case with Lower => hex_lower | Upper => hex_upper end.
(** [t], if it fits *)
Definition fits (dlen : nat) (t : list Z) : option (list Z) := if length t <=? dlen then Some t else None.

Inductive public : call -> Prop :=
| pub_hex_encode s case src b o d e dlen :
    public (Into (fun p n q k => hex_encode s p n q k case) src b o d e dlen (fits dlen (rfc_hex_encode (digits_of case) src)))
| pub_hex_decode s src b o d e dlen out :
    exactly out (fun x => (bytes x /\ map ascii_lower src = rfc_hex_encode hex_lower x) /\ length x <= dlen) ->
    public (Into (hex_decode s) src b o d e dlen out)
| pub_hex_decode_inplace s data b o out :
    exactly out (fun x => bytes x /\ map ascii_lower data = rfc_hex_encode hex_lower x) ->
    public (InPlace (hex_decode_inplace s) data b o out)
| pub_hex_check s src b o answer :
    (answer = true <-> forall c, In c src -> In c hex_lower \/ In c hex_upper) ->
    public (Check (hex_check s) src b o answer)
| pub_b64_encode s cfg src b o d e dlen : b64_isa s ->
    public (Into (b64_encode s cfg) src b o d e dlen (fits dlen (b64_rfc cfg src)))
| pub_b64_decode en s cfg src b o d e dlen out : b64_isa s -> b64_extra_of cfg <> Forgiving ->
    exactly out (fun x => (bytes x /\ b64_rfc cfg x = src) /\ length x <= dlen) ->
    public (Into (b64_decode en s cfg) src b o d e dlen out)
| pub_b64_decode_forgiving en s k src b o d e dlen out : b64_isa s ->
    exactly out (fun x => forgiving_decode_nows (b64_alphabet k) src = Some x /\ length x <= dlen) ->
    public (Into (b64_decode en s {| b64_kind_of := k; b64_extra_of := Forgiving |}) src b o d e dlen out)
| pub_b64_decode_inplace en s cfg data b o out : b64_isa s -> b64_extra_of cfg <> Forgiving ->
    exactly out (fun x => bytes x /\ b64_rfc cfg x = data) ->
    public (InPlace (b64_decode_inplace en s cfg) data b o out)
| pub_b64_decode_inplace_forgiving en s k data b o : b64_isa s ->
    public (InPlace (b64_decode_inplace en s {| b64_kind_of := k; b64_extra_of := Forgiving |}) data b o
              (forgiving_decode_nows (b64_alphabet k) data))
| pub_b64_check en s cfg src b o answer : b64_isa s -> b64_extra_of cfg <> Forgiving ->
    (answer = true <-> exists x, bytes x /\ b64_rfc cfg x = src) ->
    public (Check (b64_check en s cfg) src b o answer)
| pub_b64_check_forgiving en s k src b o answer : b64_isa s ->
    (answer = true <-> exists x, forgiving_decode_nows (b64_alphabet k) src = Some x) ->
    public (Check (b64_check en s {| b64_kind_of := k; b64_extra_of := Forgiving |}) src b o answer)
| pub_forgiving_decode en s1 s2 src b o d e dlen : b64_isa s2 ->
    public (Into (forgiving_decode en s1 s2) src b o d e dlen
              (if length src <=? dlen then whatwg_forgiving_decode src else None))
| pub_forgiving_decode_inplace en s1 s2 data b o : b64_isa s2 ->
    public (InPlace (forgiving_decode_inplace en s1 s2) data b o (whatwg_forgiving_decode data))
| pub_b32_encode t s cfg src b o d e dlen : b32_isa s ->
    public (Into (b32_encode t s cfg) src b o d e dlen (fits dlen (b32_rfc cfg src)))
| pub_b32_decode t s cfg src b o d e dlen out : b32_isa s ->
    exactly out (fun x => (bytes x /\ b32_rfc cfg x = src) /\ length x <= dlen) ->
    public (Into (b32_decode t s cfg) src b o d e dlen out)
| pub_b32_decode_inplace t s cfg data b o out : b32_isa s ->
    exactly out (fun x => bytes x /\ b32_rfc cfg x = data) ->
    public (InPlace (b32_decode_inplace t s cfg) data b o out)
| pub_b32_check t s cfg src b o answer : b32_chk_isa s ->
    (answer = true <-> exists x, bytes x /\ b32_rfc cfg x = src) ->
    public (Check (b32_check t s cfg) src b o answer)
| pub_uuid_parse s1 s2 src b o d e out : hyph_isa s2 -> exactly out (uuid_text src) ->
    public (Into (parse_codec s1 s2) src b o d e 16 out)
| pub_uuid_parse_simple s src b o d e out : exactly out (uuid_text_simple src) ->
    public (Into (parse_simple_codec s) src b o d e 16 out)
| pub_uuid_parse_hyphenated s src b o d e out : hyph_isa s -> exactly out (uuid_text_hyphenated src) ->
    public (Into (parse_hyphenated_codec s) src b o d e 16 out)
| pub_uuid_format_simple s case u b o d e : length u = 16 ->
    public (Into (format_simple_codec s case) u b o d e 32 (Some (uuid_simple (digits_of case) u)))
| pub_uuid_format_hyphenated s case u b o d e : hyph_isa s -> length u = 16 ->
    public (Into (format_hyphenated_codec s case) u b o d e 36 (Some (uuid_hyphenated (digits_of case) u)))
| pub_is_ascii x64 s src b o answer :
    (answer = true <-> forall c, In c src -> ascii_char c) ->
    public (Check (answers (is_ascii x64 s)) src b o answer)
| pub_is_utf32 en s xs b o answer : s = Fallback \/ (sse41p s /\ en = LE) -> Forall (uint 4) xs ->
    (answer = true <-> forall x, In x xs -> scalar_value x) ->
    public (Check (answers (fun p n => is_utf32le en s p (n / 4))) (arr en 4 xs) b o answer)
| pub_swap en t s xs b o d e dlen : swap_isa s -> Forall (uint (esize t)) xs -> length xs <= dlen ->
    public (Into (swap_codec en t s) (arr en (esize t) xs) b o d e (esize t * dlen) (Some (arr en (esize t) (map (swapped t) xs))))
| pub_swap_inplace en t s xs b o : swap_isa s -> Forall (uint (esize t)) xs ->
    public (InPlace (swap_inplace_codec en t s) (arr en (esize t) xs) b o (Some (arr en (esize t) (map (swapped t) xs)))).
