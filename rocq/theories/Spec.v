(** Specifications, independent of the model: RFC 4648 as bit strings, hexadecimal, UUID text
    forms, the WHATWG forgiving-base64 decoder, ASCII and UTF-32 predicates, byte swapping.
    Nothing here refers to the Rust code. *)
From Coq Require Import ZArith List Bool String Ascii Lia.
From Verif Require Import Bytes.
Import ListNotations.
Open Scope Z_scope.

(** ** Bit strings, most significant bit first *)

(** the [n] low bits of [v] *)
Fixpoint bits_of (n : nat) (v : Z) : list bool :=
  match n with O => [] | S k => Z.testbit v (Z.of_nat k) :: bits_of k v end.
Definition val_of (bs : list bool) : Z := fold_left (fun acc b => 2 * acc + (if b : bool then 1 else 0)) bs 0.
Definition bits_of_bytes (l : list Z) : list bool := flat_map (bits_of 8) l.

(** Split a bit string into [k]-bit values; the last group is zero-padded on the right. *)
Fixpoint groups (fuel k : nat) (bs : list bool) : list Z :=
  match fuel, bs with
  | O, _ | _, [] => []
  | S f, _ => val_of (firstn k bs ++ repeat false (k - List.length bs)) :: groups f k (skipn k bs)
  end.

(** Split a bit string into whole bytes, dropping an incomplete last byte. *)
Fixpoint whole_bytes (fuel : nat) (bs : list bool) : list Z :=
  match fuel with
  | O => []
  | S f => if (List.length bs <? 8)%nat then [] else val_of (firstn 8 bs) :: whole_bytes f (skipn 8 bs)
  end.

(** ** RFC 4648 encoding

    [k] bits per character; a full group is [blk] characters. *)
Definition pad_char : Z := 61. (* '=' *)
Definition rfc_values (k : nat) (data : list Z) : list Z :=
  let bs := bits_of_bytes data in groups (List.length bs) k bs.
Definition rfc_chars (k : nat) (alphabet : list Z) (data : list Z) : list Z :=
  map (fun v => nth (Z.to_nat v) alphabet 0) (rfc_values k data).
(** characters to add to reach a multiple of [blk] *)
Definition rfc_pad_len (blk n : nat) : nat := ((blk - n mod blk) mod blk)%nat.
Definition rfc_encode (k blk : nat) (alphabet : list Z) (padding : bool) (data : list Z) : list Z :=
  let cs := rfc_chars k alphabet data in
  cs ++ (if padding then repeat pad_char (rfc_pad_len blk (List.length cs)) else []).

Open Scope string_scope. Open Scope list_scope. Open Scope Z_scope.
(** RFC 4648 table 1, table 2, table 3, table 4 *)
Definition base64_std : list Z := str "ABCDEFGHIJKLMNOPQRSTUVWXYZabcdefghijklmnopqrstuvwxyz0123456789+/".
Definition base64_url : list Z := str "ABCDEFGHIJKLMNOPQRSTUVWXYZabcdefghijklmnopqrstuvwxyz0123456789-_".
Definition base32_std : list Z := str "ABCDEFGHIJKLMNOPQRSTUVWXYZ234567".
Definition base32_hex : list Z := str "0123456789ABCDEFGHIJKLMNOPQRSTUV".
Definition hex_lower : list Z := str "0123456789abcdef".
Definition hex_upper : list Z := str "0123456789ABCDEF".

Definition rfc_base64 (alphabet : list Z) := rfc_encode 6 4 alphabet.
Definition rfc_base32 (alphabet : list Z) := rfc_encode 5 8 alphabet.

(** RFC 4648 section 10 test vectors. *)
Example rfc_vec1 : rfc_base64 base64_std true (str "foobar") = str "Zm9vYmFy". Proof. reflexivity. Qed.
Example rfc_vec2 : rfc_base64 base64_std true (str "fooba") = str "Zm9vYmE=". Proof. reflexivity. Qed.
Example rfc_vec3 : rfc_base64 base64_std true (str "f") = str "Zg==". Proof. reflexivity. Qed.
Example rfc_vec4 : rfc_base32 base32_std true (str "foob") = str "MZXW6YQ=". Proof. reflexivity. Qed.
Example rfc_vec5 : rfc_base32 base32_hex true (str "f") = str "CO======". Proof. reflexivity. Qed.
Example rfc_vec6 : rfc_base32 base32_std true (str "foobar") = str "MZXW6YTBOI======". Proof. reflexivity. Qed.

(** ** Characters *)
Definition between (lo hi c : Z) : bool := (lo <=? c) && (c <=? hi).

(** position of a character in an alphabet *)
Fixpoint index_of (c : Z) (l : list Z) : option Z :=
  match l with
  | [] => None
  | x :: r => if c =? x then Some 0 else match index_of c r with Some i => Some (i + 1) | None => None end
  end.

(** ** Hexadecimal *)
Definition rfc_hex_encode (alphabet : list Z) (data : list Z) : list Z :=
  flat_map (fun b => [nth (Z.to_nat (b / 16)) alphabet 0; nth (Z.to_nat (b mod 16)) alphabet 0]) data.
(** digit value, either case *)
Definition hex_digit (c : Z) : option Z :=
  match index_of c hex_lower with Some v => Some v | None => index_of c hex_upper end.
Fixpoint rfc_hex_decode (s : list Z) : option (list Z) :=
  match s with
  | [] => Some []
  | a :: b :: r =>
      match hex_digit a, hex_digit b, rfc_hex_decode r with
      | Some x, Some y, Some o => Some (16 * x + y :: o)
      | _, _, _ => None
      end
  | _ => None
  end.

(** ASCII lower-casing *)
Definition ascii_lower (c : Z) : Z := if between 65 90 c then c + 32 else c.

(** one of 0-9, a-f, A-F *)
Definition hex_char (c : Z) : bool := between 48 57 c || between 97 102 c || between 65 70 c.
(** the digits of a case *)

Example hex_ex1 : rfc_hex_encode hex_lower [222; 173; 9] = str "dead09". Proof. reflexivity. Qed.
Example hex_ex2 : rfc_hex_decode (str "DeAD09") = Some [222; 173; 9]. Proof. reflexivity. Qed.
Example hex_ex3 : rfc_hex_decode (str "DeAg") = None. Proof. reflexivity. Qed.

(** ** UUID text forms (RFC 4122) *)
Definition uuid_hyphenate (t : list Z) : list Z :=
  let h := [45] in
  firstn 8 t ++ h ++ firstn 4 (skipn 8 t) ++ h ++ firstn 4 (skipn 12 t) ++ h
  ++ firstn 4 (skipn 16 t) ++ h ++ skipn 20 t.
Definition uuid_simple (alphabet data : list Z) : list Z := rfc_hex_encode alphabet data.
Definition uuid_hyphenated (alphabet data : list Z) : list Z := uuid_hyphenate (rfc_hex_encode alphabet data).
(** [t] is a text form of the UUID [data]: letters in either case;
    simple, hyphenated, urn:uuid: or braced. *)
Definition uuid_text_simple (t data : list Z) : Prop := List.length data = 16%nat /\ rfc_hex_decode t = Some data.
Definition uuid_text_hyphenated (t data : list Z) : Prop :=
  exists t', uuid_text_simple t' data /\ t = uuid_hyphenate t'.
Definition uuid_text (t data : list Z) : Prop :=
  uuid_text_simple t data \/ uuid_text_hyphenated t data \/
  (exists t', uuid_text_hyphenated t' data /\ t = str "urn:uuid:" ++ t') \/
  (exists t', uuid_text_hyphenated t' data /\ t = [123] ++ t' ++ [125]).

Example uuid_ex1 :
  uuid_hyphenated hex_lower (range 16) = str "00010203-0405-0607-0809-0a0b0c0d0e0f".
Proof. reflexivity. Qed.

(** ** WHATWG Infra: forgiving-base64 decode *)
Definition ascii_whitespace (c : Z) : bool :=
  existsb (Z.eqb c) [9; 10; 12; 13; 32].
Definition strip_whitespace (l : list Z) : list Z := filter (fun c => negb (ascii_whitespace c)) l.
(** "If data's code point length divides by 4 leaving no remainder: if it ends with one or two
    U+003D (=) code points, then remove them." *)
Definition ends_eq (l : list Z) : bool := match rev l with c :: _ => c =? pad_char | [] => false end.
Definition drop_last (l : list Z) : list Z := removelast l.
Definition whatwg_unpad (l : list Z) : list Z :=
  if (List.length l mod 4 =? 0)%nat then
    if ends_eq l then let l' := drop_last l in if ends_eq l' then drop_last l' else l' else l
  else l.
Definition forgiving_decode_nows (alphabet l : list Z) : option (list Z) :=
  let l := whatwg_unpad l in
  if (List.length l mod 4 =? 1)%nat then None
  else match sequence (map (fun c => index_of c alphabet) l) with
       | None => None
       | Some vs => let bs := flat_map (bits_of 6) vs in Some (whole_bytes (List.length bs) bs)
       end.
Definition whatwg_forgiving_decode (l : list Z) : option (list Z) :=
  forgiving_decode_nows base64_std (strip_whitespace l).

Example whatwg_ex1 : whatwg_forgiving_decode (str "a b") = Some [105]. Proof. reflexivity. Qed.
Example whatwg_ex2 : whatwg_forgiving_decode (str "ab==") = Some [105]. Proof. reflexivity. Qed.
Example whatwg_ex3 : whatwg_forgiving_decode (str "ab=") = None. Proof. reflexivity. Qed.
Example whatwg_ex4 : whatwg_forgiving_decode (str "abc") = Some [105; 183]. Proof. reflexivity. Qed.
Example whatwg_ex5 : whatwg_forgiving_decode (str "abcde") = None. Proof. reflexivity. Qed.

(** ** Unicode *)
Definition ascii_char (c : Z) : Prop := 0 <= c < 128.
(** Unicode scalar value *)
Definition scalar_value (u : Z) : Prop := 0 <= u < 55296 \/ 57343 < u <= 1114111.
