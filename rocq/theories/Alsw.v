(** Model of /repo/crates/vsimd/src/alsw.rs and of the five lookup-table instances:
    vsimd/src/hex.rs:78-99, base64-simd/src/alsw.rs, base32-simd/src/alsw.rs. *)
From Coq Require Import ZArith List Bool.
From Verif Require Import Bytes Isa Simd.
Import ListNotations.
Open Scope Z_scope.

(** alsw.rs:14 [lookup] *)
Definition lookup (lut : list Z) (x : Z) : Z := if x <? 128 then tbl_get lut (Z.land x 15) else 0.
(** alsw.rs:24 [avgr] *)
Definition avgr (a b : Z) : Z := ((a + b + 1) / 2) mod 256.
(** alsw.rs:30 [hash] *)
Definition hash (hash_lut : list Z) (c : Z) : Z := avgr (Z.lor 224 (c / 8)) (lookup hash_lut c).

(** The trait-like parameters of [impl_alsw!]: the three const functions of a spec type. *)
Record alsw_spec := {
  al_decode : Z -> Z;
  al_check_hash : Z -> Z;
  al_decode_hash : Z -> Z
}.

Fixpoint set_nth (l : list Z) (i : nat) (v : Z) : list Z :=
  match l, i with
  | [], _ => []
  | _ :: r, O => v :: r
  | x :: r, S i' => x :: set_nth r i' v
  end.

(** 255 down to 0 *)
Definition down255 : list Z := rev (range 256).

(** alsw.rs:132-141, 159-168 *)
Definition hash_table (h : Z -> Z) : list Z := map (fun i => (h i * 2) mod 256 - 1) (range 16).
Definition CHECK_HASH (a : alsw_spec) : list Z := hash_table (al_check_hash a).
Definition DECODE_HASH (a : alsw_spec) : list Z := hash_table (al_decode_hash a).
(** alsw.rs:143-157 *)
Definition CHECK_OFFSET (a : alsw_spec) : list Z :=
  fold_left (fun arr c =>
      if al_decode a c =? 255 then arr
      else set_nth arr (Z.to_nat (Z.land (hash (CHECK_HASH a) c) 15)) ((0 - c) mod 256))
    down255 (repeat 128 16).
(** alsw.rs:170-185 *)
Definition DECODE_OFFSET (a : alsw_spec) : list Z :=
  fold_left (fun arr c =>
      let idx := al_decode a c in
      if idx =? 255 then arr
      else set_nth arr (Z.to_nat (Z.land (hash (DECODE_HASH a) c) 15)) ((idx - c) mod 256))
    down255 (repeat 128 16).

(** alsw.rs:51 [AlswLut]: hash and offset tables; [x2] (line 59) duplicates both. *)
Definition alsw_lut := (list Z * list Z)%type.
Definition check_lut (a : alsw_spec) : alsw_lut := (CHECK_HASH a, CHECK_OFFSET a).
Definition decode_lut (a : alsw_spec) : alsw_lut := (DECODE_HASH a, DECODE_OFFSET a).
Definition lut_x2 (l : alsw_lut) : alsw_lut := (x2 (fst l), x2 (snd l)).

(** alsw.rs:68 [check_ascii_xn] *)
Definition check_ascii_xn (w : width) (s : isa) (x : list Z) (check : alsw_lut) : option bool :=
  let? shr3 := u32xn_shr w s 3 x in
  let? l1 := u8x16xn_lookup w s (fst check) x in
  let? h1 := u8xn_avgr w s shr3 l1 in
  let? o1 := u8x16xn_lookup w s (snd check) h1 in
  let? c1 := i8xn_add_sat w s x o1 in
  let? hb := u8xn_highbit_any w s c1 in
  Some (negb hb).

(** alsw.rs:95 [u8xn_avgr]: inline assembly [vpavgb] for AVX2 on V256, else the scalable operation *)
Definition alsw_u8xn_avgr (w : width) (s : isa) (a b : list Z) : option (list Z) :=
  if matches_isa s [IAVX2] && match w with W256 => true | W128 => false end
  then Some (map2 u8_avgr a b)
  else u8xn_avgr w s a b.

(** alsw.rs:77 [decode_ascii_xn] *)
Definition decode_ascii_xn (w : width) (s : isa) (x : list Z) (check decode : alsw_lut) : option (list Z * list Z) :=
  let? shr3 := u32xn_shr w s 3 x in
  let? l1 := u8x16xn_lookup w s (fst check) x in
  let? h1 := alsw_u8xn_avgr w s shr3 l1 in
  let? l2 := u8x16xn_lookup w s (fst decode) x in
  let? h2 := alsw_u8xn_avgr w s shr3 l2 in
  let? o1 := u8x16xn_lookup w s (snd check) h1 in
  let? o2 := u8x16xn_lookup w s (snd decode) h2 in
  let? c1 := i8xn_add_sat w s x o1 in
  let? c2 := u8xn_add w s x o2 in
  Some (c1, c2).

(** inclusive range pattern [lo..=hi] *)
Definition rng (lo hi c : Z) : bool := (lo <=? c) && (c <=? hi).

(** hex.rs:11 [parse_hex] *)
Definition parse_hex (x : Z) : Z :=
  if rng 48 57 x then x - 48 else if rng 97 102 x then x - 97 + 10
  else if rng 65 70 x then x - 65 + 10 else 255.

(** hex.rs:78-97 [HexAlsw] *)
Definition hex_check_hash (i : Z) : Z := if rng 0 6 i then 1 else if rng 7 9 i then 6 else 8.
Definition HexAlsw : alsw_spec := {| al_decode := parse_hex; al_check_hash := hex_check_hash; al_decode_hash := hex_check_hash |}.

(** base64-simd/alsw.rs:6-40 [StandardAlsw] *)
Definition StandardAlsw : alsw_spec := {|
  al_decode c :=
    if rng 65 90 c then c - 65 else if rng 97 122 c then c - 97 + 26 else if rng 48 57 c then c - 48 + 52
    else if c =? 43 then 62 else if c =? 47 then 63 else 255;
  al_check_hash i :=
    if i =? 0 then 5 else if rng 1 9 i then 2 else if i =? 10 then 4 else if i =? 11 then 6
    else if rng 12 14 i then 8 else 6;
  al_decode_hash i := if i =? 11 then 7 else if i =? 15 then 8 else 1
|}.

(** base64-simd/alsw.rs:46-81 [UrlSafeAlsw] *)
Definition UrlSafeAlsw : alsw_spec := {|
  al_decode c :=
    if rng 65 90 c then c - 65 else if rng 97 122 c then c - 97 + 26 else if rng 48 57 c then c - 48 + 52
    else if c =? 45 then 62 else if c =? 95 then 63 else 255;
  al_check_hash i :=
    if i =? 0 then 7 else if rng 1 9 i then 2 else if i =? 10 then 4 else if rng 11 12 i then 6
    else if i =? 13 then 8 else 6;
  al_decode_hash i := if i =? 13 then 1 else if i =? 15 then 5 else 1
|}.

(** base32-simd/alsw.rs:6-32 [Base32Alsw] *)
Definition base32_check_hash (i : Z) : Z :=
  if rng 0 1 i then 1 else if rng 2 7 i then 6 else if rng 8 10 i then 1 else 7.
Definition Base32Alsw : alsw_spec := {|
  al_decode c := if rng 65 90 c then c - 65 else if rng 50 55 c then c - 50 + 26 else 255;
  al_check_hash := base32_check_hash; al_decode_hash := base32_check_hash |}.

(** base32-simd/alsw.rs:38-63 [Base32HexAlsw] *)
Definition base32hex_check_hash (i : Z) : Z := if rng 0 6 i then 1 else if rng 7 9 i then 7 else 2.
Definition Base32HexAlsw : alsw_spec := {|
  al_decode c := if rng 48 57 c then c - 48 else if rng 65 86 c then c - 65 + 10 else 255;
  al_check_hash := base32hex_check_hash; al_decode_hash := base32hex_check_hash |}.
