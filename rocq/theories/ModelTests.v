(** The repository's own tests, run on the model.

    Nothing here is a proof of a property. The code could not be run where this model was written, so these are a check of the
    transcription: the expected values are the ones that the tests in /repo/crates/*/tests/it.rs and in the [cfg(test)] modules
    assert, and the model has to give them for every instruction set with which the function can be instantiated. Where a test
    draws random bytes, the bytes come from the linear congruential generator [rand_bytes]; where it compares with another crate
    (base64 in base64-simd's [random]), the comparison is with the RFC in Spec.v. *)
From Coq Require Import ZArith List Bool String.
From Verif Require Import Bytes Ints Mem Slices Isa Simd Spec Hex Base64 Base32 Uuid Forgiving Unicode Heap Public Alsw AlswTests.
Import ListNotations.
Open Scope list_scope. Open Scope Z_scope. Open Scope m_scope.
Notation length := List.length.

(** ** Helpers *)
Definition all_isas := [Fallback; SSE2; SSSE3; SSE41; AVX2; NEON32; NEON64; WASM128].
Definition swizzle_isas := [Fallback; SSSE3; SSE41; AVX2; NEON32; NEON64; WASM128].
Definition sse41_isas := [Fallback; SSE41; AVX2; NEON32; NEON64; WASM128].
Definition targets := [{| t_endian := LE; t_wasm32 := false |}; {| t_endian := BE; t_wasm32 := false |}; {| t_endian := LE; t_wasm32 := true |}].
Definition le := {| t_endian := LE; t_wasm32 := false |}.
Definition on {A} (l : list A) (f : A -> bool) : bool := forallb f l.

Fixpoint same (a b : list Z) : bool :=
  match a, b with [], [] => true | x :: a, y :: b => (x =? y) && same a b | _, _ => false end.
(** the bytes of a slice; [None] if one is uninitialised *)
Fixpoint all_init (l : list cell) : option (list Z) :=
  match l with
  | [] => Some []
  | Some x :: l => match all_init l with Some r => Some (x :: r) | None => None end
  | None :: _ => None
  end.
Definition at_ (m : mem) (p : ptr) (n : nat) : option (list Z) := all_init (firstn n (skipn (snd p) (m (fst p)))).
(** the bytes of the slice that a call returns; [Some Err] for an error, [None] for a panic or undefined behaviour *)
Definition out (r : res (result (ptr * nat))) : option (result (list Z)) :=
  match r with
  | Ret (Ok (p, n)) m => match at_ m p n with Some l => Some (Ok l) | None => None end
  | Ret Err _ => Some Err
  | _ => None
  end.
(** [f(src, dst)] with a destination of [n] bytes, on buffers of exactly these sizes *)
Definition into (f : codec) (src : list Z) (n : nat) : option (result (list Z)) :=
  out (f (0, 0)%nat (length src) (1, 0)%nat n (mem_of [cells src; uninit n])).
Definition inplace (f : ptr -> nat -> M (result (ptr * nat))) (data : list Z) : option (result (list Z)) :=
  out (f (0, 0)%nat (length data) (mem_of [cells data])).
Definition checked (f : ptr -> nat -> M (result unit)) (src : list Z) : option bool :=
  match f (0, 0)%nat (length src) (mem_of [cells src]) with Ret (Ok tt) _ => Some true | Ret Err _ => Some false | _ => None end.

(** assertions *)
Definition gives (r : option (result (list Z))) (l : list Z) : bool := match r with Some (Ok x) => same x l | _ => false end.
Definition fails (r : option (result (list Z))) : bool := match r with Some Err => true | _ => false end.
Definition yes (r : option bool) : bool := match r with Some b => b | None => false end.
Definition no (r : option bool) : bool := match r with Some b => negb b | None => false end.
Definition value {A} (r : res A) : option A := match r with Ret a _ => Some a | _ => None end.

Fixpoint lcg (n : nat) (x : Z) : list Z :=
  match n with O => [] | S n => let y := (x * 1103515245 + 12345) mod 2147483648 in (y / 65536) mod 256 :: lcg n y end.
Definition rand_bytes (n : nat) : list Z := lcg n (Z.of_nat n).
(** Lengths: the tests take all of 0..128 (or 0..256); the model is slow, so this file takes the ones around the block sizes. *)
Definition lengths : list nat := [0; 1; 2; 3; 5; 7; 8; 12; 15; 16; 17; 20; 24; 28; 31; 32; 33; 40; 48; 49; 63; 64; 65; 127]%nat.
Definition all_bytes : list Z := map Z.of_nat (seq 0 256).
Definition is_white (c : Z) : bool := existsb (Z.eqb c) [9; 10; 12; 13; 32].

(** ** hex-simd *)
Definition h (s : isa) (case : ascii_case) : codec := fun p n q k => hex_encode s p n q k case.

(** hex-simd/tests/it.rs:25 [as_str] *)
Example hex_as_str : on all_isas (fun s => gives (into (h s Lower) (str "hello") 10) (str "68656c6c6f")) = true.
Proof. vm_compute. reflexivity. Qed.

Definition hex_ok_cases : list (list Z) :=
  map (fun n => map (fun i => nth (i mod 16) (str "0123456789abcdef") 0) (seq 0 n)) lengths.
Definition hex_err_cases : list (list Z) := [[0]; [48; 0]; [97; 102; 0]; [97; 48; 99; 0]; [97; 48; 99; 49; 0]].
Definition and_then (r : option (result (list Z))) (f : list Z -> bool) : bool := match r with Some (Ok x) => f x | _ => false end.
Definition decode_encode s src case :=
  and_then (into (hex_decode s) src (length src / 2)) (fun d => gives (into (h s case) d (length src)) src).
Definition decode_inplace_encode s src case :=
  and_then (inplace (hex_decode_inplace s) src) (fun d => gives (into (h s case) d (length src)) src).
Definition encode_decode s src case :=
  and_then (into (h s case) src (length src * 2)) (fun e => gives (into (hex_decode s) e (length src)) src).
Definition encode_decode_inplace s src case :=
  and_then (into (h s case) src (length src * 2)) (fun e => gives (inplace (hex_decode_inplace s) e) src).
(** hex-simd/tests/it.rs:65 [random]. [hex_simd::check] accepts an odd number of digits. *)
Example hex_random_ok : on all_isas (fun s => on hex_ok_cases (fun src =>
  yes (checked (hex_check s) src) &&
  (if Nat.even (length src) then decode_encode s src Lower && decode_inplace_encode s src Lower
   else encode_decode s src Upper && encode_decode_inplace s src Lower))) = true.
Proof. vm_compute. reflexivity. Qed.
Example hex_random_err : on all_isas (fun s => on hex_err_cases (fun src =>
  no (checked (hex_check s) src) && fails (into (hex_decode s) src (length src / 2)))) = true.
Proof. vm_compute. reflexivity. Qed.
Example hex_random_bytes : on all_isas (fun s => on lengths (fun n => let src := rand_bytes n in
  encode_decode s src Lower && encode_decode_inplace s src Upper)) = true.
Proof. vm_compute. reflexivity. Qed.

(** ** The allocating functions. The allocator returns block 2. *)
Definition m64 := {| pointer_bits := 64; overflow_checks := true; new_block := 2; spare := 0 |}.
Definition vec_out (r : res vec) : option (result (list Z)) :=
  match r with Ret v m => match at_ m (v_block v, 0%nat) (v_len v) with Some l => Some (Ok l) | None => None end | _ => None end.
Definition rvec_out (r : res (result vec)) : option (result (list Z)) :=
  match r with
  | Ret (Ok v) m => match at_ m (v_block v, 0%nat) (v_len v) with Some l => Some (Ok l) | None => None end
  | Ret Err _ => Some Err
  | _ => None
  end.
Definition pair_out (r : res (result unit * vec)) : option (result (list Z)) :=
  match r with Ret (Ok tt, v) m => vec_out (Ret v m) | Ret (Err, _) _ => Some Err | _ => None end.
(** appending to a vector that holds [old] and has no spare capacity *)
Definition append {A} (f : ptr -> nat -> vec -> M A) (src old : list Z) : res A :=
  f (0, 0)%nat (length src) {| v_block := 1; v_len := length old |} (mem_of [cells src; cells old]).
Definition made {A} (f : ptr -> nat -> M A) (src : list Z) : res A := f (0, 0)%nat (length src) (mem_of [cells src; []]).

(** hex-simd/tests/it.rs:35 [allocation] *)
Example hex_allocation : on all_isas (fun s =>
  gives (vec_out (made (hex_encode_to_string m64 s Lower) (str "hello"))) (str "68656c6c6f") &&
  gives (rvec_out (made (hex_decode_to_vec m64 s) (str "68656c6c6f"))) (str "hello") &&
  gives (vec_out (append (hex_append_string m64 s Lower) [1; 2; 3] (str "0x"))) (str "0x010203") &&
  gives (pair_out (append (hex_decode_append_vec m64 s) (str "010203") (str "123"))) (str "123" ++ [1; 2; 3])) = true.
Proof. vm_compute. reflexivity. Qed.

(** ** base64-simd *)
(** the library's public [encoded_length] and [decoded_length] *)
Definition b64_len (cfg : b64_config) (n : nat) : nat := match b64_encoded_length 64 (Z.of_nat n) cfg with Some k => Z.to_nat k | None => 0 end.
Definition b64_dec_len (cfg : b64_config) (src : list Z) : option (result nat) :=
  match b64_decoded_length (0, 0)%nat (length src) cfg (mem_of [cells src]) with Ret (Ok nm) _ => Some (Ok (snd nm)) | Ret Err _ => Some Err | _ => None end.
Definition len_is (r : option (result nat)) (n : nat) : bool := match r with Some (Ok k) => Nat.eqb k n | _ => false end.
Definition len_err (r : option (result nat)) : bool := match r with Some Err => true | _ => false end.
Definition endians := [LE; BE].

(** base64-simd/tests/it.rs:24 [basic] *)
Definition b64_basic_cases := [("", ""); ("f", "Zg=="); ("fo", "Zm8="); ("foo", "Zm9v"); ("foob", "Zm9vYg=="); ("fooba", "Zm9vYmE="); ("foobar", "Zm9vYmFy")]%string.
Example b64_basic : on swizzle_isas (fun s => on endians (fun en => on b64_basic_cases (fun c =>
  let '(input, output) := (str (fst c), str (snd c)) in
  gives (into (b64_encode s STANDARD) input (b64_len STANDARD (length input))) output &&
  len_is (b64_dec_len STANDARD output) (length input) &&
  gives (into (b64_decode en s STANDARD) output (length input)) input))) = true.
Proof. vm_compute. reflexivity. Qed.

(** base64-simd/tests/it.rs:54 [allocation] *)
Example b64_allocation : on swizzle_isas (fun s => on endians (fun en =>
  gives (vec_out (append (b64_append_string m64 s STANDARD) (str "helloworld") (str "data:;base64,"))) (str "data:;base64,aGVsbG93b3JsZA==") &&
  gives (pair_out (append (b64_decode_append_vec m64 en s STANDARD) (str "aGVsbG93b3JsZA==") (str "123"))) (str "123helloworld"))) = true.
Proof. vm_compute. reflexivity. Qed.

(** base64-simd/tests/it.rs:72 [random] *)
Definition b64_expected (cfg : b64_config) (l : list Z) : list Z :=
  rfc_base64 (match b64_kind_of cfg with Standard => base64_std | UrlSafe => base64_url end) (b64_padding (b64_extra_of cfg)) l.
Example b64_random : on [STANDARD; URL_SAFE; STANDARD_NO_PAD; URL_SAFE_NO_PAD] (fun cfg => on lengths (fun n =>
  let bytes := rand_bytes n in let encoded := b64_expected cfg bytes in
  Nat.eqb (b64_len cfg n) (length encoded) && on swizzle_isas (fun s =>
  yes (checked (b64_check LE s cfg) encoded) &&
  gives (into (b64_encode s cfg) bytes (length encoded)) encoded &&
  gives (inplace (b64_decode_inplace LE s cfg) encoded) bytes &&
  gives (into (b64_decode LE s cfg) encoded n) bytes))) = true.
Proof. vm_compute. reflexivity. Qed.

(** base64-simd/tests/it.rs:133 [canonicity] *)
Example b64_canonicity : on swizzle_isas (fun s => on endians (fun en => on
  [("SGVsbG8=", Some "Hello"); ("SGVsbG9=", None); ("SGVsbG9", None); ("SGVsbA==", Some "Hell"); ("SGVsbA=", None); ("SGVsbA", None); ("SGVsbA====", None)]%string
  (fun c => let encoded := str (fst c) in let r := into (b64_decode en s STANDARD) encoded 64 in
    match snd c with
    | Some x => yes (checked (b64_check en s STANDARD) encoded) && gives r (str x)
    | None => no (checked (b64_check en s STANDARD) encoded) && fails r
    end))) = true.
Proof. vm_compute. reflexivity. Qed.

(** base64-simd/tests/it.rs:179 [precise_decoded_length] *)
Example b64_precise_tp : on swizzle_isas (fun s => on
  [(STANDARD, "", 0); (STANDARD, "YQ==", 1); (STANDARD, "YWI=", 2); (STANDARD, "YWJj", 3);
   (STANDARD_NO_PAD, "", 0); (STANDARD_NO_PAD, "YQ", 1); (STANDARD_NO_PAD, "YWI", 2); (STANDARD_NO_PAD, "YWJj", 3)]%nat%string
  (fun c => let '(cfg, data, n) := c in
    len_is (b64_dec_len cfg (str data)) n &&
    match made (b64_decode_to_vec m64 LE s cfg) (str data) with Ret (Ok v) _ => Nat.eqb (v_len v) n | _ => false end)) = true.
Proof. vm_compute. reflexivity. Qed.
Example b64_precise_fn : on swizzle_isas (fun s => on
  [(STANDARD, "====", 1); (STANDARD, "==a=", 2); (STANDARD, "===a", 3); (STANDARD_NO_PAD, "==", 1); (STANDARD_NO_PAD, "===", 2); (STANDARD_NO_PAD, "====", 3)]%nat%string
  (fun c => let '(cfg, data, n) := c in
    len_is (b64_dec_len cfg (str data)) n && fails (rvec_out (made (b64_decode_to_vec m64 LE s cfg) (str data))))) = true.
Proof. vm_compute. reflexivity. Qed.
Example b64_precise_tn : on swizzle_isas (fun s => on
  [(STANDARD, "Y"); (STANDARD, "YQ"); (STANDARD, "YWI"); (STANDARD, "YW="); (STANDARD, "Y="); (STANDARD, "="); (STANDARD, "=="); (STANDARD, "===");
   (STANDARD_NO_PAD, "="); (STANDARD_NO_PAD, "ABCDE")]%string
  (fun c => let '(cfg, data) := c in
    len_err (b64_dec_len cfg (str data)) && fails (rvec_out (made (b64_decode_to_vec m64 LE s cfg) (str data))))) = true.
Proof. vm_compute. reflexivity. Qed.
Example b64_precise_room : on swizzle_isas (fun s => let data := rand_bytes 32 in
  and_then (vec_out (made (b64_encode_to_string m64 s STANDARD_NO_PAD) data)) (fun encoded =>
    gives (into (b64_decode LE s STANDARD_NO_PAD) encoded 32) data && gives (into (b64_decode LE s STANDARD_NO_PAD) encoded 64) data)) = true.
Proof. vm_compute. reflexivity. Qed.

(** base64-simd/tests/it.rs:252 [estimated_decoded_length] *)
Example b64_estimated : map (b64_estimated_decoded_length 64) [0; 1; 2; 3; 4; 5; 6; 7; 8] = [0; 3; 3; 3; 3; 6; 6; 6; 6].
Proof. vm_compute. reflexivity. Qed.

(** base64-simd/src/forgiving.rs:111 [test_forgiving] *)
Definition forgiving_cases : list (list Z * list Z) :=
  [(str "ab", [105]); (str "abc", [105; 183]); (str "abcd", [105; 183; 29]);
   (str "helloworld", [133; 233; 101; 163; 10; 43; 149]);
   (str " h e l l o w o r" ++ [10] ++ str "l" ++ [13] ++ str "d" ++ [9], [133; 233; 101; 163; 10; 43; 149])].
Example b64_forgiving_test : on all_isas (fun s1 => on swizzle_isas (fun s2 => on endians (fun en => on forgiving_cases (fun c =>
  gives (inplace (forgiving_decode_inplace en s1 s2) (fst c)) (snd c) &&
  gives (into (forgiving_decode en s1 s2) (fst c) (length (fst c))) (snd c) &&
  gives (rvec_out (made (forgiving_decode_to_vec m64 en s1 s2) (fst c))) (snd c))))) = true.
Proof. vm_compute. reflexivity. Qed.

(** base64-simd/src/ascii.rs:155 [test_remove_ascii_whitespace] *)
Definition white5 := [9; 10; 12; 13; 32].
Definition white_cases : list (list Z) :=
  [[0; 0; 0; 0]; str "abcd"; str "ab" ++ [9] ++ str "cd"; str "ab" ++ [10] ++ str "cd"; str "ab" ++ [12] ++ str "cd"; str "ab" ++ [13] ++ str "cd";
   str "ab cd"; str "ab" ++ white5 ++ str "cd"; str "ab" ++ white5 ++ str "=" ++ white5 ++ str "=" ++ white5].
Example b64_remove_ascii_whitespace : on all_isas (fun s => on white_cases (fun c => on [1; 10]%nat (fun k =>
  let buf := List.concat (repeat c k) in
  match remove_ascii_whitespace_inplace s (0, 0)%nat (length buf) (mem_of [cells buf]) with
  | Ret n m => match at_ m (0, 0)%nat n with Some l => same l (filter (fun x => negb (is_white x)) buf) | None => false end
  | _ => false
  end))) = true.
Proof. vm_compute. reflexivity. Qed.

(** ** base32-simd *)
Definition b32_len (cfg : b32_config) (n : nat) : nat := match b32_encoded_length 64 (Z.of_nat n) cfg with Some k => Z.to_nat k | None => 0 end.
Definition b32_dec_len (cfg : b32_config) (src : list Z) : option (result nat) :=
  value (b32_decoded_length_api cfg (0, 0)%nat (length src) (mem_of [cells src])).

(** base32-simd/tests/it.rs:24 [basic] *)
Definition b32_basic_cases :=
  [(BASE32, "", ""); (BASE32, "f", "MY======"); (BASE32, "fo", "MZXQ===="); (BASE32, "foo", "MZXW6==="); (BASE32, "foob", "MZXW6YQ=");
   (BASE32, "fooba", "MZXW6YTB"); (BASE32, "foobar", "MZXW6YTBOI======");
   (BASE32HEX, "", ""); (BASE32HEX, "f", "CO======"); (BASE32HEX, "fo", "CPNG===="); (BASE32HEX, "foo", "CPNMU==="); (BASE32HEX, "foob", "CPNMUOG=");
   (BASE32HEX, "fooba", "CPNMUOJ1"); (BASE32HEX, "foobar", "CPNMUOJ1E8======")]%string.
Example b32_basic : on sse41_isas (fun s => on targets (fun t => on b32_basic_cases (fun c =>
  let '(cfg, i, o) := c in let '(input, output) := (str i, str o) in
  gives (into (b32_encode t s cfg) input (b32_len cfg (length input))) output &&
  len_is (b32_dec_len cfg output) (length input) &&
  gives (into (b32_decode t s cfg) output (length input)) input))) = true.
Proof. vm_compute. reflexivity. Qed.

(** base32-simd/tests/it.rs:62 [special], "failed random cases" *)
Definition b32_special_inputs : list (list Z) :=
  [[0xC5; 0xB2; 0xFF; 0x01; 0xEA; 0xA1; 0xCE; 0x92; 0x3F; 0xB5; 0x08; 0xD8; 0xBB; 0xE2; 0x80; 0xD9;
    0xC9; 0x8C; 0x5C; 0x18; 0x75; 0x3F; 0x12; 0xAE; 0xD7; 0xA5];
   [0x06; 0x3A; 0x87; 0x48; 0xAB; 0xD7; 0xAB; 0xF0; 0xAD; 0x85; 0x39; 0x50; 0x32; 0x23; 0x43; 0xEE;
    0x3B; 0x79; 0xF6; 0x95; 0xC9; 0x9B; 0x63; 0xE2; 0xAD; 0x66; 0x68; 0xB5; 0xE0; 0x2B; 0x5A; 0x81;
    0x5F; 0x46; 0xC2; 0x3B]].
Example b32_special : on sse41_isas (fun s => on targets (fun t => on b32_special_inputs (fun input =>
  and_then (into (b32_encode t s BASE32) input (b32_len BASE32 (length input))) (fun ans =>
    yes (checked (b32_check t s BASE32) ans) && gives (inplace (b32_decode_inplace t s BASE32) ans) input)))) = true.
Proof. vm_compute. reflexivity. Qed.

(** base32-simd/tests/it.rs:96 [allocation] *)
Example b32_allocation : on sse41_isas (fun s => on targets (fun t =>
  gives (vec_out (append (b32_append_string m64 t s BASE32) (str "helloworld") (str "data:;base32,"))) (str "data:;base32,NBSWY3DPO5XXE3DE") &&
  gives (pair_out (append (b32_decode_append_vec m64 t s BASE32) (str "NBSWY3DPO5XXE3DE") (str "123"))) (str "123helloworld"))) = true.
Proof. vm_compute. reflexivity. Qed.

(** base32-simd/tests/it.rs:114 [random] *)
Example b32_random : on [BASE32; BASE32HEX; BASE32_NO_PAD; BASE32HEX_NO_PAD] (fun cfg => on sse41_isas (fun s => on lengths (fun n =>
  let bytes := rand_bytes n in
  and_then (into (b32_encode le s cfg) bytes (b32_len cfg n)) (fun encoded =>
    yes (checked (b32_check le s cfg) encoded) &&
    gives (inplace (b32_decode_inplace le s cfg) encoded) bytes &&
    len_is (b32_dec_len cfg encoded) n &&
    gives (into (b32_decode le s cfg) encoded n) bytes)))) = true.
Proof. vm_compute. reflexivity. Qed.

(** ** uuid-simd *)
Definition uuid_ok_cases :=
  [("67e5504410b1426f9247bb680e5fe0c8", "67e55044-10b1-426f-9247-bb680e5fe0c8");
   ("67e5504410b1426f9247bb680e5fe0c8", "67e5504410b1426f9247bb680e5fe0c8");
   ("67e5504410b1426f9247bb680e5fe0c8", "{67e55044-10b1-426f-9247-bb680e5fe0c8}");
   ("67e5504410b1426f9247bb680e5fe0c8", "urn:uuid:67e55044-10b1-426f-9247-bb680e5fe0c8");
   ("00000000000000000000000000000000", "00000000000000000000000000000000");
   ("00000000000000000000000000000000", "00000000-0000-0000-0000-000000000000");
   ("01020304111221223132414243444546", "01020304-1112-2122-3132-414243444546");
   ("F9168C5ECEB24faaB6BF329BF39FA1E4", "F9168C5E-CEB2-4faa-B6BF-329BF39FA1E4");
   ("6d93badebd9f4e1389149474e1e3567b", "{6d93bade-bd9f-4e13-8914-9474e1e3567b}")]%string.
Definition uuid_err_cases :=
  [""; "!"; "F9168C5E-CEB2-4faa-B6BF-329BF39FA1E45"; "F9168C5E-CEB2-4faa-BBF-329BF39FA1E4"; "F9168C5E-CEB2-4faa";
   "{F9168C5E-CEB2-4faa9B6BFF329BF39FA1E41"; "67e5504410b1426f9247bb680e5fe0c"; "67e5504410b1426f9247bb680e5fe0c88";
   "67e5504410b1426f9247bb680e5fe0cg8"; "{00000000000000000000000000000000}"; "67e5504410b1426f9247bb680e5fe0c";
   "F9168C5E-CEB2-4faa-B6BF1-02BF39FA1E4"; "231231212212423424324323477343246663"; "01020304-1112-2122-3132-41424344";
   "F9168C5E-CEB2-4faa-BGBF-329BF39FA1E4"; "F9168C5E-CEB2F4faaFB6BFF329BF39FA1E4"; "F9168C5E-CEB2-4faaFB6BFF329BF39FA1E4";
   "F9168C5E-CEB2-4faa-B6BFF329BF39FA1E4"; "F9168C5E-CEB2-4faaXB6BFF329BF39FA1E4"; "67e5504410b1426%9247bb680e5fe0c8";
   "67e550X410b1426f9247bb680e5fe0cd"; "67e550-4105b1426f9247bb680e5fe0c"; "F9168C5E-CEB-24fa-eB6BFF32-BF39FA1E4"]%string.
Definition uuid_format_cases :=
  [("67e5504410b1426f9247bb680e5fe0c8", "67e55044-10b1-426f-9247-bb680e5fe0c8");
   ("01020304111221223132414243444546", "01020304-1112-2122-3132-414243444546");
   ("00000000000000000000000000000000", "00000000-0000-0000-0000-000000000000")]%string.
Definition upper (c : Z) : Z := if (97 <=? c) && (c <=? 122) then c - 32 else c.
Definition lower (c : Z) : Z := if (65 <=? c) && (c <=? 90) then c + 32 else c.
Definition parsed s1 s2 (src : list Z) := into (fun p n q _ => uuid_parse s1 s2 p n q) src 16.
(** uuid-simd/tests/it.rs:79 [basic]; [parse] is dispatched twice, first for 32 digits and then for the hyphenated form *)
Example uuid_ok : on all_isas (fun s1 => on sse41_isas (fun s2 => on uuid_ok_cases (fun c =>
  and_then (into (hex_decode s1) (str (fst c)) 16) (fun expected => gives (parsed s1 s2 (str (snd c))) expected)))) = true.
Proof. vm_compute. reflexivity. Qed.
Example uuid_err : on all_isas (fun s1 => on sse41_isas (fun s2 => on uuid_err_cases (fun c => fails (parsed s1 s2 (str c))))) = true.
Proof. vm_compute. reflexivity. Qed.
Definition fmt (f : ptr -> ptr -> ascii_case -> M (ptr * nat)) (u : list Z) (n : nat) (case : ascii_case) : option (result (list Z)) :=
  match f (0, 0)%nat (1, 0)%nat case (mem_of [cells u; uninit n]) with Ret a m => out (Ret (Ok a) m) | _ => None end.
Example uuid_format : on sse41_isas (fun s2 => on all_isas (fun s1 => on uuid_format_cases (fun c =>
  let '(input, expected) := (str (fst c), str (snd c)) in
  and_then (into (hex_decode s1) input 16) (fun src =>
    gives (fmt (uuid_format_simple s1) src 32 Upper) (map upper input) &&
    gives (fmt (uuid_format_simple s1) src 32 Lower) (map lower input) &&
    gives (fmt (uuid_format_hyphenated s2) src 36 Upper) (map upper expected) &&
    gives (fmt (uuid_format_hyphenated s2) src 36 Lower) (map lower expected))))) = true.
Proof. vm_compute. reflexivity. Qed.
(** uuid-simd/src/ext.rs:172 [test_uuid_ext] *)
Example uuid_ext : on all_isas (fun s1 => on sse41_isas (fun s2 =>
  match value (made (ext_parse m64 s1 s2) (str "67e5504410b1426f9247bb680e5fe0c8")) with
  | Some (Ok u) =>
    let m := mem_of [cells u] in
    match value (simple_display m64 s1 (0, 0)%nat (fun x => x) m), value (hyphenated_upper_hex m64 s2 (0, 0)%nat (fun x => x) m) with
    | Some a1, Some a2 => same a1 (str "67e5504410b1426f9247bb680e5fe0c8") && same a2 (str "67E55044-10B1-426F-9247-BB680E5FE0C8")
    | _, _ => false
    end
  | _ => false
  end)) = true.
Proof. vm_compute. reflexivity. Qed.

(** ** unicode-simd *)
(** unicode-simd/tests/it.rs:25 [random]; nine positions instead of one random position *)
Example unicode_random : on all_isas (fun s => on [true; false] (fun x64 => on (lengths ++ [96; 128; 129; 255]%nat) (fun n =>
  let src := map (fun x => x / 2) (rand_bytes n) in
  let run := fun l => value (is_ascii x64 s (0, 0)%nat n (mem_of [cells l])) in
  yes (run src) && on [0; 5; n / 3; n / 2; n - 17; n - 9; n - 5; n - 2; n - 1]%nat (fun pos =>
    if (pos <? n)%nat then no (run (firstn pos src ++ 128 :: skipn (S pos) src)) else true)))) = true.
Proof. vm_compute. reflexivity. Qed.

(** ** vsimd *)
(** vsimd/tests/it.rs:34 [u8x16_any_zero] *)
Example vsimd_any_zero : on [SSE2; SSSE3; SSE41; AVX2; NEON32; NEON64; WASM128] (fun s =>
  yes (u8x16_any_zero s (repeat 0 16)) && no (u8x16_any_zero s (repeat 255 16)) &&
  yes (u8x16_any_zero s [0; 1; 2; 3; 4; 5; 6; 7; 8; 9; 10; 11; 12; 13; 14; 15]) &&
  no (u8x16_any_zero s [16; 1; 2; 3; 4; 5; 6; 7; 8; 9; 10; 11; 12; 13; 14; 15])) = true.
Proof. vm_compute. reflexivity. Qed.
(** vsimd/src/ascii.rs:46 [convert_case], on vectors *)
Example vsimd_convert_case : on [SSE2; SSSE3; SSE41; AVX2; NEON32; NEON64; WASM128] (fun s => on all_bytes (fun c => on [W128; W256] (fun w =>
  let n := match w with W128 => 16 | W256 => 32 end%nat in
  match to_ascii_uppercase w s (repeat c n), to_ascii_lowercase w s (repeat c n) with
  | Some u, Some l => same u (repeat (upper c) n) && same l (repeat (lower c) n)
  | _, _ => false
  end))) = true.
Proof. vm_compute. reflexivity. Qed.
