(** Property theorems for the allocating functions (C13, C46 and the allocating part of C11).
    [M] is the machine: width of usize, whether overflow panics or wraps, and what the allocator returns. *)
From Coq Require Import ZArith List Bool Lia String.
From Verif Require Import Bytes Mem MemFacts Ints Slices Codec Isa Simd Spec Hex HexFacts HexApi Base64 Base64Ref Base64Api
  Base32 Base32Ref Base32Api Forgiving Heap HeapFacts.
Import ListNotations.
Open Scope list_scope. Open Scope Z_scope. Open Scope m_scope.

(** C46: boxes. The allocation has exactly the size of the result (so [alloc_uninit_bytes] is called within its contract:
    anything else is [UB] in the model), every byte is initialised, and the only panic is a result longer than isize::MAX. *)
Theorem C46_hex_encode_box : forall M s case src, machine_ok M ->
  makes_box M (hex_encode_to_boxed_str M s case) src (rfc_hex_encode (alphabet_of case) src).
Proof. intros. now apply hex_box. Qed.
Print Assumptions C46_hex_encode_box.
Theorem C46_base64_encode_box : forall M s cfg src, machine_ok M -> b64_isa s ->
  makes_box M (b64_encode_to_boxed_str M s cfg) src (b64_rfc cfg src).
Proof. exact b64_box. Qed.
Print Assumptions C46_base64_encode_box.
Theorem C46_base32_encode_box : forall M t s cfg src, machine_ok M -> b32_isa s ->
  makes_box M (b32_encode_to_boxed_str M t s cfg) src (b32_rfc cfg src).
Proof. exact b32_box. Qed.
Print Assumptions C46_base32_encode_box.

(** decoding never panics; on Err the buffer has been freed *)
Theorem C46_hex_decode_box : forall M s src, machine_ok M ->
  box_exactly M (hex_decode_to_boxed_bytes M s) src (fun x => bytes x /\ map ascii_lower src = rfc_hex_encode hex_lower x).
Proof. intros M s src HM. apply (box_exact _ _ _ _ _ (hex_try M s src HM)). intros B x. now apply hex_decode_iff. Qed.
Print Assumptions C46_hex_decode_box.
Theorem C46_base64_decode_box : forall M en s cfg src, machine_ok M -> b64_isa s -> b64_extra_of cfg <> Forgiving ->
  box_exactly M (b64_decode_to_boxed_bytes M en s cfg) src (fun x => bytes x /\ b64_rfc cfg x = src).
Proof.
  intros M en s cfg src HM Hs St. apply (box_exact _ _ _ _ _ (b64_try M en s cfg src HM Hs)). intros B x. now apply b64_dec_strict.
Qed.
Print Assumptions C46_base64_decode_box.
Theorem C46_base64_forgiving_box : forall M en s k src, machine_ok M -> b64_isa s ->
  tries_box M (b64_decode_to_boxed_bytes M en s {| b64_kind_of := k; b64_extra_of := Forgiving |}) src
    (forgiving_decode_nows (b64_alphabet k) src).
Proof.
  intros M en s k src HM Hs m b o HS. rewrite <- b64_dec_forgiving by apply HS. now apply b64_try.
Qed.
Print Assumptions C46_base64_forgiving_box.
Theorem C46_base32_decode_box : forall M t s cfg src, machine_ok M -> b32_isa s ->
  box_exactly M (b32_decode_to_boxed_bytes M t s cfg) src (fun x => bytes x /\ b32_rfc cfg x = src).
Proof.
  intros M t s cfg src HM Hs. apply (box_exact _ _ _ _ _ (b32_try M t s cfg src HM Hs)). intros B x. now apply b32_dec_strict.
Qed.
Print Assumptions C46_base32_decode_box.

(** C13: appending. The new vector is the old contents followed by the encoding, wherever it was reallocated to; a panic
    happens exactly if that would be longer than isize::MAX. *)
Theorem C13_hex_encode_append : forall M s case src, machine_ok M ->
  appends M (hex_encode_append_vec M s case) src (rfc_hex_encode (alphabet_of case) src).
Proof. intros. now apply hex_append. Qed.
Print Assumptions C13_hex_encode_append.
Theorem C13_base64_encode_append : forall M s cfg src, machine_ok M -> b64_isa s ->
  appends M (b64_encode_append_vec M s cfg) src (b64_rfc cfg src).
Proof. exact b64_append. Qed.
Print Assumptions C13_base64_encode_append.
Theorem C13_base32_encode_append : forall M t s cfg src, machine_ok M -> b32_isa s ->
  appends M (b32_encode_append_vec M t s cfg) src (b32_rfc cfg src).
Proof. exact b32_append. Qed.
Print Assumptions C13_base32_encode_append.

(** decoding: on Err the vector holds exactly what it held *)
Theorem C13_hex_decode_append : forall M s src, machine_ok M ->
  append_exactly M (hex_decode_append_vec M s) src (fun x => bytes x /\ map ascii_lower src = rfc_hex_encode hex_lower x).
Proof.
  intros M s src HM. apply (append_exact _ _ _ _ _ _ (hex_try_append M s src HM)); [|apply hex_need_le].
  intros B x. now apply hex_decode_iff.
Qed.
Print Assumptions C13_hex_decode_append.
Theorem C13_base64_decode_append : forall M en s cfg src, machine_ok M -> b64_isa s -> b64_extra_of cfg <> Forgiving ->
  append_exactly M (b64_decode_append_vec M en s cfg) src (fun x => bytes x /\ b64_rfc cfg x = src).
Proof.
  intros M en s cfg src HM Hs St. apply (append_exact _ _ _ _ _ _ (b64_try_append M en s cfg src HM Hs)); [|apply b64_need_le].
  intros B x. now apply b64_dec_strict.
Qed.
Print Assumptions C13_base64_decode_append.
Theorem C13_base64_forgiving_append : forall M en s k src, machine_ok M -> b64_isa s ->
  append_exactly M (b64_decode_append_vec M en s {| b64_kind_of := k; b64_extra_of := Forgiving |}) src
    (fun x => forgiving_decode_nows (b64_alphabet k) src = Some x).
Proof.
  intros M en s k src HM Hs. apply (append_exact _ _ _ _ _ _ (b64_try_append M en s _ src HM Hs)); [|apply b64_need_le].
  intros B x. now rewrite b64_dec_forgiving.
Qed.
Print Assumptions C13_base64_forgiving_append.
Theorem C13_base32_decode_append : forall M t s cfg src, machine_ok M -> b32_isa s ->
  append_exactly M (b32_decode_append_vec M t s cfg) src (fun x => bytes x /\ b32_rfc cfg x = src).
Proof.
  intros M t s cfg src HM Hs. apply (append_exact _ _ _ _ _ _ (b32_try_append M t s cfg src HM Hs)); [|apply b32_need_le].
  intros B x. now apply b32_dec_strict.
Qed.
Print Assumptions C13_base32_decode_append.

(** the exact panic condition of the decoding functions: the space reserved before decoding does not fit *)
Theorem C46_hex_decode_append_panics : forall M s src, machine_ok M ->
  tries_append M (hex_decode_append_vec M s) src (hex_need src) (rfc_hex_decode src).
Proof. exact hex_try_append. Qed.
Print Assumptions C46_hex_decode_append_panics.
Theorem C46_base64_decode_append_panics : forall M en s cfg src, machine_ok M -> b64_isa s ->
  tries_append M (b64_decode_append_vec M en s cfg) src (b64_need cfg src) (b64_dec cfg src).
Proof. exact b64_try_append. Qed.
Print Assumptions C46_base64_decode_append_panics.
Theorem C46_base32_decode_append_panics : forall M t s cfg src, machine_ok M -> b32_isa s ->
  tries_append M (b32_decode_append_vec M t s cfg) src (b32_need cfg src) (b32_dec cfg src).
Proof. exact b32_try_append. Qed.
Print Assumptions C46_base32_decode_append_panics.

(** C11: [forgiving_decode_to_vec] *)
Theorem C11_forgiving_decode_to_vec : forall M en s1 s2 src, machine_ok M -> b64_isa s2 ->
  tries_vec M (forgiving_decode_to_vec M en s1 s2) src (whatwg_forgiving_decode src).
Proof. exact forgiving_to_vec. Qed.
Print Assumptions C11_forgiving_decode_to_vec.

(** Concrete runs: a 64-bit and a 16-bit machine whose allocator returns block 5. *)
Definition m64 := {| pointer_bits := 64; overflow_checks := false; new_block := 5; spare := 3 |}.
Definition m16 := {| pointer_bits := 16; overflow_checks := true; new_block := 5; spare := 0 |}.
Example m64_ok : machine_ok m64. Proof. unfold machine_ok, m64; cbn; lia. Qed.
Example m16_ok : machine_ok m16. Proof. unfold machine_ok, m16; cbn; lia. Qed.
Definition show_box (r : res boxed) : option (nat * nat * list cell) :=
  match r with Ret x m => Some (x_block x, x_len x, m (x_block x)) | _ => None end.
Definition show_vec (r : res vec) : option (nat * nat * list cell) :=
  match r with Ret x m => Some (v_block x, v_len x, m (v_block x)) | _ => None end.
Definition hello : mem := mem_of [cells (str "Hello"%string); cells [1; 2] ++ uninit 1; cells (str "48656C6c6f"%string); cells (str "48656C6c6g"%string); cells (str " SGVs bG8 = "%string)].
Example C46_run : show_box (hex_encode_to_boxed_str m64 AVX2 Upper (0, 0)%nat 5 hello) = Some (5%nat, 10%nat, cells (str "48656C6C6F"%string)).
Proof. vm_compute. reflexivity. Qed.
(** the vector in block 1 holds [1; 2] and has capacity 3 *)
Definition v1 := {| v_block := 1; v_len := 2 |}.
Example v1_holds : vec_holds m64 hello v1 [1; 2].
Proof.
  split; [split; [repeat constructor; unfold byte; lia|split; [cbn; lia|reflexivity]]|]. split; [reflexivity|]. vm_compute. discriminate.
Qed.
(** moved to block 5 with spare capacity *)
Example C13_run : show_vec (b64_encode_append_vec m64 SSE41 STANDARD (0, 0)%nat 5 v1 hello)
  = Some (5%nat, 10%nat, cells ([1; 2] ++ str "SGVsbG8="%string) ++ uninit 3).
Proof. vm_compute. reflexivity. Qed.
Definition show_res (r : res (result unit * vec)) : option (bool * nat * nat * list cell) :=
  match r with Ret (k, x) m => Some (match k with Ok _ => true | Err => false end, v_block x, v_len x, firstn (v_len x) (m (v_block x))) | _ => None end.
Example C13_run_ok : show_res (hex_decode_append_vec m64 SSE2 (2, 0)%nat 10 v1 hello) = Some (true, 5%nat, 7%nat, cells ([1; 2] ++ str "Hello"%string)).
Proof. vm_compute. reflexivity. Qed.
(** the last character is not a digit: bytes have been written to the spare capacity, the contents are unchanged *)
Example C13_run_err : show_res (hex_decode_append_vec m64 SSE2 (3, 0)%nat 10 v1 hello) = Some (false, 5%nat, 2%nat, cells [1; 2]).
Proof. vm_compute. reflexivity. Qed.
(** 16-bit machine: 2 * 16384 bytes do not fit into isize *)
Example C46_run_panics : hex_encode_to_boxed_str m16 Fallback Lower (0, 0)%nat (Z.to_nat 16384) hello = Panic.
Proof. vm_compute. reflexivity. Qed.
Example C46_run_fits : match hex_encode_to_boxed_str m16 Fallback Lower (0, 0)%nat (Z.to_nat 16383) (mem_of [uninit (Z.to_nat 16383)]) with Panic => false | _ => true end = true.
Proof. vm_compute. reflexivity. Qed.
Definition show_rvec (r : res (result vec)) : option (result (nat * nat * list cell)) :=
  match r with Ret (Ok x) m => Some (Ok (v_block x, v_len x, firstn (v_len x) (m (v_block x)))) | Ret Err m => Some Err | _ => None end.
Example C11_run_vec : show_rvec (forgiving_decode_to_vec m64 LE AVX2 SSSE3 (4, 0)%nat 12 hello) = Some (Ok (5%nat, 5%nat, cells (str "Hello"%string))).
Proof. vm_compute. reflexivity. Qed.
