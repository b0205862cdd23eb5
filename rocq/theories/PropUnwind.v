(** Property theorems for C83: how the allocating functions stop. [grant n] tells whether the allocator has [n] bytes; the
    theorems hold for every such function. *)
From Coq Require Import ZArith List Bool Lia String.
From Verif Require Import Bytes Mem MemFacts Ints Slices Codec Isa Simd Spec Hex HexFacts HexApi Base64 Base64Ref Base64Api
  Base32 Base32Ref Base32Api Forgiving Heap HeapFacts Unwind UnwindFacts PropHeap.
Import ListNotations.
Open Scope list_scope. Open Scope Z_scope.
Notation length := List.length.

(** Encoding into a box: the assertion fails exactly if the text is longer than isize::MAX; otherwise the allocation is for
    exactly the text (nothing for no text), and if it is granted the function does what C46 says. *)
Theorem C83_hex_encode_box : forall M grant s case src, machine_ok M -> 
  box_stops M grant (u_hex_encode_to_boxed_str M grant s case) (hex_encode_to_boxed_str M s case) src
    (length (rfc_hex_encode (alphabet_of case) src)).
Proof. intros. now apply hex_box_stops. Qed.
Print Assumptions C83_hex_encode_box.

Theorem C83_base64_encode_box : forall M grant s cfg src, machine_ok M -> b64_isa s ->
  box_stops M grant (u_b64_encode_to_boxed_str M grant s cfg) (b64_encode_to_boxed_str M s cfg) src (length (b64_rfc cfg src)).
Proof. exact b64_box_stops. Qed.
Print Assumptions C83_base64_encode_box.

Theorem C83_base32_encode_box : forall M grant t s cfg src, machine_ok M -> b32_isa s ->
  box_stops M grant (u_b32_encode_to_boxed_str M grant t s cfg) (b32_encode_to_boxed_str M t s cfg) src (length (b32_rfc cfg src)).
Proof. exact b32_box_stops. Qed.
Print Assumptions C83_base32_encode_box.

(** Decoding into a box: there is nothing to allocate if the length is refused, and the assertion of the encoders cannot fail. *)
Theorem C83_hex_decode_box : forall M grant s src, machine_ok M -> 
  box_stops M grant (u_hex_decode_to_boxed_bytes M grant s) (hex_decode_to_boxed_bytes M s) src (hex_need src).
Proof. exact hex_try_stops. Qed.
Print Assumptions C83_hex_decode_box.

Theorem C83_base64_decode_box : forall M grant en s cfg src, machine_ok M -> b64_isa s ->
  box_stops M grant (u_b64_decode_to_boxed_bytes M grant en s cfg) (b64_decode_to_boxed_bytes M en s cfg) src (b64_need cfg src).
Proof. exact b64_try_stops. Qed.
Print Assumptions C83_base64_decode_box.

Theorem C83_base32_decode_box : forall M grant t s cfg src, machine_ok M -> b32_isa s ->
  box_stops M grant (u_b32_decode_to_boxed_bytes M grant t s cfg) (b32_decode_to_boxed_bytes M t s cfg) src (b32_need cfg src).
Proof. exact b32_try_stops. Qed.
Print Assumptions C83_base32_decode_box.

(** Appending: the vector of the caller is never seen with a changed length, pointer or contents after a stop. *)
Theorem C83_hex_encode_append : forall M grant s case src, machine_ok M -> 
  append_stops M grant (u_hex_encode_append_vec M grant s case) (hex_encode_append_vec M s case) (fun _ v => v) src
    (length (rfc_hex_encode (alphabet_of case) src)) Asserted.
Proof. intros. now apply hex_append_stops. Qed.
Print Assumptions C83_hex_encode_append.

Theorem C83_base64_encode_append : forall M grant s cfg src, machine_ok M -> b64_isa s ->
  append_stops M grant (u_b64_encode_append_vec M grant s cfg) (b64_encode_append_vec M s cfg) (fun _ v => v) src (length (b64_rfc cfg src)) Asserted.
Proof. exact b64_append_stops. Qed.
Print Assumptions C83_base64_encode_append.

Theorem C83_base32_encode_append : forall M grant t s cfg src, machine_ok M -> b32_isa s ->
  append_stops M grant (u_b32_encode_append_vec M grant t s cfg) (b32_encode_append_vec M t s cfg) (fun _ v => v) src (length (b32_rfc cfg src)) Asserted.
Proof. exact b32_append_stops. Qed.
Print Assumptions C83_base32_encode_append.

(** [hex_need src], [b64_need cfg src] and [b32_need cfg src] are at most the length of the text, so the case of [why] is empty *)
Theorem C83_hex_decode_append : forall M grant s src why, machine_ok M -> 
  append_stops M grant (u_hex_decode_append_vec M grant s) (hex_decode_append_vec M s) (fun r v => (r, v)) src (hex_need src) why.
Proof. exact hex_try_append_stops. Qed.
Print Assumptions C83_hex_decode_append.

Theorem C83_base64_decode_append : forall M grant en s cfg src why, machine_ok M -> b64_isa s ->
  append_stops M grant (u_b64_decode_append_vec M grant en s cfg) (b64_decode_append_vec M en s cfg) (fun r v => (r, v)) src (b64_need cfg src) why.
Proof. exact b64_try_append_stops. Qed.
Print Assumptions C83_base64_decode_append.

Theorem C83_base32_decode_append : forall M grant t s cfg src why, machine_ok M -> b32_isa s ->
  append_stops M grant (u_b32_decode_append_vec M grant t s cfg) (b32_decode_append_vec M t s cfg) (fun r v => (r, v)) src (b32_need cfg src) why.
Proof. exact b32_try_append_stops. Qed.
Print Assumptions C83_base32_decode_append.

(** [forgiving_decode_to_vec] asks for the capacity of a vector for the whole text if there is white space, and otherwise for
    the decoded length. *)
Theorem C83_forgiving : forall M grant en s1 s2 src, machine_ok M -> b64_isa s2 ->
  box_stops M grant (u_forgiving_decode_to_vec M grant en s1 s2) (forgiving_decode_to_vec M en s1 s2) src (forgiving_request M src).
Proof. exact forgiving_stops. Qed.
Print Assumptions C83_forgiving.

(** Concrete runs. The vector [v1] holds [1; 2] in block 1 with capacity 3; [show] gives the reason, the header and the
    blocks 0..5. *)
Definition nomem (n : nat) : bool := false.
Definition upto (k n : nat) : bool := (n <=? k)%nat.
Definition blocks (m : mem) := map m [0; 1; 2; 3; 4; 5]%nat.
Definition show {A} (r : out A) : option (option A * option stop * vec * list (list cell)) :=
  match r with
  | Done a s => Some (Some a, None, st_vec s, blocks (st_mem s))
  | Stopped w s => Some (None, Some w, st_vec s, blocks (st_mem s))
  | Broken => None
  end.
Definition start := {| st_mem := hello; st_vec := v1 |}.
Example C83_run_refused : show (u_hex_encode_to_boxed_str m64 nomem AVX2 Lower (0, 0)%nat 5 start)
  = Some (None, Some NoMemory, v1, blocks hello).
Proof. vm_compute. reflexivity. Qed.
Example C83_run_append_refused : show (u_b64_encode_append_vec m64 (upto 12) SSE41 STANDARD (0, 0)%nat 5 start)
  = Some (None, Some NoMemory, v1, blocks hello).
Proof. vm_compute. reflexivity. Qed.
(** 2 + 8 bytes and 3 bytes of spare capacity *)
Example C83_run_append_granted : show (u_b64_encode_append_vec m64 (upto 13) SSE41 STANDARD (0, 0)%nat 5 start)
  = Some (Some tt, None, {| v_block := 5; v_len := 10 |},
     [hello 0%nat; []; hello 2%nat; hello 3%nat; hello 4%nat; cells ([1; 2] ++ str "SGVsbG8="%string) ++ uninit 3]).
Proof. vm_compute. reflexivity. Qed.
(** nothing to allocate: the text of no bytes, a text that is refused, and a text that fits into the vector *)
Example C83_run_nothing : show (u_b32_encode_append_vec m64 nomem {| t_endian := LE; t_wasm32 := false |} Fallback BASE32 (0, 0)%nat 0 start)
  = Some (Some tt, None, v1, blocks hello).
Proof. vm_compute. reflexivity. Qed.
Example C83_run_odd : show (u_hex_decode_to_boxed_bytes m64 nomem AVX2 (2, 0)%nat 9 start) = Some (Some Err, None, v1, blocks hello).
Proof. vm_compute. reflexivity. Qed.
Example C83_run_fits : show (u_hex_decode_append_vec m64 nomem AVX2 (2, 0)%nat 2 start)
  = Some (Some (Ok tt), None, {| v_block := 1; v_len := 3 |},
     [hello 0%nat; cells [1; 2; 72]; hello 2%nat; hello 3%nat; hello 4%nat; []]).
Proof. vm_compute. reflexivity. Qed.
(** the last digit is wrong: the box has been freed *)
Example C83_run_err : show (u_hex_decode_to_boxed_bytes m64 (upto 5) AVX2 (3, 0)%nat 10 start) = Some (Some Err, None, v1, blocks hello).
Proof. vm_compute. reflexivity. Qed.
(** 16-bit machine: the assertion, and the vector that would get longer than 32767 bytes *)
Definition why_of {A} (r : out A) := match r with Stopped w s => Some (w, st_vec s) | _ => None end.
Example C83_run_assert : why_of (u_hex_encode_to_boxed_str m16 (fun _ => true) Fallback Lower (0, 0)%nat (Z.to_nat 16384) start) = Some (Asserted, v1).
Proof. vm_compute. reflexivity. Qed.
Example C83_run_capacity : why_of (u_hex_encode_append_vec m16 (fun _ => true) Fallback Lower (0, 0)%nat (Z.to_nat 16383)
    {| st_mem := mem_of [uninit (Z.to_nat 16383); cells [1; 2]]; st_vec := v1 |}) = Some (CapacityOverflow, v1).
Proof. vm_compute. reflexivity. Qed.
Example C83_run_forgiving : show (u_forgiving_decode_to_vec m64 (upto 14) LE AVX2 AVX2 (4, 0)%nat 12 start) = Some (None, Some NoMemory, v1, blocks hello).
Proof. vm_compute. reflexivity. Qed.
Example C83_run_forgiving_ok : match u_forgiving_decode_to_vec m64 (upto 15) LE AVX2 AVX2 (4, 0)%nat 12 start with
  | Done (Ok v) s => Some (v_len v, firstn (v_len v) (st_mem s (v_block v)))
  | _ => None
  end = Some (5%nat, cells (str "Hello"%string)).
Proof. vm_compute. reflexivity. Qed.
(** the hypotheses of the theorems hold in these runs *)
Example C83_start : slice hello 0 0 (str "Hello"%string) /\ vec_holds m64 hello v1 [1; 2] /\ reallocatable m64 hello v1 /\ hello (new_block m64) = [].
Proof.
  refine (conj _ (conj v1_holds (conj _ eq_refl))).
  - split; [repeat constructor; unfold byte; lia|]. split; [cbn; lia|reflexivity].
  - left. reflexivity.
Qed.
