(** The jobs of [par_encode] (Parallel.v, /repo/crates/base64-simd/src/parallel.rs) as programs of single memory accesses:
    base64-simd/src/encode.rs once more, statement by statement as in Base64.v.
    Definitions only; ConcBase64Facts.v shows that they implement Base64.v. *)
From Coq Require Import ZArith List Bool.
From Verif Require Import Bytes Mem Isa Simd Alsw Ints Base64 Parallel Conc.
Import ListNotations.
Open Scope Z_scope. Open Scope prog_scope.

(** encode.rs:23 [encode_bits24] *)
Definition p_encode_bits24 (src dst : ptr) (charset : list Z) : prog unit :=
  x0 <~ p_read src 0 ;; x1 <~ p_read src 1 ;; x2 <~ p_read src 2 ;;
  let x := of_be [0; x0; x1; x2] in
  p_for 4 0 (fun i _ =>
    y <~ p_table_get charset (Z.land (Z.shiftr x (18 - Z.of_nat i * 6)) 63) ;; p_write dst i y) tt.
(** encode.rs:35 [encode_bits48] *)
Definition p_encode_bits48 (src dst : ptr) (charset : list Z) : prog unit :=
  l <~ p_load src 8 ;;
  let x := of_be l in
  p_for 8 0 (fun i _ =>
    y <~ p_table_get charset (Z.land (Z.shiftr x (58 - Z.of_nat i * 6)) 63) ;; p_write dst i y) tt.
(** encode.rs:47 [encode_extra] *)
Definition p_encode_extra (extra : nat) (src dst : ptr) (charset : list Z) (padding : bool) : prog unit :=
  match extra with
  | 0%nat => Done tt
  | 1%nat =>
      x <~ p_read src 0 ;;
      y1 <~ p_table_get charset (shr8 x 2) ;;
      y2 <~ p_table_get charset (shr8 (shl8 x 6) 2) ;;
      p_write dst 0 y1 ~;; p_write dst 1 y2 ~;;
      if padding then p_write dst 2 61 ~;; p_write dst 3 61 else Done tt
  | 2%nat =>
      x1 <~ p_read src 0 ;;
      x2 <~ p_read src 1 ;;
      y1 <~ p_table_get charset (shr8 x1 2) ;;
      y2 <~ p_table_get charset (Z.lor (shr8 (shl8 x1 6) 2) (shr8 x2 4)) ;;
      y3 <~ p_table_get charset (shr8 (shl8 x2 4) 2) ;;
      p_write dst 0 y1 ~;; p_write dst 1 y2 ~;; p_write dst 2 y3 ~;;
      if padding then p_write dst 3 61 else Done tt
  | _ => Fail Undefined
  end.
(** encode.rs:90-118: one step of the loops *)
Definition p_enc48_step (charset : list Z) (st : ptr * ptr) : prog (ptr * ptr) :=
  p_encode_bits48 (fst st) (snd st) charset ~;;
  src <~ p_padd (fst st) 6 ;;
  dst <~ p_padd (snd st) 8 ;;
  Done (src, dst).
Definition p_enc24_step (charset : list Z) (st : ptr * ptr) : prog (ptr * ptr) :=
  p_encode_bits24 (fst st) (snd st) charset ~;;
  src <~ p_padd (fst st) 3 ;;
  dst <~ p_padd (snd st) 4 ;;
  Done (src, dst).
(** encode.rs:79 [encode_fallback] *)
Definition p_encode_fallback (src : ptr) (len : nat) (dst : ptr) (config : b64_config) : prog unit :=
  let padding := b64_padding (b64_extra_of config) in
  let charset := b64_charset (b64_kind_of config) in
  ' (src, dst, len) <~ p_while (S len) (fun st : ptr * ptr * nat => (4 * 6 + 2 <=? snd st)%nat)
    (fun st =>
       p <~ p_for 4 0 (fun _ p => p_enc48_step charset p) (fst st) ;;
       Done (p, snd st - 4 * 6)%nat) (src, dst, len) ;;
  ' (src, dst, len) <~ p_while (S len) (fun st : ptr * ptr * nat => (6 + 2 <=? snd st)%nat)
    (fun st =>
       p <~ p_enc48_step charset (fst st) ;;
       Done (p, snd st - 6)%nat) (src, dst, len) ;;
  e <~ p_padd src (len / 3 * 3) ;;
  ' (src, dst) <~ p_while (S len) (fun st : ptr * ptr => plt (fst st) e) (p_enc24_step charset) (src, dst) ;;
  p_encode_extra (len mod 3) src dst charset padding.
(** encode.rs:119 [encode_simd]; a vector is loaded or stored by one access (simd256.rs:76, 113 use two accesses of 16
    bytes on some instruction sets; the theorem also covers programs that do) *)
Definition p_encode_simd (s : isa) (src : ptr) (len : nat) (dst : ptr) (config : b64_config) : prog unit :=
  let charset := b64_charset (b64_kind_of config) in
  ' (src, dst, len) <~
    (if (6 + 24 + 4 <=? len)%nat then
       let shift_lut := x2 (encoding_shift charset) in
       ' (src, dst, len) <~ p_for 2 0 (fun _ (st : ptr * ptr * nat) =>
          p <~ p_enc24_step charset (fst st) ;; Done (p, snd st - 3)%nat) (src, dst, len) ;;
       p_while (S len) (fun st : ptr * ptr * nat => (24 + 4 <=? snd st)%nat)
         (fun st =>
            let '(src, dst, len) := st in
            q <~ p_psub src 4 ;;
            x <~ p_load q 32 ;;
            y <~ p_lift (encode_bytes24 s x shift_lut) ;;
            p_store dst y ~;;
            src <~ p_padd src 24 ;;
            dst <~ p_padd dst 32 ;;
            Done (src, dst, len - 24)%nat) (src, dst, len)
     else Done (src, dst, len)) ;;
  ' (src, dst, len) <~
    (if (12 + 4 <=? len)%nat then
       let shift_lut := encoding_shift charset in
       x <~ p_load src 16 ;;
       y <~ p_lift (encode_bytes12 s x shift_lut) ;;
       p_store dst y ~;;
       src <~ p_padd src 12 ;;
       dst <~ p_padd dst 16 ;;
       Done (src, dst, len - 12)%nat
     else Done (src, dst, len)) ;;
  p_encode_fallback src len dst config.
(** multiversion.rs:4-13 *)
Definition p_encode_impl (s : isa) (src : ptr) (len : nat) (dst : ptr) (config : b64_config) : prog unit :=
  match s with Fallback => p_encode_fallback src len dst config | _ => p_encode_simd s src len dst config end.
(** parallel.rs:33-55 *)
Definition p_par_job (s : nat -> isa) (config : b64_config) (src : ptr) (slen : nat) (dst : ptr) (chunks i : nat) : prog unit :=
  let len := chunk_len slen (chunks * 3) i in
  sp <~ p_padd src (chunk_off (chunks * 3) i) ;;
  dp <~ p_padd dst (chunk_off (chunks * 4) i) ;;
  if b64_padding (b64_extra_of config) then
    let no_pad := {| b64_kind_of := b64_kind_of config; b64_extra_of := NoPad |} in
    if (len mod 3 =? 0)%nat then p_encode_impl (s i) sp len dp no_pad
    else p_encode_impl (s i) sp len dp config
  else p_encode_impl (s i) sp len dp config.
