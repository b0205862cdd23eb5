(** Whole programs: threads that call public functions, with the run-time dispatch of every call as part of the execution.

    A thread is an [xprog]: the memory accesses of Conc.v, and calls of a dispatched function ([XAuto]), where the thread goes
    through the steps of [auto] (vsimd/src/macros.rs:84-131): load the function pointer of this invocation of [dispatch!],
    and if it is still the initial one detect the features of the CPU, store the function found, and call it.
    All threads share one function pointer per invocation and one memory. Definitions only. *)
From Coq Require Import ZArith List Bool.
From Verif Require Import Dispatch.
From Verif Require Import Bytes Mem MemFacts Slices Codec Isa Simd Spec Hex Base64 Base64Ref Base64Api Base32 Base32Ref Base32Api
  SimdFacts Ints Uuid UuidFacts UuidApi Unicode UnicodeSpec SwapFacts Forgiving Conc ConcApi.
Import ListNotations.
Open Scope nat_scope. Open Scope m_scope.

(** ** The invocations of [dispatch!], each with a function pointer of its own *)
Inductive entry :=
| E_hex_check | E_hex_encode | E_hex_decode
| E_b64_encode | E_b64_decode | E_b64_check | E_find_ws
| E_b32_check | E_b32_decode | E_b32_encode
| E_parse_simple | E_parse_hyphenated | E_format_simple | E_format_hyphenated
| E_is_ascii | E_is_utf32le | E_utf32_swap | E_utf16_swap.
Definition invocation (e : entry) : dispatch :=
  match e with
  | E_hex_check => D_hex_check | E_hex_encode => D_hex_encode | E_hex_decode => D_hex_decode
  | E_b64_encode => D_b64_encode | E_b64_decode => D_b64_decode | E_b64_check => D_b64_check | E_find_ws => D_find_ws
  | E_b32_check => D_b32_check | E_b32_decode => D_b32_decode | E_b32_encode => D_b32_encode
  | E_parse_simple => D_parse_simple | E_parse_hyphenated => D_parse_hyphenated
  | E_format_simple => D_format_simple | E_format_hyphenated => D_format_hyphenated
  | E_is_ascii => D_is_ascii | E_is_utf32le => D_is_utf32le | E_utf32_swap => D_utf32_swap | E_utf16_swap => D_utf16_swap
  end.
Definition entry_eqb (a b : entry) : bool :=
  match a, b with
  | E_hex_check, E_hex_check | E_hex_encode, E_hex_encode | E_hex_decode, E_hex_decode
  | E_b64_encode, E_b64_encode | E_b64_decode, E_b64_decode | E_b64_check, E_b64_check | E_find_ws, E_find_ws
  | E_b32_check, E_b32_check | E_b32_decode, E_b32_decode | E_b32_encode, E_b32_encode
  | E_parse_simple, E_parse_simple | E_parse_hyphenated, E_parse_hyphenated
  | E_format_simple, E_format_simple | E_format_hyphenated, E_format_hyphenated
  | E_is_ascii, E_is_ascii | E_is_utf32le, E_is_utf32le | E_utf32_swap, E_utf32_swap | E_utf16_swap, E_utf16_swap => true
  | _, _ => false
  end.

(** ** Threads *)
Inductive xprog : Type :=
| XDone
| XFail (f : failure)
| XSize (b : nat) (k : nat -> xprog)
| XLoad (q : ptr) (n : nat) (k : list Z -> xprog)
| XStore (q : ptr) (xs : list Z) (k : xprog)
| XAuto (e : entry) (k : isa -> xprog).             (* [e::auto(..)]: goes on as the function for the chosen instruction set *)
(** where a thread is: at a program, or within [auto] *)
Inductive tstate :=
| At (x : xprog)
| Got (e : entry) (f : fptr) (k : isa -> xprog)     (* has loaded the function pointer *)
| Will (e : entry) (s : isa) (k : isa -> xprog).    (* in [init_ifunc]: has resolved, is about to store *)
(** the program of a thread when [auto] chooses [pick] *)
Fixpoint erase (pick : entry -> isa) (x : xprog) : prog unit :=
  match x with
  | XDone => Done tt
  | XFail f => Fail f
  | XSize b k => Size b (fun n => erase pick (k n))
  | XLoad q n k => Load q n (fun l => erase pick (k l))
  | XStore q xs k => Store q xs (erase pick k)
  | XAuto e k => erase pick (k (pick e))
  end.
Fixpoint embed (p : prog unit) : xprog :=
  match p with
  | Done _ => XDone
  | Fail f => XFail f
  | Size b k => XSize b (fun n => embed (k n))
  | Load q n k => XLoad q n (fun l => embed (k l))
  | Store q xs k => XStore q xs (embed k)
  end.
(** at most [d] dispatches on every path *)
Fixpoint autos (d : nat) (x : xprog) : Prop :=
  match x with
  | XDone | XFail _ => True
  | XSize b k => forall n, autos d (k n)
  | XLoad q n k => forall l, autos d (k l)
  | XStore q xs k => autos d k
  | XAuto e k => match d with O => False | S d' => forall s, autos d' (k s) end
  end.

(** ** Executions *)
(** The next memory access of a thread. *)
Definition xnext (t : tstate) (m : mem) : option (tstate * mem) :=
  match t with
  | At (XSize b k) => Some (At (k (length (m b))), m)
  | At (XLoad q n k) => match load q n m with Ret l _ => Some (At (k l), m) | _ => None end
  | At (XStore q xs k) => match store q xs m with Ret _ m' => Some (At k, m') | _ => None end
  | _ => None
  end.
(** all values ever stored in each function pointer; a relaxed load may return any of them *)
Definition pointers := entry -> list fptr.
Definition store_pointer (h : pointers) (e : entry) (f : fptr) : pointers := fun e' => if entry_eqb e' e then f :: h e' else h e'.
(** macros.rs:103 *)
Definition fresh_pointers : pointers := fun _ => [InitIfunc].
(** The machine can execute the function compiled for [s]: anything else is undefined behaviour (vsimd/src/macros.rs:304-391,
    [#[target_feature(enable = ..)]]). *)
Definition executable (c : build) (cpu : feature -> bool) (s : isa) : bool :=
  match s with
  | Fallback => true
  | SSE2 => is_x86 (target_arch c) && cpu Fsse2
  | SSSE3 => is_x86 (target_arch c) && cpu Fssse3
  | SSE41 => is_x86 (target_arch c) && cpu Fsse41
  | AVX2 => is_x86 (target_arch c) && cpu Favx2
  | NEON32 => is_arm (target_arch c) && cpu Fneon
  | NEON64 => is_aarch64 (target_arch c) && cpu Fneon
  | WASM128 => is_wasm32 (target_arch c) && cpu Fsimd128
  end.
(** A step within [auto], macros.rs:84-131; the same steps as [Dispatch.step]. There is no step that calls a function that the
    machine cannot execute. *)
Inductive astep (c : build) (cpu : feature -> bool) : pointers -> tstate -> pointers -> tstate -> Prop :=
| a_direct h e k s : indirect c = false ->
    s = match resolve_static c (targets (invocation e)) with Some s => s | None => Fallback end -> executable c cpu s = true ->
    astep c cpu h (At (XAuto e k)) h (At (k s))
| a_static h e k s : indirect c = true -> resolve_static c (fastest (invocation e)) = Some s -> executable c cpu s = true ->
    astep c cpu h (At (XAuto e k)) h (At (k s))
| a_load h e k f : indirect c = true -> resolve_static c (fastest (invocation e)) = None -> In f (h e) ->
    astep c cpu h (At (XAuto e k)) h (Got e f k)
| a_call h e s k : executable c cpu s = true -> astep c cpu h (Got e (Impl s) k) h (At (k s))
| a_resolve h e k : astep c cpu h (Got e InitIfunc k) h (Will e (resolve c cpu (targets (invocation e))) k)
| a_store h e s k : executable c cpu s = true -> astep c cpu h (Will e s k) (store_pointer h e (Impl s)) (At (k s)).

Record state := { pointers_of : pointers; threads_of : nat -> tstate; mem_of_state : mem }.
Definition set_tstate (ts : nat -> tstate) (i : nat) (t : tstate) : nat -> tstate := fun j => if Nat.eqb j i then t else ts j.
Inductive xstep (c : build) (cpu : feature -> bool) (n : nat) : state -> state -> Prop :=
| x_mem h ts m i t m' : i < n -> xnext (ts i) m = Some (t, m') ->
    xstep c cpu n {| pointers_of := h; threads_of := ts; mem_of_state := m |}
                  {| pointers_of := h; threads_of := set_tstate ts i t; mem_of_state := m' |}
| x_auto h ts m i h' t : i < n -> astep c cpu h (ts i) h' t ->
    xstep c cpu n {| pointers_of := h; threads_of := ts; mem_of_state := m |}
                  {| pointers_of := h'; threads_of := set_tstate ts i t; mem_of_state := m |}.
Inductive xsteps (c : build) (cpu : feature -> bool) (n : nat) : nat -> state -> state -> Prop :=
| xsteps_none st : xsteps c cpu n 0 st st
| xsteps_more k st st' st'' : xsteps c cpu n k st st' -> xstep c cpu n st' st'' -> xsteps c cpu n (S k) st st''.

Definition x_reads (t : tstate) (b o : nat) : Prop :=
  match t with At (XLoad q n _) => b = fst q /\ snd q <= o < snd q + n | _ => False end.
Definition x_writes (t : tstate) (b o : nat) : Prop :=
  match t with At (XStore q xs _) => b = fst q /\ snd q <= o < snd q + length xs | _ => False end.
(** Accesses to the function pointers are atomic, so only the accesses to memory can race. *)
Definition x_race (n : nat) (st : state) : Prop :=
  exists i j b o, i < n /\ j < n /\ i <> j /\ x_writes (threads_of st i) b o /\ (x_reads (threads_of st j) b o \/ x_writes (threads_of st j) b o).
(** A thread can go on. *)
Definition x_moves (c : build) (cpu : feature -> bool) (st : state) (i : nat) : Prop :=
  (exists t m', xnext (threads_of st i) (mem_of_state st) = Some (t, m')) \/
  (exists h' t, astep c cpu (pointers_of st) (threads_of st i) h' t).
Definition x_done (n : nat) (st : state) : Prop := forall i, i < n -> threads_of st i = At XDone.
(** Whatever the scheduler does and whatever the relaxed loads return: no data race; every thread that is not done can go on
    (so none has panicked, none is about to make an invalid access or to call a function that the CPU cannot execute); no execution has more than [N] steps; and when all
    threads are done, [Q] holds. *)
Definition whole_undisturbed (c : build) (cpu : feature -> bool) (n : nat) (xs : nat -> xprog) (m : mem) (Q : mem -> Prop) : Prop :=
  exists N, forall k st, xsteps c cpu n k {| pointers_of := fresh_pointers; threads_of := fun i => At (xs i); mem_of_state := m |} st ->
    k <= N /\ ~ x_race n st /\
    (forall i, i < n -> threads_of st i = At XDone \/ x_moves c cpu st i) /\
    (x_done n st -> Q (mem_of_state st)).

(** ** The public functions, with the invocations of [dispatch!] they go through *)
(** [pick e] is the function that [e::auto] calls. [en] and [t] are the byte order and the kind of the target.
    [sw]: the call is one of the endianness swaps. *)
Inductive api (c : build) (t : Base32.target) : bool -> ((entry -> isa) -> call) -> Prop :=
| api_hex_encode case src b o d e dlen :
    api c t false (fun pick => Into (fun p n q k => hex_encode (pick E_hex_encode) p n q k case) src b o d e dlen (fits dlen (rfc_hex_encode (digits_of case) src)))
| api_hex_decode src b o d e dlen out :
    exactly out (fun x => (bytes x /\ map ascii_lower src = rfc_hex_encode hex_lower x) /\ length x <= dlen) ->
    api c t false (fun pick => Into (hex_decode (pick E_hex_decode)) src b o d e dlen out)
| api_hex_decode_inplace data b o out :
    exactly out (fun x => bytes x /\ map ascii_lower data = rfc_hex_encode hex_lower x) ->
    api c t false (fun pick => InPlace (hex_decode_inplace (pick E_hex_decode)) data b o out)
| api_hex_check src b o answer :
    (answer = true <-> forall c, In c src -> In c hex_lower \/ In c hex_upper) ->
    api c t false (fun pick => Check (hex_check (pick E_hex_check)) src b o answer)
| api_b64_encode cfg src b o d e dlen :
    api c t false (fun pick => Into (b64_encode (pick E_b64_encode) cfg) src b o d e dlen (fits dlen (b64_rfc cfg src)))
| api_b64_decode cfg src b o d e dlen out : b64_extra_of cfg <> Forgiving ->
    exactly out (fun x => (bytes x /\ b64_rfc cfg x = src) /\ length x <= dlen) ->
    api c t false (fun pick => Into (b64_decode (t_endian t) (pick E_b64_decode) cfg) src b o d e dlen out)
| api_b64_decode_inplace cfg data b o out : b64_extra_of cfg <> Forgiving ->
    exactly out (fun x => bytes x /\ b64_rfc cfg x = data) ->
    api c t false (fun pick => InPlace (b64_decode_inplace (t_endian t) (pick E_b64_decode) cfg) data b o out)
| api_b64_check cfg src b o answer : b64_extra_of cfg <> Forgiving ->
    (answer = true <-> exists x, bytes x /\ b64_rfc cfg x = src) ->
    api c t false (fun pick => Check (b64_check (t_endian t) (pick E_b64_check) cfg) src b o answer)
| api_b64_decode_forgiving k src b o d e dlen out :
    exactly out (fun x => forgiving_decode_nows (b64_alphabet k) src = Some x /\ length x <= dlen) ->
    api c t false (fun pick => Into (b64_decode (t_endian t) (pick E_b64_decode) {| b64_kind_of := k; b64_extra_of := Forgiving |}) src b o d e dlen out)
| api_b64_decode_inplace_forgiving k data b o :
    api c t false (fun pick => InPlace (b64_decode_inplace (t_endian t) (pick E_b64_decode) {| b64_kind_of := k; b64_extra_of := Forgiving |}) data b o
                   (forgiving_decode_nows (b64_alphabet k) data))
| api_b64_check_forgiving k src b o answer :
    (answer = true <-> exists x, forgiving_decode_nows (b64_alphabet k) src = Some x) ->
    api c t false (fun pick => Check (b64_check (t_endian t) (pick E_b64_check) {| b64_kind_of := k; b64_extra_of := Forgiving |}) src b o answer)
| api_forgiving_decode src b o d e dlen :
    api c t false (fun pick => Into (forgiving_decode (t_endian t) (pick E_find_ws) (pick E_b64_decode)) src b o d e dlen
                   (if length src <=? dlen then whatwg_forgiving_decode src else None))
| api_forgiving_decode_inplace data b o :
    api c t false (fun pick => InPlace (forgiving_decode_inplace (t_endian t) (pick E_find_ws) (pick E_b64_decode)) data b o (whatwg_forgiving_decode data))
| api_b32_encode cfg src b o d e dlen :
    api c t false (fun pick => Into (b32_encode t (pick E_b32_encode) cfg) src b o d e dlen (fits dlen (b32_rfc cfg src)))
| api_b32_decode cfg src b o d e dlen out :
    exactly out (fun x => (bytes x /\ b32_rfc cfg x = src) /\ length x <= dlen) ->
    api c t false (fun pick => Into (b32_decode t (pick E_b32_decode) cfg) src b o d e dlen out)
| api_b32_decode_inplace cfg data b o out :
    exactly out (fun x => bytes x /\ b32_rfc cfg x = data) ->
    api c t false (fun pick => InPlace (b32_decode_inplace t (pick E_b32_decode) cfg) data b o out)
| api_b32_check cfg src b o answer :
    (answer = true <-> exists x, bytes x /\ b32_rfc cfg x = src) ->
    api c t false (fun pick => Check (b32_check t (pick E_b32_check) cfg) src b o answer)
| api_uuid_parse src b o d e out : exactly out (uuid_text src) ->
    api c t false (fun pick => Into (parse_codec (pick E_parse_simple) (pick E_parse_hyphenated)) src b o d e 16 out)
| api_uuid_parse_simple src b o d e out : exactly out (uuid_text_simple src) ->
    api c t false (fun pick => Into (parse_simple_codec (pick E_parse_simple)) src b o d e 16 out)
| api_uuid_parse_hyphenated src b o d e out : exactly out (uuid_text_hyphenated src) ->
    api c t false (fun pick => Into (parse_hyphenated_codec (pick E_parse_hyphenated)) src b o d e 16 out)
| api_uuid_format_simple case u b o d e : length u = 16 ->
    api c t false (fun pick => Into (format_simple_codec (pick E_format_simple) case) u b o d e 32 (Some (uuid_simple (digits_of case) u)))
| api_uuid_format_hyphenated case u b o d e : length u = 16 ->
    api c t false (fun pick => Into (format_hyphenated_codec (pick E_format_hyphenated) case) u b o d e 36 (Some (uuid_hyphenated (digits_of case) u)))
| api_is_ascii src b o answer :
    (answer = true <-> forall c, In c src -> ascii_char c) ->
    api c t false (fun pick => Check (answers (is_ascii (match target_arch c with X86_64 => true | _ => false end) (pick E_is_ascii))) src b o answer)
| api_is_utf32 xs b o answer : Forall (uint 4) xs ->
    (answer = true <-> forall x, In x xs -> scalar_value x) ->
    api c t false (fun pick => Check (answers (fun p n => is_utf32le (t_endian t) (pick E_is_utf32le) p (n / 4))) (arr (t_endian t) 4 xs) b o answer)
| api_swap16 xs b o d e dlen : Forall (uint 2) xs -> length xs <= dlen ->
    api c t true (fun pick => Into (swap_codec (t_endian t) U16 (pick E_utf16_swap)) (arr (t_endian t) 2 xs) b o d e (2 * dlen) (Some (arr (t_endian t) 2 (map swap16 xs))))
| api_swap16_inplace xs b o : Forall (uint 2) xs ->
    api c t true (fun pick => InPlace (swap_inplace_codec (t_endian t) U16 (pick E_utf16_swap)) (arr (t_endian t) 2 xs) b o (Some (arr (t_endian t) 2 (map swap16 xs))))
| api_swap32 xs b o d e dlen : Forall (uint 4) xs -> length xs <= dlen ->
    api c t true (fun pick => Into (swap_codec (t_endian t) U32 (pick E_utf32_swap)) (arr (t_endian t) 4 xs) b o d e (4 * dlen) (Some (arr (t_endian t) 4 (map swap32 xs))))
| api_swap32_inplace xs b o : Forall (uint 4) xs ->
    api c t true (fun pick => InPlace (swap_inplace_codec (t_endian t) U32 (pick E_utf32_swap)) (arr (t_endian t) 4 xs) b o (Some (arr (t_endian t) 4 (map swap32 xs)))).

(** The target of the build: wasm32, and the byte order. The x86 and wasm targets are little-endian; big-endian targets with
    NEON are not covered. *)
Definition target_of (c : build) (t : Base32.target) : Prop :=
  t_wasm32 t = is_wasm32 (target_arch c) /\ (t_endian t = LE \/ target_arch c = OTHER).
(** The endianness swaps work: not on x86 with SSSE3 but without AVX2. *)
Definition swaps_work (c : build) (cpu : feature -> bool) : Prop :=
  is_x86 (target_arch c) = true -> fst (auto c cpu D_utf16_swap InitIfunc) <> SSSE3.
