(** Property theorems for hex-simd (C17-C23 and the hexadecimal parts of C10, C16, C45, C47, C50). *)
From Coq Require Import ZArith List Bool Lia String.
From Verif Require Import Bytes Mem MemFacts Slices Codec Isa Simd Spec Hex HexApi.
Import ListNotations.
Open Scope list_scope. Open Scope Z_scope. Open Scope m_scope.

(** C17: encode = base16 in the given case, on every instruction set. *)
Theorem C17_hex_encode : forall s case src,
  encodes (fun p n q k => hex_encode s p n q k case) src (rfc_hex_encode (alphabet_of case) src).
Proof. exact hex_encode_ok. Qed.
Print Assumptions C17_hex_encode.

(** C18: decode accepts exactly the strings whose lower-cased form is a lower-case encoding. *)
Theorem C18_hex_decode_exact : forall s src m b o d e dlen,
  slice m b o src -> room m d e dlen -> separate b o (List.length src) d e dlen -> (List.length src / 2 <= dlen)%nat ->
  exists r m', hex_decode s (b, o) (List.length src) (d, e) dlen m = Ret r m' /\
    (forall x, r = Ok ((d, e), List.length x) /\ bytes_at m' d e x <->
               bytes x /\ map ascii_lower src = rfc_hex_encode hex_lower x) /\
    (r = Err <-> forall x, bytes x -> map ascii_lower src <> rfc_hex_encode hex_lower x).
Proof. exact hex_exact. Qed.
Print Assumptions C18_hex_decode_exact.

(** for every destination length *)
Theorem C18_hex_decodes_exactly : forall s src,
  decodes_exactly (hex_decode s) src (fun x => bytes x /\ map ascii_lower src = rfc_hex_encode hex_lower x).
Proof.
  intros s src. apply (exactly_decodes _ _ (List.length src / 2) (rfc_hex_decode src)); [apply hex_decode_ok| | |].
  - intros m b o d e dlen _ L. now apply hex_decode_short.
  - intros B x. now apply hex_decode_iff.
  - intros B x Hx. apply hex_decode_even in Hx. rewrite Hx. now rewrite Nat.mul_comm, Nat.div_mul.
Qed.
Print Assumptions C18_hex_decodes_exactly.
(** the same as an executable specification *)
Theorem C18_hex_decode_spec : forall s src, decodes (hex_decode s) src (List.length src / 2) (rfc_hex_decode src).
Proof. exact hex_decode_ok. Qed.
Print Assumptions C18_hex_decode_spec.

(** C19: check = every byte is a hexadecimal digit; decode succeeds iff that and the length is even. *)
Theorem C19_hex_check : forall s src, checks (hex_check s) src (forallb hex_char src).
Proof. exact hex_check_ok. Qed.
Print Assumptions C19_hex_check.
Theorem C19_hex_decode_iff_check : forall src, bytes src ->
  (exists x, rfc_hex_decode src = Some x) <-> forallb hex_char src = true /\ (List.length src mod 2 = 0)%nat.
Proof. exact hex_decode_some_iff. Qed.
Print Assumptions C19_hex_decode_iff_check.
(** the two functions against each other, with any pair of implementations *)
Theorem C19_hex_check_decides_decode : forall s1 s2 src m b o m2 d e dlen r1 m1' r2 m2',
  slice m b o src -> slice m2 b o src -> room m2 d e dlen -> separate b o (List.length src) d e dlen -> (List.length src / 2 <= dlen)%nat ->
  hex_check s1 (b, o) (List.length src) m = Ret r1 m1' ->
  hex_decode s2 (b, o) (List.length src) (d, e) dlen m2 = Ret r2 m2' ->
  (r1 = Ok tt \/ r1 = Err) /\
  ((exists n, r2 = Ok ((d, e), n)) <-> r1 = Ok tt /\ (List.length src mod 2 = 0)%nat) /\
  (r2 = Err <-> r1 = Err \/ (List.length src mod 2 = 1)%nat).
Proof.
  intros s1 s2 src m b o m2 d e dlen r1 m1' r2 m2' S1 S2 R S L E1 E2.
  destruct (hex_check_ok s1 src m b o S1) as (m' & E & _). rewrite E in E1. injection E1 as <- <-.
  destruct (hex_decode_ok s2 src m2 b o d e dlen S2 R S L) as (r & m'' & E' & _ & P). rewrite E' in E2. injection E2 as <- <-.
  pose proof (hex_decode_some_iff src (proj1 S1)) as I. pose proof (Nat.mod_upper_bound (List.length src) 2 (Nat.neq_succ_0 1)) as B.
  destruct (rfc_hex_decode src) as [x|].
  - destruct P as [-> _]. destruct (proj1 I (ex_intro _ x eq_refl)) as [-> Ev].
    split; [now left|]. split; split; eauto; [discriminate|intros [H|H]; [discriminate H|congruence]].
  - subst r. destruct (forallb hex_char src).
    + split; [now left|]. split; split; try discriminate.
      * intros [n H]. discriminate H.
      * intros [_ Ev]. destruct (proj2 I (conj eq_refl Ev)) as [x H]. discriminate H.
      * intros _. right. destruct (List.length src mod 2)%nat as [|[|k]] eqn:Ev; [|reflexivity|lia].
        destruct (proj2 I (conj eq_refl eq_refl)) as [x H]. discriminate H.
      * reflexivity.
    + split; [now right|]. split; split; auto; [intros [n H]; discriminate H|intros [H _]; discriminate H].
Qed.
Print Assumptions C19_hex_check_decides_decode.

(** C20: round trips, with any pair of implementations. *)
Theorem C20_hex_roundtrip : forall s1 s2 case src m b o d1 e1 n1 d2 e2 n2,
  slice m b o src -> room m d1 e1 n1 -> room m d2 e2 n2 ->
  separate b o (List.length src) d1 e1 n1 -> separate d1 e1 n1 d2 e2 n2 ->
  (2 * List.length src <= n1)%nat -> (List.length src <= n2)%nat ->
  exists m', (r <- hex_encode s1 (b, o) (List.length src) (d1, e1) n1 case ;;
              match r with Ok (p, n) => hex_decode s2 p n (d2, e2) n2 | Err => ret Err end) m
             = Ret (Ok ((d2, e2), List.length src)) m' /\ bytes_at m' d2 e2 src.
Proof. exact hex_roundtrip. Qed.
Print Assumptions C20_hex_roundtrip.
Theorem C20_hex_reencode : forall s1 s2 src x, bytes src ->
  decodes (hex_decode s1) src (List.length src / 2) (Some x) ->
  encodes (fun p n q k => hex_encode s2 p n q k Lower) x (map ascii_lower src).
Proof.
  intros s1 s2 src x B H. rewrite <- (hex_reencode s1 s2 src x _ B H (hex_encode_ok s2 Lower x)). apply hex_encode_ok.
Qed.
Print Assumptions C20_hex_reencode.

(** C21: memory safety, for every destination length. *)
Theorem C21_hex_encode_safe : forall s case src m b o d e dlen,
  slice m b o src -> room m d e dlen -> separate b o (List.length src) d e dlen ->
  exists r m', hex_encode s (b, o) (List.length src) (d, e) dlen case m = Ret r m' /\
    slice m' b o src /\ only_changed m d e (Nat.min dlen (2 * List.length src)) m' /\
    match r with Ok (p, n) => p = (d, e) /\ n = (2 * List.length src)%nat /\ exists t, List.length t = n /\ slice m' d e t
               | Err => m' = m end.
Proof. exact hex_encode_safe. Qed.
Print Assumptions C21_hex_encode_safe.
Theorem C21_hex_decode_safe : forall s src m b o d e dlen,
  slice m b o src -> room m d e dlen -> separate b o (List.length src) d e dlen ->
  exists r m', hex_decode s (b, o) (List.length src) (d, e) dlen m = Ret r m' /\
    slice m' b o src /\ only_changed m d e (Nat.min dlen (List.length src / 2)) m' /\
    match r with Ok (p, n) => p = (d, e) /\ n = (List.length src / 2)%nat /\ exists t, List.length t = n /\ slice m' d e t
               | Err => True end.
Proof. exact hex_decode_safe. Qed.
Print Assumptions C21_hex_decode_safe.
(** [slice m b o src] includes the case that the allocation is exactly [src], so every read is inside [src]. *)
Theorem C21_hex_check_safe : forall s src m b o, slice m b o src ->
  exists r m', hex_check s (b, o) (List.length src) m = Ret r m' /\ same_mem m m'.
Proof. intros s src m b o H. destruct (hex_check_ok s src m b o H) as [m' [E S]]. eauto. Qed.
Print Assumptions C21_hex_check_safe.

(** C22: decoding in place has the outcome of decoding into a separate buffer. *)
Theorem C22_hex_decode_inplace : forall s data,
  decodes_inplace (hex_decode_inplace s) data (List.length data / 2) (rfc_hex_decode data).
Proof. exact hex_decode_inplace_ok. Qed.
Print Assumptions C22_hex_decode_inplace.

Theorem C22_hex_decode_inplace_exact : forall s data,
  inplace_exactly (hex_decode_inplace s) data (fun x => bytes x /\ map ascii_lower data = rfc_hex_encode hex_lower x).
Proof.
  intros s data. apply (exactly_inplace _ _ (List.length data / 2) (rfc_hex_decode data)); [apply hex_decode_inplace_ok| | |].
  - intros B x. now apply hex_decode_iff.
  - apply Nat.div_le_upper_bound; lia.
  - intros B x Hx. apply hex_decode_even in Hx. rewrite Hx. now rewrite Nat.mul_comm, Nat.div_mul.
Qed.
Print Assumptions C22_hex_decode_inplace_exact.

(** C23: the length functions. *)
Theorem C23_hex_encoded_length : forall bits n, 0 < bits -> 0 <= n <= usize_max bits ->
  hex_encoded_length bits n = if n <=? usize_max bits / 2 then Some (2 * n) else None.
Proof. exact hex_encoded_length_ok. Qed.
Print Assumptions C23_hex_encoded_length.
(** which is the length of the text that encoding produces *)
Theorem C23_hex_encoded_length_exact : forall bits s case src, 0 < bits -> bytes src -> Z.of_nat (List.length src) <= usize_max bits ->
  exists t, encodes (fun p n q k => hex_encode s p n q k case) src t /\
  hex_encoded_length bits (Z.of_nat (List.length src)) =
  if Z.of_nat (List.length src) <=? usize_max bits / 2 then Some (Z.of_nat (List.length t)) else None.
Proof.
  intros bits s case src P B L. exists (rfc_hex_encode (alphabet_of case) src). split; [apply hex_encode_ok|].
  rewrite hex_encoded_length_ok by lia. destruct (_ <=? _); [|reflexivity]. f_equal.
  enough (List.length (rfc_hex_encode (alphabet_of case) src) = 2 * List.length src)%nat by lia.
  unfold rfc_hex_encode. clear. induction src; cbn [flat_map app List.length]; lia.
Qed.
Print Assumptions C23_hex_encoded_length_exact.
Theorem C23_hex_decoded_length : forall src,
  hex_decoded_length (Z.of_nat (List.length src)) = (if (List.length src mod 2 =? 0)%nat then Ok (Z.of_nat (List.length src / 2)) else Err) /\
  (forall x, rfc_hex_decode src = Some x -> hex_decoded_length (Z.of_nat (List.length src)) = Ok (Z.of_nat (List.length x))).
Proof. exact hex_decoded_length_ok. Qed.
Print Assumptions C23_hex_decoded_length.

(** C10: too short a destination is Err and nothing is written. *)
Theorem C10_hex_encode_short : forall s case m src slen dst dlen,
  (dlen < 2 * slen)%nat -> hex_encode s src slen dst dlen case m = Ret Err m.
Proof. exact hex_encode_short. Qed.
Print Assumptions C10_hex_encode_short.
Theorem C10_hex_decode_short : forall s m src slen dst dlen,
  (dlen < slen / 2)%nat -> hex_decode s src slen dst dlen m = Ret Err m.
Proof. exact hex_decode_short. Qed.
Print Assumptions C10_hex_decode_short.

(** C16: the produced bytes are ASCII. *)
Theorem C16_hex_ascii : forall s case src, bytes src ->
  exists t, encodes (fun p n q k => hex_encode_as_str s p n q k case) src t /\ Forall ascii_char t.
Proof. intros s case src B. exists (rfc_hex_encode (alphabet_of case) src). assert (E := hex_encode_ok s case src). split; [exact E|exact (hex_ascii s case src _ B E)]. Qed.
Print Assumptions C16_hex_ascii.

(** C43: the scalar table. *)
Theorem C43_hex_table : forall c, byte c -> unhex c = match hex_digit c with Some v => v | None => 255 end.
Proof. intros c H. apply Z.eqb_eq. revert c H. apply byte_sweep. vm_compute. reflexivity. Qed.
Print Assumptions C43_hex_table.

(** C45: the outcome does not depend on what the destination held. *)
Theorem C45_hex_decode_old_contents : forall s src m1 m2 b o d e dlen r1 r2 m1' m2',
  slice m1 b o src -> slice m2 b o src -> room m1 d e dlen -> room m2 d e dlen ->
  separate b o (List.length src) d e dlen ->
  hex_decode s (b, o) (List.length src) (d, e) dlen m1 = Ret r1 m1' ->
  hex_decode s (b, o) (List.length src) (d, e) dlen m2 = Ret r2 m2' ->
  r1 = r2 /\ forall n x, r1 = Ok ((d, e), n) -> List.length x = n -> bytes_at m1' d e x -> bytes_at m2' d e x.
Proof. exact hex_decode_old. Qed.
Print Assumptions C45_hex_decode_old_contents.
Theorem C45_hex_encode_old_contents : forall s case src m1 m2 b o d e dlen r1 r2 m1' m2',
  slice m1 b o src -> slice m2 b o src -> room m1 d e dlen -> room m2 d e dlen ->
  separate b o (List.length src) d e dlen ->
  hex_encode s (b, o) (List.length src) (d, e) dlen case m1 = Ret r1 m1' ->
  hex_encode s (b, o) (List.length src) (d, e) dlen case m2 = Ret r2 m2' ->
  r1 = r2 /\ forall n x, r1 = Ok ((d, e), n) -> List.length x = n -> bytes_at m1' d e x -> bytes_at m2' d e x.
Proof. exact hex_encode_old. Qed.
Print Assumptions C45_hex_encode_old_contents.

(** C47: encoding is compositional. *)
Theorem C47_hex_compositional : forall s1 s2 s3 case a b, bytes a -> bytes b ->
  exists x y, encodes (fun p n q k => hex_encode s1 p n q k case) a x /\ encodes (fun p n q k => hex_encode s2 p n q k case) b y /\
    encodes (fun p n q k => hex_encode s3 p n q k case) (a ++ b) (x ++ y).
Proof.
  intros s1 s2 s3 case a b Ba Bb. assert (E1 := hex_encode_ok s1 case a). assert (E2 := hex_encode_ok s2 case b).
  exists (rfc_hex_encode (alphabet_of case) a), (rfc_hex_encode (alphabet_of case) b). split; [exact E1|]. split; [exact E2|].
  exact (hex_compositional s1 s2 s3 case a b _ _ Ba Bb E1 E2).
Qed.
Print Assumptions C47_hex_compositional.

(** C50: encoding is injective. *)
Theorem C50_hex_injective : forall s1 s2 case a b, bytes a -> bytes b ->
  exists x y, encodes (fun p n q k => hex_encode s1 p n q k case) a x /\ encodes (fun p n q k => hex_encode s2 p n q k case) b y /\
    (x = y -> a = b).
Proof.
  intros s1 s2 case a b Ba Bb. assert (E1 := hex_encode_ok s1 case a). assert (E2 := hex_encode_ok s2 case b).
  exists (rfc_hex_encode (alphabet_of case) a), (rfc_hex_encode (alphabet_of case) b). split; [exact E1|]. split; [exact E2|].
  intros E. apply (hex_encode_inj case); auto.
Qed.
Print Assumptions C50_hex_injective.

(** ** Concrete instances: the hypotheses above are satisfiable and the model computes. *)
Definition ex_src : list Z := range 70.
Definition ex_mem : mem := mem_of [cells ex_src; uninit 150].
Example ex_slice : slice ex_mem 0 0 ex_src.
Proof. apply slice_whole; [|reflexivity]. apply Forall_forall. intros x H. apply in_range in H. unfold byte. lia. Qed.
Example ex_room : room ex_mem 1 3 145 /\ separate 0 0 (List.length ex_src) 1 3 145 /\ (2 * List.length ex_src <= 145)%nat.
Proof. unfold room, separate. cbn. lia. Qed.
(** run an encoder and show the result with the destination's cells *)
Definition show {A} (r : res A) (b : nat) : option (A * list cell) :=
  match r with Ret a m => Some (a, m b) | _ => None end.
Example ex_encode_avx2 :
  show (hex_encode AVX2 (0, 0)%nat 70 (1, 3)%nat 145 Upper ex_mem) 1
  = Some (Ok (1, 3, 140)%nat, uninit 3 ++ cells (rfc_hex_encode hex_upper ex_src) ++ uninit 7).
Proof. vm_compute. reflexivity. Qed.
Example ex_decode_ok :
  show (hex_decode SSE2 (0, 0)%nat 36 (1, 0)%nat 20
    (mem_of [cells (str "DeAdBeEf00112233445566778899aAbBcCdD"); uninit 20])) 1
  = Some (Ok (1, 0, 18)%nat,
      cells [222; 173; 190; 239; 0; 17; 34; 51; 68; 85; 102; 119; 136; 153; 170; 187; 204; 221] ++ uninit 2).
Proof. vm_compute. reflexivity. Qed.
(** a failing decode on AVX2: the destination was already written when the error is found *)
Example ex_decode_err :
  show (hex_decode AVX2 (0, 0)%nat 36 (1, 0)%nat 20
    (mem_of [cells (str "DeAdBeEf00112233445566778899aAbBcCdg"); uninit 20])) 1
  = Some (Err, cells [222; 173; 190; 239; 0; 17; 34; 51; 68; 85; 102; 119; 136; 153; 170; 187; 204; 255] ++ uninit 2).
Proof. vm_compute. reflexivity. Qed.
Example ex_check : show (hex_check WASM128 (0, 0)%nat 17 (mem_of [cells (str "0123456789abcdefG")])) 0
  = Some (Err, cells (str "0123456789abcdefG")).
Proof. vm_compute. reflexivity. Qed.
Example ex_inplace : show (hex_decode_inplace AVX2 (0, 1)%nat 4 (mem_of [cells (str "x4a6Bz")])) 0
  = Some (Ok (0, 1, 2)%nat, cells (str "xJk6Bz")).
Proof. vm_compute. reflexivity. Qed.
