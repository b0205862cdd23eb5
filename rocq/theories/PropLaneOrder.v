(** C75: the vector code and the byte order of the target. The source selects NEON by architecture only, so the same code is
    compiled for little-endian and big-endian AArch64. Checking, the ALSW tables and the UTF-32 test do not depend on the order;
    the bit splitting and merging of hex, base64 and base32 does. *)
From Coq Require Import ZArith List Bool Lia.
From Verif Require Import Bytes Mem Isa Simd SimdFacts Ints Spec UnicodeSpec MemFacts UnicodeFacts Alsw AlswFacts AlswTests AlswGenFacts
  Hex HexSimdFacts Base64 Base64Facts Base64SimdFacts Base64Ref Base32 Base32SimdFacts Base32SimdDec Base32Ref Unicode Utf32Facts
  LaneOrder LaneOrderFacts LaneOrderExact.
Import ListNotations.
Open Scope list_scope. Open Scope Z_scope.
Ltac Zify.zify_post_hook ::= Z.div_mod_to_equations.

(** On little-endian AArch64 this is the code modelled in the other files. *)
Lemma obind_ext {A B} (e : option A) (f g : A -> option B) : (forall a, f a = g a) -> obind e f = obind e g.
Proof. intro H. destruct e; [apply H|reflexivity]. Qed.
Ltac same := repeat first [rewrite on_lanes_le | rewrite on_lanes2_le | apply obind_ext; intro]; try reflexivity.
Theorem C75_little_endian : forall w x lut check decode shift blut y,
  hex_encode_bytes16_ord LE x lut = hex_encode_bytes16 NEON64 x lut /\
  hex_decode_ascii16_ord LE x = hex_decode_ascii16 NEON64 x /\
  hex_decode_ascii32_ord LE x = hex_decode_ascii32 NEON64 x /\
  check_ascii_xn_ord LE w x check = check_ascii_xn w NEON64 x check /\
  decode_ascii_xn_ord LE w x check decode = decode_ascii_xn w NEON64 x check decode /\
  encode_bytes24_ord LE x shift = encode_bytes24 NEON64 x shift /\
  encode_bytes12_ord LE x shift = encode_bytes12 NEON64 x shift /\
  b64_decode_ascii32_ord LE x check decode = b64_decode_ascii32 NEON64 x check decode /\
  encode_bytes20_ord LE x blut = encode_bytes20 NEON64 x blut /\
  b32_decode_ascii32_ord LE x check decode = b32_decode_ascii32 NEON64 x check decode /\
  utf32_step_ord LE y x = utf32_step NEON64 y x.
Proof.
  assert (M : forall w x, hex_merge_bits_ord LE w x = hex_merge_bits w NEON64 x).
  { intros. unfold hex_merge_bits_ord, hex_merge_bits. same. }
  assert (C : forall w x c, check_ascii_xn_ord LE w x c = check_ascii_xn w NEON64 x c).
  { intros. unfold check_ascii_xn_ord, check_ascii_xn. same. }
  assert (D : forall w x c d, decode_ascii_xn_ord LE w x c d = decode_ascii_xn w NEON64 x c d).
  { intros. unfold decode_ascii_xn_ord, decode_ascii_xn. same. }
  assert (M64 : forall x, merge_bits_x2_ord LE x = merge_bits_x2 NEON64 x).
  { intro. unfold merge_bits_x2_ord, merge_bits_x2. change (matches_isa NEON64 [ISSSE3]) with false.
    change (matches_isa NEON64 [INEON; IWASM128]) with true. cbv iota. cbn [flip].
    same; repeat (match goal with |- obind ?e _ = obind (obind ?e _) _ => destruct e; cbn [obind]; [|reflexivity] end; same). }
  assert (M32 : forall x, b32_merge_bits_ord LE x = merge_bits NEON64 x).
  { intro. unfold b32_merge_bits_ord, merge_bits. change (matches_isa NEON64 [ISSE41]) with false.
    change (matches_isa NEON64 [INEON; IWASM128]) with true. cbv iota. cbn [flip]. same. }
  assert (S2 : forall x, split_bits_x2_ord LE x = split_bits_x2 NEON64 x).
  { intro. unfold split_bits_x2_ord, split_bits_x2. change (matches_isa NEON64 [ISSE2]) with false.
    change (matches_isa NEON64 [INEON; IWASM128]) with true. cbv iota. cbn [flip]. same. }
  assert (S1 : forall x, split_bits_x1_ord LE x = split_bits_x1 NEON64 x).
  { intro. unfold split_bits_x1_ord, split_bits_x1. change (matches_isa NEON64 [ISSE2]) with false.
    change (matches_isa NEON64 [INEON; IWASM128]) with true. cbv iota. cbn [flip]. same. }
  assert (S32 : forall x, b32_split_bits_ord LE x = split_bits NEON64 x).
  { intro. unfold b32_split_bits_ord, split_bits. change (matches_isa NEON64 [ISSSE3]) with false.
    change (matches_isa NEON64 [INEON; IWASM128]) with true. cbv iota. cbn [flip]. same. }
  intros w x lut check decode shift blut y. repeat apply conj.
  - unfold hex_encode_bytes16_ord, hex_encode_bytes16. cbn [flip]. same.
  - unfold hex_decode_ascii16_ord, hex_decode_ascii16, hex_decode16. rewrite D. change (matches_isa NEON64 [ISSSE3; IWASM128]) with false.
    change (matches_isa NEON64 [INEON]) with true. cbv iota. destruct (decode_ascii_xn _ _ _ _ _) as [c|]; [|reflexivity].
    cbn [obind]. rewrite M. destruct (hex_merge_bits _ _ _); reflexivity.
  - unfold hex_decode_ascii32_ord, hex_decode_ascii32, hex_decode32. rewrite D. change (matches_isa NEON64 [ISSSE3; IWASM128]) with false.
    change (matches_isa NEON64 [INEON]) with true. cbv iota. destruct (decode_ascii_xn _ _ _ _ _) as [c|]; [|reflexivity].
    cbn [obind]. rewrite M. destruct (hex_merge_bits _ _ _); reflexivity.
  - apply C.
  - apply D.
  - unfold encode_bytes24_ord, encode_bytes24. now rewrite S2.
  - unfold encode_bytes12_ord, encode_bytes12. now rewrite S1.
  - unfold b64_decode_ascii32_ord, b64_decode_ascii32. rewrite D. apply obind_ext. intro c. now rewrite M64.
  - unfold encode_bytes20_ord, encode_bytes20. now rewrite S32.
  - unfold b32_decode_ascii32_ord, b32_decode_ascii32. rewrite D. apply obind_ext. intro c. now rewrite M32.
  - unfold utf32_step_ord, utf32_step. same.
Qed.
Print Assumptions C75_little_endian.

(** *** What does not depend on the byte order *)

(** The ALSW check and decoding, for every alphabet that passes the self tests of C73: exact for both orders. *)
Theorem C75_check : forall en a w x, spec_compiles a -> test_check a = true -> length x = vlen w -> bytes x ->
  check_ascii_xn_ord en w x (xn_luts w (check_lut a)) = Some (forallb (fun c => negb (al_decode a c =? 255)) x).
Proof. intros en a w x (DB & CH & _) T L B. apply check_ascii_xn_ord_ok; auto. exact (check_lane_gen a DB CH T). Qed.
Print Assumptions C75_check.

Theorem C75_decode : forall en a w x, spec_compiles a -> test_check a = true -> test_decode a = true ->
  (forall i, 0 <= i < 16 -> 1 <= al_decode_hash a i <= 8) -> length x = vlen w -> bytes x ->
  exists flags values,
    decode_ascii_xn_ord en w x (xn_luts w (check_lut a)) (xn_luts w (decode_lut a)) = Some (flags, values) /\
    (Forall (fun f => f < 128) flags <-> Forall (fun c => al_decode a c <> 255) x) /\
    (Forall (fun c => al_decode a c <> 255) x -> values = map (al_decode a) x).
Proof.
  intros en a w x (DB & CH & _) TC TD DH L B.
  destruct (decode_ascii_xn_ord_ok en a w x (alsw_exact_gen a DB CH TC DH TD) L B) as (c1 & c2 & E & L1 & L2 & B1 & B2 & H1 & H2).
  exists c1, c2. split; [assumption|].
  assert (HF : highbits c1 = false <-> Forall (fun f => f < 128) c1).
  { unfold highbits. clear. induction c1 as [|f c1 IH]; cbn [existsb]; [split; [constructor|reflexivity]|].
    rewrite orb_false_iff, IH, Z.leb_gt. split; [intros [? ?]; constructor; assumption|intro H; inversion H; auto]. }
  assert (HX : existsb (fun c => al_decode a c =? 255) x = false <-> Forall (fun c => al_decode a c <> 255) x).
  { clear. induction x as [|c x IH]; cbn [existsb]; [split; [constructor|reflexivity]|].
    rewrite orb_false_iff, IH, Z.eqb_neq. split; [intros [? ?]; constructor; assumption|intro H; inversion H; auto]. }
  split; [now rewrite <- HF, H1, HX|]. intro F. apply H2. now apply HX.
Qed.
Print Assumptions C75_decode.

(** The UTF-32 test: true exactly for Unicode scalar values, whatever the byte order. *)
Theorem C75_is_utf32le : forall en m b o xs, Forall (uint 4) xs -> bytes_at m b o (arr en 4 xs) ->
  exists r, is_utf32le_simd_ord en (b, o) (length xs) m = Ret r m /\ (r = true <-> forall x, In x xs -> scalar_value x).
Proof.
  intros en m b o xs F H. destruct (wp_inv _ _ _ (utf32_ord_ok en m b o xs F H)) as (r & m' & E & -> & ->).
  exists (forallb scalarb xs). split; [exact E|]. rewrite forallb_forall. unfold scalarb, scalar_value.
  rewrite Forall_forall in F. split; intros G x I; specialize (G x I); specialize (F x I); unfold uint in F; lia.
Qed.
Print Assumptions C75_is_utf32le.

(** *** What does: hex *)

(** Big-endian: the two digits of every byte are exchanged. *)
Theorem C75_hex_encode_big_endian : forall cs x, length cs = 16%nat -> length x = 16%nat -> bytes x ->
  hex_encode_bytes16_ord BE x (cs ++ cs) =
    Some (flat_map (fun b => [nth (Z.to_nat (b mod 16)) cs 0; nth (Z.to_nat (b / 16)) cs 0]) x).
Proof.
  intros cs x Lc Lx B. fold (x2 cs). rewrite (encode_bytes16_be x cs) by assumption. f_equal. clear. induction x as [|a x IH]; [reflexivity|].
  cbn [swapped flat_map app]. now rewrite IH.
Qed.
Print Assumptions C75_hex_encode_big_endian.
(** So it is not the encoding of RFC 4648. *)
Theorem C75_hex_encode_refuted : exists x y, length x = 16%nat /\ bytes x /\
  hex_encode_bytes16_ord BE x ENCODE_LOWER_LUT = Some y /\ y <> rfc_hex_encode hex_lower x /\
  hex_encode_bytes16_ord LE x ENCODE_LOWER_LUT = Some (rfc_hex_encode hex_lower x).
Proof.
  exists (repeat 18 16), (flat_map (fun _ => [50; 49]) (seq 0 16)).
  split; [reflexivity|]. split; [apply Forall_forall; intros b I; apply repeat_spec in I; subst; unfold byte; lia|].
  split; [vm_compute; reflexivity|]. split; [vm_compute; discriminate|vm_compute; reflexivity].
Qed.
Print Assumptions C75_hex_encode_refuted.

(** Big-endian: the decoders accept the same texts, and clear the low digit of every byte. *)
Theorem C75_hex_decode_big_endian : forall x, bytes x ->
  (length x = 16%nat -> hex_decode_ascii16_ord BE x =
     Some (match rfc_hex_decode x with Some l => Ok (map (fun b => 16 * (b / 16)) l) | None => Err end)) /\
  (length x = 32%nat -> hex_decode_ascii32_ord BE x =
     Some (match rfc_hex_decode x with Some l => Ok (map (fun b => 16 * (b / 16)) l) | None => Err end)).
Proof.
  intros x B. split; intro L; [rewrite hex_decode_ascii16_be by auto|rewrite hex_decode_ascii32_be by auto]; now destruct (rfc_hex_decode x).
Qed.
Print Assumptions C75_hex_decode_big_endian.
Theorem C75_hex_decode_refuted : exists x l y, length x = 32%nat /\ bytes x /\ rfc_hex_decode x = Some l /\
  hex_decode_ascii32_ord BE x = Some (Ok y) /\ y <> l.
Proof.
  exists (repeat 49 32), (repeat 17 16), (repeat 16 16). split; [reflexivity|].
  split; [apply Forall_forall; intros b I; apply repeat_spec in I; subst; unfold byte; lia|].
  split; [vm_compute; reflexivity|]. split; [vm_compute; reflexivity|]. discriminate.
Qed.
Print Assumptions C75_hex_decode_refuted.

(** *** base64 *)

(** Big-endian: three bytes are read as a little-endian number, whose four digits come lowest first. *)
Fixpoint le_digits (l : list Z) : list Z :=
  match l with
  | a :: b :: c :: r => let n := a + 256 * b + 65536 * c in
      [n mod 64; n / 64 mod 64; n / 4096 mod 64; n / 262144] ++ le_digits r
  | _ => []
  end.
Lemma le_digits_ok l : bytes l -> lsextets l = le_digits l.
Proof.
  induction l as [|a|a b|a b c r IH] using list_ind3; intro B; try reflexivity. inv_bytes. unfold byte in *.
  cbn [lsextets lsext le_digits app]. cbn zeta. rewrite IH by assumption.
  f_equal; [lia|]. f_equal; [lia|]. f_equal; [lia|]. f_equal; lia.
Qed.
Theorem C75_base64_encode_big_endian : forall k x, bytes x ->
  (length x = 32%nat -> encode_bytes24_ord BE x (encoding_shift (b64_charset k) ++ encoding_shift (b64_charset k)) =
     Some (map (fun v => nth (Z.to_nat v) (match k with Standard => base64_std | UrlSafe => base64_url end) 0) (le_digits (firstn 24 (skipn 4 x))))) /\
  (length x = 16%nat -> encode_bytes12_ord BE x (encoding_shift (b64_charset k)) =
     Some (map (fun v => nth (Z.to_nat v) (match k with Standard => base64_std | UrlSafe => base64_url end) 0) (le_digits (firstn 12 x)))).
Proof.
  intros k x B. replace (match k with Standard => base64_std | UrlSafe => base64_url end) with (b64_charset k) by (now destruct k). split; intro L.
  - rewrite <- le_digits_ok by now apply bytes_firstn, bytes_skipn. exact (encode_bytes24_be k x L B).
  - rewrite <- le_digits_ok by now apply bytes_firstn. exact (encode_bytes12_be k x L B).
Qed.
Print Assumptions C75_base64_encode_big_endian.
(** So base64 encoding is wrong: here a block of twelve bytes and the twelve bytes of one half of a 32-byte vector. *)
Ltac all_bytes := apply Forall_forall; intros ? I; cbn [In] in I; unfold byte; repeat (destruct I as [<-|I]; [lia|]); destruct I.
Definition v16 : list Z := [1; 2; 3; 4; 5; 6; 7; 8; 9; 10; 11; 12; 13; 14; 15; 16].
Theorem C75_base64_encode_refuted : exists x y, length x = 16%nat /\ bytes x /\
  encode_bytes12_ord BE x (encoding_shift (b64_charset Standard)) = Some y /\ y <> rfc_base64 base64_std true (firstn 12 x) /\
  encode_bytes12_ord LE x (encoding_shift (b64_charset Standard)) = Some (rfc_base64 base64_std true (firstn 12 x)).
Proof.
  exists v16, (map (fun v => nth (Z.to_nat v) base64_std 0) (le_digits (firstn 12 v16))).
  split; [reflexivity|]. split; [all_bytes|]. split; [vm_compute; reflexivity|]. split; [vm_compute; discriminate|vm_compute; reflexivity].
Qed.
Print Assumptions C75_base64_encode_refuted.

(** Big-endian: the digits are put together lowest first, and the lowest of the three bytes is lost. *)
Fixpoint drop_low (l : list Z) : list Z :=
  match l with
  | a :: b :: c :: d :: r => let n := a + 64 * b + 4096 * c + 262144 * d in [n / 256 mod 256; n / 65536; 0] ++ drop_low r
  | _ => []
  end.
Lemma drop_low_ok l : Forall six l -> btriples l = drop_low l.
Proof.
  induction l as [|a|a b|a b c|a b c d r IH] using list_ind4; intro F; try reflexivity.
  do 4 (inversion F as [|? ? ? F']; subst; clear F; rename F' into F). unfold six in *.
  cbn [btriples btrip drop_low app]. cbn zeta. rewrite IH by assumption. f_equal; [lia|]. f_equal; lia.
Qed.
Lemma seq_index (ix : Z -> option Z) (bad : Z -> bool) (dv : Z -> Z) (l : list Z) : bytes l -> (forall c, byte c -> ix c = if bad c then None else Some (dv c)) ->
  sequence (map ix l) = if existsb bad l then None else Some (map dv l).
Proof.
  intros B H. induction l as [|c l IH]; [reflexivity|]. inv_bytes. cbn [map sequence existsb]. rewrite H by assumption.
  destruct (bad c); cbn [orb]; [reflexivity|]. rewrite IH by assumption. now destruct (existsb bad l).
Qed.
Theorem C75_base64_decode_big_endian : forall k x, length x = 32%nat -> bytes x ->
  b64_decode_ascii32_ord BE x (lut_x2 (check_lut (b64_alsw k))) (lut_x2 (decode_lut (b64_alsw k))) =
  Some (match sequence (map (fun c => index_of c (match k with Standard => base64_std | UrlSafe => base64_url end)) x) with
        | Some v => Ok (drop_low (firstn 16 v) ++ [0; 0; 0; 0] ++ drop_low (skipn 16 v) ++ [0; 0; 0; 0])
        | None => Err
        end).
Proof.
  intros k x L B. rewrite b64_decode_ascii32_be by assumption. rewrite (seq_index _ (b64_bad k) (dv k)) by (auto; intros; apply dv_index; assumption).
  destruct (existsb (b64_bad k) x) eqn:X; [reflexivity|]. unfold bmerged.
  assert (S : Forall six (map (dv k) x)) by (apply b64_vals_six; assumption).
  change (map (al_decode (b64_alsw k)) x) with (map (dv k) x).
  rewrite !drop_low_ok; [reflexivity| |]; rewrite <- (firstn_skipn 16 (map (dv k) x)) in S; now apply Forall_app in S.
Qed.
Print Assumptions C75_base64_decode_big_endian.
(** Decoding: [decode_simd] (base64-simd/decode.rs:209) stores the two halves of the result 12 bytes apart, that of base32 10 bytes
    apart ([halves k] keeps [k] bytes of each half). A correct text of 32 characters is accepted and decoded to other bytes. *)
Definition halves (k : nat) (y : list Z) : list Z := firstn k y ++ firstn k (skipn 16 y).
Theorem C75_base64_decode_refuted : exists d x y z, length d = 24%nat /\ bytes d /\ x = rfc_base64 base64_std true d /\
  b64_decode_ascii32_ord BE x (lut_x2 (check_lut (b64_alsw Standard))) (lut_x2 (decode_lut (b64_alsw Standard))) = Some (Ok y) /\
  halves 12 y <> d /\
  b64_decode_ascii32_ord LE x (lut_x2 (check_lut (b64_alsw Standard))) (lut_x2 (decode_lut (b64_alsw Standard))) = Some (Ok z) /\
  halves 12 z = d.
Proof.
  exists (repeat 65 24).
  let x := eval vm_compute in (rfc_base64 base64_std true (repeat 65 24)) in exists x;
  let y := eval vm_compute in (b64_decode_ascii32_ord BE x (lut_x2 (check_lut (b64_alsw Standard))) (lut_x2 (decode_lut (b64_alsw Standard)))) in
  match y with Some (Ok ?y) => exists y end;
  let z := eval vm_compute in (b64_decode_ascii32_ord LE x (lut_x2 (check_lut (b64_alsw Standard))) (lut_x2 (decode_lut (b64_alsw Standard)))) in
  match z with Some (Ok ?z) => exists z end.
  split; [reflexivity|]. split; [all_bytes|]. split; [vm_compute; reflexivity|]. split; [vm_compute; reflexivity|].
  split; [vm_compute; discriminate|]. split; vm_compute; reflexivity.
Qed.
Print Assumptions C75_base64_decode_refuted.

(** *** base32 *)

(** Big-endian: five bytes are read as a little-endian number, and the eight digits are taken from it at these bits. *)
Definition fields : list Z := [6; 11; 12; 17; 18; 23; 24; 29].
Fixpoint field_digits (l : list Z) : list Z :=
  match l with
  | a :: b :: c :: d :: e :: r =>
      let n := a + 256 * b + 65536 * c + 16777216 * d + 4294967296 * e in
      map (fun p => n / 2 ^ p mod 32) fields ++ field_digits r
  | _ => []
  end.
Lemma field_digits_ok l : bytes l -> bocts l = field_digits l.
Proof.
  induction l as [l H|a b c d e r IH] using list_ind5; intro B.
  - destruct l as [|a [|b [|c [|d [|e r]]]]]; try reflexivity. cbn [length] in H. lia.
  - inv_bytes. unfold byte in *. cbn [bocts boct field_digits fields map app]. cbn zeta. rewrite IH by assumption.
    change (2 ^ 6) with 64. change (2 ^ 11) with 2048. change (2 ^ 12) with 4096. change (2 ^ 17) with 131072.
    change (2 ^ 18) with 262144. change (2 ^ 23) with 8388608. change (2 ^ 24) with 16777216. change (2 ^ 29) with 536870912.
    f_equal; [lia|]. f_equal; [lia|]. f_equal; [lia|]. f_equal; [lia|]. f_equal; [lia|]. f_equal; [lia|]. f_equal; [lia|]. f_equal. lia.
Qed.
Theorem C75_base32_encode_big_endian : forall k x, length x = 32%nat -> bytes x ->
  encode_bytes20_ord BE x (b32_encoding_lut (b32_charset k)) =
  Some (map (fun v => nth (Z.to_nat v) (match k with KBase32 => base32_std | KBase32Hex => base32_hex end) 0)
            (field_digits (firstn 20 (skipn 6 x)))).
Proof.
  intros k x L B. rewrite <- field_digits_ok by now apply bytes_firstn, bytes_skipn. rewrite encode_bytes20_be by assumption. now destruct k.
Qed.
Print Assumptions C75_base32_encode_big_endian.
(** Decoding: of eight digits the first, third, sixth and eighth are put at the bits 6, 12, 23 and 29 of a little-endian number; the others are lost. *)
Fixpoint field_bytes (l : list Z) : list Z :=
  match l with
  | a :: _ :: c :: _ :: _ :: f :: _ :: h :: r => le_bytes 5 (2 ^ 6 * a + 2 ^ 12 * c + 2 ^ 23 * f + 2 ^ 29 * h) ++ field_bytes r
  | _ => []
  end.
Lemma field_bytes_ok l : Forall five l -> bquints l = field_bytes l.
Proof.
  unfold bquints. induction l as [l H|a b c d e f g h r IH] using list_ind8; intro F.
  - destruct l as [|a [|b [|c [|d [|e [|f [|g [|h r]]]]]]]]; try reflexivity. cbn [length] in H. lia.
  - inv_five. unfold five in *. cbn [groups8 bquint field_bytes le_bytes app]. rewrite IH by assumption.
    change (2 ^ 6) with 64. change (2 ^ 12) with 4096. change (2 ^ 23) with 8388608. change (2 ^ 29) with 536870912.
    f_equal; [lia|]. f_equal; [lia|]. f_equal; [lia|]. f_equal; [lia|]. f_equal. lia.
Qed.
Theorem C75_base32_decode_big_endian : forall k x, length x = 32%nat -> bytes x ->
  b32_decode_ascii32_ord BE x (lut_x2 (check_lut (b32_alsw k))) (lut_x2 (decode_lut (b32_alsw k))) =
  Some (match sequence (map (fun c => index_of c (match k with KBase32 => base32_std | KBase32Hex => base32_hex end)) x) with
        | Some v => Ok (field_bytes (firstn 16 v) ++ [0; 0; 0; 0; 0; 0] ++ field_bytes (skipn 16 v) ++ [0; 0; 0; 0; 0; 0])
        | None => Err
        end).
Proof.
  intros k x L B. rewrite b32_decode_ascii32_be by assumption. rewrite (seq_index _ (b32_bad k) (dv32 k)) by (auto; intros; apply dv32_index; assumption).
  destruct (existsb (b32_bad k) x) eqn:X; [reflexivity|]. unfold bmerged32, zeros6.
  assert (S : Forall five (map (dv32 k) x)) by (apply b32_vals_five; assumption).
  change (map (al_decode (b32_alsw k)) x) with (map (dv32 k) x).
  rewrite !field_bytes_ok; [reflexivity| |]; rewrite <- (firstn_skipn 16 (map (dv32 k) x)) in S; now apply Forall_app in S.
Qed.
Print Assumptions C75_base32_decode_big_endian.

Theorem C75_base32_encode_refuted : exists x y, length x = 32%nat /\ bytes x /\
  encode_bytes20_ord BE x (b32_encoding_lut (b32_charset KBase32)) = Some y /\ y <> rfc_base32 base32_std true (firstn 20 (skipn 6 x)) /\
  encode_bytes20_ord LE x (b32_encoding_lut (b32_charset KBase32)) = Some (rfc_base32 base32_std true (firstn 20 (skipn 6 x))).
Proof.
  exists (v16 ++ v16).
  let y := eval vm_compute in (encode_bytes20_ord BE (v16 ++ v16) (b32_encoding_lut (b32_charset KBase32))) in
  match y with Some ?y => exists y end.
  split; [reflexivity|]. split; [all_bytes|]. split; [vm_compute; reflexivity|]. split; [vm_compute; discriminate|vm_compute; reflexivity].
Qed.
Print Assumptions C75_base32_encode_refuted.
Theorem C75_base32_decode_refuted : exists d x y z, length d = 20%nat /\ bytes d /\ x = rfc_base32 base32_std true d /\
  b32_decode_ascii32_ord BE x (lut_x2 (check_lut (b32_alsw KBase32))) (lut_x2 (decode_lut (b32_alsw KBase32))) = Some (Ok y) /\
  halves 10 y <> d /\
  b32_decode_ascii32_ord LE x (lut_x2 (check_lut (b32_alsw KBase32))) (lut_x2 (decode_lut (b32_alsw KBase32))) = Some (Ok z) /\
  halves 10 z = d.
Proof.
  exists (repeat 65 20).
  let x := eval vm_compute in (rfc_base32 base32_std true (repeat 65 20)) in exists x;
  let y := eval vm_compute in (b32_decode_ascii32_ord BE x (lut_x2 (check_lut (b32_alsw KBase32))) (lut_x2 (decode_lut (b32_alsw KBase32)))) in
  match y with Some (Ok ?y) => exists y end;
  let z := eval vm_compute in (b32_decode_ascii32_ord LE x (lut_x2 (check_lut (b32_alsw KBase32))) (lut_x2 (decode_lut (b32_alsw KBase32)))) in
  match z with Some (Ok ?z) => exists z end.
  split; [reflexivity|]. split; [all_bytes|]. split; [vm_compute; reflexivity|]. split; [vm_compute; reflexivity|].
  split; [vm_compute; discriminate|]. split; vm_compute; reflexivity.
Qed.
Print Assumptions C75_base32_decode_refuted.

From Coq Require Import String.
(** Non-vacuity: the alphabets and inputs of the statements above exist. *)
Example C75_check_ex : check_ascii_xn_ord BE W128 (str "0123456789abcdeF") (xn_luts W128 (check_lut HexAlsw)) = Some true /\
  check_ascii_xn_ord BE W128 (str "0123456789abcdeg") (xn_luts W128 (check_lut HexAlsw)) = Some false.
Proof. split; vm_compute; reflexivity. Qed.
Example C75_hex_encode_ex : hex_encode_bytes16_ord BE (str "0123456789abcdef") (x2 (str "0123456789abcdef")) =
  Some (str "03132333435363738393162636465666").
Proof. vm_compute. reflexivity. Qed.
Example C75_hex_decode_ex : hex_decode_ascii16_ord BE (str "0123456789abcdef") = Some (Ok [0; 32; 64; 96; 128; 160; 192; 224]) /\
  hex_decode_ascii16_ord BE (str "0123456789abcdeg") = Some Err.
Proof. split; vm_compute; reflexivity. Qed.
Example C75_base64_encode_ex : encode_bytes12_ord BE (str "foobarfoobar....") (encoding_shift (b64_charset Standard)) =
  Some (str "m92biFmcm92biFmc").
Proof. vm_compute. reflexivity. Qed.
Example C75_base64_decode_ex :
  b64_decode_ascii32_ord BE (str "Zm9vYmFyZm9vYmFyZm9vYmFyZm9vYmFy") (lut_x2 (check_lut (b64_alsw Standard))) (lut_x2 (decode_lut (b64_alsw Standard)))
    = Some (Ok ([217; 191; 0; 89; 200; 0; 217; 191; 0; 89; 200; 0] ++ [0; 0; 0; 0] ++ [217; 191; 0; 89; 200; 0; 217; 191; 0; 89; 200; 0] ++ [0; 0; 0; 0])) /\
  b64_decode_ascii32_ord BE (str "Zm9vYmFyZm9vYmFyZm9vYmFyZm9vYmF=") (lut_x2 (check_lut (b64_alsw Standard))) (lut_x2 (decode_lut (b64_alsw Standard)))
    = Some Err.
Proof. split; vm_compute; reflexivity. Qed.
Example C75_base32_ex :
  encode_bytes20_ord BE (str "......foobafoobafoobafooba......") (b32_encoding_lut (b32_charset KBase32)) = Some (str "5NWX3ECL5NWX3ECL5NWX3ECL5NWX3ECL") /\
  (b32_decode_ascii32_ord BE (str "MZXW6YTBMZXW6YTBMZXW6YTBMZXW6YTB") (lut_x2 (check_lut (b32_alsw KBase32))) (lut_x2 (decode_lut (b32_alsw KBase32)))
    = Some (Ok [0; 115; 1; 44; 0; 0; 115; 1; 44; 0; 0; 0; 0; 0; 0; 0; 0; 115; 1; 44; 0; 0; 115; 1; 44; 0; 0; 0; 0; 0; 0; 0])) /\
  b32_decode_ascii32_ord BE (str "MZXW6YTBMZXW6YTBMZXW6YTBMZXW6Y1B") (lut_x2 (check_lut (b32_alsw KBase32))) (lut_x2 (decode_lut (b32_alsw KBase32)))
    = Some Err.
Proof. split; [vm_compute; reflexivity|]. split; vm_compute; reflexivity. Qed.
