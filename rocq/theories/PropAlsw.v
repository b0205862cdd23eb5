(** C73: the lookup-table generator [impl_alsw!] of vsimd is right for every alphabet that passes the self tests it generates. *)
From Coq Require Import ZArith List Bool Lia.
From Verif Require Import Bytes Isa Simd SimdFacts Alsw AlswFacts AlswTests AlswGenFacts.
Import ListNotations.
Open Scope list_scope. Open Scope Z_scope.

(** For every alphabet (any function from bytes to bytes, 255 = not a character) and every choice of hash values that compiles:
    if the scalar self test of the 256 bytes passes, the vector check is exact whatever the neighbouring lanes are. *)
Theorem C73_check : forall a w s x, spec_compiles a -> test_check a = true ->
  matches_isa s [ISSSE3; INEON; IWASM128] = true -> length x = vlen w -> bytes x ->
  check_ascii_xn w s x (xn_luts w (check_lut a)) = Some (forallb (fun c => negb (al_decode a c =? 255)) x).
Proof.
  intros a w s x (DB & CH & _) T Hs L B. apply check_exact_xn_ok; auto. exact (check_lane_gen a DB CH T).
Qed.
Print Assumptions C73_check.

(** With hash values from 1 to 8 for decoding, both self tests imply that vector decoding is exact:
    no flag is set exactly for vectors of characters of the alphabet, and then every lane is decoded to its value. *)
Theorem C73_decode : forall a w s x, spec_compiles a -> test_check a = true -> test_decode a = true ->
  (forall i, 0 <= i < 16 -> 1 <= al_decode_hash a i <= 8) ->
  matches_isa s [ISSSE3; INEON; IWASM128] = true -> length x = vlen w -> bytes x ->
  exists flags values,
    decode_ascii_xn w s x (xn_luts w (check_lut a)) (xn_luts w (decode_lut a)) = Some (flags, values) /\
    length flags = vlen w /\ length values = vlen w /\ bytes flags /\ bytes values /\
    (Forall (fun f => f < 128) flags <-> Forall (fun c => al_decode a c <> 255) x) /\
    (Forall (fun c => al_decode a c <> 255) x -> values = map (al_decode a) x).
Proof.
  intros a w s x (DB & CH & _) TC TD DH Hs L B.
  destruct (decode_ascii_xn_ok a (alsw_exact_gen a DB CH TC DH TD) w s x Hs L B) as (c1 & c2 & E & L1 & L2 & B1 & B2 & H1 & H2).
  exists c1, c2. repeat (split; [assumption|]).
  assert (HF : highbits c1 = false <-> Forall (fun f => f < 128) c1).
  { unfold highbits. clear. induction c1 as [|f c1 IH]; cbn [existsb]; [split; [constructor|reflexivity]|].
    rewrite orb_false_iff, IH, Z.leb_gt. split; [intros [? ?]; constructor; assumption|intro H; inversion H; auto]. }
  assert (HX : existsb (fun c => al_decode a c =? 255) x = false <-> Forall (fun c => al_decode a c <> 255) x).
  { clear. induction x as [|c x IH]; cbn [existsb]; [split; [constructor|reflexivity]|].
    rewrite orb_false_iff, IH, Z.eqb_neq. split; [intros [? ?]; constructor; assumption|intro H; inversion H; auto]. }
  split; [now rewrite <- HF, H1, HX|]. intro F. apply H2. now apply HX.
Qed.
Print Assumptions C73_decode.

(** The bound on the hash values is needed: an alphabet of two characters that compiles and passes both self tests,
    while the vector code decodes the second character wrongly in all lanes but those after which a byte ends in three one bits. *)
Definition clash : alsw_spec := {|
  al_decode := fun c => if c =? 1 then 7 else if c =? 2 then 2 else 255;
  al_check_hash := fun i => if (i =? 1) || (i =? 2) then 1 else 8;
  al_decode_hash := fun i => if i =? 2 then 17 else 1 |}.
Theorem C73_decode_refuted : exists a s x flags values,
  spec_compiles a /\ test_check a = true /\ test_decode a = true /\
  matches_isa s [ISSSE3; INEON; IWASM128] = true /\ length x = 16%nat /\ Forall (fun c => al_decode a c <> 255) x /\
  decode_ascii_xn W128 s x (check_lut a) (decode_lut a) = Some (flags, values) /\ Forall (fun f => f < 128) flags /\
  values <> map (al_decode a) x.
Proof.
  exists clash, SSSE3, (repeat 2 16), (repeat 1 16), (repeat 8 16).
  split; [|split; [vm_compute; reflexivity|split; [vm_compute; reflexivity|split; [reflexivity|split; [reflexivity|]]]]].
  - unfold spec_compiles, hash_compiles, clash, byte. cbn [al_decode al_check_hash al_decode_hash].
    split; [|split]; intros c Hc; repeat match goal with |- context [if ?b then _ else _] => destruct b end; try lia;
      (split; [lia|discriminate]).
  - split; [repeat constructor; discriminate|]. split; [vm_compute; reflexivity|].
    split; [repeat constructor|]. discriminate.
Qed.
Print Assumptions C73_decode_refuted.

(** The five alphabets of the crates meet the hypotheses of both theorems. *)
Example C73_ex : Forall (fun a => spec_compiles a /\ test_check a = true /\ test_decode a = true /\
                                  forall i, 0 <= i < 16 -> 1 <= al_decode_hash a i <= 8) alsw_specs.
Proof.
  assert (S : forallb (fun a => test_check a && test_decode a &&
                forallb (fun i => byteb (al_check_hash a i) && negb ((al_check_hash a i * 2) mod 256 =? 0) &&
                                  (1 <=? al_decode_hash a i) && (al_decode_hash a i <=? 8)) (range 16) &&
                forallb (fun c => byteb (al_decode a c)) (range 256)) alsw_specs = true) by (vm_compute; reflexivity).
  rewrite forallb_forall in S. apply Forall_forall. intros a I. specialize (S a I).
  rewrite !andb_true_iff in S. destruct S as (((T1 & T2) & H) & D).
  assert (K : forall i, 0 <= i < 16 -> (byte (al_check_hash a i) /\ (al_check_hash a i * 2) mod 256 <> 0) /\ 1 <= al_decode_hash a i <= 8).
  { intros i Hi. apply (sweep1 16 _ H) in Hi. rewrite !andb_true_iff in Hi. destruct Hi as (((A & B) & C) & E).
    apply byteb_byte in A. apply negb_true_iff, Z.eqb_neq in B. apply Z.leb_le in C, E. auto. }
  split; [|split; [exact T1|split; [exact T2|intros i Hi; apply K; exact Hi]]].
  split; [intros c Hc; apply byteb_byte; exact (sweep1 256 _ D c Hc)|].
  split; intros i Hi; [apply K; exact Hi|]. destruct (K i Hi) as [_ R]. unfold byte.
  assert (M : (al_decode_hash a i * 2) mod 256 = al_decode_hash a i * 2) by (apply Z.mod_small; lia). rewrite M. lia.
Qed.
(** The refuted alphabet again, next to a byte that ends in three one bits: there the value is right. *)
Example C73_neighbour : exists flags, decode_ascii_xn W128 SSSE3 [2; 15; 2; 2; 1; 1; 1; 1; 1; 1; 1; 1; 1; 1; 1; 1]
  (check_lut clash) (decode_lut clash) = Some (flags, [2; 21; 8; 8; 7; 7; 7; 7; 7; 7; 7; 7; 7; 7; 7; 7]).
Proof. eexists. vm_compute. reflexivity. Qed.
