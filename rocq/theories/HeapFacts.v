(** Facts about the allocating functions, used by PropHeap.v. *)
From Coq Require Import ZArith List Bool Lia ZifyNat ZifyBool.
From Verif Require Import Bytes Mem MemFacts Loops Slices Codec Isa Simd SimdFacts Spec Ints
  Hex HexSimdFacts HexFacts HexApi Base64 Base64Ref Base64DecFacts Base64Api Base32 Base32Ref Base32Api Forgiving ForgivingFacts Heap.
Import ListNotations.
Open Scope Z_scope.
Open Scope m_scope.
Ltac Zify.zify_post_hook ::= Z.div_mod_to_equations.

(** ** Vocabulary of the theorems *)
(** usize has at least 16 bits *)
Definition machine_ok (M : machine) : Prop := 16 <= pointer_bits M.
(** a vector holding [x] *)
Definition vec_holds (M : machine) (m : mem) (v : vec) (x : list Z) : Prop :=
  slice m (v_block v) 0 x /\ v_len v = length x /\ Z.of_nat (length (m (v_block v))) <= isize_limit M.
(** [f(src) -> Box]: the box is the new allocation, has exactly the size of [t], holds [t], and no other memory
    changes; if [t] is longer than isize::MAX, it panics *)
Definition makes_box (M : machine) (f : ptr -> nat -> Mem.M boxed) (src t : list Z) : Prop :=
  forall m b o, slice m b o src -> Z.of_nat (length src) <= isize_limit M -> m (new_block M) = [] ->
    if Z.of_nat (length t) <=? isize_limit M then
      exists x m', f (b, o) (length src) m = Ret x m' /\
        x_block x = new_block M /\ x_len x = length t /\ m' (x_block x) = cells t /\
        (forall b', b' <> new_block M -> m' b' = m b')
    else f (b, o) (length src) m = Panic.
(** [f(src) -> Result<Box, Error>]: on Err nothing remains allocated and no memory has changed *)
Definition tries_box (M : machine) (f : ptr -> nat -> Mem.M (result boxed)) (src : list Z) (spec : option (list Z)) : Prop :=
  forall m b o, slice m b o src -> Z.of_nat (length src) <= isize_limit M -> m (new_block M) = [] ->
    exists r m', f (b, o) (length src) m = Ret r m' /\
      match spec with
      | Some t => exists x, r = Ok x /\ x_block x = new_block M /\ x_len x = length t /\ m' (x_block x) = cells t /\
                    (forall b', b' <> new_block M -> m' b' = m b')
      | None => r = Err /\ same_mem m m'
      end.
(** the vector is where it was, or in the new block and its old block is free; all other blocks are unchanged *)
Definition moved (M : machine) (m : mem) (v v' : vec) (m' : mem) : Prop :=
  (v_block v' = v_block v \/ (v_block v' = new_block M /\ m' (v_block v) = [])) /\
  (forall b', b' <> v_block v -> b' <> v_block v' -> m' b' = m b').
(** the block that reallocation may use *)
Definition reallocatable (M : machine) (m : mem) (v : vec) : Prop := m (new_block M) = [] \/ new_block M = v_block v.
(** [f(src, &mut vec)]: appends [t]; panics exactly if the result would exceed isize::MAX bytes *)
Definition appends (M : machine) (f : ptr -> nat -> vec -> Mem.M vec) (src t : list Z) : Prop :=
  forall m b o v old, slice m b o src -> Z.of_nat (length src) <= isize_limit M ->
    vec_holds M m v old -> b <> v_block v -> reallocatable M m v ->
    if Z.of_nat (length old + length t) <=? isize_limit M then
      exists v' m', f (b, o) (length src) v m = Ret v' m' /\
        vec_holds M m' v' (old ++ t) /\ slice m' b o src /\ moved M m v v' m'
    else f (b, o) (length src) v m = Panic.
(** [f(src, &mut vec) -> Result<(), Error>]: appends the decoded bytes, or leaves the contents as they were;
    [n] is the number of bytes reserved *)
Definition tries_append (M : machine) (f : ptr -> nat -> vec -> Mem.M (result unit * vec)) (src : list Z) (n : nat) (spec : option (list Z)) : Prop :=
  forall m b o v old, slice m b o src -> Z.of_nat (length src) <= isize_limit M ->
    vec_holds M m v old -> b <> v_block v -> reallocatable M m v ->
    if Z.of_nat (length old + n) <=? isize_limit M then
      exists r v' m', f (b, o) (length src) v m = Ret (r, v') m' /\
        match spec with
        | Some t => r = Ok tt /\ vec_holds M m' v' (old ++ t)
        | None => r = Err /\ vec_holds M m' v' old
        end /\ slice m' b o src /\ moved M m v v' m'
    else f (b, o) (length src) v m = Panic.

(** ** usize *)
Lemma half_limit M : machine_ok M -> usize_limit M / 2 = isize_limit M.
Proof.
  unfold machine_ok, usize_limit, isize_limit, usize_max. intro H.
  replace (2 ^ pointer_bits M) with (2 * 2 ^ (pointer_bits M - 1)) by (rewrite <- Z.pow_succ_r by lia; f_equal; lia). lia.
Qed.
Lemma limits M : machine_ok M -> usize_limit M = 2 * isize_limit M + 1 /\ 32767 <= isize_limit M.
Proof.
  unfold machine_ok, usize_limit, isize_limit, usize_max. intro H. split.
  - replace (2 ^ pointer_bits M) with (2 * 2 ^ (pointer_bits M - 1)) by (rewrite <- Z.pow_succ_r by lia; f_equal; lia). lia.
  - assert (2 ^ 15 <= 2 ^ (pointer_bits M - 1)) by (apply Z.pow_le_mono_r; lia). change (2 ^ 15) with 32768 in *. lia.
Qed.
Lemma usize_ok M x m : 0 <= x <= usize_limit M -> usize M x m = Ret x m.
Proof. intro H. unfold usize. replace ((0 <=? x) && (x <=? usize_limit M)) with true by lia. reflexivity. Qed.

Definition enc_len_ok (M : machine) (L : Mem.M Z) (n : nat) : Prop := forall m, L m = Ret (Z.of_nat n) m.
Lemma hex_len_ok M n : machine_ok M -> Z.of_nat n <= isize_limit M -> enc_len_ok M (usize M (Z.of_nat n * 2)) (2 * n).
Proof. intros H L m. destruct (limits M H). rewrite usize_ok by lia. f_equal. lia. Qed.
Lemma b64_len_ok M n cfg : machine_ok M -> Z.of_nat n <= isize_limit M ->
  enc_len_ok M (b64_encoded_length_usize M (Z.of_nat n) cfg) (b64_encoded_length_unchecked n cfg).
Proof.
  intros H L m. destruct (limits M H) as [U I]. unfold b64_encoded_length_usize, b64_encoded_length_unchecked. cbn zeta.
  unfold bind. rewrite usize_ok by lia.
  destruct (Z.eqb_spec (Z.of_nat n mod 3) 0); destruct (Nat.eqb_spec (n mod 3) 0); try lia.
  - unfold ret. f_equal. lia.
  - destruct (b64_padding _).
    + rewrite usize_ok by lia. f_equal. lia.
    + rewrite usize_ok by lia. rewrite usize_ok by lia. f_equal. lia.
Qed.
Lemma b32_len_ok' M n pad : machine_ok M -> Z.of_nat n <= isize_limit M ->
  enc_len_ok M (b32_encoded_length_usize M (Z.of_nat n) pad) (b32_encoded_length_unchecked n pad).
Proof.
  intros H L m. destruct (limits M H) as [U I]. unfold b32_encoded_length_usize, b32_encoded_length_unchecked. cbn zeta.
  unfold bind. rewrite usize_ok by lia.
  destruct (Z.eqb_spec (Z.of_nat n mod 5) 0); destruct (Nat.eqb_spec (n mod 5) 0); try lia.
  - unfold ret. f_equal. lia.
  - destruct pad.
    + rewrite usize_ok by lia. f_equal. lia.
    + replace (Z.of_nat n mod 5) with (Z.of_nat (n mod 5)) by lia. rewrite Nat2Z.id.
      assert (C : (n mod 5 = 1 \/ n mod 5 = 2 \/ n mod 5 = 3 \/ n mod 5 = 4)%nat) by lia.
      destruct C as [->|[->|[->| ->]]]; cbn [nth]; rewrite usize_ok by lia; f_equal; lia.
Qed.

(** ** What the implementations do, without the length checks of the slice functions *)
Definition enc_ok (g : ptr -> nat -> ptr -> Mem.M unit) (src t : list Z) : Prop :=
  forall m b o d e, slice m b o src -> room m d e (length t) -> separate b o (length src) d e (length t) ->
  exists m', g (b, o) (length src) (d, e) m = Ret tt m' /\ bytes_at m' d e t /\ only_changed m d e (length t) m'.
Lemma enc_ok_of f g src t : encodes f src t ->
  (forall p q m, f p (length src) q (length t) m = (g p (length src) q ;;; ret (Ok (q, length t))) m) -> enc_ok g src t.
Proof.
  intros HE Hf m b o d e H R S. destruct (HE m b o d e (length t) H R S (le_n _)) as (m' & E & A & F).
  rewrite Hf in E. unfold bind in E. destruct (g (b, o) (length src) (d, e) m) as [[] m1| | |]; try discriminate E.
  injection E as ->. eauto.
Qed.
(** [dl] finds the length to decode and the decoded length [n]; [g] decodes *)
Definition dec_ok (dl : ptr -> nat -> Mem.M (result (nat * nat))) (g : ptr -> nat -> ptr -> Mem.M (result unit))
    (src : list Z) (n : nat) (spec : option (list Z)) : Prop :=
  forall m b o, slice m b o src -> (length src <> 0)%nat ->
  (dl (b, o) (length src) m = Ret Err m /\ spec = None /\ n = 0%nat) \/
  (exists k, dl (b, o) (length src) m = Ret (Ok (k, n)) m /\ (0 < n <= length src)%nat /\
     forall m2 d e, slice m2 b o src -> room m2 d e n -> separate b o (length src) d e n ->
     exists r m', g (b, o) k (d, e) m2 = Ret r m' /\ only_changed m2 d e n m' /\
       match spec with Some x => r = Ok tt /\ bytes_at m' d e x /\ length x = n /\ bytes x | None => r = Err end).

Lemma hex_enc s case src : enc_ok (fun p n q => hex_encode_impl s p n q case) src (rfc_hex_encode (lut_of case) src).
Proof.
  eapply enc_ok_of; [apply (hex_encode_ok s case)|]. intros p q m. rewrite hex_encode_len. cbn beta. unfold hex_encode.
  destruct (Nat.leb_spec (length src) (2 * length src / 2)) as [_|]; [|lia]. cbn [negb]. now rewrite (Nat.mul_comm 2).
Qed.
Lemma b64_enc s cfg src : b64_isa s -> bytes src -> enc_ok (fun p n q => b64_encode_impl s p n q cfg) src (b64_rfc cfg src).
Proof.
  intros Hs B. eapply enc_ok_of; [apply (b64_encode_ok s cfg src Hs)|]. intros p q m. rewrite b64_rfc_len by exact B.
  unfold b64_encode. cbn zeta. now rewrite Nat.leb_refl.
Qed.
Lemma b32_enc t s cfg src : b32_isa s -> bytes src ->
  enc_ok (fun p n q => b32_encode_impl t s p n q (b32_kind_of cfg) (b32_padding cfg)) src (b32_rfc cfg src).
Proof.
  intros Hs B. eapply enc_ok_of; [apply (b32_encode_ok t s cfg src Hs)|]. intros p q m. rewrite b32_rfc_len by exact B.
  unfold b32_encode. cbn zeta. now rewrite Nat.leb_refl.
Qed.

Definition hex_dl (p : ptr) (len : nat) : Mem.M (result (nat * nat)) :=
  if negb (len mod 2 =? 0)%nat then ret Err else ret (Ok (len, len / 2)%nat).
Definition hex_need (src : list Z) : nat := if (length src mod 2 =? 0)%nat then (length src / 2)%nat else 0%nat.
Lemma hex_dec s src : dec_ok hex_dl (hex_decode_impl s) src (hex_need src) (rfc_hex_decode src).
Proof.
  intros m b o H N. unfold hex_dl, hex_need. destruct (Nat.eqb_spec (length src mod 2) 0) as [Ev|Od]; cbn [negb].
  - right. exists (length src). split; [reflexivity|]. split; [lia|]. intros m2 d e H2 R S.
    assert (W := hex_decode_impl_run s m2 b o src d e H2 R ltac:(unfold separate in S; lia) Ev).
    apply wp_inv in W as (r & m' & E & F & P). exists r, m'. split; [exact E|]. split; [exact F|].
    destruct (rfc_hex_decode src) as [x|] eqn:Ex; [|exact P]. destruct P as [-> P].
    assert (Ex' := hex_decode_even _ _ Ex). assert (Bx := hex_decode_bytes _ _ (proj1 H) Ex).
    split; [reflexivity|]. split; [exact P|]. split; [lia|exact Bx].
  - left. split; [reflexivity|]. split; [now apply hex_decode_odd|reflexivity].
Qed.
Lemma wp_det {A} (c : Mem.M A) m a m' : wp c (fun r m1 => r = a /\ m1 = m') m -> c m = Ret a m'.
Proof. intro W. now apply wp_inv in W as (r & m1 & E & -> & ->). Qed.
Lemma b64_unpad_pos cfg src t : (length src <> 0)%nat -> b64_unpad (b64_extra_of cfg) src = Some t -> (length t <> 0)%nat.
Proof.
  assert (W : (length src <> 0 -> length (whatwg_unpad src) <> 0)%nat).
  { intros N E. unfold whatwg_unpad, drop_last in E. destruct (Nat.eqb_spec (length src mod 4) 0) as [E4|]; [|congruence].
    destruct (ends_eq src); [|congruence]. cbn zeta in E.
    destruct (ends_eq (removelast src)); rewrite !removelast_firstn_len, ?firstn_length in E; lia. }
  intros N U. unfold b64_unpad in U. destruct (b64_extra_of cfg).
  - destruct (length src mod 4 =? 0)%nat; [|discriminate]. injection U as <-. auto.
  - injection U as <-. auto.
  - injection U as <-. auto.
Qed.
Lemma b64_dec_impl en s cfg src : b64_isa s ->
  dec_ok (fun p n => b64_decoded_length p n cfg) (fun p n q => b64_decode_impl en s p q n cfg) src (b64_need cfg src) (b64_dec cfg src).
Proof.
  intros Hs m b o H N. destruct H as [B H].
  assert (E : b64_decoded_length (b, o) (length src) cfg m = Ret (dl_result cfg src) m)
    by (apply wp_det, (decoded_length_wp m b o src cfg); auto).
  cbn beta. rewrite E. assert (Lx := b64_dec_facts cfg src). unfold dl_result, b64_need, b64_dec in *.
  destruct (b64_unpad (b64_extra_of cfg) src) as [t|] eqn:U; [|left; auto].
  destruct (Nat.eqb_spec (length t mod 4) 1) as [E1|N1]; [left; rewrite b64d_mod1 by exact E1; auto|].
  rewrite <- b64_dl_bits in *. right. exists (length t). split; [reflexivity|].
  destruct (unpad_firstn _ _ _ U) as [j Ej]. assert (Hl : (length t <= length src)%nat) by (rewrite Ej, app_length; lia).
  assert (Np := b64_unpad_pos cfg src t N U). split; [rewrite b64_dl_bits; lia|]. intros m2 d e H2 R S.
  assert (Ht : slice m2 b o t) by (rewrite Ej in H2; now apply slice_prefix in H2).
  destruct cfg as [k x]. cbn [b64_kind_of b64_extra_of] in *.
  assert (W := b64_impl_run en s k x m2 b o t d e Hs Ht R ltac:(unfold separate in S; lia) N1).
  apply wp_inv in W as (r & m' & E' & F & P). exists r, m'. split; [exact E'|]. split; [exact F|].
  destruct (b64d k (b64_forgiving x) t) as [y|]; [|exact P]. destruct P as (-> & A & Ly).
  destruct (Lx y B eq_refl) as [_ By]. auto.
Qed.
Lemma b32_dec_impl tg s cfg src : b32_isa s ->
  dec_ok (fun p n => b32_decoded_length p n (b32_padding cfg)) (fun p n q => b32_decode_impl tg s p n q (b32_kind_of cfg)) src
    (b32_need cfg src) (b32_dec cfg src).
Proof.
  intros Hs m b o H N. destruct H as [B H].
  assert (E : b32_decoded_length (b, o) (length src) (b32_padding cfg) m = Ret (dl_result32 cfg src) m)
    by (apply wp_det, (b32_decoded_length_wp m b o src cfg); auto).
  cbn beta. rewrite E. assert (Lx := b32_dec_facts cfg src). unfold dl_result32, b32_need, b32_dec in *.
  destruct (b32_unpad (b32_padding cfg) src) as [t|] eqn:U; [|left; auto].
  destruct (b32_len_ok (length t)) eqn:LO; [|left; rewrite b32d_bad_len by exact LO; auto].
  fold (b32_dl (length t)) in *. right. exists (length t). split; [reflexivity|].
  destruct (unpad32_prefix _ _ _ U) as [j Ej]. assert (Hl : (length t <= length src)%nat) by (rewrite Ej, app_length; lia).
  assert (Np : (2 <= length t)%nat).
  { unfold b32_unpad in U. unfold b32_len_ok in LO. destruct (b32_padding cfg).
    - destruct (Nat.eqb_spec (length src mod 8) 0) as [E8|]; [|discriminate]. injection U as <-.
      rewrite firstn_length. pose proof (count_eq_le (skipn (length src - 6) src)). rewrite skipn_length in *. lia.
    - injection U as <-. destruct (length src) as [|[|?]]; [easy|cbn in LO; discriminate LO|lia]. }
  split; [unfold b32_dl; lia|]. intros m2 d e H2 R S.
  assert (Ht : slice m2 b o t) by (rewrite Ej in H2; now apply slice_prefix32 in H2).
  assert (W := b32_impl_run tg s (b32_kind_of cfg) m2 b o t d e Hs Ht R ltac:(unfold separate in S; lia) LO).
  apply wp_inv in W as (r & m' & E' & F & P). exists r, m'. split; [exact E'|]. split; [exact F|].
  destruct (b32d (b32_kind_of cfg) t) as [y|]; [|exact P]. destruct P as (-> & A & Ly).
  destruct (Lx y B eq_refl) as [_ By]. auto.
Qed.

(** ** Blocks *)
Lemma slice_nonempty m b o l : slice m b o l -> (length l <> 0)%nat -> m b <> [].
Proof. intros [_ [H _]] N E. rewrite E in H. cbn in H. lia. Qed.
Lemma slice_same m m' b o l : slice m b o l -> m' b = m b -> slice m' b o l.
Proof. intros [B H] E. split; [exact B|]. unfold bytes_at. rewrite E. exact H. Qed.
Lemma whole_block m b t : bytes_at m b 0 t -> length (m b) = length t -> m b = cells t.
Proof. intros [_ H] L. rewrite skipn_O, <- L, firstn_all in H. exact H. Qed.
Lemma upd_undo m b : m b = [] -> forall l m', (forall b', b' <> b -> m' b' = upd m b l b') -> same_mem m (upd m' b []).
Proof.
  intros E l m' H b'. destruct (Nat.eq_dec b' b) as [->|N]; [now rewrite upd_same|].
  rewrite upd_other by exact N. rewrite H by exact N. now rewrite upd_other.
Qed.

Lemma bind_ret {A B} (c : Mem.M A) (f : A -> Mem.M B) m a m' : c m = Ret a m' -> bind c f m = f a m'.
Proof. unfold bind. now intros ->. Qed.
Lemma bind_pan {A B} (c : Mem.M A) (f : A -> Mem.M B) m : c m = Panic -> bind c f m = Panic.
Proof. unfold bind. now intros ->. Qed.
Lemma assert_true b m : b = true -> assert_ b m = Ret tt m.
Proof. now intros ->. Qed.
Lemma assert_false b m : b = false -> assert_ b m = Panic.
Proof. now intros ->. Qed.

Section Boxes.
  Context (M : machine) (m : mem) (b o : nat) (src : list Z).
  Hypothesis HM : machine_ok M.
  Hypothesis HS : slice m b o src.
  Hypothesis HL : Z.of_nat (length src) <= isize_limit M.
  Hypothesis HF : m (new_block M) = [].
  Notation nb := (new_block M).

  Lemma box_empty_ok : box_empty M m = Ret {| x_block := nb; x_len := 0%nat |} (upd m nb []).
  Proof. unfold box_empty, bind, alloc. now rewrite HF. Qed.

  Hypothesis HN : (length src <> 0)%nat.
  Lemma src_not_new : b <> nb.
  Proof. intros ->. now apply (slice_nonempty m nb o src HS HN). Qed.
  Lemma alloc_src n : slice (upd m nb (repeat None n)) b o src.
  Proof. eapply slice_same; [exact HS|]. apply upd_other, src_not_new. Qed.
  Lemma alloc_room n : room (upd m nb (repeat None n)) nb 0 n.
  Proof. unfold room. rewrite upd_same, repeat_length. lia. Qed.
  Lemma alloc_uninit_ok n : (0 < n)%nat -> Z.of_nat n <= isize_limit M ->
    alloc_uninit_bytes M n m = Ret {| x_block := nb; x_len := n |} (upd m nb (repeat None n)).
  Proof.
    intros P L. unfold alloc_uninit_bytes. replace ((0 <? Z.of_nat n) && (Z.of_nat n <=? isize_limit M)) with true by lia.
    unfold bind, alloc. now rewrite HF.
  Qed.
  Lemma new_frame n m2 t : only_changed (upd m nb (repeat None n)) nb 0 n m2 -> bytes_at m2 nb 0 t -> length t = n ->
    m2 nb = cells t /\ forall b', b' <> nb -> m2 b' = m b'.
  Proof.
    intros (F1 & F2 & _) A L. split.
    - apply whole_block; [exact A|]. now rewrite F2, upd_same, repeat_length.
    - intros b' N. rewrite F1 by exact N. now rewrite upd_other.
  Qed.

  (** the common body of the [encode_to_boxed_str] functions *)
  Lemma enc_box (L : Mem.M Z) (g : ptr -> nat -> ptr -> Mem.M unit) t :
    enc_len_ok M L (length t) -> enc_ok g src t -> Forall ascii_char t -> (length t <> 0)%nat ->
    if Z.of_nat (length t) <=? isize_limit M then
      exists x m', (m <- L ;; assert_ (m <=? usize_limit M / 2) ;;; buf <- alloc_uninit_bytes M (Z.to_nat m) ;;
                    g (b, o) (length src) (x_block buf, 0%nat) ;;; b <- assume_init buf ;; boxed_str b) m = Ret x m' /\
        x_block x = nb /\ x_len x = length t /\ m' (x_block x) = cells t /\ (forall b', b' <> nb -> m' b' = m b')
    else (m <- L ;; assert_ (m <=? usize_limit M / 2) ;;; buf <- alloc_uninit_bytes M (Z.to_nat m) ;;
          g (b, o) (length src) (x_block buf, 0%nat) ;;; b <- assume_init buf ;; boxed_str b) m = Panic.
  Proof.
    intros HLen HE HA HT. rewrite half_limit by exact HM. 
    destruct (Z.leb_spec (Z.of_nat (length t)) (isize_limit M)) as [Lt|Lt]; rewrite (bind_ret _ _ _ _ _ (HLen m)).
    2:{ apply bind_pan, assert_false. lia. }
    rewrite (bind_ret (assert_ _) _ m tt m) by (apply assert_true; lia).
    rewrite Nat2Z.id. unfold bind at 1. rewrite alloc_uninit_ok by lia. cbn [x_block].
    destruct (HE (upd m nb (repeat None (length t))) b o nb 0%nat (alloc_src _) (alloc_room _)) as (m2 & E & A & F);
      [left; exact src_not_new|].
    destruct (new_frame (length t) m2 t F A eq_refl) as [Hc Hf].
    unfold bind. rewrite E. unfold assume_init, boxed_str, bind, ret. cbn [x_block x_len]. rewrite (bytes_at_load _ _ _ _ A). cbn [x_block x_len].
    rewrite (bytes_at_load _ _ _ _ A).
    replace (forallb (fun c => c <? 128) t) with true.
    2:{ symmetry. apply forallb_forall. intros c Hc'. rewrite Forall_forall in HA. specialize (HA c Hc'). unfold ascii_char in HA. lia. }
    eexists _, m2. split; [reflexivity|]. cbn [x_block x_len]. auto.
  Qed.

  (** the common body of the [decode_to_boxed_bytes] functions *)
  Lemma dec_box dl g n spec : dec_ok dl g src n spec ->
    exists r m', try_ (dl (b, o) (length src)) (fun nm => buf <- alloc_uninit_bytes M (snd nm) ;;
        try_drop (g (b, o) (fst nm) (x_block buf, 0%nat)) (drop_box buf) (fun _ => b <- assume_init buf ;; ret (Ok b))) m = Ret r m' /\
      match spec with
      | Some t => exists x, r = Ok x /\ x_block x = nb /\ x_len x = length t /\ m' (x_block x) = cells t /\
                    (forall b', b' <> nb -> m' b' = m b')
      | None => r = Err /\ same_mem m m'
      end.
  Proof.
    intro HD. destruct (HD m b o HS HN) as [(E & -> & _)|(k & E & Hn & HG)]; unfold try_, bind at 1; rewrite E.
    - exists Err, m. split; [reflexivity|]. split; [reflexivity|]. intro; reflexivity.
    - cbn [fst snd]. unfold bind at 1. rewrite alloc_uninit_ok by lia. cbn [x_block].
      destruct (HG (upd m nb (repeat None n)) nb 0%nat (alloc_src _) (alloc_room _)) as (r & m2 & E2 & F & P);
        [left; exact src_not_new|].
      unfold try_drop, bind. rewrite E2. destruct spec as [t|].
      + destruct P as (-> & A & Lt & _). destruct (new_frame n m2 t F A Lt) as [Hc Hf].
        unfold assume_init, bind. cbn [x_block x_len]. rewrite <- Lt. rewrite (bytes_at_load _ _ _ _ A). unfold ret.
        eexists _, m2. split; [reflexivity|]. eexists. split; [reflexivity|]. cbn [x_block x_len]. auto.
      + subst r. unfold drop_box, free, ret. cbn [x_block]. eexists _, _. split; [reflexivity|]. split; [reflexivity|].
        apply (upd_undo m nb HF (repeat None n) m2). intros b' N. destruct F as (F & _). now apply F.
  Qed.
End Boxes.

Section Appends.
  Context (M : machine) (m : mem) (b o : nat) (src : list Z) (v : vec) (old : list Z).
  Hypothesis HM : machine_ok M.
  Hypothesis HS : slice m b o src.
  Hypothesis HL : Z.of_nat (length src) <= isize_limit M.
  Hypothesis HV : vec_holds M m v old.
  Hypothesis HB : b <> v_block v.
  Hypothesis HR : reallocatable M m v.

  Lemma moved_refl : moved M m v v m.
  Proof. split; [now left|]. auto. Qed.

  Hypothesis HN : (length src <> 0)%nat.
  Lemma reserve_ok k :
    if Z.of_nat (length old + k) <=? isize_limit M then
      exists v1 m1, reserve_exact M v k m = Ret v1 m1 /\ vec_holds M m1 v1 old /\ room m1 (v_block v1) (length old) k /\
        moved M m v v1 m1 /\ b <> v_block v1 /\ slice m1 b o src
    else reserve_exact M v k m = Panic.
  Proof.
    destruct HV as ([Bo Ho] & Lo & Cap). unfold reserve_exact. cbn zeta. rewrite Lo.
    destruct (Nat.leb_spec (length old + k) (length (m (v_block v)))) as [Fit|NFit].
    - destruct (Z.leb_spec (Z.of_nat (length old + k)) (isize_limit M)) as [_|]; [|lia].
      exists v, m. split; [reflexivity|]. split; [exact HV|]. split; [exact Fit|]. split; [apply moved_refl|]. auto.
    - rewrite Z.ltb_antisym. destruct (Z.leb_spec (Z.of_nat (length old + k)) (isize_limit M)) as [Lk|]; [|reflexivity]. cbn [negb].
      set (l := (m (v_block v) ++ repeat None (capacity M (length old + k) - length (m (v_block v))))%list).
      assert (LC : (length old + k <= capacity M (length old + k))%nat /\ Z.of_nat (capacity M (length old + k)) <= isize_limit M)
        by (unfold capacity; lia).
      assert (Ll : length l = capacity M (length old + k)) by (unfold l; rewrite app_length, repeat_length; lia).
      assert (Hl : forall m1 b1, m1 b1 = l -> bytes_at m1 b1 0 old).
      { intros m1 b1 E. destruct Ho as [O1 O2]. unfold bytes_at. rewrite E, Ll. split; [lia|].
        rewrite skipn_O in *. unfold l. rewrite firstn_app. replace (length old - length (m (v_block v)))%nat with 0%nat by lia.
        rewrite firstn_O, app_nil_r. exact O2. }
      destruct (Nat.eqb_spec (new_block M) (v_block v)) as [En|Nn].
      + exists v, (upd m (v_block v) l). split; [reflexivity|].
        assert (E := upd_same m (v_block v) l). split; [|split; [|split; [|split]]].
        * split; [split; [exact Bo|now apply Hl]|]. split; [exact Lo|]. rewrite E, Ll. lia.
        * unfold room. rewrite E, Ll. lia.
        * split; [now left|]. intros b' N _. now apply upd_other.
        * exact HB.
        * eapply slice_same; [exact HS|]. now apply upd_other.
      + destruct HR as [HF|]; [|contradiction]. rewrite HF.
        assert (HBn : b <> new_block M) by (intros ->; now apply (slice_nonempty m (new_block M) o src HS HN)).
        eexists _, _. split; [reflexivity|]. cbn [v_block].
        assert (E := upd_same (upd m (v_block v) []) (new_block M) l). split; [|split; [|split; [|split]]].
        * split; [split; [exact Bo|now apply Hl]|]. split; [reflexivity|]. cbn [v_block]. rewrite E, Ll. lia.
        * unfold room. rewrite E, Ll. lia.
        * split; [right; split; [reflexivity|]|].
          -- rewrite upd_other by auto. apply upd_same.
          -- cbn [v_block]. intros b' N1 N2. now rewrite !upd_other.
        * exact HBn.
        * eapply slice_same; [exact HS|]. now rewrite !upd_other.
  Qed.

  Lemma vec_frame v1 m1 m2 n : vec_holds M m1 v1 old -> moved M m v v1 m1 -> slice m1 b o src -> b <> v_block v1 ->
    only_changed m1 (v_block v1) (length old) n m2 ->
    vec_holds M m2 v1 old /\ moved M m v v1 m2 /\ slice m2 b o src.
  Proof.
    intros ([Bo Ho] & Lo & Cap) [Mv1 Mv2] S1 N1 F. assert (F' := F). destruct F' as (F1 & F2 & F3). split; [|split].
    - split; [split; [exact Bo|]|].
      + eapply Frame_bytes_at; [exact F|exact Ho|]. right. left. lia.
      + split; [exact Lo|]. now rewrite F2.
    - split.
      + destruct (Nat.eq_dec (v_block v1) (v_block v)) as [E|N]; [now left|]. right.
        destruct Mv1 as [Mv1|[Mv1 Mv3]]; [contradiction|]. split; [exact Mv1|]. rewrite F1 by auto. exact Mv3.
      + intros b' N2 N3. rewrite F1 by exact N3. now apply Mv2.
    - eapply slice_same; [exact S1|]. now apply F1.
  Qed.
  Lemma set_len_ok v1 m2 t : vec_holds M m2 v1 old -> bytes_at m2 (v_block v1) (length old) t -> bytes t ->
    exists v2, set_len v1 (length old + length t) m2 = Ret v2 m2 /\ v_block v2 = v_block v1 /\ vec_holds M m2 v2 (old ++ t).
  Proof.
    intros ([Bo Ho] & Lo & Cap) A Bt.
    assert (H : bytes_at m2 (v_block v1) 0 (old ++ t)) by (apply bytes_at_app; auto).
    unfold set_len, bind. rewrite <- app_length, (bytes_at_load _ _ _ _ H). unfold ret.
    eexists. split; [reflexivity|]. cbn [v_block]. split; [reflexivity|].
    split; [split; [now apply bytes_app|exact H]|]. cbn [v_len v_block]. auto.
  Qed.
  Lemma moved_len v1 v2 m2 : v_block v2 = v_block v1 -> moved M m v v1 m2 -> moved M m v v2 m2.
  Proof. unfold moved. now intros ->. Qed.

  Lemma enc_app (L : Mem.M Z) (g : ptr -> nat -> ptr -> Mem.M unit) t :
    enc_len_ok M L (length t) -> enc_ok g src t -> bytes t ->
    if Z.of_nat (length old + length t) <=? isize_limit M then
      exists v' m', (m <- L ;; assert_ (m <=? usize_limit M / 2) ;;; buf <- reserve_exact M v (Z.to_nat m) ;;
                    let prev_len := v_len buf in dst <- padd (v_block buf, 0%nat) prev_len ;;
                    g (b, o) (length src) dst ;;; set_len buf (prev_len + Z.to_nat m)) m = Ret v' m' /\
        vec_holds M m' v' (old ++ t) /\ slice m' b o src /\ moved M m v v' m'
    else (m <- L ;; assert_ (m <=? usize_limit M / 2) ;;; buf <- reserve_exact M v (Z.to_nat m) ;;
                    let prev_len := v_len buf in dst <- padd (v_block buf, 0%nat) prev_len ;;
                    g (b, o) (length src) dst ;;; set_len buf (prev_len + Z.to_nat m)) m = Panic.
  Proof.
    intros HLen HE Bt. rewrite half_limit by exact HM. cbn zeta. rewrite (bind_ret _ _ _ _ _ (HLen m)). rewrite Nat2Z.id.
    destruct (Z.leb_spec (Z.of_nat (length t)) (isize_limit M)) as [Lt|Lt].
    2:{ destruct (Z.leb_spec (Z.of_nat (length old + length t)) (isize_limit M)); [lia|]. apply bind_pan, assert_false. lia. }
    rewrite (bind_ret (assert_ _) _ m tt m) by (apply assert_true; lia).
    assert (RO := reserve_ok (length t)).
    destruct (Z.leb_spec (Z.of_nat (length old + length t)) (isize_limit M)) as [Lo|Lo]; [|now apply bind_pan].
    destruct RO as (v1 & m1 & E1 & V1 & R1 & Mv & N1 & S1). rewrite (bind_ret _ _ _ _ _ E1).
    assert (Lv : v_len v1 = length old) by apply V1. rewrite Lv.
    unfold bind, padd at 1. cbn [fst snd Nat.add]. destruct (Nat.leb_spec (length old) (length (m1 (v_block v1)))) as [_|];
      [|unfold room in R1; lia].
    destruct (HE m1 b o (v_block v1) (length old) S1 R1) as (m2 & E & A & F); [left; exact N1|]. rewrite E.
    destruct (vec_frame v1 m1 m2 _ V1 Mv S1 N1 F) as (V2 & Mv2 & S2).
    destruct (set_len_ok v1 m2 t V2 A Bt) as (v2 & E2 & Eb & V3). exists v2, m2. split; [exact E2|]. split; [exact V3|].
    split; [exact S2|]. eapply moved_len; eauto.
  Qed.

  Lemma dec_app dl g n spec : dec_ok dl g src n spec ->
    if Z.of_nat (length old + n) <=? isize_limit M then
      exists r v' m', try_vec (dl (b, o) (length src)) v (fun nm => buf <- reserve_exact M v (snd nm) ;;
          let prev_len := v_len buf in dst <- padd (v_block buf, 0%nat) prev_len ;;
          try_vec (g (b, o) (fst nm) dst) buf (fun _ => buf <- set_len buf (prev_len + snd nm) ;; ret (Ok tt, buf))) m = Ret (r, v') m' /\
        match spec with
        | Some t => r = Ok tt /\ vec_holds M m' v' (old ++ t)
        | None => r = Err /\ vec_holds M m' v' old
        end /\ slice m' b o src /\ moved M m v v' m'
    else try_vec (dl (b, o) (length src)) v (fun nm => buf <- reserve_exact M v (snd nm) ;;
          let prev_len := v_len buf in dst <- padd (v_block buf, 0%nat) prev_len ;;
          try_vec (g (b, o) (fst nm) dst) buf (fun _ => buf <- set_len buf (prev_len + snd nm) ;; ret (Ok tt, buf))) m = Panic.
  Proof.
    intro HD. destruct (HD m b o HS HN) as [(E & -> & ->)|(k & E & Hn & HG)]; unfold try_vec at 1 3; rewrite (bind_ret _ _ _ _ _ E).
    - destruct (Z.leb_spec (Z.of_nat (length old + 0)) (isize_limit M)) as [_|N].
      + exists Err, v, m. split; [reflexivity|]. split; [split; [reflexivity|exact HV]|]. split; [exact HS|apply moved_refl].
      + destruct HV as ([_ [Ho _]] & _ & Cap). lia.
    - cbn [fst snd]. cbn zeta. assert (RO := reserve_ok n).
      destruct (Z.leb_spec (Z.of_nat (length old + n)) (isize_limit M)) as [Lo|Lo]; [|now apply bind_pan].
      destruct RO as (v1 & m1 & E1 & V1 & R1 & Mv & N1 & S1). rewrite (bind_ret _ _ _ _ _ E1).
      assert (Lv : v_len v1 = length old) by apply V1. rewrite Lv.
      unfold bind at 1, padd at 1. cbn [fst snd Nat.add]. destruct (Nat.leb_spec (length old) (length (m1 (v_block v1)))) as [_|];
        [|unfold room in R1; lia].
      destruct (HG m1 (v_block v1) (length old) S1 R1) as (r & m2 & E2 & F & P); [left; exact N1|].
      unfold try_vec, bind. rewrite E2. destruct (vec_frame v1 m1 m2 _ V1 Mv S1 N1 F) as (V2 & Mv2 & S2).
      destruct spec as [t|].
      + destruct P as (-> & A & Lt & Bt). destruct (set_len_ok v1 m2 t V2 A Bt) as (v2 & E3 & Eb & V3). rewrite Lt in E3.
        rewrite E3. unfold ret. exists (Ok tt), v2, m2. split; [reflexivity|]. split; [auto|]. split; [exact S2|].
        eapply moved_len; eauto.
      + subst r. unfold ret. exists Err, v1, m2. auto 6.
  Qed.
End Appends.

(** ** The functions *)
Lemma isize_nonneg M : machine_ok M -> 0 <= isize_limit M.
Proof. intro H. destruct (limits M H). lia. Qed.
Lemma nil_box M m : machine_ok M -> m (new_block M) = [] ->
  if Z.of_nat (length (@nil Z)) <=? isize_limit M then
    exists x m', box_empty M m = Ret x m' /\ x_block x = new_block M /\ x_len x = length (@nil Z) /\ m' (x_block x) = cells [] /\
      (forall b', b' <> new_block M -> m' b' = m b')
  else box_empty M m = Panic.
Proof.
  intros HM HF. assert (P := isize_nonneg M HM). destruct (Z.leb_spec (Z.of_nat (length (@nil Z))) (isize_limit M)); [|cbn in *; lia].
  rewrite box_empty_ok by exact HF. eexists _, _. split; [reflexivity|]. cbn [x_block x_len]. split; [reflexivity|]. split; [reflexivity|].
  split; [apply upd_same|]. intros b' N. now apply upd_other.
Qed.
Lemma makes_box_of M f L g src t : machine_ok M ->
  (forall p, f p 0%nat = box_empty M) ->
  (forall p n, n <> 0%nat -> f p n = (m <- L n ;; assert_ (m <=? usize_limit M / 2) ;;; buf <- alloc_uninit_bytes M (Z.to_nat m) ;;
                    g p n (x_block buf, 0%nat) ;;; b <- assume_init buf ;; boxed_str b)) ->
  (bytes src -> Z.of_nat (length src) <= isize_limit M -> enc_len_ok M (L (length src)) (length t)) ->
  (bytes src -> enc_ok g src t) -> (bytes src -> Forall ascii_char t) ->
  (src = [] -> t = []) -> (bytes src -> (length src <> 0)%nat -> (length t <> 0)%nat) -> makes_box M f src t.
Proof.
  intros HM H0 H1 HLen HE HA Ht0 Htp m b o HS HL HF. destruct (Nat.eq_dec (length src) 0) as [E|N].
  - apply length_zero_iff_nil in E. rewrite (Ht0 E). subst src. cbn [length]. rewrite H0. apply (nil_box M m HM HF).
  - rewrite H1 by exact N. assert (B := proj1 HS). apply (enc_box M m b o src HM HS HF N); auto.
Qed.
Lemma appends_of M f L g src t : machine_ok M ->
  (forall p v, f p 0%nat v = ret v) ->
  (forall p n v, n <> 0%nat -> f p n v = (m <- L n ;; assert_ (m <=? usize_limit M / 2) ;;; buf <- reserve_exact M v (Z.to_nat m) ;;
                    let prev_len := v_len buf in dst <- padd (v_block buf, 0%nat) prev_len ;;
                    g p n dst ;;; set_len buf (prev_len + Z.to_nat m))) ->
  (bytes src -> Z.of_nat (length src) <= isize_limit M -> enc_len_ok M (L (length src)) (length t)) ->
  (bytes src -> enc_ok g src t) -> (bytes src -> bytes t) -> (src = [] -> t = []) -> appends M f src t.
Proof.
  intros HM H0 H1 HLen HE Bt Ht0 m b o v old HS HL HV HB HR. destruct (Nat.eq_dec (length src) 0) as [E|N].
  - apply length_zero_iff_nil in E. rewrite (Ht0 E). subst src. cbn [length]. rewrite H0, app_nil_r, Nat.add_0_r.
    destruct (Z.leb_spec (Z.of_nat (length old)) (isize_limit M)) as [_|Lgt].
    + exists v, m. split; [reflexivity|]. split; [exact HV|]. split; [exact HS|apply moved_refl].
    + destruct HV as ([_ [Ho _]] & _ & Cap). lia.
  - rewrite H1 by exact N. assert (B := proj1 HS). apply (enc_app M m b o src v old HM HS HL HV HB HR N); auto.
Qed.
Lemma tries_box_of M f dl g src n spec : machine_ok M ->
  (forall p, f p 0%nat = (b <- box_empty M ;; ret (Ok b))) ->
  (forall p n, n <> 0%nat -> f p n = try_ (dl p n) (fun nm => buf <- alloc_uninit_bytes M (snd nm) ;;
        try_drop (g p (fst nm) (x_block buf, 0%nat)) (drop_box buf) (fun _ => b <- assume_init buf ;; ret (Ok b)))) ->
  dec_ok dl g src n spec -> (src = [] -> spec = Some []) -> tries_box M f src spec.
Proof.
  intros HM H0 H1 HD Hs0 m b o HS HL HF. destruct (Nat.eq_dec (length src) 0) as [E|N].
  - apply length_zero_iff_nil in E. rewrite (Hs0 E). subst src. cbn [length]. rewrite H0.
    assert (W := nil_box M m HM HF). assert (P := isize_nonneg M HM).
    destruct (Z.leb_spec (Z.of_nat (length (@nil Z))) (isize_limit M)); [|cbn in *; lia].
    destruct W as (x & m' & E & P1 & P2 & P3 & P4). exists (Ok x), m'. split; [now rewrite (bind_ret _ _ _ _ _ E)|].
    exists x. auto.
  - rewrite H1 by exact N. apply (dec_box M m b o src HS HL HF N dl g n spec HD).
Qed.
Lemma tries_append_of M f dl g src n spec : machine_ok M ->
  (forall p v, f p 0%nat v = ret (Ok tt, v)) ->
  (forall p n v, n <> 0%nat -> f p n v = try_vec (dl p n) v (fun nm => buf <- reserve_exact M v (snd nm) ;;
          let prev_len := v_len buf in dst <- padd (v_block buf, 0%nat) prev_len ;;
          try_vec (g p (fst nm) dst) buf (fun _ => buf <- set_len buf (prev_len + snd nm) ;; ret (Ok tt, buf)))) ->
  dec_ok dl g src n spec -> (src = [] -> spec = Some [] /\ n = 0%nat) -> tries_append M f src n spec.
Proof.
  intros HM H0 H1 HD Hs0 m b o v old HS HL HV HB HR. destruct (Nat.eq_dec (length src) 0) as [E|N].
  - apply length_zero_iff_nil in E. destruct (Hs0 E) as [-> ->]. subst src. cbn [length]. rewrite H0, Nat.add_0_r.
    destruct (Z.leb_spec (Z.of_nat (length old)) (isize_limit M)) as [_|Lgt].
    + exists (Ok tt), v, m. split; [reflexivity|]. rewrite app_nil_r. split; [auto|]. split; [exact HS|apply moved_refl].
    + destruct HV as ([_ [Ho _]] & _ & Cap). lia.
  - rewrite H1 by exact N. apply (dec_app M m b o src v old HS HL HV HB HR N dl g n spec HD).
Qed.

Ltac nonzero n H := destruct n as [|n]; [elim H; reflexivity|].

Ltac gen L g := first
  [apply (makes_box_of _ _ L g) | apply (appends_of _ _ L g)].
Ltac start := try reflexivity; try (let p := fresh in let n := fresh "n" in let H := fresh in intros p n H; nonzero n H; reflexivity);
  try (let p := fresh in let n := fresh "n" in let v := fresh in let H := fresh in intros p n v H; nonzero n H; reflexivity).

Lemma hex_ascii_t case src : bytes src -> Forall ascii_char (rfc_hex_encode (lut_of case) src).
Proof. apply hex_encode_ascii. Qed.
Lemma hex_box M s case src : machine_ok M -> makes_box M (hex_encode_to_boxed_str M s case) src (rfc_hex_encode (lut_of case) src).
Proof.
  intro HM. gen (fun n => usize M (Z.of_nat n * 2)) (fun p n q => hex_encode_impl s p n q case); auto; start.
  - intros _ L. rewrite hex_encode_len. now apply hex_len_ok.
  - intro. apply hex_enc.
  - intros B. now apply hex_encode_ascii.
  - now intros ->.
  - intros _. rewrite hex_encode_len. lia.
Qed.
Lemma hex_append M s case src : machine_ok M -> appends M (hex_encode_append_vec M s case) src (rfc_hex_encode (lut_of case) src).
Proof.
  intro HM. gen (fun n => usize M (Z.of_nat n * 2)) (fun p n q => hex_encode_impl s p n q case); auto; start.
  - intros _ L. rewrite hex_encode_len. now apply hex_len_ok.
  - intro. apply hex_enc.
  - apply hex_encode_bytes.
  - now intros ->.
Qed.
Lemma hex_try M s src : machine_ok M -> tries_box M (hex_decode_to_boxed_bytes M s) src (rfc_hex_decode src).
Proof.
  intro HM. apply (tries_box_of M _ hex_dl (hex_decode_impl s) src (hex_need src)); auto; start.
  - intros p n H. unfold hex_decode_to_boxed_bytes, hex_dl. nonzero n H. cbn [Nat.eqb]. destruct (negb _); reflexivity.
  - apply hex_dec.
  - now intros ->.
Qed.
Lemma hex_try_append M s src : machine_ok M -> tries_append M (hex_decode_append_vec M s) src (hex_need src) (rfc_hex_decode src).
Proof.
  intro HM. apply (tries_append_of M _ hex_dl (hex_decode_impl s) src (hex_need src)); auto; start.
  - intros p n v H. unfold hex_decode_append_vec, hex_dl. nonzero n H. cbn [Nat.eqb]. destruct (negb _); reflexivity.
  - apply hex_dec.
  - now intros ->.
Qed.

Lemma b64_rfc_ascii cfg src : bytes src -> Forall ascii_char (b64_rfc cfg src).
Proof. apply b64_rfc_chars. Qed.
Lemma b64_box M s cfg src : machine_ok M -> b64_isa s -> makes_box M (b64_encode_to_boxed_str M s cfg) src (b64_rfc cfg src).
Proof.
  intros HM Hs. gen (fun n => b64_encoded_length_usize M (Z.of_nat n) cfg) (fun p n q => b64_encode_impl s p n q cfg); auto; start.
  - intros B L. rewrite b64_rfc_len by exact B. now apply b64_len_ok.
  - intro B. now apply b64_enc.
  - apply b64_rfc_ascii.
  - intros ->. apply length_zero_iff_nil. rewrite b64_rfc_len by constructor. reflexivity.
  - intros B N. rewrite b64_rfc_len by exact B. unfold b64_encoded_length_unchecked. cbn zeta.
    destruct (Nat.eqb_spec (length src mod 3) 0); [lia|]. destruct (b64_padding _); lia.
Qed.
Lemma b64_append M s cfg src : machine_ok M -> b64_isa s -> appends M (b64_encode_append_vec M s cfg) src (b64_rfc cfg src).
Proof.
  intros HM Hs. gen (fun n => b64_encoded_length_usize M (Z.of_nat n) cfg) (fun p n q => b64_encode_impl s p n q cfg); auto; start.
  - intros B L. rewrite b64_rfc_len by exact B. now apply b64_len_ok.
  - intro B. now apply b64_enc.
  - apply b64_rfc_bytes.
  - intros ->. apply length_zero_iff_nil. rewrite b64_rfc_len by constructor. reflexivity.
Qed.
Lemma b64_dec_nil cfg : b64_dec cfg [] = Some [] /\ b64_need cfg [] = 0%nat.
Proof. destruct cfg as [[] []]; split; vm_compute; reflexivity. Qed.
Lemma b64_try M en s cfg src : machine_ok M -> b64_isa s -> tries_box M (b64_decode_to_boxed_bytes M en s cfg) src (b64_dec cfg src).
Proof.
  intros HM Hs. apply (tries_box_of M _ (fun p n => b64_decoded_length p n cfg) (fun p n q => b64_decode_impl en s p q n cfg)
    src (b64_need cfg src)); auto; start.
  - now apply b64_dec_impl.
  - intros ->. apply b64_dec_nil.
Qed.
Lemma b64_try_append M en s cfg src : machine_ok M -> b64_isa s ->
  tries_append M (b64_decode_append_vec M en s cfg) src (b64_need cfg src) (b64_dec cfg src).
Proof.
  intros HM Hs. apply (tries_append_of M _ (fun p n => b64_decoded_length p n cfg) (fun p n q => b64_decode_impl en s p q n cfg)
    src (b64_need cfg src)); auto; start.
  - now apply b64_dec_impl.
  - intros ->. apply b64_dec_nil.
Qed.

Lemma b32_rfc_ascii cfg src : bytes src -> Forall ascii_char (b32_rfc cfg src).
Proof. apply b32_rfc_chars. Qed.
Lemma b32_box M t s cfg src : machine_ok M -> b32_isa s -> makes_box M (b32_encode_to_boxed_str M t s cfg) src (b32_rfc cfg src).
Proof.
  intros HM Hs. gen (fun n => b32_encoded_length_usize M (Z.of_nat n) (b32_padding cfg))
    (fun p n q => b32_encode_impl t s p n q (b32_kind_of cfg) (b32_padding cfg)); auto; start.
  - intros B L. rewrite b32_rfc_len by exact B. now apply b32_len_ok'.
  - intro B. now apply b32_enc.
  - apply b32_rfc_ascii.
  - intros ->. apply length_zero_iff_nil. rewrite b32_rfc_len by constructor. reflexivity.
  - intros B N. rewrite b32_rfc_len by exact B. unfold b32_encoded_length_unchecked. cbn zeta.
    destruct (Nat.eqb_spec (length src mod 5) 0); [lia|]. destruct (b32_padding _); [lia|].
    assert (C : (length src mod 5 = 1 \/ length src mod 5 = 2 \/ length src mod 5 = 3 \/ length src mod 5 = 4)%nat) by lia.
    destruct C as [->|[->|[->| ->]]]; cbn [nth]; lia.
Qed.
Lemma b32_append M t s cfg src : machine_ok M -> b32_isa s -> appends M (b32_encode_append_vec M t s cfg) src (b32_rfc cfg src).
Proof.
  intros HM Hs. gen (fun n => b32_encoded_length_usize M (Z.of_nat n) (b32_padding cfg))
    (fun p n q => b32_encode_impl t s p n q (b32_kind_of cfg) (b32_padding cfg)); auto; start.
  - intros B L. rewrite b32_rfc_len by exact B. now apply b32_len_ok'.
  - intro B. now apply b32_enc.
  - apply b32_rfc_bytes.
  - intros ->. apply length_zero_iff_nil. rewrite b32_rfc_len by constructor. reflexivity.
Qed.
Lemma b32_dec_nil cfg : b32_dec cfg [] = Some [] /\ b32_need cfg [] = 0%nat.
Proof. destruct cfg as [[] []]; split; vm_compute; reflexivity. Qed.
Lemma b32_try M t s cfg src : machine_ok M -> b32_isa s -> tries_box M (b32_decode_to_boxed_bytes M t s cfg) src (b32_dec cfg src).
Proof.
  intros HM Hs. apply (tries_box_of M _ (fun p n => b32_decoded_length p n (b32_padding cfg))
    (fun p n q => b32_decode_impl t s p n q (b32_kind_of cfg)) src (b32_need cfg src)); auto; start.
  - now apply b32_dec_impl.
  - intros ->. apply b32_dec_nil.
Qed.
Lemma b32_try_append M t s cfg src : machine_ok M -> b32_isa s ->
  tries_append M (b32_decode_append_vec M t s cfg) src (b32_need cfg src) (b32_dec cfg src).
Proof.
  intros HM Hs. apply (tries_append_of M _ (fun p n => b32_decoded_length p n (b32_padding cfg))
    (fun p n q => b32_decode_impl t s p n q (b32_kind_of cfg)) src (b32_need cfg src)); auto; start.
  - now apply b32_dec_impl.
  - intros ->. apply b32_dec_nil.
Qed.

(** ** [forgiving_decode_to_vec] *)
(** [f(src) -> Result<Vec<u8>, Error>] *)
Definition tries_vec (M : machine) (f : ptr -> nat -> Mem.M (result vec)) (src : list Z) (spec : option (list Z)) : Prop :=
  forall m b o, slice m b o src -> Z.of_nat (length src) <= isize_limit M -> m (new_block M) = [] ->
    exists r m', f (b, o) (length src) m = Ret r m' /\
      match spec with
      | Some t => exists v, r = Ok v /\ v_block v = new_block M /\ vec_holds M m' v t /\
                    (forall b', b' <> new_block M -> m' b' = m b')
      | None => r = Err /\ same_mem m m'
      end.
Lemma forgiving_to_vec M en s1 s2 src : machine_ok M -> b64_isa s2 ->
  tries_vec M (forgiving_decode_to_vec M en s1 s2) src (whatwg_forgiving_decode src).
Proof.
  intros HM Hs m b o HS HL HF. assert (HS' := HS). destruct HS' as [B H].
  assert (Sp := forgiving_spec src B). unfold forgiving_decode_to_vec.
  assert (Ef : find_non_ascii_whitespace s1 (b, o) (length src) m = Ret (find_ws src) m)
    by (apply wp_det; apply find_ok; [exact B|exact H]).
  rewrite (bind_ret _ _ _ _ _ Ef). pose proof (find_ws_le src) as Hp. assert (E := strip_find src).
  assert (Ed : debug_assert (find_ws src <=? length src)%nat m = Ret tt m) by (unfold debug_assert; rewrite (proj2 (Nat.leb_le _ _) Hp); reflexivity).
  rewrite (bind_ret _ _ _ _ _ Ed).
  assert (Bx : forall x, whatwg_forgiving_decode src = Some x -> bytes x /\ (length x <= length src)%nat).
  { intros x Hx. rewrite <- Sp in Hx. destruct (b64_dec_facts STANDARD_FORGIVING _ x (strip_bytes _ B) Hx) as [Lx Bx].
    split; [exact Bx|]. pose proof (b64_need_le STANDARD_FORGIVING (strip_whitespace src)). pose proof (strip_le src). lia. }
  destruct (Nat.eqb_spec (find_ws src) (length src)) as [Ep|Np].
  - rewrite Ep, firstn_all, skipn_all in E. change (strip_whitespace []) with (@nil Z) in E. rewrite app_nil_r in E.
    rewrite E in Sp. destruct (b64_try M en s2 STANDARD_FORGIVING src HM Hs m b o HS HL HF) as (r & m' & E1 & P).
    rewrite (bind_ret _ _ _ _ _ E1). rewrite <- Sp. rewrite <- Sp in Bx. unfold ret. eexists _, m'. split; [reflexivity|].
    destruct (b64_dec STANDARD_FORGIVING src) as [t|].
    + destruct P as (x & -> & P1 & P2 & P3 & P4). exists (vec_of_box x). split; [reflexivity|]. split; [exact P1|]. split; [|exact P4].
      destruct (Bx t eq_refl) as [Bt Lt]. split; [split; [exact Bt|]|].
      * unfold bytes_at, vec_of_box. cbn [v_block]. rewrite P3. unfold cells. rewrite map_length, skipn_O. split; [lia|].
        rewrite <- (map_length Some t). apply firstn_all.
      * cbn [v_len v_block vec_of_box]. split; [exact P2|]. rewrite P3. unfold cells. rewrite map_length. lia.
    + now destruct P as [-> P].
  - assert (N0 : (length src <> 0)%nat) by lia.
    unfold with_capacity. destruct (Z.ltb_spec (isize_limit M) (Z.of_nat (length src))) as [|_]; [lia|].
    set (cap := capacity M (length src)).
    assert (LC : (length src <= cap)%nat /\ Z.of_nat cap <= isize_limit M) by (unfold cap, capacity; lia).
    set (nb := new_block M) in *. set (m1 := upd m nb (repeat None cap)).
    assert (Ea : (b <- alloc M cap ;; ret {| v_block := b; v_len := 0%nat |}) m = Ret {| v_block := nb; v_len := 0%nat |} m1).
    { unfold bind, alloc. fold nb. now rewrite HF. }
    rewrite (bind_ret _ _ _ _ _ Ea). cbn [v_block]. cbn zeta. set (k := find_ws src) in *.
    assert (Hb : b <> nb) by exact (src_not_new M m b o src HS HF N0).
    assert (H1 : bytes_at m1 b o src) by (apply (slice_same m m1 b o src HS); now apply upd_other).
    assert (L1 : length (m1 nb) = cap) by (unfold m1; now rewrite upd_same, repeat_length).
    apply wp_inv. apply wp_bind.
    assert (Lf : length (firstn k src) = k) by (rewrite firstn_length; lia).
    assert (Lk : (length src - k)%nat = length (skipn k src)) by now rewrite skipn_length.
    pose proof (bytes_at_firstn _ _ _ _ k H1) as Hf.
    rewrite <- Lf at 1. apply wp_copy; rewrite ?Lf; [exact Hf|lia|now left|]. intros m2 A2 F2.
    assert (H2 : bytes_at m2 b o src) by (eapply Frame_bytes_at; [exact F2|exact H1|now left]).
    assert (L2 : length (m2 nb) = cap) by (destruct F2 as (_ & -> & _); exact L1).
    apply wp_bind. eapply padd_in; [exact H2|lia|]. apply wp_bind.
    unfold psub_len. destruct (Nat.leb_spec k (length src)) as [_|]; [|lia]. apply wp_ret.
    apply wp_bind. apply wp_padd; cbn [fst snd]; [lia|]. cbn [Nat.add].
    apply wp_bind. rewrite Lk. eapply wp_mono; [apply (remove_ok m2 b (o + k) (skipn k src) nb k)|].
    + apply bytes_skipn; exact B.
    + apply bytes_at_skipn; [lia|exact H2].
    + rewrite <- Lk. lia.
    + now left.
    + intros r m3 (-> & A3 & F3). pose proof (strip_le (skipn k src)) as Ls. apply wp_bind. apply wp_dassert; [exact Ls|].
      assert (A : bytes_at m3 nb 0 (strip_whitespace src)).
      { rewrite E. apply bytes_at_app. rewrite Lf. split; [|exact A3]. eapply Frame_bytes_at; [exact F3|exact A2|]. right. left. lia. }
      assert (EL : (k + length (strip_whitespace (skipn k src)))%nat = length (strip_whitespace src)) by (rewrite E, app_length, Lf; lia).
      rewrite EL. destruct (b64_decode_inplace_ok en s2 STANDARD_FORGIVING (strip_whitespace src) Hs m3 nb 0%nat
        (conj (strip_bytes _ B) A)) as (r & m4 & E4 & F4 & P).
      assert (FF : forall b', b' <> nb -> m4 b' = m1 b').
      { intros b' N. destruct F4 as (F4 & _), F3 as (F3 & _), F2 as (F2 & _). rewrite F4, F3, F2 by exact N. reflexivity. }
      assert (L4 : length (m4 nb) = cap) by (destruct F4 as (_ & -> & _), F3 as (_ & -> & _); exact L2).
      rewrite Sp in P. unfold try_drop. apply wp_bind. eapply wp_intro; [exact E4|].
      destruct (whatwg_forgiving_decode src) as [t|].
      * destruct P as [-> P]. destruct (Bx t eq_refl) as [Bt Lt]. cbn [snd]. apply wp_bind. unfold set_len. apply wp_bind.
        eapply wp_intro; [cbn [v_block]; apply (bytes_at_load _ _ _ _ P)|]. apply wp_ret, wp_ret.
        eexists. split; [reflexivity|]. cbn [v_block]. split; [reflexivity|]. split.
        -- split; [split; [exact Bt|exact P]|]. cbn [v_len v_block]. split; [reflexivity|]. lia.
        -- intros b' N. rewrite FF by exact N. now apply upd_other.
      * subst r. unfold drop_vec, free. apply wp_bind. eapply wp_intro; [reflexivity|]. apply wp_ret. split; [reflexivity|].
        cbn [v_block]. apply (upd_undo m nb HF (repeat None cap) m4). exact FF.
Qed.

(** ** Statements without an executable specification *)
(** the box holds the one [t] with [P t]; Err exactly if there is none *)
Definition box_exactly (M : machine) (f : ptr -> nat -> Mem.M (result boxed)) (src : list Z) (P : list Z -> Prop) : Prop :=
  forall m b o, slice m b o src -> Z.of_nat (length src) <= isize_limit M -> m (new_block M) = [] ->
    exists r m', f (b, o) (length src) m = Ret r m' /\
      match r with
      | Ok x => x_block x = new_block M /\ (forall b', b' <> new_block M -> m' b' = m b') /\
                exists t, m' (x_block x) = cells t /\ x_len x = length t /\ (forall y, P y <-> y = t)
      | Err => (forall y, ~ P y) /\ same_mem m m'
      end.
(** the vector gets the one [t] with [P t] appended; Err exactly if there is none, and then it holds what it held *)
Definition append_exactly (M : machine) (f : ptr -> nat -> vec -> Mem.M (result unit * vec)) (src : list Z) (P : list Z -> Prop) : Prop :=
  forall m b o v old, slice m b o src -> Z.of_nat (length old + length src) <= isize_limit M ->
    vec_holds M m v old -> b <> v_block v -> reallocatable M m v ->
    exists r v' m', f (b, o) (length src) v m = Ret (r, v') m' /\ slice m' b o src /\ moved M m v v' m' /\
      match r with
      | Ok _ => exists t, vec_holds M m' v' (old ++ t) /\ (forall y, P y <-> y = t)
      | Err => vec_holds M m' v' old /\ (forall y, ~ P y)
      end.
Lemma box_exact M f src spec P : tries_box M f src spec -> (bytes src -> exactly spec P) -> box_exactly M f src P.
Proof.
  intros HT HP m b o HS HL HF. specialize (HP (proj1 HS)). destruct (HT m b o HS HL HF) as (r & m' & E & Q). exists r, m'.
  split; [exact E|]. destruct spec as [t|].
  - destruct Q as (x & -> & Q1 & Q2 & Q3 & Q4). split; [exact Q1|]. split; [exact Q4|]. exists t. split; [exact Q3|]. split; [exact Q2|].
    intro y. split; [intro Hy; apply HP in Hy; now injection Hy|intros ->; now apply HP].
  - destruct Q as [-> Q]. split; [|exact Q]. intros y Hy. apply HP in Hy. discriminate.
Qed.
Lemma append_exact M f src n spec P : tries_append M f src n spec -> (bytes src -> exactly spec P) -> (n <= length src)%nat ->
  append_exactly M f src P.
Proof.
  intros HT HP Ln m b o v old HS HL HV HB HR. specialize (HP (proj1 HS)).
  assert (T := HT m b o v old HS ltac:(lia) HV HB HR).
  destruct (Z.leb_spec (Z.of_nat (length old + n)) (isize_limit M)) as [_|]; [|lia].
  destruct T as (r & v' & m' & E & Q & S & Mv). exists r, v', m'. split; [exact E|]. split; [exact S|]. split; [exact Mv|].
  destruct spec as [t|]; destruct Q as [-> Q].
  - exists t. split; [exact Q|]. intro y. split; [intro Hy; apply HP in Hy; now injection Hy|intros ->; now apply HP].
  - split; [exact Q|]. intros y Hy. apply HP in Hy. discriminate.
Qed.
Lemma hex_need_le src : (hex_need src <= length src)%nat.
Proof. unfold hex_need. destruct (_ =? _)%nat; lia. Qed.
