(** C84: the public functions that work on slices keep to Rust's aliasing rules (Stacked Borrows): every reference and raw
    pointer is used only while it is valid. Borrows.v has the rules, BorrowsApi.v the functions with the references they make
    ([borrows_into], [borrows_inplace], [borrows_check]: whatever the caller's stacks of borrows hold). *)
From Coq Require Import ZArith List Bool Lia.
From Verif Require Import Bytes Mem MemFacts Slices Codec Conc ConcFacts Isa Simd SimdFacts Spec Ints UnicodeSpec Hex Base64 Base64Api Base32 Base32Api Forgiving Uuid UuidFacts Unicode UnicodeFacts
  SwapFacts LaneFacts Utf32Facts ConcApi ConcApiFacts Borrows BorrowsApi BorrowsFacts BorrowsLib BorrowsCalls BorrowsBridge BorrowsHex BorrowsBase64 BorrowsBase32
  BorrowsUuid BorrowsUnicode BorrowsForgiving.
Import ListNotations.
Open Scope nat_scope. Open Scope m_scope. Open Scope borrow_scope.

(** ** hex-simd *)
Theorem C84_hex_check : forall s src, borrows_check (hex_check_b s) (hex_check s) src.
Proof. exact hex_check_borrows. Qed.
Print Assumptions C84_hex_check.
Theorem C84_hex_encode : forall s case src dlen,
  borrows_into of_result (fun p n q k ts td => hex_encode_b s case p n q k ts td) (fun p n q k => hex_encode s p n q k case) src dlen.
Proof. exact hex_encode_borrows. Qed.
Print Assumptions C84_hex_encode.
Theorem C84_hex_decode : forall s src dlen, borrows_into of_result (hex_decode_b s) (hex_decode s) src dlen.
Proof. exact hex_decode_borrows. Qed.
Print Assumptions C84_hex_decode.
Theorem C84_hex_decode_inplace : forall s data, borrows_inplace of_result (hex_decode_inplace_b s) (hex_decode_inplace s) data.
Proof. exact hex_decode_inplace_borrows. Qed.
Print Assumptions C84_hex_decode_inplace.

(** ** base64-simd *)
Theorem C84_base64_check : forall en s cfg src, b64_isa s -> borrows_check (b64_check_b en s cfg) (b64_check en s cfg) src.
Proof. exact b64_check_borrows. Qed.
Print Assumptions C84_base64_check.
Theorem C84_base64_encode : forall s cfg src dlen, b64_isa s -> borrows_into of_result (b64_encode_b s cfg) (b64_encode s cfg) src dlen.
Proof. exact b64_encode_borrows. Qed.
Print Assumptions C84_base64_encode.
Theorem C84_base64_decode : forall en s cfg src dlen, b64_isa s -> borrows_into of_result (b64_decode_b en s cfg) (b64_decode en s cfg) src dlen.
Proof. exact b64_decode_borrows. Qed.
Print Assumptions C84_base64_decode.
Theorem C84_base64_decode_inplace : forall en s cfg data, b64_isa s ->
  borrows_inplace of_result (b64_decode_inplace_b en s cfg) (b64_decode_inplace en s cfg) data.
Proof. exact b64_decode_inplace_borrows. Qed.
Print Assumptions C84_base64_decode_inplace.
Theorem C84_forgiving_decode : forall en s1 s2 src dlen, b64_isa s2 ->
  borrows_into of_result (forgiving_decode_b en s1 s2) (forgiving_decode en s1 s2) src dlen.
Proof. exact forgiving_decode_borrows. Qed.
Print Assumptions C84_forgiving_decode.
Theorem C84_forgiving_decode_inplace : forall en s1 s2 data, b64_isa s2 ->
  borrows_inplace of_result (forgiving_decode_inplace_b en s1 s2) (forgiving_decode_inplace en s1 s2) data.
Proof. exact forgiving_decode_inplace_borrows. Qed.
Print Assumptions C84_forgiving_decode_inplace.

(** ** base32-simd *)
Theorem C84_base32_check : forall t s cfg src, b32_chk_isa s -> borrows_check (b32_check_b t s cfg) (b32_check t s cfg) src.
Proof. exact b32_check_borrows. Qed.
Print Assumptions C84_base32_check.
Theorem C84_base32_encode : forall t s cfg src dlen, b32_isa s -> borrows_into of_result (b32_encode_b t s cfg) (b32_encode t s cfg) src dlen.
Proof. exact b32_encode_borrows. Qed.
Print Assumptions C84_base32_encode.
Theorem C84_base32_decode : forall t s cfg src dlen, b32_isa s -> borrows_into of_result (b32_decode_b t s cfg) (b32_decode t s cfg) src dlen.
Proof. exact b32_decode_borrows. Qed.
Print Assumptions C84_base32_decode.
Theorem C84_base32_decode_inplace : forall t s cfg data, b32_isa s ->
  borrows_inplace of_result (b32_decode_inplace_b t s cfg) (b32_decode_inplace t s cfg) data.
Proof. exact b32_decode_inplace_borrows. Qed.
Print Assumptions C84_base32_decode_inplace.

(** ** uuid-simd *)
Theorem C84_uuid_parse : forall s1 s2 src, hyph_isa s2 ->
  borrows_into of_result (fun p n q _ ts td => uuid_parse_b s1 s2 p n q ts td) (fun p n q _ => uuid_parse s1 s2 p n q) src 16.
Proof. exact uuid_parse_borrows. Qed.
Print Assumptions C84_uuid_parse.
Theorem C84_uuid_parse_simple : forall s src,
  borrows_into of_result (fun p n q _ ts td => uuid_parse_simple_b s p n q ts td) (fun p n q _ => uuid_parse_simple s p n q) src 16.
Proof. exact uuid_parse_simple_borrows. Qed.
Print Assumptions C84_uuid_parse_simple.
Theorem C84_uuid_parse_hyphenated : forall s src, hyph_isa s ->
  borrows_into of_result (fun p n q _ ts td => uuid_parse_hyphenated_b s p n q ts td) (fun p n q _ => uuid_parse_hyphenated s p n q) src 16.
Proof. exact uuid_parse_hyphenated_borrows. Qed.
Print Assumptions C84_uuid_parse_hyphenated.
Theorem C84_uuid_format_simple : forall s case src, length src = 16 ->
  borrows_into Some (fun p _ q _ ts td => uuid_format_simple_b s case p q ts td) (fun p _ q _ => uuid_format_simple s p q case) src 32.
Proof. exact uuid_format_simple_borrows. Qed.
Print Assumptions C84_uuid_format_simple.
Theorem C84_uuid_format_hyphenated : forall s case src, hyph_isa s -> length src = 16 ->
  borrows_into Some (fun p _ q _ ts td => uuid_format_hyphenated_b s case p q ts td) (fun p _ q _ => uuid_format_hyphenated s p q case) src 36.
Proof. exact uuid_format_hyphenated_borrows. Qed.
Print Assumptions C84_uuid_format_hyphenated.

(** ** unicode-simd *)
Theorem C84_is_ascii : forall x64 s src, borrows_check (is_ascii_b x64 s) (is_ascii x64 s) src.
Proof. exact is_ascii_borrows. Qed.
Print Assumptions C84_is_ascii.
Theorem C84_is_utf32le : forall en s xs, s = Fallback \/ (sse41p s /\ en = LE) -> Forall (uint 4) xs ->
  borrows_check (fun p n t => is_utf32le_b en s p (n / 4) t) (fun p n => is_utf32le en s p (n / 4)) (arr en 4 xs).
Proof. exact is_utf32le_borrows. Qed.
Print Assumptions C84_is_utf32le.
Theorem C84_swap : forall en t s xs k, swap_isa s -> Forall (uint (esize t)) xs -> length xs <= k ->
  borrows_into (fun a => Some (fst a, esize t * snd a)) (fun p n q k ts td => swap_b en t s p (n / esize t) q (k / esize t) ts td)
    (fun p n q k => swap_endianness_to en t s p (n / esize t) q (k / esize t)) (arr en (esize t) xs) (esize t * k).
Proof. exact swap_borrows. Qed.
Print Assumptions C84_swap.
Theorem C84_swap_inplace : forall en t s xs, swap_isa s -> Forall (uint (esize t)) xs ->
  borrows_inplace (fun _ => None) (fun p n td => bbind (swap_inplace_b en t s p (n / esize t) td) (fun _ => Return (tt, 0)))
    (fun p n => swap_endianness_inplace en t s p (n / esize t)) (arr en (esize t) xs).
Proof. exact swap_inplace_borrows. Qed.
Print Assumptions C84_swap_inplace.

(** ** What a run needs *)
Lemma runs_inv {A} (x : bcode A) s m a s' m' : runs x s m a s' m' ->
  match x with
  | Return a0 => a = a0 /\ s' = s /\ m' = m
  | Borrow y k => exists t s1, perform y s = Some (t, s1) /\ runs (k t) s1 m a s' m'
  | Exec v c k => exists p y s1 m1, follows c p /\ trun v p s m = Some (y, s1, m1) /\ runs (k y) s1 m1 a s' m'
  end.
Proof. intros []; [auto|eauto|]. do 4 eexists. eauto. Qed.
(** without an item that lets it write, a pointer changes nothing *)
Definition no_write (v : view) (s : borrows) (b o : nat) : Prop := forall t i, v b = Some t -> In i (stacks s b o) -> grants true t i = false.
Lemma across_get st q n f st' b o : across st q n f = Some st' -> st' b o = st b o \/ (in_range (fst q) (snd q) n b o = true /\ f (st b o) = Some (st' b o)).
Proof.
  intro E. apply across_some in E as [E1 E2]. destruct (in_range (fst q) (snd q) n b o) eqn:R; [right|left; now apply E2]. split; [reflexivity|].
  apply in_range_iff in R as [-> R]. replace o with (snd q + (o - snd q)) by lia. apply E1. lia.
Qed.
Lemma write_grants act t s s' : write_at act t s = Some s' -> exists i, In i s /\ grants true t i = true.
Proof.
  unfold write_at. destruct (locate true t s) as [[[above g] below]|] eqn:E; [|discriminate]. intros _. apply locate_some in E as (-> & G & _).
  exists g. split; [apply in_or_app; right; now left|exact G].
Qed.
Lemma grants_disable w t i : grants w t (disable i) = true -> grants w t i = true.
Proof. unfold disable. destruct (is_unique i) eqn:E; [|auto]. unfold grants. cbn [i_tag i_perm]. now rewrite andb_false_r. Qed.
Lemma read_only_less act t s s' i : read_at act t s = Some s' -> In i s' -> exists j, In j s /\ forall w u, grants w u i = true -> grants w u j = true.
Proof.
  unfold read_at. destruct (locate false t s) as [[[above g] below]|] eqn:E; [|discriminate]. apply locate_some in E as (-> & _).
  destruct (existsb _ above); [discriminate|]. intros H Hi. injection H as <-. apply in_app_or in Hi as [Hi|Hi].
  - apply in_map_iff in Hi as (j & <- & Hj). exists j. split; [apply in_or_app; auto|]. intros w u. apply grants_disable.
  - exists i. split; [apply in_or_app; auto|auto].
Qed.
Lemma trun_no_write {A} v (p : prog A) b o : forall s m y s' m', trun v p s m = Some (y, s', m') -> no_write v s b o -> nth_error (m' b) o = nth_error (m b) o.
Proof.
  induction p as [a0|f|c k IH|q n k IH|q xs k IH]; cbn [trun]; intros s m y s' m' E H.
  - now injection E as _ _ <-.
  - discriminate E.
  - exact (IH _ _ _ _ _ _ E H).
  - unfold tread, put in E. destruct (across _ q n _) as [st|] eqn:EA; [|discriminate E]. destruct (load q n m) as [l m1| | |] eqn:EL; try discriminate E.
    apply load_ret in EL as (-> & _). apply (IH _ _ _ _ _ _ E). intros t i Ht Hi. cbn in Hi. destruct (across_get _ _ _ _ _ b o EA) as [EQ|[R EQ]].
    + rewrite EQ in Hi. now apply H.
    + apply in_range_iff in R as [-> R]. rewrite Ht in EQ. cbn [via] in EQ. destruct (read_only_less _ _ _ _ _ EQ Hi) as (j & Hj & G).
      destruct (grants true t i) eqn:GI; [|reflexivity]. apply G in GI. rewrite (H t j Ht Hj) in GI. discriminate GI.
  - unfold twrite, put in E. destruct (across _ q (length xs) _) as [st|] eqn:EA; [|discriminate E]. destruct (store q xs m) as [l m1| | |] eqn:EL; try discriminate E.
    apply store_ret in EL as [L ->]. destruct (across_get _ _ _ _ _ b o EA) as [EQ|[R EQ]].
    + destruct (in_range (fst q) (snd q) (length xs) b o) eqn:R.
      * apply across_some in EA as [EA _]. apply in_range_iff in R as [-> R]. specialize (EA (o - snd q) ltac:(lia)).
        replace (snd q + (o - snd q)) with o in EA by lia. destruct (v (fst q)) as [t|] eqn:Ht; [|discriminate EA]. cbn [via] in EA.
        destruct (write_grants _ _ _ _ EA) as (i & Hi & G). rewrite (H t i Ht Hi) in G. discriminate G.
      * transitivity (nth_error (upd m (fst q) (splice (m (fst q)) (snd q) xs) b) o).
        { apply (IH _ _ _ _ _ E). intros t i Ht Hi. cbn in Hi. rewrite EQ in Hi. now apply H. }
        unfold upd. destruct (Nat.eqb_spec b (fst q)) as [->|]; [|reflexivity]. rewrite splice_nth by lia. revert R. unfold in_range. rewrite Nat.eqb_refl. cbn [andb].
        intros ->. reflexivity.
    + apply in_range_iff in R as [-> R]. destruct (v (fst q)) as [t|] eqn:Ht; [|discriminate EQ]. cbn [via] in EQ.
      destruct (write_grants _ _ _ _ EQ) as (i & Hi & G). rewrite (H t i Ht Hi) in G. discriminate G.
Qed.

(** an access through [t] ends the reference [u] that was made from it *)
Definition gone (u : nat) (st : stack) : Prop := forall i, In i st -> grants true u i = false.
Lemma read_gone act t u s s' : read_at act t s = Some s' -> gone u s -> gone u s'.
Proof.
  intros E G i Hi. destruct (read_only_less _ _ _ _ _ E Hi) as (j & Hj & L). destruct (grants true u i) eqn:GI; [|reflexivity].
  apply L in GI. rewrite (G j Hj) in GI. discriminate GI.
Qed.
Lemma split_rw_in above i : In i (snd (split_rw above)) -> In i above.
Proof.
  induction above as [|x r IH]; [auto|]. cbn [split_rw]. destruct (split_rw r) as [p k]. cbn [snd] in *. destruct p; [destruct (is_shared_rw x)|]; cbn; intuition.
Qed.
Lemma write_gone act t u s s' : write_at act t s = Some s' -> gone u s -> gone u s'.
Proof.
  unfold write_at. destruct (locate true t s) as [[[above g] below]|] eqn:E; [|discriminate]. apply locate_some in E as (-> & _).
  destruct (split_above g above) as [p k] eqn:SP. destruct (existsb _ p); [discriminate|]. intros H G i Hi. injection H as <-. apply G.
  apply in_app_or in Hi as [Hi|Hi]; apply in_or_app; [left|right; exact Hi]. unfold split_above in SP. destruct (is_shared_rw g).
  - apply split_rw_in. now rewrite SP.
  - injection SP as <- <-. destruct Hi.
Qed.
Definition rw_item (t : nat) : item := {| i_perm := SharedRW; i_tag := t; i_call := None |}.
Definition unique_item (u : nat) : item := {| i_perm := Unique; i_tag := u; i_call := None |}.
Lemma trun_gone {A} v (p : prog A) b o t u below : v b = Some t -> u <> t -> gone u below -> forall s m y s' m', trun v p s m = Some (y, s', m') ->
  gone u (stacks s b o) \/ stacks s b o = unique_item u :: rw_item t :: below ->
  gone u (stacks s' b o) \/ (nth_error (m' b) o = nth_error (m b) o /\ stacks s' b o = stacks s b o).
Proof.
  intros V NE GB. assert (N1 : (u =? t) = false) by now apply Nat.eqb_neq. assert (N2 : (t =? u) = false) by (apply Nat.eqb_neq; congruence).
  induction p as [a0|f|c k IH|q n k IH|q xs k IH]; cbn [trun]; intros s m y s' m' E H.
  - injection E as _ <- <-. auto.
  - discriminate E.
  - exact (IH _ _ _ _ _ _ E H).
  - unfold tread, put in E. destruct (across _ q n _) as [st|] eqn:EA; [|discriminate E]. destruct (load q n m) as [l m1| | |] eqn:EL; try discriminate E.
    apply load_ret in EL as (-> & _). destruct (across_get _ _ _ _ _ b o EA) as [EQ|[R EQ]].
    + specialize (IH _ _ _ _ _ _ E). cbn [stacks] in IH. rewrite EQ in IH. exact (IH H).
    + apply in_range_iff in R as [-> R]. rewrite V in EQ. cbn [via] in EQ. assert (G : gone u (st (fst q) o)).
      { destruct H as [H|H]; [exact (read_gone _ _ _ _ _ EQ H)|]. rewrite H in EQ. unfold read_at in EQ. cbn [locate] in EQ. unfold grants in EQ.
        cbn [i_tag i_perm unique_item rw_item negb] in EQ. rewrite N1, Nat.eqb_refl in EQ. cbn [andb existsb] in EQ. cbv [protected i_call unique_item] in EQ.
        rewrite andb_false_r in EQ. cbn in EQ. injection EQ as <-. intros i [<-|[<-|Hi]]; [| |now apply GB]; unfold grants; cbn; [apply andb_false_r|now rewrite N2]. }
      specialize (IH _ _ _ _ _ _ E (or_introl G)). cbn [stacks] in IH. left. destruct IH as [IH|[_ IH]]; [exact IH|now rewrite IH].
  - unfold twrite, put in E. destruct (across _ q (length xs) _) as [st|] eqn:EA; [|discriminate E]. destruct (store q xs m) as [l m1| | |] eqn:EL; try discriminate E.
    apply store_ret in EL as [L ->]. destruct (in_range (fst q) (snd q) (length xs) b o) eqn:R.
    + apply across_some in EA as [EA _]. apply in_range_iff in R as [-> R]. specialize (EA (o - snd q) ltac:(lia)).
      replace (snd q + (o - snd q)) with o in EA by lia. rewrite V in EA. cbn [via] in EA. assert (G : gone u (st (fst q) o)).
      { destruct H as [H|H]; [exact (write_gone _ _ _ _ _ EA H)|]. rewrite H in EA. unfold write_at in EA. cbn [locate] in EA. unfold grants in EA.
        cbn [i_tag i_perm unique_item rw_item negb] in EA. rewrite N1, Nat.eqb_refl in EA. cbn in EA. injection EA as EA. fold (rw_item t) in EA. rewrite <- EA.
        intros i [<-|Hi]; [|now apply GB]. unfold grants; cbn. now rewrite N2. }
      specialize (IH _ _ _ _ _ E (or_introl G)). cbn [stacks] in IH. left. destruct IH as [IH|[_ IH]]; [exact IH|now rewrite IH].
    + assert (EQ : st b o = stacks s b o) by (apply across_some in EA as [_ EA]; now apply EA).
      specialize (IH _ _ _ _ _ E). cbn [stacks] in IH. rewrite EQ in IH. destruct (IH H) as [G|[G1 G2]]; [left; exact G|right]. split; [|exact G2].
      rewrite G1. unfold upd. destruct (Nat.eqb_spec b (fst q)) as [->|]; [|reflexivity]. rewrite splice_nth by lia. revert R. unfold in_range. rewrite Nat.eqb_refl. cbn [andb].
      intros ->. reflexivity.
Qed.

(** a pointer that may neither read nor write a byte *)
Lemma trun_blocked {A} v (p : prog A) b o t st : v b = Some t -> forall s m y s' m', trun v p s m = Some (y, s', m') -> stacks s b o = st ->
  read_at (active s) t st = None -> write_at (active s) t st = None -> nth_error (m' b) o = nth_error (m b) o.
Proof.
  intro V. induction p as [a0|f|c k IH|q n k IH|q xs k IH]; cbn [trun]; intros s m y s' m' E H HR HW.
  - now injection E as _ _ <-.
  - discriminate E.
  - exact (IH _ _ _ _ _ _ E H HR HW).
  - unfold tread, put in E. destruct (across _ q n _) as [st1|] eqn:EA; [|discriminate E]. destruct (load q n m) as [l m1| | |] eqn:EL; try discriminate E.
    apply load_ret in EL as (-> & _). destruct (across_get _ _ _ _ _ b o EA) as [EQ|[R EQ]].
    + apply (IH _ _ _ _ _ _ E); [now cbn [stacks]; rewrite EQ|exact HR|exact HW].
    + apply in_range_iff in R as [-> R]. rewrite V, H in EQ. cbn [via] in EQ. rewrite HR in EQ. discriminate EQ.
  - unfold twrite, put in E. destruct (across _ q (length xs) _) as [st1|] eqn:EA; [|discriminate E]. destruct (store q xs m) as [l m1| | |] eqn:EL; try discriminate E.
    apply store_ret in EL as [L ->]. apply across_some in EA as [EA1 EA2]. destruct (in_range (fst q) (snd q) (length xs) b o) eqn:R.
    + apply in_range_iff in R as [-> R]. specialize (EA1 (o - snd q) ltac:(lia)). replace (snd q + (o - snd q)) with o in EA1 by lia.
      rewrite V, H in EA1. cbn [via] in EA1. rewrite HW in EA1. discriminate EA1.
    + rewrite (IH _ _ _ _ _ E); [|cbn [stacks]; rewrite (EA2 _ _ R); exact H|exact HR|exact HW].
      unfold upd. destruct (Nat.eqb_spec b (fst q)) as [->|]; [|reflexivity]. rewrite splice_nth by lia. revert R. unfold in_range. rewrite Nat.eqb_refl. cbn [andb].
      intros ->. reflexivity.
Qed.

(** ** Wrong programs. Each does the same to memory as [hex_simd::decode_inplace]; none keeps to the rules. *)
(** the pointer that is written through comes from [as_ptr] *)
Definition decode_inplace_const (s : isa) (p : ptr) (n td : nat) : bcode (result (ptr * nat) * nat) :=
  fn (td <== mut_param p n td ;;
      t <== reborrow p n td ;; slice_len p n t ;=;
      if negb (n mod 2 =? 0) then fails else
      t <== reborrow p n td ;; tr <== as_ptr p n t ;;
      r <== exec (via1 (fst p) tr) (hex_decode_impl s p n p) ;;
      match r with Err => fails | Ok _ => u <== slice_mut p (n / 2) td ;; give (p, n / 2) u end).
(** the raw pointer is used after [data] has been borrowed again *)
Definition decode_inplace_stale (s : isa) (p : ptr) (n td : nat) : bcode (result (ptr * nat) * nat) :=
  fn (td <== mut_param p n td ;;
      t <== reborrow p n td ;; slice_len p n t ;=;
      if negb (n mod 2 =? 0) then fails else
      tr <== as_mut_ptr p n td ;;
      as_mut_ptr p n td ;=;
      r <== exec (via1 (fst p) tr) (hex_decode_impl s p n p) ;;
      match r with Err => fails | Ok _ => u <== slice_mut p (n / 2) tr ;; give (p, n / 2) u end).
(** the returned reference is made before the bytes are written *)
Definition decode_inplace_early (s : isa) (p : ptr) (n td : nat) : bcode (result (ptr * nat) * nat) :=
  fn (td <== mut_param p n td ;;
      t <== reborrow p n td ;; slice_len p n t ;=;
      if negb (n mod 2 =? 0) then fails else
      tr <== as_mut_ptr p n td ;;
      u <== slice_mut p (n / 2) tr ;;
      r <== exec (via1 (fst p) tr) (hex_decode_impl s p n p) ;;
      match r with Err => fails | Ok _ => give (p, n / 2) u end).
(** the bytes are accessed through the caller's pointer, not through the parameter made from it *)
Definition decode_inplace_outer (s : isa) (p : ptr) (n td : nat) : bcode (result (ptr * nat) * nat) :=
  fn (t <== mut_param p n td ;;
      t <== reborrow p n t ;; slice_len p n t ;=;
      if negb (n mod 2 =? 0) then fails else
      r <== exec (via1 (fst p) td) (hex_decode_impl s p n p) ;;
      match r with Err => fails | Ok _ => u <== slice_mut p (n / 2) td ;; give (p, n / 2) u end).
Lemma decode_inplace_const_ann s p n t : annotates fst (decode_inplace_const s p n t) (hex_decode_inplace s p n).
Proof. unfold decode_inplace_const, hex_decode_inplace. ann. destruct (negb _); [ann|]. ann. eexists. split; [intro; reflexivity|]. intros [y|]; ann. Qed.
Lemma decode_inplace_stale_ann s p n t : annotates fst (decode_inplace_stale s p n t) (hex_decode_inplace s p n).
Proof. unfold decode_inplace_stale, hex_decode_inplace. ann. destruct (negb _); [ann|]. ann. eexists. split; [intro; reflexivity|]. intros [y|]; ann. Qed.
Lemma decode_inplace_early_ann s p n t : annotates fst (decode_inplace_early s p n t) (hex_decode_inplace s p n).
Proof. unfold decode_inplace_early, hex_decode_inplace. ann. destruct (negb _); [ann|]. ann. eexists. split; [intro; reflexivity|]. intros [y|]; ann. Qed.

Lemma decode_inplace_outer_ann s p n t : annotates fst (decode_inplace_outer s p n t) (hex_decode_inplace s p n).
Proof. unfold decode_inplace_outer, hex_decode_inplace. ann. destruct (negb _); [ann|]. ann. eexists. split; [intro; reflexivity|]. intros [y|]; ann. Qed.

(** "41" in a buffer of one owner *)
Definition m41 : mem := fun b => if b =? 0 then [Some 52; Some 49]%Z else [].
Definition owner : borrows := {| stacks := fun _ _ => [{| i_perm := Unique; i_tag := 0; i_call := None |}]; fresh := 1; active := [] |}.
Lemma m41_slice : slice m41 0 0 [52; 49]%Z.
Proof.
  split; [|split; [cbn; lia|reflexivity]]. constructor; [unfold byte; lia|]. constructor; [unfold byte; lia|constructor].
Qed.
Lemma owner_ok : state_ok owner.
Proof. split; [intros c []|]. intros b o i [<-|[]]. cbn. split; [lia|discriminate]. Qed.
Lemma owner_writes : may_write owner (0, 0) 2 0.
Proof. intros i Hi. discriminate. Qed.
Lemma m41_changes r m' : hex_decode_inplace Fallback (0, 0) 2 m41 = Ret r m' -> r = Ok ((0, 0), 1) /\ nth_error (m' 0) 0 <> nth_error (m41 0) 0.
Proof. intro E. vm_compute in E. injection E as <- <-. split; [reflexivity|]. vm_compute. discriminate. Qed.
Ltac rnext R E := let t := fresh "t" in let s1 := fresh "s" in apply runs_inv in R; cbv beta iota in R; destruct R as (t & s1 & E & R).
Ltac rstep R := let E := fresh "E" in rnext R E; vm_compute in E; injection E as <- <-; cbn [bbind] in R.
Ltac rend R := repeat (let E := fresh "E" in rnext R E; cbn [bbind] in R); apply runs_inv in R; cbv beta iota in R.
Ltac unf R := unfold fn, mut_param, reborrow, slice_len, shared_param, do_, as_ptr, as_mut_ptr, slice_mut, reborrow_mut, exec, fails, give in R; cbn [bbind] in R;
  repeat rstep R; cbn [negb Nat.modulo Nat.divmod Nat.eqb fst snd Nat.sub] in R; cbn [bbind] in R; repeat rstep R.
Theorem C84_const_refuted : ~ borrows_inplace of_result (decode_inplace_const Fallback) (hex_decode_inplace Fallback) [52; 49]%Z.
Proof.
  intro B. destruct (B m41 owner 0 0 0 m41_slice owner_ok ltac:(cbn; lia) owner_writes) as (r & u & s' & m' & R & E & _).
  apply m41_changes in E as [-> D]. cbn [length] in R. unfold decode_inplace_const in R. unf R.
  apply runs_inv in R. cbv beta iota in R. destruct R as (p & y & s1 & m1 & _ & T & R). apply D. transitivity (nth_error (m1 0) 0).
  - destruct y as [y|]; cbn [bbind] in R; rend R; now destruct R as (_ & _ & ->).
  - apply (trun_no_write _ _ 0 0 _ _ _ _ _ T). intros t i Ht Hi. injection Ht as <-. vm_compute in Hi. repeat (destruct Hi as [<-|Hi]; [reflexivity|]). destruct Hi.
Qed.
Print Assumptions C84_const_refuted.
Theorem C84_stale_refuted : ~ borrows_inplace of_result (decode_inplace_stale Fallback) (hex_decode_inplace Fallback) [52; 49]%Z.
Proof.
  intro B. destruct (B m41 owner 0 0 0 m41_slice owner_ok ltac:(cbn; lia) owner_writes) as (r & u & s' & m' & R & E & _).
  apply m41_changes in E as [-> D]. cbn [length] in R. unfold decode_inplace_stale in R. unf R.
  apply runs_inv in R. cbv beta iota in R. destruct R as (p & y & s1 & m1 & _ & T & R). apply D. transitivity (nth_error (m1 0) 0).
  - destruct y as [y|]; cbn [bbind] in R; rend R; now destruct R as (_ & _ & ->).
  - apply (trun_no_write _ _ 0 0 _ _ _ _ _ T). intros t i Ht Hi. injection Ht as <-. vm_compute in Hi. repeat (destruct Hi as [<-|Hi]; [reflexivity|]). destruct Hi.
Qed.
Print Assumptions C84_stale_refuted.
Theorem C84_early_refuted : ~ borrows_inplace of_result (decode_inplace_early Fallback) (hex_decode_inplace Fallback) [52; 49]%Z.
Proof.
  intro B. destruct (B m41 owner 0 0 0 m41_slice owner_ok ltac:(cbn; lia) owner_writes) as (r & u & s' & m' & R & E & _ & RET & _).
  apply m41_changes in E as [-> D]. cbn [length] in R. unfold decode_inplace_early in R. unf R.
  apply runs_inv in R. cbv beta iota in R. destruct R as (p & y & s1 & m1 & _ & T & R).
  assert (X : u = 12 /\ stacks s' = stacks s1 /\ m' = m1).
  { destruct y as [y|]; cbn [bbind] in R; rnext R E; apply runs_inv in R; destruct R as (RA & -> & ->); [|discriminate RA]. injection RA as ->. cbn [perform] in E.
    destruct (active s1); [discriminate E|]. injection E as _ <-. auto. }
  destruct X as (-> & X & ->). destruct RET as [_ RET]. destruct (RET 0 ltac:(lia)) as (g & rest & EG & GG). cbn [fst snd Nat.add] in EG. rewrite X in EG.
  refine (_ (trun_gone _ _ 0 0 _ 12 _ eq_refl _ _ _ _ _ _ _ T (or_intror _))).
  - intros [G|[G _]]; [|exact (D G)]. rewrite (G g) in GG; [discriminate GG|]. rewrite EG. now left.
  - lia.
  - shelve.
  - vm_compute. reflexivity.
  Unshelve. intros i Hi. repeat (destruct Hi as [<-|Hi]; [reflexivity|]). destruct Hi.
Qed.
Print Assumptions C84_early_refuted.
Theorem C84_outer_refuted : ~ borrows_inplace of_result (decode_inplace_outer Fallback) (hex_decode_inplace Fallback) [52; 49]%Z.
Proof.
  intro B. destruct (B m41 owner 0 0 0 m41_slice owner_ok ltac:(cbn; lia) owner_writes) as (r & u & s' & m' & R & E & _).
  apply m41_changes in E as [-> D]. cbn [length] in R. unfold decode_inplace_outer in R. unf R.
  apply runs_inv in R. cbv beta iota in R. destruct R as (p & y & s1 & m1 & _ & T & R). apply D. transitivity (nth_error (m1 0) 0).
  - destruct y as [y|]; cbn [bbind] in R; rend R; now destruct R as (_ & _ & ->).
  - apply (trun_blocked _ _ 0 0 0 _ eq_refl _ _ _ _ _ T eq_refl); vm_compute; reflexivity.
Qed.
Print Assumptions C84_outer_refuted.

(** ** The rules on one byte. Tag 0 is the owner; the pointers made are 1, 2, … in order, also counting calls. *)
Inductive act := Mk (x : kind) (t : nat) | Arg (x : kind) (t : nat) | Begin | End_ | Rd (t : nat) | Wr (t : nat).
Definition act1 (a : act) (s : borrows) : option borrows :=
  let snd_of o := match o with Some (_, s') => Some s' | None => None end in
  match a with
  | Mk x t => snd_of (perform (Retag x false t (0, 0) 1) s)
  | Arg x t => snd_of (perform (Retag x true t (0, 0) 1) s)
  | Begin => snd_of (perform Enter s)
  | End_ => snd_of (perform Leave s)
  | Rd t => tread (Some t) (0, 0) 1 s
  | Wr t => twrite (Some t) (0, 0) 1 s
  end.
Fixpoint allowed (l : list act) (s : borrows) : bool :=
  match l with [] => true | a :: r => match act1 a s with Some s' => allowed r s' | None => false end end.
(** all but the last are allowed, the last is not *)
Definition stops_at_last (l : list act) : bool := allowed (removelast l) owner && negb (allowed l owner).
Example C84_rules_allowed : forallb (fun l => allowed l owner)
  [ [Mk MutRef 0; Wr 1; Rd 1; Wr 0]
  ; [Mk SharedRef 0; Mk SharedRef 0; Rd 1; Rd 2; Rd 0; Rd 1]           (* shared references side by side *)
  ; [Mk MutRef 0; Mk RawMut 1; Mk RawMut 1; Wr 2; Wr 3; Wr 2; Rd 3]    (* raw pointers from one reference *)
  ; [Mk MutRef 0; Mk RawMut 1; Mk SharedRef 1; Rd 1; Wr 2]             (* a read leaves raw pointers valid *)
  ; [Mk MutRef 0; Mk RawMut 1; Mk MutRef 2; Wr 3; Wr 2; Wr 1]          (* nested uses end in order *)
  ; [Mk MutRef 0; Mk SharedRef 1; Rd 2; Wr 1; Wr 0]
  ; [Begin; Arg MutRef 0; Wr 2; End_; Wr 0]                            (* the protector ends with the call *)
  ; [Begin; Arg SharedRef 0; Rd 0; Rd 2; End_; Wr 0]
  ; [Mk MutRef 0; Mk RawMut 1; Begin; Arg SharedRef 2; Rd 1; Rd 4; End_; Wr 2]
  ; [Begin; Arg SharedRef 0; Mk RawConst 2; Rd 3; End_; Rd 3]
  ; [Mk RawMut 0; Mk RawMut 1; Wr 1; Wr 2] ] = true.
Proof. vm_compute. reflexivity. Qed.
Example C84_rules_undefined : forallb stops_at_last
  [ [Mk MutRef 0; Wr 0; Rd 1]                                          (* a write ends what was made from the pointer *)
  ; [Mk MutRef 0; Rd 0; Wr 1]                                          (* a read ends mutable references made from it *)
  ; [Mk MutRef 0; Rd 0; Rd 1]
  ; [Mk SharedRef 0; Wr 0; Rd 1]
  ; [Mk SharedRef 0; Wr 1]                                             (* no writes through shared references *)
  ; [Mk SharedRef 0; Mk RawConst 1; Wr 2]                              (* nor through what is made from them *)
  ; [Mk SharedRef 0; Mk RawMut 1]
  ; [Mk SharedRef 0; Mk MutRef 1]
  ; [Mk RawConst 0; Wr 1]                                              (* [as_ptr] is not [as_mut_ptr] *)
  ; [Mk MutRef 0; Mk RawMut 1; Wr 1; Wr 2]
  ; [Mk MutRef 0; Mk RawMut 1; Wr 1; Rd 2]
  ; [Mk MutRef 0; Mk RawMut 1; Mk MutRef 1; Wr 2]                      (* a new mutable reference ends the raw pointer *)
  ; [Mk MutRef 0; Mk RawMut 1; Mk MutRef 2; Rd 2; Wr 3]
  ; [Mk MutRef 0; Mk RawMut 1; Mk MutRef 2; Wr 2; Rd 3]
  ; [Mk MutRef 0; Mk MutRef 0; Wr 1]
  ; [Mk MutRef 0; Mk SharedRef 0; Wr 1]
  ; [Begin; Arg MutRef 0; Wr 0]                                        (* parameters may not be ended by others *)
  ; [Begin; Arg MutRef 0; Rd 0]
  ; [Begin; Arg SharedRef 0; Wr 0]
  ; [Begin; Arg MutRef 0; Begin; Arg MutRef 0]                         (* the same [&mut] twice *)
  ; [Begin; Arg SharedRef 0; Arg MutRef 0]
  ; [Begin; Arg MutRef 0; Begin; Arg MutRef 2; End_; Wr 0]
  ; [Begin; Arg MutRef 0; Begin; Arg MutRef 2; Wr 2]
  ; [Rd 1]
  ; [Wr 1] ] = true.
Proof. vm_compute. reflexivity. Qed.

(** ** The hypotheses can be met: [hex_simd::decode_inplace] itself on the same buffer, and [hex_simd::decode] of it into a byte
    that has not been initialised *)
Example C84_inplace_case : exists r u s' m', runs (hex_decode_inplace_b Fallback (0, 0) 2 0) owner m41 (r, u) s' m' /\
  r = Ok ((0, 0), 1) /\ on_top s' (0, 0) 1 u /\ may_write s' (0, 0) 2 0.
Proof.
  destruct (C84_hex_decode_inplace Fallback _ m41 owner 0 0 0 m41_slice owner_ok ltac:(cbn; lia) owner_writes) as (r & u & s' & m' & R & E & _ & RET & W).
  apply m41_changes in E as [-> _]. destruct RET as [_ RET]. eauto 9.
Qed.
Definition m41_1 : mem := fun b => if b =? 0 then [Some 52; Some 49]%Z else if b =? 1 then [None] else [].
Example C84_into_case : exists r u s' m', runs (hex_decode_b Fallback (0, 0) 2 (1, 0) 1 0 0) owner m41_1 (r, u) s' m' /\
  r = Ok ((1, 0), 1) /\ m' 1 = [Some 65%Z] /\ on_top s' (1, 0) 1 u /\ may_read s' (0, 0) 2 0.
Proof.
  assert (S : slice m41_1 0 0 [52; 49]%Z).
  { split; [|split; [cbn; lia|reflexivity]]. constructor; [unfold byte; lia|]. constructor; [unfold byte; lia|constructor]. }
  destruct (C84_hex_decode Fallback [52; 49]%Z 1 m41_1 owner 0 0 1 0 0 0 S) as (r & u & s' & m' & R & E & _ & RET & W & _); try exact owner_ok; try (unfold room; cbn; lia).
  - intros i Hi. discriminate.
  - intros i Hi. do 2 eexists. split; reflexivity.
  - vm_compute in E. injection E as <- <-. destruct RET as [_ RET]. do 4 eexists. split; [exact R|]. split; [reflexivity|]. split; [reflexivity|]. now split.
Qed.
