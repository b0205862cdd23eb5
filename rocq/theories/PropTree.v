(** C87: the public functions that work on slices also keep to the other model of Rust's aliasing rules, Tree Borrows. TreeBorrows.v
    has the rules and the statements ([tree_into], [tree_inplace], [tree_check]: whatever tree of borrows the caller has made);
    the functions are those of C84. *)
From Coq Require Import ZArith List Bool Lia.
From Verif Require Import Bytes Mem MemFacts Slices Codec Conc ConcFacts Isa Simd SimdFacts Spec Ints UnicodeSpec Hex Base64 Base64Api Base32 Base32Api Forgiving Uuid UuidFacts Unicode UnicodeFacts
  SwapFacts LaneFacts Utf32Facts ConcApi ConcApiFacts Borrows BorrowsApi BorrowsFacts PropBorrows TreeBorrows TreeFacts TreeCalls TreeBridge TreeHex TreeBase64 TreeBase32
  TreeForgiving TreeUuid TreeUnicode.
Import ListNotations.
Open Scope nat_scope. Open Scope m_scope. Open Scope borrow_scope.

(** ** hex-simd *)
Theorem C87_hex_check : forall s src, tree_check (hex_check_b s) (hex_check s) src.
Proof. exact hex_check_trees. Qed.
Print Assumptions C87_hex_check.
Theorem C87_hex_encode : forall s case src dlen,
  tree_into of_result (fun p n q k ts td => hex_encode_b s case p n q k ts td) (fun p n q k => hex_encode s p n q k case) src dlen.
Proof. exact hex_encode_trees. Qed.
Print Assumptions C87_hex_encode.
Theorem C87_hex_decode : forall s src dlen, tree_into of_result (hex_decode_b s) (hex_decode s) src dlen.
Proof. exact hex_decode_trees. Qed.
Print Assumptions C87_hex_decode.
Theorem C87_hex_decode_inplace : forall s data, tree_inplace of_result (hex_decode_inplace_b s) (hex_decode_inplace s) data.
Proof. exact hex_decode_inplace_trees. Qed.
Print Assumptions C87_hex_decode_inplace.

(** ** base64-simd *)
Theorem C87_base64_check : forall en s cfg src, b64_isa s -> tree_check (b64_check_b en s cfg) (b64_check en s cfg) src.
Proof. exact b64_check_trees. Qed.
Print Assumptions C87_base64_check.
Theorem C87_base64_encode : forall s cfg src dlen, b64_isa s -> tree_into of_result (b64_encode_b s cfg) (b64_encode s cfg) src dlen.
Proof. exact b64_encode_trees. Qed.
Print Assumptions C87_base64_encode.
Theorem C87_base64_decode : forall en s cfg src dlen, b64_isa s -> tree_into of_result (b64_decode_b en s cfg) (b64_decode en s cfg) src dlen.
Proof. exact b64_decode_trees. Qed.
Print Assumptions C87_base64_decode.
Theorem C87_base64_decode_inplace : forall en s cfg data, b64_isa s ->
  tree_inplace of_result (b64_decode_inplace_b en s cfg) (b64_decode_inplace en s cfg) data.
Proof. exact b64_decode_inplace_trees. Qed.
Print Assumptions C87_base64_decode_inplace.
Theorem C87_forgiving_decode : forall en s1 s2 src dlen, b64_isa s2 ->
  tree_into of_result (forgiving_decode_b en s1 s2) (forgiving_decode en s1 s2) src dlen.
Proof. exact forgiving_decode_trees. Qed.
Print Assumptions C87_forgiving_decode.
Theorem C87_forgiving_decode_inplace : forall en s1 s2 data, b64_isa s2 ->
  tree_inplace of_result (forgiving_decode_inplace_b en s1 s2) (forgiving_decode_inplace en s1 s2) data.
Proof. exact forgiving_decode_inplace_trees. Qed.
Print Assumptions C87_forgiving_decode_inplace.

(** ** base32-simd *)
Theorem C87_base32_check : forall t s cfg src, b32_chk_isa s -> tree_check (b32_check_b t s cfg) (b32_check t s cfg) src.
Proof. exact b32_check_trees. Qed.
Print Assumptions C87_base32_check.
Theorem C87_base32_encode : forall t s cfg src dlen, b32_isa s -> tree_into of_result (b32_encode_b t s cfg) (b32_encode t s cfg) src dlen.
Proof. exact b32_encode_trees. Qed.
Print Assumptions C87_base32_encode.
Theorem C87_base32_decode : forall t s cfg src dlen, b32_isa s -> tree_into of_result (b32_decode_b t s cfg) (b32_decode t s cfg) src dlen.
Proof. exact b32_decode_trees. Qed.
Print Assumptions C87_base32_decode.
Theorem C87_base32_decode_inplace : forall t s cfg data, b32_isa s ->
  tree_inplace of_result (b32_decode_inplace_b t s cfg) (b32_decode_inplace t s cfg) data.
Proof. exact b32_decode_inplace_trees. Qed.
Print Assumptions C87_base32_decode_inplace.

(** ** uuid-simd *)
Theorem C87_uuid_parse : forall s1 s2 src, hyph_isa s2 ->
  tree_into of_result (fun p n q _ ts td => uuid_parse_b s1 s2 p n q ts td) (fun p n q _ => uuid_parse s1 s2 p n q) src 16.
Proof. exact uuid_parse_trees. Qed.
Print Assumptions C87_uuid_parse.
Theorem C87_uuid_parse_simple : forall s src,
  tree_into of_result (fun p n q _ ts td => uuid_parse_simple_b s p n q ts td) (fun p n q _ => uuid_parse_simple s p n q) src 16.
Proof. exact uuid_parse_simple_trees. Qed.
Print Assumptions C87_uuid_parse_simple.
Theorem C87_uuid_parse_hyphenated : forall s src, hyph_isa s ->
  tree_into of_result (fun p n q _ ts td => uuid_parse_hyphenated_b s p n q ts td) (fun p n q _ => uuid_parse_hyphenated s p n q) src 16.
Proof. exact uuid_parse_hyphenated_trees. Qed.
Print Assumptions C87_uuid_parse_hyphenated.
Theorem C87_uuid_format_simple : forall s case src, length src = 16 ->
  tree_into Some (fun p _ q _ ts td => uuid_format_simple_b s case p q ts td) (fun p _ q _ => uuid_format_simple s p q case) src 32.
Proof. exact uuid_format_simple_trees. Qed.
Print Assumptions C87_uuid_format_simple.
Theorem C87_uuid_format_hyphenated : forall s case src, hyph_isa s -> length src = 16 ->
  tree_into Some (fun p _ q _ ts td => uuid_format_hyphenated_b s case p q ts td) (fun p _ q _ => uuid_format_hyphenated s p q case) src 36.
Proof. exact uuid_format_hyphenated_trees. Qed.
Print Assumptions C87_uuid_format_hyphenated.

(** ** unicode-simd *)
Theorem C87_is_ascii : forall x64 s src, tree_check (is_ascii_b x64 s) (is_ascii x64 s) src.
Proof. exact is_ascii_trees. Qed.
Print Assumptions C87_is_ascii.
Theorem C87_is_utf32le : forall en s xs, s = Fallback \/ (sse41p s /\ en = LE) -> Forall (uint 4) xs ->
  tree_check (fun p n t => is_utf32le_b en s p (n / 4) t) (fun p n => is_utf32le en s p (n / 4)) (arr en 4 xs).
Proof. exact is_utf32le_trees. Qed.
Print Assumptions C87_is_utf32le.
Theorem C87_swap : forall en t s xs k, swap_isa s -> Forall (uint (esize t)) xs -> length xs <= k ->
  tree_into (fun a => Some (fst a, esize t * snd a)) (fun p n q k ts td => swap_b en t s p (n / esize t) q (k / esize t) ts td)
    (fun p n q k => swap_endianness_to en t s p (n / esize t) q (k / esize t)) (arr en (esize t) xs) (esize t * k).
Proof. exact swap_trees. Qed.
Print Assumptions C87_swap.
Theorem C87_swap_inplace : forall en t s xs, swap_isa s -> Forall (uint (esize t)) xs ->
  tree_inplace (fun _ => None) (fun p n td => bbind (swap_inplace_b en t s p (n / esize t) td) (fun _ => Return (tt, 0)))
    (fun p n => swap_endianness_inplace en t s p (n / esize t)) (arr en (esize t) xs).
Proof. exact swap_inplace_trees. Qed.
Print Assumptions C87_swap_inplace.


(** ** What a run needs *)
Lemma tree_runs_inv {A} (x : bcode A) s m a s' m' : tree_runs x s m a s' m' ->
  match x with
  | Return a0 => a = a0 /\ s' = s /\ m' = m
  | Borrow y k => exists t s1, tperform y s = Some (t, s1) /\ tree_runs (k t) s1 m a s' m'
  | Exec v c k => exists p y s1 m1, follows c p /\ tree_run v p s m = Some (y, s1, m1) /\ tree_runs (k y) s1 m1 a s' m'
  end.
Proof. intros []; [auto|eauto|]. do 4 eexists. eauto. Qed.
Lemma tacross_get st q n f st' b o : tacross st q n f = Some st' ->
  (in_range (fst q) (snd q) n b o = false /\ st' b o = st b o) \/ (in_range (fst q) (snd q) n b o = true /\ f (st b o) = Some (st' b o)).
Proof.
  unfold tacross. destruct (forallb _ _) eqn:A; [|discriminate]. intro E. injection E as <-. destruct (in_range _ _ _ b o) eqn:R; [|now left]. right. split; [reflexivity|].
  apply in_range_iff in R as [-> R]. rewrite forallb_forall in A. specialize (A (o - snd q)). replace (snd q + (o - snd q)) with o in A by lia.
  destruct (f (st (fst q) o)) eqn:EF; [reflexivity|]. discriminate A. apply in_seq. lia.
Qed.
(** a byte keeps its value as long as its permissions are in [C0]; a write takes them to [C1] *)
Lemma tree_run_cell {A} v (p : prog A) b o t (C0 C1 : cell -> Prop) (x : option Mem.cell) pl pt : v b = Some t ->
  (forall st st', C0 st -> read_acc pl pt none_of st = Some st' -> C0 st') -> (forall st st', C0 st -> write_acc pl pt none_of st = Some st' -> C1 st') ->
  (forall st st', C1 st -> read_acc pl pt none_of st = Some st' -> C1 st') -> (forall st st', C1 st -> write_acc pl pt none_of st = Some st' -> C1 st') ->
  forall s m y s' m', guarded s = pl -> path s t = pt -> tree_run v p s m = Some (y, s', m') -> (C0 (perms s b o) /\ nth_error (m b) o = x) \/ C1 (perms s b o) ->
  (C0 (perms s' b o) /\ nth_error (m' b) o = x) \/ C1 (perms s' b o).
Proof.
  intros V R0 W0 R1 W1. induction p as [a|f|b0 k IH|q n k IH|q xs k IH]; cbn [tree_run]; intros s m y s' m' G P E H.
  - now injection E as <- <- <-.
  - discriminate.
  - exact (IH _ s m y s' m' G P E H).
  - unfold tree_read, tput in E. destruct (tacross _ _ _ _) as [st|] eqn:EA; [|discriminate E]. destruct (load q n m) as [l m1| | |] eqn:EL; try discriminate E.
    apply load_ret in EL as (-> & _). refine (IH l {| perms := st |} m y s' m' G P E _). cbn [perms]. destruct (tacross_get _ _ _ _ _ b o EA) as [[_ ->]|[R EF]]; [exact H|].
    apply in_range_iff in R as [-> _]. rewrite V in EF. cbn [tvia] in EF. destruct (_ <? _); [|discriminate EF]. rewrite G, P in EF.
    destruct H as [[H1 H2]|H]; [left; split; [exact (R0 _ _ H1 EF)|exact H2]|right; exact (R1 _ _ H EF)].
  - unfold tree_write, tput in E. destruct (tacross _ _ _ _) as [st|] eqn:EA; [|discriminate E]. destruct (store q xs m) as [l m1| | |] eqn:EL; try discriminate E.
    apply store_ret in EL as [L ->]. refine (IH {| perms := st |} _ y s' m' G P E _). cbn [perms]. destruct (tacross_get _ _ _ _ _ b o EA) as [[R ->]|[R EF]].
    + destruct H as [[H1 <-]|H]; [left|now right]. split; [exact H1|]. unfold upd. destruct (Nat.eqb_spec b (fst q)) as [->|]; [|reflexivity]. rewrite splice_nth by lia.
      revert R. unfold in_range. rewrite Nat.eqb_refl. cbn [andb]. now intros ->.
    + apply in_range_iff in R as [-> _]. rewrite V in EF. cbn [tvia] in EF. destruct (_ <? _); [|discriminate EF]. rewrite G, P in EF. right.
      destruct H as [[H1 _]|H]; [exact (W0 _ _ H1 EF)|exact (W1 _ _ H EF)].
Qed.
Lemma read_acc_some pl pt st st' : read_acc pl pt none_of st = Some st' -> rd pl pt st /\ forall u, In u pt -> st' u = st u.
Proof.
  intro E. split; [apply read_acc_rd; congruence|]. revert E. unfold read_acc. destruct (_ && _); [|discriminate]. intro E. injection E as <-. intros u Hu.
  apply mem_of_iff in Hu. now rewrite Hu.
Qed.
(** a frozen node stays frozen, and nothing is written through it or through what is made from it *)
Lemma run_frozen {A} v (p : prog A) b o t u s m y s' m' : v b = Some t -> In u (path s t) -> perms s b o u = Some TFrozen -> tree_run v p s m = Some (y, s', m') ->
  nth_error (m' b) o = nth_error (m b) o.
Proof.
  intros V IU FR E. destruct (tree_run_cell v p b o t (fun st => st u = Some TFrozen) (fun _ => False) (nth_error (m b) o) (guarded s) (path s t) V) with (6 := @eq_refl _ (path s t)) (7 := E) as [[_ H]|[]]; auto.
  - intros st st' H R. apply read_acc_some in R as [_ R]. now rewrite R.
  - intros st st' H W. assert (WR : wr (guarded s) (path s t) st) by (apply write_acc_wr; congruence). destruct WR as [WR _]. specialize (WR u IU). rewrite H in WR. discriminate WR.
Qed.
(** while another node is protected and usable, nothing is written *)
Lemma run_guarded {A} v (p : prog A) b o t g s m y s' m' : v b = Some t -> In g (guarded s) -> ~ In g (path s t) -> alive (perms s b o g) = true ->
  tree_run v p s m = Some (y, s', m') -> nth_error (m' b) o = nth_error (m b) o.
Proof.
  intros V IG NG AL E. destruct (tree_run_cell v p b o t (fun st => alive (st g) = true) (fun _ => False) (nth_error (m b) o) (guarded s) (path s t) V) with (6 := @eq_refl _ (path s t)) (7 := E) as [[_ H]|[]]; auto.
  - intros st st' H R. assert (RD : rd (guarded s) (path s t) st) by (apply read_acc_rd; congruence). destruct (read_acc_ok _ _ none_of _ RD) as (st2 & E2 & _ & WK).
    rewrite R in E2. injection E2 as <-. destruct (WK g) as [-> _]. exact H.
  - intros st st' H W. assert (WR : wr (guarded s) (path s t) st) by (apply write_acc_wr; congruence). destruct WR as [_ WR]. specialize (WR g IG NG). congruence.
Qed.
(** a write disables what is made from the pointer *)
Lemma run_disables {A} v (p : prog A) b o t u s m y s' m' : v b = Some t -> ~ In u (path s t) -> perms s b o u <> None -> tree_run v p s m = Some (y, s', m') ->
  nth_error (m' b) o = nth_error (m b) o \/ perms s' b o u = Some TDisabled.
Proof.
  intros V NU DU E. destruct (tree_run_cell v p b o t (fun st => st u <> None) (fun st => st u = Some TDisabled) (nth_error (m b) o) (guarded s) (path s t) V) with (6 := @eq_refl _ (path s t)) (7 := E) as [[_ H]|H]; auto.
  - intros st st' H R. revert R. unfold read_acc. destruct (_ && _); [|discriminate]. intro R. injection R as <-. rewrite (proj2 (mem_of_false _ _) NU). cbn. now destruct (st u) as [[]|].
  - intros st st' H W. revert W. unfold write_acc. destruct (_ && _); [|discriminate]. intro W. injection W as <-. rewrite (proj2 (mem_of_false _ _) NU). cbn. now destruct (st u).
  - intros st st' H R. revert R. unfold read_acc. destruct (_ && _); [|discriminate]. intro R. injection R as <-. rewrite (proj2 (mem_of_false _ _) NU), H. reflexivity.
  - intros st st' H W. revert W. unfold write_acc. destruct (_ && _); [|discriminate]. intro W. injection W as <-. rewrite (proj2 (mem_of_false _ _) NU), H. reflexivity.
Qed.

(** nothing enables a node again *)
Lemma disabled_read pl pt skip st st' u : read_acc pl pt skip st = Some st' -> st u = Some TDisabled -> st' u = Some TDisabled.
Proof. unfold read_acc. destruct (_ && _); [|discriminate]. intros E H. injection E as <-. rewrite H. now destruct (_ || _). Qed.
Lemma disabled_write pl pt skip st st' u : write_acc pl pt skip st = Some st' -> st u = Some TDisabled -> st' u = Some TDisabled.
Proof.
  unfold write_acc. destruct (forallb _ pt) eqn:A; [|discriminate]. cbn [andb]. destruct (forallb _ pl); [|discriminate]. intros E H. injection E as <-. rewrite H.
  destruct (mem_of u pt) eqn:M; [|now destruct (skip u)]. rewrite forallb_forall in A. apply mem_of_iff, A in M. rewrite H in M. discriminate M.
Qed.
Lemma disabled_exit l b o u : forall s s', exits l s = Some s' -> perms s b o u = Some TDisabled -> perms s' b o u = Some TDisabled.
Proof.
  induction l as [|[[c q] n] l IH]; cbn [exits]; intros s s' E H; [now injection E as <-|]. unfold tput in E. destruct (tacross _ _ _ _) as [st|] eqn:EA; [|discriminate E].
  apply (IH _ _ E). cbn [perms]. destruct (tacross_get _ _ _ _ _ b o EA) as [[_ ->]|[_ EF]]; [exact H|]. revert EF. unfold exit_acc.
  destruct (perms s b o c) as [[]|]; intro EF; try exact (disabled_read _ _ _ _ _ _ EF H); [exact (disabled_write _ _ _ _ _ _ EF H)|]. now injection EF as <-.
Qed.
Lemma disabled_leave b o u s t s' : tperform Leave s = Some (t, s') -> perms s b o u = Some TDisabled -> perms s' b o u = Some TDisabled.
Proof.
  cbn [tperform]. destruct (calls s) as [|fr r]; [discriminate|]. destruct (exits fr s) as [s1|] eqn:EX; [|discriminate]. intros E H. injection E as <- <-. exact (disabled_exit _ _ _ _ _ _ EX H).
Qed.

(** ** Wrong programs, from PropBorrows.v. Each does the same to memory as [hex_simd::decode_inplace]; none keeps to the rules. *)
Definition towner : trees := {| perms := fun _ _ u => if u =? 0 then Some TActive else None; path := fun u => if u =? 0 then [0] else []; tfresh := 1; calls := [] |}.
Lemma towner_ok : tree_ok towner.
Proof.
  split; [|split; [intros u []|]].
  - intros t Ht. cbn in Ht. assert (t = 0) as -> by lia. cbn. split; [now left|]. intros u [<-|[]]. cbn. split; [lia|]. split; [apply incl_refl|]. intros v [<-|[]]. left. now left.
  - intros b o u Hu. cbn in *. destruct u; [lia|reflexivity].
Qed.
Lemma towner_writes n : tree_may_write towner (0, 0) n 0. Proof. intros i Hi. discriminate. Qed.
(** the state after a borrow *)
Definition after (y : borrow) (s : trees) : trees := match tperform y s with Some (_, s') => s' | None => s end.
Lemma tree_runs_after {A} y (k : nat -> bcode A) s m a s' m' t : tree_runs (Borrow y k) s m a s' m' -> option_map fst (tperform y s) = Some t -> tree_runs (k t) (after y s) m a s' m'.
Proof. intros R E. apply tree_runs_inv in R. cbv beta iota in R. destruct R as (t1 & s1 & E1 & R). unfold after. rewrite E1 in *. now injection E as <-. Qed.
Ltac tstep R := match type of R with tree_runs (Borrow ?y _) ?s _ _ _ _ =>
  let t := eval vm_compute in (option_map fst (tperform y s)) in match t with Some ?t => apply (tree_runs_after _ _ _ _ _ _ _ t) in R; [|vm_cast_no_check (@eq_refl (option nat) (Some t))]; cbn [bbind] in R end end.
Ltac topen R := unfold fn, mut_param, reborrow, slice_len, shared_param, do_, as_ptr, as_mut_ptr, slice_mut, reborrow_mut, exec, fails, give in R; cbn [bbind negb Nat.modulo Nat.divmod Nat.eqb fst snd Nat.sub] in R.
Ltac tunf R := topen R; repeat (tstep R; topen R).
Ltac tend R := repeat (apply tree_runs_inv in R; cbv beta iota in R; destruct R as (? & ? & _ & R); cbn [bbind] in R); apply tree_runs_inv in R; cbv beta iota in R.
Theorem C87_const_refuted : ~ tree_inplace of_result (decode_inplace_const Fallback) (hex_decode_inplace Fallback) [52; 49]%Z.
Proof.
  intro B. destruct (B m41 towner 0 0 0 m41_slice towner_ok ltac:(cbn; lia) (towner_writes 2)) as (r & u & s' & m' & R & E & _).
  apply m41_changes in E as [-> D]. cbn [length] in R. unfold decode_inplace_const in R. tunf R.
  match type of R with tree_runs _ ?s _ _ _ _ => set (s0 := s) in R end.
  apply tree_runs_inv in R. cbv beta iota in R. destruct R as (p & y & s1 & m1 & _ & T & R). apply D. transitivity (nth_error (m1 0) 0).
  - destruct y as [y|]; cbn [bbind] in R; tend R; now destruct R as (_ & _ & ->).
  - apply (run_frozen (via1 0 5) _ 0 0 5 4 _ _ _ _ _ eq_refl) with (3 := T); [vm_compute; auto|vm_compute; reflexivity].
Qed.
Print Assumptions C87_const_refuted.
Theorem C87_early_refuted : ~ tree_inplace of_result (decode_inplace_early Fallback) (hex_decode_inplace Fallback) [52; 49]%Z.
Proof.
  intro B. destruct (B m41 towner 0 0 0 m41_slice towner_ok ltac:(cbn; lia) (towner_writes 2)) as (r & u & s' & m' & R & E & LV & RET & _).
  apply m41_changes in E as [-> D]. cbn [length] in R. unfold decode_inplace_early in R. tunf R.
  match type of R with tree_runs _ ?s _ _ _ _ => set (s0 := s) in R end.
  apply tree_runs_inv in R. cbv beta iota in R. destruct R as (p & y & s1 & m1 & _ & T & R).
  assert (X : u = 6 /\ m' = m1 /\ exists t, tperform Leave s1 = Some (t, s')).
  { destruct y as [y|]; cbn [bbind] in R; apply tree_runs_inv in R; cbv beta iota in R; destruct R as (t & s2 & E & R); apply tree_runs_inv in R; destruct R as (RA & -> & ->); [|discriminate RA].
    injection RA as ->. eauto. }
  destruct X as (-> & -> & t & EL). destruct RET as [L RET]. apply may_write_iff in RET.
  assert (N1 : ~ In 6 (path s0 5)) by (vm_compute; intuition discriminate). assert (N2 : perms s0 0 0 6 <> None) by (vm_compute; discriminate).
  destruct (run_disables (via1 0 5) p 0 0 5 6 s0 m41 y s1 m1 eq_refl N1 N2 T) as [G|G].
  - exact (D G).
  - apply (disabled_leave _ _ _ _ _ _ EL) in G. destruct (RET 0 0 eq_refl) as [W _]. specialize (W 6 (ok_self _ _ (proj1 LV) (proj2 L))). rewrite G in W. discriminate W.
Qed.
Print Assumptions C87_early_refuted.
Theorem C87_outer_refuted : ~ tree_inplace of_result (decode_inplace_outer Fallback) (hex_decode_inplace Fallback) [52; 49]%Z.
Proof.
  intro B. destruct (B m41 towner 0 0 0 m41_slice towner_ok ltac:(cbn; lia) (towner_writes 2)) as (r & u & s' & m' & R & E & _).
  apply m41_changes in E as [-> D]. cbn [length] in R. unfold decode_inplace_outer in R. tunf R.
  match type of R with tree_runs _ ?s _ _ _ _ => set (s0 := s) in R end.
  apply tree_runs_inv in R. cbv beta iota in R. destruct R as (p & y & s1 & m1 & _ & T & R). apply D. transitivity (nth_error (m1 0) 0).
  - destruct y as [y|]; cbn [bbind] in R; tend R; now destruct R as (_ & _ & ->).
  - apply (run_guarded (via1 0 0) _ 0 0 0 1 _ _ _ _ _ eq_refl) with (4 := T); [vm_compute; auto|vm_compute; intros [H|[]]; discriminate H|vm_compute; reflexivity].
Qed.
Print Assumptions C87_outer_refuted.

(** ** The rules on one byte. Tag 0 is the owner; the references made are 1, 2, … in order. *)
Definition tact1 (a : act) (s : trees) : option trees :=
  let snd_of o := match o with Some (_, s') => Some s' | None => None end in
  match a with
  | Mk x t => snd_of (tperform (Retag x false t (0, 0) 1) s)
  | Arg x t => snd_of (tperform (Retag x true t (0, 0) 1) s)
  | Begin => snd_of (tperform Enter s)
  | End_ => snd_of (tperform Leave s)
  | Rd t => tree_read (Some t) (0, 0) 1 s
  | Wr t => tree_write (Some t) (0, 0) 1 s
  end.
Fixpoint tallowed (l : list act) (s : trees) : bool :=
  match l with [] => true | a :: r => match tact1 a s with Some s' => tallowed r s' | None => false end end.
Definition tstops_at_last (l : list act) : bool := tallowed (removelast l) towner && negb (tallowed l towner).
Example C87_rules_allowed : forallb (fun l => tallowed l towner)
  [ [Mk MutRef 0; Wr 1; Rd 1; Wr 0]
  ; [Mk SharedRef 0; Mk SharedRef 0; Rd 1; Rd 2; Rd 0; Rd 1]           (* shared references side by side *)
  ; [Mk MutRef 0; Mk RawMut 1; Wr 1; Wr 1; Rd 1]                       (* a raw pointer is the reference it is made from *)
  ; [Mk MutRef 0; Rd 0; Wr 1]                                          (* before its first write a mutable reference bears reads by others *)
  ; [Mk MutRef 0; Mk MutRef 0; Wr 1]
  ; [Mk MutRef 0; Wr 1; Rd 0; Rd 1]                                    (* and after it becomes read-only *)
  ; [Mk MutRef 0; Mk MutRef 1; Wr 2; Wr 1; Wr 0]
  ; [Mk MutRef 0; Mk SharedRef 1; Rd 2; Wr 1; Wr 0]
  ; [Mk SharedRef 0; Mk MutRef 1; Rd 2]
  ; [Begin; Arg MutRef 0; Wr 1; End_; Wr 0]                            (* the protector ends with the call *)
  ; [Begin; Arg MutRef 0; Rd 0; Rd 1; End_; Wr 1]
  ; [Begin; Arg SharedRef 0; Rd 0; Rd 1; End_; Wr 0]
  ; [Begin; Arg MutRef 0; Mk MutRef 1; Wr 2; End_; Wr 2; Wr 1]         (* a call does not end what it returns *)
  ; [Mk MutRef 0; Begin; Arg SharedRef 1; Rd 0; Rd 2; End_; Wr 1] ] = true.
Proof. vm_compute. reflexivity. Qed.
Example C87_rules_undefined : forallb tstops_at_last
  [ [Mk MutRef 0; Wr 0; Rd 1]                                          (* a write ends what was made from the pointer *)
  ; [Mk MutRef 0; Wr 1; Rd 0; Wr 1]                                    (* a read by others ends writing *)
  ; [Mk SharedRef 0; Wr 0; Rd 1]
  ; [Mk SharedRef 0; Wr 1]                                             (* no writes through shared references *)
  ; [Mk SharedRef 0; Mk RawMut 1; Wr 1]                                (* nor through what is made from them *)
  ; [Mk SharedRef 0; Mk MutRef 1; Wr 2]
  ; [Mk MutRef 0; Mk MutRef 0; Wr 1; Rd 2]                             (* a write ends the other references *)
  ; [Mk MutRef 0; Mk SharedRef 0; Wr 1; Rd 2]
  ; [Mk MutRef 0; Mk MutRef 1; Wr 1; Rd 2]
  ; [Mk MutRef 0; Wr 0; Mk MutRef 1]                                   (* making a reference is a read *)
  ; [Begin; Arg MutRef 0; Wr 0]                                        (* parameters may not be ended by others *)
  ; [Begin; Arg MutRef 0; Wr 1; Rd 0]
  ; [Begin; Arg MutRef 0; Rd 0; Wr 1]                                  (* a parameter that another has read is not written *)
  ; [Begin; Arg SharedRef 0; Wr 0]
  ; [Begin; Arg MutRef 0; Begin; Arg MutRef 0; Wr 2]                   (* the same [&mut] twice *)
  ; [Begin; Arg MutRef 0; Begin; Arg MutRef 0; Wr 1]
  ; [Begin; Arg MutRef 0; Begin; Arg MutRef 1; End_; Wr 0]
  ; [End_]
  ; [Rd 1]
  ; [Wr 1] ] = true.
Proof. vm_compute. reflexivity. Qed.

(** ** The hypotheses can be met *)
Example C87_inplace_case : exists r u s' m', tree_runs (hex_decode_inplace_b Fallback (0, 0) 2 0) towner m41 (r, u) s' m' /\
  r = Ok ((0, 0), 1) /\ tree_may_write s' (0, 0) 1 u /\ tree_may_write s' (0, 0) 2 0.
Proof.
  destruct (C87_hex_decode_inplace Fallback _ m41 towner 0 0 0 m41_slice towner_ok ltac:(cbn; lia) (towner_writes 2)) as (r & u & s' & m' & R & E & _ & RET & W).
  apply m41_changes in E as [-> _]. destruct RET as [_ RET]. eauto 9.
Qed.
Example C87_into_case : exists r u s' m', tree_runs (hex_decode_b Fallback (0, 0) 2 (1, 0) 1 0 0) towner m41_1 (r, u) s' m' /\
  r = Ok ((1, 0), 1) /\ m' 1 = [Some 65%Z] /\ tree_may_write s' (1, 0) 1 u /\ tree_may_read s' (0, 0) 2 0.
Proof.
  assert (S : slice m41_1 0 0 [52; 49]%Z).
  { split; [|split; [cbn; lia|reflexivity]]. constructor; [unfold byte; lia|]. constructor; [unfold byte; lia|constructor]. }
  assert (MR : tree_may_read towner (0, 0) 2 0) by (intros i Hi; discriminate).
  destruct (C87_hex_decode Fallback [52; 49]%Z 1 m41_1 towner 0 0 1 0 0 0 S) as (r & u & s' & m' & R & E & _ & RET & W & _); try exact towner_ok; try exact MR; try (unfold room; cbn; lia).
  - intros i Hi. discriminate.
  - vm_compute in E. injection E as <- <-. destruct RET as [_ RET]. do 4 eexists. split; [exact R|]. split; [reflexivity|]. split; [reflexivity|]. split; [exact RET|]. apply W; [cbn; lia|exact MR].
Qed.
Example C87_check_case : exists s' m', tree_runs (hex_check_b Fallback (0, 0) 2 0) towner m41 (Ok tt) s' m' /\ tree_may_read s' (0, 0) 2 0.
Proof.
  assert (MR : tree_may_read towner (0, 0) 2 0) by (intros i Hi; discriminate).
  destruct (C87_hex_check Fallback _ m41 towner 0 0 0 m41_slice towner_ok ltac:(cbn; lia) MR) as (r & s' & m' & R & E & _ & W).
  vm_compute in E. injection E as <- <-. do 2 eexists. split; [exact R|]. apply W; [cbn; lia|exact MR].
Qed.
(** [Y Q==] *)
Definition mYQ : mem := fun b => if b =? 0 then [Some 89; Some 32; Some 81; Some 61; Some 61]%Z else [].
Example C87_forgiving_case : exists r u s' m', tree_runs (forgiving_decode_inplace_b LE Fallback Fallback (0, 0) 5 0) towner mYQ (r, u) s' m' /\
  r = Ok ((0, 0), 1) /\ nth_error (m' 0) 0 = Some (Some 97%Z) /\ tree_may_write s' (0, 0) 1 u /\ tree_may_write s' (0, 0) 5 0.
Proof.
  assert (S : slice mYQ 0 0 [89; 32; 81; 61; 61]%Z).
  { split; [|split; [cbn; lia|reflexivity]]. repeat (constructor; [unfold byte; lia|]). constructor. }
  destruct (C87_forgiving_decode_inplace LE Fallback Fallback _ (or_introl eq_refl) _ towner 0 0 0 S towner_ok ltac:(cbn; lia) (towner_writes 5)) as (r & u & s' & m' & R & E & _ & RET & W).
  vm_compute in E. injection E as <- <-. destruct RET as [_ RET]. do 4 eexists. split; [exact R|]. split; [reflexivity|]. split; [reflexivity|]. split; [exact RET|exact W].
Qed.
