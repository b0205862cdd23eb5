(** C88: the functions that allocate keep to the other model of Rust's aliasing rules, Tree Borrows, too, and what they return may be
    used and freed. TreeHeap.v has the rules for allocation and the statements ([tree_new], [tree_append]: whatever tree of borrows
    the caller has made, and whatever the allocator returns); the functions are those of C86. *)
From Coq Require Import ZArith List Bool Lia.
From Verif Require Import Bytes Mem MemFacts Slices Codec Conc ConcFacts Reify Isa Simd SimdFacts Spec Ints Hex Base64 Base64Api Base32 Base32Api Forgiving Heap HeapFacts Public
  Borrows BorrowsApi BorrowsFacts PropBorrows BorrowsHeap BorrowsHeapFacts BorrowsHeapSteps BorrowsHeapCalls BorrowsHeapCodecs PropBorrowsHeap
  TreeBorrows TreeFacts TreeCalls TreeHeap TreeHeapFacts TreeHeapCalls TreeHeapCodecs TreeHeapForgiving PropTree.
Import ListNotations.
Open Scope nat_scope. Open Scope m_scope. Open Scope borrow_scope. Open Scope heap_scope.

(** ** hex-simd *)
Theorem C88_hex_encode_to_boxed_str : forall M s case src, machine_ok M ->
  tree_new of_box M (hex_encode_to_boxed_str_b M s case) (hex_encode_to_boxed_str M s case) src.
Proof. intros. apply tbox_new; [intros; apply hex_box_ann|now apply thex_box_good]. Qed.
Print Assumptions C88_hex_encode_to_boxed_str.
Theorem C88_hex_encode_append_vec : forall M s case src, machine_ok M ->
  tree_append (fun v => v) M (hex_encode_append_vec_b M s case) (hex_encode_append_vec M s case) src.
Proof. intros. now apply hex_append_tree. Qed.
Print Assumptions C88_hex_encode_append_vec.
Theorem C88_hex_decode_to_boxed_bytes : forall M s src,
  tree_new (of_res of_box) M (hex_decode_to_boxed_bytes_b M s) (hex_decode_to_boxed_bytes M s) src.
Proof. intros. apply tbox_try; [intros; apply hex_try_ann|now apply thex_try_good]. Qed.
Print Assumptions C88_hex_decode_to_boxed_bytes.
Theorem C88_hex_decode_append_vec : forall M s src,
  tree_append snd M (hex_decode_append_vec_b M s) (hex_decode_append_vec M s) src.
Proof. intros. now apply hex_try_append_tree. Qed.
Print Assumptions C88_hex_decode_append_vec.
Theorem C88_hex_encode_to_string : forall M s case src, machine_ok M ->
  tree_new of_vec M (fun p n t0 => to_string_b (hex_encode_to_boxed_str_b M s case p n t0)) (hex_encode_to_string M s case) src.
Proof. intros. apply tvec_new; [intros; apply to_string_ann, hex_box_ann|now apply tto_string_good, thex_box_good]. Qed.
Print Assumptions C88_hex_encode_to_string.
Theorem C88_hex_decode_to_vec : forall M s src,
  tree_new (of_res of_vec) M (fun p n t0 => to_vec_b (hex_decode_to_boxed_bytes_b M s p n t0)) (hex_decode_to_vec M s) src.
Proof. intros. apply tvec_try; [intros; apply to_vec_ann, hex_try_ann|now apply tto_vec_good, thex_try_good]. Qed.
Print Assumptions C88_hex_decode_to_vec.

(** ** base64-simd *)
Theorem C88_base64_encode_to_boxed_str : forall M s cfg src, machine_ok M -> b64_isa s ->
  tree_new of_box M (b64_encode_to_boxed_str_b M s cfg) (b64_encode_to_boxed_str M s cfg) src.
Proof. intros. apply tbox_new; [intros; apply b64_box_ann|now apply tb64_box_good]. Qed.
Print Assumptions C88_base64_encode_to_boxed_str.
Theorem C88_base64_encode_append_vec : forall M s cfg src, machine_ok M -> b64_isa s ->
  tree_append (fun v => v) M (b64_encode_append_vec_b M s cfg) (b64_encode_append_vec M s cfg) src.
Proof. intros. now apply b64_append_tree. Qed.
Print Assumptions C88_base64_encode_append_vec.
Theorem C88_base64_decode_to_boxed_bytes : forall M en s cfg src, b64_isa s ->
  tree_new (of_res of_box) M (b64_decode_to_boxed_bytes_b M en s cfg) (b64_decode_to_boxed_bytes M en s cfg) src.
Proof. intros. apply tbox_try; [intros; apply b64_try_ann|now apply tb64_try_good]. Qed.
Print Assumptions C88_base64_decode_to_boxed_bytes.
Theorem C88_base64_decode_append_vec : forall M en s cfg src, b64_isa s ->
  tree_append snd M (b64_decode_append_vec_b M en s cfg) (b64_decode_append_vec M en s cfg) src.
Proof. intros. now apply b64_try_append_tree. Qed.
Print Assumptions C88_base64_decode_append_vec.
Theorem C88_base64_encode_to_string : forall M s cfg src, machine_ok M -> b64_isa s ->
  tree_new of_vec M (fun p n t0 => to_string_b (b64_encode_to_boxed_str_b M s cfg p n t0)) (b64_encode_to_string M s cfg) src.
Proof. intros. apply tvec_new; [intros; apply to_string_ann, b64_box_ann|now apply tto_string_good, tb64_box_good]. Qed.
Print Assumptions C88_base64_encode_to_string.
Theorem C88_base64_decode_to_vec : forall M en s cfg src, b64_isa s ->
  tree_new (of_res of_vec) M (fun p n t0 => to_vec_b (b64_decode_to_boxed_bytes_b M en s cfg p n t0)) (b64_decode_to_vec M en s cfg) src.
Proof. intros. apply tvec_try; [intros; apply to_vec_ann, b64_try_ann|now apply tto_vec_good, tb64_try_good]. Qed.
Print Assumptions C88_base64_decode_to_vec.

(** ** base32-simd *)
Theorem C88_base32_encode_to_boxed_str : forall M t s cfg src, machine_ok M -> b32_isa s ->
  tree_new of_box M (b32_encode_to_boxed_str_b M t s cfg) (b32_encode_to_boxed_str M t s cfg) src.
Proof. intros. apply tbox_new; [intros; apply b32_box_ann|now apply tb32_box_good]. Qed.
Print Assumptions C88_base32_encode_to_boxed_str.
Theorem C88_base32_encode_append_vec : forall M t s cfg src, machine_ok M -> b32_isa s ->
  tree_append (fun v => v) M (b32_encode_append_vec_b M t s cfg) (b32_encode_append_vec M t s cfg) src.
Proof. intros. now apply b32_append_tree. Qed.
Print Assumptions C88_base32_encode_append_vec.
Theorem C88_base32_decode_to_boxed_bytes : forall M t s cfg src, b32_isa s ->
  tree_new (of_res of_box) M (b32_decode_to_boxed_bytes_b M t s cfg) (b32_decode_to_boxed_bytes M t s cfg) src.
Proof. intros. apply tbox_try; [intros; apply b32_try_ann|now apply tb32_try_good]. Qed.
Print Assumptions C88_base32_decode_to_boxed_bytes.
Theorem C88_base32_decode_append_vec : forall M t s cfg src, b32_isa s ->
  tree_append snd M (b32_decode_append_vec_b M t s cfg) (b32_decode_append_vec M t s cfg) src.
Proof. intros. now apply b32_try_append_tree. Qed.
Print Assumptions C88_base32_decode_append_vec.
Theorem C88_base32_encode_to_string : forall M t s cfg src, machine_ok M -> b32_isa s ->
  tree_new of_vec M (fun p n t0 => to_string_b (b32_encode_to_boxed_str_b M t s cfg p n t0)) (b32_encode_to_string M t s cfg) src.
Proof. intros. apply tvec_new; [intros; apply to_string_ann, b32_box_ann|now apply tto_string_good, tb32_box_good]. Qed.
Print Assumptions C88_base32_encode_to_string.
Theorem C88_base32_decode_to_vec : forall M t s cfg src, b32_isa s ->
  tree_new (of_res of_vec) M (fun p n t0 => to_vec_b (b32_decode_to_boxed_bytes_b M t s cfg p n t0)) (b32_decode_to_vec M t s cfg) src.
Proof. intros. apply tvec_try; [intros; apply to_vec_ann, b32_try_ann|now apply tto_vec_good, tb32_try_good]. Qed.
Print Assumptions C88_base32_decode_to_vec.

(** ** base64_simd::forgiving_decode_to_vec *)
Theorem C88_forgiving_decode_to_vec : forall M en s1 s2 src, b64_isa s2 ->
  tree_new (of_res of_vec) M (forgiving_decode_to_vec_b M en s1 s2) (forgiving_decode_to_vec M en s1 s2) src.
Proof. exact tforgiving_vec_trees. Qed.
Print Assumptions C88_forgiving_decode_to_vec.

(** ** The owner may free what it got *)
Theorem C88_drop : forall s (m : mem) b u, tree_owns s b (length (m b)) u -> exists s', tree_hruns (hfree b u) s m tt s' (upd m b []).
Proof. intros s m b u H. eexists. unfold hfree. eapply thruns_free; [now apply owns_release|reflexivity|constructor]. Qed.
Print Assumptions C88_drop.

(** ** What a run needs *)
Lemma thruns_inv {A} (x : hcode A) s m a s' m' : tree_hruns x s m a s' m' ->
  match x with
  | HReturn a0 => a = a0 /\ s' = s /\ m' = m
  | HBorrow y k => exists t s1, tperform y s = Some (t, s1) /\ tree_hruns (k t) s1 m a s' m'
  | HExec v c k => exists p y s1 m1, follows c p /\ tree_run v p s m = Some (y, s1, m1) /\ tree_hruns (k y) s1 m1 a s' m'
  | HPure c k => exists y, c m = Ret y m /\ tree_hruns (k y) s m a s' m'
  | HAlloc M n k => exists b m1, alloc M n m = Ret b m1 /\ tree_hruns (k b (tfresh s)) (tree_block s b n) m1 a s' m'
  | HGrow M v n t k => (v_len v + n <= length (m (v_block v)) /\ tree_hruns (k v t) s m a s' m') \/
      exists w m1 s1, length (m (v_block v)) < v_len v + n /\ reserve_exact M v n m = Ret w m1 /\
        tree_release s (v_block v) (length (m (v_block v))) t = Some s1 /\ tree_hruns (k w (tfresh s1)) (tree_block s1 (v_block w) (length (m1 (v_block w)))) m1 a s' m'
  | HFree b t k => exists s1 m1, tree_release s b (length (m b)) t = Some s1 /\ free b m = Ret tt m1 /\ tree_hruns k s1 m1 a s' m'
  end.
Proof. intros []; eauto 9. Qed.
Definition ttg (y : borrow) (s : trees) : nat := match tperform y s with Some (t, _) => t | None => 0 end.
Lemma thborrow_inv {A} y (k : nat -> hcode A) s m a s' m' N : tree_hruns (HBorrow y k) s m a s' m' -> ttg y s = N -> tree_hruns (k N) (after y s) m a s' m'.
Proof. intros R <-. apply thruns_inv in R as (t & s1 & E & R). unfold ttg, after. now rewrite E. Qed.
Lemma thalloc_inv {A} M n (k : nat -> nat -> hcode A) s m a s' m' b m1 N : tree_hruns (HAlloc M n k) s m a s' m' -> alloc M n m = Ret b m1 -> tfresh s = N ->
  tree_hruns (k b N) (tree_block s b n) m1 a s' m'.
Proof. intros R E <-. apply thruns_inv in R as (b0 & m0 & E0 & R). rewrite E in E0. now injection E0 as <- <-. Qed.
Lemma thpure_inv {A X} (c : Mem.M X) (k : X -> hcode A) s m a s' m' y : tree_hruns (HPure c k) s m a s' m' -> c m = Ret y m -> tree_hruns (k y) s m a s' m'.
Proof. intros R E. apply thruns_inv in R as (y0 & E0 & R). rewrite E in E0. now injection E0 as <-. Qed.
Lemma thgrow_inv {A} M v n t (k : vec -> nat -> hcode A) s m a s' m' w m1 N : tree_hruns (HGrow M v n t k) s m a s' m' -> (v_len v + n <=? length (m (v_block v))) = false ->
  reserve_exact M v n m = Ret w m1 -> tfresh s = N ->
  tree_hruns (k w N) (tree_block (released s (v_block v)) (v_block w) (length (m1 (v_block w)))) m1 a s' m'.
Proof.
  intros R L E <-. apply Nat.leb_gt in L. apply thruns_inv in R as [[C _]|(w0 & m0 & s1 & _ & E0 & ER & R)]; [lia|]. rewrite E in E0. injection E0 as <- <-.
  unfold tree_release in ER. destruct (_ && _); [|discriminate ER]. injection ER as <-. exact R.
Qed.
Ltac thhead R := lazymatch type of R with tree_hruns ?x ?s ?m ?a ?s' ?m' => let x' := eval hnf in x in change (tree_hruns x' s m a s' m') in R end.
Ltac thstep R := lazymatch type of R with
  | tree_hruns (HBorrow ?y ?k) ?s ?m ?a ?s' ?m' =>
      let y' := eval vm_compute in y in let N := eval vm_compute in (ttg y' s) in let R1 := fresh in
      assert (R1 : tree_hruns (k N) (after y' s) m a s' m') by (apply (thborrow_inv y' k s m a s' m' N R); vm_cast_no_check (eq_refl N)); clear R; rename R1 into R
  | tree_hruns (HAlloc ?M ?n ?k) ?s ?m ?a ?s' ?m' =>
      let n' := eval vm_compute in n in let N := eval vm_compute in (tfresh s) in let r := eval vm_compute in (alloc M n m) in
      lazymatch r with Ret ?b ?m1 => let R1 := fresh in
      assert (R1 : tree_hruns (k b N) (tree_block s b n') m1 a s' m') by (apply (thalloc_inv M n' k s m a s' m' b m1 N R); [vm_cast_no_check (eq_refl r)|vm_cast_no_check (eq_refl N)]); clear R; rename R1 into R end
  | tree_hruns (HPure ?c ?k) ?s ?m ?a ?s' ?m' =>
      let r := eval vm_compute in (c m) in lazymatch r with Ret ?y _ => let R1 := fresh in
      assert (R1 : tree_hruns (k y) s m a s' m') by (apply (thpure_inv c k s m a s' m' y R); vm_compute; reflexivity); clear R; rename R1 into R end
  end; thhead R.
(** if the byte has not been written, the end of the decoder does not return a box *)
Lemma tuninit_box (y : result unit) t bx u s s' m m' : nth_error (m 1) 0 = Some None ->
  ~ tree_hruns (a <~ (r <~ HReturn y ;; match r with
          | Ok _ => b <~ assume_init_b ({| x_block := 1; x_len := 1 |}, t) ;; HReturn (Ok (fst b), snd b)
          | Err => drop_box_b ({| x_block := 1; x_len := 1 |}, t) ;~; HReturn (Err, 0)
          end) ;; HBorrow Leave (fun _ => HReturn a)) s m (Ok bx, u) s' m'.
Proof.
  intros D R. destruct y as [y|]; thhead R.
  - apply thruns_inv in R as (z & E & _). unfold assume_init, bind in E. cbn [fst x_block x_len] in E.
    destruct (load (1, 0) 1 m) as [l m1| | |] eqn:EL; try discriminate E. apply load_ret in EL as (_ & _ & H). cbn [fst snd skipn] in H.
    destruct (m 1) as [|c r]; [discriminate D|]. injection D as ->. discriminate H.
  - apply thruns_inv in R as (s1 & m1 & _ & _ & R). thhead R. apply thruns_inv in R as (t1 & s2 & _ & R). apply thruns_inv in R as (E & _). discriminate E.
Qed.
(** a pointer that is not one of the block writes nothing there *)
Lemma run_absent {A} v (p : prog A) b o t u s m y s' m' : v b = Some t -> In u (path s t) -> perms s b o u = None -> tree_run v p s m = Some (y, s', m') ->
  nth_error (m' b) o = nth_error (m b) o.
Proof.
  intros V IU FR E. destruct (tree_run_cell v p b o t (fun st => st u = None) (fun _ => False) (nth_error (m b) o) (guarded s) (path s t) V) with (6 := @eq_refl _ (path s t)) (7 := E) as [[_ H]|[]]; auto.
  - intros st st' H R. apply read_acc_some in R as [_ R]. now rewrite R.
  - intros st st' H W. assert (WR : wr (guarded s) (path s t) st) by (apply write_acc_wr; congruence). destruct WR as [WR _]. specialize (WR u IU). rewrite H in WR. discriminate WR.
Qed.
Lemma targ_protects p n t s u s1 i : tperform (Retag MutRef true t p n) (after Enter s) = Some (u, s1) -> i < n ->
  In u (guarded s1) /\ perms s1 (fst p) (snd p + i) u <> None.
Proof.
  intros E Hi. cbn [tperform after] in E. cbn [perms path tfresh calls] in E. destruct (tacross _ _ _ _) as [st|] eqn:EA; [|discriminate E]. injection E as <- <-.
  split; [unfold guarded; cbn; now left|]. cbn [perms]. destruct (tacross_get _ _ _ _ _ (fst p) (snd p + i) EA) as [[R _]|[_ R]].
  - exfalso. assert (X : in_range (fst p) (snd p) n (fst p) (snd p + i) = true) by (apply in_range_iff; lia). congruence.
  - destruct (tvia _ _ _ _) as [st'|]; [|discriminate R]. injection R as <-. rewrite Nat.eqb_refl. discriminate.
Qed.
Lemma guarded_stays (s : trees) b n t u : 0 < n -> In u (guarded s) -> perms s b 0 u <> None -> tree_release s b n t = None.
Proof.
  intros L G P. unfold tree_release. destruct n as [|n]; [lia|]. cbn [seq forallb]. unfold tree_may_free at 1. destruct (write_acc _ _ _ _); [|now rewrite andb_false_r].
  assert (X : forallb (fun u => match perms s b 0 u with None => true | Some _ => false end) (guarded s) = false).
  { apply not_true_iff_false. rewrite forallb_forall. intro H. specialize (H u G). destruct (perms s b 0 u); [discriminate H|now apply P]. }
  rewrite X. now rewrite andb_false_r.
Qed.

(** ** Wrong programs, from PropBorrowsHeap.v *)
Lemma towner_reads n : tree_may_read towner (0, 0) n 0. Proof. intros i Hi. discriminate. Qed.
Theorem C88_const_refuted : ~ tree_new (of_res of_box) M64 (decode_box_const M64 Fallback) (hex_decode_to_boxed_bytes M64 Fallback) [52; 49]%Z.
Proof.
  intro B. destruct (hex_decode_to_boxed_bytes M64 Fallback (0, 0) 2 m41) as [r m'| | |] eqn:E; try (vm_compute in E; discriminate E).
  destruct (B m41 towner 0 0 0 m41_slice fits towner_ok ltac:(cbn; lia) (towner_reads 2) r m' E) as (u & s' & R & _).
  assert (D : r = Ok {| x_block := 1; x_len := 1 |}) by (vm_compute in E; now injection E as <- <-). subst r. clear E B.
  thhead R. repeat thstep R. apply thruns_inv in R as (p & y & s1 & m1 & _ & T & R). assert (D : nth_error (m1 1) 0 = Some None).
  { lazymatch type of T with tree_run ?v _ ?s _ = _ => let t := eval vm_compute in (v 1) in lazymatch t with Some ?t =>
      let l := eval vm_compute in (path s t) in
      let u := eval vm_compute in (match find (fun u => match perms s 1 0 u with Some TFrozen => true | _ => false end) l with Some u => u | None => 0 end) in
      rewrite (run_frozen v p 1 0 t u _ _ _ _ _ eq_refl) with (3 := T); [reflexivity|vm_compute; auto 9|vm_compute; reflexivity] end end. }
  exact (tuninit_box _ _ _ _ _ _ _ _ D R).
Qed.
Print Assumptions C88_const_refuted.
Theorem C88_inner_refuted : ~ tree_new (of_res of_box) M64 (decode_box_inner M64 Fallback) (hex_decode_to_boxed_bytes M64 Fallback) [52; 103]%Z.
Proof.
  intro B. assert (S : slice m4g 0 0 [52; 103]%Z).
  { split; [|split; [cbn; lia|reflexivity]]. constructor; [unfold byte; lia|]. constructor; [unfold byte; lia|constructor]. }
  destruct (hex_decode_to_boxed_bytes M64 Fallback (0, 0) 2 m4g) as [r m'| | |] eqn:E; try (vm_compute in E; discriminate E).
  destruct (B m4g towner 0 0 0 S fits towner_ok ltac:(cbn; lia) (towner_reads 2) r m' E) as (u & s' & R & _).
  assert (D : r = Err) by (vm_compute in E; now injection E as <- <-). subst r. clear E B.
  thhead R. repeat thstep R. apply thruns_inv in R as (p & y & s1 & m1 & FO & T & R). assert (K : y = Err /\ length (m1 1) = 1).
  { apply tree_run_run in T. rewrite (follows_imp _ _ FO) in T. vm_compute in T. injection T as <- <-. split; reflexivity. }
  destruct K as [-> LM]. thhead R. apply thruns_inv in R as (t & s2 & E & R). injection E as <- <-. thhead R. apply thruns_inv in R as (t & s3 & E & R). thhead R.
  apply thruns_inv in R as (s4 & m4 & ER & _).
  destruct (targ_protects _ _ _ s1 _ _ 0 E ltac:(cbn; lia)) as [G P]. cbn [fst snd x_block at_start Nat.add] in ER, P. rewrite LM in ER.
  rewrite (guarded_stays _ _ _ _ _ (le_n 1) G P) in ER. discriminate ER.
Qed.
Print Assumptions C88_inner_refuted.
Lemma mA_owned : tree_owns towner 2 1 0.
Proof. split; [cbn; lia|]. intros i Hi. reflexivity. Qed.
Theorem C88_append_stale_refuted : ~ tree_append (fun v => v) M64 (append_stale M64 Fallback Lower) (hex_encode_append_vec M64 Fallback Lower) [65]%Z.
Proof.
  intro B. assert (S : slice mA 0 0 [65]%Z).
  { split; [|split; [cbn; lia|reflexivity]]. constructor; [unfold byte; lia|constructor]. }
  destruct (hex_encode_append_vec M64 Fallback Lower (0, 0) 1 v2 mA) as [r m'| | |] eqn:E; try (vm_compute in E; discriminate E).
  destruct (B mA towner 0 0 v2 0 0 S ltac:(discriminate) ltac:(discriminate) ltac:(cbn; lia) towner_ok ltac:(cbn; lia) (towner_reads 1) mA_owned r m' E) as (u & s' & R & _).
  clear E B. thhead R. repeat thstep R.
  lazymatch type of R with tree_hruns (HGrow ?M ?v ?n ?t ?k) ?s ?m ?a ?s' ?m' => let n' := eval vm_compute in n in
    let N := eval vm_compute in (tfresh s) in let x := eval vm_compute in (reserve_exact M v n m) in
    lazymatch x with Ret ?w ?m1 => apply (fun H A B C => thgrow_inv M v n' t k s m a s' m' w m1 N H A B C) in R; [|vm_cast_no_check (eq_refl false)|vm_cast_no_check (eq_refl x)|vm_cast_no_check (eq_refl N)] end end.
  thhead R. repeat thstep R. apply thruns_inv in R as (p & y & s1 & m1 & _ & T & R).
  assert (D : nth_error (m1 1) 1 = Some None).
  { lazymatch type of T with tree_run ?v _ ?s _ = _ => let t := eval vm_compute in (v 1) in lazymatch t with Some ?t =>
      rewrite (run_absent v p 1 1 t t _ _ _ _ _ eq_refl) with (3 := T); [reflexivity|vm_compute; auto 9|vm_compute; reflexivity] end end. }
  thhead R. apply thruns_inv in R as (z & E & _). unfold set_len, bind in E. cbn [v_block v_len fst snd] in E. change (1 + Z.to_nat 2) with 3 in E.
  destruct (load (1, 0) 3 m1) as [l m2| | |] eqn:EL; try discriminate E. apply load_ret in EL as (_ & _ & H). cbn [fst snd skipn] in H.
  destruct (m1 1) as [|c [|c2 l2]]; try discriminate D. injection D as ->. cbn [firstn sequence] in H. destruct c; discriminate H.
Qed.
Print Assumptions C88_append_stale_refuted.

(** ** The hypotheses can be met *)
(** "41" decoded into a new box *)
Example C88_box_case : exists u s' m', tree_hruns (hex_decode_to_boxed_bytes_b M64 Fallback (0, 0) 2 0) towner m41 (Ok {| x_block := 1; x_len := 1 |}, u) s' m' /\
  m' 1 = [Some 65%Z] /\ tree_owns s' 1 1 u /\ tree_may_read s' (0, 0) 2 0.
Proof.
  destruct (hex_decode_to_boxed_bytes M64 Fallback (0, 0) 2 m41) as [r m'| | |] eqn:E; try (vm_compute in E; discriminate E).
  destruct (C88_hex_decode_to_boxed_bytes M64 Fallback _ m41 towner 0 0 0 m41_slice fits towner_ok ltac:(cbn; lia) (towner_reads 2) r m' E) as (u & s' & R & _ & RD & OW).
  vm_compute in E. injection E as <- <-. destruct OW as (_ & OW & _). exists u, s'. eexists. split; [exact R|]. split; [reflexivity|]. split; [exact OW|].
  apply RD; [cbn; lia|apply (towner_reads 2)].
Qed.
(** the vector moves *)
Example C88_append_case : exists u s' m', tree_hruns (hex_encode_append_vec_b M64 Fallback Lower (0, 0) 1 v2 0 0) towner mA ({| v_block := 1; v_len := 3 |}, u) s' m' /\
  m' 1 = [Some 7; Some 52; Some 49]%Z /\ m' 2 = [] /\ tree_owns s' 1 3 u.
Proof.
  assert (S : slice mA 0 0 [65]%Z).
  { split; [|split; [cbn; lia|reflexivity]]. constructor; [unfold byte; lia|constructor]. }
  destruct (hex_encode_append_vec M64 Fallback Lower (0, 0) 1 v2 mA) as [r m'| | |] eqn:E; try (vm_compute in E; discriminate E).
  destruct (C88_hex_encode_append_vec M64 Fallback Lower [65]%Z ltac:(discriminate) mA towner 0 0 v2 0 0 S ltac:(discriminate) ltac:(discriminate) ltac:(cbn; lia) towner_ok ltac:(cbn; lia)
    (towner_reads 1) mA_owned r m' E) as (u & s' & R & _ & _ & OW).
  vm_compute in E. injection E as <- <-. exists u, s'. eexists. split; [exact R|]. split; [reflexivity|]. split; [reflexivity|exact OW].
Qed.
(** the byte 65 encoded into a new string, which is then freed *)
Example C88_string_case : exists u s' m' s2, tree_hruns (to_string_b (hex_encode_to_boxed_str_b M64 Fallback Lower (0, 0) 1 0)) towner mA ({| v_block := 1; v_len := 2 |}, u) s' m' /\
  m' 1 = [Some 52; Some 49]%Z /\ tree_may_write s' (1, 0) 2 u /\ tree_hruns (hfree 1 u) s' m' tt s2 (upd m' 1 []).
Proof.
  assert (S : slice mA 0 0 [65]%Z).
  { split; [|split; [cbn; lia|reflexivity]]. constructor; [unfold byte; lia|constructor]. }
  destruct (hex_encode_to_string M64 Fallback Lower (0, 0) 1 mA) as [r m'| | |] eqn:E; try (vm_compute in E; discriminate E).
  destruct (C88_hex_encode_to_string M64 Fallback Lower [65]%Z ltac:(discriminate) mA towner 0 0 0 S ltac:(discriminate) towner_ok ltac:(cbn; lia) (towner_reads 1) r m' E)
    as (u & s' & R & _ & _ & OW).
  assert (D : exists s2, r = {| v_block := 1; v_len := 2 |} /\ tree_hruns (hfree 1 u) s' m' tt s2 (upd m' 1 [])).
  { assert (ER : r = {| v_block := 1; v_len := 2 |}) by (vm_compute in E; now injection E as <- <-). rewrite ER in OW. destruct OW as (_ & OW & _).
    destruct (C88_drop s' m' 1 u OW) as [s2 F]. eauto. }
  destruct D as (s2 & _ & F). vm_compute in E. injection E as <- <-. destruct OW as (_ & _ & WR). exists u, s'. eexists. exists s2. split; [exact R|]. split; [reflexivity|]. split; [exact WR|exact F].
Qed.
(** "Q Q" and "Q -" decoded into a new vector: the second one is not valid, and the vector is freed *)
Example C88_forgiving_case : exists u s' m', tree_hruns (forgiving_decode_to_vec_b M64 LE Fallback Fallback (0, 0) 3 0) towner (mQ 81) (Ok {| v_block := 1; v_len := 1 |}, u) s' m' /\
  firstn 1 (m' 1) = [Some 65%Z] /\ tree_owns s' 1 (length (m' 1)) u /\ tree_may_read s' (0, 0) 3 0.
Proof.
  destruct (forgiving_decode_to_vec M64 LE Fallback Fallback (0, 0) 3 (mQ 81)) as [r m'| | |] eqn:E; try (vm_compute in E; discriminate E).
  destruct (C88_forgiving_decode_to_vec M64 LE Fallback Fallback _ ltac:(now left) (mQ 81) towner 0 0 0 (mQ_slice 81 ltac:(unfold byte; lia)) ltac:(discriminate) towner_ok ltac:(cbn; lia)
    (towner_reads 3) r m' E) as (u & s' & R & _ & RD & OW).
  vm_compute in E. injection E as <- <-. destruct OW as (_ & OW & _). exists u, s'. eexists. split; [exact R|]. split; [reflexivity|]. split; [exact OW|].
  apply RD; [cbn; lia|apply (towner_reads 3)].
Qed.
Example C88_forgiving_fails : exists u s' m', tree_hruns (forgiving_decode_to_vec_b M64 LE Fallback Fallback (0, 0) 3 0) towner (mQ 45) (Err, u) s' m' /\ m' 1 = [] /\ tree_may_read s' (0, 0) 3 0.
Proof.
  destruct (forgiving_decode_to_vec M64 LE Fallback Fallback (0, 0) 3 (mQ 45)) as [r m'| | |] eqn:E; try (vm_compute in E; discriminate E).
  destruct (C88_forgiving_decode_to_vec M64 LE Fallback Fallback _ ltac:(now left) (mQ 45) towner 0 0 0 (mQ_slice 45 ltac:(unfold byte; lia)) ltac:(discriminate) towner_ok ltac:(cbn; lia)
    (towner_reads 3) r m' E) as (u & s' & R & _ & RD & _).
  vm_compute in E. injection E as <- <-. exists u, s'. eexists. split; [exact R|]. split; [reflexivity|]. apply RD; [cbn; lia|apply (towner_reads 3)].
Qed.
