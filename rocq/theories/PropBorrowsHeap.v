(** C86: the functions that allocate keep to Rust's aliasing rules too (Stacked Borrows, Borrows.v), and what they return may be
    used and freed. BorrowsHeap.v has the functions with the references they make ([borrows_new], [borrows_append]: whatever
    the caller's stacks of borrows hold, and whatever the allocator returns). *)
From Coq Require Import ZArith List Bool Lia.
From Verif Require Import Bytes Mem MemFacts Slices Codec Conc ConcFacts Reify Isa Simd SimdFacts Spec Ints Hex Base64 Base64Api Base32 Base32Api Forgiving Heap HeapFacts Public
  Borrows BorrowsApi BorrowsFacts BorrowsLib BorrowsCalls BorrowsBridge BorrowsBase64 BorrowsBase32 BorrowsForgiving PropBorrows
  BorrowsHeap BorrowsHeapFacts BorrowsHeapSteps BorrowsHeapCalls BorrowsHeapCodecs BorrowsHeapForgiving.
Import ListNotations.
Open Scope nat_scope. Open Scope m_scope. Open Scope borrow_scope. Open Scope heap_scope.

(** ** hex-simd *)
Theorem C86_hex_encode_to_boxed_str : forall M s case src, machine_ok M ->
  borrows_new of_box M (hex_encode_to_boxed_str_b M s case) (hex_encode_to_boxed_str M s case) src.
Proof. intros. apply box_new; [intros; apply hex_box_ann|now apply hex_box_good]. Qed.
Print Assumptions C86_hex_encode_to_boxed_str.
Theorem C86_hex_encode_append_vec : forall M s case src, machine_ok M ->
  borrows_append (fun v => v) M (hex_encode_append_vec_b M s case) (hex_encode_append_vec M s case) src.
Proof. intros. now apply hex_append_borrows. Qed.
Print Assumptions C86_hex_encode_append_vec.
Theorem C86_hex_decode_to_boxed_bytes : forall M s src,
  borrows_new (of_res of_box) M (hex_decode_to_boxed_bytes_b M s) (hex_decode_to_boxed_bytes M s) src.
Proof. intros. apply box_try; [intros; apply hex_try_ann|now apply hex_try_good]. Qed.
Print Assumptions C86_hex_decode_to_boxed_bytes.
Theorem C86_hex_decode_append_vec : forall M s src,
  borrows_append snd M (hex_decode_append_vec_b M s) (hex_decode_append_vec M s) src.
Proof. intros. now apply hex_try_append_borrows. Qed.
Print Assumptions C86_hex_decode_append_vec.
Theorem C86_hex_encode_to_string : forall M s case src, machine_ok M ->
  borrows_new of_vec M (fun p n t0 => to_string_b (hex_encode_to_boxed_str_b M s case p n t0)) (hex_encode_to_string M s case) src.
Proof. intros. apply vec_new; [intros; apply to_string_ann, hex_box_ann|now apply to_string_good, hex_box_good]. Qed.
Print Assumptions C86_hex_encode_to_string.
Theorem C86_hex_decode_to_vec : forall M s src,
  borrows_new (of_res of_vec) M (fun p n t0 => to_vec_b (hex_decode_to_boxed_bytes_b M s p n t0)) (hex_decode_to_vec M s) src.
Proof. intros. apply vec_try; [intros; apply to_vec_ann, hex_try_ann|now apply to_vec_good, hex_try_good]. Qed.
Print Assumptions C86_hex_decode_to_vec.

(** ** base64-simd *)
Theorem C86_base64_encode_to_boxed_str : forall M s cfg src, machine_ok M -> b64_isa s ->
  borrows_new of_box M (b64_encode_to_boxed_str_b M s cfg) (b64_encode_to_boxed_str M s cfg) src.
Proof. intros. apply box_new; [intros; apply b64_box_ann|now apply b64_box_good]. Qed.
Print Assumptions C86_base64_encode_to_boxed_str.
Theorem C86_base64_encode_append_vec : forall M s cfg src, machine_ok M -> b64_isa s ->
  borrows_append (fun v => v) M (b64_encode_append_vec_b M s cfg) (b64_encode_append_vec M s cfg) src.
Proof. intros. now apply b64_append_borrows. Qed.
Print Assumptions C86_base64_encode_append_vec.
Theorem C86_base64_decode_to_boxed_bytes : forall M en s cfg src, b64_isa s ->
  borrows_new (of_res of_box) M (b64_decode_to_boxed_bytes_b M en s cfg) (b64_decode_to_boxed_bytes M en s cfg) src.
Proof. intros. apply box_try; [intros; apply b64_try_ann|now apply b64_try_good]. Qed.
Print Assumptions C86_base64_decode_to_boxed_bytes.
Theorem C86_base64_decode_append_vec : forall M en s cfg src, b64_isa s ->
  borrows_append snd M (b64_decode_append_vec_b M en s cfg) (b64_decode_append_vec M en s cfg) src.
Proof. intros. now apply b64_try_append_borrows. Qed.
Print Assumptions C86_base64_decode_append_vec.
Theorem C86_base64_encode_to_string : forall M s cfg src, machine_ok M -> b64_isa s ->
  borrows_new of_vec M (fun p n t0 => to_string_b (b64_encode_to_boxed_str_b M s cfg p n t0)) (b64_encode_to_string M s cfg) src.
Proof. intros. apply vec_new; [intros; apply to_string_ann, b64_box_ann|now apply to_string_good, b64_box_good]. Qed.
Print Assumptions C86_base64_encode_to_string.
Theorem C86_base64_decode_to_vec : forall M en s cfg src, b64_isa s ->
  borrows_new (of_res of_vec) M (fun p n t0 => to_vec_b (b64_decode_to_boxed_bytes_b M en s cfg p n t0)) (b64_decode_to_vec M en s cfg) src.
Proof. intros. apply vec_try; [intros; apply to_vec_ann, b64_try_ann|now apply to_vec_good, b64_try_good]. Qed.
Print Assumptions C86_base64_decode_to_vec.

(** ** base32-simd *)
Theorem C86_base32_encode_to_boxed_str : forall M t s cfg src, machine_ok M -> b32_isa s ->
  borrows_new of_box M (b32_encode_to_boxed_str_b M t s cfg) (b32_encode_to_boxed_str M t s cfg) src.
Proof. intros. apply box_new; [intros; apply b32_box_ann|now apply b32_box_good]. Qed.
Print Assumptions C86_base32_encode_to_boxed_str.
Theorem C86_base32_encode_append_vec : forall M t s cfg src, machine_ok M -> b32_isa s ->
  borrows_append (fun v => v) M (b32_encode_append_vec_b M t s cfg) (b32_encode_append_vec M t s cfg) src.
Proof. intros. now apply b32_append_borrows. Qed.
Print Assumptions C86_base32_encode_append_vec.
Theorem C86_base32_decode_to_boxed_bytes : forall M t s cfg src, b32_isa s ->
  borrows_new (of_res of_box) M (b32_decode_to_boxed_bytes_b M t s cfg) (b32_decode_to_boxed_bytes M t s cfg) src.
Proof. intros. apply box_try; [intros; apply b32_try_ann|now apply b32_try_good]. Qed.
Print Assumptions C86_base32_decode_to_boxed_bytes.
Theorem C86_base32_decode_append_vec : forall M t s cfg src, b32_isa s ->
  borrows_append snd M (b32_decode_append_vec_b M t s cfg) (b32_decode_append_vec M t s cfg) src.
Proof. intros. now apply b32_try_append_borrows. Qed.
Print Assumptions C86_base32_decode_append_vec.
Theorem C86_base32_encode_to_string : forall M t s cfg src, machine_ok M -> b32_isa s ->
  borrows_new of_vec M (fun p n t0 => to_string_b (b32_encode_to_boxed_str_b M t s cfg p n t0)) (b32_encode_to_string M t s cfg) src.
Proof. intros. apply vec_new; [intros; apply to_string_ann, b32_box_ann|now apply to_string_good, b32_box_good]. Qed.
Print Assumptions C86_base32_encode_to_string.
Theorem C86_base32_decode_to_vec : forall M t s cfg src, b32_isa s ->
  borrows_new (of_res of_vec) M (fun p n t0 => to_vec_b (b32_decode_to_boxed_bytes_b M t s cfg p n t0)) (b32_decode_to_vec M t s cfg) src.
Proof. intros. apply vec_try; [intros; apply to_vec_ann, b32_try_ann|now apply to_vec_good, b32_try_good]. Qed.
Print Assumptions C86_base32_decode_to_vec.

(** ** base64_simd::forgiving_decode_to_vec *)
Theorem C86_forgiving_decode_to_vec : forall M en s1 s2 src, b64_isa s2 ->
  borrows_new (of_res of_vec) M (forgiving_decode_to_vec_b M en s1 s2) (forgiving_decode_to_vec M en s1 s2) src.
Proof. exact forgiving_vec_borrows. Qed.
Print Assumptions C86_forgiving_decode_to_vec.

(** ** The owner may free what it got *)
Theorem C86_drop : forall s (m : mem) b u, owns s b (length (m b)) u -> exists s', hruns (hfree b u) s m tt s' (upd m b []).
Proof. intros s m b u H. eexists. unfold hfree. eapply hruns_free; [now apply owns_release|reflexivity|constructor]. Qed.
Print Assumptions C86_drop.

(** ** What a run needs *)
Lemma hruns_inv {A} (x : hcode A) s m a s' m' : hruns x s m a s' m' ->
  match x with
  | HReturn a0 => a = a0 /\ s' = s /\ m' = m
  | HBorrow y k => exists t s1, perform y s = Some (t, s1) /\ hruns (k t) s1 m a s' m'
  | HExec v c k => exists p y s1 m1, follows c p /\ trun v p s m = Some (y, s1, m1) /\ hruns (k y) s1 m1 a s' m'
  | HPure c k => exists y, c m = Ret y m /\ hruns (k y) s m a s' m'
  | HAlloc M n k => exists b m1, alloc M n m = Ret b m1 /\ hruns (k b (fresh s)) (fresh_block s b n) m1 a s' m'
  | HGrow M v n t k => (v_len v + n <= length (m (v_block v)) /\ hruns (k v t) s m a s' m') \/
      exists w m1 s1, length (m (v_block v)) < v_len v + n /\ reserve_exact M v n m = Ret w m1 /\
        release s (v_block v) (length (m (v_block v))) t = Some s1 /\ hruns (k w (fresh s1)) (fresh_block s1 (v_block w) (length (m1 (v_block w)))) m1 a s' m'
  | HFree b t k => exists s1 m1, release s b (length (m b)) t = Some s1 /\ free b m = Ret tt m1 /\ hruns k s1 m1 a s' m'
  end.
Proof. intros []; eauto 9. Qed.

(** ** Wrong programs. Each does the same to memory as the function it stands for; none keeps to the rules. *)
(** the bytes of the new box are written through a pointer from [as_ptr] *)
Definition decode_box_const (M : machine) (s : isa) (p : ptr) (n ts : nat) : hcode (result boxed * nat) :=
  hfn (ts <~ lift (shared_param p n ts) ;;
       lift (slice_len p n ts) ;~;
       if n =? 0 then b <~ box_empty_b M ;; HReturn (Ok (fst b), snd b) else
       r <~ lift (hex_dl_b p n ts) ;;
       match r with
       | Err => HReturn (Err, 0)
       | Ok nm =>
           buf <~ alloc_uninit_bytes_b M (snd nm) ;;
           t <~ lift (reborrow (at_start (x_block (fst buf))) (x_len (fst buf)) (snd buf)) ;;
           td <~ lift (as_ptr (at_start (x_block (fst buf))) (x_len (fst buf)) t) ;;
           ts <~ lift (slice_parts p n ts) ;;
           r <~ hexec (via2 (fst p) ts (x_block (fst buf)) td) (hex_decode_impl s p (fst nm) (at_start (x_block (fst buf)))) ;;
           match r with
           | Err => drop_box_b buf ;~; HReturn (Err, 0)
           | Ok _ => b <~ assume_init_b buf ;; HReturn (Ok (fst b), snd b)
           end
       end).
(** the pointer is used after the box has been borrowed again *)
Definition decode_box_stale (M : machine) (s : isa) (p : ptr) (n ts : nat) : hcode (result boxed * nat) :=
  hfn (ts <~ lift (shared_param p n ts) ;;
       lift (slice_len p n ts) ;~;
       if n =? 0 then b <~ box_empty_b M ;; HReturn (Ok (fst b), snd b) else
       r <~ lift (hex_dl_b p n ts) ;;
       match r with
       | Err => HReturn (Err, 0)
       | Ok nm =>
           buf <~ alloc_uninit_bytes_b M (snd nm) ;;
           td <~ lift (as_mut_ptr (at_start (x_block (fst buf))) (x_len (fst buf)) (snd buf)) ;;
           lift (as_mut_ptr (at_start (x_block (fst buf))) (x_len (fst buf)) (snd buf)) ;~;
           ts <~ lift (slice_parts p n ts) ;;
           r <~ hexec (via2 (fst p) ts (x_block (fst buf)) td) (hex_decode_impl s p (fst nm) (at_start (x_block (fst buf)))) ;;
           match r with
           | Err => drop_box_b buf ;~; HReturn (Err, 0)
           | Ok _ => b <~ assume_init_b buf ;; HReturn (Ok (fst b), snd b)
           end
       end).
(** on failure the box is freed by a function that has a reference to its bytes as parameter *)
Definition decode_box_inner (M : machine) (s : isa) (p : ptr) (n ts : nat) : hcode (result boxed * nat) :=
  hfn (ts <~ lift (shared_param p n ts) ;;
       lift (slice_len p n ts) ;~;
       if n =? 0 then b <~ box_empty_b M ;; HReturn (Ok (fst b), snd b) else
       r <~ lift (hex_dl_b p n ts) ;;
       match r with
       | Err => HReturn (Err, 0)
       | Ok nm =>
           buf <~ alloc_uninit_bytes_b M (snd nm) ;;
           td <~ lift (as_mut_ptr (at_start (x_block (fst buf))) (x_len (fst buf)) (snd buf)) ;;
           ts <~ lift (slice_parts p n ts) ;;
           r <~ hexec (via2 (fst p) ts (x_block (fst buf)) td) (hex_decode_impl s p (fst nm) (at_start (x_block (fst buf)))) ;;
           match r with
           | Err => hfn (lift (mut_param (at_start (x_block (fst buf))) (x_len (fst buf)) (snd buf)) ;~; drop_box_b buf) ;~; HReturn (Err, 0)
           | Ok _ => b <~ assume_init_b buf ;; HReturn (Ok (fst b), snd b)
           end
       end).
(** the new bytes of the vector are written through the pointer it had before [reserve_exact] *)
Definition append_stale (M : machine) (s : isa) (case : ascii_case) (p : ptr) (n : nat) (v : vec) (ts tv : nat) : hcode (vec * nat) :=
  hfn (ts <~ lift (shared_param p n ts) ;;
       lift (slice_len p n ts) ;~;
       if n =? 0 then HReturn (v, tv) else
       lift (slice_len p n ts) ;~;
       m <~ hpure (usize M (Z.of_nat n * 2)) ;;
       hpure (assert_ (m <=? usize_limit M / 2)%Z) ;~;
       buf <~ hgrow M v (Z.to_nat m) tv ;;
       ts <~ lift (slice_parts p n ts) ;;
       dst <~ hpure (padd (v_block (fst buf), 0) (v_len (fst buf))) ;;
       hexec (via2 (fst p) ts (v_block (fst buf)) tv) (hex_encode_impl s p n dst case) ;~;
       w <~ hpure (set_len (fst buf) (v_len (fst buf) + Z.to_nat m)) ;; HReturn (w, snd buf)).

Lemma hex_box_shape M s p n : n <> 0 -> hex_decode_to_boxed_bytes M s p n = try_ (hex_dl p n) (fun nm => buf <- alloc_uninit_bytes M (snd nm) ;;
  try_drop (hex_decode_impl s p (fst nm) (x_block buf, 0)) (drop_box buf) (fun _ => b <- assume_init buf ;; ret (Ok b))).
Proof. intro H. unfold hex_decode_to_boxed_bytes, hex_dl. nonzero n H. cbn [Nat.eqb]. destruct (negb _); reflexivity. Qed.
Ltac wrong_box M s p n := apply hannotates_fn; do 2 (apply hannotates_borrow; [nox|]; intro); destruct (Nat.eqb_spec n 0) as [->|N];
  [apply (hannotates_bind fst _ _ fst (box_empty M) (fun b => ret (Ok b))); [apply empty_ann|]; intro; hret|];
  rewrite (hex_box_shape M s p n N); unfold try_; apply (hannotates_bind (fun a => a)); [apply hannotates_lift, hex_dl_ann|]; intros [nm|]; [|hret];
  apply (hannotates_bind fst); [apply alloc_ann|]; intros [buf t]; cbn [fst snd]; repeat (apply hannotates_borrow; [nox|]; intro);
  unfold try_drop; apply hannotates_exec; intros [x|]; [apply (hannotates_bind fst); [apply (assume_ann (buf, t))|]; intro; hret|].
Lemma decode_box_const_ann M s p n ts : hannotates fst (decode_box_const M s p n ts) (hex_decode_to_boxed_bytes M s p n).
Proof. wrong_box M s p n. cbn [drop_box_b hfree hbind hannotates]. exists (ret Err). split; [intro; reflexivity|hret]. Qed.
Lemma decode_box_stale_ann M s p n ts : hannotates fst (decode_box_stale M s p n ts) (hex_decode_to_boxed_bytes M s p n).
Proof. wrong_box M s p n. cbn [drop_box_b hfree hbind hannotates]. exists (ret Err). split; [intro; reflexivity|hret]. Qed.
Lemma decode_box_inner_ann M s p n ts : hannotates fst (decode_box_inner M s p n ts) (hex_decode_to_boxed_bytes M s p n).
Proof. wrong_box M s p n. cbn [drop_box_b hfn hfree hbind lift mut_param do_ hannotates fst snd]. intros. exists (ret Err). split; [intro; reflexivity|]. intros. reflexivity. Qed.
Lemma append_stale_ann M s case p n v ts tv : hannotates fst (append_stale M s case p n v ts tv) (hex_encode_append_vec M s case p n v).
Proof.
  unfold append_stale, hex_encode_append_vec. apply hannotates_fn. repeat (apply hannotates_borrow; [nox|]; intro). destruct (n =? 0); [hret|].
  apply hannotates_borrow; [nox|]. intros _. apply hannotates_pure. intro z. apply hannotates_pure. intros _. cbn [hgrow hbind hannotates fst snd].
  eexists. split; [intro; reflexivity|]. intros w t. apply hannotates_borrow; [nox|]. intro. apply hannotates_pure. intro d. apply hannotates_exec. intros [].
  apply (hannotates_ext _ _ (bind (set_len w (v_len w + Z.to_nat z)) (fun w => ret w))); [apply bind_ret_eq|]. apply hannotates_pure. intro. hret.
Qed.

Definition M64 : machine := {| pointer_bits := 64; overflow_checks := true; new_block := 1; spare := 0 |}.
Lemma fits : (Z.of_nat 2 <= isize_limit M64)%Z.
Proof. discriminate. Qed.
Lemma owner_reads : may_read owner (0, 0) 2 0.
Proof. intros i Hi. discriminate. Qed.
Definition tg (y : borrow) (s : borrows) : nat := match perform y s with Some (t, _) => t | None => 0 end.
Definition nxt (y : borrow) (s : borrows) : borrows := match perform y s with Some (_, s1) => s1 | None => s end.
Lemma hborrow_inv {A} y (k : nat -> hcode A) s m a s' m' N : hruns (HBorrow y k) s m a s' m' -> tg y s = N -> hruns (k N) (nxt y s) m a s' m'.
Proof. intros R <-. apply hruns_inv in R as (t & s1 & E & R). unfold tg, nxt. now rewrite E. Qed.
Lemma halloc_inv {A} M n (k : nat -> nat -> hcode A) s m a s' m' b m1 N : hruns (HAlloc M n k) s m a s' m' -> alloc M n m = Ret b m1 -> fresh s = N ->
  hruns (k b N) (fresh_block s b n) m1 a s' m'.
Proof. intros R E <-. apply hruns_inv in R as (b0 & m0 & E0 & R). rewrite E in E0. now injection E0 as <- <-. Qed.
Lemma hpure_inv {A X} (c : Mem.M X) (k : X -> hcode A) s m a s' m' y : hruns (HPure c k) s m a s' m' -> c m = Ret y m -> hruns (k y) s m a s' m'.
Proof. intros R E. apply hruns_inv in R as (y0 & E0 & R). rewrite E in E0. now injection E0 as <-. Qed.
Definition rel (s : borrows) (b n t : nat) : borrows := match release s b n t with Some s1 => s1 | None => s end.
Lemma hgrow_inv {A} M v n t (k : vec -> nat -> hcode A) s m a s' m' w m1 l N : hruns (HGrow M v n t k) s m a s' m' -> (v_len v + n <=? length (m (v_block v))) = false ->
  length (m (v_block v)) = l -> reserve_exact M v n m = Ret w m1 -> fresh s = N ->
  hruns (k w N) (fresh_block (rel s (v_block v) l t) (v_block w) (length (m1 (v_block w)))) m1 a s' m'.
Proof.
  intros R L <- E <-. apply Nat.leb_gt in L. apply hruns_inv in R as [[C _]|(w0 & m0 & s1 & _ & E0 & ER & R)]; [lia|]. rewrite E in E0. injection E0 as <- <-.
  unfold rel. rewrite ER. unfold release in ER. destruct (forallb _ _); [|discriminate ER]. injection ER as <-. exact R.
Qed.
Ltac hhead R := lazymatch type of R with hruns ?x ?s ?m ?a ?s' ?m' => let x' := eval hnf in x in change (hruns x' s m a s' m') in R end.
Ltac hstep R := lazymatch type of R with
  | hruns (HBorrow ?y ?k) ?s ?m ?a ?s' ?m' =>
      let y' := eval vm_compute in y in let N := eval vm_compute in (tg y' s) in let R1 := fresh in
      assert (R1 : hruns (k N) (nxt y' s) m a s' m') by (apply (hborrow_inv y' k s m a s' m' N R); vm_cast_no_check (eq_refl N)); clear R; rename R1 into R
  | hruns (HAlloc ?M ?n ?k) ?s ?m ?a ?s' ?m' =>
      let n' := eval vm_compute in n in let N := eval vm_compute in (fresh s) in let r := eval vm_compute in (alloc M n m) in
      lazymatch r with Ret ?b ?m1 => let R1 := fresh in
      assert (R1 : hruns (k b N) (fresh_block s b n') m1 a s' m') by (apply (halloc_inv M n' k s m a s' m' b m1 N R); [vm_cast_no_check (eq_refl r)|vm_cast_no_check (eq_refl N)]); clear R; rename R1 into R end
  | hruns (HPure ?c ?k) ?s ?m ?a ?s' ?m' =>
      let r := eval vm_compute in (c m) in lazymatch r with Ret ?y _ => let R1 := fresh in
      assert (R1 : hruns (k y) s m a s' m') by (apply (hpure_inv c k s m a s' m' y R); vm_compute; reflexivity); clear R; rename R1 into R end
  end; hhead R.
Lemma no_write_of (v : view) s b o : match v b with Some t => forallb (fun i => negb (grants true t i)) (stacks s b o) | None => true end = true -> no_write v s b o.
Proof. intros H t i E Hi. rewrite E, forallb_forall in H. now apply negb_true_iff, H. Qed.
(** if the byte has not been written, the end of the decoder does not return a box *)
Lemma uninit_box (y : result unit) t bx u s s' m m' : nth_error (m 1) 0 = Some None ->
  ~ hruns (a <~ (r <~ HReturn y ;; match r with
          | Ok _ => b <~ assume_init_b ({| x_block := 1; x_len := 1 |}, t) ;; HReturn (Ok (fst b), snd b)
          | Err => drop_box_b ({| x_block := 1; x_len := 1 |}, t) ;~; HReturn (Err, 0)
          end) ;; HBorrow Leave (fun _ => HReturn a)) s m (Ok bx, u) s' m'.
Proof.
  intros D R. destruct y as [y|]; hhead R.
  - apply hruns_inv in R as (z & E & _). unfold assume_init, bind in E. cbn [fst x_block x_len] in E.
    destruct (load (1, 0) 1 m) as [l m1| | |] eqn:EL; try discriminate E. apply load_ret in EL as (_ & _ & H). cbn [fst snd skipn] in H.
    destruct (m 1) as [|c r]; [discriminate D|]. injection D as ->. discriminate H.
  - apply hruns_inv in R as (s1 & m1 & _ & _ & R). hhead R. apply hruns_inv in R as (t1 & s2 & _ & R). apply hruns_inv in R as (E & _). discriminate E.
Qed.
Theorem C86_const_refuted : ~ borrows_new (of_res of_box) M64 (decode_box_const M64 Fallback) (hex_decode_to_boxed_bytes M64 Fallback) [52; 49]%Z.
Proof.
  intro B. destruct (hex_decode_to_boxed_bytes M64 Fallback (0, 0) 2 m41) as [r m'| | |] eqn:E; try (vm_compute in E; discriminate E).
  destruct (B m41 owner 0 0 0 m41_slice fits owner_ok ltac:(cbn; lia) owner_reads r m' E) as (u & s' & R & _).
  assert (D : r = Ok {| x_block := 1; x_len := 1 |}) by (vm_compute in E; now injection E as <- <-). subst r. clear E B.
  hhead R. repeat hstep R. apply hruns_inv in R as (p & y & s1 & m1 & _ & T & R). assert (D : nth_error (m1 1) 0 = Some None).
  { rewrite (trun_no_write _ _ 1 0 _ _ _ _ _ T); [reflexivity|]. apply no_write_of. vm_cast_no_check (eq_refl true). }
  exact (uninit_box _ _ _ _ _ _ _ _ D R).
Qed.
Print Assumptions C86_const_refuted.
Theorem C86_stale_refuted : ~ borrows_new (of_res of_box) M64 (decode_box_stale M64 Fallback) (hex_decode_to_boxed_bytes M64 Fallback) [52; 49]%Z.
Proof.
  intro B. destruct (hex_decode_to_boxed_bytes M64 Fallback (0, 0) 2 m41) as [r m'| | |] eqn:E; try (vm_compute in E; discriminate E).
  destruct (B m41 owner 0 0 0 m41_slice fits owner_ok ltac:(cbn; lia) owner_reads r m' E) as (u & s' & R & _).
  assert (D : r = Ok {| x_block := 1; x_len := 1 |}) by (vm_compute in E; now injection E as <- <-). subst r. clear E B.
  hhead R. repeat hstep R. apply hruns_inv in R as (p & y & s1 & m1 & _ & T & R). assert (D : nth_error (m1 1) 0 = Some None).
  { rewrite (trun_no_write _ _ 1 0 _ _ _ _ _ T); [reflexivity|]. apply no_write_of. vm_cast_no_check (eq_refl true). }
  exact (uninit_box _ _ _ _ _ _ _ _ D R).
Qed.
Print Assumptions C86_stale_refuted.
Lemma arg_protects k p n t s u s1 i : perform (Retag k true t p n) (enter s) = Some (u, s1) -> i < n -> k = MutRef -> active s1 = fresh s :: active s /\
  existsb (protected (active s1)) (stacks s1 (fst p) (snd p + i)) = true.
Proof.
  intros E Hi ->. cbn [perform enter stacks active fresh hd_error] in E. destruct (across _ _ _ _) as [st|] eqn:EA; [|discriminate E]. injection E as _ <-.
  cbn [active stacks]. split; [reflexivity|]. apply across_some in EA as [EA _]. specialize (EA i Hi). cbn [retag_at] in EA. destruct (write_at _ _ _) as [r|]; [|discriminate EA].
  injection EA as <-. cbn [existsb protected i_call]. now rewrite Nat.eqb_refl.
Qed.
Definition m4g : mem := fun b => if b =? 0 then [Some 52; Some 103]%Z else [].
Theorem C86_inner_refuted : ~ borrows_new (of_res of_box) M64 (decode_box_inner M64 Fallback) (hex_decode_to_boxed_bytes M64 Fallback) [52; 103]%Z.
Proof.
  intro B. assert (S : slice m4g 0 0 [52; 103]%Z).
  { split; [|split; [cbn; lia|reflexivity]]. constructor; [unfold byte; lia|]. constructor; [unfold byte; lia|constructor]. }
  destruct (hex_decode_to_boxed_bytes M64 Fallback (0, 0) 2 m4g) as [r m'| | |] eqn:E; try (vm_compute in E; discriminate E).
  destruct (B m4g owner 0 0 0 S fits owner_ok ltac:(cbn; lia) owner_reads r m' E) as (u & s' & R & _).
  assert (D : r = Err) by (vm_compute in E; now injection E as <- <-). subst r. clear E B.
  hhead R. repeat hstep R. apply hruns_inv in R as (p & y & s1 & m1 & FO & T & R). assert (K : y = Err /\ length (m1 1) = 1).
  { apply trun_run in T. rewrite (follows_imp _ _ FO) in T. vm_compute in T. injection T as <- <-. split; reflexivity. }
  destruct K as [-> LM]. hhead R. apply hruns_inv in R as (t & s2 & E & R). injection E as <- <-. hhead R. apply hruns_inv in R as (t & s3 & E & R). hhead R.
  apply hruns_inv in R as (s4 & m4 & ER & _).
  destruct (arg_protects _ _ _ _ _ _ _ 0 E ltac:(cbn; lia) eq_refl) as [_ EP]. unfold release in ER. cbn [fst snd x_block] in ER. rewrite LM in ER. cbn [seq forallb] in ER.
  unfold may_free in ER. cbn [fst snd at_start Nat.add x_block] in EP. rewrite EP in ER. destruct (locate _ _ _); discriminate ER.
Qed.
Print Assumptions C86_inner_refuted.
(** one byte to encode, and a vector that has to grow *)
Definition mA : mem := fun b => if b =? 0 then [Some 65]%Z else if b =? 2 then [Some 7]%Z else [].
Definition v2 : vec := {| v_block := 2; v_len := 1 |}.
Theorem C86_append_stale_refuted : ~ borrows_append (fun v => v) M64 (append_stale M64 Fallback Lower) (hex_encode_append_vec M64 Fallback Lower) [65]%Z.
Proof.
  intro B. assert (S : slice mA 0 0 [65]%Z).
  { split; [|split; [cbn; lia|reflexivity]]. constructor; [unfold byte; lia|constructor]. }
  assert (VO : vec_owned owner mA v2 0) by (split; intros i Hi; [reflexivity|do 2 eexists; split; reflexivity]).
  destruct (hex_encode_append_vec M64 Fallback Lower (0, 0) 1 v2 mA) as [r m'| | |] eqn:E; try (vm_compute in E; discriminate E).
  destruct (B mA owner 0 0 v2 0 0 S ltac:(discriminate) ltac:(discriminate) ltac:(cbn; lia) owner_ok ltac:(cbn; lia) ltac:(cbn; lia) ltac:(intros i Hi; discriminate) VO r m' E) as (u & s' & R & _).
  clear E B. hhead R. repeat hstep R.
  lazymatch type of R with hruns (HGrow ?M ?v ?n ?t ?k) ?s ?m ?a ?s' ?m' => let n' := eval vm_compute in n in
    let N := eval vm_compute in (fresh s) in let x := eval vm_compute in (reserve_exact M v n m) in
    lazymatch x with Ret ?w ?m1 => apply (fun H A B C D => hgrow_inv M v n' t k s m a s' m' w m1 1 N H A B C D) in R; [|vm_cast_no_check (eq_refl false)|reflexivity|vm_cast_no_check (eq_refl x)|vm_cast_no_check (eq_refl N)] end end.
  hhead R. repeat hstep R. apply hruns_inv in R as (p & y & s1 & m1 & _ & T & R).
  assert (D : nth_error (m1 1) 1 = Some None).
  { rewrite (trun_no_write _ _ 1 1 _ _ _ _ _ T); [reflexivity|]. apply no_write_of. vm_cast_no_check (eq_refl true). }
  hhead R. apply hruns_inv in R as (z & E & _). unfold set_len, bind in E. cbn [v_block v_len fst snd] in E. change (1 + Z.to_nat 2) with 3 in E.
  destruct (load (1, 0) 3 m1) as [l m2| | |] eqn:EL; try discriminate E. apply load_ret in EL as (_ & _ & H). cbn [fst snd skipn] in H.
  destruct (m1 1) as [|c [|c2 l2]]; try discriminate D. injection D as ->. cbn [firstn sequence] in H. destruct c; discriminate H.
Qed.
Print Assumptions C86_append_stale_refuted.

(** ** The hypotheses can be met *)
(** "41" decoded into a new box *)
Example C86_box_case : exists u s' m', hruns (hex_decode_to_boxed_bytes_b M64 Fallback (0, 0) 2 0) owner m41 (Ok {| x_block := 1; x_len := 1 |}, u) s' m' /\
  m' 1 = [Some 65%Z] /\ owns s' 1 1 u /\ may_read s' (0, 0) 2 0.
Proof.
  destruct (hex_decode_to_boxed_bytes M64 Fallback (0, 0) 2 m41) as [r m'| | |] eqn:E; try (vm_compute in E; discriminate E).
  destruct (C86_hex_decode_to_boxed_bytes M64 Fallback _ m41 owner 0 0 0 m41_slice fits owner_ok ltac:(cbn; lia) owner_reads r m' E) as (u & s' & R & _ & RD & OW).
  vm_compute in E. injection E as <- <-. destruct OW as (_ & OW & _). exists u, s'. eexists. split; [exact R|]. split; [reflexivity|]. split; [exact OW|exact RD].
Qed.
(** the vector moves: the old pointer is of no use, the new one is *)
Example C86_append_case : exists u s' m', hruns (hex_encode_append_vec_b M64 Fallback Lower (0, 0) 1 v2 0 0) owner mA ({| v_block := 1; v_len := 3 |}, u) s' m' /\
  m' 1 = [Some 7; Some 52; Some 49]%Z /\ m' 2 = [] /\ owns s' 1 3 u.
Proof.
  assert (S : slice mA 0 0 [65]%Z).
  { split; [|split; [cbn; lia|reflexivity]]. constructor; [unfold byte; lia|constructor]. }
  assert (VO : vec_owned owner mA v2 0) by (split; intros i Hi; [reflexivity|do 2 eexists; split; reflexivity]).
  destruct (hex_encode_append_vec M64 Fallback Lower (0, 0) 1 v2 mA) as [r m'| | |] eqn:E; try (vm_compute in E; discriminate E).
  destruct (C86_hex_encode_append_vec M64 Fallback Lower [65]%Z ltac:(discriminate) mA owner 0 0 v2 0 0 S ltac:(discriminate) ltac:(discriminate) ltac:(cbn; lia) owner_ok ltac:(cbn; lia) ltac:(cbn; lia)
    ltac:(intros i Hi; discriminate) VO r m' E) as (u & s' & R & _ & _ & _ & OW & _).
  vm_compute in E. injection E as <- <-. exists u, s'. eexists. split; [exact R|]. split; [reflexivity|]. split; [reflexivity|exact OW].
Qed.
(** "Q Q": the vector is kept on success; "Q -": it is freed on failure *)
Definition mQ (c : Z) : mem := fun b => if b =? 0 then [Some 81; Some 32; Some c]%Z else [].
Lemma mQ_slice c : byte c -> slice (mQ c) 0 0 [81; 32; c]%Z.
Proof. intro B. split; [|split; [cbn; lia|reflexivity]]. constructor; [unfold byte; lia|]. constructor; [unfold byte; lia|]. constructor; [exact B|constructor]. Qed.
Example C86_forgiving_case : exists u s' m', hruns (forgiving_decode_to_vec_b M64 LE Fallback Fallback (0, 0) 3 0) owner (mQ 81) (Ok {| v_block := 1; v_len := 1 |}, u) s' m' /\
  firstn 1 (m' 1) = [Some 65%Z] /\ owns s' 1 (length (m' 1)) u /\ may_read s' (0, 0) 3 0.
Proof.
  destruct (forgiving_decode_to_vec M64 LE Fallback Fallback (0, 0) 3 (mQ 81)) as [r m'| | |] eqn:E; try (vm_compute in E; discriminate E).
  destruct (C86_forgiving_decode_to_vec M64 LE Fallback Fallback _ ltac:(now left) (mQ 81) owner 0 0 0 (mQ_slice 81 ltac:(unfold byte; lia)) ltac:(discriminate) owner_ok ltac:(cbn; lia)
    ltac:(intros i Hi; discriminate) r m' E) as (u & s' & R & _ & RD & OW).
  vm_compute in E. injection E as <- <-. destruct OW as (_ & OW & _). exists u, s'. eexists. split; [exact R|]. split; [reflexivity|]. split; [exact OW|exact RD].
Qed.
Example C86_forgiving_fails : exists u s' m', hruns (forgiving_decode_to_vec_b M64 LE Fallback Fallback (0, 0) 3 0) owner (mQ 45) (Err, u) s' m' /\ m' 1 = [] /\ may_read s' (0, 0) 3 0.
Proof.
  destruct (forgiving_decode_to_vec M64 LE Fallback Fallback (0, 0) 3 (mQ 45)) as [r m'| | |] eqn:E; try (vm_compute in E; discriminate E).
  destruct (C86_forgiving_decode_to_vec M64 LE Fallback Fallback _ ltac:(now left) (mQ 45) owner 0 0 0 (mQ_slice 45 ltac:(unfold byte; lia)) ltac:(discriminate) owner_ok ltac:(cbn; lia)
    ltac:(intros i Hi; discriminate) r m' E) as (u & s' & R & _ & RD & _).
  vm_compute in E. injection E as <- <-. exists u, s'. eexists. split; [exact R|]. split; [reflexivity|exact RD].
Qed.
(** the byte 65 encoded into a new string *)
Example C86_string_case : exists u s' m', hruns (to_string_b (hex_encode_to_boxed_str_b M64 Fallback Lower (0, 0) 1 0)) owner mA ({| v_block := 1; v_len := 2 |}, u) s' m' /\
  m' 1 = [Some 52; Some 49]%Z /\ owns s' 1 2 u /\ may_write s' (1, 0) 2 u /\ may_read s' (0, 0) 1 0.
Proof.
  assert (S : slice mA 0 0 [65]%Z).
  { split; [|split; [cbn; lia|reflexivity]]. constructor; [unfold byte; lia|constructor]. }
  destruct (hex_encode_to_string M64 Fallback Lower (0, 0) 1 mA) as [r m'| | |] eqn:E; try (vm_compute in E; discriminate E).
  destruct (C86_hex_encode_to_string M64 Fallback Lower [65]%Z ltac:(discriminate) mA owner 0 0 0 S ltac:(discriminate) owner_ok ltac:(cbn; lia) ltac:(intros i Hi; discriminate) r m' E)
    as (u & s' & R & _ & RD & OW).
  vm_compute in E. injection E as <- <-. destruct OW as (_ & OW & WR). exists u, s'. eexists. split; [exact R|]. split; [reflexivity|]. split; [exact OW|]. split; [exact WR|exact RD].
Qed.
