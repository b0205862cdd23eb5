(** C86 and C84 for the functions of uuid-simd/src/ext.rs and for [from_ascii]: they keep to Rust's aliasing rules (Stacked
    Borrows, Borrows.v). BorrowsExt.v has the functions with the references they make. *)
From Coq Require Import ZArith List Bool Lia.
From Verif Require Import Bytes Mem MemFacts Slices Codec Conc ConcFacts Reify Isa Simd SimdFacts Spec Ints Hex Uuid UuidFacts UuidApi Unicode Heap HeapFacts Public
  Borrows BorrowsApi BorrowsFacts BorrowsLib BorrowsCalls BorrowsBridge BorrowsUuid BorrowsUnicode PropBorrows
  BorrowsHeap BorrowsHeapFacts BorrowsHeapSteps BorrowsHeapCalls PropBorrowsHeap BorrowsExt BorrowsExtFacts.
Import ListNotations.
Open Scope nat_scope. Open Scope m_scope. Open Scope borrow_scope. Open Scope heap_scope.

(** ** uuid-simd/src/ext.rs; nothing that was allocated is returned *)
Theorem C86_uuid_ext_parse : forall M s1 s2 src, hyph_isa s2 -> borrows_new (fun _ => None) M (ext_parse_b M s1 s2) (ext_parse M s1 s2) src.
Proof. exact ext_parse_borrows. Qed.
Print Assumptions C86_uuid_ext_parse.
Theorem C86_uuid_ext_parse_simple : forall M s src, borrows_new (fun _ => None) M (ext_parse_simple_b M s) (ext_parse_simple M s) src.
Proof. exact ext_parse_simple_borrows. Qed.
Print Assumptions C86_uuid_ext_parse_simple.
Theorem C86_uuid_ext_parse_hyphenated : forall M s src, hyph_isa s ->
  borrows_new (fun _ => None) M (ext_parse_hyphenated_b M s) (ext_parse_hyphenated M s) src.
Proof. exact ext_parse_hyphenated_borrows. Qed.
Print Assumptions C86_uuid_ext_parse_hyphenated.
(** [LowerHex], [UpperHex] and [Display] of [Simple] and [Hyphenated] *)
Theorem C86_uuid_simple_hex : forall (R : Type) M s (g : list Z -> R) src, length src = 16 ->
  borrows_new (fun _ => None) M (fun p _ => simple_hex_b M s Lower g p) (fun p _ => simple_lower_hex M s p g) src /\
  borrows_new (fun _ => None) M (fun p _ => simple_hex_b M s Upper g p) (fun p _ => simple_upper_hex M s p g) src /\
  borrows_new (fun _ => None) M (fun p _ => simple_hex_b M s Lower g p) (fun p _ => simple_display M s p g) src.
Proof. intros R M s g src L. split; [|split]; exact (simple_hex_borrows M s _ g src L). Qed.
Print Assumptions C86_uuid_simple_hex.
Theorem C86_uuid_hyphenated_hex : forall (R : Type) M s (g : list Z -> R) src, hyph_isa s -> length src = 16 ->
  borrows_new (fun _ => None) M (fun p _ => hyphenated_hex_b M s Lower g p) (fun p _ => hyphenated_lower_hex M s p g) src /\
  borrows_new (fun _ => None) M (fun p _ => hyphenated_hex_b M s Upper g p) (fun p _ => hyphenated_upper_hex M s p g) src /\
  borrows_new (fun _ => None) M (fun p _ => hyphenated_hex_b M s Lower g p) (fun p _ => hyphenated_display M s p g) src.
Proof. intros R M s g src Hs L. split; [|split]; exact (hyphenated_hex_borrows M s _ g src Hs L). Qed.
Print Assumptions C86_uuid_hyphenated_hex.

(** ** unicode-simd *)
Theorem C84_from_ascii : forall x64 s src, borrows_view (fun r => r) (from_ascii_b x64 s) (from_ascii x64 s) src.
Proof. exact from_ascii_borrows. Qed.
Print Assumptions C84_from_ascii.

(** ** Wrong programs. Each does the same to memory as the function it stands for; none keeps to the rules. *)
(** the variable is written through a pointer from [MaybeUninit::as_ptr] *)
Definition parse_uuid_const (M : machine) (s : isa) (p : ptr) (n ts : nat) : hcode (result (list Z) * nat) :=
  hfn (ts <~ lift (shared_param p n ts) ;;
       a <~ halloc M 16 ;;
       td <~ lift (as_ptr (at_start (fst a)) 16 (snd a)) ;;
       r <~ lift (uuid_parse_simple_b s p n (at_start (fst a)) ts td) ;;
       match fst r with
       | Err => hfree (fst a) (snd a) ;~; HReturn (Err, 0)
       | Ok _ => u <~ hexec (via1 (fst a) (snd a)) (load (at_start (fst a)) 16) ;; hfree (fst a) (snd a) ;~; HReturn (Ok u, 0)
       end).
Lemma parse_uuid_const_ann M s p n ts : hannotates fst (parse_uuid_const M s p n ts) (ext_parse_simple M s p n).
Proof.
  unfold parse_uuid_const, ext_parse_simple, parse_uuid. apply hannotates_fn. apply hannotates_borrow; [nox|]. intro u. cbn [halloc hbind fst snd hannotates].
  eexists. split; [intro; reflexivity|]. intros b t. cbv beta. apply hannotates_borrow; [nox|]. intro td.
  apply (hannotates_bind fst); [apply hannotates_lift, uuid_parse_simple_ann|]. intros [[y|] r]; cbn [fst snd].
  - apply hannotates_exec. intro l. cbn [hfree hbind hannotates]. eexists. split; [intro; reflexivity|]. hret.
  - cbn [hfree hbind hannotates]. eexists. split; [intro; reflexivity|]. hret.
Qed.
(** 32 digits "0" *)
Definition digits : list Z := repeat 48%Z 32.
Definition mD : mem := fun b => if b =? 0 then map Some digits else [].
Lemma mD_slice : slice mD 0 0 digits.
Proof. split; [|split; [cbn; lia|reflexivity]]. apply Forall_forall. intros x Hx. apply repeat_spec in Hx. subst. unfold byte. lia. Qed.
Theorem C86_uuid_const_refuted : ~ borrows_new (fun _ => None) M64 (parse_uuid_const M64 Fallback) (ext_parse_simple M64 Fallback) digits.
Proof.
  intro B. destruct (ext_parse_simple M64 Fallback (0, 0) 32 mD) as [r m'| | |] eqn:E; try (vm_compute in E; discriminate E).
  destruct (B mD owner 0 0 0 mD_slice ltac:(discriminate) owner_ok ltac:(cbn; lia) ltac:(intros i Hi; discriminate) r m' E) as (u & s' & R & _).
  assert (D : r = Ok (repeat 0%Z 16)) by (vm_compute in E; now injection E as <- <-). subst r. clear E B.
  hhead R. repeat hstep R. apply hruns_inv in R as (p & y & s1 & m1 & FO & T & R). assert (D : nth_error (m1 1) 0 = Some None).
  { rewrite (trun_no_write _ _ 1 0 _ _ _ _ _ T); [reflexivity|]. apply no_write_of. vm_cast_no_check (eq_refl true). }
  apply trun_run in T. rewrite (follows_imp _ _ FO) in T.
  assert (K : exists y0, parse_simple_impl Fallback (0, 0) (1, 0) (upd mD 1 (repeat None 16)) = Ret y0 m1) by (exists y; exact T).
  destruct K as (y0 & K). vm_compute in K. injection K as _ <-. discriminate D.
Qed.
Print Assumptions C86_uuid_const_refuted.
(** the string is made from a [&mut] that comes from the [&] *)
Definition from_ascii_mut (x64 : bool) (s : isa) (p : ptr) (n ts : nat) : bcode (option (ptr * nat) * nat) :=
  fn (ts <== shared_param p n ts ;;
      t <== reborrow_mut p n ts ;;
      u <== reborrow p n t ;;
      b <== is_ascii_b x64 s p n u ;;
      if b : bool then u <== from_utf8_unchecked p n t ;; Return (Some (p, n), u) else Return (None, 0)).
Lemma from_ascii_mut_ann x64 s p n t : annotates fst (from_ascii_mut x64 s p n t) (from_ascii x64 s p n).
Proof. unfold from_ascii_mut, from_ascii, is_ascii_b, from_utf8_unchecked. ann. eexists. split; [intro; reflexivity|]. intros []; ann. Qed.
Theorem C84_from_ascii_mut_refuted : ~ borrows_view (fun r => r) (from_ascii_mut true Fallback) (from_ascii true Fallback) [52; 49]%Z.
Proof.
  intro B. destruct (B m41 owner 0 0 0 m41_slice owner_ok ltac:(cbn; lia) owner_reads) as (r & u & s' & R & _). unfold from_ascii_mut, fn, shared_param, reborrow_mut, do_ in R. cbn [bbind] in R.
  apply runs_inv in R as (t1 & s1 & E1 & R). injection E1 as <- <-. apply runs_inv in R as (t2 & s2 & E2 & R). vm_compute in E2. injection E2 as <- <-.
  apply runs_inv in R as (t3 & s3 & E3 & _). vm_compute in E3. discriminate E3.
Qed.
Print Assumptions C84_from_ascii_mut_refuted.

(** ** The hypotheses can be met *)
Example C86_uuid_parse_case : exists u s' m', hruns (ext_parse_b M64 Fallback Fallback (0, 0) 32 0) owner mD (Ok (repeat 0%Z 16), u) s' m' /\ m' 1 = [] /\ may_read s' (0, 0) 32 0.
Proof.
  destruct (ext_parse M64 Fallback Fallback (0, 0) 32 mD) as [r m'| | |] eqn:E; try (vm_compute in E; discriminate E).
  destruct (C86_uuid_ext_parse M64 Fallback Fallback digits ltac:(now left) mD owner 0 0 0 mD_slice ltac:(discriminate) owner_ok ltac:(cbn; lia) ltac:(intros i Hi; discriminate) r m' E) as (u & s' & R & _ & RD & _).
  vm_compute in E. injection E as <- <-. exists u, s'. eexists. split; [exact R|]. split; [reflexivity|exact RD].
Qed.
(** 31 digits are refused, and the variable is freed *)
Definition m31 : mem := fun b => if b =? 0 then map Some (repeat 48%Z 31) else [].
Example C86_uuid_parse_fails : exists u s' m', hruns (ext_parse_simple_b M64 Fallback (0, 0) 31 0) owner m31 (Err, u) s' m' /\ m' 1 = [] /\ may_read s' (0, 0) 31 0.
Proof.
  assert (S : slice m31 0 0 (repeat 48%Z 31)). { split; [|split; [cbn; lia|reflexivity]]. apply Forall_forall. intros x Hx. apply repeat_spec in Hx. subst. unfold byte. lia. }
  destruct (ext_parse_simple M64 Fallback (0, 0) 31 m31) as [r m'| | |] eqn:E; try (vm_compute in E; discriminate E).
  destruct (C86_uuid_ext_parse_simple M64 Fallback _ m31 owner 0 0 0 S ltac:(discriminate) owner_ok ltac:(cbn; lia) ltac:(intros i Hi; discriminate) r m' E) as (u & s' & R & _ & RD & _).
  vm_compute in E. injection E as <- <-. exists u, s'. eexists. split; [exact R|]. split; [reflexivity|exact RD].
Qed.
(** [format!("{:x}", uuid.format_hyphenated())] *)
Definition mU : mem := fun b => if b =? 0 then map Some (repeat 171%Z 16) else [].
Example C86_uuid_hex_case : exists u s' m', hruns (hyphenated_hex_b M64 Fallback Upper (fun l => firstn 9 l) (0, 0) 0) owner mU ([65; 66; 65; 66; 65; 66; 65; 66; 45]%Z, u) s' m' /\
  m' 1 = [] /\ may_read s' (0, 0) 16 0.
Proof.
  assert (S : slice mU 0 0 (repeat 171%Z 16)). { split; [|split; [cbn; lia|reflexivity]]. apply Forall_forall. intros x Hx. apply repeat_spec in Hx. subst. unfold byte. lia. }
  destruct (hyphenated_upper_hex M64 Fallback (0, 0) (fun l => firstn 9 l) mU) as [r m'| | |] eqn:E; try (vm_compute in E; discriminate E).
  destruct (proj1 (proj2 (C86_uuid_hyphenated_hex (list Z) M64 Fallback (fun l => firstn 9 l) (repeat 171%Z 16) ltac:(now left) eq_refl)) mU owner 0 0 0 S ltac:(discriminate) owner_ok ltac:(cbn; lia)
    ltac:(intros i Hi; discriminate) r m' E) as (u & s' & R & _ & RD & _).
  vm_compute in E. injection E as <- <-. exists u, s'. eexists. split; [exact R|]. split; [reflexivity|exact RD].
Qed.
Example C84_from_ascii_case : exists u s', runs (from_ascii_b true Fallback (0, 0) 2 0) owner m41 (Some ((0, 0), 2), u) s' m41 /\ may_read s' (0, 0) 2 0 /\ may_read s' (0, 0) 2 u /\ u <> 0.
Proof.
  destruct (C84_from_ascii true Fallback _ m41 owner 0 0 0 m41_slice owner_ok ltac:(cbn; lia) owner_reads) as (r & u & s' & R & E & _ & RD & RT).
  vm_compute in E. injection E as <-. destruct RT as [[L _] RT]. cbn [fresh owner] in L. exists u, s'. split; [exact R|]. split; [exact RD|]. split; [exact RT|lia].
Qed.
