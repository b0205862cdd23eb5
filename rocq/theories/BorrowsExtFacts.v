(** Facts about BorrowsExt.v *)
From Coq Require Import ZArith List Bool Lia ZifyBool ZifyNat.
From Verif Require Import Bytes Mem MemFacts Slices Codec Conc ConcFacts Reify ConcApi ConcApiFacts Isa Simd Spec Ints Hex HexSimdFacts HexFacts HexApi Uuid UuidFacts UuidApi Unicode Heap HeapFacts Public PropUnicode
  Borrows BorrowsApi BorrowsFacts BorrowsLib BorrowsCalls BorrowsBridge BorrowsUuid BorrowsUnicode BorrowsHeap BorrowsHeapFacts BorrowsHeapSteps BorrowsHeapCalls BorrowsHeapForgiving BorrowsExt.
Import ListNotations.
Open Scope nat_scope. Open Scope m_scope. Open Scope borrow_scope. Open Scope heap_scope.

Lemma into_runs {A} (ret : A -> option (ptr * nat)) x f src dlen :
  (forall p q ts td, annotates fst (x p (length src) q dlen ts td) (f p (length src) q dlen)) -> (bytes src -> settles f src dlen) ->
  good_into_on ret x src dlen -> forall m s p q ts td, slice m (fst p) (snd p) src -> room m (fst q) (snd q) dlen -> fst p <> fst q ->
  state_ok s -> ts < fresh s -> may_read s p (length src) ts -> on_top s q dlen td ->
  exists r u s' m', runs (x p (length src) q dlen ts td) s m (r, u) s' m' /\ f p (length src) q dlen m = Ret r m' /\ state_ok s' /\
    into_post s s' p (length src) q dlen ts (ret r) u /\ (forall b, length (m' b) = length (m b)) /\ forall b, b <> fst q -> m' b = m b.
Proof.
  intros HA HS HG m s [b o] [d e] ts td S R N OK LS MR OT. cbn [fst snd] in *. set (n := length src) in *. set (mm := only (b, o) n m).
  destruct (HS (proj1 S) mm b o d e (only_slice _ _ _ _ S) (only_room _ _ _ _ _ _ R) (or_introl N)) as (r & mmf & E & FR).
  destruct (HS (proj1 S) m b o d e S R (or_introl N)) as (r0 & mf & E0 & FR0). fold n in E, E0.
  set (F := fun b' o' => cells_of (b, o) n b' o' \/ cells_of (d, e) dlen b' o').
  destruct (good_runs F fst (x (b, o) n (d, e) dlen ts td) (fun a s' _ => into_post s s' (b, o) n (d, e) dlen ts (ret (fst a)) (snd a))) with
    (c := f (b, o) n (d, e) dlen) (s := s) (s2 := s) (m := m) (mm := mm) (r := r) (mmf := mmf) as ([r' u] & s' & m' & RU & Er & P & _).
  - intros a s1 s2 _ H. now apply into_post_same.
  - apply HA.
  - exact E.
  - intros b' o' Hi. destruct (frame_init _ _ _ _ _ _ _ FR Hi) as [Hi'|Hi']; [left; exact (only_init _ _ _ _ _ Hi')|now right].
  - apply only_less.
  - apply HG; auto.
    + exact (only_slice _ _ _ _ S).
    + exact (only_room _ _ _ _ _ _ R).
    + intros b' o' Hi. exact (only_init _ _ _ _ _ Hi).
    + now apply ok_wf.
    + intros i Hi. rewrite read_enter by exact OK. specialize (MR i Hi). destruct (read_at _ _ _); [eauto|contradiction].
  - apply same_refl.
  - cbn [fst snd] in *. subst r'. assert (EC := runs_code fst _ _ _ _ _ _ RU _ (HA _ _ _ _)). cbn [fst] in EC. rewrite E0 in EC. injection EC as -> <-.
    exists r, u, s', mf. split; [exact RU|]. split; [exact E0|]. split; [exact (runs_ok _ _ _ _ _ _ RU OK)|]. split; [exact P|].
    destruct FR0 as (F1 & F2 & _). split; [|exact F1]. intro b'. destruct (Nat.eq_dec b' d) as [->|N']; [exact F2|now rewrite F1].
Qed.

(** ** A local variable *)
Lemma top_as_mut_ptr p n : op_top SharedRW SharedRW p n (as_mut_ptr p n).
Proof.
  unfold as_mut_ptr. apply (top_seq SharedRW Unique SharedRW); [apply top_reborrow_mut; auto|]. apply op_weak. apply fn_param, top_raw.
Qed.
Lemma top_as_out p n : op_top SharedRW SharedRW p n (as_out p n).
Proof.
  unfold as_out. apply (top_seq SharedRW Unique SharedRW); [apply top_reborrow_mut; auto|]. apply op_weak. apply fn_param, op_weak, op_as_mut_ptr.
Qed.
(** a raw pointer to it *)
Lemma h_pointer {A} x b n t (kk : nat -> hcode A) Q s m : op_top SharedRW SharedRW (at_start b) n x -> state_ok s -> t < fresh s ->
  (forall i, i < n -> stacks s b i = [new_item SharedRW t]) ->
  (forall u s', state_ok s' -> fresh s <= u < fresh s' -> active s' = active s -> (forall b' o, b' <> b -> stacks s' b' o = stacks s b' o) ->
     on_top s' (b, 0) n u -> raw_at s' b n t -> hgood (kk u) Q s' m) -> hgood (hbind (lift (x t)) kk) Q s m.
Proof.
  intros [NX HX] OK L C H. apply (hgood_lift (fun _ _ => True)); [apply NX|]. apply good_ok; [apply NX|exact OK|].
  apply (HX (fun _ _ => True) _ (new_item SharedRW t) (fun _ => [])); auto.
  intros u Y s' W' U' A' E' HY C' OK'. cbn [at_start fst snd] in *. apply H; auto.
  - intros b' o N. apply E'. cbn [at_start fst]. now apply not_in_range_block.
  - intros i Hi. cbn [fst snd]. rewrite C' by exact Hi. do 2 eexists. split; [reflexivity|]. apply (grants_new SharedRW u). auto.
  - intros i Hi. specialize (C' i Hi). rewrite Nat.add_0_l in C'. rewrite C', A'. split.
    + right. apply in_or_app. right. now left.
    + constructor; [reflexivity|]. apply Forall_app. split; [|constructor; [reflexivity|constructor]]. refine (Forall_impl _ _ HY). now intros y [_ Hy].
Qed.
Lemma disable_call i : i_call (disable i) = i_call i.
Proof. unfold disable. now destruct (is_unique i). Qed.
Lemma free_disable act st : free_of act st -> free_of act (map disable st).
Proof. induction 1 as [|i r H _ IH]; constructor; [|exact IH]. unfold protected in *. now rewrite disable_call. Qed.
Lemma read_raw act t st : In (new_item SharedRW t) st -> free_of act st -> exists st', read_at act t st = Some st' /\ In (new_item SharedRW t) st' /\ free_of act st'.
Proof.
  intros HI HF. unfold read_at. destruct (locate false t st) as [[[ab g] be]|] eqn:EL.
  - apply locate_some in EL as (-> & G & NG). apply Forall_app in HF as [F1 F2].
    replace (existsb _ ab) with false.
    + eexists. split; [reflexivity|]. split.
      * apply in_app_or in HI as [HI|HI]; apply in_or_app; [left|right; exact HI]. apply (in_map disable) in HI. exact HI.
      * apply Forall_app. split; [now apply free_disable|exact F2].
    + symmetry. clear NG HI. induction F1 as [|i r U _ IH]; [reflexivity|]. cbn [existsb]. now rewrite U, IH, andb_false_r.
  - exfalso. apply (locate_in false t _ st HI); [unfold grants, new_item; cbn; now rewrite Nat.eqb_refl|exact EL].
Qed.
(** the variable is read *)
Lemma h_own_read {A} b n t (kk : list Z -> hcode A) Q s m : state_ok s -> raw_at s b n t ->
  (forall y s', state_ok s' -> fresh s' = fresh s -> active s' = active s -> (forall b' o, b' <> b -> stacks s' b' o = stacks s b' o) -> raw_at s' b n t -> hgood (kk y) Q s' m) ->
  hgood (hbind (hexec (via1 b t) (load (at_start b) n)) kk) Q s m.
Proof.
  intros OK R H. cbn [hexec hbind hgood]. intros y m1 E. assert (E' := E). apply load_ret in E' as (-> & _).
  exists (Load (at_start b) n (fun l => Done l)).
  assert (T : exists s1, tread (Some t) (at_start b) n s = Some s1 /\ fresh s1 = fresh s /\ active s1 = active s /\ (forall b' o, b' <> b -> stacks s1 b' o = stacks s b' o) /\ raw_at s1 b n t).
  { set (h := fun i => match read_at (active s) t (stacks s b i) with Some x => x | None => [] end).
    assert (Hh : forall i, i < n -> read_at (active s) t (stacks s b i) = Some (h i) /\ In (new_item SharedRW t) (h i) /\ free_of (active s) (h i)).
    { intros i Hi. destruct (R i Hi) as [HI HF]. destruct (read_raw _ _ _ HI HF) as (st' & E1 & E2). unfold h. rewrite E1. auto. }
    unfold tread, via. destruct (across_ok (stacks s) (at_start b) n (read_at (active s) t) h) as (st & ES & EI & EO).
    { intros i Hi. cbn [at_start fst snd]. now apply Hh. }
    rewrite ES. eexists. split; [reflexivity|]. cbn [put fresh active stacks]. split; [reflexivity|]. split; [reflexivity|]. split.
    - intros b' o N. apply EO. now apply not_in_range_block.
    - intros i Hi. cbn [stacks active]. specialize (EI i Hi). cbn [at_start fst snd] in EI. rewrite Nat.add_0_l in EI. rewrite EI. now apply Hh. }
  destruct T as (s1 & ET & F1 & A1 & E1 & R1). exists s1. split; [|split].
  - constructor.
  - cbn [trun at_start fst]. unfold via1. rewrite Nat.eqb_refl. unfold at_start in *. rewrite ET, E. reflexivity.
  - apply H; auto. assert (TO : trun (via1 b t) (Load (at_start b) n (fun l => Done l)) s m = Some (y, s1, m)).
    { cbn [trun at_start fst]. unfold via1. rewrite Nat.eqb_refl. unfold at_start in *. now rewrite ET, E. }
    exact (trun_ok _ _ _ _ _ _ _ OK TO).
Qed.

(** ** [parse_uuid] *)
Definition none_held {A} : holder A := fun _ _ _ _ _ _ _ => True.
Definition refuses (x : ptr -> nat -> ptr -> nat -> nat -> bcode (result (ptr * nat) * nat)) : Prop :=
  forall p q ts td, x p 0 q ts td = fn (ts <== shared_param p 0 ts ;; slice_len p 0 ts ;=; fails).
Lemma hinv_freed s0 p n ts D s b : hinv s0 p n ts D s -> D b -> n = 0 \/ fst p <> b ->
  hinv s0 p n ts D {| stacks := fun b' o => if b' =? b then [] else stacks s b' o; fresh := fresh s; active := active s |}.
Proof.
  intros I HD N. apply (hinv_dst s0 p n ts D s _ b); auto; [apply ok_released, I|]. cbn [stacks]. intros b' o NB. now rewrite (proj2 (Nat.eqb_neq _ _) NB).
Qed.
Lemma parse_uuid_good M x f src : refuses x ->
  (forall p q ts td, annotates fst (x p (length src) q ts td) (f p (length src) q)) -> (bytes src -> settles (fun p n q _ => f p n q) src 16) ->
  good_into_on of_result (fun p n q _ ts td => x p n q ts td) src 16 -> good_new none_held M (parse_uuid_b M x) src.
Proof.
  intros HZ HA HS HG m s b o ts S LS OK LT MR. set (n := length src) in *. set (p := (b, o)). unfold parse_uuid_b. set (nb := new_block M). set (D := eq nb).
  apply (h_start p n ts D); auto. intros u st1 _ I1 R1 L1.
  cbn [halloc hbind hgood]. intros b0 m1 E. apply alloc_ret in E as (E0 & -> & ->). cbn [fst snd]. fold nb in E0 |- *. set (m1 := upd m nb (repeat None 16)).
  set (tv := fresh st1). set (st2 := fresh_block st1 nb 16).
  assert (NB : n = 0 \/ fst p <> nb). { destruct (Nat.eq_dec n 0) as [Z|NZ]; [now left|right]. cbn. intros ->. now apply (slice_nonempty _ _ _ _ S NZ). }
  assert (E2 : forall b' o', b' <> nb -> stacks st2 b' o' = stacks st1 b' o') by (intros b' o' N; cbn [st2 fresh_block stacks]; now rewrite (proj2 (Nat.eqb_neq _ _) N)).
  assert (I2 : hinv s p n ts D st2). { apply (hinv_dst s p n ts D st1 st2 nb); auto; [apply ok_fresh_block, I1|cbn; lia|reflexivity]. }
  assert (R2 : readable st2 p n u). { intros i Hi. destruct NB as [Z|NB]; [lia|]. rewrite E2 by exact NB. now apply R1. }
  assert (L2 : u < fresh st2) by (cbn; lia).
  apply (h_pointer (as_mut_ptr (at_start nb) 16) nb 16 tv); [apply top_as_mut_ptr|apply I2|cbn; unfold tv; lia| |].
  { intros i Hi. cbn [st2 fresh_block stacks]. rewrite Nat.eqb_refl. now rewrite (proj2 (Nat.ltb_lt _ _) Hi). }
  intros td st3 OK3 U3 A3 E3 T3 W3.
  assert (I3 : hinv s p n ts D st3). { apply (hinv_dst s p n ts D st2 st3 nb); auto; [lia|reflexivity]. }
  assert (R3 : readable st3 p n u). { intros i Hi. destruct NB as [Z|NB]; [lia|]. rewrite E3 by exact NB. now apply R2. }
  assert (L3 : u < fresh st3) by lia. clear I2 R2 L2 I1 R1 L1 E2.
  assert (LM1 : length (m1 nb) = 16) by (unfold m1; rewrite upd_same; apply repeat_length).
  assert (END : forall sx mx, hinv s p n ts D sx -> raw_at sx nb 16 tv -> length (mx nb) = 16 ->
    forall r : result (list Z), hgood (hfree nb tv ;~; HReturn (r, 0)) (hfinal (new_post none_held M s p n ts)) sx mx).
  { intros sx mx Ix Rx Lx r. apply (h_free nb 16); [now rewrite Lx|now apply raw_owns|]. cbn [hgood]. apply h_new_end; [|exact Logic.I]. now apply hinv_freed. }
  destruct NB as [Z|NB].
  { rewrite Z in *. rewrite (HZ p (at_start nb) u td).
    assert (NX : noexec (fn (ts <== shared_param p 0 u ;; slice_len p 0 ts ;=; @fails (ptr * nat)))) by (nox; cbn; auto).
    apply (hgood_lift (fun _ _ => True)); [exact NX|]. apply good_ok; [exact NX|exact OK3|]. clear NX.
    apply (good_ro_call (fun _ _ => True) (fun u => slice_len p 0 u ;=; fails)); [now apply ok_wf|exact L3|exact R3|].
    intros u4 s4 W4 R4 L4. apply good_bind. apply ro_len; [exact W4|exact L4|exact R4|]. intros _ s5 W5 ST5 _ _. cbn [good fails]. split; [exact W5|]. split; [exact ST5|].
    intros _ ST OKf. cbn [fst snd]. apply END; [| |exact LM1].
    - exact (hinv_ro _ _ _ _ _ _ _ I3 LT OKf ST).
    - apply (raw_more st3); [apply ST| |exact W3]. intros i Hi. exists []. split; [|constructor]. apply ST. unfold in_range. lia. }
  destruct (into_runs of_result (fun p n q _ ts td => x p n q ts td) (fun p n q _ => f p n q) src 16 HA HS HG m1 st3 p (at_start nb) u td) as (r & v & st4 & m4 & RU & EF & OK4 & P4 & LM4 & EM4); auto.
  { eapply slice_same; [exact S|]. now apply upd_other. }
  { unfold room. cbn [at_start fst snd]. rewrite LM1. lia. }
  { now apply readable_may. }
  fold n in RU, EF, P4. apply (hgood_lift_runs _ _ _ _ _ _ _ _ RU). clear RU. cbn [fst snd]. destruct P4 as (_ & F4 & A4 & E4 & RD4 & K4 & C4 & RT4).
  assert (I4 : hinv s p n ts D st4).
  { assert (I3' := I3). destruct I3 as (_ & G1 & G2 & G3 & G4 & G5). split; [exact OK4|]. split; [lia|]. split; [congruence|]. split; [|split].
    - intros b' o' H1 H2. rewrite E4; [now apply G3|exact H1|]. cbn [at_start fst snd]. apply not_in_range_block. intros ->. now apply H2.
    - apply (K4 R3 ts); [lia|exact G4].
    - intros RS t Lt RT. apply (K4 R3 t); [lia|]. now apply G5. }
  assert (RA : raw_at st4 nb 16 tv).
  { apply (raw_more st3); [exact A4| |exact W3]. intros i Hi. destruct (C4 i Hi) as (X & EX & HX). exists X. cbn [at_start fst snd] in EX. rewrite Nat.add_0_l in EX.
    split; [exact EX|]. refine (Forall_impl _ _ HX). now intros y [_ Hy]. }
  destruct r as [x0|]; [|apply END; [exact I4|exact RA|now rewrite LM4]].
  apply (h_own_read nb 16 tv); [exact OK4|exact RA|]. intros y st5 OK5 F5 A5 E5 R5. apply END; [|exact R5|now rewrite LM4].
  apply (hinv_dst s p n ts D st4 st5 nb); auto; [lia|reflexivity].
Qed.
Lemma parse_uuid_ann M x f p n ts : (forall p n q ts td, annotates fst (x p n q ts td) (f p n q)) -> hannotates fst (parse_uuid_b M x p n ts) (parse_uuid M f p n).
Proof.
  intro HA. unfold parse_uuid_b, parse_uuid. apply hannotates_fn. apply hannotates_borrow; [nox|]. intro u. cbn [halloc hbind fst snd hannotates].
  eexists. split; [intro; reflexivity|]. intros b t. cbv beta. apply hannotates_borrow; [nox|]. intro td.
  apply (hannotates_bind fst); [apply hannotates_lift, HA|]. intros [[y|] r]; cbn [fst snd].
  - apply hannotates_exec. intro l. cbn [hfree hbind hannotates]. eexists. split; [intro; reflexivity|]. hret.
  - cbn [hfree hbind hannotates]. eexists. split; [intro; reflexivity|]. hret.
Qed.
Lemma none_new {A} (M : machine) x (f : ptr -> nat -> Mem.M A) src : (forall p n ts, hannotates fst (x p n ts) (f p n)) -> good_new none_held M x src -> borrows_new (fun _ => None) M x f src.
Proof. intros HA HG. apply (borrows_new_of _ none_held); auto. discriminate. Qed.

(** ** [format_uuid] *)
(** pointers that only read the variable *)
Lemma h_local {A} s0 p n ts (D : nat -> Prop) b k tv (x : bcode nat) u (body : nat -> hcode A) Q s m : ro_op x (at_start b) k u -> noexec x -> hinv s0 p n ts D s -> D b -> n = 0 \/ fst p <> b ->
  readable s (at_start b) k u -> u < fresh s -> raw_at s b k tv ->
  (forall v s', hinv s0 p n ts D s' -> readable s' (at_start b) k v -> v < fresh s' -> raw_at s' b k tv -> hgood (body v) Q s' m) -> hgood (hbind (lift x) body) Q s m.
Proof.
  intros HX NX I HD N R L W H. apply (hgood_lift (fun _ _ => True)); [exact NX|]. apply good_ok; [exact NX|apply I|]. apply HX; [apply ok_wf, I|exact L|exact R|].
  intros v s' W' (F' & A' & E' & C') L' R' OK'. apply H; auto.
  - apply (hinv_dst s0 p n ts D s s' b); auto. intros b' o NB. apply E'. now apply not_in_range_block.
  - apply (raw_more s); [exact A'| |exact W]. intros i Hi. destruct (C' i Hi) as (X & EX & HX'). exists X. cbn [at_start fst snd] in EX. rewrite Nat.add_0_l in EX.
    split; [exact EX|]. refine (Forall_impl _ _ HX'). now intros y (_ & _ & Hy).
Qed.
Lemma h_show {A} s0 p n ts (D : nat -> Prop) b k tv u (kk : list Z -> hcode A) Q s m : hinv s0 p n ts D s -> D b -> n = 0 \/ fst p <> b ->
  readable s (at_start b) k u -> raw_at s b k tv ->
  (forall y s', hinv s0 p n ts D s' -> raw_at s' b k tv -> hgood (kk y) Q s' m) ->
  hgood (hbind (hfn (t <~ lift (shared_param (at_start b) k u) ;; hexec (via1 b t) (load (at_start b) k))) kk) Q s m.
Proof.
  intros I HD N R W H. assert (OK : state_ok s) by apply I. apply hgood_bind, hgood_fn. apply (hgood_lift (fun _ _ => True)); [nox|]. apply good_ok; [nox|now apply ok_enter|].
  unfold shared_param. apply good_shared; [auto|exact R|]. intros s1 F1 A1 E1 C1 OK1. cbn [fresh active enter hd_error] in *. set (t := S (fresh s)) in *.
  cbn [hexec hgood]. intros y m1 E. assert (E' := E). apply load_ret in E' as (-> & _). exists (Load (at_start b) k (fun l => Done l)).
  destruct (across_ok (stacks s1) (at_start b) k (read_at (active s1) t) (fun i => stacks s1 b i)) as (st & ES & EI & EO).
  { intros i Hi. cbn [at_start fst snd]. rewrite Nat.add_0_l. apply reads_stable. specialize (C1 i Hi). cbn [at_start fst snd] in C1. rewrite Nat.add_0_l in C1. rewrite C1. apply reads_top. }
  set (s2 := {| stacks := st; fresh := fresh s1; active := active s1 |}).
  assert (TR : trun (via1 b t) (Load (at_start b) k (fun l => Done l)) s1 m = Some (y, s2, m)).
  { cbn [trun at_start fst]. unfold via1. rewrite Nat.eqb_refl. unfold tread, via. unfold at_start in *. rewrite ES. cbn [put]. rewrite E. reflexivity. }
  exists s2. split; [constructor|]. split; [exact TR|]. assert (OK2 := trun_ok _ _ _ _ _ _ _ OK1 TR). split; [cbn [s2 active]; rewrite A1; discriminate|].
  assert (EP : perform Leave s2 = Some (0, leave s2)) by (cbn [perform]; unfold leave; cbn [s2 active]; now rewrite A1).
  assert (AL : active (leave s2) = active s) by (cbn; now rewrite A1).
  apply H.
  - apply (hinv_dst s0 p n ts D s (leave s2) b); auto; [exact (perform_ok _ _ _ _ OK2 EP)|cbn; lia|]. intros b' o NB. cbn [leave s2 stacks].
    rewrite EO by (now apply not_in_range_block). rewrite E1 by (now apply not_in_range_block). reflexivity.
  - apply (raw_more s); [exact AL| |exact W]. intros i Hi. cbn [leave s2 stacks]. specialize (EI i Hi). specialize (C1 i Hi). cbn [at_start fst snd] in EI, C1. rewrite Nat.add_0_l in EI, C1.
    rewrite EI, C1. eexists [_]. split; [reflexivity|]. constructor; [|constructor]. eapply unprotected_call; [apply ok_wf, OK| |reflexivity]. lia.
Qed.
Lemma ro_from_utf8 p n t : ro_op (from_utf8_unchecked p n t) p n t.
Proof. exact (ro_len p n t). Qed.
Lemma ro_as_bytes p t : ro_op (as_bytes p t) p 16 t.
Proof. apply ro_fn. intro u. apply ro_reborrow. Qed.
Lemma format_uuid_good {R} M N x f (g : list Z -> R) src : 0 < N -> length src = 16 -> (forall p q ts td, annotates fst (x p q ts td) (f p q)) ->
  (bytes src -> settles (fun p _ q _ => f p q) src N) -> good_into_on Some (fun p _ q _ ts td => x p q ts td) src N ->
  (forall p q m r m', f p q m = Ret r m' -> r = (q, N)) -> good_new none_held M (fun p _ ts => format_uuid_b M N x g p ts) src.
Proof.
  intros HN L16 HA HS HG HR m s b o ts S LS OK LT MR. rewrite L16 in *. set (p := (b, o)) in *. unfold format_uuid_b. set (nb := new_block M). set (D := eq nb).
  apply (h_start p 16 ts D); auto. intros u st1 _ I1 R1 L1.
  cbn [halloc hbind hgood]. intros b0 m1 E. apply alloc_ret in E as (E0 & -> & ->). cbn [fst snd]. fold nb in E0 |- *. set (m1 := upd m nb (repeat None N)).
  set (tv := fresh st1). set (st2 := fresh_block st1 nb N).
  assert (NB : fst p <> nb). { cbn. intros ->. apply (slice_nonempty _ _ _ _ S); [lia|exact E0]. }
  assert (E2 : forall b' o', b' <> nb -> stacks st2 b' o' = stacks st1 b' o') by (intros b' o' N'; cbn [st2 fresh_block stacks]; now rewrite (proj2 (Nat.eqb_neq _ _) N')).
  assert (I2 : hinv s p 16 ts D st2). { apply (hinv_dst s p 16 ts D st1 st2 nb); auto; [apply ok_fresh_block, I1|cbn; lia|reflexivity]. }
  assert (R2 : readable st2 p 16 u). { intros i Hi. rewrite E2 by exact NB. now apply R1. }
  assert (L2 : u < fresh st2) by (cbn; lia).
  eapply h_ro; [apply ro_as_bytes|nox|exact I2|exact LT|exact R2|exact L2|]. { cbv [as_bytes fn do_ shared_param reborrow]. cbn [bbind noexec]. auto. }
  intros u' st2' (_ & A2' & E2' & _) I2' _ _ R2' L2'.
  apply (h_pointer (as_out (at_start nb) N) nb N tv); [apply top_as_out|apply I2'| | |].
  { destruct I2' as ((_ & O2) & _). specialize (O2 nb 0 (new_item SharedRW tv)). rewrite E2' in O2 by (apply not_in_range_block; congruence). apply (fun H => proj1 (O2 H)). cbn [st2 fresh_block stacks].
    rewrite Nat.eqb_refl, (proj2 (Nat.ltb_lt _ _) HN). now left. }
  { intros i Hi. rewrite E2' by (apply not_in_range_block; congruence). cbn [st2 fresh_block stacks]. rewrite Nat.eqb_refl. now rewrite (proj2 (Nat.ltb_lt _ _) Hi). }
  intros td st3 OK3 U3 A3 E3 T3 W3.
  assert (I3 : hinv s p 16 ts D st3). { apply (hinv_dst s p 16 ts D st2' st3 nb); auto; [lia|reflexivity]. }
  assert (R3 : readable st3 p 16 u'). { intros i Hi. rewrite E3 by exact NB. now apply R2'. }
  assert (L3 : u' < fresh st3) by lia. clear I2 R2 L2 I1 R1 L1 E2.
  assert (LM1 : length (m1 nb) = N) by (unfold m1; rewrite upd_same; apply repeat_length).
  destruct (into_runs Some (fun p _ q _ ts td => x p q ts td) (fun p _ q _ => f p q) src N (fun p q => HA p q) HS HG m1 st3 p (at_start nb) u' td) as (r & v & st4 & m4 & RU & EF & OK4 & P4 & LM4 & EM4); auto.
  { eapply slice_same; [exact S|]. now apply upd_other. }
  { unfold room. cbn [at_start fst snd]. rewrite LM1. lia. }
  { rewrite L16. now apply readable_may. }
  rewrite L16 in P4. apply (hgood_lift_runs _ _ _ _ _ _ _ _ RU). clear RU. apply HR in EF. subst r. cbn [fst snd]. destruct P4 as (_ & F4 & A4 & E4 & RD4 & K4 & C4 & [RT4 RT5]).
  assert (I4 : hinv s p 16 ts D st4).
  { destruct I3 as (_ & G1 & G2 & G3 & G4 & G5). split; [exact OK4|]. split; [lia|]. split; [congruence|]. split; [|split].
    - intros b' o' H1 H2. rewrite E4; [now apply G3|exact H1|]. cbn [at_start fst snd]. apply not_in_range_block. intros ->. now apply H2.
    - apply (K4 R3 ts); [lia|exact G4].
    - intros RS t Lt RT. apply (K4 R3 t); [lia|]. now apply G5. }
  assert (RA : raw_at st4 nb N tv).
  { apply (raw_more st3); [exact A4| |exact W3]. intros i Hi. destruct (C4 i Hi) as (X & EX & HX). exists X. cbn [at_start fst snd] in EX. rewrite Nat.add_0_l in EX.
    split; [exact EX|]. refine (Forall_impl _ _ HX). now intros y [_ Hy]. }
  assert (R4 : readable st4 (at_start nb) N v) by (intros i Hi; now apply wtop_reads, RT5).
  assert (L4 : v < fresh st4). { destruct (RT5 0 HN) as (g0 & r0 & ES & G). destruct OK4 as [_ O4]. destruct (O4 nb 0 g0) as [T _].
    - cbn [at_start fst snd] in ES. rewrite Nat.add_0_l in ES. rewrite ES. now left.
    - revert G T. unfold grants. lia. }
  assert (DN : D nb) by reflexivity.
  apply (h_local s p 16 ts D nb N tv _ v); auto; [apply ro_reborrow|nox|]. intros v5 st5 I5 R5 L5 W5.
  apply (h_local s p 16 ts D nb N tv _ v5); auto; [apply ro_from_utf8|cbv [from_utf8_unchecked]; nox|]. intros v6 st6 I6 R6 L6 W6.
  apply (h_show s p 16 ts D nb N tv v6); auto. intros y st7 I7 W7.
  apply hgood_pure. intros [] mx EX. split. { destruct (forallb _ y); [|discriminate EX]. now injection EX. }
  apply (h_free nb N); [now rewrite LM4|now apply raw_owns|]. cbn [hgood]. apply h_new_end; [|exact Logic.I]. apply hinv_freed; auto.
Qed.
Lemma format_uuid_ann {R} M N x f case (g : list Z -> R) p ts : (forall p q ts td, annotates fst (x p q ts td) (f p q case)) ->
  hannotates fst (format_uuid_b M N x g p ts) (format_uuid M N p case f g).
Proof.
  intro HA. unfold format_uuid_b, format_uuid. apply hannotates_fn. apply hannotates_borrow; [nox|]. intro u. cbn [halloc hbind fst snd hannotates].
  eexists. split; [intro; reflexivity|]. intros b t. cbv beta. apply hannotates_borrow. { cbv [as_bytes fn do_ shared_param reborrow]. cbn [bbind noexec]. auto. } intro u'.
  apply hannotates_borrow. { cbv [as_out]. nox. } intro td.
  apply (hannotates_bind fst); [apply hannotates_lift, HA|]. intros [[q k] r]. cbn [fst snd].
  apply hannotates_borrow; [nox|]. intro t1. apply hannotates_borrow; [cbv [from_utf8_unchecked]; nox|]. intro t2.
  cbn [hfn hbind lift shared_param do_ hexec hpure hfree hannotates]. intros _ t3. eexists. split; [intro; reflexivity|]. intros y _.
  exists (fun _ => free b ;;; ret (g y)). split.
  { intro m. unfold bind at 1. destruct (forallb _ y); reflexivity. }
  intros _. eexists. split; [intro; reflexivity|]. hret.
Qed.

(** ** The functions *)
Lemma into_on_of {A} (ret : A -> option (ptr * nat)) x src k : good_into ret x (length src) k -> good_into_on ret x src k.
Proof. intros HG F p q ts td Q s mm N _ _. now apply HG. Qed.
Lemma ext_parse_borrows M s1 s2 src : hyph_isa s2 -> borrows_new (fun _ => None) M (ext_parse_b M s1 s2) (ext_parse M s1 s2) src.
Proof.
  intro Hs. apply none_new; [intros; apply parse_uuid_ann; intros; apply uuid_parse_ann|].
  apply (parse_uuid_good M _ (uuid_parse s1 s2)); [now intros p q ts td|intros; apply uuid_parse_ann| |now apply uuid_parse_good].
  intros _. exact (settles_does _ _ _ _ (does_array _ _ _ _ (uuid_parse_decodes s1 s2 src Hs))).
Qed.
Lemma ext_parse_simple_borrows M s src : borrows_new (fun _ => None) M (ext_parse_simple_b M s) (ext_parse_simple M s) src.
Proof.
  apply none_new; [intros; apply parse_uuid_ann; intros; apply uuid_parse_simple_ann|].
  apply (parse_uuid_good M _ (uuid_parse_simple s)); [now intros p q ts td|intros; apply uuid_parse_simple_ann| |apply into_on_of, uuid_parse_simple_good].
  intros _. exact (settles_does _ _ _ _ (does_array _ _ _ _ (parse_simple_decodes s src))).
Qed.
Lemma ext_parse_hyphenated_borrows M s src : hyph_isa s -> borrows_new (fun _ => None) M (ext_parse_hyphenated_b M s) (ext_parse_hyphenated M s) src.
Proof.
  intro Hs. apply none_new; [intros; apply parse_uuid_ann; intros; apply uuid_parse_hyphenated_ann|].
  apply (parse_uuid_good M _ (uuid_parse_hyphenated s)); [now intros p q ts td|intros; apply uuid_parse_hyphenated_ann| |apply into_on_of, uuid_parse_hyphenated_good].
  intros _. exact (settles_does _ _ _ _ (does_array _ _ _ _ (parse_hyphenated_decodes s src Hs))).
Qed.
Lemma format_simple_ret s p q case m r m' : uuid_format_simple s p q case m = Ret r m' -> r = (q, 32).
Proof. unfold uuid_format_simple, bind. destruct (format_simple_impl s p q case m); try discriminate. intro E. now injection E as <- _. Qed.
Lemma format_hyphenated_ret s p q case m r m' : uuid_format_hyphenated s p q case m = Ret r m' -> r = (q, 36).
Proof. unfold uuid_format_hyphenated, bind. destruct (format_hyphenated_impl s p q case m); try discriminate. intro E. now injection E as <- _. Qed.
Lemma simple_hex_borrows {R} M s case (g : list Z -> R) src : length src = 16 ->
  borrows_new (fun _ => None) M (fun p _ ts => simple_hex_b M s case g p ts) (fun p _ => format_uuid M 32 p case (uuid_format_simple s) g) src.
Proof.
  intro L. apply none_new; [intros; apply format_uuid_ann; intros; apply uuid_format_simple_ann|].
  apply (format_uuid_good M 32 _ (fun p q => uuid_format_simple s p q case)); [lia|exact L|intros; apply uuid_format_simple_ann| | |intros; eapply format_simple_ret; eassumption].
  - intros _. replace 32 with (length (uuid_simple (lut_of case) src)) by (unfold uuid_simple; rewrite hex_encode_len; lia).
    apply settles_format. exact (format_simple_encodes s case src L).
  - apply into_on_of. rewrite L. apply uuid_format_simple_good.
Qed.
Lemma hyphenated_hex_borrows {R} M s case (g : list Z -> R) src : hyph_isa s -> length src = 16 ->
  borrows_new (fun _ => None) M (fun p _ ts => hyphenated_hex_b M s case g p ts) (fun p _ => format_uuid M 36 p case (uuid_format_hyphenated s) g) src.
Proof.
  intros Hs L. apply none_new; [intros; apply format_uuid_ann; intros; apply uuid_format_hyphenated_ann|].
  apply (format_uuid_good M 36 _ (fun p q => uuid_format_hyphenated s p q case)); [lia|exact L|intros; apply uuid_format_hyphenated_ann| | |intros; eapply format_hyphenated_ret; eassumption].
  - intros _. replace 36 with (length (uuid_hyphenated (lut_of case) src)) by (apply hyphenate_len; rewrite hex_encode_len; lia).
    apply settles_format. exact (format_hyphenated_encodes s case src Hs L).
  - apply into_on_of. rewrite L. apply uuid_format_hyphenated_good.
Qed.

(** ** [from_ascii] *)
Lemma from_ascii_ann x64 s p n t : annotates fst (from_ascii_b x64 s p n t) (from_ascii x64 s p n).
Proof.
  unfold from_ascii_b, from_ascii, is_ascii_b, from_utf8_unchecked. ann. eexists. split; [intro; reflexivity|]. intros []; ann.
Qed.
Lemma from_ascii_good (F : nat -> nat -> Prop) x64 v p n t (Q : option (ptr * nat) * nat -> borrows -> mem -> Prop) s mm : (forall b o, init mm b o -> cells_of p n b o) ->
  wf s -> t < fresh s -> readable_in s p n t ->
  (forall r u s', fresh s <= fresh s' -> active s' = active s -> elsewhere p n s s' -> readable s' p n t ->
     match r with Some (q, k) => fresh s <= u < fresh s' /\ readable s' q k u | None => True end -> Q (r, u) s' mm) -> good F (from_ascii_b x64 v p n t) Q s mm.
Proof.
  intros HI W LT RI H. unfold from_ascii_b. apply into_start; auto. intros u s1 I1 R1 L1.
  eapply into_ro; [apply ro_reborrow|exact I1|exact LT|exact R1|exact L1|]. intros u2 s2 I2 R2 L2 R2' L2'. unfold is_ascii_b. apply good_bind.
  apply (good_reader F p n u2 (slice_parts p n) _ any); [apply ro_slice_parts|apply rei_uni_is_ascii|apply I2|exact L2'|exact R2'|exact HI|].
  intros y s3 W3 ST3 _. assert (I3 := src_ro _ _ _ _ _ _ I2 LT W3 ST3). assert (R3 := readable_ro _ _ _ _ _ ST3 L2 R2). destruct I3 as (_ & F3 & A3 & E3 & T3 & _).
  destruct y; cbn [good].
  - apply good_bind. unfold from_utf8_unchecked, shared_param. apply good_fn, good_shared; [auto|exact R3|]. intros s4 F4 A4 E4 C4. cbn [fresh active enter hd_error stacks] in *.
    split; [rewrite A4; discriminate|]. cbn [good]. split; [cbn [leave active]; rewrite A4; cbn [tl]; rewrite A3; discriminate|]. apply H.
    + cbn. lia.
    + cbn [leave active]. now rewrite A4; cbn [tl]; rewrite A3.
    + intros b o Hr. cbn [leave stacks]. rewrite E4 by exact Hr. cbn [enter stacks]. now apply E3.
    + intros i Hi. cbn [leave stacks]. rewrite C4 by exact Hi. apply (reads_app t [_]); [|now apply T3]. constructor; [|constructor]. cbn. split; [reflexivity|lia].
    + cbn [fresh leave]. split; [lia|]. intros i Hi. cbn [leave stacks]. rewrite C4 by exact Hi. apply reads_top.
  - split; [rewrite A3; discriminate|]. apply H; auto; cbn [leave fresh active stacks]; [lia|now rewrite A3].
Qed.
Lemma from_ascii_borrows x64 v src : borrows_view (fun r => r) (from_ascii_b x64 v) (from_ascii x64 v) src.
Proof.
  intros m s b o t S OK LT MR. set (n := length src) in *. set (mm := only (b, o) n m).
  destruct (C34_from_ascii x64 v mm b o src (only_slice _ _ _ _ S)) as (r & E & _). fold n in E.
  destruct (C34_from_ascii x64 v m b o src S) as (r0 & E0 & _). fold n in E0.
  set (POST := fun (a : option (ptr * nat) * nat) (s' : borrows) (_ : mem) => fresh s <= fresh s' /\ active s' = active s /\ elsewhere (b, o) n s s' /\ readable s' (b, o) n t /\
    match fst a with Some (q, k) => fresh s <= snd a < fresh s' /\ readable s' q k (snd a) | None => True end).
  destruct (good_runs (cells_of (b, o) n) fst (from_ascii_b x64 v (b, o) n t) POST) with (c := from_ascii x64 v (b, o) n) (s := s) (s2 := s) (m := m) (mm := mm) (r := r) (mmf := mm)
    as ([r' u] & s' & m' & RU & Er & P & _).
  - intros a s1 s2 mx (HS1 & HF1 & HA1) (P0 & P1 & P2 & P3 & P4). split; [lia|]. split; [congruence|]. split; [intros b' o' H'; rewrite HS1; auto|].
    split; [intros i Hi; rewrite HS1; auto|]. destruct (fst a) as [[q k]|]; [|exact Logic.I]. split; [lia|]. intros i Hi. rewrite HS1. now apply (proj2 P4).
  - apply from_ascii_ann.
  - exact E.
  - intros b' o' Hi. exact (only_init _ _ _ _ _ Hi).
  - apply only_less.
  - apply from_ascii_good; auto.
    + intros b' o' Hi. exact (only_init _ _ _ _ _ Hi).
    + now apply ok_wf.
    + intros i Hi. rewrite read_enter by exact OK. specialize (MR i Hi). destruct (read_at _ _ _); [eauto|contradiction].
    + intros r1 u1 s1. unfold POST. cbn [fst snd]. auto.
  - apply same_refl.
  - cbn [fst] in Er. subst r'. assert (EC := runs_code fst _ _ _ _ _ _ RU _ (from_ascii_ann _ _ _ _ _)). cbn [fst] in EC. rewrite E0 in EC. injection EC as -> <-.
    destruct P as (_ & A' & EL & RD & RT). cbn [fst snd] in RT. exists r, u, s'. split; [exact RU|]. split; [exact E0|].
    split; [apply (leaves_of _ _ _ _ _ _ _ _ _ _ OK RU A'); auto|]. split; [now apply readable_may|].
    destruct r as [[q k]|]; [|exact Logic.I]. split; [apply RT|]. now apply readable_may.
Qed.
