(** Facts about Unwind.v, used by PropUnwind.v. *)
From Coq Require Import ZArith List Bool Lia ZifyNat ZifyBool.
From Verif Require Import Bytes Mem MemFacts Loops Slices Codec Isa Simd SimdFacts Spec Ints
  Hex HexSimdFacts HexFacts HexApi Base64 Base64Ref Base64DecFacts Base64Api Base32 Base32Ref Base32Api Forgiving ForgivingFacts
  Heap HeapFacts Unwind.
Import ListNotations.
Open Scope Z_scope.
Open Scope m_scope.
Open Scope u_scope.
Ltac Zify.zify_post_hook ::= Z.div_mod_to_equations.

(** ** Vocabulary of the theorems *)
(** every block of memory and the vector of the caller are as they were *)
Definition untouched (s s' : st) : Prop := same_mem (st_mem s) (st_mem s') /\ st_vec s' = st_vec s.
(** [fu] allocates [n] bytes and then does what [f] does. If [n] is more than isize::MAX it panics (and so does [f]), if the
    allocator has no [n] bytes it stops; in both cases everything is untouched. *)
Definition box_stops {A} (M : machine) (grant : nat -> bool) (fu : ptr -> nat -> U A) (f : ptr -> nat -> Mem.M A) (src : list Z) (n : nat) : Prop :=
  forall m v b o, slice m b o src -> Z.of_nat (length src) <= isize_limit M -> m (new_block M) = [] ->
    let s := {| st_mem := m; st_vec := v |} in
    if isize_limit M <? Z.of_nat n then
      f (b, o) (length src) m = Panic /\ exists s', fu (b, o) (length src) s = Stopped Asserted s' /\ untouched s s'
    else if (n =? 0)%nat || grant n then
      exists a m', f (b, o) (length src) m = Ret a m' /\ fu (b, o) (length src) s = Done a {| st_mem := m'; st_vec := v |}
    else exists s', fu (b, o) (length src) s = Stopped NoMemory s' /\ untouched s s'.
(** The same for functions that append [n] bytes to the vector of the caller. [why] is the panic for more than isize::MAX new
    bytes; [post] says how the result of [f] is made of the result of [fu] and the vector. *)
Definition append_stops {A B} (M : machine) (grant : nat -> bool) (fu : ptr -> nat -> U A) (f : ptr -> nat -> vec -> Mem.M B)
    (post : A -> vec -> B) (src : list Z) (n : nat) (why : stop) : Prop :=
  forall m v old b o, slice m b o src -> Z.of_nat (length src) <= isize_limit M ->
    vec_holds M m v old -> b <> v_block v -> reallocatable M m v ->
    let s := {| st_mem := m; st_vec := v |} in
    let total := (length old + n)%nat in
    if isize_limit M <? Z.of_nat n then
      f (b, o) (length src) v m = Panic /\ exists s', fu (b, o) (length src) s = Stopped why s' /\ untouched s s'
    else if isize_limit M <? Z.of_nat total then
      f (b, o) (length src) v m = Panic /\ exists s', fu (b, o) (length src) s = Stopped CapacityOverflow s' /\ untouched s s'
    else if (total <=? length (m (v_block v)))%nat || grant (capacity M total) then
      exists a v' m', f (b, o) (length src) v m = Ret (post a v') m' /\ fu (b, o) (length src) s = Done a {| st_mem := m'; st_vec := v' |}
    else exists s', fu (b, o) (length src) s = Stopped NoMemory s' /\ untouched s s'.

(** ** The two monads *)
Lemma untouched_refl s : untouched s s. Proof. split; [intro; reflexivity|reflexivity]. Qed.
Lemma run_ret {A} (c : Mem.M A) s a m : c (st_mem s) = Ret a m -> run c s = Done a {| st_mem := m; st_vec := st_vec s |}.
Proof. unfold run. now intros ->. Qed.
Lemma run_bind {A B} (c : Mem.M A) (k : A -> Mem.M B) s : run (bind c k) s = (a <~ run c ;; run (k a)) s.
Proof. unfold run, ubind, bind. now destruct (c (st_mem s)). Qed.
Lemma run_done {A} (a : A) s : run (ret a) s = done a s.
Proof. destruct s. reflexivity. Qed.
Lemma ubind_ext {A B} (c c' : U A) (k k' : A -> U B) s : c s = c' s -> (forall a s, k a s = k' a s) -> ubind c k s = ubind c' k' s.
Proof. intros E H. unfold ubind. rewrite E. now destruct (c' s). Qed.
Lemma local_run {A} d (c : Mem.M A) s : local d (run c) s = run c s.
Proof. unfold local, run. now destruct (c (st_mem s)). Qed.
Lemma ubind_done {A B} (c : U A) (k : A -> U B) s a s' : c s = Done a s' -> ubind c k s = k a s'.
Proof. unfold ubind. now intros ->. Qed.
Lemma ubind_stop {A B} (c : U A) (k : A -> U B) s w s' : c s = Stopped w s' -> ubind c k s = Stopped w s'.
Proof. unfold ubind. now intros ->. Qed.
Lemma arith_ok {A} (c : Mem.M A) s a : (forall m, c m = Ret a m) -> arith c s = Done a s.
Proof. unfold arith. now intros ->. Qed.
Lemma bind_bind {A B} (c : Mem.M A) (k : A -> Mem.M B) m r m' : bind c k m = Ret r m' ->
  exists a m1, c m = Ret a m1 /\ k a m1 = Ret r m'.
Proof. unfold bind. destruct (c m) as [a m1| | |]; try discriminate. eauto. Qed.

(** ** Boxes *)
Lemma alloc_u M grant n s : (0 < n)%nat -> Z.of_nat n <= isize_limit M ->
  u_alloc_uninit_bytes M grant n s = if grant n then run (alloc_uninit_bytes M n) s else Stopped NoMemory s.
Proof. intros P L. unfold u_alloc_uninit_bytes. replace ((0 <? Z.of_nat n) && (Z.of_nat n <=? isize_limit M)) with true by lia. reflexivity. Qed.

Lemma enc_box_stops M grant fu f L (g : ptr -> nat -> ptr -> Mem.M unit) src t : machine_ok M -> makes_box M f src t ->
  (forall p, f p 0%nat = box_empty M) -> (forall p, fu p 0%nat = run (box_empty M)) ->
  (forall p n, n <> 0%nat -> f p n = (m <- L n ;; assert_ (m <=? usize_limit M / 2) ;;; buf <- alloc_uninit_bytes M (Z.to_nat m) ;;
                    g p n (x_block buf, 0%nat) ;;; b <- assume_init buf ;; boxed_str b)) ->
  (forall p n, n <> 0%nat -> fu p n = (m <~ arith (L n) ;; uassert (m <=? usize_limit M / 2) ~;; buf <~ u_alloc_uninit_bytes M grant (Z.to_nat m) ;;
                    local (drop_box buf) (run (g p n (x_block buf, 0%nat))) ~;; b <~ run (assume_init buf) ;; run (boxed_str b))) ->
  (bytes src -> Z.of_nat (length src) <= isize_limit M -> enc_len_ok M (L (length src)) (length t)) ->
  (src = [] -> t = []) -> (bytes src -> (length src <> 0)%nat -> (length t <> 0)%nat) -> box_stops M grant fu f src (length t).
Proof.
  intros HM HX F0 U0 F1 U1 HLen Ht0 Htp m v b o HS HL HF s. assert (X := HX m b o HS HL HF).
  rewrite Z.ltb_antisym. destruct (Nat.eq_dec (length src) 0) as [E|N].
  - apply length_zero_iff_nil in E. subst src. rewrite (Ht0 eq_refl) in *. cbn [length] in *. assert (P := isize_nonneg M HM).
    destruct (Z.leb_spec (Z.of_nat 0) (isize_limit M)) as [_|]; [|cbn in *; lia]. cbn [negb Nat.eqb orb].
    destruct X as (x & m' & E & _). exists x, m'. split; [exact E|]. rewrite U0. rewrite F0 in E. now apply (run_ret _ s).
  - specialize (Htp (proj1 HS) N). specialize (HLen (proj1 HS) HL). rewrite F1 in * by exact N. rewrite U1 by exact N.
    rewrite (ubind_done _ _ s (Z.of_nat (length t)) s) by (apply arith_ok; exact HLen).
    rewrite (bind_ret _ _ _ _ _ (HLen m)) in *. rewrite half_limit in * by exact HM. rewrite Nat2Z.id in *.
    destruct (Z.leb_spec (Z.of_nat (length t)) (isize_limit M)) as [Lt|Lt]; cbn [negb].
    2:{ split; [exact X|]. exists s. split; [|apply untouched_refl]. reflexivity. }
    destruct (Nat.eqb_spec (length t) 0) as [|_]; [contradiction|]. cbn [orb].
    rewrite (ubind_done _ _ s tt s) by reflexivity.
    assert (A := alloc_u M grant (length t) s ltac:(lia) Lt). destruct (grant (length t)).
    + destruct X as (x & m' & E & _). exists x, m'. split; [exact E|].
      rewrite (bind_ret (assert_ _) _ m tt m) in E by reflexivity. apply bind_bind in E. destruct E as (buf & m1 & E1 & E2).
      rewrite (run_ret _ s _ _ E1) in A. rewrite (ubind_done _ _ _ _ _ A). cbn [st_vec s].
      transitivity (run (g (b, o) (length src) (x_block buf, 0%nat) ;;; b <- assume_init buf ;; boxed_str b) {| st_mem := m1; st_vec := v |}).
      * rewrite run_bind. apply ubind_ext; [apply local_run|]. intros _ s1. now rewrite run_bind.
      * now apply (run_ret _ {| st_mem := m1; st_vec := v |}).
    + exists s. split; [now rewrite (ubind_stop _ _ _ _ _ A)|apply untouched_refl].
Qed.

Lemma dec_box_stops M grant fu f dl g src n spec : machine_ok M -> tries_box M f src spec ->
  (forall p, f p 0%nat = (b <- box_empty M ;; ret (Ok b))) -> (forall p, fu p 0%nat = (b <~ run (box_empty M) ;; done (Ok b))) ->
  (forall p n, n <> 0%nat -> f p n = try_ (dl p n) (fun nm => buf <- alloc_uninit_bytes M (snd nm) ;;
        try_drop (g p (fst nm) (x_block buf, 0%nat)) (drop_box buf) (fun _ => b <- assume_init buf ;; ret (Ok b)))) ->
  (forall p n s, n <> 0%nat -> fu p n s = u_try (run (dl p n)) nothing (fun nm => buf <~ u_alloc_uninit_bytes M grant (snd nm) ;;
        u_try (local (drop_box buf) (run (g p (fst nm) (x_block buf, 0%nat)))) (run (drop_box buf)) (fun _ => b <~ run (assume_init buf) ;; done (Ok b))) s) ->
  dec_ok dl g src n spec -> (src = [] -> n = 0%nat) -> box_stops M grant fu f src n.
Proof.
  intros HM HX F0 U0 F1 U1 HD Hn0 m v b o HS HL HF s. destruct (HX m b o HS HL HF) as (r & m' & E & _).
  rewrite Z.ltb_antisym. destruct (Nat.eq_dec (length src) 0) as [E0|N].
  - apply length_zero_iff_nil in E0. subst src. rewrite (Hn0 eq_refl) in *. cbn [length] in *. assert (P := isize_nonneg M HM).
    destruct (Z.leb_spec (Z.of_nat 0) (isize_limit M)) as [_|]; [|cbn in *; lia]. cbn [negb Nat.eqb orb].
    exists r, m'. split; [exact E|]. rewrite U0. rewrite F0 in E. apply bind_bind in E. destruct E as (x & m1 & E1 & E2).
    injection E2 as <- <-. now rewrite (ubind_done _ _ s _ _ (run_ret _ s _ _ E1)).
  - assert (Q := U1 (b, o) (length src) s N). destruct (HD m b o HS N) as [(Ed & _ & ->)|(k & Ed & Hn & _)].
    + assert (P := isize_nonneg M HM). destruct (Z.leb_spec (Z.of_nat 0) (isize_limit M)) as [_|]; [|cbn in *; lia]. cbn [negb Nat.eqb orb].
      exists r, m'. split; [exact E|]. rewrite F1 in E by exact N. unfold try_ in E. rewrite (bind_ret _ _ _ _ _ Ed) in E. injection E as <- <-.
      unfold u_try at 1 in Q. rewrite (ubind_done _ _ s _ _ (run_ret _ s _ _ Ed)) in Q. exact Q.
    + destruct (Z.leb_spec (Z.of_nat n) (isize_limit M)) as [Lt|]; [|lia]. cbn [negb].
      destruct (Nat.eqb_spec n 0) as [|_]; [lia|]. cbn [orb].
      unfold u_try at 1 in Q. rewrite (ubind_done _ _ s _ _ (run_ret _ s _ _ Ed)) in Q. cbn [fst snd st_vec s] in Q.
      change {| st_mem := m; st_vec := v |} with s in Q. rewrite Q. clear Q. assert (A := alloc_u M grant n s ltac:(lia) Lt). destruct (grant n).
      * exists r, m'. split; [exact E|]. rewrite F1 in E by exact N. unfold try_ in E. rewrite (bind_ret _ _ _ _ _ Ed) in E. cbn [fst snd] in E.
        apply bind_bind in E. destruct E as (buf & m1 & E1 & E2). rewrite (run_ret _ s _ _ E1) in A. rewrite (ubind_done _ _ _ _ _ A). cbn [st_vec s].
        transitivity (run (try_drop (g (b, o) k (x_block buf, 0%nat)) (drop_box buf) (fun _ => b <- assume_init buf ;; ret (Ok b)))
          {| st_mem := m1; st_vec := v |}).
        -- unfold u_try, try_drop. rewrite run_bind. apply ubind_ext; [apply local_run|]. intros [a|] s1; rewrite run_bind;
             (apply ubind_ext; [reflexivity|]; intros; now rewrite run_done).
        -- now apply (run_ret _ {| st_mem := m1; st_vec := v |}).
      * exists s. split; [now rewrite (ubind_stop _ _ _ _ _ A)|apply untouched_refl].
Qed.

(** ** Appending *)
Lemma reserve_u M grant k m v : let s := {| st_mem := m; st_vec := v |} in
  u_reserve_exact M grant k s =
  if (v_len v + k <=? length (m (v_block v)))%nat || (negb (isize_limit M <? Z.of_nat (v_len v + k)) && grant (capacity M (v_len v + k)))
  then match reserve_exact M v k m with Ret v' m' => Done tt {| st_mem := m'; st_vec := v' |} | _ => Broken end
  else Stopped (if isize_limit M <? Z.of_nat (v_len v + k) then CapacityOverflow else NoMemory) s.
Proof.
  intro s. unfold u_reserve_exact, s. cbn [st_mem st_vec]. cbn zeta. unfold reserve_exact. cbn zeta.
  destruct (v_len v + k <=? length (m (v_block v)))%nat; cbn [orb]; [reflexivity|].
  destruct (isize_limit M <? Z.of_nat (v_len v + k)); cbn [negb andb]; [reflexivity|].
  now destruct (grant (capacity M (v_len v + k))).
Qed.

Lemma enc_app_stops M grant fu f L (g : ptr -> nat -> ptr -> Mem.M unit) src t : machine_ok M -> appends M f src t ->
  (forall p v, f p 0%nat v = ret v) -> (forall p, fu p 0%nat = done tt) ->
  (forall p n v, n <> 0%nat -> f p n v = (m <- L n ;; assert_ (m <=? usize_limit M / 2) ;;; buf <- reserve_exact M v (Z.to_nat m) ;;
                    let prev_len := v_len buf in dst <- padd (v_block buf, 0%nat) prev_len ;;
                    g p n dst ;;; set_len buf (prev_len + Z.to_nat m))) ->
  (forall p n, n <> 0%nat -> fu p n = (m <~ arith (L n) ;; uassert (m <=? usize_limit M / 2) ~;; u_reserve_exact M grant (Z.to_nat m) ~;;
                    buf <~ the_vec ;; let prev_len := v_len buf in dst <~ run (padd (v_block buf, 0%nat) prev_len) ;;
                    run (g p n dst) ~;; u_set_len (prev_len + Z.to_nat m))) ->
  (bytes src -> Z.of_nat (length src) <= isize_limit M -> enc_len_ok M (L (length src)) (length t)) -> (src = [] -> t = []) ->
  append_stops M grant fu f (fun _ v => v) src (length t) Asserted.
Proof.
  intros HM HX F0 U0 F1 U1 HLen Ht0 m v old b o HS HL HV HB HR s total0.
  assert (X := HX m b o v old HS HL HV HB HR). assert (T : exists total, total = (length old + length t)%nat) by eauto. destruct T as [total T].
  subst total0. rewrite <- T in *.
  assert (VL : v_len v = length old) by apply HV.
  assert (VC : (length old <= length (m (v_block v)))%nat /\ Z.of_nat (length (m (v_block v))) <= isize_limit M).
  { destruct HV as ([_ [Ho _]] & _ & Cap). split; [lia|exact Cap]. }
  destruct (Nat.eq_dec (length src) 0) as [E|N].
  - apply length_zero_iff_nil in E. subst src. rewrite (Ht0 eq_refl) in *. cbn [length] in *. assert (P := isize_nonneg M HM).
    destruct (Z.ltb_spec (isize_limit M) (Z.of_nat 0)) as [|_]; [cbn in *; lia|]. rewrite Nat.add_0_r in T. rewrite T in *.
    destruct (Z.ltb_spec (isize_limit M) (Z.of_nat (length old))) as [|_]; [lia|].
    destruct (Nat.leb_spec (length old) (length (m (v_block v)))) as [_|]; [|lia]. cbn [orb].
    exists tt, v, m. rewrite F0, U0. split; reflexivity.
  - specialize (HLen (proj1 HS) HL). rewrite F1 in * by exact N. rewrite U1 by exact N.
    rewrite (ubind_done _ _ s (Z.of_nat (length t)) s) by (apply arith_ok; exact HLen).
    rewrite (bind_ret _ _ _ _ _ (HLen m)) in *. rewrite half_limit in * by exact HM. rewrite Nat2Z.id in *.
    rewrite (Z.ltb_antisym _ (isize_limit M)). destruct (Z.leb_spec (Z.of_nat (length t)) (isize_limit M)) as [Lt|Lt]; cbn [negb].
    2:{ destruct (Z.leb_spec (Z.of_nat total) (isize_limit M)); [lia|]. split; [exact X|]. exists s. split; [|apply untouched_refl]. reflexivity. }
    rewrite (ubind_done _ _ s tt s) by reflexivity. rewrite (bind_ret (assert_ true) _ m tt m) in * by reflexivity.
    assert (A := reserve_u M grant (length t) m v). cbn zeta in A. rewrite VL, <- T in A. fold s in A. rewrite Z.ltb_antisym in *.
    destruct (Z.leb_spec (Z.of_nat total) (isize_limit M)) as [Lo|Lo]; cbn [negb andb] in *.
    2:{ destruct (Nat.leb_spec total (length (m (v_block v)))); [lia|]. cbn [orb] in A. split; [exact X|]. exists s.
        split; [now rewrite (ubind_stop _ _ _ _ _ A)|apply untouched_refl]. }
    destruct ((total <=? length (m (v_block v)))%nat || grant (capacity M total)).
    2:{ exists s. split; [now rewrite (ubind_stop _ _ _ _ _ A)|apply untouched_refl]. }
    destruct X as (v' & m' & E & _). exists tt, v', m'. split; [exact E|].
    rewrite (bind_ret (assert_ true) _ m tt m) in E by reflexivity. apply bind_bind in E. destruct E as (v1 & m1 & E1 & E). rewrite E1 in A. rewrite (ubind_done _ _ _ _ _ A). cbn zeta in E.
    apply bind_bind in E. destruct E as (dst & m2 & E2 & E). apply bind_bind in E. destruct E as ([] & m3 & E3 & E4).
    set (s1 := {| st_mem := m1; st_vec := v1 |}). rewrite (ubind_done _ _ s1 v1 s1) by reflexivity. cbn zeta.
    rewrite (ubind_done _ _ _ _ _ (run_ret _ s1 _ _ E2)). cbn [st_vec s1].
    rewrite (ubind_done _ _ _ _ _ (run_ret _ {| st_mem := m2; st_vec := v1 |} _ _ E3)). cbn [st_vec].
    unfold u_set_len. cbn [st_vec st_mem]. now rewrite E4.
Qed.

Lemma dec_app_stops M grant fu f dl g src n spec why : machine_ok M -> tries_append M f src n spec ->
  (forall p v, f p 0%nat v = ret (Ok tt, v)) -> (forall p, fu p 0%nat = done (Ok tt)) ->
  (forall p n v, n <> 0%nat -> f p n v = try_vec (dl p n) v (fun nm => buf <- reserve_exact M v (snd nm) ;;
          let prev_len := v_len buf in dst <- padd (v_block buf, 0%nat) prev_len ;;
          try_vec (g p (fst nm) dst) buf (fun _ => buf <- set_len buf (prev_len + snd nm) ;; ret (Ok tt, buf)))) ->
  (forall p n s, n <> 0%nat -> fu p n s = u_try (run (dl p n)) nothing (fun nm => u_reserve_exact M grant (snd nm) ~;;
          buf <~ the_vec ;; let prev_len := v_len buf in dst <~ run (padd (v_block buf, 0%nat) prev_len) ;;
          u_try (run (g p (fst nm) dst)) nothing (fun _ => u_set_len (prev_len + snd nm) ~;; done (Ok tt))) s) ->
  dec_ok dl g src n spec -> (src = [] -> n = 0%nat) -> append_stops M grant fu f (fun r v => (r, v)) src n why.
Proof.
  intros HM HX F0 U0 F1 U1 HD Hn0 m v old b o HS HL HV HB HR s total0.
  assert (X := HX m b o v old HS HL HV HB HR). assert (T : exists total, total = (length old + n)%nat) by eauto. destruct T as [total T].
  subst total0. rewrite <- T in *.
  assert (VL : v_len v = length old) by apply HV. assert (P := isize_nonneg M HM).
  assert (VC : (length old <= length (m (v_block v)))%nat /\ Z.of_nat (length (m (v_block v))) <= isize_limit M).
  { destruct HV as ([_ [Ho _]] & _ & Cap). split; [lia|exact Cap]. }
  destruct (Nat.eq_dec (length src) 0) as [E|N].
  - apply length_zero_iff_nil in E. subst src. rewrite (Hn0 eq_refl) in *. cbn [length] in *.
    destruct (Z.ltb_spec (isize_limit M) (Z.of_nat 0)) as [|_]; [cbn in *; lia|]. rewrite Nat.add_0_r in T. rewrite T in *.
    destruct (Z.ltb_spec (isize_limit M) (Z.of_nat (length old))) as [|_]; [lia|].
    destruct (Nat.leb_spec (length old) (length (m (v_block v)))) as [_|]; [|lia]. cbn [orb].
    exists (Ok tt), v, m. rewrite F0, U0. split; reflexivity.
  - assert (QF := f_equal (fun h => h m) (F1 (b, o) (length src) v N)). cbn beta in QF.
    assert (Q := U1 (b, o) (length src) s N). destruct (HD m b o HS N) as [(Ed & _ & ->)|(k & Ed & Hn & _)];
      unfold try_vec at 1 in QF; rewrite (bind_ret _ _ _ _ _ Ed) in QF; cbn [fst snd] in QF;
      unfold u_try at 1 in Q; rewrite (ubind_done _ _ s _ _ (run_ret _ s _ _ Ed)) in Q; cbn [fst snd st_vec s] in Q;
      change {| st_mem := m; st_vec := v |} with s in Q; rewrite Q; clear Q.
    + destruct (Z.ltb_spec (isize_limit M) (Z.of_nat 0)) as [|_]; [cbn in *; lia|]. rewrite Nat.add_0_r in T. rewrite T in *.
      destruct (Z.ltb_spec (isize_limit M) (Z.of_nat (length old))) as [|_]; [lia|].
      destruct (Nat.leb_spec (length old) (length (m (v_block v)))) as [_|]; [|lia]. cbn [orb].
      exists Err, v, m. split; [exact QF|reflexivity].
    + destruct (Z.ltb_spec (isize_limit M) (Z.of_nat n)) as [|_]; [lia|].
      assert (A := reserve_u M grant n m v). cbn zeta in A. rewrite VL, <- T in A. fold s in A. rewrite Z.ltb_antisym in *.
      destruct (Z.leb_spec (Z.of_nat total) (isize_limit M)) as [Lo|Lo]; cbn [negb andb] in *.
      2:{ destruct (Nat.leb_spec total (length (m (v_block v)))); [lia|]. cbn [orb] in A. split; [exact X|]. exists s.
          split; [now rewrite (ubind_stop _ _ _ _ _ A)|apply untouched_refl]. }
      destruct ((total <=? length (m (v_block v)))%nat || grant (capacity M total)).
      2:{ exists s. split; [now rewrite (ubind_stop _ _ _ _ _ A)|apply untouched_refl]. }
      destruct X as (r & v' & m' & E & _). exists r, v', m'. split; [exact E|]. rewrite QF in E.
      apply bind_bind in E. destruct E as (v1 & m1 & E1 & E). rewrite E1 in A. rewrite (ubind_done _ _ _ _ _ A). cbn zeta in E.
      apply bind_bind in E. destruct E as (dst & m2 & E2 & E). unfold try_vec in E. apply bind_bind in E. destruct E as (r0 & m3 & E3 & E4).
      set (s1 := {| st_mem := m1; st_vec := v1 |}). rewrite (ubind_done _ _ s1 v1 s1) by reflexivity. cbn zeta.
      rewrite (ubind_done _ _ _ _ _ (run_ret _ s1 _ _ E2)). cbn [st_vec s1]. unfold u_try.
      rewrite (ubind_done _ _ _ _ _ (run_ret _ {| st_mem := m2; st_vec := v1 |} _ _ E3)). cbn [st_vec]. destruct r0 as [[]|].
      * apply bind_bind in E4. destruct E4 as (v2 & m4 & E4 & E5). injection E5 as <- <- <-.
        unfold u_set_len, ubind. cbn [st_vec st_mem]. now rewrite E4.
      * injection E4 as <- <- <-. reflexivity.
Qed.

(** ** The functions *)
Ltac ustart := start; try (let p := fresh in let n := fresh "n" in let s := fresh in let H := fresh in intros p n s H; nonzero n H; reflexivity).
Ltac ugen L g := first [apply (enc_box_stops _ _ _ _ L g) | apply (enc_app_stops _ _ _ _ L g)].

Lemma hex_box_stops M grant s case src : machine_ok M ->
  box_stops M grant (u_hex_encode_to_boxed_str M grant s case) (hex_encode_to_boxed_str M s case) src (length (rfc_hex_encode (lut_of case) src)).
Proof.
  intro HM. ugen (fun n => usize M (Z.of_nat n * 2)) (fun p n q => hex_encode_impl s p n q case); auto; ustart.
  - now apply hex_box.
  - intros _ L. rewrite hex_encode_len. now apply hex_len_ok.
  - now intros ->.
  - intros _. rewrite hex_encode_len. lia.
Qed.
Lemma hex_append_stops M grant s case src : machine_ok M ->
  append_stops M grant (u_hex_encode_append_vec M grant s case) (hex_encode_append_vec M s case) (fun _ v => v) src
    (length (rfc_hex_encode (lut_of case) src)) Asserted.
Proof.
  intro HM. ugen (fun n => usize M (Z.of_nat n * 2)) (fun p n q => hex_encode_impl s p n q case); auto; ustart.
  - now apply hex_append.
  - intros _ L. rewrite hex_encode_len. now apply hex_len_ok.
  - now intros ->.
Qed.
Lemma hex_try_stops M grant s src : machine_ok M ->
  box_stops M grant (u_hex_decode_to_boxed_bytes M grant s) (hex_decode_to_boxed_bytes M s) src (hex_need src).
Proof.
  intro HM. apply (dec_box_stops M grant _ _ hex_dl (hex_decode_impl s) src (hex_need src) (rfc_hex_decode src)); auto; ustart.
  - now apply hex_try.
  - intros p n H. unfold hex_decode_to_boxed_bytes, hex_dl. nonzero n H. cbn [Nat.eqb]. destruct (negb _); reflexivity.
  - intros p n st H. unfold u_hex_decode_to_boxed_bytes, hex_dl, u_try, run, ubind. nonzero n H. cbn [Nat.eqb]. destruct st. destruct (negb _); reflexivity.
  - apply hex_dec.
  - now intros ->.
Qed.
Lemma hex_try_append_stops M grant s src why : machine_ok M ->
  append_stops M grant (u_hex_decode_append_vec M grant s) (hex_decode_append_vec M s) (fun r v => (r, v)) src (hex_need src) why.
Proof.
  intro HM. apply (dec_app_stops M grant _ _ hex_dl (hex_decode_impl s) src (hex_need src) (rfc_hex_decode src)); auto; ustart.
  - now apply hex_try_append.
  - intros p n v H. unfold hex_decode_append_vec, hex_dl. nonzero n H. cbn [Nat.eqb]. destruct (negb _); reflexivity.
  - intros p n st H. unfold u_hex_decode_append_vec, hex_dl, u_try, run, ubind. nonzero n H. cbn [Nat.eqb]. destruct st. destruct (negb _); reflexivity.
  - apply hex_dec.
  - now intros ->.
Qed.

Lemma b64_box_stops M grant s cfg src : machine_ok M -> b64_isa s ->
  box_stops M grant (u_b64_encode_to_boxed_str M grant s cfg) (b64_encode_to_boxed_str M s cfg) src (length (b64_rfc cfg src)).
Proof.
  intros HM Hs. ugen (fun n => b64_encoded_length_usize M (Z.of_nat n) cfg) (fun p n q => b64_encode_impl s p n q cfg); auto; ustart.
  - now apply b64_box.
  - intros B L. rewrite b64_rfc_len by exact B. now apply b64_len_ok.
  - intros ->. apply length_zero_iff_nil. rewrite b64_rfc_len by constructor. reflexivity.
  - intros B N. rewrite b64_rfc_len by exact B. unfold b64_encoded_length_unchecked. cbn zeta.
    destruct (Nat.eqb_spec (length src mod 3) 0); [lia|]. destruct (b64_padding _); lia.
Qed.
Lemma b64_append_stops M grant s cfg src : machine_ok M -> b64_isa s ->
  append_stops M grant (u_b64_encode_append_vec M grant s cfg) (b64_encode_append_vec M s cfg) (fun _ v => v) src
    (length (b64_rfc cfg src)) Asserted.
Proof.
  intros HM Hs. ugen (fun n => b64_encoded_length_usize M (Z.of_nat n) cfg) (fun p n q => b64_encode_impl s p n q cfg); auto; ustart.
  - now apply b64_append.
  - intros B L. rewrite b64_rfc_len by exact B. now apply b64_len_ok.
  - intros ->. apply length_zero_iff_nil. rewrite b64_rfc_len by constructor. reflexivity.
Qed.
Lemma b64_try_stops M grant en s cfg src : machine_ok M -> b64_isa s ->
  box_stops M grant (u_b64_decode_to_boxed_bytes M grant en s cfg) (b64_decode_to_boxed_bytes M en s cfg) src (b64_need cfg src).
Proof.
  intros HM Hs. apply (dec_box_stops M grant _ _ (fun p n => b64_decoded_length p n cfg) (fun p n q => b64_decode_impl en s p q n cfg)
    src (b64_need cfg src) (b64_dec cfg src)); auto; ustart.
  - now apply b64_try.
  - now apply b64_dec_impl.
  - intros ->. apply b64_dec_nil.
Qed.
Lemma b64_try_append_stops M grant en s cfg src why : machine_ok M -> b64_isa s ->
  append_stops M grant (u_b64_decode_append_vec M grant en s cfg) (b64_decode_append_vec M en s cfg) (fun r v => (r, v)) src (b64_need cfg src) why.
Proof.
  intros HM Hs. apply (dec_app_stops M grant _ _ (fun p n => b64_decoded_length p n cfg) (fun p n q => b64_decode_impl en s p q n cfg)
    src (b64_need cfg src) (b64_dec cfg src)); auto; ustart.
  - now apply b64_try_append.
  - now apply b64_dec_impl.
  - intros ->. apply b64_dec_nil.
Qed.

Lemma b32_box_stops M grant t s cfg src : machine_ok M -> b32_isa s ->
  box_stops M grant (u_b32_encode_to_boxed_str M grant t s cfg) (b32_encode_to_boxed_str M t s cfg) src (length (b32_rfc cfg src)).
Proof.
  intros HM Hs. ugen (fun n => b32_encoded_length_usize M (Z.of_nat n) (b32_padding cfg))
    (fun p n q => b32_encode_impl t s p n q (b32_kind_of cfg) (b32_padding cfg)); auto; ustart.
  - now apply b32_box.
  - intros B L. rewrite b32_rfc_len by exact B. now apply b32_len_ok'.
  - intros ->. apply length_zero_iff_nil. rewrite b32_rfc_len by constructor. reflexivity.
  - intros B N. rewrite b32_rfc_len by exact B. unfold b32_encoded_length_unchecked. cbn zeta.
    destruct (Nat.eqb_spec (length src mod 5) 0); [lia|]. destruct (b32_padding _); [lia|].
    assert (C : (length src mod 5 = 1 \/ length src mod 5 = 2 \/ length src mod 5 = 3 \/ length src mod 5 = 4)%nat) by lia.
    destruct C as [->|[->|[->| ->]]]; cbn [nth]; lia.
Qed.
Lemma b32_append_stops M grant t s cfg src : machine_ok M -> b32_isa s ->
  append_stops M grant (u_b32_encode_append_vec M grant t s cfg) (b32_encode_append_vec M t s cfg) (fun _ v => v) src
    (length (b32_rfc cfg src)) Asserted.
Proof.
  intros HM Hs. ugen (fun n => b32_encoded_length_usize M (Z.of_nat n) (b32_padding cfg))
    (fun p n q => b32_encode_impl t s p n q (b32_kind_of cfg) (b32_padding cfg)); auto; ustart.
  - now apply b32_append.
  - intros B L. rewrite b32_rfc_len by exact B. now apply b32_len_ok'.
  - intros ->. apply length_zero_iff_nil. rewrite b32_rfc_len by constructor. reflexivity.
Qed.
Lemma b32_try_stops M grant t s cfg src : machine_ok M -> b32_isa s ->
  box_stops M grant (u_b32_decode_to_boxed_bytes M grant t s cfg) (b32_decode_to_boxed_bytes M t s cfg) src (b32_need cfg src).
Proof.
  intros HM Hs. apply (dec_box_stops M grant _ _ (fun p n => b32_decoded_length p n (b32_padding cfg))
    (fun p n q => b32_decode_impl t s p n q (b32_kind_of cfg)) src (b32_need cfg src) (b32_dec cfg src)); auto; ustart.
  - now apply b32_try.
  - now apply b32_dec_impl.
  - intros ->. apply b32_dec_nil.
Qed.
Lemma b32_try_append_stops M grant t s cfg src why : machine_ok M -> b32_isa s ->
  append_stops M grant (u_b32_decode_append_vec M grant t s cfg) (b32_decode_append_vec M t s cfg) (fun r v => (r, v)) src (b32_need cfg src) why.
Proof.
  intros HM Hs. apply (dec_app_stops M grant _ _ (fun p n => b32_decoded_length p n (b32_padding cfg))
    (fun p n q => b32_decode_impl t s p n q (b32_kind_of cfg)) src (b32_need cfg src) (b32_dec cfg src)); auto; ustart.
  - now apply b32_try_append.
  - now apply b32_dec_impl.
  - intros ->. apply b32_dec_nil.
Qed.

(** the bytes that [forgiving_decode_to_vec] asks the allocator for *)
Definition forgiving_request (M : machine) (src : list Z) : nat :=
  if existsb ascii_whitespace src then capacity M (length src) else b64_need STANDARD_FORGIVING src.
Lemma find_ws_all src : (find_ws src =? length src)%nat = negb (existsb ascii_whitespace src).
Proof.
  destruct (Nat.eqb_spec (find_ws src) (length src)) as [E|N].
  - pose proof (find_ws_firstn src) as H. rewrite E, firstn_all in H. unfold ws in H. now rewrite H.
  - pose proof (find_ws_le src). assert (W := find_ws_nth src ltac:(lia)).
    replace (existsb ascii_whitespace src) with true; [reflexivity|]. symmetry. apply existsb_exists.
    exists (nth (find_ws src) src 0). split; [apply nth_In; lia|exact W].
Qed.
Lemma local_of_run {A} d (c : U A) (r : Mem.M A) s : c s = run r s -> local d c s = run r s.
Proof. intro E. rewrite <- (local_run d r s). unfold local. now rewrite E. Qed.
Lemma forgiving_stops M grant en s1 s2 src : machine_ok M -> b64_isa s2 ->
  box_stops M grant (u_forgiving_decode_to_vec M grant en s1 s2) (forgiving_decode_to_vec M en s1 s2) src (forgiving_request M src).
Proof.
  intros HM Hs m v b o HS HL HF s. destruct (forgiving_to_vec M en s1 s2 src HM Hs m b o HS HL HF) as (r & m' & E & _).
  assert (E0 := E). unfold forgiving_decode_to_vec in E.
  assert (Ef : find_non_ascii_whitespace s1 (b, o) (length src) m = Ret (find_ws src) m)
    by (apply wp_det; apply find_ok; [apply HS|apply HS]).
  pose proof (find_ws_le src) as Hp.
  assert (Ed : debug_assert (find_ws src <=? length src)%nat m = Ret tt m) by (unfold debug_assert; rewrite (proj2 (Nat.leb_le _ _) Hp); reflexivity).
  rewrite (bind_ret _ _ _ _ _ Ef), (bind_ret _ _ _ _ _ Ed) in E.
  assert (Q : u_forgiving_decode_to_vec M grant en s1 s2 (b, o) (length src) s = u_forgiving_decode_to_vec M grant en s1 s2 (b, o) (length src) s) by reflexivity.
  unfold u_forgiving_decode_to_vec at 2 in Q.
  rewrite (ubind_done _ _ _ _ _ (run_ret _ s _ _ Ef)) in Q. change {| st_mem := m; st_vec := st_vec s |} with s in Q.
  rewrite (ubind_done _ _ _ _ _ (run_ret _ s _ _ Ed)) in Q. change {| st_mem := m; st_vec := st_vec s |} with s in Q.
  unfold forgiving_request. rewrite find_ws_all in *. destruct (existsb ascii_whitespace src) eqn:W; cbn [negb] in *.
  - assert (LC : (length src <= capacity M (length src))%nat /\ Z.of_nat (capacity M (length src)) <= isize_limit M) by (unfold capacity; lia).
    assert (N0 : (length src <> 0)%nat) by (destruct src; [discriminate W|discriminate]).
    destruct (Z.ltb_spec (isize_limit M) (Z.of_nat (capacity M (length src)))) as [|_]; [lia|].
    destruct (Nat.eqb_spec (capacity M (length src)) 0) as [|_]; [lia|]. cbn [orb].
    assert (A : u_with_capacity M grant (length src) s = if grant (capacity M (length src)) then run (with_capacity M (length src)) s else Stopped NoMemory s).
    { unfold u_with_capacity. destruct (Z.ltb_spec (isize_limit M) (Z.of_nat (length src))) as [|_]; [lia|].
      now destruct (Nat.eqb_spec (length src) 0). }
    destruct (grant (capacity M (length src))).
    2:{ exists s. rewrite Q, (ubind_stop _ _ _ _ _ A). split; [reflexivity|apply untouched_refl]. }
    exists r, m'. split; [exact E0|]. rewrite Q. clear Q. apply bind_bind in E. destruct E as (v1 & m1 & E1 & E).
    rewrite (run_ret _ s _ _ E1) in A. rewrite (ubind_done _ _ _ _ _ A). cbn zeta in E |- *. 
    assert (R := run_ret _ {| st_mem := m1; st_vec := v |} _ _ E). cbn [st_vec] in R. rewrite <- R.
    apply local_of_run. rewrite run_bind. apply ubind_ext; [reflexivity|]. intros _ s3.
    rewrite run_bind. apply ubind_ext; [reflexivity|]. intros p3 s4. rewrite run_bind. apply ubind_ext; [reflexivity|]. intros l3 s5.
    rewrite run_bind. apply ubind_ext; [reflexivity|]. intros d3 s6. rewrite run_bind. apply ubind_ext; [reflexivity|]. intros r3 s7.
    rewrite run_bind. apply ubind_ext; [reflexivity|]. intros _ s8. unfold u_try, try_drop. rewrite run_bind. apply ubind_ext; [reflexivity|].
    intros [a|] s9; rewrite run_bind; (apply ubind_ext; [reflexivity|]; intros; now rewrite run_done).
  - assert (X := b64_try_stops M grant en s2 STANDARD_FORGIVING src HM Hs m v b o HS HL HF). cbn zeta in X. fold s in X.
    pose proof (b64_need_le STANDARD_FORGIVING src). destruct (Z.ltb_spec (isize_limit M) (Z.of_nat (b64_need STANDARD_FORGIVING src))) as [|_]; [lia|].
    destruct ((b64_need STANDARD_FORGIVING src =? 0)%nat || grant (b64_need STANDARD_FORGIVING src)).
    + destruct X as (a & m1 & X1 & X2). rewrite (bind_ret _ _ _ _ _ X1) in E. injection E as <- <-. eexists _, m1. split; [exact E0|].
      rewrite Q, (ubind_done _ _ _ _ _ X2). reflexivity.
    + destruct X as (s' & X1 & X2). exists s'. rewrite Q, (ubind_stop _ _ _ _ _ X1). split; [reflexivity|exact X2].
Qed.
