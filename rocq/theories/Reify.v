(** The functions of the crates as programs of single memory accesses (Conc.v).

    [reified H P Q c]: a program that does what [c] does; if [H], then its stores all go to allocations in [P], whatever its
    loads return, and its results satisfy [Q]. The programs are built from the definitions of Hex.v, Base64.v, ... by following their
    structure: one access of the program for one access of the model. [H] and [Q] only serve to remember which pointers point
    into the destination. Lemmas only. *)
From Coq Require Import ZArith List Bool Lia.
From Verif Require Import Bytes Mem Slices Isa Simd Alsw Ints Conc ConcFacts ConcBase64Facts.
From Verif Require Hex Base64 Base32 Uuid Unicode Forgiving.
Import ListNotations.
Open Scope nat_scope. Open Scope m_scope.

Fixpoint stores_in (P : nat -> Prop) {A} (Q : A -> Prop) (p : prog A) : Prop :=
  match p with
  | Done a => Q a
  | Fail _ => True
  | Size b k => forall n, stores_in P Q (k n)
  | Load q n k => forall l, stores_in P Q (k l)
  | Store q xs k => P (fst q) /\ stores_in P Q k
  end.
Record reified (H : Prop) (P : nat -> Prop) {A} (Q : A -> Prop) (c : M A) : Type := {
  the_prog : prog A;
  reified_fol : follows c the_prog;
  reified_in : H -> stores_in P Q the_prog }.
Arguments the_prog {H P A Q c}. Arguments reified_fol {H P A Q c}. Arguments reified_in {H P A Q c}.
Lemma follows_imp {A} (c : M A) p : follows c p -> implements p c.
Proof.
  induction 1; try now intro.
  - apply imp_padd.
  - apply imp_psub.
  - apply imp_load.
  - apply imp_store.
  - now apply imp_bind.
Qed.
Lemma reified_imp {H P A Q} {c : M A} (r : reified H P Q c) : implements (the_prog r) c.
Proof. apply follows_imp, reified_fol. Qed.
Definition any {A} (a : A) : Prop := True.
Definition ok {A} (Q : A -> Prop) (r : result A) : Prop := match r with Ok a => Q a | Err => True end.
(** the second pointer of the state of a loop points into [d] *)
Definition to2 (d : nat) (st : ptr * ptr) : Prop := fst (snd st) = d.
Definition to3 {X} (d : nat) (st : ptr * ptr * X) : Prop := fst (snd (fst st)) = d.

(** ** How programs are put together *)
Lemma si_bind P {A B} (Q : A -> Prop) (R : B -> Prop) (p : prog A) f :
  stores_in P Q p -> (forall a, Q a -> stores_in P R (f a)) -> stores_in P R (pbind p f).
Proof.
  intros H K. induction p as [a|x|b k IH|q n k IH|q xs k IH]; cbn [pbind stores_in] in *; auto. split; [apply H|]. apply IH, H.
Qed.
Lemma si_mono P {A} (Q R : A -> Prop) (p : prog A) : stores_in P Q p -> (forall a, Q a -> R a) -> stores_in P R p.
Proof. intros H K. induction p as [a|x|b k IH|q n k IH|q xs k IH]; cbn [stores_in] in *; auto. split; [apply H|]. apply IH, H. Qed.
Lemma rei_mono {H : Prop} {P : nat -> Prop} {A} (Q R : A -> Prop) (c : M A) : (forall a, Q a -> R a) -> reified H P Q c -> reified H P R c.
Proof. intros K r. exists (the_prog r); [apply reified_fol|]. intro h. exact (si_mono _ _ _ _ (reified_in r h) K). Defined.
Lemma rei_weaken {H : Prop} {P : nat -> Prop} {A} (Q R : A -> Prop) (c : M A) : (H -> forall a, Q a -> R a) -> reified H P Q c -> reified H P R c.
Proof. intros K r. exists (the_prog r); [apply reified_fol|]. intro h. exact (si_mono _ _ _ _ (reified_in r h) (K h)). Defined.
Lemma rei_any {H : Prop} {P : nat -> Prop} {A} (Q : A -> Prop) (c : M A) : reified H P Q c -> reified H P any c.
Proof. apply rei_mono. intros a _. exact I. Defined.
Lemma rei_ret {H : Prop} {P : nat -> Prop} {A} (Q : A -> Prop) (a : A) : (H -> Q a) -> reified H P Q (ret a).
Proof. intro K. exists (Done a); [apply fol_ret|exact K]. Defined.
Lemma rei_ub {H : Prop} {P : nat -> Prop} {A} (Q : A -> Prop) : reified H P Q (@ub A).
Proof. exists (Fail Undefined); [apply fol_ub|now intro]. Defined.
Lemma rei_panic {H : Prop} {P : nat -> Prop} {A} (Q : A -> Prop) : reified H P Q (@panic A).
Proof. exists (Fail Panicked); [apply fol_panic|now intro]. Defined.
Lemma rei_lift {H : Prop} {P : nat -> Prop} {A} (o : option A) : reified H P any (lift o).
Proof. exists (p_lift o); [destruct o; constructor|]. intro h. now destruct o. Defined.
Lemma rei_bind {H : Prop} {P : nat -> Prop} {A B} (Q : A -> Prop) (R : B -> Prop) (c : M A) (f : A -> M B) :
  reified H P Q c -> (forall a, reified (H /\ Q a) P R (f a)) -> reified H P R (bind c f).
Proof.
  intros r K. exists (pbind (the_prog r) (fun a => the_prog (K a))).
  - apply fol_bind; [apply reified_fol|]. intro a. apply reified_fol.
  - intro h. apply (si_bind _ _ _ _ _ (reified_in r h)). intros a q. apply reified_in. now split.
Defined.
Lemma rei_try {H : Prop} {P : nat -> Prop} {A B} (Q : A -> Prop) (R : B -> Prop) (c : M (result A)) (f : A -> M (result B)) :
  reified H P (ok Q) c -> (forall a, reified (H /\ Q a) P (ok R) (f a)) -> reified H P (ok R) (try_ c f).
Proof.
  intros C K. apply (rei_bind (ok Q)); [exact C|]. intros [a|]; cbn [ok]; [apply K|]. apply rei_ret. now intro.
Defined.
Lemma rei_padd {H : Prop} {P : nat -> Prop} p k : reified H P (fun q => fst q = fst p) (padd p k).
Proof. exists (p_padd p k); [apply fol_padd|]. intros _ n. now destruct (_ <=? _). Defined.
Lemma rei_psub {H : Prop} {P : nat -> Prop} p k : reified H P (fun q => fst q = fst p) (psub p k).
Proof. exists (p_psub p k); [apply fol_psub|]. intros _. unfold p_psub. now destruct (_ <=? _). Defined.
Lemma rei_load {H : Prop} {P : nat -> Prop} p n : reified H P any (load p n).
Proof. exists (p_load p n); [apply fol_load|]. now intros _ l. Defined.
Lemma rei_store {H : Prop} {P : nat -> Prop} p xs : (H -> P (fst p)) -> reified H P any (store p xs).
Proof. intro K. exists (p_store p xs); [apply fol_store|]. intro h. split; [now apply K|exact I]. Defined.
Lemma rei_read {H : Prop} {P : nat -> Prop} p i : reified H P any (read p i).
Proof.
  apply (rei_bind _ _ _ _ (rei_padd p i)). intro q. apply (rei_bind _ _ _ _ (rei_load q 1)).
  intros [|x [|y l]]; [apply rei_ub|now apply rei_ret|apply rei_ub].
Defined.
Lemma rei_write {H : Prop} {P : nat -> Prop} p i x : (H -> P (fst p)) -> reified H P any (write p i x).
Proof. intro K. apply (rei_bind _ _ _ _ (rei_padd p i)). intro q. apply rei_store. intros [h ->]. now apply K. Defined.
Lemma rei_table {H : Prop} {P : nat -> Prop} t i : reified H P any (table_get t i).
Proof. unfold table_get. destruct (i <? 0)%Z; [apply rei_ub|]. destruct (nth_error t (Z.to_nat i)); [now apply rei_ret|apply rei_ub]. Defined.
Lemma rei_offset {H : Prop} {P : nat -> Prop} p q : reified H P any (offset_from p q).
Proof. unfold offset_from. destruct (_ && _)%bool; [now apply rei_ret|apply rei_ub]. Defined.
Lemma rei_psub_len {H : Prop} {P : nat -> Prop} n k : reified H P any (psub_len n k).
Proof. unfold psub_len. destruct (_ <=? _); [now apply rei_ret|apply rei_ub]. Defined.
Lemma rei_while {H : Prop} {P : nat -> Prop} {S} (J : S -> Prop) fuel cond (body : S -> M S) : (forall s, reified (H /\ J s) P J (body s)) ->
  forall s, (H -> J s) -> reified H P J (while_ fuel cond body s).
Proof.
  intros K s j. exists (p_while fuel cond (fun s => the_prog (K s)) s).
  - clear j. revert s. induction fuel as [|f IH]; intro s; cbn [while_ p_while]; [apply fol_fuel|].
    destruct (cond s); [|apply fol_ret]. apply fol_bind; [apply reified_fol|exact IH].
  - intro h. specialize (j h). revert s j. induction fuel as [|f IH]; intros s j; cbn [p_while]; [exact I|].
    destruct (cond s); [|exact j]. apply (si_bind _ J); [now apply (reified_in (K s))|exact IH].
Defined.
Fixpoint p_while_res {S} (fuel : nat) (cond : S -> bool) (body : S -> prog (result S)) (s : S) : prog (result S) :=
  match fuel with
  | O => Fail NoFuel
  | Datatypes.S f => if cond s then pbind (body s) (fun r => match r with Err => Done Err | Ok s' => p_while_res f cond body s' end) else Done (Ok s)
  end.
Lemma rei_while_res {H : Prop} {P : nat -> Prop} {S} (J : S -> Prop) fuel cond (body : S -> M (result S)) : (forall s, reified (H /\ J s) P (ok J) (body s)) ->
  forall s, (H -> J s) -> reified H P (ok J) (while_res fuel cond body s).
Proof.
  intros K s j. exists (p_while_res fuel cond (fun s => the_prog (K s)) s).
  - clear j. revert s. induction fuel as [|f IH]; intro s; cbn [while_res p_while_res]; [apply fol_fuel|].
    destruct (cond s); [|apply fol_ret]. apply fol_bind; [apply reified_fol|]. intros [s'|]; [apply IH|apply fol_ret].
  - intro h. specialize (j h). revert s j. induction fuel as [|f IH]; intros s j; cbn [p_while_res]; [exact I|].
    destruct (cond s); [|exact j]. apply (si_bind _ (ok J)); [now apply (reified_in (K s))|]. intros [s'|]; [apply IH|exact (fun h => h)].
Defined.
Fixpoint p_while_break {S} (fuel : nat) (cond : S -> bool) (body : S -> prog (S * bool)) (s : S) : prog S :=
  match fuel with
  | O => Fail NoFuel
  | Datatypes.S f => if cond s then pbind (body s) (fun r => if snd r then Done (fst r) else p_while_break f cond body (fst r)) else Done s
  end.
Lemma rei_while_break {H : Prop} {P : nat -> Prop} {S} fuel cond (body : S -> M (S * bool)) : (forall s, reified H P any (body s)) ->
  forall s, reified H P any (while_break fuel cond body s).
Proof.
  intros K s. exists (p_while_break fuel cond (fun s => the_prog (K s)) s).
  - revert s. induction fuel as [|f IH]; intro s; cbn [while_break p_while_break]; [apply fol_fuel|].
    destruct (cond s); [|apply fol_ret]. apply fol_bind; [apply reified_fol|]. intros [s' []]; cbn [fst snd]; [apply fol_ret|apply IH].
  - intro h. revert s. induction fuel as [|f IH]; intro s; cbn [p_while_break]; [exact I|].
    destruct (cond s); [|exact I]. apply (si_bind _ any); [now apply (reified_in (K s))|]. intros [s' []] _; cbn [fst snd]; [exact I|apply IH].
Defined.
Lemma rei_for {H : Prop} {P : nat -> Prop} {S} (J : S -> Prop) n : forall i (body : nat -> S -> M S), (forall i s, reified (H /\ J s) P J (body i s)) ->
  forall s, (H -> J s) -> reified H P J (for_ n i body s).
Proof.
  intros i body K s j. exists (p_for n i (fun i s => the_prog (K i s)) s).
  - clear j. revert i s. induction n as [|n IH]; intros i s; cbn [for_ p_for]; [apply fol_ret|]. apply fol_bind; [apply reified_fol|intro; apply IH].
  - intro h. specialize (j h). revert i s j. induction n as [|n IH]; intros i s j; cbn [p_for]; [exact j|].
    apply (si_bind _ J); [now apply (reified_in (K i s))|intros; now apply IH].
Defined.

(** ** A tactic that follows the structure of a definition. *)
(** what to remember of a result of type [T] when the destination is in block [d] *)
Ltac about H P T :=
  lazymatch P with
  | eq ?d => lazymatch T with
    | (ptr * ptr)%type => constr:(to2 d)
    | (ptr * ptr * ?X)%type => constr:(@to3 X d)
    | result ?X => let q := about H P X in constr:(@ok X q)
    | _ => constr:(@any T)
    end
  | _ => lazymatch T with
    | result ?X => constr:(@ok X (@any X))
    | _ => constr:(@any T)
    end
  end.
Ltac rei_side := let h := fresh "h" in intro h;
  repeat match goal with h' : _ /\ _ |- _ => destruct h' end;
  unfold to2, to3, ok, any in *; cbn [fst snd] in *;
  repeat match goal with K : ?X -> _ = _, h' : ?X |- _ => specialize (K h') end;
  repeat match goal with |- match ?x with _ => _ end => destruct x end;
  first [exact I | congruence].
Ltac rei_named := solve [auto 1 with reif nocore].
Ltac rei1 := cbv zeta;
  lazymatch goal with
  | |- reified ?H ?P ?Q ?c =>
    lazymatch c with
    | ret _ => apply rei_ret; rei_side
    | ub => apply rei_ub
    | panic => apply rei_panic
    | lift _ => apply rei_lift
    | load _ _ => apply rei_load
    | read _ _ => apply rei_read
    | table_get _ _ => apply rei_table
    | offset_from _ _ => apply rei_offset
    | psub_len _ _ => apply rei_psub_len
    | padd _ _ => first [apply rei_padd | apply (rei_any _ _ (rei_padd _ _))]
    | store _ _ => apply rei_store; rei_side
    | write _ _ _ => apply rei_write; rei_side
    | bind (padd ?p ?k) _ => apply (rei_bind _ _ _ _ (rei_padd p k)); intro
    | bind (lift ?o) _ => apply (rei_bind _ _ _ _ (rei_lift o)); intro
    | bind (psub ?p ?k) _ => apply (rei_bind _ _ _ _ (rei_psub p k)); intro
    | @bind ?A _ _ _ => let q := about H P A in apply (rei_bind q); [|intro]
    | @try_ ?A ?B _ _ => let q := about H P A in
        first [apply (rei_try q) | apply (rei_mono (ok any)); [let r := fresh in intro r; destruct r; exact (fun h => h)|apply (rei_try q)]]; [|intro]
    | @while_ ?S _ _ _ _ => let q := about H P S in apply (rei_while q); [intro|rei_side]
    | @while_res ?S _ _ _ _ => let q := about H P S in apply (rei_while_res q); [intro|rei_side]
    | while_break _ _ _ _ => apply rei_while_break; intro
    | @for_ ?S _ _ _ _ => let q := about H P S in apply (rei_for q); [intros ? ?|rei_side]
    | match ?x with _ => _ end => destruct x
    | _ => rei_named
    end
  end.

(** ** hex-simd (Hex.v) *)
Lemma rei_hex_encode_bits {H : Prop} {d} src dst cs : (H -> d = fst dst) -> reified H (eq d) any (Hex.encode_bits src dst cs).
Proof. intro K. unfold Hex.encode_bits. repeat rei1. Defined.
#[export] Hint Extern 1 (reified _ _ _ (Hex.encode_bits _ _ _)) => apply rei_hex_encode_bits; rei_side : reif.
Lemma rei_hex_encode_step {H : Prop} {d} cs st : (H -> to2 d st) -> reified H (eq d) (to2 d) (Hex.encode_step cs st).
Proof. intro K. unfold Hex.encode_step. repeat rei1. Defined.
#[export] Hint Extern 1 (reified _ _ _ (Hex.encode_step _ _)) => apply rei_hex_encode_step; rei_side : reif.
Lemma rei_hex_encode_short {H : Prop} {d} src len dst cs : (H -> d = fst dst) -> reified H (eq d) any (Hex.encode_short src len dst cs).
Proof. intro K. unfold Hex.encode_short. repeat rei1. Defined.
#[export] Hint Extern 1 (reified _ _ _ (Hex.encode_short _ _ _ _)) => apply rei_hex_encode_short; rei_side : reif.
Lemma rei_hex_encode_long {H : Prop} {d} src len dst case : (H -> d = fst dst) -> reified H (eq d) any (Hex.encode_long src len dst case).
Proof. intro K. unfold Hex.encode_long. repeat rei1. Defined.
#[export] Hint Extern 1 (reified _ _ _ (Hex.encode_long _ _ _ _)) => apply rei_hex_encode_long; rei_side : reif.
Lemma rei_hex_encode_fallback {H : Prop} {d} src len dst case : (H -> d = fst dst) -> reified H (eq d) any (Hex.hex_encode_fallback src len dst case).
Proof. intro K. unfold Hex.hex_encode_fallback. repeat rei1. Defined.
#[export] Hint Extern 1 (reified _ _ _ (Hex.hex_encode_fallback _ _ _ _)) => apply rei_hex_encode_fallback; rei_side : reif.
Lemma rei_hex_encode_simd_v256 {H : Prop} {d} s src len dst case : (H -> d = fst dst) -> reified H (eq d) any (Hex.encode_simd_v256 s src len dst case).
Proof. intro K. unfold Hex.encode_simd_v256. repeat rei1. Defined.
#[export] Hint Extern 1 (reified _ _ _ (Hex.encode_simd_v256 _ _ _ _ _)) => apply rei_hex_encode_simd_v256; rei_side : reif.
Lemma rei_hex_encode_simd_v128 {H : Prop} {d} s src len dst case : (H -> d = fst dst) -> reified H (eq d) any (Hex.encode_simd_v128 s src len dst case).
Proof. intro K. unfold Hex.encode_simd_v128. repeat rei1. Defined.
#[export] Hint Extern 1 (reified _ _ _ (Hex.encode_simd_v128 _ _ _ _ _)) => apply rei_hex_encode_simd_v128; rei_side : reif.
Lemma rei_hex_encode_simd_sse2 {H : Prop} {d} s src len dst case : (H -> d = fst dst) -> reified H (eq d) any (Hex.encode_simd_sse2 s src len dst case).
Proof. intro K. unfold Hex.encode_simd_sse2. repeat rei1. Defined.
#[export] Hint Extern 1 (reified _ _ _ (Hex.encode_simd_sse2 _ _ _ _ _)) => apply rei_hex_encode_simd_sse2; rei_side : reif.
Lemma rei_hex_encode_simd {H : Prop} {d} s src len dst case : (H -> d = fst dst) -> reified H (eq d) any (Hex.hex_encode_simd s src len dst case).
Proof. intro K. unfold Hex.hex_encode_simd. repeat rei1. Defined.
#[export] Hint Extern 1 (reified _ _ _ (Hex.hex_encode_simd _ _ _ _ _)) => apply rei_hex_encode_simd; rei_side : reif.
Lemma rei_hex_encode_impl {H : Prop} {d} s src len dst case : (H -> d = fst dst) -> reified H (eq d) any (Hex.hex_encode_impl s src len dst case).
Proof. intro K. unfold Hex.hex_encode_impl. destruct s; repeat rei1. Defined.
#[export] Hint Extern 1 (reified _ _ _ (Hex.hex_encode_impl _ _ _ _ _)) => apply rei_hex_encode_impl; rei_side : reif.
Lemma rei_hex_encode {H : Prop} {d} s src slen dst dlen case : (H -> d = fst dst) -> reified H (eq d) (ok any) (Hex.hex_encode s src slen dst dlen case).
Proof. intro K. unfold Hex.hex_encode. repeat rei1. Defined.
#[export] Hint Extern 1 (reified _ _ _ (Hex.hex_encode _ _ _ _ _ _)) => apply rei_hex_encode; rei_side : reif.
Lemma rei_hex_decode_bits {H : Prop} {d} src dst : (H -> d = fst dst) -> reified H (eq d) any (Hex.decode_bits src dst).
Proof. intro K. unfold Hex.decode_bits. repeat rei1. Defined.
#[export] Hint Extern 1 (reified _ _ _ (Hex.decode_bits _ _)) => apply rei_hex_decode_bits; rei_side : reif.
Lemma rei_hex_decode_step {H : Prop} {d} st : (H -> to3 d st) -> reified H (eq d) (to3 d) (Hex.decode_step st).
Proof. intro K. unfold Hex.decode_step. repeat rei1. Defined.
#[export] Hint Extern 1 (reified _ _ _ (Hex.decode_step _)) => apply rei_hex_decode_step; rei_side : reif.
Lemma rei_hex_decode_short {H : Prop} {d} s src len dst : (H -> d = fst dst) -> reified H (eq d) (ok any) (Hex.decode_short s src len dst).
Proof. intro K. unfold Hex.decode_short. repeat rei1. Defined.
#[export] Hint Extern 1 (reified _ _ _ (Hex.decode_short _ _ _ _)) => apply rei_hex_decode_short; rei_side : reif.
Lemma rei_hex_decode_long {H : Prop} {d} src len dst : (H -> d = fst dst) -> reified H (eq d) (ok any) (Hex.decode_long src len dst).
Proof. intro K. unfold Hex.decode_long. repeat rei1. Defined.
#[export] Hint Extern 1 (reified _ _ _ (Hex.decode_long _ _ _)) => apply rei_hex_decode_long; rei_side : reif.
Lemma rei_hex_decode_fallback {H : Prop} {d} src len dst : (H -> d = fst dst) -> reified H (eq d) (ok any) (Hex.hex_decode_fallback src len dst).
Proof. intro K. unfold Hex.hex_decode_fallback. repeat rei1. Defined.
#[export] Hint Extern 1 (reified _ _ _ (Hex.hex_decode_fallback _ _ _)) => apply rei_hex_decode_fallback; rei_side : reif.
Lemma rei_hex_dec16 {H : Prop} {d} s src dst : (H -> d = fst dst) -> reified H (eq d) (ok any) (Hex.dec16 s src dst).
Proof. intro K. unfold Hex.dec16. repeat rei1. Defined.
#[export] Hint Extern 1 (reified _ _ _ (Hex.dec16 _ _ _)) => apply rei_hex_dec16; rei_side : reif.
Lemma rei_hex_dec32 {H : Prop} {d} s src dst : (H -> d = fst dst) -> reified H (eq d) (ok any) (Hex.dec32 s src dst).
Proof. intro K. unfold Hex.dec32. repeat rei1. Defined.
#[export] Hint Extern 1 (reified _ _ _ (Hex.dec32 _ _ _)) => apply rei_hex_dec32; rei_side : reif.
Lemma rei_hex_decode_simd_v256 {H : Prop} {d} s src len dst : (H -> d = fst dst) -> reified H (eq d) (ok any) (Hex.decode_simd_v256 s src len dst).
Proof. intro K. unfold Hex.decode_simd_v256. repeat rei1. Defined.
#[export] Hint Extern 1 (reified _ _ _ (Hex.decode_simd_v256 _ _ _ _)) => apply rei_hex_decode_simd_v256; rei_side : reif.
Lemma rei_hex_decode_simd_v128 {H : Prop} {d} s src len dst : (H -> d = fst dst) -> reified H (eq d) (ok any) (Hex.decode_simd_v128 s src len dst).
Proof. intro K. unfold Hex.decode_simd_v128. repeat rei1. Defined.
#[export] Hint Extern 1 (reified _ _ _ (Hex.decode_simd_v128 _ _ _ _)) => apply rei_hex_decode_simd_v128; rei_side : reif.
Lemma rei_hex_decode_simd_sse2 {H : Prop} {d} s src len dst : (H -> d = fst dst) -> reified H (eq d) (ok any) (Hex.decode_simd_sse2 s src len dst).
Proof. intro K. unfold Hex.decode_simd_sse2. repeat rei1. Defined.
#[export] Hint Extern 1 (reified _ _ _ (Hex.decode_simd_sse2 _ _ _ _)) => apply rei_hex_decode_simd_sse2; rei_side : reif.
Lemma rei_hex_decode_simd {H : Prop} {d} s src len dst : (H -> d = fst dst) -> reified H (eq d) (ok any) (Hex.hex_decode_simd s src len dst).
Proof. intro K. unfold Hex.hex_decode_simd. repeat rei1. Defined.
#[export] Hint Extern 1 (reified _ _ _ (Hex.hex_decode_simd _ _ _ _)) => apply rei_hex_decode_simd; rei_side : reif.
Lemma rei_hex_decode_impl {H : Prop} {d} s src len dst : (H -> d = fst dst) -> reified H (eq d) (ok any) (Hex.hex_decode_impl s src len dst).
Proof. intro K. unfold Hex.hex_decode_impl. destruct s; repeat rei1. Defined.
#[export] Hint Extern 1 (reified _ _ _ (Hex.hex_decode_impl _ _ _ _)) => apply rei_hex_decode_impl; rei_side : reif.
Lemma rei_hex_decode {H : Prop} {d} s src slen dst dlen : (H -> d = fst dst) -> reified H (eq d) (ok any) (Hex.hex_decode s src slen dst dlen).
Proof. intro K. unfold Hex.hex_decode. repeat rei1. Defined.
#[export] Hint Extern 1 (reified _ _ _ (Hex.hex_decode _ _ _ _ _)) => apply rei_hex_decode; rei_side : reif.
Lemma rei_hex_decode_inplace {H : Prop} {d} s data len : (H -> d = fst data) -> reified H (eq d) (ok any) (Hex.hex_decode_inplace s data len).
Proof. intro K. unfold Hex.hex_decode_inplace. repeat rei1. Defined.
#[export] Hint Extern 1 (reified _ _ _ (Hex.hex_decode_inplace _ _ _)) => apply rei_hex_decode_inplace; rei_side : reif.
Lemma rei_hex_check_short {H : Prop} {P : nat -> Prop} src len : reified H P (ok any) (Hex.check_short src len).
Proof. unfold Hex.check_short. repeat rei1. Defined.
#[export] Hint Extern 1 (reified _ _ _ (Hex.check_short _ _)) => apply rei_hex_check_short : reif.
Lemma rei_hex_check_short_sc {H : Prop} {P : nat -> Prop} src len : reified H P (ok any) (Hex.check_short_sc src len).
Proof. unfold Hex.check_short_sc. repeat rei1. Defined.
#[export] Hint Extern 1 (reified _ _ _ (Hex.check_short_sc _ _)) => apply rei_hex_check_short_sc : reif.
Lemma rei_hex_check_fallback {H : Prop} {P : nat -> Prop} src len : reified H P (ok any) (Hex.hex_check_fallback src len).
Proof. unfold Hex.hex_check_fallback. repeat rei1. Defined.
#[export] Hint Extern 1 (reified _ _ _ (Hex.hex_check_fallback _ _)) => apply rei_hex_check_fallback : reif.
Lemma rei_hex_check_vec {H : Prop} {P : nat -> Prop} w s src : reified H P any (Hex.check_vec w s src).
Proof. unfold Hex.check_vec. repeat rei1. Defined.
#[export] Hint Extern 1 (reified _ _ _ (Hex.check_vec _ _ _)) => apply rei_hex_check_vec : reif.
Lemma rei_hex_check_simd {H : Prop} {P : nat -> Prop} s src len : reified H P (ok any) (Hex.hex_check_simd s src len).
Proof. unfold Hex.hex_check_simd. repeat rei1. Defined.
#[export] Hint Extern 1 (reified _ _ _ (Hex.hex_check_simd _ _ _)) => apply rei_hex_check_simd : reif.
Lemma rei_hex_check_impl {H : Prop} {P : nat -> Prop} s src len : reified H P (ok any) (Hex.hex_check_impl s src len).
Proof. unfold Hex.hex_check_impl. destruct s; repeat rei1. Defined.
#[export] Hint Extern 1 (reified _ _ _ (Hex.hex_check_impl _ _ _)) => apply rei_hex_check_impl : reif.
Lemma rei_hex_check {H : Prop} {P : nat -> Prop} s src len : reified H P (ok any) (Hex.hex_check s src len).
Proof. unfold Hex.hex_check. repeat rei1. Defined.
#[export] Hint Extern 1 (reified _ _ _ (Hex.hex_check _ _ _)) => apply rei_hex_check : reif.

(** ** base64-simd (Base64.v) *)
Lemma rei_b64_encode_bits24 {H : Prop} {d} src dst charset : (H -> d = fst dst) -> reified H (eq d) any (Base64.encode_bits24 src dst charset).
Proof. intro K. unfold Base64.encode_bits24. repeat rei1. Defined.
#[export] Hint Extern 1 (reified _ _ _ (Base64.encode_bits24 _ _ _)) => apply rei_b64_encode_bits24; rei_side : reif.
Lemma rei_b64_encode_bits48 {H : Prop} {d} src dst charset : (H -> d = fst dst) -> reified H (eq d) any (Base64.encode_bits48 src dst charset).
Proof. intro K. unfold Base64.encode_bits48. repeat rei1. Defined.
#[export] Hint Extern 1 (reified _ _ _ (Base64.encode_bits48 _ _ _)) => apply rei_b64_encode_bits48; rei_side : reif.
Lemma rei_b64_encode_extra {H : Prop} {d} extra src dst charset padding : (H -> d = fst dst) -> reified H (eq d) any (Base64.b64_encode_extra extra src dst charset padding).
Proof. intro K. unfold Base64.b64_encode_extra. repeat rei1. Defined.
#[export] Hint Extern 1 (reified _ _ _ (Base64.b64_encode_extra _ _ _ _ _)) => apply rei_b64_encode_extra; rei_side : reif.
Lemma rei_b64_enc48_step {H : Prop} {d} charset st : (H -> to2 d st) -> reified H (eq d) (to2 d) (Base64.enc48_step charset st).
Proof. intro K. unfold Base64.enc48_step. repeat rei1. Defined.
#[export] Hint Extern 1 (reified _ _ _ (Base64.enc48_step _ _)) => apply rei_b64_enc48_step; rei_side : reif.
Lemma rei_b64_enc24_step {H : Prop} {d} charset st : (H -> to2 d st) -> reified H (eq d) (to2 d) (Base64.enc24_step charset st).
Proof. intro K. unfold Base64.enc24_step. repeat rei1. Defined.
#[export] Hint Extern 1 (reified _ _ _ (Base64.enc24_step _ _)) => apply rei_b64_enc24_step; rei_side : reif.
Lemma rei_b64_encode_fallback {H : Prop} {d} src len dst config : (H -> d = fst dst) -> reified H (eq d) any (Base64.b64_encode_fallback src len dst config).
Proof. intro K. unfold Base64.b64_encode_fallback. repeat rei1. Defined.
#[export] Hint Extern 1 (reified _ _ _ (Base64.b64_encode_fallback _ _ _ _)) => apply rei_b64_encode_fallback; rei_side : reif.
Lemma rei_b64_encode_simd {H : Prop} {d} s src len dst config : (H -> d = fst dst) -> reified H (eq d) any (Base64.b64_encode_simd s src len dst config).
Proof. intro K. unfold Base64.b64_encode_simd. repeat rei1. Defined.
#[export] Hint Extern 1 (reified _ _ _ (Base64.b64_encode_simd _ _ _ _ _)) => apply rei_b64_encode_simd; rei_side : reif.
Lemma rei_b64_encode_impl {H : Prop} {d} s src len dst config : (H -> d = fst dst) -> reified H (eq d) any (Base64.b64_encode_impl s src len dst config).
Proof. intro K. unfold Base64.b64_encode_impl. destruct s; repeat rei1. Defined.
#[export] Hint Extern 1 (reified _ _ _ (Base64.b64_encode_impl _ _ _ _ _)) => apply rei_b64_encode_impl; rei_side : reif.
Lemma rei_b64_encode {H : Prop} {d} s config src slen dst dlen : (H -> d = fst dst) -> reified H (eq d) (ok any) (Base64.b64_encode s config src slen dst dlen).
Proof. intro K. unfold Base64.b64_encode. repeat rei1. Defined.
#[export] Hint Extern 1 (reified _ _ _ (Base64.b64_encode _ _ _ _ _ _)) => apply rei_b64_encode; rei_side : reif.
Lemma rei_b64_count_pad {H : Prop} {P : nat -> Prop} src len : reified H P any (Base64.b64_count_pad src len).
Proof. unfold Base64.b64_count_pad. repeat rei1. Defined.
#[export] Hint Extern 1 (reified _ _ _ (Base64.b64_count_pad _ _)) => apply rei_b64_count_pad : reif.
Lemma rei_b64_decoded_length {H : Prop} {P : nat -> Prop} src len config : reified H P (ok any) (Base64.b64_decoded_length src len config).
Proof. unfold Base64.b64_decoded_length. repeat rei1. Defined.
#[export] Hint Extern 1 (reified _ _ _ (Base64.b64_decoded_length _ _ _)) => apply rei_b64_decoded_length : reif.
Lemma rei_b64_decode_ascii8_w {H : Prop} {d} en src dst table : (H -> d = fst dst) -> reified H (eq d) (ok any) (Base64.b64_decode_ascii8 en true src dst table).
Proof. intro K. unfold Base64.b64_decode_ascii8. repeat rei1. Defined.
#[export] Hint Extern 1 (reified _ _ _ (Base64.b64_decode_ascii8 _ true _ _ _)) => apply rei_b64_decode_ascii8_w; rei_side : reif.
Lemma rei_b64_decode_ascii8_c {H : Prop} {P : nat -> Prop} en src dst table : reified H P (ok any) (Base64.b64_decode_ascii8 en false src dst table).
Proof. unfold Base64.b64_decode_ascii8. repeat rei1. Defined.
#[export] Hint Extern 1 (reified _ _ _ (Base64.b64_decode_ascii8 _ false _ _ _)) => apply rei_b64_decode_ascii8_c : reif.
Lemma rei_b64_decode_ascii4_w {H : Prop} {d} src dst table : (H -> d = fst dst) -> reified H (eq d) (ok any) (Base64.b64_decode_ascii4 true src dst table).
Proof. intro K. unfold Base64.b64_decode_ascii4. repeat rei1. Defined.
#[export] Hint Extern 1 (reified _ _ _ (Base64.b64_decode_ascii4 true _ _ _)) => apply rei_b64_decode_ascii4_w; rei_side : reif.
Lemma rei_b64_decode_ascii4_c {H : Prop} {P : nat -> Prop} src dst table : reified H P (ok any) (Base64.b64_decode_ascii4 false src dst table).
Proof. unfold Base64.b64_decode_ascii4. repeat rei1. Defined.
#[export] Hint Extern 1 (reified _ _ _ (Base64.b64_decode_ascii4 false _ _ _)) => apply rei_b64_decode_ascii4_c : reif.
Lemma rei_b64_decode_extra_w {H : Prop} {d} extra src dst table forgiving : (H -> d = fst dst) -> reified H (eq d) (ok any) (Base64.b64_decode_extra true extra src dst table forgiving).
Proof. intro K. unfold Base64.b64_decode_extra. repeat rei1. Defined.
#[export] Hint Extern 1 (reified _ _ _ (Base64.b64_decode_extra true _ _ _ _ _)) => apply rei_b64_decode_extra_w; rei_side : reif.
Lemma rei_b64_decode_extra_c {H : Prop} {P : nat -> Prop} extra src dst table forgiving : reified H P (ok any) (Base64.b64_decode_extra false extra src dst table forgiving).
Proof. unfold Base64.b64_decode_extra. repeat rei1. Defined.
#[export] Hint Extern 1 (reified _ _ _ (Base64.b64_decode_extra false _ _ _ _ _)) => apply rei_b64_decode_extra_c : reif.
Lemma rei_b64_decode_fallback {H : Prop} {d} en src dst n config : (H -> d = fst dst) -> reified H (eq d) (ok any) (Base64.b64_decode_fallback en src dst n config).
Proof. intro K. unfold Base64.b64_decode_fallback. repeat rei1. Defined.
#[export] Hint Extern 1 (reified _ _ _ (Base64.b64_decode_fallback _ _ _ _ _)) => apply rei_b64_decode_fallback; rei_side : reif.
Lemma rei_b64_decode_simd {H : Prop} {d} en s src dst n config : (H -> d = fst dst) -> reified H (eq d) (ok any) (Base64.b64_decode_simd en s src dst n config).
Proof. intro K. unfold Base64.b64_decode_simd. repeat rei1. Defined.
#[export] Hint Extern 1 (reified _ _ _ (Base64.b64_decode_simd _ _ _ _ _ _)) => apply rei_b64_decode_simd; rei_side : reif.
Lemma rei_b64_decode_impl {H : Prop} {d} en s src dst n config : (H -> d = fst dst) -> reified H (eq d) (ok any) (Base64.b64_decode_impl en s src dst n config).
Proof. intro K. unfold Base64.b64_decode_impl. destruct s; repeat rei1. Defined.
#[export] Hint Extern 1 (reified _ _ _ (Base64.b64_decode_impl _ _ _ _ _ _)) => apply rei_b64_decode_impl; rei_side : reif.
Lemma rei_b64_decode {H : Prop} {d} en s config src slen dst dlen : (H -> d = fst dst) -> reified H (eq d) (ok any) (Base64.b64_decode en s config src slen dst dlen).
Proof. intro K. unfold Base64.b64_decode. repeat rei1. Defined.
#[export] Hint Extern 1 (reified _ _ _ (Base64.b64_decode _ _ _ _ _ _ _)) => apply rei_b64_decode; rei_side : reif.
Lemma rei_b64_decode_inplace {H : Prop} {d} en s config data len : (H -> d = fst data) -> reified H (eq d) (ok any) (Base64.b64_decode_inplace en s config data len).
Proof. intro K. unfold Base64.b64_decode_inplace. repeat rei1. Defined.
#[export] Hint Extern 1 (reified _ _ _ (Base64.b64_decode_inplace _ _ _ _ _)) => apply rei_b64_decode_inplace; rei_side : reif.
Lemma rei_b64_check_fallback {H : Prop} {P : nat -> Prop} en src n config : reified H P (ok any) (Base64.b64_check_fallback en src n config).
Proof. unfold Base64.b64_check_fallback. repeat rei1. Defined.
#[export] Hint Extern 1 (reified _ _ _ (Base64.b64_check_fallback _ _ _ _)) => apply rei_b64_check_fallback : reif.
Lemma rei_b64_check_simd {H : Prop} {P : nat -> Prop} en s src n config : reified H P (ok any) (Base64.b64_check_simd en s src n config).
Proof. unfold Base64.b64_check_simd. repeat rei1. Defined.
#[export] Hint Extern 1 (reified _ _ _ (Base64.b64_check_simd _ _ _ _ _)) => apply rei_b64_check_simd : reif.
Lemma rei_b64_check_impl {H : Prop} {P : nat -> Prop} en s src n config : reified H P (ok any) (Base64.b64_check_impl en s src n config).
Proof. unfold Base64.b64_check_impl. destruct s; repeat rei1. Defined.
#[export] Hint Extern 1 (reified _ _ _ (Base64.b64_check_impl _ _ _ _ _)) => apply rei_b64_check_impl : reif.
Lemma rei_b64_check {H : Prop} {P : nat -> Prop} en s config data len : reified H P (ok any) (Base64.b64_check en s config data len).
Proof. unfold Base64.b64_check. repeat rei1. Defined.
#[export] Hint Extern 1 (reified _ _ _ (Base64.b64_check _ _ _ _ _)) => apply rei_b64_check : reif.

(** ** base32-simd (Base32.v) *)
Lemma rei_b32_encode_bits {H : Prop} {d} N dst charset x : (H -> d = fst dst) -> reified H (eq d) any (Base32.encode_bits N dst charset x).
Proof. intro K. unfold Base32.encode_bits. repeat rei1. Defined.
#[export] Hint Extern 1 (reified _ _ _ (Base32.encode_bits _ _ _ _)) => apply rei_b32_encode_bits; rei_side : reif.
Lemma rei_b32_read_be_bytes {H : Prop} {P : nat -> Prop} t N src : reified H P any (Base32.read_be_bytes t N src).
Proof. unfold Base32.read_be_bytes. repeat rei1. Defined.
#[export] Hint Extern 1 (reified _ _ _ (Base32.read_be_bytes _ _ _)) => apply rei_b32_read_be_bytes : reif.
Lemma rei_b32_pad {H : Prop} {d} padding dst N : (H -> d = fst dst) -> reified H (eq d) any (Base32.b32_pad padding dst N).
Proof. intro K. unfold Base32.b32_pad. repeat rei1. Defined.
#[export] Hint Extern 1 (reified _ _ _ (Base32.b32_pad _ _ _)) => apply rei_b32_pad; rei_side : reif.
Lemma rei_b32_encode_extra {H : Prop} {d} t src extra dst charset padding : (H -> d = fst dst) -> reified H (eq d) any (Base32.b32_encode_extra t src extra dst charset padding).
Proof. intro K. unfold Base32.b32_encode_extra. repeat rei1. Defined.
#[export] Hint Extern 1 (reified _ _ _ (Base32.b32_encode_extra _ _ _ _ _ _)) => apply rei_b32_encode_extra; rei_side : reif.
Lemma rei_b32_enc40_step {H : Prop} {d} t charset st : (H -> to2 d st) -> reified H (eq d) (to2 d) (Base32.enc40_step t charset st).
Proof. intro K. unfold Base32.enc40_step. repeat rei1. Defined.
#[export] Hint Extern 1 (reified _ _ _ (Base32.enc40_step _ _ _)) => apply rei_b32_enc40_step; rei_side : reif.
Lemma rei_b32_encode_fallback {H : Prop} {d} t src len dst kind padding : (H -> d = fst dst) -> reified H (eq d) any (Base32.b32_encode_fallback t src len dst kind padding).
Proof. intro K. unfold Base32.b32_encode_fallback. repeat rei1. Defined.
#[export] Hint Extern 1 (reified _ _ _ (Base32.b32_encode_fallback _ _ _ _ _ _)) => apply rei_b32_encode_fallback; rei_side : reif.
Lemma rei_b32_encode_simd {H : Prop} {d} t s src len dst kind padding : (H -> d = fst dst) -> reified H (eq d) any (Base32.b32_encode_simd t s src len dst kind padding).
Proof. intro K. unfold Base32.b32_encode_simd. repeat rei1. Defined.
#[export] Hint Extern 1 (reified _ _ _ (Base32.b32_encode_simd _ _ _ _ _ _ _)) => apply rei_b32_encode_simd; rei_side : reif.
Lemma rei_b32_encode_impl {H : Prop} {d} t s src len dst kind padding : (H -> d = fst dst) -> reified H (eq d) any (Base32.b32_encode_impl t s src len dst kind padding).
Proof. intro K. unfold Base32.b32_encode_impl. destruct s; repeat rei1. Defined.
#[export] Hint Extern 1 (reified _ _ _ (Base32.b32_encode_impl _ _ _ _ _ _ _)) => apply rei_b32_encode_impl; rei_side : reif.
Lemma rei_b32_encode {H : Prop} {d} t s config src slen dst dlen : (H -> d = fst dst) -> reified H (eq d) (ok any) (Base32.b32_encode t s config src slen dst dlen).
Proof. intro K. unfold Base32.b32_encode. repeat rei1. Defined.
#[export] Hint Extern 1 (reified _ _ _ (Base32.b32_encode _ _ _ _ _ _ _)) => apply rei_b32_encode; rei_side : reif.
Lemma rei_b32_decoded_length {H : Prop} {P : nat -> Prop} data len padding : reified H P (ok any) (Base32.b32_decoded_length data len padding).
Proof. unfold Base32.b32_decoded_length. repeat rei1. Defined.
#[export] Hint Extern 1 (reified _ _ _ (Base32.b32_decoded_length _ _ _)) => apply rei_b32_decoded_length : reif.
Lemma rei_b32_decode_bits {H : Prop} {P : nat -> Prop} N src table : reified H P any (Base32.decode_bits N src table).
Proof. unfold Base32.decode_bits. repeat rei1. Defined.
#[export] Hint Extern 1 (reified _ _ _ (Base32.decode_bits _ _ _)) => apply rei_b32_decode_bits : reif.
Lemma rei_b32_write_be_bytes {H : Prop} {d} t N dst x : (H -> d = fst dst) -> reified H (eq d) any (Base32.write_be_bytes t N dst x).
Proof. intro K. unfold Base32.write_be_bytes. repeat rei1. Defined.
#[export] Hint Extern 1 (reified _ _ _ (Base32.write_be_bytes _ _ _ _)) => apply rei_b32_write_be_bytes; rei_side : reif.
Lemma rei_b32_decode_arm_w {H : Prop} {d} t chars spare nbytes src dst table : (H -> d = fst dst) -> reified H (eq d) (ok any) (Base32.decode_arm t true chars spare nbytes src dst table).
Proof. intro K. unfold Base32.decode_arm. repeat rei1. Defined.
#[export] Hint Extern 1 (reified _ _ _ (Base32.decode_arm _ true _ _ _ _ _ _)) => apply rei_b32_decode_arm_w; rei_side : reif.
Lemma rei_b32_decode_arm_c {H : Prop} {P : nat -> Prop} t chars spare nbytes src dst table : reified H P (ok any) (Base32.decode_arm t false chars spare nbytes src dst table).
Proof. unfold Base32.decode_arm. repeat rei1. Defined.
#[export] Hint Extern 1 (reified _ _ _ (Base32.decode_arm _ false _ _ _ _ _ _)) => apply rei_b32_decode_arm_c : reif.
Lemma rei_b32_decode_extra_w {H : Prop} {d} t src extra dst table : (H -> d = fst dst) -> reified H (eq d) (ok any) (Base32.b32_decode_extra t true src extra dst table).
Proof. intro K. unfold Base32.b32_decode_extra. repeat rei1. Defined.
#[export] Hint Extern 1 (reified _ _ _ (Base32.b32_decode_extra _ true _ _ _ _)) => apply rei_b32_decode_extra_w; rei_side : reif.
Lemma rei_b32_decode_extra_c {H : Prop} {P : nat -> Prop} t src extra dst table : reified H P (ok any) (Base32.b32_decode_extra t false src extra dst table).
Proof. unfold Base32.b32_decode_extra. repeat rei1. Defined.
#[export] Hint Extern 1 (reified _ _ _ (Base32.b32_decode_extra _ false _ _ _ _)) => apply rei_b32_decode_extra_c : reif.
Lemma rei_b32_decode_fallback {H : Prop} {d} t src n dst kind : (H -> d = fst dst) -> reified H (eq d) (ok any) (Base32.b32_decode_fallback t src n dst kind).
Proof. intro K. unfold Base32.b32_decode_fallback. repeat rei1. Defined.
#[export] Hint Extern 1 (reified _ _ _ (Base32.b32_decode_fallback _ _ _ _ _)) => apply rei_b32_decode_fallback; rei_side : reif.
Lemma rei_b32_decode_simd {H : Prop} {d} t s src n dst kind : (H -> d = fst dst) -> reified H (eq d) (ok any) (Base32.b32_decode_simd t s src n dst kind).
Proof. intro K. unfold Base32.b32_decode_simd. repeat rei1. Defined.
#[export] Hint Extern 1 (reified _ _ _ (Base32.b32_decode_simd _ _ _ _ _ _)) => apply rei_b32_decode_simd; rei_side : reif.
Lemma rei_b32_decode_impl {H : Prop} {d} t s src n dst kind : (H -> d = fst dst) -> reified H (eq d) (ok any) (Base32.b32_decode_impl t s src n dst kind).
Proof. intro K. unfold Base32.b32_decode_impl. destruct s; repeat rei1. Defined.
#[export] Hint Extern 1 (reified _ _ _ (Base32.b32_decode_impl _ _ _ _ _ _)) => apply rei_b32_decode_impl; rei_side : reif.
Lemma rei_b32_decode {H : Prop} {d} t s config src slen dst dlen : (H -> d = fst dst) -> reified H (eq d) (ok any) (Base32.b32_decode t s config src slen dst dlen).
Proof. intro K. unfold Base32.b32_decode. repeat rei1. Defined.
#[export] Hint Extern 1 (reified _ _ _ (Base32.b32_decode _ _ _ _ _ _ _)) => apply rei_b32_decode; rei_side : reif.
Lemma rei_b32_decode_inplace {H : Prop} {d} t s config data len : (H -> d = fst data) -> reified H (eq d) (ok any) (Base32.b32_decode_inplace t s config data len).
Proof. intro K. unfold Base32.b32_decode_inplace. repeat rei1. Defined.
#[export] Hint Extern 1 (reified _ _ _ (Base32.b32_decode_inplace _ _ _ _ _)) => apply rei_b32_decode_inplace; rei_side : reif.
Lemma rei_b32_check_fallback {H : Prop} {P : nat -> Prop} t src len kind : reified H P (ok any) (Base32.b32_check_fallback t src len kind).
Proof. unfold Base32.b32_check_fallback. repeat rei1. Defined.
#[export] Hint Extern 1 (reified _ _ _ (Base32.b32_check_fallback _ _ _ _)) => apply rei_b32_check_fallback : reif.
Lemma rei_b32_check_simd {H : Prop} {P : nat -> Prop} t s src len kind : reified H P (ok any) (Base32.b32_check_simd t s src len kind).
Proof. unfold Base32.b32_check_simd. repeat rei1. Defined.
#[export] Hint Extern 1 (reified _ _ _ (Base32.b32_check_simd _ _ _ _ _)) => apply rei_b32_check_simd : reif.
Lemma rei_b32_check_impl {H : Prop} {P : nat -> Prop} t s src len kind : reified H P (ok any) (Base32.b32_check_impl t s src len kind).
Proof. unfold Base32.b32_check_impl. destruct s; repeat rei1. Defined.
#[export] Hint Extern 1 (reified _ _ _ (Base32.b32_check_impl _ _ _ _ _)) => apply rei_b32_check_impl : reif.
Lemma rei_b32_check {H : Prop} {P : nat -> Prop} t s config data len : reified H P (ok any) (Base32.b32_check t s config data len).
Proof. unfold Base32.b32_check. repeat rei1. Defined.
#[export] Hint Extern 1 (reified _ _ _ (Base32.b32_check _ _ _ _ _)) => apply rei_b32_check : reif.
Lemma rei_b32_decoded_length_api {H : Prop} {P : nat -> Prop} config data len : reified H P (ok any) (Base32.b32_decoded_length_api config data len).
Proof. unfold Base32.b32_decoded_length_api. repeat rei1. Defined.
#[export] Hint Extern 1 (reified _ _ _ (Base32.b32_decoded_length_api _ _ _)) => apply rei_b32_decoded_length_api : reif.

(** ** uuid-simd (Uuid.v) *)
Lemma rei_uuid_parse_simple_fallback {H : Prop} {d} src dst : (H -> d = fst dst) -> reified H (eq d) (ok any) (Uuid.parse_simple_fallback src dst).
Proof. intro K. unfold Uuid.parse_simple_fallback. repeat rei1. Defined.
#[export] Hint Extern 1 (reified _ _ _ (Uuid.parse_simple_fallback _ _)) => apply rei_uuid_parse_simple_fallback; rei_side : reif.
Lemma rei_uuid_check_hyphens {H : Prop} {P : nat -> Prop} src : reified H P any (Uuid.check_hyphens src).
Proof. unfold Uuid.check_hyphens. repeat rei1. Defined.
#[export] Hint Extern 1 (reified _ _ _ (Uuid.check_hyphens _)) => apply rei_uuid_check_hyphens : reif.
Lemma rei_uuid_parse_hyphenated_fallback {H : Prop} {d} src dst : (H -> d = fst dst) -> reified H (eq d) (ok any) (Uuid.parse_hyphenated_fallback src dst).
Proof. intro K. unfold Uuid.parse_hyphenated_fallback. repeat rei1. Defined.
#[export] Hint Extern 1 (reified _ _ _ (Uuid.parse_hyphenated_fallback _ _)) => apply rei_uuid_parse_hyphenated_fallback; rei_side : reif.
Lemma rei_uuid_parse_simple_simd_sse2 {H : Prop} {d} s src dst : (H -> d = fst dst) -> reified H (eq d) (ok any) (Uuid.parse_simple_simd_sse2 s src dst).
Proof. intro K. unfold Uuid.parse_simple_simd_sse2. repeat rei1. Defined.
#[export] Hint Extern 1 (reified _ _ _ (Uuid.parse_simple_simd_sse2 _ _ _)) => apply rei_uuid_parse_simple_simd_sse2; rei_side : reif.
Lemma rei_uuid_parse_simple_simd {H : Prop} {d} s src dst : (H -> d = fst dst) -> reified H (eq d) (ok any) (Uuid.parse_simple_simd s src dst).
Proof. intro K. unfold Uuid.parse_simple_simd. repeat rei1. Defined.
#[export] Hint Extern 1 (reified _ _ _ (Uuid.parse_simple_simd _ _ _)) => apply rei_uuid_parse_simple_simd; rei_side : reif.
Lemma rei_uuid_parse_hyphenated_simd {H : Prop} {d} s src dst : (H -> d = fst dst) -> reified H (eq d) (ok any) (Uuid.parse_hyphenated_simd s src dst).
Proof. intro K. unfold Uuid.parse_hyphenated_simd. repeat rei1. Defined.
#[export] Hint Extern 1 (reified _ _ _ (Uuid.parse_hyphenated_simd _ _ _)) => apply rei_uuid_parse_hyphenated_simd; rei_side : reif.
Lemma rei_uuid_format_simple_fallback {H : Prop} {d} src dst case : (H -> d = fst dst) -> reified H (eq d) any (Uuid.format_simple_fallback src dst case).
Proof. intro K. unfold Uuid.format_simple_fallback. repeat rei1. Defined.
#[export] Hint Extern 1 (reified _ _ _ (Uuid.format_simple_fallback _ _ _)) => apply rei_uuid_format_simple_fallback; rei_side : reif.
Lemma rei_uuid_format_hyphenated_fallback {H : Prop} {d} src dst case : (H -> d = fst dst) -> reified H (eq d) any (Uuid.format_hyphenated_fallback src dst case).
Proof. intro K. unfold Uuid.format_hyphenated_fallback. repeat rei1. Defined.
#[export] Hint Extern 1 (reified _ _ _ (Uuid.format_hyphenated_fallback _ _ _)) => apply rei_uuid_format_hyphenated_fallback; rei_side : reif.
Lemma rei_uuid_format_simple_simd_sse2 {H : Prop} {d} s src dst case : (H -> d = fst dst) -> reified H (eq d) any (Uuid.format_simple_simd_sse2 s src dst case).
Proof. intro K. unfold Uuid.format_simple_simd_sse2. repeat rei1. Defined.
#[export] Hint Extern 1 (reified _ _ _ (Uuid.format_simple_simd_sse2 _ _ _ _)) => apply rei_uuid_format_simple_simd_sse2; rei_side : reif.
Lemma rei_uuid_format_simple_simd {H : Prop} {d} s src dst case : (H -> d = fst dst) -> reified H (eq d) any (Uuid.format_simple_simd s src dst case).
Proof. intro K. unfold Uuid.format_simple_simd. repeat rei1. Defined.
#[export] Hint Extern 1 (reified _ _ _ (Uuid.format_simple_simd _ _ _ _)) => apply rei_uuid_format_simple_simd; rei_side : reif.
Lemma rei_uuid_format_hyphenated_simd {H : Prop} {d} s src dst case : (H -> d = fst dst) -> reified H (eq d) any (Uuid.format_hyphenated_simd s src dst case).
Proof. intro K. unfold Uuid.format_hyphenated_simd. repeat rei1. Defined.
#[export] Hint Extern 1 (reified _ _ _ (Uuid.format_hyphenated_simd _ _ _ _)) => apply rei_uuid_format_hyphenated_simd; rei_side : reif.
Lemma rei_uuid_parse_simple_impl {H : Prop} {d} s src dst : (H -> d = fst dst) -> reified H (eq d) (ok any) (Uuid.parse_simple_impl s src dst).
Proof. intro K. unfold Uuid.parse_simple_impl. destruct s; repeat rei1. Defined.
#[export] Hint Extern 1 (reified _ _ _ (Uuid.parse_simple_impl _ _ _)) => apply rei_uuid_parse_simple_impl; rei_side : reif.
Lemma rei_uuid_parse_hyphenated_impl {H : Prop} {d} s src dst : (H -> d = fst dst) -> reified H (eq d) (ok any) (Uuid.parse_hyphenated_impl s src dst).
Proof. intro K. unfold Uuid.parse_hyphenated_impl. destruct s; repeat rei1. Defined.
#[export] Hint Extern 1 (reified _ _ _ (Uuid.parse_hyphenated_impl _ _ _)) => apply rei_uuid_parse_hyphenated_impl; rei_side : reif.
Lemma rei_uuid_format_simple_impl {H : Prop} {d} s src dst case : (H -> d = fst dst) -> reified H (eq d) any (Uuid.format_simple_impl s src dst case).
Proof. intro K. unfold Uuid.format_simple_impl. destruct s; repeat rei1. Defined.
#[export] Hint Extern 1 (reified _ _ _ (Uuid.format_simple_impl _ _ _ _)) => apply rei_uuid_format_simple_impl; rei_side : reif.
Lemma rei_uuid_format_hyphenated_impl {H : Prop} {d} s src dst case : (H -> d = fst dst) -> reified H (eq d) any (Uuid.format_hyphenated_impl s src dst case).
Proof. intro K. unfold Uuid.format_hyphenated_impl. destruct s; repeat rei1. Defined.
#[export] Hint Extern 1 (reified _ _ _ (Uuid.format_hyphenated_impl _ _ _ _)) => apply rei_uuid_format_hyphenated_impl; rei_side : reif.
Lemma rei_uuid_parse_simple {H : Prop} {d} s src n dst : (H -> d = fst dst) -> reified H (eq d) (ok any) (Uuid.uuid_parse_simple s src n dst).
Proof. intro K. unfold Uuid.uuid_parse_simple. repeat rei1. Defined.
#[export] Hint Extern 1 (reified _ _ _ (Uuid.uuid_parse_simple _ _ _ _)) => apply rei_uuid_parse_simple; rei_side : reif.
Lemma rei_uuid_parse_hyphenated {H : Prop} {d} s src n dst : (H -> d = fst dst) -> reified H (eq d) (ok any) (Uuid.uuid_parse_hyphenated s src n dst).
Proof. intro K. unfold Uuid.uuid_parse_hyphenated. repeat rei1. Defined.
#[export] Hint Extern 1 (reified _ _ _ (Uuid.uuid_parse_hyphenated _ _ _ _)) => apply rei_uuid_parse_hyphenated; rei_side : reif.
Lemma rei_uuid_parse {H : Prop} {d} s1 s2 src n dst : (H -> d = fst dst) -> reified H (eq d) (ok any) (Uuid.uuid_parse s1 s2 src n dst).
Proof. intro K. unfold Uuid.uuid_parse. repeat rei1. Defined.
#[export] Hint Extern 1 (reified _ _ _ (Uuid.uuid_parse _ _ _ _ _)) => apply rei_uuid_parse; rei_side : reif.
Lemma rei_uuid_format_simple {H : Prop} {d} s src dst case : (H -> d = fst dst) -> reified H (eq d) any (Uuid.uuid_format_simple s src dst case).
Proof. intro K. unfold Uuid.uuid_format_simple. repeat rei1. Defined.
#[export] Hint Extern 1 (reified _ _ _ (Uuid.uuid_format_simple _ _ _ _)) => apply rei_uuid_format_simple; rei_side : reif.
Lemma rei_uuid_format_hyphenated {H : Prop} {d} s src dst case : (H -> d = fst dst) -> reified H (eq d) any (Uuid.uuid_format_hyphenated s src dst case).
Proof. intro K. unfold Uuid.uuid_format_hyphenated. repeat rei1. Defined.
#[export] Hint Extern 1 (reified _ _ _ (Uuid.uuid_format_hyphenated _ _ _ _)) => apply rei_uuid_format_hyphenated; rei_side : reif.

(** ** unicode-simd and vsimd/bswap.rs (Unicode.v) *)
Lemma rei_uni_is_ascii_fallback {H : Prop} {P : nat -> Prop} src len : reified H P any (Unicode.is_ascii_fallback src len).
Proof. unfold Unicode.is_ascii_fallback. repeat rei1. Defined.
#[export] Hint Extern 1 (reified _ _ _ (Unicode.is_ascii_fallback _ _)) => apply rei_uni_is_ascii_fallback : reif.
Lemma rei_uni_is_ascii_simd_v256 {H : Prop} {P : nat -> Prop} s src len : reified H P any (Unicode.is_ascii_simd_v256 s src len).
Proof. unfold Unicode.is_ascii_simd_v256. repeat rei1. Defined.
#[export] Hint Extern 1 (reified _ _ _ (Unicode.is_ascii_simd_v256 _ _ _)) => apply rei_uni_is_ascii_simd_v256 : reif.
Lemma rei_uni_loadu {H : Prop} {P : nat -> Prop} p k : reified H P any (Unicode.loadu p k).
Proof. unfold Unicode.loadu. repeat rei1. Defined.
#[export] Hint Extern 1 (reified _ _ _ (Unicode.loadu _ _)) => apply rei_uni_loadu : reif.
Lemma rei_uni_check_tiny {H : Prop} {P : nat -> Prop} src len : reified H P any (Unicode.check_tiny src len).
Proof. unfold Unicode.check_tiny. repeat rei1. Defined.
#[export] Hint Extern 1 (reified _ _ _ (Unicode.check_tiny _ _)) => apply rei_uni_check_tiny : reif.
Lemma rei_uni_check_short {H : Prop} {P : nat -> Prop} src len : reified H P any (Unicode.check_short src len).
Proof. unfold Unicode.check_short. repeat rei1. Defined.
#[export] Hint Extern 1 (reified _ _ _ (Unicode.check_short _ _)) => apply rei_uni_check_short : reif.
Lemma rei_uni_or_load {H : Prop} {P : nat -> Prop} x src k : reified H P any (Unicode.or_load x src k).
Proof. unfold Unicode.or_load. repeat rei1. Defined.
#[export] Hint Extern 1 (reified _ _ _ (Unicode.or_load _ _ _)) => apply rei_uni_or_load : reif.
Lemma rei_uni_check_medium {H : Prop} {P : nat -> Prop} src len : reified H P any (Unicode.check_medium src len).
Proof. unfold Unicode.check_medium. repeat rei1. Defined.
#[export] Hint Extern 1 (reified _ _ _ (Unicode.check_medium _ _)) => apply rei_uni_check_medium : reif.
Lemma rei_uni_check_long {H : Prop} {P : nat -> Prop} src len : reified H P any (Unicode.check_long src len).
Proof. unfold Unicode.check_long. repeat rei1. Defined.
#[export] Hint Extern 1 (reified _ _ _ (Unicode.check_long _ _)) => apply rei_uni_check_long : reif.
Lemma rei_uni_is_ascii_sse2 {H : Prop} {P : nat -> Prop} src len : reified H P any (Unicode.is_ascii_sse2 src len).
Proof. unfold Unicode.is_ascii_sse2. repeat rei1. Defined.
#[export] Hint Extern 1 (reified _ _ _ (Unicode.is_ascii_sse2 _ _)) => apply rei_uni_is_ascii_sse2 : reif.
Lemma rei_uni_is_ascii_simd {H : Prop} {P : nat -> Prop} x64 s src len : reified H P any (Unicode.is_ascii_simd x64 s src len).
Proof. unfold Unicode.is_ascii_simd. repeat rei1. Defined.
#[export] Hint Extern 1 (reified _ _ _ (Unicode.is_ascii_simd _ _ _ _)) => apply rei_uni_is_ascii_simd : reif.
Lemma rei_uni_is_ascii {H : Prop} {P : nat -> Prop} x64 s src len : reified H P any (Unicode.is_ascii x64 s src len).
Proof. unfold Unicode.is_ascii. repeat rei1. Defined.
#[export] Hint Extern 1 (reified _ _ _ (Unicode.is_ascii _ _ _ _)) => apply rei_uni_is_ascii : reif.
Lemma rei_uni_from_ascii {H : Prop} {P : nat -> Prop} x64 s src len : reified H P any (Unicode.from_ascii x64 s src len).
Proof. unfold Unicode.from_ascii. repeat rei1. Defined.
#[export] Hint Extern 1 (reified _ _ _ (Unicode.from_ascii _ _ _ _)) => apply rei_uni_from_ascii : reif.
Lemma rei_uni_is_utf32le_fallback {H : Prop} {P : nat -> Prop} en src len : reified H P any (Unicode.is_utf32le_fallback en src len).
Proof. unfold Unicode.is_utf32le_fallback. repeat rei1. Defined.
#[export] Hint Extern 1 (reified _ _ _ (Unicode.is_utf32le_fallback _ _ _)) => apply rei_uni_is_utf32le_fallback : reif.
Lemma rei_uni_is_utf32le_simd {H : Prop} {P : nat -> Prop} en s src len : reified H P any (Unicode.is_utf32le_simd en s src len).
Proof. unfold Unicode.is_utf32le_simd. repeat rei1. Defined.
#[export] Hint Extern 1 (reified _ _ _ (Unicode.is_utf32le_simd _ _ _ _)) => apply rei_uni_is_utf32le_simd : reif.
Lemma rei_uni_is_utf32le {H : Prop} {P : nat -> Prop} en s src len : reified H P any (Unicode.is_utf32le en s src len).
Proof. unfold Unicode.is_utf32le. repeat rei1. Defined.
#[export] Hint Extern 1 (reified _ _ _ (Unicode.is_utf32le _ _ _ _)) => apply rei_uni_is_utf32le : reif.
Lemma rei_uni_bswap_fallback {H : Prop} {d} en t src len dst : (H -> d = fst dst) -> reified H (eq d) any (Unicode.bswap_fallback en t src len dst).
Proof. intro K. unfold Unicode.bswap_fallback. repeat rei1. Defined.
#[export] Hint Extern 1 (reified _ _ _ (Unicode.bswap_fallback _ _ _ _ _)) => apply rei_uni_bswap_fallback; rei_side : reif.
Lemma rei_uni_bswap_simd {H : Prop} {d} en t s src len dst : (H -> d = fst dst) -> reified H (eq d) any (Unicode.bswap_simd en t s src len dst).
Proof. intro K. unfold Unicode.bswap_simd. repeat rei1. Defined.
#[export] Hint Extern 1 (reified _ _ _ (Unicode.bswap_simd _ _ _ _ _ _)) => apply rei_uni_bswap_simd; rei_side : reif.
Lemma rei_uni_swap_endianness {H : Prop} {d} en t s src len dst : (H -> d = fst dst) -> reified H (eq d) any (Unicode.swap_endianness en t s src len dst).
Proof. intro K. unfold Unicode.swap_endianness. repeat rei1. Defined.
#[export] Hint Extern 1 (reified _ _ _ (Unicode.swap_endianness _ _ _ _ _ _)) => apply rei_uni_swap_endianness; rei_side : reif.
Lemma rei_uni_swap_endianness_inplace {H : Prop} {d} en t s data len : (H -> d = fst data) -> reified H (eq d) any (Unicode.swap_endianness_inplace en t s data len).
Proof. intro K. unfold Unicode.swap_endianness_inplace. repeat rei1. Defined.
#[export] Hint Extern 1 (reified _ _ _ (Unicode.swap_endianness_inplace _ _ _ _ _)) => apply rei_uni_swap_endianness_inplace; rei_side : reif.
Lemma rei_uni_swap_endianness_to {H : Prop} {d} en t s src len dst dlen : (H -> d = fst dst) -> reified H (eq d) any (Unicode.swap_endianness_to en t s src len dst dlen).
Proof. intro K. unfold Unicode.swap_endianness_to. repeat rei1. Defined.
#[export] Hint Extern 1 (reified _ _ _ (Unicode.swap_endianness_to _ _ _ _ _ _ _)) => apply rei_uni_swap_endianness_to; rei_side : reif.

(** ** base64-simd, forgiving decoder (Forgiving.v) *)
Lemma rei_forg_lookup_ascii_whitespace {H : Prop} {P : nat -> Prop} c : reified H P any (Forgiving.lookup_ascii_whitespace c).
Proof. unfold Forgiving.lookup_ascii_whitespace. repeat rei1. Defined.
#[export] Hint Extern 1 (reified _ _ _ (Forgiving.lookup_ascii_whitespace _)) => apply rei_forg_lookup_ascii_whitespace : reif.
Lemma rei_forg_find_non_ascii_whitespace_short {H : Prop} {P : nat -> Prop} src len : reified H P any (Forgiving.find_non_ascii_whitespace_short src len).
Proof. unfold Forgiving.find_non_ascii_whitespace_short. repeat rei1. Defined.
#[export] Hint Extern 1 (reified _ _ _ (Forgiving.find_non_ascii_whitespace_short _ _)) => apply rei_forg_find_non_ascii_whitespace_short : reif.
Lemma rei_forg_find_non_ascii_whitespace_fallback {H : Prop} {P : nat -> Prop} src len : reified H P any (Forgiving.find_non_ascii_whitespace_fallback src len).
Proof. unfold Forgiving.find_non_ascii_whitespace_fallback. repeat rei1. Defined.
#[export] Hint Extern 1 (reified _ _ _ (Forgiving.find_non_ascii_whitespace_fallback _ _)) => apply rei_forg_find_non_ascii_whitespace_fallback : reif.
Lemma rei_forg_find_loop {H : Prop} {P : nat -> Prop} w s fuel end_ src : reified H P any (Forgiving.find_loop w s fuel end_ src).
Proof. unfold Forgiving.find_loop. repeat rei1. Defined.
#[export] Hint Extern 1 (reified _ _ _ (Forgiving.find_loop _ _ _ _ _)) => apply rei_forg_find_loop : reif.
Lemma rei_forg_find_non_ascii_whitespace_simd {H : Prop} {P : nat -> Prop} s src len : reified H P any (Forgiving.find_non_ascii_whitespace_simd s src len).
Proof. unfold Forgiving.find_non_ascii_whitespace_simd. repeat rei1. Defined.
#[export] Hint Extern 1 (reified _ _ _ (Forgiving.find_non_ascii_whitespace_simd _ _ _)) => apply rei_forg_find_non_ascii_whitespace_simd : reif.
Lemma rei_forg_find_non_ascii_whitespace {H : Prop} {P : nat -> Prop} s src len : reified H P any (Forgiving.find_non_ascii_whitespace s src len).
Proof. unfold Forgiving.find_non_ascii_whitespace. destruct s; repeat rei1. Defined.
#[export] Hint Extern 1 (reified _ _ _ (Forgiving.find_non_ascii_whitespace _ _ _)) => apply rei_forg_find_non_ascii_whitespace : reif.
Lemma rei_forg_remove_ascii_whitespace_fallback {H : Prop} {d} src len dst : (H -> d = fst dst) -> reified H (eq d) any (Forgiving.remove_ascii_whitespace_fallback src len dst).
Proof. intro K. unfold Forgiving.remove_ascii_whitespace_fallback. rei1. rei1; [rei1|repeat rei1].
  do 2 (rei1; [solve [repeat rei1]|]). apply (rei_bind (fun q => fst q = d)); [|intro; repeat rei1].
  match goal with |- context [if ?x then _ else _] => destruct x end; [|apply rei_ret; rei_side].
  rei1; [repeat rei1|]. apply (rei_weaken (fun q => fst q = fst (snd s))); [intros h q Hq; revert h; rei_side|apply rei_padd]. Defined.
#[export] Hint Extern 1 (reified _ _ _ (Forgiving.remove_ascii_whitespace_fallback _ _ _)) => apply rei_forg_remove_ascii_whitespace_fallback; rei_side : reif.
Lemma rei_forg_debug_assert {H : Prop} {P : nat -> Prop} b : reified H P any (Forgiving.debug_assert b).
Proof. unfold Forgiving.debug_assert. repeat rei1. Defined.
#[export] Hint Extern 1 (reified _ _ _ (Forgiving.debug_assert _)) => apply rei_forg_debug_assert : reif.
Lemma rei_forg_remove_ascii_whitespace_inplace {H : Prop} {d} s data len : (H -> d = fst data) -> reified H (eq d) any (Forgiving.remove_ascii_whitespace_inplace s data len).
Proof. intro K. unfold Forgiving.remove_ascii_whitespace_inplace. repeat rei1. Defined.
#[export] Hint Extern 1 (reified _ _ _ (Forgiving.remove_ascii_whitespace_inplace _ _ _)) => apply rei_forg_remove_ascii_whitespace_inplace; rei_side : reif.
Lemma rei_forg_forgiving_decode_inplace {H : Prop} {d} en s1 s2 data len : (H -> d = fst data) -> reified H (eq d) (ok any) (Forgiving.forgiving_decode_inplace en s1 s2 data len).
Proof. intro K. unfold Forgiving.forgiving_decode_inplace. repeat rei1. Defined.
#[export] Hint Extern 1 (reified _ _ _ (Forgiving.forgiving_decode_inplace _ _ _ _ _)) => apply rei_forg_forgiving_decode_inplace; rei_side : reif.
Lemma rei_forg_copy_nonoverlapping {H : Prop} {d} src dst n : (H -> d = fst dst) -> reified H (eq d) any (Forgiving.copy_nonoverlapping src dst n).
Proof. intro K. unfold Forgiving.copy_nonoverlapping. repeat rei1. Defined.
#[export] Hint Extern 1 (reified _ _ _ (Forgiving.copy_nonoverlapping _ _ _)) => apply rei_forg_copy_nonoverlapping; rei_side : reif.
Lemma rei_forg_forgiving_decode {H : Prop} {d} en s1 s2 src len dst dlen : (H -> d = fst dst) -> reified H (eq d) (ok any) (Forgiving.forgiving_decode en s1 s2 src len dst dlen).
Proof. intro K. unfold Forgiving.forgiving_decode. repeat rei1. Defined.
#[export] Hint Extern 1 (reified _ _ _ (Forgiving.forgiving_decode _ _ _ _ _ _ _)) => apply rei_forg_forgiving_decode; rei_side : reif.
