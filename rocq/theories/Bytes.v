(** Bytes, byte strings, and exhaustive sweeps over small finite domains. *)
From Coq Require Import ZArith List Lia Bool.
From Coq Require String Ascii.
Import ListNotations.
Open Scope list_scope.
Open Scope Z_scope.

(** A byte is an integer in [0,256); Rust [u8]. *)
Definition byte (b : Z) : Prop := 0 <= b < 256.
Definition bytes (l : list Z) : Prop := Forall byte l.

Definition byteb (b : Z) : bool := (0 <=? b) && (b <? 256).

(** The bytes of an ASCII string literal. *)
Fixpoint str (s : String.string) : list Z :=
  match s with
  | String.EmptyString => []
  | String.String c r => Z.of_N (Ascii.N_of_ascii c) :: str r
  end.

(** [range n] = [0; 1; ...; n-1]. *)
Definition range (n : nat) : list Z := map Z.of_nat (seq 0 n).

(** Pointwise combination of two lists (stops at the shorter one). *)
Fixpoint map2 {A B C} (f : A -> B -> C) (l1 : list A) (l2 : list B) : list C :=
  match l1, l2 with
  | a :: r1, b :: r2 => f a b :: map2 f r1 r2
  | _, _ => []
  end.

Fixpoint map3 {A B C D} (f : A -> B -> C -> D) l1 l2 l3 : list D :=
  match l1, l2, l3 with
  | a :: r1, b :: r2, c :: r3 => f a b c :: map3 f r1 r2 r3
  | _, _, _ => []
  end.

(** List of options to option of list. *)
Fixpoint sequence {A} (l : list (option A)) : option (list A) :=
  match l with
  | [] => Some []
  | None :: _ => None
  | Some a :: r => match sequence r with Some r' => Some (a :: r') | None => None end
  end.

(** Equality of lists of integers, as a boolean. *)
Fixpoint list_eqb (a b : list Z) : bool :=
  match a, b with
  | [], [] => true
  | x :: a', y :: b' => (x =? y) && list_eqb a' b'
  | _, _ => false
  end.

Lemma list_eqb_eq a b : list_eqb a b = true <-> a = b.
Proof.
  revert b; induction a as [|x a IH]; destruct b as [|y b]; cbn; split; intro H; try easy.
  - apply andb_true_iff in H as [H1 H2]. apply Z.eqb_eq in H1. apply IH in H2. congruence.
  - inversion H; subst. rewrite Z.eqb_refl. cbn. now apply IH.
Qed.

Lemma list_eqb_refl a : list_eqb a a = true.
Proof. now apply list_eqb_eq. Qed.

(** ** Sweeps *)

Lemma in_range n x : In x (range n) <-> 0 <= x < Z.of_nat n.
Proof.
  unfold range. rewrite in_map_iff. split.
  - intros [k [<- H]]. apply in_seq in H. lia.
  - intro H. exists (Z.to_nat x). split; [lia|]. apply in_seq. lia.
Qed.

Lemma sweep1 n (P : Z -> bool) :
  forallb P (range n) = true -> forall a, 0 <= a < Z.of_nat n -> P a = true.
Proof. intros H a Ha. rewrite forallb_forall in H. apply H. now apply in_range. Qed.

Lemma sweep2 n1 n2 (P : Z -> Z -> bool) :
  forallb (fun a => forallb (P a) (range n2)) (range n1) = true ->
  forall a b, 0 <= a < Z.of_nat n1 -> 0 <= b < Z.of_nat n2 -> P a b = true.
Proof.
  intros H a b Ha Hb. pose proof (sweep1 n1 _ H a Ha) as H1. exact (sweep1 n2 _ H1 b Hb).
Qed.

Lemma sweep3 n1 n2 n3 (P : Z -> Z -> Z -> bool) :
  forallb (fun a => forallb (fun b => forallb (P a b) (range n3)) (range n2)) (range n1) = true ->
  forall a b c, 0 <= a < Z.of_nat n1 -> 0 <= b < Z.of_nat n2 -> 0 <= c < Z.of_nat n3 -> P a b c = true.
Proof.
  intros H a b c Ha Hb Hc. pose proof (sweep2 n1 n2 _ H a b Ha Hb) as H1. exact (sweep1 n3 _ H1 c Hc).
Qed.

Lemma sweep4 n1 n2 n3 n4 (P : Z -> Z -> Z -> Z -> bool) :
  forallb (fun a => forallb (fun b => forallb (fun c => forallb (P a b c) (range n4)) (range n3)) (range n2)) (range n1) = true ->
  forall a b c d, 0 <= a < Z.of_nat n1 -> 0 <= b < Z.of_nat n2 -> 0 <= c < Z.of_nat n3 -> 0 <= d < Z.of_nat n4 ->
  P a b c d = true.
Proof.
  intros H a b c d Ha Hb Hc Hd. pose proof (sweep3 n1 n2 n3 _ H a b c Ha Hb Hc) as H1. exact (sweep1 n4 _ H1 d Hd).
Qed.

Lemma byte_sweep (P : Z -> bool) :
  forallb P (range 256) = true -> forall b, byte b -> P b = true.
Proof. intros H b Hb. exact (sweep1 256 P H b Hb). Qed.

Lemma byte_sweep2 (P : Z -> Z -> bool) :
  forallb (fun a => forallb (P a) (range 256)) (range 256) = true ->
  forall a b, byte a -> byte b -> P a b = true.
Proof. intros H a b Ha Hb. exact (sweep2 256 256 P H a b Ha Hb). Qed.

(** ** Small list facts *)

Lemma byteb_byte b : byteb b = true <-> byte b.
Proof. unfold byteb, byte. rewrite andb_true_iff, Z.leb_le, Z.ltb_lt. tauto. Qed.

Lemma bytes_app a b : bytes (a ++ b) <-> bytes a /\ bytes b.
Proof. apply Forall_app. Qed.

Lemma bytes_firstn n l : bytes l -> bytes (firstn n l).
Proof.
  unfold bytes. rewrite !Forall_forall. intros H x Hx. apply H.
  rewrite <- (firstn_skipn n l). apply in_or_app. now left.
Qed.

Lemma bytes_skipn n l : bytes l -> bytes (skipn n l).
Proof.
  unfold bytes. rewrite !Forall_forall. intros H x Hx. apply H.
  rewrite <- (firstn_skipn n l). apply in_or_app. now right.
Qed.

Lemma map2_length {A B C} (f : A -> B -> C) l1 l2 :
  length l1 = length l2 -> length (map2 f l1 l2) = length l1.
Proof.
  revert l2; induction l1 as [|a l1 IH]; destruct l2; cbn; intro H; try easy. f_equal. auto.
Qed.

Lemma map2_app {A B C} (f : A -> B -> C) a1 a2 b1 b2 :
  length a1 = length b1 -> map2 f (a1 ++ a2) (b1 ++ b2) = map2 f a1 b1 ++ map2 f a2 b2.
Proof.
  revert b1; induction a1 as [|a a1 IH]; destruct b1; cbn; intro H; try easy. f_equal. auto.
Qed.

Lemma map2_map_l {A A' B C} (f : A' -> B -> C) (g : A -> A') a b :
  map2 f (map g a) b = map2 (fun x y => f (g x) y) a b.
Proof. revert b; induction a as [|x a IH]; destruct b; cbn; f_equal; auto. Qed.

Lemma map2_map_r {A B B' C} (f : A -> B' -> C) (g : B -> B') a b :
  map2 f a (map g b) = map2 (fun x y => f x (g y)) a b.
Proof. revert b; induction a as [|x a IH]; destruct b; cbn; f_equal; auto. Qed.

Lemma map2_same {A C} (f : A -> A -> C) a : map2 f a a = map (fun x => f x x) a.
Proof. induction a; cbn; f_equal; auto. Qed.

Lemma map2_repeat_r {A B C} (f : A -> B -> C) a b n :
  length a = n -> map2 f a (repeat b n) = map (fun x => f x b) a.
Proof. intros <-; induction a; cbn; f_equal; auto. Qed.

Lemma map2_repeat_l {A B C} (f : A -> B -> C) a b n :
  length b = n -> map2 f (repeat a n) b = map (fun x => f a x) b.
Proof. intros <-; induction b; cbn; f_equal; auto. Qed.

Lemma repeat_app_plus {A} (x : A) n m : repeat x n ++ repeat x m = repeat x (n + m).
Proof. now rewrite repeat_app. Qed.

Lemma firstn_app_exact {A} (a b : list A) n : length a = n -> firstn n (a ++ b) = a.
Proof. intros <-. rewrite firstn_app, Nat.sub_diag, firstn_all. cbn. apply app_nil_r. Qed.

Lemma skipn_app_exact {A} (a b : list A) n : length a = n -> skipn n (a ++ b) = b.
Proof. intros <-. rewrite skipn_app, Nat.sub_diag, skipn_all. reflexivity. Qed.

Lemma Forall_map2 {A B C} (P : A -> Prop) (Q : B -> Prop) (R : C -> Prop) (f : A -> B -> C) a b :
  (forall x y, P x -> Q y -> R (f x y)) -> Forall P a -> Forall Q b -> Forall R (map2 f a b).
Proof.
  intros H Ha. revert b. induction Ha; destruct b; cbn; intro Hb; constructor; inversion Hb; subst; auto.
Qed.

Lemma Forall_map {A B} (P : A -> Prop) (Q : B -> Prop) (f : A -> B) a :
  (forall x, P x -> Q (f x)) -> Forall P a -> Forall Q (map f a).
Proof. intros H Ha; induction Ha; cbn; constructor; auto. Qed.

(** Destruct a list of known concrete length into its elements. *)
Lemma list_S_inv {A} n (l : list A) : length l = S n -> exists a r, l = a :: r /\ length r = n.
Proof. destruct l; cbn; intro H; [easy|]. eexists; eexists; split; [reflexivity|lia]. Qed.

Ltac explode_in l H :=
  lazymatch type of H with
  | length l = 0%nat => apply length_zero_iff_nil in H; subst l
  | length l = _ =>
      let a := fresh "x" in let r := fresh "r" in let E := fresh "E" in let H' := fresh "H" in
      destruct (list_S_inv _ _ H) as [a [r [E H']]]; clear H; subst l; explode_in r H'
  end.

(** [explode l]: given [H : length l = 16] (a numeral) in the context, replace [l] by [x;x0;...]. *)
Ltac explode l :=
  match goal with H : length l = _ |- _ => explode_in l H end.

Lemma sequence_map_some {A} (l : list A) : sequence (map Some l) = Some l.
Proof. induction l; cbn; [|rewrite IHl]; reflexivity. Qed.

Lemma nth_error_ext {A} (l1 l2 : list A) :
  length l1 = length l2 ->
  (forall i, (i < length l1)%nat -> nth_error l1 i = nth_error l2 i) -> l1 = l2.
Proof.
  revert l2; induction l1 as [|a l1 IH]; destruct l2 as [|b l2]; cbn; intros Hl H; try easy.
  f_equal.
  - specialize (H 0%nat ltac:(lia)). cbn in H. congruence.
  - apply IH; [lia|]. intros i Hi. exact (H (S i) ltac:(lia)).
Qed.

Lemma nth_error_firstn {A} (l : list A) n i :
  nth_error (firstn n l) i = if (i <? n)%nat then nth_error l i else None.
Proof.
  revert n i; induction l as [|a l IH]; intros n i.
  - rewrite firstn_nil. destruct i; cbn [nth_error]; now destruct (_ <? _)%nat.
  - destruct n as [|n], i as [|i]; try reflexivity. cbn [firstn nth_error]. rewrite IH. reflexivity.
Qed.

Lemma nth_error_skipn {A} (l : list A) n i : nth_error (skipn n l) i = nth_error l (n + i).
Proof.
  revert n; induction l as [|a l IH]; intros [|n]; try reflexivity.
  - rewrite skipn_nil. cbn. now destruct i.
  - apply IH.
Qed.

Lemma nth_error_app {A} (l l' : list A) i :
  nth_error (l ++ l') i = if (i <? length l)%nat then nth_error l i else nth_error l' (i - length l).
Proof.
  destruct (Nat.ltb_spec i (length l)); [now apply nth_error_app1|now apply nth_error_app2].
Qed.

(** ** Disjoint bits *)
Lemma lor_small n u v : 0 <= n -> 0 <= u < 2 ^ n -> 0 <= v < 2 ^ n -> 0 <= Z.lor u v < 2 ^ n.
Proof.
  intros Hn Hu Hv. assert (E : Z.lor u v mod 2 ^ n = Z.lor u v).
  { rewrite <- Z.land_ones, Z.land_lor_distr_l, !Z.land_ones, !Z.mod_small by lia. reflexivity. }
  rewrite <- E. apply Z.mod_pos_bound. lia.
Qed.
Lemma lor_disj n x y : 0 <= n -> 0 <= y < 2 ^ n -> Z.lor (2 ^ n * x) y = 2 ^ n * x + y.
Proof.
  intros Hn Hy. assert (P : 2 ^ n <> 0) by (apply Z.pow_nonzero; lia).
  assert (D : Z.lor (2 ^ n * x) y / 2 ^ n = x).
  { rewrite <- Z.shiftr_div_pow2, Z.shiftr_lor, !Z.shiftr_div_pow2 by lia. rewrite (Z.div_small y) by lia.
    rewrite Z.lor_0_r, Z.mul_comm. now apply Z.div_mul. }
  assert (M : Z.lor (2 ^ n * x) y mod 2 ^ n = y).
  { rewrite <- Z.land_ones, Z.land_lor_distr_l, !Z.land_ones by lia. rewrite (Z.mod_small y) by lia. rewrite Z.mul_comm, Z.mod_mul by auto. reflexivity. }
  rewrite (Z.div_mod (Z.lor (2 ^ n * x) y) (2 ^ n)), D, M by auto. reflexivity.
Qed.
Lemma lor_255 v : byte v -> Z.lor 255 v = 255.
Proof. intro H. apply Z.eqb_eq. revert v H. apply byte_sweep. vm_compute. reflexivity. Qed.
