(** C84, continued: what the rules of Borrows.v give, for every program. A byte behind a parameter of type [&] does not change while
    the function runs; a byte behind a parameter of type [&mut] is not accessed through older pointers until the function returns; a
    pointer that may not write, or not be used at all, does not get the permission back. *)
From Coq Require Import ZArith List Bool Lia ZifyBool ZifyNat.
From Verif Require Import Bytes Mem MemFacts Slices Codec Conc ConcFacts Isa Simd Hex Borrows BorrowsApi BorrowsFacts TreeBorrows TreePartsFacts PropBorrows PropTreeRules.
Import ListNotations.
Open Scope nat_scope. Open Scope m_scope. Open Scope borrow_scope.

(** ** One byte *)
Lemma locate_app w t X Y : locate w t (X ++ Y) =
  match locate w t X with
  | Some (a, g, c) => Some (a, g, c ++ Y)
  | None => match locate w t Y with Some (a, g, c) => Some (X ++ a, g, c) | None => None end
  end.
Proof.
  induction X as [|i X IH]; cbn [app locate].
  - now destruct (locate w t Y) as [[[a g] c]|].
  - destruct (grants w t i); [reflexivity|]. rewrite IH. destruct (locate w t X) as [[[a g] c]|]; [reflexivity|]. now destruct (locate w t Y) as [[[a g] c]|].
Qed.
Lemma locate_split w t s a g c : locate w t s = Some (a, g, c) -> s = a ++ g :: c /\ grants w t g = true.
Proof.
  revert a g c. induction s as [|i s IH]; cbn [locate]; intros a g c E; [discriminate E|]. destruct (grants w t i) eqn:G; [injection E as <- <- <-; auto|].
  destruct (locate w t s) as [[[a' g'] c']|]; [|discriminate E]. injection E as <- <- <-. destruct (IH _ _ _ eq_refl) as [-> H]. auto.
Qed.
Lemma locate_none w t X : Forall (fun i => grants w t i = false) X -> locate w t X = None.
Proof. induction 1 as [|i X H _ IH]; cbn [locate]; [reflexivity|]. now rewrite H, IH. Qed.
(** an item that is no raw pointer, and what lies above it, is removed by a write through what lies below *)
Lemma split_rw_keep A it B : is_shared_rw it = false -> exists p, fst (split_rw (A ++ it :: B)) = A ++ it :: p /\ snd (split_rw (A ++ it :: B)) = snd (split_rw B).
Proof.
  intro H. induction A as [|i A IH]; cbn [app split_rw].
  - destruct (split_rw B) as [p k]. exists p. destruct p; [rewrite H|]; auto.
  - destruct IH as (p & E1 & E2). destruct (split_rw (A ++ it :: B)) as [p0 k]. cbn [fst snd] in *. subst p0. exists p. destruct A; auto.
Qed.
Lemma split_above_keep g A it B : is_shared_rw it = false -> exists p, fst (split_above g (A ++ it :: B)) = A ++ it :: p.
Proof. intro H. unfold split_above. destruct (is_shared_rw g); [|now exists B]. destruct (split_rw_keep A it B H) as (p & E & _). now exists p. Qed.
Lemma split_rw_all (P : item -> Prop) l : Forall P l -> Forall P (fst (split_rw l)) /\ Forall P (snd (split_rw l)).
Proof.
  induction l as [|i r IH]; cbn [split_rw]; [auto|]. intro F. apply Forall_cons_iff in F as [H F]. destruct (IH F) as [IH1 IH2]. destruct (split_rw r) as [p k]. cbn [fst snd] in *. destruct p; [destruct (is_shared_rw i)|]; cbn [fst snd]; auto.
Qed.
Lemma split_above_all (P : item -> Prop) g l : Forall P l -> Forall P (fst (split_above g l)) /\ Forall P (snd (split_above g l)).
Proof. intro H. unfold split_above. destruct (is_shared_rw g); [now apply split_rw_all|cbn [fst snd]; auto]. Qed.

Inductive stack_step (s : borrows) (st : stack) : stack -> Prop :=
| ss_none : stack_step s st st
| ss_read t st' : read_at (active s) t st = Some st' -> stack_step s st st'
| ss_write t st' : write_at (active s) t st = Some st' -> stack_step s st st'
| ss_make x call t st' : retag_at (active s) x call t (fresh s) st = Some st' -> stack_step s st st'.

(** *** What is on the stack and may not write *)
Definition spent_item (i : item) : Prop := i_perm i = SharedRO \/ i_perm i = Disabled.
Lemma spent_disable i : spent_item i -> disable i = i. Proof. unfold disable, is_unique. now intros [-> | ->]. Qed.
Lemma spent_grants t i : spent_item i -> grants true t i = false. Proof. unfold grants. intros [-> | ->]; apply andb_false_r. Qed.
Lemma spent_map X : Forall spent_item X -> map disable X = X.
Proof. induction 1 as [|i X H _ IH]; cbn; [reflexivity|]. now rewrite spent_disable, IH. Qed.
(** a [SharedRO] item that belongs to the call [c], with nothing above it that may write *)
Definition sealed (c u : nat) (st : stack) : Prop :=
  exists A it B, st = A ++ it :: B /\ Forall spent_item A /\ i_perm it = SharedRO /\ i_tag it = u /\ i_call it = Some c.
Lemma protected_in act it c : i_call it = Some c -> In c act -> protected act it = true.
Proof. intros E I. unfold protected. rewrite E. apply existsb_exists. exists c. split; [exact I|apply Nat.eqb_refl]. Qed.
Lemma sealed_locate c u st t a g r : sealed c u st -> locate true t st = Some (a, g, r) ->
  exists A it B1, a = A ++ it :: B1 /\ Forall spent_item A /\ i_perm it = SharedRO /\ i_tag it = u /\ i_call it = Some c.
Proof.
  intros (A & it & B & -> & SA & P & T & C) E. rewrite locate_app, (locate_none true t A) in E by (eapply Forall_impl; [|exact SA]; intros i; apply spent_grants).
  cbn [locate] in E. rewrite (spent_grants t it (or_introl P)) in E. destruct (locate true t B) as [[[a' g'] c']|]; [|discriminate E]. injection E as <- <- <-. exists A, it, a'. auto.
Qed.
Lemma sealed_write c u st act t : sealed c u st -> In c act -> write_at act t st = None.
Proof.
  intros S I. unfold write_at. destruct (locate true t st) as [[[a g] r]|] eqn:E; [|reflexivity]. destruct (sealed_locate _ _ _ _ _ _ _ S E) as (A & it & B & -> & SA & P & T & C).
  destruct (split_above_keep g A it B) as [p EP]; [unfold is_shared_rw; now rewrite P|]. destruct (split_above g (A ++ it :: B)) as [p0 k]. cbn [fst] in EP. subst p0.
  replace (existsb (protected act) (A ++ it :: p)) with true; [reflexivity|]. symmetry. apply existsb_exists. exists it. split; [apply in_or_app; right; now left|exact (protected_in _ _ _ C I)].
Qed.
Lemma sealed_read c u st act t st' : sealed c u st -> read_at act t st = Some st' -> sealed c u st'.
Proof.
  intros (A & it & B & -> & SA & P & T & C) E. unfold read_at in E. destruct (locate false t _) as [[[a g] r]|] eqn:EL; [|discriminate E].
  destruct (existsb _ a); [discriminate E|]. injection E as <-. assert (SI : spent_item it) by now left. rewrite locate_app in EL. destruct (locate false t A) as [[[a1 g1] r1]|] eqn:EA.
  - injection EL as <- <- <-. apply locate_split in EA as [-> _]. apply Forall_app in SA as [S1 S2]. rewrite spent_map by exact S1. exists (a1 ++ g1 :: r1), it, B. rewrite <- app_assoc. cbn. split; [reflexivity|]. split; [now apply Forall_app|auto].
  - cbn [locate] in EL. destruct (grants false t it).
    + injection EL as <- <- <-. rewrite app_nil_r, spent_map by exact SA. exists A, it, B. auto.
    + destruct (locate false t B) as [[[a1 g1] r1]|]; [|discriminate EL]. injection EL as <- <- <-. exists A, it, (map disable a1 ++ g1 :: r1).
      rewrite map_app, spent_map by exact SA. cbn [map]. rewrite spent_disable by exact SI. rewrite <- app_assoc. cbn. auto.
Qed.
Lemma sealed_step c u s st st' : In c (active s) -> stack_step s st st' -> sealed c u st -> sealed c u st'.
Proof.
  intros I E S. destruct E as [|t st' E|t st' E|x call t st' E].
  - exact S.
  - exact (sealed_read _ _ _ _ _ _ S E).
  - rewrite (sealed_write _ _ _ _ _ S I) in E. discriminate E.
  - assert (PU : forall st1 i, sealed c u st1 -> spent_item i -> sealed c u (i :: st1)).
    { intros st1 i (A & it & B & -> & SA & R) Hi. exists (i :: A), it, B. cbn. auto. }
    destruct x; cbn [retag_at] in E.
    + rewrite (sealed_write _ _ _ _ _ S I) in E. discriminate E.
    + destruct (read_at _ t st) as [st1|] eqn:ER; [|discriminate E]. injection E as <-. apply PU; [exact (sealed_read _ _ _ _ _ _ S ER)|now left].
    + destruct (locate true t st) as [[[a g] r]|] eqn:EL; [|discriminate E]. destruct (sealed_locate _ _ _ _ _ _ _ S EL) as (A & it & B & -> & SA & P & T & C).
      destruct (split_above_keep g A it B) as [p EP]; [unfold is_shared_rw; now rewrite P|]. destruct (split_above g (A ++ it :: B)) as [p0 k]. cbn [fst] in EP. subst p0. injection E as <-.
      rewrite <- app_assoc. cbn [app]. eexists A, it, _. split; [reflexivity|auto].
    + destruct (read_at _ t st) as [st1|] eqn:ER; [|discriminate E]. injection E as <-. apply PU; [exact (sealed_read _ _ _ _ _ _ S ER)|now left].
Qed.

(** *** A [Unique] item that belongs to the call [c], and above it only items newer than [N] *)
Definition owned (c u N : nat) (st : stack) : Prop :=
  exists A it B, st = A ++ it :: B /\ Forall (fun i => N <= i_tag i) A /\ i_perm it = Unique /\ i_tag it = u /\ i_call it = Some c.
Lemma tag_disable i : i_tag (disable i) = i_tag i. Proof. unfold disable. now destruct (is_unique i). Qed.
Lemma newer_map N X : Forall (fun i => N <= i_tag i) X -> Forall (fun i => N <= i_tag i) (map disable X).
Proof. induction 1; cbn; constructor; [now rewrite tag_disable|assumption]. Qed.
(** where the item is that allows an access *)
Lemma owned_locate c u N st w t a g r : owned c u N st -> locate w t st = Some (a, g, r) ->
  (exists r1 it B, r = r1 ++ it :: B /\ Forall (fun i => N <= i_tag i) (a ++ g :: r1) /\ i_perm it = Unique /\ i_tag it = u /\ i_call it = Some c) \/
  (t = u /\ Forall (fun i => N <= i_tag i) a /\ i_perm g = Unique /\ i_tag g = u /\ i_call g = Some c) \/
  (exists A it B1, a = A ++ it :: B1 /\ Forall (fun i => N <= i_tag i) A /\ i_perm it = Unique /\ i_tag it = u /\ i_call it = Some c).
Proof.
  intros (A & it & B & -> & SA & P & T & C) E. rewrite locate_app in E. destruct (locate w t A) as [[[a1 g1] r1]|] eqn:EA.
  - injection E as <- <- <-. apply locate_split in EA as [-> _]. left. exists r1, it, B. auto.
  - right. cbn [locate] in E. destruct (grants w t it) eqn:G.
    + injection E as <- <- <-. left. rewrite app_nil_r. unfold grants in G. split; [lia|auto].
    + right. destruct (locate w t B) as [[[a1 g1] r1]|]; [|discriminate E]. injection E as <- <- <-. exists A, it, a1. auto.
Qed.
Lemma owned_read_below act c A it B1 : In c act -> i_perm it = Unique -> i_call it = Some c -> existsb (fun i => is_unique i && protected act i) (A ++ it :: B1) = true.
Proof. intros I P C. apply existsb_exists. exists it. split; [apply in_or_app; right; now left|]. unfold is_unique. rewrite P. exact (protected_in _ _ _ C I). Qed.
Lemma owned_write_below act c g A it B1 : In c act -> i_perm it = Unique -> i_call it = Some c -> existsb (protected act) (fst (split_above g (A ++ it :: B1))) = true.
Proof.
  intros I P C. destruct (split_above_keep g A it B1) as [p ->]; [unfold is_shared_rw; now rewrite P|]. apply existsb_exists. exists it. split; [apply in_or_app; right; now left|exact (protected_in _ _ _ C I)].
Qed.
Lemma owned_read c u N st act t st' : In c act -> owned c u N st -> read_at act t st = Some st' -> owned c u N st'.
Proof.
  intros I O E. unfold read_at in E. destruct (locate false t st) as [[[a g] r]|] eqn:EL; [|discriminate E].
  destruct (owned_locate _ _ _ _ _ _ _ _ _ O EL) as [(r1 & it & B & -> & SA & P & T & C)|[(_ & SA & P & T & C)|(A & it & B1 & -> & SA & P & T & C)]].
  - destruct (existsb _ a); [discriminate E|]. injection E as <-. apply Forall_app in SA as [S1 S2]. exists (map disable a ++ g :: r1), it, B. rewrite <- app_assoc. cbn. split; [reflexivity|].
    split; [apply Forall_app; split; [now apply newer_map|exact S2]|auto].
  - destruct (existsb _ a); [discriminate E|]. injection E as <-. exists (map disable a), g, r. split; [reflexivity|]. split; [now apply newer_map|auto].
  - rewrite (owned_read_below _ _ _ _ _ I P C) in E. discriminate E.
Qed.
Lemma owned_write c u N st act t st' : In c act -> owned c u N st -> write_at act t st = Some st' -> owned c u N st'.
Proof.
  intros I O E. unfold write_at in E. destruct (locate true t st) as [[[a g] r]|] eqn:EL; [|discriminate E].
  destruct (owned_locate _ _ _ _ _ _ _ _ _ O EL) as [(r1 & it & B & -> & SA & P & T & C)|[(_ & SA & P & T & C)|(A & it & B1 & -> & SA & P & T & C)]].
  - apply Forall_app in SA as [S1 S2]. destruct (split_above_all _ g _ S1) as [_ K]. destruct (split_above g a) as [p k]. destruct (existsb _ p); [discriminate E|]. injection E as <-.
    exists (k ++ g :: r1), it, B. rewrite <- app_assoc. cbn. split; [reflexivity|]. split; [now apply Forall_app|auto].
  - destruct (split_above_all _ g _ SA) as [_ K]. destruct (split_above g a) as [p k]. destruct (existsb _ p); [discriminate E|]. injection E as <-. exists k, g, r. auto.
  - assert (W := owned_write_below _ _ g A _ B1 I P C). destruct (split_above g _) as [p k]. cbn [fst] in W. rewrite W in E. discriminate E.
Qed.
Lemma owned_step c u N s st st' : In c (active s) -> N <= fresh s -> stack_step s st st' -> owned c u N st -> owned c u N st'.
Proof.
  intros I F E O. destruct E as [|t st' E|t st' E|x call t st' E].
  - exact O.
  - exact (owned_read _ _ _ _ _ _ _ I O E).
  - exact (owned_write _ _ _ _ _ _ _ I O E).
  - assert (PU : forall st1 i, owned c u N st1 -> N <= i_tag i -> owned c u N (i :: st1)).
    { intros st1 i (A & it & B & -> & SA & R) Hi. exists (i :: A), it, B. cbn. auto. }
    destruct x; cbn [retag_at] in E.
    + destruct (write_at _ t st) as [st1|] eqn:ER; [|discriminate E]. injection E as <-. apply PU; [exact (owned_write _ _ _ _ _ _ _ I O ER)|exact F].
    + destruct (read_at _ t st) as [st1|] eqn:ER; [|discriminate E]. injection E as <-. apply PU; [exact (owned_read _ _ _ _ _ _ _ I O ER)|exact F].
    + destruct (locate true t st) as [[[a g] r]|] eqn:EL; [|discriminate E].
      destruct (owned_locate _ _ _ _ _ _ _ _ _ O EL) as [(r1 & it & B & -> & SA & P & T & C)|[(_ & SA & P & T & C)|(A & it & B1 & -> & SA & P & T & C)]].
      * apply Forall_app in SA as [S1 S2]. destruct (split_above_all _ g _ S1) as [K1 K2]. destruct (split_above g a) as [p k]. injection E as <-.
        exists (p ++ {| i_perm := SharedRW; i_tag := fresh s; i_call := call |} :: k ++ g :: r1), it, B. rewrite <- app_assoc. cbn [app]. rewrite <- app_assoc. cbn [app]. split; [reflexivity|].
        split; [|auto]. apply Forall_app. split; [exact K1|]. constructor; [exact F|]. now apply Forall_app.
      * destruct (split_above_all _ g _ SA) as [K1 K2]. destruct (split_above g a) as [p k]. injection E as <-.
        exists (p ++ {| i_perm := SharedRW; i_tag := fresh s; i_call := call |} :: k), g, r. rewrite <- app_assoc. cbn [app]. split; [reflexivity|].
        split; [|auto]. apply Forall_app. split; [exact K1|]. constructor; [exact F|exact K2].
      * destruct (split_above_keep g A it B1) as [p EP]; [unfold is_shared_rw; now rewrite P|]. destruct (split_above g (A ++ it :: B1)) as [p0 k]. cbn [fst] in EP. subst p0. injection E as <-.
        rewrite <- app_assoc. cbn [app]. eexists A, it, _. split; [reflexivity|auto].
    + destruct (read_at _ t st) as [st1|] eqn:ER; [|discriminate E]. injection E as <-. apply PU; [exact (owned_read _ _ _ _ _ _ _ I O ER)|exact F].
Qed.
Lemma owned_excludes c u N st act t : In c act -> owned c u N st -> t < N -> t <> u -> read_at act t st = None /\ write_at act t st = None.
Proof.
  intros I O L D. unfold read_at, write_at. split.
  - destruct (locate false t st) as [[[a g] r]|] eqn:EL; [|reflexivity]. destruct (owned_locate _ _ _ _ _ _ _ _ _ O EL) as [(r1 & it & B & -> & SA & P & T & C)|[(E & _)|(A & it & B1 & -> & SA & P & T & C)]].
    + apply locate_split in EL as [_ G]. unfold grants in G. apply Forall_app in SA as [_ SA]. apply Forall_cons_iff in SA as [SA _]. lia.
    + contradiction.
    + now rewrite (owned_read_below _ _ _ _ _ I P C).
  - destruct (locate true t st) as [[[a g] r]|] eqn:EL; [|reflexivity]. destruct (owned_locate _ _ _ _ _ _ _ _ _ O EL) as [(r1 & it & B & -> & SA & P & T & C)|[(E & _)|(A & it & B1 & -> & SA & P & T & C)]].
    + apply locate_split in EL as [_ G]. unfold grants in G. apply Forall_app in SA as [_ SA]. apply Forall_cons_iff in SA as [SA _]. lia.
    + contradiction.
    + assert (W := owned_write_below _ _ g A _ B1 I P C). destruct (split_above g _) as [p k]. cbn [fst] in W. now rewrite W.
Qed.

(** *** A property of the items with tag [u] that [disable] keeps *)
Section Tag.
Variables (u : nat) (Q : item -> Prop).
Hypothesis disable_Q : forall i, Q i -> Q (disable i).
Definition items_are (st : stack) : Prop := Forall (fun i => i_tag i = u -> Q i) st.
Lemma items_read act t st st' : items_are st -> read_at act t st = Some st' -> items_are st'.
Proof.
  intros H E. unfold read_at in E. destruct (locate false t st) as [[[a g] r]|] eqn:EL; [|discriminate E]. destruct (existsb _ a); [discriminate E|]. injection E as <-.
  apply locate_split in EL as [-> _]. apply Forall_app in H as [H1 H2]. apply Forall_app. split; [|exact H2]. clear - H1 disable_Q. induction H1 as [|i l H _ IH]; cbn; constructor; [|exact IH].
  rewrite tag_disable. auto.
Qed.
Lemma items_write act t st st' : items_are st -> write_at act t st = Some st' -> items_are st'.
Proof.
  intros H E. unfold write_at in E. destruct (locate true t st) as [[[a g] r]|] eqn:EL; [|discriminate E]. apply locate_split in EL as [-> _]. apply Forall_app in H as [H1 H2].
  destruct (split_above_all _ g _ H1) as [_ K]. destruct (split_above g a) as [p k]. destruct (existsb _ p); [discriminate E|]. injection E as <-. now apply Forall_app.
Qed.
Lemma items_step s st st' : u < fresh s -> stack_step s st st' -> items_are st -> items_are st'.
Proof.
  intros U E H. destruct E as [|t st' E|t st' E|x call t st' E]; eauto using items_read, items_write.
  destruct x; cbn [retag_at] in E.
  - destruct (write_at _ t st) as [st1|] eqn:ER; [|discriminate E]. injection E as <-. constructor; [cbn; lia|]. eapply items_write; eauto.
  - destruct (read_at _ t st) as [st1|] eqn:ER; [|discriminate E]. injection E as <-. constructor; [cbn; lia|]. eapply items_read; eauto.
  - destruct (locate true t st) as [[[a g] r]|] eqn:EL; [|discriminate E]. apply locate_split in EL as [-> _]. apply Forall_app in H as [H1 H2].
    destruct (split_above_all _ g _ H1) as [K1 K2]. destruct (split_above g a) as [p k]. injection E as <-. apply Forall_app. split; [exact K1|]. constructor; [cbn; lia|]. now apply Forall_app.
  - destruct (read_at _ t st) as [st1|] eqn:ER; [|discriminate E]. injection E as <-. constructor; [cbn; lia|]. eapply items_read; eauto.
Qed.
End Tag.

(** ** Programs *)
Section StackRuns.
Variables (b o c N : nat) (K : stack -> Prop).
(** with [held] only states are looked at in which the call [c] runs, [d] levels below the innermost one *)
Variable held : bool.
Definition call_at (d : nat) (s : borrows) : Prop := exists L B, active s = L ++ c :: B /\ length L = d.
Lemma call_active d s : call_at d s -> In c (active s).
Proof. intros (L & B & E & _). rewrite E. apply in_or_app. right. now left. Qed.
Hypothesis keep : forall s st st', N <= fresh s -> (held = true -> In c (active s)) -> stack_step s st st' -> K st -> K st'.
Record sinv (d : nat) (s : borrows) : Prop := { sinv_old : N <= fresh s; sinv_held : held = true -> call_at d s; sinv_stack : K (stacks s b o) }.
Lemma sinv_active d s : sinv d s -> held = true -> In c (active s). Proof. intros V H. exact (call_active d s (sinv_held _ _ V H)). Qed.

Lemma sinv_across d s q n f st : sinv d s -> across (stacks s) q n f = Some st -> (forall x x', f x = Some x' -> stack_step s x x') -> K (st b o).
Proof.
  intros V E F. destruct (across_get _ _ _ _ _ b o E) as [->|[_ EF]]; [apply V|]. apply F in EF.
  exact (keep s _ _ (sinv_old _ _ V) (sinv_active _ _ V) EF (sinv_stack _ _ V)).
Qed.
Lemma via_some f t x x' : via f t x = Some x' -> exists t, f t x = Some x'.
Proof. destruct t as [t|]; [eauto|discriminate]. Qed.
Lemma sinv_perform x d s t s' : sinv d s -> perform x s = Some (t, s') -> (held = true -> x = Leave -> d <> 0) -> sinv (depth_after x d) s'.
Proof.
  intros V E D. destruct x as [| |k param v q n]; cbn [perform] in E.
  - injection E as <- <-. destruct V as [V1 V2 V3]. constructor; cbn [fresh stacks]; [lia| |exact V3]. intro H. destruct (V2 H) as (L & B & EC & EL).
    exists (fresh s :: L), B. cbn [active]. rewrite EC. cbn [app length depth_after]. auto.
  - destruct (active s) as [|c0 r] eqn:EC; [discriminate E|]. injection E as <- <-. destruct V as [V1 V2 V3]. constructor; [exact V1| |exact V3]. intro H. destruct (V2 H) as (L & B & EC1 & EL).
    specialize (D H eq_refl). destruct L as [|c1 L]; [now rewrite <- EL in D|]. rewrite EC in EC1. injection EC1 as _ ->. exists L, B. cbn [active depth_after]. cbn [length] in EL. subst d. auto.
  - destruct (across _ q n _) as [st|] eqn:EA; [|discriminate E]. injection E as <- <-. assert (U := sinv_old _ _ V). constructor; cbn [fresh stacks].
    + lia.
    + intro H. exact (sinv_held _ _ V H).
    + refine (sinv_across d s _ _ _ _ V EA _). intros y y' Ey. eapply ss_make. exact Ey.
Qed.
(** with [still] the byte is not written *)
Variable still : bool.
Hypothesis no_write : forall s st t, still = true -> (held = true -> In c (active s)) -> K st -> write_at (active s) t st = None.
Lemma sinv_run {A} v (p : prog A) d : forall s m a s' m', sinv d s -> trun v p s m = Some (a, s', m') -> sinv d s' /\ (still = true -> nth_error (m' b) o = nth_error (m b) o).
Proof.
  induction p as [a0|f|b0 k IH|q n k IH|q xs k IH]; intros s m a s' m' V E; cbn [trun] in E.
  - injection E as _ <- <-. auto.
  - discriminate E.
  - exact (IH _ _ _ _ _ _ V E).
  - unfold tread, put in E. destruct (across _ q n _) as [st|] eqn:EA; [|discriminate E]. destruct (load q n m) as [l m1| | |] eqn:EL; try discriminate E.
    apply load_ret in EL as (-> & _ & _). refine (IH _ _ _ _ _ _ _ E). constructor; [apply V|apply V|]. cbn [stacks]. refine (sinv_across d s _ _ _ _ V EA _).
    intros y y' Ey. apply via_some in Ey as [t Ey]. now apply ss_read with t.
  - unfold twrite, put in E. destruct (across _ q _ _) as [st|] eqn:EA; [|discriminate E]. destruct (store q xs m) as [y m1| | |] eqn:EL; try discriminate E.
    apply store_ret in EL as (L & ->). match type of E with trun _ _ ?s1 _ = _ => assert (V0 : sinv d s1) end.
    { constructor; [apply V|apply V|]. cbn [stacks]. refine (sinv_across d s _ _ _ _ V EA _). intros z z' Ez. apply via_some in Ez as [t Ez]. now apply ss_write with t. }
    destruct (IH _ _ _ _ _ V0 E) as [V1 M1]. split; [exact V1|]. intro S. rewrite (M1 S). unfold upd. destruct (Nat.eqb_spec b (fst q)) as [EB|]; [|reflexivity]. rewrite EB, splice_nth by exact L.
    destruct ((snd q <=? o) && (o <? snd q + length xs)) eqn:R; [|reflexivity]. exfalso. apply across_some in EA as [EA _]. specialize (EA (o - snd q) ltac:(lia)).
    replace (snd q + (o - snd q)) with o in EA by lia. rewrite <- EB in EA. apply via_some in EA as [t EA]. rewrite (no_write s _ t S (sinv_active _ _ V) (sinv_stack _ _ V)) in EA. discriminate EA.
Qed.
Lemma sinv_runs {A} (x : bcode A) s m a s' m' : runs x s m a s' m' -> forall d, (held = true -> stays d x) -> sinv d s ->
  exists d', sinv d' s' /\ (still = true -> nth_error (m' b) o = nth_error (m b) o).
Proof.
  induction 1 as [A a s m|A x k s m t s1 a s' m' E _ IH|A X v c0 k p s m y s1 m1 a s' m' HF E _ IH]; intros d S V.
  - exists d. auto.
  - apply (IH (depth_after x d)).
    + intro H. specialize (S H). destruct x; cbn [stays depth_after] in *; [apply S| |apply S]. destruct d; [contradiction|apply S].
    + apply (sinv_perform _ _ _ _ _ V E). intros H -> ->. exact (S H).
  - destruct (sinv_run _ _ _ _ _ _ _ _ V E) as [V1 M1]. destruct (IH d (fun H => S H y) V1) as (d' & V2 & M2). exists d'. split; [exact V2|].
    intro T. rewrite (M2 T). now apply M1.
Qed.
End StackRuns.

(** A byte behind a parameter of type [&] does not change while the function runs: the item of [u], the parameter of the call [c], is
    on top, and [x] does not leave the call. *)
Theorem C84_shared_param_constant : forall A (x : bcode A) d s m a s' m' b o c u r,
  runs x s m a s' m' -> call_at c d s -> stays d x -> stacks s b o = {| i_perm := SharedRO; i_tag := u; i_call := Some c |} :: r ->
  nth_error (m' b) o = nth_error (m b) o /\ may_read s' (b, o) 1 u /\ forall t, ~ may_write s' (b, o) 1 t.
Proof.
  intros A x d s m a s' m' b o c u r R CA N E.
  destruct (sinv_runs b o c 0 (sealed c u) true (fun s st st' _ G => sealed_step c u s st st' (G eq_refl)) true) with (2 := R) (d := d) as (d' & V & M).
  - intros s1 st t _ G K. exact (sealed_write _ _ _ _ t K (G eq_refl)).
  - intros _. exact N.
  - constructor; [lia|intros _; exact CA|]. rewrite E. eexists [], _, r. cbn. auto.
  - assert (K := sinv_stack _ _ _ _ _ _ _ _ V). assert (G := sinv_active _ _ _ _ _ _ _ _ V eq_refl). split; [now apply M|]. split.
    + intros i Hi. assert (i = 0) as -> by lia. cbn [fst snd]. rewrite Nat.add_0_r. destruct K as (X & it & B & -> & SA & P & T & C). unfold read_at. rewrite locate_app.
      destruct (locate false u X) as [[[a1 g1] r1]|] eqn:EX.
      * apply locate_split in EX as [-> _]. apply Forall_app in SA as [SA _]. replace (existsb _ a1) with false; [discriminate|]. symmetry. apply not_true_iff_false. intro H. apply existsb_exists in H as (z & Hz & Q).
        rewrite Forall_forall in SA. specialize (SA z Hz). unfold is_unique in Q. destruct SA as [SA|SA]; rewrite SA in Q; discriminate Q.
      * cbn [locate]. replace (grants false u it) with true by (unfold grants; rewrite P, T, Nat.eqb_refl; reflexivity). rewrite app_nil_r. replace (existsb _ X) with false; [discriminate|]. symmetry. apply not_true_iff_false. intro H.
        apply existsb_exists in H as (z & Hz & Q). rewrite Forall_forall in SA. specialize (SA z Hz). unfold is_unique in Q. destruct SA as [SA|SA]; rewrite SA in Q; discriminate Q.
    + intros t H. specialize (H 0 Nat.lt_0_1). cbn [fst snd] in H. rewrite Nat.add_0_r in H. apply H. exact (sealed_write _ _ _ _ t K G).
Qed.
Print Assumptions C84_shared_param_constant.
(** A byte behind a parameter of type [&mut]: whatever [x] does without leaving the call, older pointers may neither read nor write
    the byte. *)
Theorem C84_mut_param_exclusive : forall A (x : bcode A) d s m a s' m' b o c u r,
  runs x s m a s' m' -> call_at c d s -> stays d x -> stacks s b o = {| i_perm := Unique; i_tag := u; i_call := Some c |} :: r ->
  forall t, t < fresh s -> t <> u -> ~ may_read s' (b, o) 1 t /\ ~ may_write s' (b, o) 1 t.
Proof.
  intros A x d s m a s' m' b o c u r R CA N E t Ht Du.
  destruct (sinv_runs b o c (fresh s) (owned c u (fresh s)) true (fun s0 st st' F G => owned_step c u (fresh s) s0 st st' (G eq_refl) F) false) with (2 := R) (d := d) as (d' & V & _).
  - discriminate.
  - intros _. exact N.
  - constructor; [lia|intros _; exact CA|]. rewrite E. eexists [], _, r. cbn. auto.
  - assert (K := sinv_stack _ _ _ _ _ _ _ _ V). assert (G := sinv_active _ _ _ _ _ _ _ _ V eq_refl). destruct (owned_excludes _ _ _ _ _ t G K Ht Du) as [H1 H2].
    split; intro H; specialize (H 0 Nat.lt_0_1); cbn [fst snd] in H; rewrite Nat.add_0_r in H; contradiction.
Qed.
Print Assumptions C84_mut_param_exclusive.
(** A pointer that may not write a byte, because no item allows it, never may again; one that may not be used at all neither. *)
Theorem C84_no_write_for_ever : forall A (x : bcode A) s m a s' m' b o u, runs x s m a s' m' -> u < fresh s ->
  (forall i, In i (stacks s b o) -> i_tag i = u -> i_perm i = SharedRO \/ i_perm i = Disabled) -> ~ may_write s' (b, o) 1 u.
Proof.
  intros A x s m a s' m' b o u R U E.
  destruct (sinv_runs b o 0 (S u) (items_are u spent_item) false (fun s st st' F _ => items_step u spent_item (fun i H => eq_ind_r spent_item H (spent_disable i H)) s st st' F) false) with (2 := R) (d := 0) as (d' & V & _).
  - discriminate.
  - discriminate.
  - constructor; [exact U|discriminate|]. apply Forall_forall. exact E.
  - intro H. specialize (H 0 Nat.lt_0_1). cbn [fst snd] in H. rewrite Nat.add_0_r in H. apply H. unfold write_at. destruct (locate true u _) as [[[a1 g] r1]|] eqn:EL; [|reflexivity]. exfalso.
    apply locate_split in EL as [ES G]. assert (K := sinv_stack _ _ _ _ _ _ _ _ V). rewrite ES in K. apply Forall_app in K as [_ K]. apply Forall_cons_iff in K as [K _].
    assert (T : i_tag g = u) by (unfold grants in G; lia). rewrite (spent_grants u g (K T)) in G. discriminate G.
Qed.
Print Assumptions C84_no_write_for_ever.
Theorem C84_removed_for_ever : forall A (x : bcode A) s m a s' m' b o u, runs x s m a s' m' -> u < fresh s ->
  (forall i, In i (stacks s b o) -> i_tag i = u -> i_perm i = Disabled) -> ~ may_read s' (b, o) 1 u /\ ~ may_write s' (b, o) 1 u.
Proof.
  intros A x s m a s' m' b o u R U E.
  destruct (sinv_runs b o 0 (S u) (items_are u (fun i => i_perm i = Disabled)) false
    (fun s st st' F _ => items_step u (fun i => i_perm i = Disabled) (fun i H => eq_ind_r (fun j => i_perm j = Disabled) H (spent_disable i (or_intror H))) s st st' F) false) with (2 := R) (d := 0) as (d' & V & _).
  - discriminate.
  - discriminate.
  - constructor; [exact U|discriminate|]. apply Forall_forall. exact E.
  - assert (X : forall w, locate w u (stacks s' b o) = None).
    { intro w. destruct (locate w u _) as [[[a1 g] r1]|] eqn:EL; [|reflexivity]. exfalso.
      apply locate_split in EL as [ES G]. assert (K := sinv_stack _ _ _ _ _ _ _ _ V). rewrite ES in K. apply Forall_app in K as [_ K]. apply Forall_cons_iff in K as [K _].
      unfold grants in G. rewrite (K ltac:(lia)), andb_false_r in G. discriminate G. }
    unfold may_read, may_write. split; intro H; specialize (H 0 Nat.lt_0_1); cbn [fst snd] in H; rewrite Nat.add_0_r in H; apply H; unfold read_at, write_at; now rewrite X.
Qed.
Print Assumptions C84_removed_for_ever.

(** ** Whole calls *)
Lemma runs_bind {A B} (x : bcode A) (f : A -> bcode B) : forall s m a s' m', runs (bbind x f) s m a s' m' ->
  exists a1 s1 m1, runs x s m a1 s1 m1 /\ runs (f a1) s1 m1 a s' m'.
Proof.
  induction x as [a0|y k IH|X v c k IH]; intros s m a s' m' R; cbn [bbind] in R.
  - exists a0, s, m. split; [constructor|exact R].
  - apply runs_inv in R. cbv beta iota in R. destruct R as (t & s1 & E & R). destruct (IH _ _ _ _ _ _ R) as (a1 & s2 & m2 & R1 & R2). exists a1, s2, m2. split; [econstructor; eauto|exact R2].
  - apply runs_inv in R. cbv beta iota in R. destruct R as (p & y & s1 & m1 & HF & E & R). destruct (IH _ _ _ _ _ _ R) as (a1 & s2 & m2 & R1 & R2).
    exists a1, s2, m2. split; [econstructor; eauto|exact R2].
Qed.
(** Whatever a function does after it got a parameter of type [&], the bytes are the same when it returns. *)
Theorem C84_shared_param_call : forall A (body : nat -> bcode A) p n t s m a s' m',
  runs (fn (u <== shared_param p n t ;; body u)) s m a s' m' -> (forall u, stays 0 (body u)) ->
  forall i, i < n -> nth_error (m' (fst p)) (snd p + i) = nth_error (m (fst p)) (snd p + i).
Proof.
  intros A body p n t s m a s' m' R N i Hi. unfold fn, shared_param, do_ in R. cbn [bbind] in R.
  apply runs_inv in R. cbv beta iota in R. destruct R as (t0 & s1 & E & R). cbn [perform] in E. injection E as _ <-.
  apply runs_inv in R. cbv beta iota in R. destruct R as (u & s2 & E & R). cbn [perform stacks fresh active hd_error] in E.
  destruct (across _ p n _) as [st|] eqn:EA; [|discriminate E]. injection E as <- <-.
  apply runs_bind in R as (a1 & s3 & m3 & R & RL). apply runs_inv in RL. cbv beta iota in RL. destruct RL as (t1 & s4 & _ & RL).
  apply runs_inv in RL. cbv beta iota in RL. destruct RL as (_ & _ & <-).
  apply across_some in EA as [EA _]. specialize (EA i Hi). cbn [retag_at] in EA. destruct (read_at _ _ _) as [st1|]; [|discriminate EA]. injection EA as EA.
  refine (proj1 (C84_shared_param_constant _ _ 0 _ _ _ _ _ (fst p) (snd p + i) (fresh s) (S (fresh s)) st1 R _ (N _) (eq_sym EA))). exists [], (active s). auto.
Qed.
Print Assumptions C84_shared_param_call.
(** Whatever a function does after it got a parameter of type [&mut], older pointers may not be used for the bytes before it returns. *)
Theorem C84_mut_param_call : forall A (body : nat -> bcode A) p n t s m a s' m',
  runs (Borrow Enter (fun _ => u <== mut_param p n t ;; body u)) s m a s' m' -> (forall u, stays 0 (body u)) ->
  forall i w, i < n -> w < fresh s -> ~ may_read s' (fst p, snd p + i) 1 w /\ ~ may_write s' (fst p, snd p + i) 1 w.
Proof.
  intros A body p n t s m a s' m' R N i w Hi Hw. unfold mut_param, do_ in R. cbn [bbind] in R.
  apply runs_inv in R. cbv beta iota in R. destruct R as (t0 & s1 & E & R). cbn [perform] in E. injection E as _ <-.
  apply runs_inv in R. cbv beta iota in R. destruct R as (u & s2 & E & R). cbn [perform stacks fresh active hd_error] in E.
  destruct (across _ p n _) as [st|] eqn:EA; [|discriminate E]. injection E as <- <-.
  apply across_some in EA as [EA _]. specialize (EA i Hi). cbn [retag_at] in EA. destruct (write_at _ _ _) as [st1|]; [|discriminate EA]. injection EA as EA.
  refine (C84_mut_param_exclusive _ _ 0 _ _ _ _ _ (fst p) (snd p + i) (fresh s) (S (fresh s)) st1 R _ (N _) (eq_sym EA) w _ _); cbn [fresh]; try lia. exists [], (active s). auto.
Qed.
Print Assumptions C84_mut_param_call.
(** A write through another pointer takes the permission away from a reference, a read through another pointer from a mutable
    reference; for ever. *)
Theorem C84_foreign_access : forall A (x : bcode A) s m a s1 s' m' b o u t call r k,
  stacks s b o = {| i_perm := k; i_tag := u; i_call := call |} :: r -> (forall i, In i r -> i_tag i <> u) -> u < fresh s -> t <> u ->
  (k = Unique /\ tread (Some t) (b, o) 1 s = Some s1) \/ ((k = Unique \/ k = SharedRO) /\ twrite (Some t) (b, o) 1 s = Some s1) ->
  runs x s1 m a s' m' -> ~ may_read s' (b, o) 1 u /\ ~ may_write s' (b, o) 1 u.
Proof.
  intros A x s m a s1 s' m' b o u t call r k E NU U D H R.
  assert (G : forall w, grants w t {| i_perm := k; i_tag := u; i_call := call |} = false) by (intro w; unfold grants; cbn [i_tag]; destruct (Nat.eqb_spec u t); [congruence|reflexivity]).
  assert (X : fresh s1 = fresh s /\ forall i, In i (stacks s1 b o) -> i_tag i = u -> i_perm i = Disabled).
  { unfold tread, twrite, put in H. destruct H as [[-> H]|[K H]]; destruct (across _ _ _ _) as [st|] eqn:EA; try discriminate H; injection H as <-; (split; [reflexivity|]); cbn [stacks];
      apply across_some in EA as [EA _]; specialize (EA 0 Nat.lt_0_1); cbn [fst snd] in EA; rewrite Nat.add_0_r, E in EA; cbn [via] in EA.
    - unfold read_at in EA. cbn [locate] in EA. rewrite G in EA. destruct (locate false t r) as [[[a1 g] r1]|] eqn:EL; [|discriminate EA]. destruct (existsb _ _); [discriminate EA|]. injection EA as <-.
      apply locate_split in EL as [-> _]. intros i Hi T. cbn [map app In] in Hi. destruct Hi as [<-|Hi]; [reflexivity|]. exfalso. apply in_app_or in Hi as [Hi|Hi].
      + apply in_map_iff in Hi as (j & <- & Hj). rewrite tag_disable in T. apply (NU j); [apply in_or_app; now left|exact T].
      + apply (NU i); [apply in_or_app; now right|exact T].
    - unfold write_at in EA. cbn [locate] in EA. rewrite G in EA. destruct (locate true t r) as [[[a1 g] r1]|] eqn:EL; [|discriminate EA]. apply locate_split in EL as [-> _].
      assert (KK : forall i, In i (snd (split_above g ({| i_perm := k; i_tag := u; i_call := call |} :: a1))) -> In i a1).
      { unfold split_above. destruct (is_shared_rw g); [|intros i []]. destruct (split_rw_keep [] {| i_perm := k; i_tag := u; i_call := call |} a1) as (p & _ & ES).
        - unfold is_shared_rw. cbn. now destruct K as [-> | ->].
        - cbn [app] in ES. rewrite ES. intros i Hi. assert (F : Forall (fun i => In i a1) a1) by now apply Forall_forall. destruct (split_rw_all _ _ F) as [_ F']. rewrite Forall_forall in F'. auto. }
      destruct (split_above g _) as [p0 k0]. cbn [snd] in KK. destruct (existsb _ p0); [discriminate EA|]. injection EA as <-. intros i Hi T. exfalso. apply in_app_or in Hi as [Hi|Hi].
      + apply (NU i); [apply in_or_app; left; now apply KK|exact T].
      + apply (NU i); [apply in_or_app; now right|exact T]. }
  destruct X as [F X]. apply (C84_removed_for_ever _ _ _ _ _ _ _ _ _ _ R); [lia|exact X].
Qed.
Print Assumptions C84_foreign_access.

(** ** Examples *)
(** Tag 2 is a parameter of the call 1, a reference with permission [k] to the byte of allocation 0, made from the owner 0. *)
Definition in_frame (k : perm) : borrows :=
  {| stacks := fun b o => if (b =? 0) && (o =? 0) then [{| i_perm := k; i_tag := 2; i_call := Some 1 |}; {| i_perm := Unique; i_tag := 0; i_call := None |}]
                          else [{| i_perm := Unique; i_tag := 0; i_call := None |}];
     fresh := 3; active := [1] |}.
Definition snext (r : option (unit * borrows * mem)) : borrows * mem := match r with Some (_, s, m) => (s, m) | None => (owner, two_bytes) end.
Lemma writes_other_runs s : let r := snext (trun (via1 1 0) (p_store (1, 0) [7%Z]) s two_bytes) in
  trun (via1 1 0) (p_store (1, 0) [7%Z]) s two_bytes = Some (tt, fst r, snd r) -> runs (writes_at 1) s two_bytes tt (fst r) (snd r).
Proof. intros r E. unfold writes_at, exec. eapply (runs_exec _ _ _ _ _ _ _ _ tt (fst r) (snd r)); [apply follows_store|exact E|constructor]. Qed.
Example C84_shared_param_case : exists s' m', runs (writes_at 1) (in_frame SharedRO) two_bytes tt s' m' /\ m' 1 = [Some 7%Z] /\
  nth_error (m' 0) 0 = nth_error (two_bytes 0) 0 /\ may_read s' (0, 0) 1 2 /\ ~ may_write s' (0, 0) 1 0.
Proof.
  assert (R := writes_other_runs (in_frame SharedRO) eq_refl). do 2 eexists. split; [exact R|]. split; [reflexivity|].
  destruct (C84_shared_param_constant _ _ 0 _ _ _ _ _ 0 0 1 2 _ R ltac:(exists [], []; auto) (fun _ => I) eq_refl) as (H1 & H2 & H3). auto.
Qed.
Example C84_mut_param_case : exists s' m', runs (writes_at 1) (in_frame Unique) two_bytes tt s' m' /\ m' 1 = [Some 7%Z] /\
  ~ may_read s' (0, 0) 1 0 /\ may_write s' (0, 0) 1 2.
Proof.
  assert (R := writes_other_runs (in_frame Unique) eq_refl). do 2 eexists. split; [exact R|]. split; [reflexivity|]. split.
  - apply (C84_mut_param_exclusive _ _ 0 _ _ _ _ _ 0 0 1 2 _ R ltac:(exists [], []; auto) (fun _ => I) eq_refl); cbn; lia.
  - intros i Hi. assert (i = 0) as -> by lia. vm_compute. discriminate.
Qed.
Example C84_for_ever_case : exists s' m', runs (writes_at 1) (in_frame SharedRO) two_bytes tt s' m' /\ ~ may_write s' (0, 0) 1 2 /\ ~ may_read s' (0, 0) 1 1.
Proof.
  assert (R := writes_other_runs (in_frame SharedRO) eq_refl). do 2 eexists. split; [exact R|]. split.
  - apply (C84_no_write_for_ever _ _ _ _ _ _ _ _ _ _ R); [cbn; lia|]. intros i [<-|[<-|[]]] T; [now left|discriminate T].
  - apply (C84_removed_for_ever _ _ _ _ _ _ _ _ _ _ R); [cbn; lia|]. intros i [<-|[<-|[]]] T; discriminate T.
Qed.
(** after the call the owner may read the byte, and tag 2 is then lost; during the call that is undefined behaviour *)
Definition after_frame (k : perm) : borrows := {| stacks := stacks (in_frame k); fresh := 3; active := [] |}.
Example C84_foreign_case : (exists s1 s' m', tread (Some 0) (0, 0) 1 (after_frame Unique) = Some s1 /\ runs (writes_at 1) s1 two_bytes tt s' m' /\ ~ may_read s' (0, 0) 1 2) /\
  (exists s1 s' m', twrite (Some 0) (0, 0) 1 (after_frame SharedRO) = Some s1 /\ runs (writes_at 1) s1 two_bytes tt s' m' /\ ~ may_read s' (0, 0) 1 2) /\
  tread (Some 0) (0, 0) 1 (in_frame Unique) = None /\ twrite (Some 0) (0, 0) 1 (in_frame SharedRO) = None /\
  exists s1, tread (Some 0) (0, 0) 1 (in_frame SharedRO) = Some s1 /\ may_read s1 (0, 0) 1 2.
Proof.
  assert (C : forall k s1, (k = Unique /\ tread (Some 0) (0, 0) 1 (after_frame k) = Some s1) \/ ((k = Unique \/ k = SharedRO) /\ twrite (Some 0) (0, 0) 1 (after_frame k) = Some s1) ->
    forall s' m', runs (writes_at 1) s1 two_bytes tt s' m' -> ~ may_read s' (0, 0) 1 2).
  { intros k s1 H s' m' R. refine (proj1 (C84_foreign_access _ _ (after_frame k) _ _ s1 _ _ 0 0 2 0 (Some 1) _ k eq_refl _ _ _ H R)); [|cbn; lia|lia]. intros i [<-|[]]. cbn. lia. }
  split; [|split; [|split; [|split]]].
  - assert (E : exists s1, tread (Some 0) (0, 0) 1 (after_frame Unique) = Some s1 /\ let r := snext (trun (via1 1 0) (p_store (1, 0) [7%Z]) s1 two_bytes) in
      trun (via1 1 0) (p_store (1, 0) [7%Z]) s1 two_bytes = Some (tt, fst r, snd r)) by (eexists; split; reflexivity).
    destruct E as (s1 & E1 & E2). exists s1. assert (R := writes_other_runs s1 E2). do 2 eexists. split; [exact E1|]. split; [exact R|]. apply (C Unique s1) with (2 := R). now left.
  - assert (E : exists s1, twrite (Some 0) (0, 0) 1 (after_frame SharedRO) = Some s1 /\ let r := snext (trun (via1 1 0) (p_store (1, 0) [7%Z]) s1 two_bytes) in
      trun (via1 1 0) (p_store (1, 0) [7%Z]) s1 two_bytes = Some (tt, fst r, snd r)) by (eexists; split; reflexivity).
    destruct E as (s1 & E1 & E2). exists s1. assert (R := writes_other_runs s1 E2). do 2 eexists. split; [exact E1|]. split; [exact R|]. apply (C SharedRO s1) with (2 := R). right. split; [now right|exact E1].
  - reflexivity.
  - reflexivity.
  - eexists. split; [reflexivity|]. intros i Hi. assert (i = 0) as -> by lia. vm_compute. discriminate.
Qed.
(** [C84_shared_param_call]: the run of [C84_into_case] *)
Example C84_shared_call_case : exists r u s' m', runs (hex_decode_b Fallback (0, 0) 2 (1, 0) 1 0 0) owner m41_1 (r, u) s' m' /\ m' 1 = [Some 65%Z] /\
  forall i, i < 2 -> nth_error (m' 0) i = nth_error (m41_1 0) i.
Proof.
  destruct C84_into_case as (r & u & s' & m' & R & _ & M & _). exists r, u, s', m'. split; [exact R|]. split; [exact M|]. unfold hex_decode_b in R.
  intros i Hi. apply (C84_shared_param_call _ _ _ _ _ _ _ _ _ _ R); [|exact Hi]. intro v. cbn. repeat (let y := fresh in intro y; match type of y with result _ => destruct y; cbn | _ => idtac end); exact I.
Qed.
(** [C84_mut_param_call]: a function that writes its parameter *)
Example C84_mut_call_case : exists s' m', runs (Borrow Enter (fun _ => u <== mut_param (0, 0) 1 0 ;; exec (via1 0 u) (store (0, 0) [7%Z]))) owner two_bytes tt s' m' /\
  m' 0 = [Some 7%Z] /\ ~ may_read s' (0, 0) 1 0.
Proof.
  assert (E : exists s1 s2 s' m', perform Enter owner = Some (1, s1) /\ perform (Retag MutRef true 0 (0, 0) 1) s1 = Some (2, s2) /\
    trun (via1 0 2) (p_store (0, 0) [7%Z]) s2 two_bytes = Some (tt, s', m') /\ m' 0 = [Some 7%Z]).
  { do 4 eexists. split; [reflexivity|]. split; [reflexivity|]. split; reflexivity. }
  destruct E as (s1 & s2 & s' & m' & E1 & E2 & E3 & M).
  assert (R : runs (Borrow Enter (fun _ => u <== mut_param (0, 0) 1 0 ;; exec (via1 0 u) (store (0, 0) [7%Z]))) owner two_bytes tt s' m').
  { eapply runs_borrow; [exact E1|]. cbn [bbind mut_param do_]. eapply runs_borrow; [exact E2|]. cbn [bbind]. unfold exec. eapply runs_exec; [apply follows_store|exact E3|constructor]. }
  exists s', m'. split; [exact R|]. split; [exact M|]. refine (proj1 (C84_mut_param_call _ _ (0, 0) 1 0 _ _ _ _ _ R (fun u => fun _ => I) 0 0 Nat.lt_0_1 _)). cbn. lia.
Qed.
