(** Property theorems about where the public functions read and write when source and destination may be parts of one
    allocation, as after [split_at_mut] (C85): each single access lies in one of the two buffers, each write in the
    destination; so the source may be read by other threads meanwhile, wherever it is. *)
From Coq Require Import ZArith List Bool Lia String.
From Verif Require Import Bytes Mem MemFacts Slices Codec Isa Simd SimdFacts Ints Spec Hex Base64 Base64Ref Base64Api Base32 Base32Api
  Uuid UuidFacts UuidApi Unicode UnicodeSpec Forgiving Conc ConcFacts Reify ConcApi ConcApiFacts PropConc PropThreads Reach RenameFacts.
Import ListNotations.
Open Scope list_scope. Open Scope nat_scope. Open Scope m_scope.

(** C85 *)
(** The program that follows the code of the call, access by access, keeps to the two buffers. *)
Theorem C85_calls_stay : forall c, public c -> exists p, follows (code c) p /\ keeps_to c p.
Proof. intros c H. destruct (public_keeps c H) as (p & F & _ & _ & K). now exists p. Qed.
Print Assumptions C85_calls_stay.
(** spelled out for the functions with a source and a destination, in one allocation, the source first or the destination first *)
Theorem C85_split : forall f src b o e dlen out, public (Into f src b o b e dlen out) ->
  o + List.length src <= e \/ e + dlen <= o ->
  exists p, follows (code (Into f src b o b e dlen out)) p /\
    forall m, slice m b o src -> room m b e dlen ->
      (exists m', run p m = Ret tt m' /\ only_changed m b e dlen m' /\ (forall x, out = Some x -> bytes_at m' b e x)) /\
      forall t, In t (touches p m) -> match t with
        | Reads q n => n = 0 \/ fst q = b /\ (o <= snd q /\ snd q + n <= o + List.length src \/ e <= snd q /\ snd q + n <= e + dlen)
        | Writes q n => n = 0 \/ fst q = b /\ e <= snd q /\ snd q + n <= e + dlen
        end.
Proof.
  intros f src b o e dlen out HP SEP. set (c := Into f src b o b e dlen out).
  destruct (public_keeps c HP) as (p & F & HI & _ & K). exists p. split; [exact F|]. intros m SL RM.
  assert (R : ready m c) by (split; [exact SL|]; split; [exact RM|now right]). split.
  - destruct (public_alone c HP m R) as (m' & E & D & U). exists m'. split; [now rewrite HI|]. split; [exact U|].
    intros x ->. exact D.
  - intros t Ht. assert (A := proj1 (Forall_forall _ _) (K m R) t Ht).
    assert (IN : forall w k q n, inside b w k q n -> n = 0 \/ fst q = b /\ w <= snd q /\ snd q + n <= w + k).
    { intros w k q n H. destruct n as [|n]; [now left|right]. assert (H0 := H 0 ltac:(lia)). assert (H1 := H n ltac:(lia)). lia. }
    destruct t as [q n|q n]; cbn [allowed] in A; [destruct A as [A|A]|]; apply IN in A; tauto.
Qed.
Print Assumptions C85_split.
(** [touches] leaves nothing out: whatever a program reads or writes on its way is in the list. *)
Theorem C85_touches_all : forall p m k ps' m' b o, steps 1 k (fun _ => p) m ps' m' ->
  (next_reads (ps' 0) b o -> exists q n, In (Reads q n) (touches p m) /\ b = fst q /\ snd q <= o < snd q + n) /\
  (next_writes (ps' 0) b o -> exists q n, In (Writes q n) (touches p m) /\ b = fst q /\ snd q <= o < snd q + n).
Proof.
  intros p m k ps' m' b o ST.
  assert (G : exists u, touches p m = u ++ touches (ps' 0) m').
  { remember (fun _ : nat => p) as ps eqn:EP. revert EP. induction ST as [ps m|k ps m ps1 m1 i p2 m2 ST IH Hi E]; intros ->; [now exists []|].
    destruct (IH eq_refl) as [u ->]. assert (i = 0) as -> by lia. unfold set_thread. cbn [Nat.eqb]. clear - E.
    destruct (ps1 0) as [a|f|b h|q n h|q xs h]; cbn [next touches] in *; try discriminate E.
    - injection E as <- <-. now exists u.
    - destruct (load q n m1); try discriminate E. injection E as <- <-. exists (u ++ [Reads q n]). now rewrite <- app_assoc.
    - destruct (store q xs m1); try discriminate E. injection E as <- <-. exists (u ++ [Writes q (List.length xs)]). now rewrite <- app_assoc. }
  destruct G as [u ->]. destruct (ps' 0) as [a|f|b' h|q n h|q xs h]; cbn [next_reads next_writes touches]; (split; [|]); try easy;
    intros [-> H]; do 2 eexists; (split; [apply in_or_app; right; left; reflexivity|auto]).
Qed.
Print Assumptions C85_touches_all.
(** Threads: as C70, but only the destination counts as written, also if the source is in the same allocation. [ps i] is any
    program that has the effect of the call and keeps to its buffers. *)
Theorem C85_calls_interleaved : forall n cs ps m,
  (forall i, i < n -> public (cs i) /\ ready m (cs i)) ->
  (forall i j b o, i < n -> j < n -> i <> j -> changes (cs i) b o = true -> accesses (cs j) b o = false) ->
  (forall i, i < n -> implements (ps i) (code (cs i)) /\ keeps_to (cs i) (ps i)) ->
  undisturbed n ps m (fun m' =>
    (forall i, i < n -> delivered m' (cs i)) /\
    (forall b, List.length (m' b) = List.length (m b)) /\
    (forall b o, (forall i, i < n -> changes (cs i) b o = false) -> nth_error (m' b) o = nth_error (m b) o)).
Proof.
  intros n cs ps m HC. apply parts_interleave. intros i Hi. destruct (HC i Hi) as [P R]. split; [now apply public_alone|exact R].
Qed.
Print Assumptions C85_calls_interleaved.
Theorem C85_calls_as_programs : forall n cs, (forall i, i < n -> public (cs i)) ->
  exists ps, forall i, i < n -> follows (code (cs i)) (ps i) /\ implements (ps i) (code (cs i)) /\ keeps_to (cs i) (ps i).
Proof.
  intros n cs. induction n as [|n IH]; intro H; [exists (fun _ => Done tt); lia|].
  destruct (IH (fun i Hi => H i ltac:(lia))) as [ps HP]. destruct (public_keeps (cs n) (H n ltac:(lia))) as (p & F & I & _ & K).
  exists (fun i => if i =? n then p else ps i). intros i Hi. destruct (Nat.eqb_spec i n) as [->|]; [auto|]. apply HP. lia.
Qed.
Print Assumptions C85_calls_as_programs.
(** [changes]: exactly the cells of the destination *)
Theorem C85_changes :
  (forall f src b o d e dlen out a, changes (Into f src b o d e dlen out) (fst a) (snd a) = true <-> In a (cells_of d e dlen)) /\
  (forall f data b o out a, changes (InPlace f data b o out) (fst a) (snd a) = true <-> In a (cells_of b o (List.length data))) /\
  (forall f src b o answer a, changes (Check f src b o answer) (fst a) (snd a) = false).
Proof.
  assert (W : forall b o n a, within b o n (fst a) (snd a) = true <-> In a (cells_of b o n)).
  { intros b o n [x y]. unfold within, cells_of. cbn [fst snd]. rewrite !andb_true_iff, Nat.eqb_eq, Nat.leb_le, Nat.ltb_lt, in_map_iff. split.
    - intros [[-> H1] H2]. exists (y - o). rewrite in_seq. split; [f_equal|]; lia.
    - intros (i & E & I). injection E as <- <-. rewrite in_seq in I. lia. }
  split; [|split]; intros; cbn [changes]; [apply W|apply W|reflexivity].
Qed.
Print Assumptions C85_changes.

(** ** Examples *)
(** "Hi!" and room for 6 + 4 bytes, all in one allocation; one thread encodes to hex, another one to base64, a third one checks the source *)
Definition part_mem := mem_of [cells five_src ++ uninit 10].
Definition parts (i : nat) : call :=
  nth i [ Into (fun p n q k => hex_encode AVX2 p n q k Lower) five_src 0 0 0 3 6 (fits 6 (rfc_hex_encode (digits_of Lower) five_src));
          Into (b64_encode SSE41 STANDARD) five_src 0 0 0 9 4 (fits 4 (b64_rfc STANDARD five_src)) ]
    (Check (answers (is_ascii true SSE2)) five_src 0 0 true).
Lemma parts_public : forall i, i < 3 -> public (parts i) /\ ready part_mem (parts i).
Proof.
  assert (B : bytes five_src) by (now apply str_bytes).
  assert (S0 : slice part_mem 0 0 five_src) by (split; [exact B|split; [cbv; lia|reflexivity]]).
  intros i Hi. destruct i as [|[|[|i]]]; [| | |lia]; cbn [parts nth].
  - split; [apply pub_hex_encode|]. split; [exact S0|]. split; [cbv; lia|right; left; cbv; lia].
  - split; [apply pub_b64_encode; now right|]. split; [exact S0|]. split; [cbv; lia|right; left; cbv; lia].
  - split; [apply pub_is_ascii|exact S0]. split; [|reflexivity]. intros _ c [<-|[<-|[<-|[]]]]; vm_compute; split; congruence.
Qed.
Example C85_parts : exists ps, (forall i, i < 3 -> follows (code (parts i)) (ps i)) /\
  undisturbed 3 ps part_mem (fun m' => bytes_at m' 0 3 (str "486921"%string) /\ bytes_at m' 0 9 (str "SGkh"%string)).
Proof.
  destruct (C85_calls_as_programs 3 parts (fun i Hi => proj1 (parts_public i Hi))) as [ps HP]. exists ps.
  split; [intros i Hi; apply (HP i Hi)|].
  destruct (C85_calls_interleaved 3 parts ps part_mem parts_public) as [N HN]; [|intros i Hi; apply (HP i Hi)|].
  - intros i j b o Hi Hj D. destruct i as [|[|[|i]]], j as [|[|[|j]]]; try lia; cbn [parts nth changes accesses]; unfold within;
      cbn [five_src str List.length]; rewrite ?orb_false_iff, ?andb_true_iff, ?andb_false_iff, ?Nat.eqb_eq, ?Nat.eqb_neq, ?Nat.leb_le, ?Nat.leb_gt, ?Nat.ltb_lt, ?Nat.ltb_ge;
      change (List.length five_src) with 3; try discriminate; intuition lia.
  - exists N. intros k ps' m' ST. destruct (HN k ps' m' ST) as (G1 & G2 & G3 & G4 & G5). repeat (split; [assumption|]).
    intro AD. destruct (G5 AD) as [G _]. split; [exact (G 0 ltac:(lia))|exact (G 1 ltac:(lia))].
Qed.
(** For C70 these calls clash: there the source counts as written. *)
Example C85_not_C70 : writes (parts 0) 0 0 = true /\ accesses (parts 2) 0 0 = true /\ changes (parts 0) 0 0 = false.
Proof. repeat split. Qed.
(** the accesses of one call, one by one *)
Definition hex_parts (s : isa) := pbind (the_prog (rei_hex_encode (H := True) (d := 0) s (0, 0) 3 (0, 3) 6 Lower (fun _ => eq_refl))) (fun _ => Done tt).
Example C85_hex_touches : touches (hex_parts SSE41) part_mem =
  [Reads (0, 0) 1; Writes (0, 3) 1; Writes (0, 4) 1; Reads (0, 1) 1; Writes (0, 5) 1; Writes (0, 6) 1; Reads (0, 2) 1; Writes (0, 7) 1; Writes (0, 8) 1].
Proof. vm_compute. reflexivity. Qed.
(** Wrong programs that C70 would accept, since they store to no other allocation: one that writes to the source and puts it
    back, and one that reads across both buffers. *)
Definition copies (p q : ptr) : prog unit := Load p 1 (fun l => Store q l (Done tt)).
Definition restores : prog unit := Load (0, 0) 1 (fun l => Store (0, 0) [0%Z] (Store (0, 0) l (Store (0, 1) l (Done tt)))).
Definition reads_across : prog unit := Load (0, 0) 2 (fun l => Store (0, 1) (firstn 1 l) (Done tt)).
Definition copy_call := Into (fun p n q k => l <- load p 1 ;; store q l ;;; ret (Ok (q, 1))) [7%Z] 0 0 0 1 1 (Some [7%Z]).
Definition copy_mem := mem_of [cells [7%Z; 8%Z]].
Lemma copy_ready : ready copy_mem copy_call.
Proof. split; [|split; [cbv; lia|right; left; cbv; lia]]. split; [constructor; [unfold byte; lia|constructor]|split; [cbv; lia|reflexivity]]. Qed.
Example C85_wrong_programs :
  (exists m', run (copies (0, 0) (0, 1)) copy_mem = Ret tt m' /\ m' 0 = cells [7%Z; 7%Z]) /\ keeps_to copy_call (copies (0, 0) (0, 1)) /\
  (exists m', run restores copy_mem = Ret tt m' /\ m' 0 = cells [7%Z; 7%Z]) /\ ~ keeps_to copy_call restores /\
  (exists m', run reads_across copy_mem = Ret tt m' /\ m' 0 = cells [7%Z; 7%Z]) /\ ~ keeps_to copy_call reads_across.
Proof.
  repeat split; try (eexists; split; reflexivity).
  - intros m (S & R & _). unfold copies. cbn [touches]. constructor; [left; intros i Hi; cbn in *; lia|].
    destruct (load (0, 0) 1 m) as [l m1| | |] eqn:E; try constructor; [|destruct (store (0, 1) l m); constructor].
    apply load_ret in E as (_ & L & E). apply (f_equal (option_map (@List.length Z))) in E.
    assert (LL : List.length l = 1). { destruct S as [_ S]. apply bytes_at_load in S. cbn [List.length] in S.
      unfold load in S. cbn [fst snd] in *. destruct (_ <=? _); [|discriminate S]. destruct (sequence _) as [z|]; [|discriminate S].
      injection S as ->. cbn in E. injection E as <-. reflexivity. }
    cbn [allowed copy_call]. rewrite LL. intros i Hi. cbn in *. lia.
  - intro K. assert (F := K copy_mem copy_ready). cbn in F. inversion_clear F as [|? ? _ F']. inversion_clear F' as [|? ? F1 _].
    specialize (F1 0). cbn in F1. lia.
  - intro K. assert (F := K copy_mem copy_ready). cbn in F. inversion_clear F as [|? ? F1 _]. destruct F1 as [F1|F1].
    + specialize (F1 1). cbn in F1. lia.
    + specialize (F1 0). cbn in F1. lia.
Qed.
