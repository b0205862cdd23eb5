(** Proofs about Forgiving.v. *)
From Coq Require Import ZArith List Bool Lia ZifyNat ZifyBool.
From Verif Require Import Bytes Mem MemFacts Loops Slices Codec Isa Simd SimdFacts Spec Ints Base64 Base64Ref Base64Api Forgiving.
Import ListNotations.
Open Scope Z_scope.
Open Scope m_scope.
Ltac Zify.zify_post_hook ::= Z.div_mod_to_equations.

(** ** White space tests *)
Definition ws := ascii_whitespace.
Lemma lookup_ok m c (Q : Z -> mem -> Prop) : byte c -> Q (if ws c then 255 else 0) m -> wp (lookup_ascii_whitespace c) Q m.
Proof.
  intros Hc HQ. unfold lookup_ascii_whitespace. apply wp_table; [unfold byte in Hc; change (length WHITESPACE_TABLE) with 256%nat; lia|].
  replace (nth (Z.to_nat c) WHITESPACE_TABLE 0) with (if ws c then 255 else 0); [exact HQ|].
  apply Z.eqb_eq. clear HQ. revert c Hc. apply byte_sweep. vm_compute. reflexivity.
Qed.

Definition ws_lane (x : Z) : Z := u8_or (u8_andnot (i8_lt (u8_sub x 137) 133) (u8_eq x 11)) (u8_eq x 32).
Lemma ws_lane_ok x : byte x -> ws_lane x = mask8 (ws x).
Proof. intro H. apply Z.eqb_eq. revert x H. apply byte_sweep. vm_compute. reflexivity. Qed.

Lemma has_ws_ok w s x : simd s -> length x = vlen w -> bytes x -> has_ascii_whitespace w s x = Some (existsb ws x).
Proof.
  intros Hs Lx Bx. unfold has_ascii_whitespace.
  rewrite !u8xn_splat_ok by auto. cbn [obind].
  rewrite u8xn_sub_ok by (auto; apply repeat_length). cbn [obind]. rewrite map2_repeat_r by auto.
  rewrite i8xn_lt_ok by (try apply repeat_length; auto; now rewrite map_length). cbn [obind].
  rewrite map2_repeat_r by (now rewrite map_length). rewrite map_map.
  rewrite !u8xn_eq_ok by (auto; apply repeat_length). cbn [obind]. rewrite !map2_repeat_r by auto.
  rewrite xn_andnot_ok by (auto; now rewrite map_length). cbn [obind].
  rewrite map2_map_l, map2_map_r, map2_same.
  rewrite xn_or_ok by (auto; now rewrite map_length). cbn [obind].
  rewrite map2_map_l, map2_map_r, map2_same.
  assert (M : map (fun x => u8_or (u8_andnot (i8_lt (u8_sub x 137) 133) (u8_eq x 11)) (u8_eq x 32)) x = map (fun c => mask8 (ws c)) x).
  { apply map_ext_in. intros c Hc. apply ws_lane_ok. now apply (proj1 (Forall_forall _ _) Bx). }
  rewrite M. rewrite mask8xn_any_ok by (auto using ismask_map; now rewrite map_length). f_equal.
  clear. induction x as [|a x IH]; [reflexivity|]. unfold highbits in *. cbn [map existsb]. rewrite IH. destruct (ws a); reflexivity.
Qed.

(** ** Searching *)
Fixpoint find_ws (l : list Z) : nat := match l with [] => 0%nat | c :: r => if ws c then 0%nat else S (find_ws r) end.
Lemma find_ws_app a r : existsb ws a = false -> find_ws (a ++ r) = (length a + find_ws r)%nat.
Proof.
  induction a as [|c a IH]; cbn [existsb app find_ws length]; [reflexivity|]. intro H. apply orb_false_iff in H as [-> H].
  rewrite IH by exact H. reflexivity.
Qed.
Lemma find_ws_le l : (find_ws l <= length l)%nat.
Proof. induction l as [|c r IH]; cbn [find_ws length]; [lia|]. destruct (ws c); lia. Qed.
Lemma find_ws_firstn l : existsb ws (firstn (find_ws l) l) = false.
Proof. induction l as [|c r IH]; cbn [find_ws]; [reflexivity|]. destruct (ws c) eqn:E; cbn [firstn existsb]; [reflexivity|]. now rewrite E. Qed.
Lemma find_ws_nth l : (find_ws l < length l)%nat -> ws (nth (find_ws l) l 0) = true.
Proof.
  induction l as [|c r IH]; cbn [find_ws length]; [lia|]. destruct (ws c) eqn:E; cbn [nth]; [auto|]. intro H. apply IH. lia.
Qed.

(** position after the white-space-free prefix [a] of [data] *)
Definition at_clean (b o : nat) (data : list Z) (m0 : mem) (p : ptr) (m : mem) : Prop :=
  exists a r, data = a ++ r /\ existsb ws a = false /\ p = (b, o + length a)%nat /\ m = m0.

Lemma padd_in m b o data k (Q : ptr -> mem -> Prop) : bytes_at m b o data -> (k <= length data)%nat ->
  Q (b, o + k)%nat m -> wp (padd (b, o) k) Q m.
Proof. intros [H _] L HQ. apply wp_padd; cbn [fst snd]; [lia|exact HQ]. Qed.

Lemma find_short_ok m b o data : bytes data -> bytes_at m b o data ->
  wp (find_non_ascii_whitespace_short (b, o) (length data)) (fun r m' => r = find_ws data /\ m' = m) m.
Proof.
  intros B H. unfold find_non_ascii_whitespace_short. apply wp_bind. eapply padd_in; [exact H|lia|].
  apply wp_bind.
  eapply wp_while_break with (I := at_clean b o data m) (meas := fun p => (o + length data - snd p)%nat).
  - exists [], data. repeat split. cbn [length]. now rewrite Nat.add_0_r.
  - cbn [snd]. lia.
  - intros p m' (a & r & E & Ca & -> & ->) C. unfold plt in C. cbn [snd] in C. apply Nat.ltb_lt in C.
    assert (LE : (length data = length a + length r)%nat) by (rewrite E, app_length; reflexivity).
    destruct r as [|c r]; [cbn [length] in LE; lia|]. cbn [length] in LE.
    assert (Hr := bytes_at_skipn m b o data (length a) ltac:(lia) H).
    assert (ES : skipn (length a) data = c :: r) by (rewrite E; now apply skipn_app_exact). rewrite ES in Hr.
    assert (Hc : byte c) by (rewrite E in B; apply bytes_app in B as [_ B]; now inversion B).
    apply wp_bind. eapply wp_read; [exact Hr|cbn [length]; lia|]. cbn [nth].
    apply wp_bind. apply lookup_ok; [exact Hc|]. destruct (ws c) eqn:W; cbn [Z.eqb negb].
    + apply wp_ret. cbn [fst snd]. apply wp_intro with (find_ws data) m; [|auto].
      unfold offset_from. cbn [fst snd]. rewrite Nat.eqb_refl. destruct (Nat.leb_spec o (o + length a)); [|lia]. cbn [andb].
      unfold ret. f_equal. rewrite E, find_ws_app by exact Ca. cbn [find_ws]. rewrite W. lia.
    + apply wp_bind. eapply padd_in; [exact Hr|cbn [length]; lia|]. apply wp_ret. cbn [fst snd]. split; [|lia].
      exists (a ++ [c]), r. split; [rewrite E, <- app_assoc; reflexivity|].
      split; [rewrite existsb_app, Ca; cbn [existsb]; now rewrite W|]. split; [|reflexivity].
      rewrite app_length. cbn [length]. f_equal. lia.
  - intros p m' (a & r & E & Ca & -> & ->) C. unfold plt in C. cbn [snd] in C. apply Nat.ltb_ge in C.
    assert (LE : (length data = length a + length r)%nat) by (rewrite E, app_length; reflexivity).
    destruct r as [|c r]; [|cbn [length] in LE; lia]. 
    apply wp_intro with (find_ws data) m; [|auto].
    unfold offset_from. cbn [fst snd]. rewrite Nat.eqb_refl. destruct (Nat.leb_spec o (o + length a)); [|lia]. cbn [andb].
    unfold ret. f_equal. rewrite E, find_ws_app by exact Ca. cbn [find_ws]. lia.
Qed.

Lemma find_loop_ok w s m b o data e fuel : simd s -> bytes data -> bytes_at m b o data ->
  (e <= length data)%nat -> (e mod vlen w = 0)%nat -> (e < fuel)%nat ->
  wp (find_loop w s fuel (b, o + e)%nat (b, o)) (fun p m' => exists a r, data = a ++ r /\ existsb ws a = false /\
      (length a <= e)%nat /\ (length a mod vlen w = 0)%nat /\ p = (b, o + length a)%nat /\ m' = m) m.
Proof.
  intros Hs B H Le Me Lf. unfold find_loop.
  assert (Vp : (0 < vlen w)%nat) by (destruct w; cbn; lia).
  eapply wp_while_break with (I := fun p m' => exists a r, data = a ++ r /\ existsb ws a = false /\
      (length a <= e)%nat /\ (length a mod vlen w = 0)%nat /\ p = (b, o + length a)%nat /\ m' = m)
    (meas := fun p => (o + e - snd p)%nat).
  - exists [], data. repeat split; cbn [length]; try lia; [destruct w; reflexivity|now rewrite Nat.add_0_r].
  - cbn [snd]. lia.
  - intros p m' (a & r & E & Ca & La & Ma & -> & ->) C. unfold plt in C. cbn [snd] in C. apply Nat.ltb_lt in C.
    assert (LE : (length data = length a + length r)%nat) by (rewrite E, app_length; reflexivity).
    assert (Lv : (length a + vlen w <= e)%nat).
    { clear - Me Ma C. destruct w; cbn [vlen] in *; lia. }
    destruct (split_at r (vlen w)) as (x & r' & -> & Lx); [lia|].
    assert (Hr := bytes_at_skipn m b o data (length a) ltac:(lia) H).
    assert (ES : skipn (length a) data = x ++ r') by (rewrite E; now apply skipn_app_exact). rewrite ES in Hr.
    assert (Bx : bytes x) by (rewrite E in B; apply bytes_app in B as [_ B]; now apply bytes_app in B).
    apply wp_bind. apply bytes_at_app in Hr as [Hx Hr]. eapply wp_load_exact; [exact Hx|now symmetry|].
    apply wp_bind. eapply wp_lift; [now apply has_ws_ok|]. destruct (existsb ws x) eqn:W.
    + apply wp_ret. cbn [fst snd]. exists a, (x ++ r'). repeat split; auto.
    + apply wp_bind. eapply padd_in; [exact Hx|lia|]. apply wp_ret. cbn [fst snd]. split; [|lia].
      exists (a ++ x), r'. split; [now rewrite <- app_assoc|]. split; [now rewrite existsb_app, Ca|].
      rewrite !app_length, Lx. split; [exact Lv|]. split; [|split; [f_equal; lia|reflexivity]].
      replace (length a + vlen w)%nat with (length a + 1 * vlen w)%nat by lia. now rewrite Nat.mod_add by lia.
  - intros p m' I _. exact I.
Qed.

Lemma find_end m b o data a r : bytes data -> bytes_at m b o data -> data = a ++ r -> existsb ws a = false ->
  wp (checked_len <- offset_from (b, o + length a)%nat (b, o) ;;
      rest <- psub_len (length data) checked_len ;;
      pos <- find_non_ascii_whitespace_short (b, o + length a)%nat rest ;;
      ret (checked_len + pos)%nat) (fun r m' => r = find_ws data /\ m' = m) m.
Proof.
  intros B H E Ca. assert (LE : (length data = length a + length r)%nat) by (rewrite E, app_length; reflexivity).
  apply wp_bind. apply wp_intro with (length a) m.
  { unfold offset_from. cbn [fst snd]. rewrite Nat.eqb_refl. destruct (Nat.leb_spec o (o + length a)); [|lia]. cbn [andb].
    unfold ret. f_equal. lia. }
  apply wp_bind. apply wp_intro with (length r) m.
  { unfold psub_len. destruct (Nat.leb_spec (length a) (length data)); [|lia]. unfold ret. f_equal. lia. }
  assert (Hr := bytes_at_skipn m b o data (length a) ltac:(lia) H).
  assert (ES : skipn (length a) data = r) by (rewrite E; now apply skipn_app_exact). rewrite ES in Hr.
  assert (Br : bytes r) by (rewrite E in B; now apply bytes_app in B as [_ B]).
  apply wp_bind. eapply wp_mono; [now apply find_short_ok|]. intros p m' [-> ->]. apply wp_ret. split; [|reflexivity].
  rewrite E. symmetry. now apply find_ws_app.
Qed.

Lemma find_ok s m b o data : bytes data -> bytes_at m b o data ->
  wp (find_non_ascii_whitespace s (b, o) (length data)) (fun r m' => r = find_ws data /\ m' = m) m.
Proof.
  intros B H.
  assert (G : simd s -> wp (find_non_ascii_whitespace_simd s (b, o) (length data)) (fun r m' => r = find_ws data /\ m' = m) m).
  { intro Hs. unfold find_non_ascii_whitespace_simd. apply wp_bind.
    destruct (matches_isa s [IAVX2]) eqn:EA.
    - apply wp_bind. eapply padd_in; [exact H|lia|].
      apply wp_bind. eapply wp_mono; [apply find_loop_ok; [exact Hs|exact B|exact H|lia|apply Nat.mod_mul; discriminate|lia]|].
      intros p m' (a & r & E & Ca & La & Ma & -> & ->). cbn [vlen] in Ma.
      assert (LE : (length data = length a + length r)%nat) by (rewrite E, app_length; reflexivity).
      destruct (Nat.leb_spec 16 (length data mod 32)) as [L16|L16]; [|apply wp_ret; eapply find_end; eauto].
      assert (Lr : (16 <= length r)%nat) by lia.
      destruct (split_at r 16 Lr) as (x & r' & -> & Lx).
      assert (Hr := bytes_at_skipn m b o data (length a) ltac:(lia) H).
      assert (ES : skipn (length a) data = x ++ r') by (rewrite E; now apply skipn_app_exact). rewrite ES in Hr.
      assert (Bx : bytes x) by (rewrite E in B; apply bytes_app in B as [_ B]; now apply bytes_app in B).
      apply bytes_at_app in Hr as [Hx Hr].
      apply wp_bind. eapply wp_load_exact; [exact Hx|now symmetry|].
      apply wp_bind. eapply wp_lift; [now apply has_ws_ok|]. destruct (existsb ws x) eqn:W; cbn [negb].
      + apply wp_ret. eapply find_end; eauto.
      + eapply padd_in; [exact Hx|lia|]. rewrite <- Nat.add_assoc, <- Lx, <- app_length.
        eapply find_end with (r := r'); auto; [now rewrite <- app_assoc|now rewrite existsb_app, Ca].
    - apply wp_bind. eapply padd_in; [exact H|lia|].
      eapply wp_mono; [apply find_loop_ok; [exact Hs|exact B|exact H|lia|apply Nat.mod_mul; discriminate|lia]|].
      intros p m' (a & r & E & Ca & La & Ma & -> & ->). eapply find_end; eauto. }
  destruct s; try (now apply G). now apply find_short_ok.
Qed.

(** ** Removing *)
Lemma strip_app a b : strip_whitespace (a ++ b) = strip_whitespace a ++ strip_whitespace b.
Proof. apply filter_app. Qed.
Lemma strip_le l : (length (strip_whitespace l) <= length l)%nat.
Proof. unfold strip_whitespace. induction l as [|c l IH]; cbn [filter length]; [lia|]. destruct (negb _); cbn [length]; lia. Qed.
Lemma strip_clean l : existsb ws l = false -> strip_whitespace l = l.
Proof.
  induction l as [|c l IH]; [reflexivity|]. cbn [existsb]. intro H. apply orb_false_iff in H as [H1 H2].
  unfold strip_whitespace in *. cbn [filter]. unfold ws in H1. rewrite H1. cbn [negb]. now rewrite IH.
Qed.
Lemma strip_bytes l : bytes l -> bytes (strip_whitespace l).
Proof. intro B. apply Forall_forall. intros x Hx. apply filter_In in Hx as [Hx _]. now apply (proj1 (Forall_forall _ _) B). Qed.
Lemma strip_find l : strip_whitespace l = firstn (find_ws l) l ++ strip_whitespace (skipn (find_ws l) l).
Proof.
  rewrite <- (firstn_skipn (find_ws l) l) at 1. rewrite strip_app. f_equal. apply strip_clean, find_ws_firstn.
Qed.

Section Remove.
  Context (m0 : mem) (bs so : nat) (total : list Z) (bd d0 : nat).
  Notation N := (length total).
  Notation ppt := (pp bs so total).
  Notation qqt := (qq bd d0).
  Notation TSt := (TS m0 bs so total bd d0 N).
  Hypothesis HB : bytes total.
  Hypothesis Hsrc : bytes_at m0 bs so total.
  Hypothesis Hroom : (d0 + N <= length (m0 bd))%nat.
  Hypothesis alias : (bs <> bd \/ so + N <= d0 \/ d0 <= so)%nat.

  Definition RI (out rest : list Z) (m : mem) : Prop :=
    TSt out rest m /\ exists c, total = c ++ rest /\ out = strip_whitespace c.

  Lemma remove_ok : wp (remove_ascii_whitespace_fallback (bs, so) N (bd, d0))
    (fun r m' => r = length (strip_whitespace total) /\ bytes_at m' bd d0 (strip_whitespace total) /\ Frame m0 bd d0 N m') m0.
  Proof.
    unfold remove_ascii_whitespace_fallback. apply wp_bind. eapply padd_in; [exact Hsrc|lia|].
    assert (T0 : TSt [] total m0) by now apply TS_init.
    apply wp_bind. rewrite <- (pp_total bs so total), <- (qq_nil bd d0).
    apply (loop_io (fun out rest => (ppt rest, qqt out)) RI).
    - split; [exact T0|]. exists []. split; reflexivity.
    - lia.
    - intros out rest m (T & c & E & ->) C. unfold plt, pp in C. cbn [fst snd] in C. apply Nat.ltb_lt in C.
      assert (LE : (N = length c + length rest)%nat) by (rewrite E, app_length; reflexivity).
      destruct rest as [|x rest]; [cbn [length] in *; lia|]. cbn [length] in LE.
      assert (Hx : byte x) by (rewrite E in HB; apply bytes_app in HB as [_ B]; now inversion B).
      change (x :: rest) with ([x] ++ rest) in *. assert (L := TS_suffix _ _ _ _ _ _ _ _ _ _ T).
      cbn [fst snd]. apply wp_bind. eapply wp_src_read; [exact T|cbn [length]; lia|]. cbn [nth].
      apply wp_bind. apply lookup_ok; [exact Hx|]. apply TS_adv in T. assert (SL := strip_le c).
      destruct (ws x) eqn:W; cbn [Z.eqb].
      + apply wp_bind, wp_ret. apply wp_bind. eapply wp_src_add; [exact T|reflexivity| |exact L].
        apply wp_ret. exists (strip_whitespace c), rest. split; [reflexivity|]. split; [|rewrite app_length; cbn [length]; lia].
        split; [exact T|]. exists (c ++ [x]). split; [now rewrite <- app_assoc|]. rewrite strip_app.
        unfold strip_whitespace at 3. cbn [filter]. unfold ws in W. rewrite W. cbn [negb]. now rewrite app_nil_r.
      + apply wp_bind. apply wp_bind. eapply wp_dst_write; [exact T|lia|lia|]. intros m' T'.
        eapply wp_dst_add; [exact T'|reflexivity|].
        apply wp_bind. eapply wp_src_add; [exact T'|reflexivity| |exact L].
        apply wp_ret. exists (strip_whitespace c ++ [x]), rest. split; [reflexivity|]. split; [|rewrite app_length; cbn [length]; lia].
        split; [exact T'|]. exists (c ++ [x]). split; [now rewrite <- app_assoc|]. rewrite strip_app. f_equal.
        unfold strip_whitespace. cbn [filter]. unfold ws in W. now rewrite W.
    - intros out rest m (T & c & E & ->) C. unfold plt, pp in C. cbn [fst snd] in C. apply Nat.ltb_ge in C.
      assert (LE : (N = length c + length rest)%nat) by (rewrite E, app_length; reflexivity).
      destruct rest as [|x rest]; [|cbn [length] in *; lia]. rewrite app_nil_r in E. subst c.
      apply wp_intro with (length (strip_whitespace total)) m.
      + unfold offset_from, qq. cbn [fst snd length]. rewrite Nat.eqb_refl, Nat.add_0_r.
        destruct (Nat.leb_spec d0 (d0 + length (strip_whitespace total))); [|lia]. cbn [andb]. unfold ret. f_equal. lia.
      + split; [reflexivity|]. destruct T as [_ []]. split; [exact inv_out|].
        eapply Frame_weaken; [exact inv_frame|lia].
  Qed.
End Remove.

Lemma wp_dassert (n k : nat) (Q : unit -> mem -> Prop) m : (n <= k)%nat -> Q tt m -> wp (debug_assert (n <=? k)%nat) Q m.
Proof. intros H HQ. unfold debug_assert. destruct (Nat.leb_spec n k); [|lia]. now apply wp_ret. Qed.
Lemma remove_inplace_ok s m b o data : bytes data -> bytes_at m b o data ->
  wp (remove_ascii_whitespace_inplace s (b, o) (length data))
   (fun r m' => r = length (strip_whitespace data) /\ bytes_at m' b o (strip_whitespace data) /\ Frame m b o (length data) m') m.
Proof.
  intros B H. unfold remove_ascii_whitespace_inplace. apply wp_bind.
  eapply wp_mono; [apply find_ok; [exact B|exact H]|]. intros pos m' (-> & ->).
  pose proof (find_ws_le data) as Hp. assert (E := strip_find data).
  apply wp_bind. apply wp_dassert; [exact Hp|].
  destruct (Nat.eqb_spec (find_ws data) (length data)) as [Ep|Np].
  - rewrite Ep, firstn_all, skipn_all in E. change (strip_whitespace []) with (@nil Z) in E. rewrite app_nil_r in E.
    apply wp_ret. rewrite E. split; [reflexivity|]. split; [exact H|apply Frame_refl].
  - set (k := find_ws data) in *.
    apply wp_bind. unfold psub_len. destruct (Nat.leb_spec k (length data)) as [_|]; [|lia]. apply wp_ret.
    apply wp_bind. eapply padd_in; [exact H|lia|]. apply wp_bind.
    assert (Lk : (length data - k)%nat = length (skipn k data)) by now rewrite skipn_length.
    rewrite Lk. eapply wp_mono; [apply (remove_ok m b (o + k) (skipn k data) b (o + k))|].
    + apply bytes_skipn; exact B.
    + apply bytes_at_skipn; [lia|exact H].
    + destruct H as [H _]. rewrite <- Lk. lia.
    + right. right. lia.
    + intros r m' (-> & A & F). pose proof (strip_le (skipn k data)) as Ls.
      apply wp_bind. apply wp_dassert; [exact Ls|].
      destruct (Nat.leb_spec (k + length (strip_whitespace (skipn k data))) (length data)) as [_|]; [|lia].
      apply wp_ret. rewrite E, app_length, firstn_length, Nat.min_l by lia. split; [reflexivity|]. split.
      * apply bytes_at_app. rewrite firstn_length, Nat.min_l by lia. split; [|exact A].
        eapply Frame_bytes_at; [exact F| |rewrite firstn_length; lia]. now apply bytes_at_firstn.
      * eapply Frame_weaken; [exact F|lia].
Qed.

(** ** Decoding *)
Lemma forgiving_spec data : bytes data -> b64_dec STANDARD_FORGIVING (strip_whitespace data) = whatwg_forgiving_decode data.
Proof. intro B. apply b64_dec_forgiving. now apply strip_bytes. Qed.

Lemma inplace_tail en s m0 m b o n t : b64_isa s -> bytes t -> bytes_at m b o t -> (length t <= n)%nat -> Frame m0 b o n m ->
  wp (b64_decode_inplace en s STANDARD_FORGIVING (b, o) (length t)) (decoded (b64_dec STANDARD_FORGIVING t) m0 b o n) m.
Proof.
  intros Hs B A L F. destruct (b64_decode_inplace_ok en s STANDARD_FORGIVING t Hs m b o (conj B A)) as (r & m' & E & F' & D).
  apply wp_intro with r m'; [exact E|]. split; [|exact D].
  apply (Frame_trans _ m); [exact F|]. eapply Frame_weaken; [exact F'|]. pose proof (b64_need_le STANDARD_FORGIVING t). lia.
Qed.

Lemma forgiving_decode_inplace_ok en s1 s2 data : b64_isa s2 ->
  decodes_inplace (forgiving_decode_inplace en s1 s2) data (length data) (whatwg_forgiving_decode data).
Proof.
  intros Hs m b o [B H]. apply wp_inv. unfold forgiving_decode_inplace. apply wp_bind.
  eapply wp_mono; [apply remove_inplace_ok; [exact B|exact H]|]. intros r m' (-> & A & F).
  rewrite <- forgiving_spec by exact B. apply inplace_tail; auto using strip_bytes, strip_le.
Qed.

Lemma forgiving_decode_short en s1 s2 src : rejects_short (forgiving_decode en s1 s2) src (length src).
Proof.
  intros m b o d e dlen _ L. unfold forgiving_decode. destruct (Nat.leb_spec (length src) dlen); [lia|]. reflexivity.
Qed.

(** [copy_nonoverlapping] *)
Lemma wp_copy m b o d e l (Q : unit -> mem -> Prop) : bytes_at m b o l -> (e + length l <= length (m d))%nat ->
  (b <> d \/ o + length l <= e \/ e + length l <= o)%nat ->
  (forall m', bytes_at m' d e l -> Frame m d e (length l) m' -> Q tt m') ->
  wp (copy_nonoverlapping (b, o) (d, e) (length l)) Q m.
Proof.
  intros H R S HQ. unfold copy_nonoverlapping. cbn [fst snd].
  replace ((b =? d) && (o <? e + length l) && (e <? o + length l))%nat with false.
  2:{ symmetry. destruct (Nat.eqb_spec b d); cbn [andb]; [|reflexivity].
      destruct (Nat.ltb_spec o (e + length l)); cbn [andb]; [|reflexivity]. apply Nat.ltb_ge. lia. }
  apply wp_bind. apply wp_intro with l m; [now apply bytes_at_load|]. apply wp_store; [exact R|].
  apply HQ; [now apply bytes_at_store_same|]. apply Frame_store; auto using Frame_refl.
Qed.

Lemma forgiving_decode_ok en s1 s2 src : b64_isa s2 ->
  decodes (forgiving_decode en s1 s2) src (length src) (whatwg_forgiving_decode src).
Proof.
  intros Hs m b o d e dlen [B H] R S L. apply wp_inv. unfold forgiving_decode, room, separate in *.
  destruct (Nat.leb_spec (length src) dlen) as [_|]; [|lia]. cbn [negb]. apply wp_bind.
  eapply wp_mono; [apply find_ok; [exact B|exact H]|]. intros pos m' (-> & ->).
  pose proof (find_ws_le src) as Hp. assert (E := strip_find src). rewrite <- forgiving_spec by exact B.
  apply wp_bind. apply wp_dassert; [exact Hp|].
  destruct (Nat.eqb_spec (find_ws src) (length src)) as [Ep|Np].
  - rewrite Ep, firstn_all, skipn_all in E. change (strip_whitespace []) with (@nil Z) in E. rewrite app_nil_r in E. rewrite E.
    pose proof (b64_need_le STANDARD_FORGIVING src) as Ln.
    destruct (b64_decode_ok en s2 STANDARD_FORGIVING src Hs m b o d e dlen (conj B H) R S ltac:(lia)) as (r & m' & Er & F & D).
    apply wp_intro with r m'; [exact Er|]. split; [|exact D]. eapply Frame_weaken; [exact F|lia].
  - set (k := find_ws src) in *.
    assert (Lf : length (firstn k src) = k) by (rewrite firstn_length; lia).
    assert (Lk : (length src - k)%nat = length (skipn k src)) by now rewrite skipn_length.
    pose proof (bytes_at_firstn _ _ _ _ k H) as Hf.
    apply wp_bind. rewrite <- Lf at 1. apply wp_copy; rewrite ?Lf; [exact Hf|lia|lia|]. intros m1 A1 F1.
    assert (H1 : bytes_at m1 b o src) by (eapply Frame_bytes_at; [exact F1|exact H|]; lia).
    assert (R1 : (e + dlen <= length (m1 d))%nat) by (destruct F1 as (_ & -> & _); exact R).
    apply wp_bind. eapply padd_in; [exact H1|lia|]. apply wp_bind.
    unfold psub_len. destruct (Nat.leb_spec k (length src)) as [_|]; [|lia]. apply wp_ret.
    apply wp_bind. apply wp_padd; cbn [fst snd]; [lia|].
    apply wp_bind. rewrite Lk. eapply wp_mono; [apply (remove_ok m1 b (o + k) (skipn k src) d (e + k))|].
    + apply bytes_skipn; exact B.
    + apply bytes_at_skipn; [lia|exact H1].
    + rewrite <- Lk. lia.
    + rewrite <- Lk. lia.
    + intros r m2 (-> & A2 & F2). pose proof (strip_le (skipn k src)) as Ls. rewrite <- Lk in *. apply wp_bind. apply wp_dassert; [exact Ls|].
      assert (Ln : (k + length (strip_whitespace (skipn k src)))%nat = length (strip_whitespace src)) by (rewrite E, app_length, Lf; reflexivity).
      rewrite Ln. apply inplace_tail; auto using strip_bytes; try lia.
      * rewrite E. apply bytes_at_app. rewrite Lf. split; [|exact A2].
        eapply Frame_bytes_at; [exact F2|exact A1|]. rewrite Lf. lia.
      * apply (Frame_trans _ m1); (eapply Frame_weaken; [eassumption|lia]).
Qed.
