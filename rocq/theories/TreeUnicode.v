(** unicode-simd under the rules of TreeBorrows.v *)
From Coq Require Import ZArith List Bool Lia ZifyBool ZifyNat.
From Verif Require Import Bytes Mem MemFacts Slices Codec Conc ConcFacts Reify ConcApi ConcApiFacts Isa Simd SimdFacts Spec Ints UnicodeSpec Unicode UnicodeFacts
  SwapFacts LaneFacts Utf32Facts PropUnicode
  Borrows BorrowsApi BorrowsFacts BorrowsBridge BorrowsUnicode TreeBorrows TreeFacts TreeCalls TreeBridge.
Import ListNotations.
Open Scope nat_scope. Open Scope m_scope. Open Scope borrow_scope.

Lemma is_ascii_tgood x64 s n : good_check (is_ascii_b x64 s) n.
Proof.
  intros F p t Q st mm HI W LT RI WD H. unfold is_ascii_b. apply (into_start F p n t p 0 t); auto. intros u s1 I1 R1 L1. iro.
  eapply (into_read F st p n p 0 t t _ _ _ (fun y => Return y)); [apply rei_uni_is_ascii|eassumption|eassumption|exact HI|exact LT|]. intros y sx Ix _ E.
  apply (into_fail F st p n p 0 t t); auto.
Qed.
Lemma is_utf32le_tgood en s l : good_check (fun p n t => is_utf32le_b en s p (n / 4) t) (4 * l).
Proof.
  intros F p t Q st mm HI W LT RI WD H. rewrite (esize_div U32 l : 4 * l / 4 = l). unfold is_utf32le_b. apply (into_start F p (4 * l) t p 0 t); auto. intros u s1 I1 R1 L1. iro.
  eapply (into_read F st p (4 * l) p 0 t t _ _ _ (fun y => Return y)); [apply rei_uni_is_utf32le|eassumption|eassumption|exact HI|exact LT|]. intros y sx Ix _ E.
  apply (into_fail F st p (4 * l) p 0 t t); auto.
Qed.
Lemma swap_tgood en t s l j : l <= j -> good_into (fun a => Some (fst a, esize t * snd a))
  (fun p n q k ts td => swap_b en t s p (n / esize t) q (k / esize t) ts td) (esize t * l) (esize t * j).
Proof.
  intros LE F p q ts td Q st mm N HF HI W LT RI OT H. rewrite !esize_div. unfold swap_b. apply (into_start F p (esize t * l) ts q (esize t * j) td); auto. intros u s1 I1 R1 L1. iro.
  eapply into_read with (R := any); [destruct (negb (l <=? j)); [apply rei_panic|now apply rei_ret]|eassumption|eassumption|exact HI|exact LT|]. intros [] sx Ix Kx _. assert (Ru : can_read sx p (esize t * l) u) by auto. assert (Lu : u < tfresh sx) by apply Ru. iro. iro.
  eapply into_exec; [apply (rei_uni_swap_endianness en t s p l q); reflexivity|eassumption|eassumption|assumption|eassumption|exact HF|].
  intros y mm' sy Iy _. apply (into_give F st p (esize t * l) q (esize t * j) ts td); auto. nia.
Qed.
Lemma swap_inplace_tgood en t s l : good_inplace (fun _ => None)
  (fun p n td => bbind (swap_inplace_b en t s p (n / esize t) td) (fun _ => Return (tt, 0))) (esize t * l).
Proof.
  intros F p td Q st mm HF HI W WI H. rewrite esize_div. apply tgood_bind. unfold swap_inplace_b. apply (inplace_start F p (esize t * l) td); auto.
  intros g s1 I1. pro. pro. eapply inplace_raw; [eassumption|]. intros r s6 I6.
  eapply (inplace_exec F st p (esize t * l) td r _ _ (fun y => Return y)); [apply (rei_uni_swap_endianness en t s p l p); reflexivity|eassumption|exact HF|].
  intros y mm' sx Ix _. apply (raw_fail F st p (esize t * l) td r); auto. intros sz P. cbn [tgood]. now apply H.
Qed.
Lemma is_ascii_trees x64 s src : tree_check (is_ascii_b x64 s) (is_ascii x64 s) src.
Proof.
  apply tree_check_of; [intros; apply is_ascii_ann| |apply is_ascii_tgood]. intros _ m b o S. destruct (C34_is_ascii x64 s m b o src S) as (r & E & _).
  exists r, m. split; [exact E|]. now intro.
Qed.
Lemma is_utf32le_trees en s xs : s = Fallback \/ (sse41p s /\ en = LE) -> Forall (uint 4) xs ->
  tree_check (fun p n t => is_utf32le_b en s p (n / 4) t) (fun p n => is_utf32le en s p (n / 4)) (arr en 4 xs).
Proof.
  intros Hs HX. apply tree_check_of; [intros; apply is_utf32le_ann| |rewrite arr_len; apply is_utf32le_tgood]. intros _ m b o [_ S].
  rewrite arr_len, (esize_div U32 (length xs) : 4 * length xs / 4 = length xs).
  destruct (C35_is_utf32le en s m b o xs Hs HX S) as (r & E & _). exists r, m. split; [exact E|]. now intro.
Qed.
Lemma swap_trees en t s xs k : swap_isa s -> Forall (uint (esize t)) xs -> length xs <= k ->
  tree_into (fun a => Some (fst a, esize t * snd a)) (fun p n q k ts td => swap_b en t s p (n / esize t) q (k / esize t) ts td)
    (fun p n q k => swap_endianness_to en t s p (n / esize t) q (k / esize t)) (arr en (esize t) xs) (esize t * k).
Proof.
  intros Hs HX L. apply tree_into_of; [intros; apply swap_ann| |rewrite arr_len; now apply swap_tgood].
  intros _ m b o d e [_ S] R SEP. rewrite arr_len in *. rewrite !esize_div.
  destruct (C36_swap en t s m b o d e xs k Hs HX S R SEP L) as (m' & E & _ & FR). do 2 eexists. split; [exact E|].
  apply (Frame_weaken _ _ _ _ _ _ _ FR). right. nia.
Qed.
Lemma swap_inplace_trees en t s xs : swap_isa s -> Forall (uint (esize t)) xs ->
  tree_inplace (fun _ => None) (fun p n td => bbind (swap_inplace_b en t s p (n / esize t) td) (fun _ => Return (tt, 0)))
    (fun p n => swap_endianness_inplace en t s p (n / esize t)) (arr en (esize t) xs).
Proof.
  intros Hs HX. apply tree_inplace_of; [intros; apply swap_inplace_ann| |rewrite arr_len; apply swap_inplace_tgood].
  intros _ m b o [_ S]. rewrite arr_len, esize_div. destruct (C36_swap_inplace en t s m b o xs Hs HX S) as (m' & E & _ & FR). eauto.
Qed.
