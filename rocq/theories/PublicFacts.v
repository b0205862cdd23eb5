(** Facts about the outer layers, used by PropPublic.v. *)
From Coq Require Import ZArith List Bool Lia ZifyNat ZifyBool.
From Verif Require Import Bytes Mem MemFacts Loops Slices Codec Isa Simd SimdFacts Spec Ints
  Hex HexSimdFacts HexFacts HexApi Base64 Base64Ref Base64Api Base32 Base32Ref Base32Api Uuid UuidFacts UuidApi Heap HeapFacts Public.
Import ListNotations.
Open Scope Z_scope.
Open Scope m_scope.
Ltac Zify.zify_post_hook ::= Z.div_mod_to_equations.

(** ** Specifications *)
(** Well-formed UTF-8 (RFC 3629, section 4) *)
Inductive utf8 : list Z -> Prop :=
| utf8_0 : utf8 []
| utf8_1 a r : 0 <= a <= 127 -> utf8 r -> utf8 (a :: r)
| utf8_2 a b r : 194 <= a <= 223 -> 128 <= b <= 191 -> utf8 r -> utf8 (a :: b :: r)
| utf8_3 a b c r : a = 224 /\ 160 <= b <= 191 \/ (225 <= a <= 236 \/ 238 <= a <= 239) /\ 128 <= b <= 191 \/ a = 237 /\ 128 <= b <= 159 ->
    128 <= c <= 191 -> utf8 r -> utf8 (a :: b :: c :: r)
| utf8_4 a b c d r : a = 240 /\ 144 <= b <= 191 \/ 241 <= a <= 243 /\ 128 <= b <= 191 \/ a = 244 /\ 128 <= b <= 143 ->
    128 <= c <= 191 -> 128 <= d <= 191 -> utf8 r -> utf8 (a :: b :: c :: d :: r).
Lemma utf8_app a b : utf8 a -> utf8 b -> utf8 (a ++ b).
Proof. intros H Hb. induction H; cbn [app]; [exact Hb|now constructor..]. Qed.
Lemma utf8_ascii a : Forall ascii_char a -> utf8 a.
Proof. intros H. induction H as [|x r Hx _ IH]; constructor; [unfold ascii_char in Hx; lia|exact IH]. Qed.

(** [f(src) -> String]: an allocation of exactly the size of [t], holding [t], which is valid UTF-8; no other memory changes.
    Panics exactly if [t] is longer than isize::MAX. *)
Definition makes_string (M : machine) (f : ptr -> nat -> Mem.M vec) (src t : list Z) : Prop :=
  forall m b o, slice m b o src -> Z.of_nat (length src) <= isize_limit M -> m (new_block M) = [] ->
    if Z.of_nat (length t) <=? isize_limit M then
      exists v m', f (b, o) (length src) m = Ret v m' /\
        v_block v = new_block M /\ vec_holds M m' v t /\ m' (v_block v) = cells t /\ utf8 t /\
        (forall b', b' <> new_block M -> m' b' = m b')
    else f (b, o) (length src) m = Panic.

Lemma string_of_box M f src t : makes_box M f src t -> (bytes src -> Forall ascii_char t) ->
  makes_string M (fun p n => into_vec (f p n)) src t.
Proof.
  intros H A m b o S L F. specialize (H m b o S L F). unfold into_vec, bind.
  destruct (Z.of_nat (length t) <=? isize_limit M) eqn:E.
  - destruct H as (x & m' & Ef & Eb & El & Ec & O). rewrite Ef. exists (vec_of_box x), m'. unfold ret, vec_of_box. cbn [v_block v_len].
    assert (At := A (proj1 S)). split; [reflexivity|]. split; [exact Eb|]. split; [|split; [exact Ec|split; [now apply utf8_ascii|exact O]]].
    unfold vec_holds. cbn [v_block v_len]. split; [|split; [exact El|rewrite Ec; unfold cells; rewrite map_length; lia]].
    split; [eapply Forall_impl; [|exact At]; unfold ascii_char, byte; intros; lia|].
    unfold bytes_at. rewrite Ec. unfold cells. rewrite map_length, skipn_O. split; [lia|]. rewrite <- (map_length Some t). apply firstn_all.
  - now rewrite H.
Qed.

Lemma vec_of_tries M f src spec : tries_box M f src spec -> (bytes src -> forall x, spec = Some x -> bytes x /\ (length x <= length src)%nat) ->
  tries_vec M (fun p n => into_vec_res (f p n)) src spec.
Proof.
  intros H A m b o S L F. destruct (H m b o S L F) as (r & m' & Ef & Q). unfold into_vec_res, try_, bind. rewrite Ef.
  destruct spec as [t|].
  - destruct Q as (x & -> & Eb & El & Ec & O). exists (Ok (vec_of_box x)), m'. unfold ret. split; [reflexivity|].
    destruct (A (proj1 S) t eq_refl) as [Bt Lt].
    exists (vec_of_box x). split; [reflexivity|]. unfold vec_of_box, vec_holds. cbn [v_block v_len]. split; [exact Eb|]. split; [|exact O].
    split; [|split; [exact El|rewrite Ec; unfold cells; rewrite map_length; lia]]. split; [exact Bt|].
    unfold bytes_at. rewrite Ec. unfold cells. rewrite map_length, skipn_O. split; [lia|]. rewrite <- (map_length Some t). apply firstn_all.
  - destruct Q as [-> Q]. exists Err, m'. unfold ret. auto.
Qed.

(** ** Encoding into a new string and decoding that into a new vector *)
Definition reads_back (M1 M2 : machine) (enc : ptr -> nat -> Mem.M vec) (dec : ptr -> nat -> Mem.M (result vec)) (src : list Z) (n : nat) : Prop :=
  forall m b o, slice m b o src -> Z.of_nat (length src) <= isize_limit M1 ->
    m (new_block M1) = [] -> m (new_block M2) = [] -> new_block M1 <> new_block M2 ->
    let both := (text <- enc (b, o) (length src) ;; dec (v_block text, 0%nat) (v_len text)) in
    if Z.of_nat n <=? isize_limit M1 then
      exists v m', both m = Ret (Ok v) m' /\ v_block v = new_block M2 /\ vec_holds M2 m' v src /\
        (forall b', b' <> new_block M1 -> b' <> new_block M2 -> m' b' = m b')
    else both m = Panic.
Lemma reads_back_of M1 M2 enc dec src t : isize_limit M1 = isize_limit M2 ->
  makes_string M1 enc src t -> tries_vec M2 dec t (Some src) -> reads_back M1 M2 enc dec src (length t).
Proof.
  intros EL HE HD m b o S L F1 F2 N. cbn zeta. specialize (HE m b o S L F1).
  destruct (Z.of_nat (length t) <=? isize_limit M1) eqn:E.
  - destruct HE as (v & m1 & Ef & Eb & [Sv [Lv Cv]] & Ec & _ & O). unfold bind at 1. rewrite Ef, Lv.
    destruct (HD m1 (v_block v) 0%nat Sv ltac:(lia)) as (r & m2 & Ed & w & -> & Ew & Hw & O2).
    { rewrite O by auto. exact F2. }
    exists w, m2. split; [exact Ed|]. split; [exact Ew|]. split; [exact Hw|]. intros b' N1 N2. rewrite O2, O by auto. reflexivity.
  - unfold bind. now rewrite HE.
Qed.

(** ** Local buffers *)
Lemma alloc_ok M n m : m (new_block M) = [] -> alloc M n m = Ret (new_block M) (upd m (new_block M) (repeat None n)).
Proof. intros H. unfold alloc. now rewrite H. Qed.
Lemma upd_same m b l : upd m b l b = l.
Proof. unfold upd. now rewrite Nat.eqb_refl. Qed.
Lemma upd_other m b l b' : b' <> b -> upd m b l b' = m b'.
Proof. intros H. unfold upd. destruct (Nat.eqb_spec b' b); [contradiction|reflexivity]. Qed.
Lemma slice_alloc m n nb b o l : m nb = [] -> slice m b o l -> slice (upd m nb (repeat None n)) b o l /\ separate b o (length l) nb 0 n.
Proof.
  intros F S. destruct (Nat.eq_dec b nb) as [->|N].
  - destruct l as [|x l].
    + destruct S as [B [H _]]. rewrite F in H. cbn in H. split; [split; [exact B|]|right; left; cbn; lia]. apply bytes_at_nil. lia.
    + exfalso. apply (slice_nonempty _ _ _ _ S); [cbn; lia|exact F].
  - split; [|now left]. eapply slice_same; [exact S|]. now apply upd_other.
Qed.

(** a parser with a local result *)
Definition parses (f : ptr -> nat -> Mem.M (result (list Z))) (src : list Z) (M : machine) (P : list Z -> Prop) : Prop :=
  forall m b o, slice m b o src -> m (new_block M) = [] ->
    exists r m', f (b, o) (length src) m = Ret r m' /\ same_mem m m' /\
      (forall u, r = Ok u <-> P u) /\ (r = Err <-> forall u, ~ P u).
Lemma parse_uuid_ok M f src spec P : decodes (fun p n q _ => f p n q) src 16 spec ->
  (bytes src -> exactly spec P) -> (bytes src -> forall u, spec = Some u -> length u = 16%nat) -> parses (parse_uuid M f) src M P.
Proof.
  intros HD HP HL m b o S F. destruct (slice_alloc m 16 _ b o src F S) as [S0 Sep]. set (m0 := upd m (new_block M) (repeat None 16)) in *.
  assert (R : room m0 (new_block M) 0 16) by (unfold room, m0; rewrite upd_same, repeat_length; lia).
  destruct (HD m0 b o (new_block M) 0%nat 16%nat S0 R Sep (le_n _)) as (r & m' & E & [Fr Q]).
  assert (Und : same_mem m (upd m' (new_block M) [])).
  { apply (upd_undo m _ F (repeat None 16)). intros b' N. destruct Fr as [Fr _]. rewrite (Fr b' N). reflexivity. }
  unfold parse_uuid. rewrite (bind_ret _ _ _ _ _ (alloc_ok M 16 m F)). fold m0. rewrite (bind_ret _ _ _ _ _ E).
  specialize (HP (proj1 S)). specialize (HL (proj1 S)). destruct spec as [u|].
  - destruct Q as [-> A]. assert (L16 := HL u eq_refl). assert (Ld := bytes_at_load _ _ _ _ A). rewrite L16 in Ld. rewrite (bind_ret _ _ _ _ _ Ld).
    exists (Ok u), (upd m' (new_block M) []). split; [reflexivity|]. split; [exact Und|]. split.
    + intros v. rewrite <- (HP v). split; [injection 1 as ->; reflexivity|]. intros K. injection K as ->. reflexivity.
    + split; [discriminate|]. intros K. exfalso. apply (K u). now apply HP.
  - subst r. exists Err, (upd m' (new_block M) []). split; [reflexivity|]. split; [exact Und|]. split.
    + intros v. rewrite <- (HP v). split; discriminate.
    + split; [|reflexivity]. intros _ u K. apply HP in K. discriminate.
Qed.

(** a formatter with a local buffer *)
Lemma format_uuid_ok {R} M N f case (g : list Z -> R) u t :
  encodes (fun p _ q _ => r <- f p q case ;; ret (Ok r)) u t -> length u = 16%nat -> length t = N -> (bytes u -> Forall ascii_char t) ->
  forall m b o, slice m b o u -> m (new_block M) = [] ->
    exists m', format_uuid M N (b, o) case f g m = Ret (g t) m' /\ same_mem m m'.
Proof.
  intros HE Lu Lt A m b o S F. destruct (slice_alloc m N _ b o u F S) as [S0 Sep]. set (m0 := upd m (new_block M) (repeat None N)) in *.
  assert (Rm : room m0 (new_block M) 0 N) by (unfold room, m0; rewrite upd_same, repeat_length; lia).
  destruct (HE m0 b o (new_block M) 0%nat N S0 Rm Sep ltac:(lia)) as (m' & E & At & Fr).
  assert (Und : same_mem m (upd m' (new_block M) [])).
  { apply (upd_undo m _ F (repeat None N)). intros b' Nb. destruct Fr as [Fr _]. rewrite (Fr b' Nb). reflexivity. }
  unfold bind in E. destruct (f (b, o) (new_block M, 0%nat) case m0) as [a m1| | |] eqn:Ef; try discriminate E.
  unfold ret in E. injection E as -> ->.
  exists (upd m' (new_block M) []). split; [|exact Und].
  unfold format_uuid. rewrite (bind_ret _ _ _ _ _ (alloc_ok M N m F)). fold m0. rewrite (bind_ret _ _ _ _ _ Ef). cbn [fst snd].
  rewrite (bind_ret _ _ _ _ _ (bytes_at_load _ _ _ _ At)).
  replace (forallb (fun c => c <? 128) t) with true; [reflexivity|]. symmetry. apply forallb_forall. intros c Hc.
  specialize (A (proj1 S)). rewrite Forall_forall in A. apply A in Hc. unfold ascii_char in Hc. lia.
Qed.

(** ** Raw pointers *)
Lemma hex_encode_raw_ok M s case src m b o d e : machine_ok M -> slice m b o src -> room m d e (2 * length src) ->
  separate b o (length src) d e (2 * length src) -> Z.of_nat (length (m d)) <= isize_limit M ->
  exists m', hex_encode_raw M s (b, o) (length src) (d, e) case m = Ret (2 * Z.of_nat (length src)) m' /\
    bytes_at m' d e (rfc_hex_encode (alphabet_of case) src) /\ only_changed m d e (2 * length src) m'.
Proof.
  intros HM S R Sep L.
  destruct (hex_encode_ok s case src m b o d e (2 * length src)%nat S R Sep) as (m' & E & A & F); [rewrite hex_encode_len; lia|].
  rewrite hex_encode_len in F. unfold hex_encode in E.
  destruct (negb (length src <=? 2 * length src / 2)%nat) eqn:Q; [exfalso; lia|]. unfold bind in E.
  destruct (hex_encode_impl s (b, o) (length src) (d, e) case m) as [a m1| | |] eqn:Ei; try discriminate E. unfold ret in E. injection E as _ ->.
  exists m'. split; [|auto]. unfold hex_encode_raw. rewrite (bind_ret _ _ _ _ _ Ei).
  rewrite usize_ok; [f_equal; lia|]. destruct (limits M HM). unfold room in R. lia.
Qed.
Lemma hex_decode_raw_of s src len dst m : (hex_decode_raw s src len dst m) =
  match hex_decode s src len dst (len / 2) m with Ret (Ok (_, n)) m' => Ret (Ok n) m' | Ret Err m' => Ret Err m' | UB => UB | Panic => Panic | OutOfFuel => OutOfFuel end.
Proof.
  unfold hex_decode_raw, hex_decode. rewrite Nat.leb_refl, andb_true_r.
  destruct (negb (len mod 2 =? 0)%nat); [reflexivity|]. unfold try_, bind. destruct (hex_decode_impl s src len dst m) as [[u|] m'| | |]; reflexivity.
Qed.
Lemma hex_decode_raw_inplace s src len m : (hex_decode_raw s src len src m) =
  match hex_decode_inplace s src len m with Ret (Ok (_, n)) m' => Ret (Ok n) m' | Ret Err m' => Ret Err m' | UB => UB | Panic => Panic | OutOfFuel => OutOfFuel end.
Proof.
  unfold hex_decode_raw, hex_decode_inplace.
  destruct (negb (len mod 2 =? 0)%nat); [reflexivity|]. unfold try_, bind. destruct (hex_decode_impl s src len src m) as [[u|] m'| | |]; reflexivity.
Qed.

(** the vector holds the one [t] with [P t]; Err exactly if there is none *)
Definition vec_exactly (M : machine) (f : ptr -> nat -> Mem.M (result vec)) (src : list Z) (P : list Z -> Prop) : Prop :=
  forall m b o, slice m b o src -> Z.of_nat (length src) <= isize_limit M -> m (new_block M) = [] ->
    exists r m', f (b, o) (length src) m = Ret r m' /\
      match r with
      | Ok v => v_block v = new_block M /\ (forall b', b' <> new_block M -> m' b' = m b') /\
                exists t, vec_holds M m' v t /\ (forall y, P y <-> y = t)
      | Err => (forall y, ~ P y) /\ same_mem m m'
      end.
Lemma vec_exact M f src spec P : tries_vec M f src spec -> (bytes src -> exactly spec P) -> vec_exactly M f src P.
Proof.
  intros HT HP m b o HS HL HF. specialize (HP (proj1 HS)). destruct (HT m b o HS HL HF) as (r & m' & E & Q). exists r, m'.
  split; [exact E|]. destruct spec as [t|].
  - destruct Q as (v & -> & Q1 & Q2 & Q3). split; [exact Q1|]. split; [exact Q3|]. exists t. split; [exact Q2|].
    intro y. split; [intro Hy; apply HP in Hy; now injection Hy|intros ->; now apply HP].
  - destruct Q as [-> Q]. split; [|exact Q]. intros y Hy. apply HP in Hy. discriminate.
Qed.
Lemma hex_vec M s src : machine_ok M -> tries_vec M (hex_decode_to_vec M s) src (rfc_hex_decode src).
Proof.
  intro HM. apply vec_of_tries; [now apply hex_try|]. intros B x Hx. split; [now apply hex_decode_bytes in Hx|].
  apply hex_decode_even in Hx. lia.
Qed.
Lemma b64_vec M en s cfg src : machine_ok M -> b64_isa s -> tries_vec M (b64_decode_to_vec M en s cfg) src (b64_dec cfg src).
Proof.
  intros HM Hs. apply vec_of_tries; [now apply b64_try|]. intros B x Hx. apply b64_dec_facts in Hx as [L Bx]; [|exact B].
  split; [exact Bx|]. pose proof (b64_need_le cfg src). lia.
Qed.
Lemma b32_vec M t s cfg src : machine_ok M -> b32_isa s -> tries_vec M (b32_decode_to_vec M t s cfg) src (b32_dec cfg src).
Proof.
  intros HM Hs. apply vec_of_tries; [now apply b32_try|]. intros B x Hx. apply b32_dec_facts in Hx as [L Bx]; [|exact B].
  split; [exact Bx|]. pose proof (b32_need_le cfg src). lia.
Qed.

(** appending to a string: the result is the old contents followed by [t], and still UTF-8 *)
Definition appends_utf8 (M : machine) (f : ptr -> nat -> vec -> Mem.M vec) (src : list Z) : Prop :=
  forall m b o v old v' m', slice m b o src -> Z.of_nat (length src) <= isize_limit M ->
    vec_holds M m v old -> b <> v_block v -> reallocatable M m v -> utf8 old ->
    f (b, o) (length src) v m = Ret v' m' -> exists new, vec_holds M m' v' new /\ utf8 new.
Lemma append_utf8 M f src t : appends M f src t -> (bytes src -> Forall ascii_char t) -> appends_utf8 M f src.
Proof.
  intros H A m b o v old v' m' S L V N R U E. specialize (H m b o v old S L V N R).
  destruct (_ <=? _); [|rewrite E in H; discriminate]. destruct H as (v1 & m1 & E1 & V1 & _). rewrite E in E1. injection E1 as <- <-.
  exists (old ++ t). split; [exact V1|]. apply utf8_app; [exact U|]. apply utf8_ascii, A, S.
Qed.
