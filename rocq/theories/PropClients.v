(** Property theorems for clients (C74): threads that each make a sequence of calls of public functions, so that later calls
    work on the results of earlier ones while other threads run.

    [fs i] lists the calls of thread [i], [xs i] a program for each of them (Clients.v, [program_for]); the thread runs the
    programs one after the other. Which calls are made and what they are to return is fixed by the arguments, so the lists are
    known in advance. *)
From Coq Require Import ZArith List Bool Lia String.
From Verif Require Import Dispatch DispatchFacts.
From Verif Require Import Bytes Mem MemFacts Slices Codec Isa Spec Base64 Base64Ref Base64Api Base32
  Forgiving Conc ConcFacts ConcBase64Facts Reify ConcApi ConcApiFacts PropConc Whole WholeFacts Clients ClientsFacts PropWhole.
Import ListNotations.
Open Scope list_scope. Open Scope nat_scope.

Lemma api_writes c t sw f : api c t sw f -> forall pick pick' b o, writes (f pick) b o = writes (f pick') b o.
Proof. destruct 1; reflexivity. Qed.
Lemma api_accesses c t sw f : api c t sw f -> forall pick pick' b o, accesses (f pick) b o = accesses (f pick') b o.
Proof. destruct 1; reflexivity. Qed.
Lemma api_after c t sw f : api c t sw f -> forall pick pick' m m', after m (f pick) m' = after m (f pick') m'.
Proof. destruct 1; reflexivity. Qed.
Lemma api_made c t fs : (forall f, In f fs -> exists sw, api c t sw f) -> forall pick pick' m m', made m (calls_with pick fs) m' -> made m (calls_with pick' fs) m'.
Proof.
  induction fs as [|f fs IH]; intros HA pick pick' m m' H; [exact H|]. cbn [calls_with map made] in *. destruct H as (m1 & A & M). exists m1. split.
  - destruct (HA f (or_introl eq_refl)) as [sw Ha]. now rewrite <- (api_after _ _ _ _ Ha pick).
  - apply (IH (fun f J => HA f (or_intror J)) pick). exact M.
Qed.
Lemma autos_xseq (xs : list xprog) : (forall x, In x xs -> exists d, autos d x) -> exists d, autos d (xseq xs).
Proof.
  induction xs as [|x xs IH]; intro H; [exists 0; exact I|]. destruct (H x (or_introl eq_refl)) as [d D].
  destruct (IH (fun y J => H y (or_intror J))) as [d' D']. exists (d + d'). now apply autos_xthen.
Qed.
Lemma Forall2_left {A B} (R : A -> B -> Prop) (P : A -> Prop) xs ys : Forall2 R xs ys -> (forall x y, R x y -> P x) -> forall x, In x xs -> P x.
Proof. intros H I. induction H; intros z J; [contradiction|]. destruct J as [<-|J]; eauto. Qed.

(** C74 *)
Theorem C74_clients : forall c cpu t n fs xs m,
  compiled_for c cpu -> target_of c t ->
  (forall i f, i < n -> In f (fs i) -> exists sw, api c t sw f /\ (sw = true -> swaps_work c cpu)) ->
  (forall i pick, i < n -> can_make m (calls_with pick (fs i))) ->
  (forall i j b o pick f g, i < n -> j < n -> i <> j -> In f (fs i) -> In g (fs j) ->
     writes (f pick) b o = true -> accesses (g pick) b o = false) ->
  (forall i, i < n -> Forall2 program_for (xs i) (fs i)) ->
  whole_undisturbed c cpu n (fun i => xseq (xs i)) m (fun m' =>
    (forall i, i < n -> exists mi, (forall pick, made m (calls_with pick (fs i)) mi) /\
       forall pick f b o, In f (fs i) -> accesses (f pick) b o = true -> nth_error (m' b) o = nth_error (mi b) o) /\
    (forall b, List.length (m' b) = List.length (m b)) /\
    (forall b o, (forall i pick f, i < n -> In f (fs i) -> writes (f pick) b o = false) -> nth_error (m' b) o = nth_error (m b) o)).
Proof.
  intros c cpu t n fs xs m HC HT HA HR HW HX.
  apply whole_interleave; [exact HC|intros i Hi; apply autos_xseq; apply (Forall2_left _ _ _ _ (HX i Hi)); now intros x y []|].
  set (pk := sel c cpu).
  destruct (clients_interleave pk n (fun i => calls_with pk (fs i)) xs m) as [N HN].
  - intros i Hi. split; [|now apply HR]. apply Forall_forall. intros cl J. apply in_map_iff in J as (f & <- & J).
    destruct (HA i f Hi J) as (sw & A & W). apply public_alone. now apply (api_public c cpu t sw).
  - intros i j b o cl cl' Hi Hj D J J'. apply in_map_iff in J as (f & <- & J). apply in_map_iff in J' as (g & <- & J'). now apply (HW i j b o pk f g).
  - intros i Hi. assert (H := HX i Hi). clear - H. induction H as [|x f xr fr P _ IH]; cbn [calls_with map]; constructor; [apply P|exact IH].
  - exists N. intros k ps' m' ST. destruct (HN k ps' m' ST) as (G1 & G2 & G3 & G4 & G5). repeat (split; [assumption|]). intro AD.
    destruct (G5 AD) as (D1 & D2 & D3). split; [|split; [exact D2|]].
    + intros i Hi. destruct (D1 i Hi) as (mi & MD & V). exists mi. split.
      * intro pick. apply (api_made c t (fs i)) with (pick := pk); [|exact MD]. intros f J. destruct (HA i f Hi J) as (sw & A & _). eauto.
      * intros pick f b o J H. apply (V (f pk)); [now apply (in_map (fun f => f pk))|]. destruct (HA i f Hi J) as (sw & A & _).
        now rewrite (api_accesses _ _ _ _ A pk pick).
    + intros b o NW. apply D3. intros i cl Hi J. apply in_map_iff in J as (f & <- & J). now apply (NW i pk f).
Qed.
Print Assumptions C74_clients.
Theorem C74_programs : forall c t fs, (forall f, In f fs -> exists sw, api c t sw f) -> exists xs, Forall2 program_for xs fs.
Proof.
  intros c t fs. induction fs as [|f fs IH]; intro H; [exists []; constructor|]. destruct (H f (or_introl eq_refl)) as [sw A].
  destruct (api_follows c t sw f A) as (x & D & F). destruct (IH (fun g J => H g (or_intror J))) as [xs X].
  exists (x :: xs). constructor; [|exact X]. split; [exists 2; exact D|exact F].
Qed.
Print Assumptions C74_programs.

(** What a call has delivered is there at the end, unless a later call of the same thread may write where it worked. *)
Lemma unwritten_after m c m' b o : after m c m' -> writes c b o = false -> nth_error (m' b) o = nth_error (m b) o.
Proof.
  intros [_ U]. destruct c as [f src b0 p d e dlen out|f data b0 p out|f src b0 p answer]; cbn [writes accesses]; unfold within; intro H; [| |now rewrite U].
  - destruct U as (F1 & F2 & F3). destruct (Nat.eq_dec b d) as [->|N]; [|now rewrite F1]. apply F3.
    rewrite Nat.eqb_refl in H. cbn [andb] in H. apply orb_false_iff in H as [_ H]. apply andb_false_iff in H as [H|H]; [apply Nat.leb_gt in H|apply Nat.ltb_ge in H]; lia.
  - destruct U as (F1 & F2 & F3). destruct (Nat.eq_dec b b0) as [->|N]; [|now rewrite F1]. apply F3.
    rewrite Nat.eqb_refl in H. cbn [andb] in H. apply andb_false_iff in H as [H|H]; [apply Nat.leb_gt in H|apply Nat.ltb_ge in H]; lia.
Qed.
Lemma made_unwritten cs : forall m m' b o, made m cs m' -> (forall c, In c cs -> writes c b o = false) -> nth_error (m' b) o = nth_error (m b) o.
Proof.
  induction cs as [|c cs IH]; intros m m' b o H NW; cbn [made] in H; [now rewrite H|]. destruct H as (m1 & A & M).
  rewrite (IH m1 m' b o M (fun c J => NW c (or_intror J))). apply (unwritten_after _ c); auto. apply NW. now left.
Qed.
Lemma made_split pre c post : forall m m', made m (pre ++ c :: post) m' -> exists m1 m2, made m pre m1 /\ after m1 c m2 /\ made m2 post m'.
Proof.
  induction pre as [|d pre IH]; intros m m' H; cbn [app made] in *.
  - destruct H as (m1 & A & M). exists m, m1. split; [now intro|]. now split.
  - destruct H as (m1 & A & M). destruct (IH _ _ M) as (m2 & m3 & M1 & A1 & M2). exists m2, m3. split; [|now split]. exists m1. now split.
Qed.
Lemma can_make_split pre c post : forall m m1, can_make m (pre ++ c :: post) -> made m pre m1 -> exists m0, same_mem m0 m1 /\ ready m0 c.
Proof.
  induction pre as [|d pre IH]; intros m m1 H M; cbn [app made can_make] in *.
  - exists m. split; [exact M|apply H].
  - destruct M as (m2 & A & M). destruct H as [_ H]. apply (IH m2 m1); auto.
Qed.
(** what a call delivers is within the memory it was given *)
Definition result_cell (c : call) (b o : nat) : Prop :=
  match c with
  | Into _ _ _ _ d e _ (Some x) => b = d /\ e <= o < e + List.length x
  | InPlace _ _ d e (Some x) => b = d /\ e <= o < e + List.length x
  | _ => False
  end.
Lemma delivered_some m c b o : delivered m c -> result_cell c b o -> exists x, nth_error (m b) o = Some (Some x).
Proof.
  assert (G : forall d e x, bytes_at m d e x -> b = d /\ e <= o < e + List.length x -> exists y, nth_error (m b) o = Some (Some y)).
  { intros d e x H [-> I]. apply bytes_at_nth in H as [_ H]. specialize (H (o - e) ltac:(lia)). replace (e + (o - e)) with o in H by lia. rewrite H.
    destruct (nth_error x (o - e)) as [y|] eqn:E; [eauto|]. apply nth_error_None in E. lia. }
  destruct c as [f src b0 p d e dlen [x|]|f data b0 p [x|]|f src b0 p answer]; cbn [delivered result_cell]; try contradiction; apply G.
Qed.
Lemma result_within c m b o : alone c -> ready m c -> result_cell c b o -> accesses c b o = true.
Proof.
  intros A R H. assert (MM := mask_masked (accesses c) m). destruct (A _ (masked_ready _ _ _ MM R)) as (m1 & _ & D & U).
  destruct (accesses c b o) eqn:EF; [reflexivity|exfalso]. destruct (delivered_some _ _ _ _ D H) as [x Hx].
  rewrite (unaltered_outside _ _ _ _ _ U EF) in Hx. destruct (MM b) as [ML MN].
  assert (Lo : o < List.length (m b)) by (rewrite <- ML; apply nth_error_Some; congruence). rewrite MN, EF in Hx by exact Lo. discriminate Hx.
Qed.
Lemma delivered_same m m' c : (forall b, List.length (m' b) = List.length (m b)) ->
  (forall b o, result_cell c b o -> nth_error (m' b) o = nth_error (m b) o) -> delivered m c -> delivered m' c.
Proof.
  intros L V. assert (G : forall b o x, (forall i, i < List.length x -> nth_error (m' b) (o + i) = nth_error (m b) (o + i)) -> bytes_at m b o x -> bytes_at m' b o x).
  { intros b o x I H. rewrite bytes_at_nth in *. destruct H as [H1 H2]. split; [now rewrite L|]. intros i Hi. rewrite I; auto. }
  destruct c as [f src b p d e dlen [x|]|f data b p [x|]|f src b p answer]; cbn [delivered]; auto; apply G; intros i Hi; apply V; cbn [result_cell]; (split; [reflexivity|lia]).
Qed.
Lemma made_lengths cs : forall m m', made m cs m' -> forall b, List.length (m' b) = List.length (m b).
Proof.
  induction cs as [|c cs IH]; intros m m' H b; cbn [made] in H; [now rewrite H|]. destruct H as (m1 & A & M). rewrite (IH _ _ M).
  apply (unaltered_length _ c). now apply after_unaltered.
Qed.
Lemma same_ready m m' c : same_mem m m' -> ready m c -> ready m' c.
Proof. intros E. destruct c; cbn [ready]; unfold slice, room, bytes_at; now rewrite ?E. Qed.

Theorem C74_results : forall c cpu t n fs xs m,
  compiled_for c cpu -> target_of c t ->
  (forall i f, i < n -> In f (fs i) -> exists sw, api c t sw f /\ (sw = true -> swaps_work c cpu)) ->
  (forall i pick, i < n -> can_make m (calls_with pick (fs i))) ->
  (forall i j b o pick f g, i < n -> j < n -> i <> j -> In f (fs i) -> In g (fs j) ->
     writes (f pick) b o = true -> accesses (g pick) b o = false) ->
  (forall i, i < n -> Forall2 program_for (xs i) (fs i)) ->
  whole_undisturbed c cpu n (fun i => xseq (xs i)) m (fun m' =>
    forall i pre f post pick, i < n -> fs i = pre ++ f :: post ->
      (forall g b o, In g post -> accesses (f pick) b o = true -> writes (g pick) b o = false) ->
      delivered m' (f pick)).
Proof.
  intros c cpu t n fs xs m HC HT HA HR HW HX. destruct (C74_clients c cpu t n fs xs m HC HT HA HR HW HX) as [N HN].
  exists N. intros k st X. destruct (HN k st X) as (G1 & G2 & G3 & G4). split; [exact G1|]. split; [exact G2|]. split; [exact G3|]. intro XD.
  destruct (G4 XD) as (D1 & D2 & _). intros i pre f post pick Hi E NW. destruct (D1 i Hi) as (mi & MD & V).
  assert (Hf : In f (fs i)) by (rewrite E; apply in_elt). destruct (HA i f Hi Hf) as (sw & A & W).
  assert (M := MD pick). unfold calls_with in M. rewrite E, map_app in M. cbn [map] in M. apply made_split in M as (m1 & m2 & M1 & AF & M2).
  assert (RD : forall b o, result_cell (f pick) b o -> accesses (f pick) b o = true).
  { intros b o H. set (pk := sel c cpu). rewrite (api_accesses _ _ _ _ A pick pk).
    assert (CM := HR i pk Hi). unfold calls_with in CM. rewrite E, map_app in CM. cbn [map] in CM.
    destruct (can_make_split _ _ _ _ m1 CM) as (m0 & S0 & R0).
    - apply (api_made c t pre) with (pick := pick); [|exact M1]. intros g J. destruct (HA i g Hi) as (sw' & A' & _); [rewrite E; apply in_or_app; now left|eauto].
    - apply (result_within _ m0); [apply public_alone; now apply (api_public c cpu t sw)|exact R0|]. clear - A H. destruct A; exact H. }
  assert (LM : forall b, List.length (mi b) = List.length (m b)) by (apply (made_lengths _ _ _ (MD pick))).
  assert (L2 : forall b, List.length (mi b) = List.length (m2 b)) by (apply (made_lengths _ _ _ M2)).
  apply (delivered_same m2); [intro b; now rewrite D2, <- L2, LM| |apply AF]. intros b o H. apply RD in H.
  rewrite (V pick f b o Hf H). apply (made_unwritten _ _ _ _ _ M2). intros g J. apply in_map_iff in J as (g' & <- & J). now apply NW.
Qed.
Print Assumptions C74_results.

(** ** Round trips *)
(** Thread [i] encodes its bytes, decodes the text, and checks it; the text and the bytes that come back have allocations of their own. *)
Definition there_and_back (t : Base32.target) (cfg : b64_config) (src : list Z) (i : nat) : list ((entry -> isa) -> call) :=
  let text := b64_rfc cfg src in
  [(fun pick => Into (b64_encode (pick E_b64_encode) cfg) src (3 * i) 0 (3 * i + 1) 0 (List.length text) (fits (List.length text) text));
   (fun pick => Check (b64_check (t_endian t) (pick E_b64_check) cfg) text (3 * i + 1) 0 true);
   (fun pick => Into (b64_decode (t_endian t) (pick E_b64_decode) cfg) text (3 * i + 1) 0 (3 * i + 2) 0 (List.length src) (Some src))].
Theorem C74_roundtrips : forall c cpu t n cfg src xs m,
  compiled_for c cpu -> target_of c t -> b64_extra_of cfg <> Forgiving ->
  (forall i, i < n -> slice m (3 * i) 0 (src i) /\ room m (3 * i + 1) 0 (List.length (b64_rfc cfg (src i))) /\ room m (3 * i + 2) 0 (List.length (src i))) ->
  (forall i, i < n -> Forall2 program_for (xs i) (there_and_back t cfg (src i) i)) ->
  whole_undisturbed c cpu n (fun i => xseq (xs i)) m (fun m' =>
    forall i, i < n -> bytes_at m' (3 * i + 2) 0 (src i) /\ bytes_at m' (3 * i + 1) 0 (b64_rfc cfg (src i))).
Proof.
  intros c cpu t n cfg src xs m HC HT St HM HX.
  assert (FT : forall l : list Z, fits (List.length l) l = Some l) by (intro l; unfold fits; now rewrite Nat.leb_refl).
  destruct (C74_results c cpu t n (fun i => there_and_back t cfg (src i) i) xs m HC HT) as [N HN]; [| | |exact HX|].
  - intros i f Hi J. exists false. split; [|discriminate]. destruct (HM i Hi) as ([B _] & _). destruct J as [<-|[<-|[<-|[]]]].
    + apply api_b64_encode.
    + apply api_b64_check; [exact St|]. split; [|reflexivity]. intros _. exists (src i). now split.
    + apply api_b64_decode; [exact St|]. intro x. split.
      * intro E. injection E as <-. auto.
      * intros [[Bx Ex] _]. f_equal. now apply (b64_rfc_inj cfg).
  - intros i pick Hi. destruct (HM i Hi) as ([B S] & R1 & R2). cbn [there_and_back calls_with map can_make].
    split; [split; [now split|split; [exact R1|left; lia]]|]. intros m1 [D1 (U1 & U2 & U3)]. rewrite FT in D1. cbn [delivered] in D1.
    split; [split; [now apply b64_rfc_bytes|exact D1]|]. intros m2 [_ E2]. cbn iota in E2.
    split; [|exact (fun _ _ => I)]. split; [split; [now apply b64_rfc_bytes|unfold bytes_at; rewrite E2; exact D1]|]. split; [|left; lia].
    unfold room in *. rewrite E2, U1 by lia. exact R2.
  - intros i j b o pick f g Hi Hj D J J' H. apply not_true_iff_false. intro H'. 
    assert (Hb : b = 3 * i + 1 \/ b = 3 * i + 2).
    { destruct J as [<-|[<-|[<-|[]]]]; cbn [writes] in H; [|discriminate H|]; apply andb_true_iff in H as [H _]; apply Nat.eqb_eq in H; lia. }
    assert (Hb' : b = 3 * j \/ b = 3 * j + 1 \/ b = 3 * j + 2).
    { destruct J' as [<-|[<-|[<-|[]]]]; cbn [accesses] in H'; unfold within in H'; rewrite ?orb_true_iff, ?andb_true_iff, ?Nat.eqb_eq in H'; lia. }
    lia.
  - exists N. intros k st X. destruct (HN k st X) as (G1 & G2 & G3 & G4). split; [exact G1|]. split; [exact G2|]. split; [exact G3|]. intros XD i Hi.
    assert (Q := G4 XD i). split.
    + apply (Q (firstn 2 (there_and_back t cfg (src i) i)) _ [] (fun _ => Fallback) Hi eq_refl). intros g b o [].
    + assert (Q1 := Q [] _ (skipn 1 (there_and_back t cfg (src i) i)) (fun _ => Fallback) Hi eq_refl). cbv beta in Q1. rewrite FT in Q1. apply Q1.
      intros g b o J H. apply not_true_iff_false. intro H'.
      destruct J as [<-|[<-|[]]]; cbn [writes] in H'; [discriminate H'|]. apply andb_true_iff in H' as [H' _]. apply Nat.eqb_eq in H'.
      cbn [accesses] in H; unfold within in H; rewrite ?orb_true_iff, ?andb_true_iff, ?Nat.eqb_eq in H; lia.
Qed.
Print Assumptions C74_roundtrips.

(** ** Examples *)
Definition trip_cfg : b64_config := {| b64_kind_of := Standard; b64_extra_of := Pad |}.
Definition trip_src (i : nat) : list Z := match i with O => str "Man"%string | _ => str "Ma"%string end.
Definition trip_mem := mem_of [cells (str "Man"%string); uninit 4; uninit 3; cells (str "Ma"%string); uninit 4; uninit 2].
Example C74_ex : compiled_for x64 cpu_sse41 /\ target_of x64 x64_target /\ b64_extra_of trip_cfg <> Forgiving /\
  (forall i, i < 2 -> slice trip_mem (3 * i) 0 (trip_src i) /\ room trip_mem (3 * i + 1) 0 (List.length (b64_rfc trip_cfg (trip_src i))) /\
     room trip_mem (3 * i + 2) 0 (List.length (trip_src i))) /\
  exists xs, forall i, i < 2 -> Forall2 program_for (xs i) (there_and_back x64_target trip_cfg (trip_src i) i).
Proof.
  split; [intros []; cbn; easy|]. split; [split; [reflexivity|now left]|]. split; [discriminate|].
  assert (B : forall i, bytes (trip_src i)) by (intros [|i]; repeat constructor; cbv; congruence). split.
  - intros i Hi. destruct i as [|[|i]]; [| |lia]; (split; [apply slice_whole; [apply B|reflexivity]|split; vm_compute; lia]).
  - assert (G : forall i, exists x, Forall2 program_for x (there_and_back x64_target trip_cfg (trip_src i) i)).
    { intro i. apply (C74_programs x64 x64_target). intros f J. exists false. destruct J as [<-|[<-|[<-|[]]]].
      - apply api_b64_encode.
      - apply api_b64_check; [discriminate|]. split; [|reflexivity]. intros _. exists (trip_src i). now split.
      - apply api_b64_decode; [discriminate|]. intro x. split.
        + intro E. injection E as <-. auto.
        + intros [[Bx Ex] _]. f_equal. now apply (b64_rfc_inj trip_cfg). }
    destruct (G 0) as [x0 H0], (G 1) as [x1 H1]. exists (fun i => match i with O => x0 | _ => x1 end). intros [|[|i]] Hi; [exact H0|exact H1|lia].
Qed.
