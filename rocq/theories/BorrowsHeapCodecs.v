(** The allocating functions of the three codecs, for PropBorrowsHeap.v *)
From Coq Require Import ZArith List Bool Lia ZifyBool ZifyNat.
From Verif Require Import Bytes Mem MemFacts Slices Codec Conc ConcFacts Reify ConcApi ConcApiFacts Isa Simd Spec Ints
  Loops SimdFacts Hex HexSimdFacts HexFacts HexApi Base64 Base64Ref Base64DecFacts Base64Api Base32 Base32Ref Base32Api Forgiving ForgivingFacts Heap HeapFacts Public
  Borrows BorrowsApi BorrowsFacts BorrowsLib BorrowsCalls BorrowsBridge BorrowsBase64 BorrowsBase32 BorrowsForgiving
  BorrowsHeap BorrowsHeapFacts BorrowsHeapSteps BorrowsHeapCalls.
Import ListNotations.
Open Scope nat_scope. Open Scope m_scope. Open Scope borrow_scope. Open Scope heap_scope.

Lemma box_new M x f src : (forall p n ts, hannotates fst (x p n ts) (f p n)) -> good_new (box_held M) M x src -> borrows_new of_box M x f src.
Proof. intros HA HG. apply (borrows_new_of of_box (box_held M)); auto. intros. eapply held_box; eauto. Qed.
Lemma vec_new M x f src : (forall p n ts, hannotates fst (x p n ts) (f p n)) -> good_new vec_held M x src -> borrows_new of_vec M x f src.
Proof. intros HA HG. apply (borrows_new_of of_vec vec_held); auto. intros. eapply held_vec; eauto. Qed.
Lemma box_try M x f src : (forall p n ts, hannotates fst (x p n ts) (f p n)) -> good_new (res_held (box_held M)) M x src -> borrows_new (of_res of_box) M x f src.
Proof. intros HA HG. apply (borrows_new_of _ (res_held (box_held M))); auto. intros. eapply (held_res (box_held M) x_block); eauto. intros. eapply held_box; eauto. Qed.
Lemma vec_try M x f src : (forall p n ts, hannotates fst (x p n ts) (f p n)) -> good_new (res_held vec_held) M x src -> borrows_new (of_res of_vec) M x f src.
Proof. intros HA HG. apply (borrows_new_of _ (res_held vec_held)); auto. intros. eapply (held_res vec_held v_block); eauto. intros. eapply held_vec; eauto. Qed.

(** ** hex-simd *)
Lemma hex_box_ann M s case p n ts : hannotates fst (hex_encode_to_boxed_str_b M s case p n ts) (hex_encode_to_boxed_str M s case p n).
Proof. revert p n ts. apply enc_box_ann; start. Qed.
Lemma hex_box_good M s case src : machine_ok M -> good_new (box_held M) M (hex_encode_to_boxed_str_b M s case) src.
Proof.
  intro HM. eapply (enc_box_good M _ _ _ src (rfc_hex_encode (lut_of case) src)).
  - intros _ L. rewrite hex_encode_len. now apply hex_len_ok.
  - intro. apply hex_enc.
  - intros p n q. apply rei_hex_encode_impl. reflexivity.
Qed.
Lemma hex_append_borrows M s case src : machine_ok M -> borrows_append (fun v => v) M (hex_encode_append_vec_b M s case) (hex_encode_append_vec M s case) src.
Proof.
  intro HM. apply borrows_append_of; [apply enc_append_ann; start|]. eapply (enc_append_good M _ _ _ src (rfc_hex_encode (lut_of case) src)).
  - intros _ L. rewrite hex_encode_len. now apply hex_len_ok.
  - intro. apply hex_enc.
  - intros p n q. apply rei_hex_encode_impl. reflexivity.
Qed.
Lemma hex_try_ann M s p n ts : hannotates fst (hex_decode_to_boxed_bytes_b M s p n ts) (hex_decode_to_boxed_bytes M s p n).
Proof.
  revert p n ts. eapply dec_box_ann with (dl := hex_dl); [start| |apply hex_dl_ann|nox].
  intros p n H. unfold hex_decode_to_boxed_bytes, hex_dl. nonzero n H. cbn [Nat.eqb]. destruct (negb _); reflexivity.
Qed.
Lemma hex_try_good M s src : good_new (res_held (box_held M)) M (hex_decode_to_boxed_bytes_b M s) src.
Proof.
  eapply (dec_box_good M _ _ hex_dl _ _ src (hex_need src) (rfc_hex_decode src)); [apply hex_dl_ok|apply hex_dec|intros; apply ro_slice_parts|nox|].
  intros p n q. apply rei_hex_decode_impl. reflexivity.
Qed.
Lemma hex_try_append_borrows M s src : borrows_append snd M (hex_decode_append_vec_b M s) (hex_decode_append_vec M s) src.
Proof.
  apply borrows_append_of.
  - eapply dec_append_ann with (dl := hex_dl); [start| |apply hex_dl_ann|nox].
    intros p n v H. unfold hex_decode_append_vec, hex_dl. nonzero n H. cbn [Nat.eqb]. destruct (negb _); reflexivity.
  - eapply (dec_append_good M _ _ hex_dl _ _ src (hex_need src) (rfc_hex_decode src)); [apply hex_dl_ok|apply hex_dec|intros; apply ro_slice_parts|nox|].
    intros p n q. apply rei_hex_decode_impl. reflexivity.
Qed.

(** ** base64-simd *)
Lemma b64_box_ann M s cfg p n ts : hannotates fst (b64_encode_to_boxed_str_b M s cfg p n ts) (b64_encode_to_boxed_str M s cfg p n).
Proof. revert p n ts. apply enc_box_ann; start. Qed.
Lemma b64_box_good M s cfg src : machine_ok M -> b64_isa s -> good_new (box_held M) M (b64_encode_to_boxed_str_b M s cfg) src.
Proof.
  intros HM Hs. eapply (enc_box_good M _ _ _ src (b64_rfc cfg src)).
  - intros B L. rewrite b64_rfc_len by exact B. now apply b64_len_ok.
  - intro B. now apply b64_enc.
  - intros p n q. apply rei_b64_encode_impl. reflexivity.
Qed.
Lemma b64_append_borrows M s cfg src : machine_ok M -> b64_isa s -> borrows_append (fun v => v) M (b64_encode_append_vec_b M s cfg) (b64_encode_append_vec M s cfg) src.
Proof.
  intros HM Hs. apply borrows_append_of; [apply enc_append_ann; start|]. eapply (enc_append_good M _ _ _ src (b64_rfc cfg src)).
  - intros B L. rewrite b64_rfc_len by exact B. now apply b64_len_ok.
  - intro B. now apply b64_enc.
  - intros p n q. apply rei_b64_encode_impl. reflexivity.
Qed.
Lemma b64_dl_ann cfg p n t : annotates (fun a => a) (b64_decoded_length_b cfg p n t) (b64_decoded_length p n cfg).
Proof. unfold b64_decoded_length_b. ann. eexists. split; [apply bind_ret_eq|]. intro. ann. Qed.
Lemma b64_dl_ok s cfg src : b64_isa s -> dl_ok (b64_decoded_length_b cfg) (fun p n => b64_decoded_length p n cfg) src.
Proof.
  intro Hs. eapply exec_dl_ok; [intros; apply b64_decoded_length_shape|intros; apply rei_b64_decoded_length|apply b64_dl_ann|].
  intros m b o S NZ. destruct (b64_dec_impl LE s cfg src Hs m b o S NZ) as [(E & _)|(k & E & _)]; rewrite E; eauto.
Qed.
Lemma b64_try_ann M en s cfg p n ts : hannotates fst (b64_decode_to_boxed_bytes_b M en s cfg p n ts) (b64_decode_to_boxed_bytes M en s cfg p n).
Proof. revert p n ts. eapply dec_box_ann with (dl := fun p n => b64_decoded_length p n cfg); [start|start|apply b64_dl_ann|nox]. Qed.
Lemma b64_try_good M en s cfg src : b64_isa s -> good_new (res_held (box_held M)) M (b64_decode_to_boxed_bytes_b M en s cfg) src.
Proof.
  intro Hs. eapply (dec_box_good M _ _ _ _ _ src (b64_need cfg src) (b64_dec cfg src)); [now apply (b64_dl_ok s)|now apply b64_dec_impl|intros; apply ro_as_ptr|nox|].
  intros p n q. apply rei_b64_decode_impl. reflexivity.
Qed.
Lemma b64_try_append_borrows M en s cfg src : b64_isa s -> borrows_append snd M (b64_decode_append_vec_b M en s cfg) (b64_decode_append_vec M en s cfg) src.
Proof.
  intro Hs. apply borrows_append_of.
  - eapply dec_append_ann with (dl := fun p n => b64_decoded_length p n cfg); [start|start|apply b64_dl_ann|nox].
  - eapply (dec_append_good M _ _ _ _ _ src (b64_need cfg src) (b64_dec cfg src)); [now apply (b64_dl_ok s)|now apply b64_dec_impl|intros; apply ro_as_ptr|nox|].
    intros p n q. apply rei_b64_decode_impl. reflexivity.
Qed.

(** ** base32-simd *)
Lemma b32_box_ann M t s cfg p n ts : hannotates fst (b32_encode_to_boxed_str_b M t s cfg p n ts) (b32_encode_to_boxed_str M t s cfg p n).
Proof. revert p n ts. apply enc_box_ann; start. Qed.
Lemma b32_box_good M t s cfg src : machine_ok M -> b32_isa s -> good_new (box_held M) M (b32_encode_to_boxed_str_b M t s cfg) src.
Proof.
  intros HM Hs. eapply (enc_box_good M _ _ _ src (b32_rfc cfg src)).
  - intros B L. rewrite b32_rfc_len by exact B. now apply b32_len_ok'.
  - intro B. now apply b32_enc.
  - intros p n q. apply rei_b32_encode_impl. reflexivity.
Qed.
Lemma b32_append_borrows M t s cfg src : machine_ok M -> b32_isa s -> borrows_append (fun v => v) M (b32_encode_append_vec_b M t s cfg) (b32_encode_append_vec M t s cfg) src.
Proof.
  intros HM Hs. apply borrows_append_of; [apply enc_append_ann; start|]. eapply (enc_append_good M _ _ _ src (b32_rfc cfg src)).
  - intros B L. rewrite b32_rfc_len by exact B. now apply b32_len_ok'.
  - intro B. now apply b32_enc.
  - intros p n q. apply rei_b32_encode_impl. reflexivity.
Qed.
Lemma b32_dl_ann pad p n t : annotates (fun a => a) (b32_decoded_length_b pad p n t) (b32_decoded_length p n pad).
Proof. unfold b32_decoded_length_b. ann. eexists. split; [apply bind_ret_eq|]. intro. ann. Qed.
Lemma b32_dl_ok (t : target) s cfg src : b32_isa s -> dl_ok (b32_decoded_length_b (b32_padding cfg)) (fun p n => b32_decoded_length p n (b32_padding cfg)) src.
Proof.
  intro Hs. eapply exec_dl_ok; [intros; apply b32_decoded_length_shape|intros; apply rei_b32_decoded_length|apply b32_dl_ann|].
  intros m b o S NZ. destruct (b32_dec_impl t s cfg src Hs m b o S NZ) as [(E & _)|(k & E & _)]; rewrite E; eauto.
Qed.
Lemma b32_try_ann M t s cfg p n ts : hannotates fst (b32_decode_to_boxed_bytes_b M t s cfg p n ts) (b32_decode_to_boxed_bytes M t s cfg p n).
Proof. revert p n ts. eapply dec_box_ann with (dl := fun p n => b32_decoded_length p n (b32_padding cfg)); [start|start|apply b32_dl_ann|nox]. Qed.
Lemma b32_try_good M t s cfg src : b32_isa s -> good_new (res_held (box_held M)) M (b32_decode_to_boxed_bytes_b M t s cfg) src.
Proof.
  intro Hs. eapply (dec_box_good M _ _ _ _ _ src (b32_need cfg src) (b32_dec cfg src)); [now apply (b32_dl_ok t s)|now apply b32_dec_impl|intros; apply ro_as_ptr|nox|].
  intros p n q. apply rei_b32_decode_impl. reflexivity.
Qed.
Lemma b32_try_append_borrows M t s cfg src : b32_isa s -> borrows_append snd M (b32_decode_append_vec_b M t s cfg) (b32_decode_append_vec M t s cfg) src.
Proof.
  intro Hs. apply borrows_append_of.
  - eapply dec_append_ann with (dl := fun p n => b32_decoded_length p n (b32_padding cfg)); [start|start|apply b32_dl_ann|nox].
  - eapply (dec_append_good M _ _ _ _ _ src (b32_need cfg src) (b32_dec cfg src)); [now apply (b32_dl_ok t s)|now apply b32_dec_impl|intros; apply ro_as_ptr|nox|].
    intros p n q. apply rei_b32_decode_impl. reflexivity.
Qed.
