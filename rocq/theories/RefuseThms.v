(** Patches that are refused because of their header: theorems and examples. *)

From Coq Require Import ZArith List Bool Lia ZifyBool ZifyNat ZifyN.
From Verif Require Import Prelude Lib Heatshrink HsProofs CReader CSeq CInPlace CLzma CSeqLzma CIpLzma Spec LzmaSpec Bsdiff BsdiffSpec PyCreate CreateProofs RefuseSpec RefuseApply
  SeqExamples Refuted LzmaExamples InPlaceExamples IpLzmaExamples.
Import ListNotations.
Open Scope Z_scope.

Lemma unknown_code : forall c e, unknown c e -> e < 0 /\ e <> - E_ALREADY_DONE.
Proof. intros c e (_ & _ & _ & ->). split; [reflexivity|discriminate]. Qed.

Lemma unknown_lzma_code : forall D (L : lzma_lib D) c e, unknown_lzma L c e -> e < 0 /\ e <> - E_ALREADY_DONE.
Proof. intros D L c e [[_ H]|(_ & _ & ->)]; [eapply unknown_code; eauto|split; [reflexivity|discriminate]]. Qed.

Theorem sequential_refused : forall (wb : WordBits) (W : Type) (E : seq_env W) patch code, refused 0 1 unknown patch code ->
  forall fuel junk ps w chunks, concat chunks = patch -> (2 <= fuel)%nat -> exists s, feed E fuel 128 (ap_init junk ps) w chunks = Ret (code, s, w).
Proof.
  intros wb W E patch code H fuel junk ps w chunks Hc Hf. pose proof (refused_code _ _ _ _ _ unknown_code H). destruct (refused_header _ _ _ _ _ H) as (b & rest & Hp & Hb).
  exact (seq_refused E patch code b rest Hp H0 Hb fuel junk ps w chunks Hc Hf).
Qed.

Theorem sequential_lzma_refused : forall (wb : WordBits) (D : Type) (L : lzma_lib D) (W : Type) (E : seq_env W) patch code, refused 0 1 (unknown_lzma L) patch code ->
  forall fuel junk ps w chunks, concat chunks = patch -> (2 <= fuel)%nat ->
  exists x, x_feed L E fuel (xap_init junk ps) w chunks = Ret (code, x, w) /\ nothing_allocated (x_reader x).
Proof.
  intros wb D L W E patch code H fuel junk ps w chunks Hc Hf. pose proof (refused_code _ _ _ _ _ (unknown_lzma_code D L) H). destruct (refused_header _ _ _ _ _ H) as (b & rest & Hp & Hb).
  destruct (lzma_refused L E patch code b rest Hp H0 Hb fuel junk ps w chunks Hc Hf) as (x & A & B). exists x. split; [exact A|]. rewrite B. exact I.
Qed.

Theorem in_place_refused : forall (wb : WordBits) (W : Type) (E : ip_env W) patch code, refused 1 5 unknown patch code ->
  forall fuel junk ps w chunks, concat chunks = patch -> (7 <= fuel)%nat -> exists s, ip_apply E fuel junk ps w chunks = Ret (code, s, w).
Proof.
  intros wb W E patch code H fuel junk ps w chunks Hc Hf. pose proof (refused_code _ _ _ _ _ unknown_code H). destruct (refused_header _ _ _ _ _ H) as (b & rest & Hp & Hb).
  exact (ip_refused E patch code b rest Hp H0 Hb fuel junk ps w chunks Hc Hf).
Qed.

Theorem in_place_lzma_refused : forall (wb : WordBits) (D : Type) (L : lzma_lib D) (W : Type) (E : ip_env W) patch code, refused 1 5 (unknown_lzma L) patch code ->
  forall fuel junk ps w chunks, concat chunks = patch -> (7 <= fuel)%nat ->
  exists y, y_apply L E fuel junk ps w chunks = Ret (code, y, w) /\ nothing_allocated (y_reader y).
Proof.
  intros wb D L W E patch code H fuel junk ps w chunks Hc Hf. pose proof (refused_code _ _ _ _ _ (unknown_lzma_code D L) H). destruct (refused_header _ _ _ _ _ H) as (b & rest & Hp & Hb).
  destruct (ip_lzma_refused L E patch code b rest Hp H0 Hb fuel junk ps w chunks Hc Hf) as (x & A & B). exists x. split; [exact A|]. rewrite B. exact I.
Qed.

(** A patch for a to file of 2^27 bytes or more. *)
Theorem large_refused : forall (wb : WordBits) (W : Type) (E : seq_env W) c hs sa from to, array_ok sa from -> bytes_ok to -> zlen from < 2 ^ 30 -> 2 ^ 27 <= zlen to < 2 ^ 30 ->
  (c = CompCrle -> forall chunks, create_patch sa from to = Ret (Some chunks) -> 1 + zlen (concat chunks) < 2 ^ 28) ->
  (c = CompHeatshrink -> forall pieces, bytes_ok (concat pieces) -> compressed CompHeatshrink (concat pieces) (hs pieces)) ->
  exists patch, create_sequential c hs sa from to = Ret (Some patch) /\
    forall fuel junk ps w chunks, concat chunks = patch -> (2 <= fuel)%nat ->
    exists s, feed E fuel 128 (ap_init junk ps) w chunks = Ret (- E_CORRUPT_PATCH_OVERFLOW, s, w).
Proof.
  intros wb W E c hs sa from to Ha Hb Hf Ht Hc Hh. destruct (create_seq c hs sa from to Ha Hb Hf ltac:(lia) Hc Hh) as (recs & patch & A & _ & B & C & _).
  exists patch. split; [exact A|]. apply sequential_refused. destruct B as [[-> _]|(_ & stream & _ & ->)].
  - exfalso. change (recs_size []) with 0 in C. change (2 ^ 27) with 134217728 in Ht. lia.
  - rewrite C. change (header_byte TYPE_SEQUENTIAL c :: enc_size (zlen to) ++ stream) with (header_byte TYPE_SEQUENTIAL c :: flat_map enc_size [] ++ enc_size (zlen to) ++ stream).
    apply size_too_large; [destruct c; reflexivity|cbn; lia|constructor|]. pose proof (zlen_nonneg to). lia.
Qed.

Lemma zeros_ok : forall n, 2 ^ 27 <= n < 2 ^ 30 -> bytes_ok (zrepeat 0 n) /\ 2 ^ 27 <= zlen (zrepeat 0 n) < 2 ^ 30.
Proof.
  intros n Hn. split.
  - apply Forall_forall. intros x Hx. unfold zrepeat in Hx. apply repeat_spec in Hx. subst. unfold byte_ok. lia.
  - rewrite zlen_zrepeat by lia. exact Hn.
Qed.

Lemma ex_large : array_ok [0] [] /\ forall n, 2 ^ 27 <= n < 2 ^ 30 -> bytes_ok (zrepeat 0 n) /\ 2 ^ 27 <= zlen (zrepeat 0 n) < 2 ^ 30.
Proof. split; [split; [reflexivity|constructor; [cbn; lia|constructor]]|exact zeros_ok]. Qed.

(** ** Examples *)

(** A decoder that cannot be started. *)
Definition toy_dead : lzma_lib toy := mklib toy None toy_code (fun _ => true).

Lemma ex_other_type : forall u, refused 0 1 u ip_lzma (- E_BAD_PATCH_TYPE) /\ refused 1 5 u ex_none (- E_BAD_PATCH_TYPE).
Proof. intros u. split; apply other_type; discriminate. Qed.

Lemma lzma_unknown : unknown 1 (- E_BAD_COMPRESSION).
Proof. repeat split; discriminate. Qed.

Lemma lzma_dead : unknown_lzma toy_dead 1 (- E_LZMA_INIT).
Proof. right. repeat split. Qed.

Lemma ex_seq_comp : refused 0 1 unknown ex_lzma (- E_BAD_COMPRESSION) /\ refused 0 1 (unknown_lzma toy_dead) ex_lzma (- E_LZMA_INIT).
Proof.
  assert (F : Forall (fun n => 0 <= n < 2 ^ 27) [7]) by (constructor; [lia|constructor]).
  split.
  - exact (other_compression 0 1 unknown 1 [7] (skipn 2 ex_lzma) _ eq_refl eq_refl F lzma_unknown).
  - exact (other_compression 0 1 (unknown_lzma toy_dead) 1 [7] (skipn 2 ex_lzma) _ eq_refl eq_refl F lzma_dead).
Qed.

Lemma ex_ip_comp : refused 1 5 unknown ip_lzma (- E_BAD_COMPRESSION) /\ refused 1 5 (unknown_lzma toy_dead) ip_lzma (- E_LZMA_INIT).
Proof.
  assert (F : Forall (fun n => 0 <= n < 2 ^ 27) [80; 16; 32; zlen ip_from; zlen ip_to])
    by (repeat (constructor; [vm_compute; split; [discriminate|reflexivity]|]); constructor).
  split.
  - exact (other_compression 1 5 unknown 17 [80; 16; 32; zlen ip_from; zlen ip_to] (toy_stream ip_body) _ eq_refl eq_refl F lzma_unknown).
  - exact (other_compression 1 5 (unknown_lzma toy_dead) 17 [80; 16; 32; zlen ip_from; zlen ip_to] (toy_stream ip_body) _ eq_refl eq_refl F lzma_dead).
Qed.

Lemma ex_ip_size : forall u, refused 1 5 u ([16] ++ enc_size 80 ++ enc_size (2 ^ 27) ++ enc_size 32) (- E_CORRUPT_PATCH_OVERFLOW).
Proof. intros u. apply (size_too_large _ _ _ 16 [80] (2 ^ 27) (enc_size 32)); [reflexivity|cbn; lia|constructor; [lia|constructor]|lia]. Qed.

Lemma ex_refused_run : (exists s, @feed w64 _ file_env 10 128 (ap_init ex_junk 9) (mkfiles ex_from 0 []) [[1]; [7; 1]; skipn 3 ex_lzma] = Ret (- E_BAD_COMPRESSION, s, mkfiles ex_from 0 [])) /\
  exists x, @x_apply w64 toy toy_dead 10 ex_junk 9 ex_from [[1]; [7; 1]; skipn 3 ex_lzma] = Ret (- E_LZMA_INIT, x, mkfiles ex_from 0 []).
Proof. split; eexists; vm_compute; reflexivity. Qed.

(** A negative size in the header. *)
Lemma ex_negative : exists s w, @feed w64 _ file_env 100 128 (ap_init ex_junk 16) (mkfiles ex_from 0 []) [0 :: enc_size (-7) ++ ex_body] = Ret (7, s, w) /\ f_to w = ex_to.
Proof. do 2 eexists. split; [vm_compute; reflexivity|reflexivity]. Qed.
