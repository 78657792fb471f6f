(** Patches that are refused because of their header.  Which ones is in RefuseSpec.v. *)

From Coq Require Import ZArith List Bool.
From Verif Require Import Prelude Heatshrink CReader CSeq CInPlace CLzma CSeqLzma CIpLzma Spec LzmaSpec Bsdiff BsdiffSpec PyCreate RefuseSpec RefuseThms
  SeqExamples Refuted LzmaExamples InPlaceExamples IpLzmaExamples.
Import ListNotations.
Open Scope Z_scope.

(** C66: a patch of the wrong type, with a size that is too large, or with a
    compression the library does not know is refused with the error code for that,
    whatever the callbacks are; none of them has been called. *)
Theorem C66_sequential : forall (wb : WordBits) (W : Type) (E : seq_env W) patch code, refused 0 1 unknown patch code ->
  forall fuel junk ps w chunks, concat chunks = patch -> (2 <= fuel)%nat -> exists s, feed E fuel 128 (ap_init junk ps) w chunks = Ret (code, s, w).
Proof. exact @sequential_refused. Qed.
Print Assumptions C66_sequential.

(** C66, in-place patches. *)
Theorem C66_in_place : forall (wb : WordBits) (W : Type) (E : ip_env W) patch code, refused 1 5 unknown patch code ->
  forall fuel junk ps w chunks, concat chunks = patch -> (7 <= fuel)%nat -> exists s, ip_apply E fuel junk ps w chunks = Ret (code, s, w).
Proof. exact @in_place_refused. Qed.
Print Assumptions C66_in_place.

(** C66, a library built with LZMA. *)
Theorem C66_sequential_lzma : forall (wb : WordBits) (D : Type) (L : lzma_lib D) (W : Type) (E : seq_env W) patch code, refused 0 1 (unknown_lzma L) patch code ->
  forall fuel junk ps w chunks, concat chunks = patch -> (2 <= fuel)%nat ->
  exists x, x_feed L E fuel (xap_init junk ps) w chunks = Ret (code, x, w) /\ nothing_allocated (x_reader x).
Proof. exact @sequential_lzma_refused. Qed.
Print Assumptions C66_sequential_lzma.

Theorem C66_in_place_lzma : forall (wb : WordBits) (D : Type) (L : lzma_lib D) (W : Type) (E : ip_env W) patch code, refused 1 5 (unknown_lzma L) patch code ->
  forall fuel junk ps w chunks, concat chunks = patch -> (7 <= fuel)%nat ->
  exists y, y_apply L E fuel junk ps w chunks = Ret (code, y, w) /\ nothing_allocated (y_reader y).
Proof. exact @in_place_lzma_refused. Qed.
Print Assumptions C66_in_place_lzma.

Example C66_example :
  (forall u, refused 0 1 u ip_lzma (- E_BAD_PATCH_TYPE) /\ refused 1 5 u ex_none (- E_BAD_PATCH_TYPE)) /\
  (refused 0 1 unknown ex_lzma (- E_BAD_COMPRESSION) /\ refused 0 1 (unknown_lzma toy_dead) ex_lzma (- E_LZMA_INIT)) /\
  (refused 1 5 unknown ip_lzma (- E_BAD_COMPRESSION) /\ refused 1 5 (unknown_lzma toy_dead) ip_lzma (- E_LZMA_INIT)) /\
  (forall u, refused 1 5 u ([16] ++ enc_size 80 ++ enc_size (2 ^ 27) ++ enc_size 32) (- E_CORRUPT_PATCH_OVERFLOW)).
Proof. exact (conj ex_other_type (conj ex_seq_comp (conj ex_ip_comp ex_ip_size))). Qed.

Example C66_run :
  (exists s, @feed w64 _ file_env 10 128 (ap_init ex_junk 9) (mkfiles ex_from 0 []) [[1]; [7; 1]; skipn 3 ex_lzma] = Ret (- E_BAD_COMPRESSION, s, mkfiles ex_from 0 [])) /\
  exists x, @x_apply w64 toy toy_dead 10 ex_junk 9 ex_from [[1]; [7; 1]; skipn 3 ex_lzma] = Ret (- E_LZMA_INIT, x, mkfiles ex_from 0 []).
Proof. exact ex_refused_run. Qed.

(** C01 is false for to files of 2^27 bytes or more: the patch is created, but the C
    code refuses it. *)
Theorem C01_large_refuted : forall (wb : WordBits) (W : Type) (E : seq_env W) c hs sa from to, array_ok sa from -> bytes_ok to -> zlen from < 2 ^ 30 -> 2 ^ 27 <= zlen to < 2 ^ 30 ->
  (c = CompCrle -> forall chunks, create_patch sa from to = Ret (Some chunks) -> 1 + zlen (concat chunks) < 2 ^ 28) ->
  (c = CompHeatshrink -> forall pieces, bytes_ok (concat pieces) -> compressed CompHeatshrink (concat pieces) (hs pieces)) ->
  exists patch, create_sequential c hs sa from to = Ret (Some patch) /\
    forall fuel junk ps w chunks, concat chunks = patch -> (2 <= fuel)%nat ->
    exists s, feed E fuel 128 (ap_init junk ps) w chunks = Ret (- E_CORRUPT_PATCH_OVERFLOW, s, w).
Proof. exact @large_refused. Qed.
Print Assumptions C01_large_refuted.

Example C01_large_example : array_ok [0] [] /\ forall n, 2 ^ 27 <= n < 2 ^ 30 -> bytes_ok (zrepeat 0 n) /\ 2 ^ 27 <= zlen (zrepeat 0 n) < 2 ^ 30.
Proof. exact ex_large. Qed.

(** A negative size in the header is not refused: its sign is ignored. *)
Theorem C66_negative_refuted : exists s w,
  @feed w64 _ file_env 100 128 (ap_init ex_junk 16) (mkfiles ex_from 0 []) [0 :: enc_size (-7) ++ ex_body] = Ret (7, s, w) /\ f_to w = ex_to.
Proof. exact ex_negative. Qed.
Print Assumptions C66_negative_refuted.
