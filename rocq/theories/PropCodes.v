(** Termination of in-place updates, and what the result codes of the C appliers can
    be relied upon for, with arbitrary patches and callbacks. *)

From Coq Require Import String.
From Coq Require Import ZArith List Bool.
From Verif Require Import Prelude Heatshrink CReader CSeq CInPlace Spec SeqSpec CFile SeqExamples InPlaceSpec InPlaceExamples
  CodesSpec CodesSeq CodesIp CodesThms IpTerm CodesExamples
  CLzma CSeqLzma LzmaExamples LzmaReads Refuted CodesLzma
  CIpLzma IpLzmaSpec IpLzmaExamples CodesIpLzma CodesLzmaDoc CodesIpLzmaDoc.
Import ListNotations.
Open Scope Z_scope.

(** C47: init, any process() calls and finalize() terminate, whatever the patch
    bytes and the callbacks are. *)
Theorem C47_terminates : forall (wb : WordBits), 32 <= word_bits ->
  forall (W : Type) (E : ip_env W) junk ps chunks w, Forall bytes_ok chunks ->
  exists n, forall fuel, (n <= fuel)%nat -> ip_apply E fuel junk ps w chunks <> OutOfFuel.
Proof. exact @ip_terminates. Qed.
Print Assumptions C47_terminates.

(** C47, callback API. *)
Theorem C47_callbacks_terminate : forall (wb : WordBits), 32 <= word_bits ->
  forall (W : Type) (E : ip_env W) junk patch_read ps w,
  (forall w n rr buf w1, patch_read w n = (rr, buf, w1) -> bytes_ok buf) ->
  exists n, forall fuel, (n <= fuel)%nat ->
    apply_patch_in_place_callbacks E fuel junk patch_read ps w <> OutOfFuel.
Proof. exact @ip_callbacks_terminate. Qed.
Print Assumptions C47_callbacks_terminate.

Example C47_example :
  Forall bytes_ok [[255; 128]; []; [3]] /\
  forall w n rr buf w1, ex_patch_read w n = (rr, buf, w1) -> bytes_ok buf.
Proof. exact (conj ex_chunks_bytes ex_patch_read_bytes). Qed.

(** C48: the sequential applier reports success only if no callback ever failed. *)
Theorem C48_sequential : forall (wb : WordBits) (W : Type) (E : seq_env W) fuel junk ps w chunks v s1 w1 log,
  feed (noting E) fuel 128 (ap_init junk ps) (w, []) chunks = Ret (v, s1, (w1, log)) -> 0 <= v -> all_zero log.
Proof. exact @seq_masked. Qed.
Print Assumptions C48_sequential.

Theorem C48_sequential_callbacks : forall (wb : WordBits) (W : Type) (E : seq_env W) fuel junk patch_read ps w v s1 w1 log,
  apply_patch_callbacks (noting E) fuel junk (noted patch_read) ps (w, []) = Ret (v, s1, (w1, log)) -> 0 <= v -> all_zero log.
Proof. exact @seq_callbacks_masked. Qed.
Print Assumptions C48_sequential_callbacks.

(** A run that succeeds, and one that fails because a callback does. *)
Example C48_example :
  (exists s w log, @feed (32 : WordBits) _ (noting file_env) 200 128 (ap_init ex_junk (zlen ex_none)) (mkfiles ex_from 0 [], []) [ex_none] = Ret (7, s, (w, log)) /\
    f_to w = ex_to /\ zlen log = 7) /\
  (exists s w log, @feed (32 : WordBits) _ (noting full_env) 200 128 (ap_init ex_junk (zlen ex_none)) (mkfiles ex_from 0 [], []) [ex_none] = Ret (-10, s, (w, log)) /\
    ~ all_zero log).
Proof. exact (conj fine_run full_run). Qed.

(** C48, library with LZMA: whatever the decoder does. *)
Theorem C48_lzma : forall (wb : WordBits) (D : Type) (L : lzma_lib D) (W : Type) (E : seq_env W) fuel junk ps w chunks v x1 w1 log,
  x_feed L (noting E) fuel (xap_init junk ps) (w, []) chunks = Ret (v, x1, (w1, log)) -> 0 <= v -> all_zero log.
Proof. exact @lzma_masked. Qed.
Print Assumptions C48_lzma.

Theorem C48_lzma_callbacks : forall (wb : WordBits) (D : Type) (L : lzma_lib D) (W : Type) (E : seq_env W) fuel junk patch_read ps w v x1 w1 log,
  x_apply_patch_callbacks L (noting E) fuel junk (noted patch_read) ps (w, []) = Ret (v, x1, (w1, log)) -> 0 <= v -> all_zero log.
Proof. exact @lzma_callbacks_masked. Qed.
Print Assumptions C48_lzma_callbacks.

Example C48_lzma_example :
  (exists x w log,
    @x_feed w64 toy toy_lib _ (noting file_env) 200 (xap_init ex_junk (zlen ex_lzma)) (mkfiles ex_from 0 [], []) [ex_lzma] = Ret (7, x, (w, log)) /\
    f_to w = ex_to /\ 0 < zlen log) /\
  (exists x w log,
    @x_apply_patch_callbacks w64 toy toy_lib _ (noting file_env) 200 ex_junk (noted ex_lzma_read) 600 (mkfiles ex_from 0 [], []) = Ret (-10, x, (w, log)) /\
    f_to w = ex_to /\ ~ all_zero log).
Proof. exact (conj lzma_fine_run lzma_read_fails). Qed.

(** C48, in place: provided that the memory callbacks return zero or a negative code
    other than -11. *)
Theorem C48_in_place : forall (wb : WordBits) (W : Type) (E : ip_env W), mem_codes (fun r => r <= 0 /\ r <> -11) E ->
  forall fuel junk ps w chunks v s1 w1 log,
  ip_apply (ip_noting E) fuel junk ps (w, []) chunks = Ret (v, s1, (w1, log)) -> 0 <= v -> all_zero log.
Proof. exact @ip_masked. Qed.
Print Assumptions C48_in_place.

Theorem C48_in_place_callbacks : forall (wb : WordBits) (W : Type) (E : ip_env W), mem_codes (fun r => r <= 0 /\ r <> -11) E ->
  forall fuel junk patch_read ps w v s1 w1 log,
  apply_patch_in_place_callbacks (ip_noting E) fuel junk (noted patch_read) ps (w, []) = Ret (v, s1, (w1, log)) -> 0 <= v -> all_zero log.
Proof. exact @ip_callbacks_masked. Qed.
Print Assumptions C48_in_place_callbacks.

Example C48_in_place_example :
  mem_codes (fun r => r <= 0 /\ r <> -11) (worn_flash 2 (-1000)) /\
  in_place_patch CompHeatshrink 4 1 1 0 3 worn_segs worn_patch /\
  exists s w log,
    @ip_apply (32 : WordBits) _ (ip_noting flash_env) 200 junk_ip (zlen worn_patch) (worn_dev, []) [worn_patch] = Ret (3, s, (w, log)) /\
    d_mem w = [Some 7; Some 7; Some 7; Some 9] /\ zlen log = 17.
Proof. exact (conj worn_codes_ok (conj worn_patch_ok worn_run)). Qed.

(** C48, in place, library with LZMA: whatever the decoder does. *)
Theorem C48_in_place_lzma : forall (wb : WordBits) (D : Type) (L : lzma_lib D) (W : Type) (E : ip_env W), mem_codes (fun r => r <= 0 /\ r <> -11) E ->
  forall fuel junk ps w chunks v y1 w1 log,
  y_apply L (ip_noting E) fuel junk ps (w, []) chunks = Ret (v, y1, (w1, log)) -> 0 <= v -> all_zero log.
Proof. exact @ip_lzma_masked. Qed.
Print Assumptions C48_in_place_lzma.

Theorem C48_in_place_lzma_callbacks : forall (wb : WordBits) (D : Type) (L : lzma_lib D) (W : Type) (E : ip_env W), mem_codes (fun r => r <= 0 /\ r <> -11) E ->
  forall fuel junk patch_read ps w v y1 w1 log,
  y_apply_patch_in_place_callbacks L (ip_noting E) fuel junk (noted patch_read) ps (w, []) = Ret (v, y1, (w1, log)) -> 0 <= v -> all_zero log.
Proof. exact @ip_lzma_callbacks_masked. Qed.
Print Assumptions C48_in_place_lzma_callbacks.

Example C48_in_place_lzma_example :
  (exists y d log,
    @y_apply w64 toy toy_lib _ (ip_noting flash_env) 400 junk_ip 0 (new_device ip_mem, []) [ztake 9 ip_lzma; zdrop 9 ip_lzma] = Ret (zlen ip_to, y, (d, log)) /\
    holds (d_mem d) ip_to /\ 0 < zlen log) /\
  (exists y d log,
    @y_apply w64 toy toy_lib _ (ip_noting (worn_flash 0 (-1000))) 400 junk_ip 0 (new_device ip_mem, []) [ztake 9 ip_lzma; zdrop 9 ip_lzma] = Ret (-1000, y, (d, log)) /\
    ~ all_zero log) /\
  mem_codes (fun r => r <= 0 /\ r <> -11) (worn_flash 0 (-1000)).
Proof. exact (conj ip_lzma_fine_run (conj ip_lzma_worn_run ip_lzma_worn_codes)). Qed.

(** Without the exclusion of -11, C48 is false in place: a broken off patch is
    reported as such if all callbacks work; if erasing fails with -11, it is reported
    as a success, the memory not being updated. *)
Theorem C48_in_place_refuted :
  mem_codes (fun r => r <= 0) (worn_flash 1 (-11)) /\
  (exists s w, @ip_apply (32 : WordBits) _ flash_env 200 junk_ip (zlen run_patch) worn_dev [run_patch] = Ret (-19, s, w)) /\
  (exists s w log,
    @ip_apply (32 : WordBits) _ (ip_noting (worn_flash 1 (-11))) 200 junk_ip (zlen run_patch) (worn_dev, []) [run_patch] = Ret (2, s, (w, log)) /\
    d_mem w = [Some 7; Some 9; Some 9; Some 9] /\ ~ all_zero log).
Proof. exact (conj worn_codes_nonpos (conj run_normal run_masked)). Qed.
Print Assumptions C48_in_place_refuted.

(** C49: every result of a call to the sequential applier is a size or one of the
    errors of the header file, and so has a description, whatever the callbacks
    return. *)
Theorem C49_sequential : forall (wb : WordBits), 32 <= word_bits ->
  forall (W : Type) (E : seq_env W) fuel junk ps w calls rs s1 w1,
  run_calls E fuel (ap_init junk ps) w calls = Ret (rs, s1, w1) ->
  Forall documented rs /\ Forall (fun r => r < 0 -> exists d, error_as_string r = Ret d /\ d <> "Unknown error."%string) rs.
Proof. exact @seq_results_described. Qed.
Print Assumptions C49_sequential.

Theorem C49_sequential_callbacks : forall (wb : WordBits), 32 <= word_bits ->
  forall (W : Type) (E : seq_env W) fuel junk patch_read ps w v s1 w1,
  apply_patch_callbacks E fuel junk patch_read ps w = Ret (v, s1, w1) -> documented v.
Proof. exact @seq_callbacks_results. Qed.
Print Assumptions C49_sequential_callbacks.

Example C49_example : exists s w,
  @run_calls (32 : WordBits) _ file_env 200 (ap_init ex_junk (zlen ex_none)) (mkfiles ex_from 0 [])
    [CallProcess [0; 7]; CallProcess [255; 255; 255; 255; 255]; CallFinalize] = Ret ([0; -25; -24], s, w).
Proof. exact fine_calls. Qed.

(** C49, in place: if the memory callbacks return such codes (and not -11). *)
Theorem C49_in_place : forall (wb : WordBits) (W : Type) (E : ip_env W), 32 <= word_bits ->
  mem_codes (fun r => -27 <= r <= 0 /\ r <> -11) E ->
  forall fuel junk ps w chunks v s1 w1, ip_apply E fuel junk ps w chunks = Ret (v, s1, w1) -> documented v.
Proof. exact @ip_results. Qed.
Print Assumptions C49_in_place.

Theorem C49_in_place_callbacks : forall (wb : WordBits) (W : Type) (E : ip_env W), 32 <= word_bits ->
  mem_codes (fun r => -27 <= r <= 0 /\ r <> -11) E ->
  forall fuel junk patch_read ps w v s1 w1,
  apply_patch_in_place_callbacks E fuel junk patch_read ps w = Ret (v, s1, w1) -> documented v.
Proof. exact @ip_callbacks_results. Qed.
Print Assumptions C49_in_place_callbacks.

Example C49_in_place_example : mem_codes (fun r => -27 <= r <= 0 /\ r <> -11) (worn_flash 2 (-15)).
Proof. exact worn_codes_documented. Qed.

(** C49, library with LZMA: whatever the decoder does. *)
Theorem C49_lzma : forall (wb : WordBits), 32 <= word_bits ->
  forall (D : Type) (L : lzma_lib D) (W : Type) (E : seq_env W) fuel junk ps w chunks v x1 w1,
  x_feed L E fuel (xap_init junk ps) w chunks = Ret (v, x1, w1) -> documented v.
Proof. exact @lzma_results. Qed.
Print Assumptions C49_lzma.

Theorem C49_lzma_callbacks : forall (wb : WordBits), 32 <= word_bits ->
  forall (D : Type) (L : lzma_lib D) (W : Type) (E : seq_env W) fuel junk patch_read ps w v x1 w1,
  x_apply_patch_callbacks L E fuel junk patch_read ps w = Ret (v, x1, w1) -> documented v.
Proof. exact @lzma_callbacks_results. Qed.
Print Assumptions C49_lzma_callbacks.

Example C49_lzma_example :
  (exists x w, @x_feed w64 toy toy_lib _ file_env 200 (xap_init ex_junk 4) (mkfiles ex_from 0 []) [[1; 7; 9; 9]] = Ret (-7, x, w)) /\
  (exists x w, @x_feed w64 toy (toy_poor 0) _ file_env 200 (xap_init ex_junk (zlen ex_lzma)) (mkfiles ex_from 0 []) [ex_lzma] = Ret (-8, x, w)).
Proof. exact lzma_bad_runs. Qed.

(** C49, in place, library with LZMA. *)
Theorem C49_in_place_lzma : forall (wb : WordBits) (D : Type) (L : lzma_lib D) (W : Type) (E : ip_env W), 32 <= word_bits ->
  mem_codes (fun r => -27 <= r <= 0 /\ r <> -11) E ->
  forall fuel junk ps w chunks v y1 w1, y_apply L E fuel junk ps w chunks = Ret (v, y1, w1) -> documented v.
Proof. exact @ip_lzma_results. Qed.
Print Assumptions C49_in_place_lzma.

Theorem C49_in_place_lzma_callbacks : forall (wb : WordBits) (D : Type) (L : lzma_lib D) (W : Type) (E : ip_env W), 32 <= word_bits ->
  mem_codes (fun r => -27 <= r <= 0 /\ r <> -11) E ->
  forall fuel junk patch_read ps w v y1 w1,
  y_apply_patch_in_place_callbacks L E fuel junk patch_read ps w = Ret (v, y1, w1) -> documented v.
Proof. exact @ip_lzma_callbacks_results. Qed.
Print Assumptions C49_in_place_lzma_callbacks.

Example C49_in_place_lzma_example :
  mem_codes (fun r => -27 <= r <= 0 /\ r <> -11) (worn_flash 0 (-15)) /\
  exists y d, @y_apply w64 toy toy_lib _ (worn_flash 0 (-15)) 400 junk_ip 0 (new_device ip_mem) [ztake 9 ip_lzma; zdrop 9 ip_lzma] = Ret (-15, y, d).
Proof. exact ip_lzma_worn_doc. Qed.

(** Otherwise C49 is false in place: the code of the callback comes out. *)
Theorem C49_in_place_refuted :
  mem_codes (fun r => r <= 0) (worn_flash 2 (-1000)) /\
  in_place_patch CompHeatshrink 4 1 1 0 3 worn_segs worn_patch /\
  exists s w, @ip_apply (32 : WordBits) _ (worn_flash 2 (-1000)) 200 junk_ip (zlen worn_patch) worn_dev [worn_patch] = Ret (-1000, s, w).
Proof. exact (conj worn_codes_raw (conj worn_patch_ok worn_leak)). Qed.
Print Assumptions C49_in_place_refuted.
