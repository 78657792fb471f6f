(** Patches compressed with LZMA, for a C library built with it.  liblzma and malloc()
    are parameters ([lzma_lib]); what is assumed of them is in LzmaSpec.v. *)

From Coq Require Import ZArith List Bool.
From Verif Require Import Prelude Heatshrink CReader CSeq Spec SeqSpec CallbackSpec SeqExamples Refuted
  CLzma CSeqLzma LzmaSpec LzmaApply LzmaPlain LzmaTrunc LzmaHostile LzmaExamples LzmaFinds LzmaReads.
Import ListNotations.
Open Scope Z_scope.

(** C55: an LZMA patch handed over in any pieces gives the to file its records
    describe, and everything allocated is freed. *)
Theorem C55_meaning : forall (wb : WordBits), 32 <= word_bits ->
  forall (D : Type) (L : lzma_lib D), enough_memory L ->
  forall recs patch from to, lzma_patch L recs patch -> recs_in_limits recs -> apply_recs from 0 recs = Some to ->
  bytes_ok (enc_body recs) -> zlen patch < 2 ^ word_bits -> zlen (enc_body recs) + 160 < 2 ^ word_bits ->
  forall junk ps chunks, concat chunks = patch ->
  exists n, forall fuel, (n <= fuel)%nat ->
    exists x w, x_apply L fuel junk ps from chunks = Ret (zlen to, x, w) /\ f_to w = to /\ nothing_allocated (x_reader x).
Proof. exact @lzma_meaning. Qed.
Print Assumptions C55_meaning.

(** C55, callback API. *)
Theorem C55_callbacks_meaning : forall (wb : WordBits), 32 <= word_bits ->
  forall (D : Type) (L : lzma_lib D), enough_memory L ->
  forall recs patch from to, lzma_patch L recs patch -> recs_in_limits recs -> apply_recs from 0 recs = Some to ->
  bytes_ok (enc_body recs) -> zlen patch < 2 ^ word_bits -> zlen (enc_body recs) + 160 < 2 ^ word_bits ->
  forall junk, exists n, forall fuel, (n <= fuel)%nat ->
    exists x w pos, x_apply_patch_callbacks L (env_with file_env Z) fuel junk (patch_file patch) (zlen patch) (mkfiles from 0 [], 0) = Ret (zlen to, x, (w, pos)) /\
      f_to w = to /\ nothing_allocated (x_reader x).
Proof. exact @lzma_meaning_callbacks. Qed.
Print Assumptions C55_callbacks_meaning.

(** C55, with any callbacks: result and effects are those of the uncompressed patch
    with the same records. *)
Theorem C55_as_uncompressed : forall (wb : WordBits), 32 <= word_bits ->
  forall (D : Type) (L : lzma_lib D) (W : Type) (E : seq_env W), enough_memory L ->
  forall recs patch plain, lzma_patch L recs patch -> seq_patch CompNone recs plain -> recs_in_limits recs ->
  zlen patch < 2 ^ word_bits -> zlen plain + 128 < 2 ^ word_bits ->
  forall junk junk' ps w chunks, concat chunks = patch ->
  exists n, forall fuel, (n <= fuel)%nat ->
    (letm (v, x, w1) := x_feed L E fuel (xap_init junk ps) w chunks in Ret (v, w1)) =
    (letm (v, s, w1) := feed E fuel 128 (ap_init junk' (zlen plain)) w [plain] in Ret (v, w1)) /\
    forall v x w1, x_feed L E fuel (xap_init junk ps) w chunks = Ret (v, x, w1) -> nothing_allocated (x_reader x).
Proof. exact @lzma_as_uncompressed. Qed.
Print Assumptions C55_as_uncompressed.

Example C55_example :
  enough_memory toy_lib /\ lzma_patch toy_lib ex_recs ex_lzma /\ seq_patch CompNone ex_recs ex_none /\ recs_in_limits ex_recs /\
  apply_recs ex_from 0 ex_recs = Some ex_to /\ bytes_ok (enc_body ex_recs) /\
  exists x w, @x_apply w64 toy toy_lib 100 ex_junk (zlen ex_lzma) ex_from [[1]; [7; 1]; skipn 3 ex_lzma] = Ret (zlen ex_to, x, w) /\ f_to w = ex_to.
Proof. exact (conj toy_memory (conj ex_lzma_patch (conj ex_none_ok (conj ex_limits (conj ex_meaning (conj ex_lzma_body_bytes ex_lzma_run)))))). Qed.

(** C56: no bytes that announce LZMA make the C code execute undefined behaviour or
    leak memory, also if malloc() fails. *)
Theorem C56_no_undefined_behaviour : forall (wb : WordBits), 32 <= word_bits ->
  forall (D : Type) (L : lzma_lib D) (W : Type) (E : seq_env W) (pos : W -> Z), lib_ok L -> honest E pos ->
  forall fuel junk ps w chunks, pos w = 0 -> announced_comp (concat chunks) = 1 -> zlen (concat chunks) < 2 ^ word_bits ->
  x_feed L E fuel (xap_init junk ps) w chunks <> Undef /\
  forall v x w1, x_feed L E fuel (xap_init junk ps) w chunks = Ret (v, x, w1) -> nothing_allocated (x_reader x).
Proof. exact @lzma_no_ub. Qed.
Print Assumptions C56_no_undefined_behaviour.

(** C56 and C57, callback API: it returns, without undefined behaviour or a leak. *)
Theorem C56_callbacks : forall (wb : WordBits), 32 <= word_bits ->
  forall (D : Type) (L : lzma_lib D) (W : Type) (E : seq_env W) (pos : W -> Z), lib_ok L -> bounded_output L -> honest E pos ->
  forall junk w patch, pos w = 0 -> announced_comp patch = 1 -> zlen patch < 2 ^ word_bits ->
  exists n v x w1, nothing_allocated (x_reader x) /\
    forall fuel, (n <= fuel)%nat ->
    x_apply_patch_callbacks L (env_with E Z) fuel junk (patch_file patch) (zlen patch) (w, 0) = Ret (v, x, w1).
Proof. exact @lzma_callbacks_hostile. Qed.
Print Assumptions C56_callbacks.

(** C56, callback API with any patch_read, which can fail at any time. *)
Theorem C56_callbacks_any_read : forall (wb : WordBits), 32 <= word_bits ->
  forall (D : Type) (L : lzma_lib D), lib_ok L ->
  forall (W : Type) (E : seq_env W) (pos : W -> Z), honest E pos ->
  forall patch_read : W -> Z -> Z * list Z * W,
  (forall w n rr buf w1, 0 < n <= 512 -> patch_read w n = (rr, buf, w1) -> pos w1 = pos w /\ (rr = 0 -> zlen buf = n)) ->
  forall fuel junk ps w, pos w = 0 -> 0 < ps < 2 ^ word_bits ->
  (forall buf w1, patch_read w (Z.min ps 512) = (0, buf, w1) -> announced_comp buf = 1) ->
  x_apply_patch_callbacks L E fuel junk patch_read ps w <> Undef /\
  forall v x w1, x_apply_patch_callbacks L E fuel junk patch_read ps w = Ret (v, x, w1) -> nothing_allocated (x_reader x).
Proof. exact @lzma_reads_safe. Qed.
Print Assumptions C56_callbacks_any_read.

Example C56_read_example :
  (forall w n rr buf w1, 0 < n <= 512 -> ex_lzma_read w n = (rr, buf, w1) -> f_pos w1 = f_pos w /\ (rr = 0 -> zlen buf = n)) /\
  exists x w, @x_apply_patch_callbacks w64 toy toy_lib files file_env 200 ex_junk ex_lzma_read 600 (mkfiles ex_from 0 []) = Ret (- E_IO_FAILED, x, w) /\ f_to w = ex_to.
Proof. exact (conj ex_lzma_read_ok ex_lzma_read_run). Qed.

(** Calling finalize() a second time frees the buffers twice. *)
Theorem C56_finalize_twice_refuted : exists x w,
  @x_apply w64 toy toy_lib 100 ex_junk (zlen ex_lzma) ex_from [ex_lzma] = Ret (zlen ex_to, x, w) /\
  @x_finalize w64 toy toy_lib files file_env 100 x w = Undef.
Proof. exact ex_lzma_twice. Qed.
Print Assumptions C56_finalize_twice_refuted.

Example C56_example :
  lib_ok toy_lib /\ (forall m, lib_ok (toy_poor m)) /\ honest ex_device f_pos /\
  (exists x w, @x_apply w64 toy (toy_poor 5) 100 ex_junk (zlen ex_lzma) ex_from [ex_lzma] = Ret (- E_OUT_OF_MEMORY, x, w) /\ f_to w = [11; 20; 32]) /\
  exists x w, @x_apply w64 toy toy_lib 100 ex_junk 9 ex_from [[1; 7; 1; 0; 1; 3; 9; 9; 9]] = Ret (- E_LZMA_DECODE, x, w).
Proof. exact (conj toy_lib_ok (conj toy_poor_ok (conj ex_device_honest (conj ex_lzma_poor ex_lzma_hostile)))). Qed.

(** C57: every sequence of process() calls and finalize() terminates, whatever the
    bytes and the callbacks are. *)
Theorem C57_terminates : forall (wb : WordBits), 32 <= word_bits ->
  forall (D : Type) (L : lzma_lib D) (W : Type) (E : seq_env W), lib_ok L -> bounded_output L ->
  forall junk ps w chunks, announced_comp (concat chunks) = 1 -> zlen (concat chunks) < 2 ^ word_bits ->
  exists n, forall fuel, (n <= fuel)%nat -> x_feed L E fuel (xap_init junk ps) w chunks <> OutOfFuel.
Proof. exact @lzma_terminates. Qed.
Print Assumptions C57_terminates.

(** C57, callback API with any patch_read. *)
Theorem C57_callbacks_terminate : forall (wb : WordBits), 32 <= word_bits ->
  forall (D : Type) (L : lzma_lib D) (W : Type) (E : seq_env W), lib_ok L -> bounded_output L ->
  forall (patch_read : W -> Z -> Z * list Z * W) junk ps w, 0 < ps < 2 ^ word_bits ->
  (forall buf w1, patch_read w (Z.min ps 512) = (0, buf, w1) -> announced_comp buf = 1) ->
  exists n, forall fuel, (n <= fuel)%nat -> x_apply_patch_callbacks L E fuel junk patch_read ps w <> OutOfFuel.
Proof. exact @lzma_reads_terminate. Qed.
Print Assumptions C57_callbacks_terminate.

Example C57_example : lib_ok toy_lib /\ bounded_output toy_lib /\ announced_comp (concat [[1]; [7; 1; 0]]) = 1.
Proof. exact (conj toy_lib_ok (conj toy_bounded eq_refl)). Qed.

(** C58: a library built with LZMA treats all other patches as one built without it. *)
Theorem C58_others_unaffected : forall (wb : WordBits) (D : Type) (L : lzma_lib D) (W : Type) (E : seq_env W),
  forall fuel junk ps w chunks, concat chunks = [] \/ announced_comp (concat chunks) <> 1 ->
  (letm (v, x, w1) := x_feed L E fuel (xap_init junk ps) w chunks in Ret (v, w1)) =
  (letm (v, s, w1) := feed E fuel 128 (ap_init junk ps) w chunks in Ret (v, w1)).
Proof. exact @plain_same. Qed.
Print Assumptions C58_others_unaffected.

Example C58_example : announced_comp (concat [ex_crle]) <> 1 /\ announced_comp (concat [ex_hs]) <> 1.
Proof. split; discriminate. Qed.

(** C59: a part of an LZMA patch can be accepted, the marker that ends the LZMA
    stream is not waited for. *)
Theorem C59_truncated_rejected_refuted : exists cut rest x w,
  lzma_patch toy_lib ex_recs (cut ++ rest) /\ rest <> [] /\
  @x_apply w64 toy toy_lib 100 ex_junk (zlen ex_lzma) ex_from [cut] = Ret (zlen ex_to, x, w).
Proof. exact ex_lzma_cut_refutes. Qed.
Print Assumptions C59_truncated_rejected_refuted.

(** C59: but a part is accepted only if it had the complete effect. *)
Theorem C59_truncated : forall (wb : WordBits), 32 <= word_bits ->
  forall (D : Type) (L : lzma_lib D), enough_memory L ->
  forall recs patch from to, lzma_patch L recs patch -> recs_in_limits recs -> apply_recs from 0 recs = Some to ->
  bytes_ok (enc_body recs) -> zlen patch < 2 ^ word_bits -> zlen (enc_body recs) + 160 < 2 ^ word_bits ->
  forall fuel junk ps chunks rest v x w, concat chunks ++ rest = patch ->
  x_apply L fuel junk ps from chunks = Ret (v, x, w) -> 0 <= v -> v = zlen to /\ f_to w = to.
Proof. exact @lzma_truncated. Qed.
Print Assumptions C59_truncated.

Example C59_example :
  lzma_patch toy_lib ex_recs ex_lzma /\ ex_lzma_cut ++ [0] = ex_lzma /\
  (exists x w, @x_apply w64 toy toy_lib 100 ex_junk (zlen ex_lzma) ex_from [ex_lzma_cut] = Ret (zlen ex_to, x, w) /\ f_to w = ex_to) /\
  exists x w, @x_apply w64 toy toy_lib 100 ex_junk (zlen ex_lzma) ex_from [removelast ex_lzma_cut] = Ret (- E_NOT_ENOUGH_PATCH_DATA, x, w).
Proof. exact (conj ex_lzma_patch (conj ex_lzma_cut_prefix (conj ex_lzma_cut_accepted ex_lzma_cut_shorter))). Qed.
