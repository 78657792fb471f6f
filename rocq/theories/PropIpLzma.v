(** In-place patches compressed with LZMA, for a C library built with it.  liblzma and
    malloc() are parameters ([lzma_lib]); what is assumed of them is in LzmaSpec.v, what
    an in-place LZMA patch is in IpLzmaSpec.v.  The memory is that of PropInPlace.v. *)

From Coq Require Import ZArith List Bool.
From Verif Require Import Prelude Heatshrink CReader CSeq Spec SeqSpec CallbackSpec IpCallbackSpec CInPlace InPlaceSpec CodesSpec IpBoundSpec Refuted
  CLzma CSeqLzma LzmaSpec CIpLzma IpLzmaSpec IpLzmaApply IpLzmaAny IpLzmaPlain InPlaceExamples IpBoundExamples LzmaExamples IpLzmaExamples IpLzmaTerm IpLzmaHostile.
Import ListNotations.
Open Scope Z_scope.

(** C62: an in-place LZMA patch handed over in any pieces leaves the to data its segments
    describe at the start of the memory, and everything allocated is freed. *)
Theorem C62_meaning : forall (wb : WordBits), 32 <= word_bits ->
  forall (D : Type) (L : lzma_lib D), enough_memory L ->
  forall memory segment shift from to mem segs patch,
  sizes_ok memory segment shift (zlen from) (zlen to) ->
  lzma_in_place_patch L memory segment shift (zlen from) (zlen to) segs patch ->
  apply_segments memory segment shift from 0 segs = Some to -> segments_in_limits segment shift 0 segs ->
  bytes_ok (enc_segments segs) -> zlen patch < 2 ^ word_bits -> zlen (enc_segments segs) + 200 < 2 ^ word_bits ->
  memory <= zlen mem -> holds mem from ->
  forall pieces junk ps, concat pieces = patch ->
  exists n, forall fuel, (n <= fuel)%nat ->
  exists y d, y_apply L flash_env fuel junk ps (new_device mem) pieces = Ret (zlen to, y, d) /\
    holds (d_mem d) to /\ d_step d = 0 /\ nothing_allocated (y_reader y).
Proof. exact @lzma_ip_meaning. Qed.
Print Assumptions C62_meaning.

(** C62, callback API. *)
Theorem C62_callbacks_meaning : forall (wb : WordBits), 32 <= word_bits ->
  forall (D : Type) (L : lzma_lib D), enough_memory L ->
  forall memory segment shift from to mem segs patch,
  sizes_ok memory segment shift (zlen from) (zlen to) ->
  lzma_in_place_patch L memory segment shift (zlen from) (zlen to) segs patch ->
  apply_segments memory segment shift from 0 segs = Some to -> segments_in_limits segment shift 0 segs ->
  bytes_ok (enc_segments segs) -> zlen patch < 2 ^ word_bits -> zlen (enc_segments segs) + 200 < 2 ^ word_bits ->
  memory <= zlen mem -> holds mem from ->
  forall junk, exists n, forall fuel, (n <= fuel)%nat ->
  exists y d pos, y_apply_patch_in_place_callbacks L (ip_env_with flash_env Z) fuel junk (patch_file patch) (zlen patch) (new_device mem, 0) = Ret (zlen to, y, (d, pos)) /\
    holds (d_mem d) to /\ d_step d = 0 /\ nothing_allocated (y_reader y).
Proof. exact @lzma_ip_meaning_callbacks. Qed.
Print Assumptions C62_callbacks_meaning.

Example C62_example : enough_memory toy_lib /\ (exists segs,
  sizes_ok 80 16 32 (zlen ip_from) (zlen ip_to) /\ lzma_in_place_patch toy_lib 80 16 32 (zlen ip_from) (zlen ip_to) segs ip_lzma /\
  apply_segments 80 16 32 ip_from 0 segs = Some ip_to /\ segments_in_limits 16 32 0 segs /\ enc_segments segs = ip_body /\
  bytes_ok (enc_segments segs) /\ zlen ip_lzma = 130 /\ zlen (enc_segments segs) = 61) /\
  (holds ip_mem ip_from /\ 80 <= zlen ip_mem) /\
  exists y d, @y_apply w64 toy toy_lib dev flash_env 400 junk_ip 0 (new_device ip_mem) [ztake 9 ip_lzma; zdrop 9 ip_lzma] = Ret (zlen ip_to, y, d) /\
    holds (d_mem d) ip_to /\ In (ERead 37 13) (d_log d).
Proof. exact (conj toy_memory (conj ex_ip_lzma (conj ex_ip_holds ex_ip_lzma_run))). Qed.

(** C63: after any number of interrupted attempts, an attempt that is not interrupted
    succeeds, and the memory is that of any uninterrupted run. *)
Theorem C63_resume : forall (wb : WordBits), 32 <= word_bits ->
  forall (D : Type) (L : lzma_lib D), enough_memory L ->
  forall memory segment shift from to mem segs patch,
  sizes_ok memory segment shift (zlen from) (zlen to) ->
  lzma_in_place_patch L memory segment shift (zlen from) (zlen to) segs patch ->
  apply_segments memory segment shift from 0 segs = Some to -> segments_in_limits segment shift 0 segs ->
  bytes_ok (enc_segments segs) -> zlen patch < 2 ^ word_bits -> zlen (enc_segments segs) + 200 < 2 ^ word_bits ->
  memory <= zlen mem -> holds mem from ->
  forall d pieces junk ps torn torn_step, lzma_interrupted L patch (new_device mem) d -> concat pieces = patch ->
  exists n, forall fuel, (n <= fuel)%nat ->
  exists y d1, y_apply L flash_env fuel junk ps (power_up d None torn torn_step) pieces = Ret (zlen to, y, d1) /\
    holds (d_mem d1) to /\ d_step d1 = 0 /\ nothing_allocated (y_reader y) /\
    forall fuel2 junk2 ps2 pieces2 r2 y2 d2, concat pieces2 = patch ->
      y_apply L flash_env fuel2 junk2 ps2 (new_device mem) pieces2 = Ret (r2, y2, d2) ->
      d_mem d1 = d_mem d2.
Proof. exact @lzma_ip_resumed. Qed.
Print Assumptions C63_resume.

(** C63: no attempt, interrupted or not, writes a cell that is not erased, accesses
    anything outside the memory or keeps anything allocated. *)
Theorem C63_safe : forall (wb : WordBits), 32 <= word_bits ->
  forall (D : Type) (L : lzma_lib D), enough_memory L ->
  forall memory segment shift from to mem segs patch,
  sizes_ok memory segment shift (zlen from) (zlen to) ->
  lzma_in_place_patch L memory segment shift (zlen from) (zlen to) segs patch ->
  apply_segments memory segment shift from 0 segs = Some to -> segments_in_limits segment shift 0 segs ->
  bytes_ok (enc_segments segs) -> zlen patch < 2 ^ word_bits -> zlen (enc_segments segs) + 200 < 2 ^ word_bits ->
  memory <= zlen mem -> holds mem from ->
  forall d pieces junk ps power torn torn_step, lzma_interrupted L patch (new_device mem) d -> concat pieces = patch ->
  exists n, forall fuel, (n <= fuel)%nat ->
  exists r y d1, y_apply L flash_env fuel junk ps (power_up d power torn torn_step) pieces = Ret (r, y, d1) /\
    d_bad d1 = false /\ Forall (event_in_memory memory) (d_log d1) /\
    (forall k, memory <= k -> znth (d_mem d1) k = znth mem k) /\ nothing_allocated (y_reader y).
Proof. exact @lzma_ip_safe. Qed.
Print Assumptions C63_safe.

(** C63: the steps are recorded in order and each before the operations of the next. *)
Theorem C63_steps : forall (wb : WordBits), 32 <= word_bits ->
  forall (D : Type) (L : lzma_lib D), enough_memory L ->
  forall memory segment shift from to mem segs patch,
  sizes_ok memory segment shift (zlen from) (zlen to) ->
  lzma_in_place_patch L memory segment shift (zlen from) (zlen to) segs patch ->
  apply_segments memory segment shift from 0 segs = Some to -> segments_in_limits segment shift 0 segs ->
  bytes_ok (enc_segments segs) -> zlen patch < 2 ^ word_bits -> zlen (enc_segments segs) + 200 < 2 ^ word_bits ->
  memory <= zlen mem -> holds mem from ->
  forall d pieces junk ps torn torn_step, to <> [] -> lzma_interrupted L patch (new_device mem) d -> concat pieces = patch ->
  exists n, forall fuel, (n <= fuel)%nat ->
  exists y d1, y_apply L flash_env fuel junk ps (power_up d None torn torn_step) pieces = Ret (zlen to, y, d1) /\
    let last := total_steps memory segment shift (zlen from) (zlen to) in
    exists before ops, d_log d1 = before ++ ops ++ [EStep 0] /\
      steps_log memory segment shift (zlen from) (zlen to) (d_step d) (last - 1) before /\
      Forall (event_of_step memory segment shift (zlen from) (zlen to) last) ops.
Proof. exact @lzma_ip_steps. Qed.
Print Assumptions C63_steps.

Example C63_example : exists d, @lzma_interrupted w64 toy toy_lib ip_lzma (new_device ip_mem) d /\ d_step d = 3 /\ znth (d_mem d) 0 = Some (Some 9).
Proof. exact ex_ip_lzma_interrupted. Qed.

(** C64: whatever the uncompressed body is, the effects are those of the uncompressed
    patch with the same body.  So is the result, unless the latter is that the patch is
    corrupt.  [body] is what the decoder delivers for [stream]. *)
Theorem C64_as_uncompressed : forall (wb : WordBits), 32 <= word_bits ->
  forall (D : Type) (L : lzma_lib D), enough_memory L ->
  forall (W : Type) (E : ip_env W), mem_codes (fun r => r <= 0 /\ r <> -11) E -> lz_start L <> None ->
  forall memory segment shift from_size to_size body stream,
  0 <= memory < size_limit -> 0 <= segment < size_limit -> 0 <= shift < size_limit -> 0 <= from_size < size_limit -> 0 <= to_size < size_limit ->
  (0 < to_size -> lzma_stream L body stream) ->
  let patch := lzma_in_place memory segment shift from_size to_size stream in
  let plain := plain_in_place memory segment shift from_size to_size body in
  zlen patch < 2 ^ word_bits -> zlen body + 200 < 2 ^ word_bits ->
  forall junk ps w chunks, concat chunks = patch ->
  exists n, forall fuel, (n <= fuel)%nat ->
    match ip_apply E fuel junk (zlen plain) w [plain], y_apply L E fuel junk ps w chunks with
    | Ret (v, _, w1), Ret (v', y, w1') => (v' = v \/ v = - E_CORRUPT_PATCH) /\ w1' = w1 /\ nothing_allocated (y_reader y)
    | Undef, Undef => True
    | OutOfFuel, OutOfFuel => True
    | _, _ => False
    end.
Proof. exact @lzma_ip_as_plain. Qed.
Print Assumptions C64_as_uncompressed.

(** A body with a byte too many is corrupt, but accepted if it is compressed with LZMA and
    the byte is in a later piece. *)
Theorem C64_same_result_refuted : exists body stream chunks, lzma_stream toy_lib body stream /\ bytes_ok body /\
  concat chunks = lzma_in_place 80 16 32 (zlen ip_from) (zlen ip_to) stream /\
  exists s y d, @ip_apply w64 _ flash_env 400 junk_ip (zlen (plain_in_place 80 16 32 (zlen ip_from) (zlen ip_to) body)) (new_device ip_mem)
      [plain_in_place 80 16 32 (zlen ip_from) (zlen ip_to) body] = Ret (- E_CORRUPT_PATCH, s, d) /\
    @y_apply w64 toy toy_lib _ flash_env 400 junk_ip 0 (new_device ip_mem) chunks = Ret (zlen ip_to, y, d).
Proof. exact ip_lzma_result_refuted. Qed.
Print Assumptions C64_same_result_refuted.

(** C64: whatever the uncompressed body is, it returns, without undefined behaviour or a
    leak, unless the segment size is zero or the body and the adjustments in it come to
    2^30 or more (as C50). *)
Theorem C64_returns : forall (wb : WordBits), 32 <= word_bits ->
  forall (D : Type) (L : lzma_lib D), enough_memory L -> lz_start L <> None ->
  forall (W : Type) (E : ip_env W), mem_codes (fun r => r <= 0 /\ r <> -11) E ->
  forall memory segment shift from_size to_size body stream,
  0 <= memory < size_limit -> 0 <= segment < size_limit -> 0 <= shift < size_limit -> 0 <= from_size < size_limit -> 0 <= to_size < size_limit ->
  (0 < to_size -> lzma_stream L body stream) -> bytes_ok body ->
  zlen (lzma_in_place memory segment shift from_size to_size stream) < 2 ^ word_bits -> zlen body + 200 < 2 ^ word_bits ->
  reads_all E -> (0 < to_size -> 0 < segment) ->
  zlen body + moved (body_fields (mkann memory segment shift from_size to_size body) body) < 2 ^ 30 ->
  forall junk ps w chunks, concat chunks = lzma_in_place memory segment shift from_size to_size stream ->
  exists n v y w1, nothing_allocated (y_reader y) /\
    forall fuel, (n <= fuel)%nat -> y_apply L E fuel junk ps w chunks = Ret (v, y, w1).
Proof. exact @lzma_ip_any_returns. Qed.
Print Assumptions C64_returns.

(** C64, callback API. *)
Theorem C64_callbacks_return : forall (wb : WordBits), 32 <= word_bits ->
  forall (D : Type) (L : lzma_lib D), enough_memory L -> lz_start L <> None ->
  forall (W : Type) (E : ip_env W), mem_codes (fun r => r <= 0 /\ r <> -11) E ->
  forall memory segment shift from_size to_size body stream,
  0 <= memory < size_limit -> 0 <= segment < size_limit -> 0 <= shift < size_limit -> 0 <= from_size < size_limit -> 0 <= to_size < size_limit ->
  (0 < to_size -> lzma_stream L body stream) -> bytes_ok body ->
  zlen (lzma_in_place memory segment shift from_size to_size stream) < 2 ^ word_bits -> zlen body + 200 < 2 ^ word_bits ->
  reads_all E -> (0 < to_size -> 0 < segment) ->
  zlen body + moved (body_fields (mkann memory segment shift from_size to_size body) body) < 2 ^ 30 ->
  forall junk w, let patch := lzma_in_place memory segment shift from_size to_size stream in
  exists n v y w1, nothing_allocated (y_reader y) /\ forall fuel, (n <= fuel)%nat ->
    y_apply_patch_in_place_callbacks L (ip_env_with E Z) fuel junk (patch_file patch) (zlen patch) (w, 0) = Ret (v, y, w1).
Proof. exact @lzma_ip_any_callbacks_return. Qed.
Print Assumptions C64_callbacks_return.

(** C64: if the sizes in the header fit together and no size in the body is negative,
    nothing outside the announced memory is erased or written (as C51). *)
Theorem C64_changes_within_memory : forall (wb : WordBits), 32 <= word_bits ->
  forall (D : Type) (L : lzma_lib D), enough_memory L -> lz_start L <> None ->
  forall (W : Type) (E : ip_env W), mem_codes (fun r => r <= 0 /\ r <> -11) E ->
  forall memory segment shift from_size to_size body stream,
  0 <= memory < size_limit -> 0 <= segment < size_limit -> 0 <= shift < size_limit -> 0 <= from_size < size_limit -> 0 <= to_size < size_limit ->
  (0 < to_size -> lzma_stream L body stream) -> bytes_ok body ->
  zlen (lzma_in_place memory segment shift from_size to_size stream) < 2 ^ word_bits -> zlen body + 200 < 2 ^ word_bits ->
  let a := mkann memory segment shift from_size to_size body in
  consistent a -> Forall size_nonneg (body_fields a body) ->
  forall fuel junk ps w chunks v y w1 log, concat chunks = lzma_in_place memory segment shift from_size to_size stream ->
  y_apply L (watching E) fuel junk ps (w, []) chunks = Ret (v, y, (w1, log)) ->
  Forall (changes_within memory) log.
Proof. exact @lzma_ip_any_within. Qed.
Print Assumptions C64_changes_within_memory.

(** The patch of C50_example, compressed. *)
Example C64_example :
  enough_memory toy_lib /\ lz_start toy_lib <> None /\ mem_codes (fun r => r <= 0 /\ r <> -11) ex_device_env /\ reads_all ex_device_env /\
  lzma_stream toy_lib ex_greedy_body (toy_stream ex_greedy_body) /\ ex_greedy_ann = mkann 20 5 10 7 8 ex_greedy_body /\
  (bytes_ok ex_greedy /\ bytes_ok ex_greedy_body /\ announced_comp ex_greedy = comp_number CompNone /\
   announces ex_greedy = Some ex_greedy_ann /\ compressed CompNone ex_greedy_body (n_stream ex_greedy_ann) /\
   consistent ex_greedy_ann /\ body_fields ex_greedy_ann ex_greedy_body = [FDiff 3; FExtra 2; FAdjust 0; FDiff 2; FExtra 33] /\
   Forall size_nonneg (body_fields ex_greedy_ann ex_greedy_body) /\
   zlen ex_greedy_body + moved (body_fields ex_greedy_ann ex_greedy_body) < 2 ^ 30) /\
  exists y,
  @y_apply w64 toy toy_lib _ (watching ex_device_env) 400 junk_ip 0 (tt, []) [ztake 3 ex_greedy_lzma; zdrop 3 ex_greedy_lzma]
  = Ret (- E_CORRUPT_PATCH, y,
         (tt, [EErase 15 5; ERead 5 5; EWrite 15 5; EErase 10 5; ERead 0 5; EWrite 10 5;
               EErase 0 5; ERead 10 3; EWrite 0 3; EWrite 3 2; EErase 5 3; ERead 10 2; EWrite 5 2])).
Proof.
  exact (conj toy_memory (conj toy_starts (conj ex_device_mem_codes (conj ex_device_reads
    (conj ex_greedy_stream (conj eq_refl (conj ex_greedy_hyps ex_greedy_lzma_run))))))).
Qed.

(** C65: a library built with LZMA treats all other in-place patches as one built
    without it. *)
Theorem C65_others_unaffected : forall (wb : WordBits) (D : Type) (L : lzma_lib D) (W : Type) (E : ip_env W),
  forall fuel junk ps w chunks, concat chunks = [] \/ announced_comp (concat chunks) <> 1 ->
  (letm (v, y, w1) := y_feed L E fuel (xip_init junk ps) w chunks in Ret (v, w1)) =
  (letm (v, s, w1) := ip_feed E fuel (ip_init junk ps) w chunks in Ret (v, w1)).
Proof. exact @ip_plain_same. Qed.
Print Assumptions C65_others_unaffected.

Example C65_example : announced_comp (concat (map (fun b => [b]) ip_patch)) <> 1 /\ announced_comp (concat [ex_greedy]) <> 1.
Proof. split; discriminate. Qed.

(** C67: whatever bytes follow a header that announces LZMA, whatever the decoder makes
    of them and whichever allocations fail, the calls end, and nothing is left allocated
    when finalize() returns. *)
Theorem C67_ends_clean : forall (wb : WordBits), 32 <= word_bits ->
  forall (D : Type) (L : lzma_lib D) (W : Type) (E : ip_env W), lib_ok L -> bounded_output L -> mem_codes (fun r => r <= 0 /\ r <> -11) E ->
  forall junk ps w chunks, announced_comp (concat chunks) = 1 -> zlen (concat chunks) < 2 ^ word_bits ->
  exists n, forall fuel, (n <= fuel)%nat -> y_apply L E fuel junk ps w chunks <> OutOfFuel /\
    forall v y w1, y_apply L E fuel junk ps w chunks = Ret (v, y, w1) -> nothing_allocated (y_reader y).
Proof. exact @ip_lzma_clean. Qed.
Print Assumptions C67_ends_clean.

(** C67, callback API, for any patch_read. *)
Theorem C67_callbacks_end_clean : forall (wb : WordBits), 32 <= word_bits ->
  forall (D : Type) (L : lzma_lib D) (W : Type) (E : ip_env W), lib_ok L -> bounded_output L -> mem_codes (fun r => r <= 0 /\ r <> -11) E ->
  forall (patch_read : W -> Z -> Z * list Z * W) junk ps w, 0 < ps < 2 ^ word_bits ->
  (forall buf w1, patch_read w (Z.min ps 512) = (0, buf, w1) -> announced_comp buf = 1) ->
  exists n, forall fuel, (n <= fuel)%nat -> y_apply_patch_in_place_callbacks L E fuel junk patch_read ps w <> OutOfFuel /\
    forall v y w1, y_apply_patch_in_place_callbacks L E fuel junk patch_read ps w = Ret (v, y, w1) -> nothing_allocated (y_reader y).
Proof. exact @ip_lzma_reads_clean. Qed.
Print Assumptions C67_callbacks_end_clean.

(** The seventh allocation fails; the stream is garbage; reading the patch fails. *)
Example C67_example :
  (forall m, lib_ok (toy_poor m)) /\ (forall m, bounded_output (toy_poor m)) /\ mem_codes (fun r => r <= 0 /\ r <> -11) flash_env /\
  (exists y d, @y_apply w64 toy (toy_poor 6) dev flash_env 400 junk_ip 0 (new_device ip_mem) [ztake 50 ip_lzma; zdrop 50 ip_lzma] = Ret (- E_OUT_OF_MEMORY, y, d) /\
    d_step d <> 0) /\
  (exists y d, @y_apply w64 toy toy_lib dev flash_env 400 junk_ip 0 (new_device ip_mem) [ztake 10 ip_lzma; [9; 9; 9]] = Ret (- E_LZMA_DECODE, y, d) /\
    announced_comp (concat [ztake 10 ip_lzma; [9; 9; 9]]) = 1) /\
  (forall buf w1, ex_ip_lzma_read (new_device ip_mem) (Z.min 600 512) = (0, buf, w1) -> announced_comp buf = 1) /\
  exists y d, @y_apply_patch_in_place_callbacks w64 toy toy_lib dev flash_env 400 junk_ip ex_ip_lzma_read 600 (new_device ip_mem) = Ret (- E_IO_FAILED, y, d) /\ holds (d_mem d) ip_to.
Proof. exact (conj toy_poor_ok (conj toy_poor_bounded (conj flash_mem_codes (conj ip_lzma_poor (conj ip_lzma_bad ex_ip_lzma_read_run))))). Qed.
