(** Properties of the C sequential applier. *)

From Coq Require Import ZArith List Bool.
From Verif Require Import Prelude Heatshrink CReader CSeq Spec SeqSpec Refuted SeqApply SeqExt SeqPending SeqMain SeqInv SeqCount SeqSafe SeqBound SeqTrunc CallbackSpec SeqExamples.
Import ListNotations.
Open Scope Z_scope.

(** C02: feeding a well-formed patch in any pieces writes the data its records
    describe and returns its size. *)
Theorem C02_meaning : forall (wb : WordBits), 32 <= word_bits ->
  forall junk c recs patch from to chunks,
  seq_patch c recs patch -> recs_in_limits recs -> apply_recs from 0 recs = Some to ->
  bytes_ok patch -> zlen patch + 128 < 2 ^ word_bits ->
  concat chunks = patch -> (c = CompNone -> header_complete (hd [] chunks) = true) ->
  exists n, forall fuel, (n <= fuel)%nat ->
    exists s w, c_apply fuel junk (zlen patch) from chunks = Ret (zlen to, s, w) /\ f_to w = to.
Proof. exact @apply_meaning. Qed.
Print Assumptions C02_meaning.

Example C02_example :
  seq_patch CompNone ex_recs ex_none /\ seq_patch CompCrle ex_recs ex_crle /\
  seq_patch CompHeatshrink ex_recs ex_hs /\ recs_in_limits ex_recs /\
  apply_recs ex_from 0 ex_recs = Some ex_to /\
  bytes_ok ex_none /\ bytes_ok ex_crle /\ bytes_ok ex_hs /\
  (@zlen Z ex_hs + 128 <? 2 ^ 32) = true /\
  concat [[4]; [7; 68]; []; ex_stream] = ex_hs /\
  header_complete (hd [] [[0; 7]; ex_body]) = true.
Proof. exact (conj ex_none_ok (conj ex_crle_ok (conj ex_hs_ok (conj ex_limits (conj ex_meaning
  (conj ex_none_bytes (conj ex_crle_bytes (conj ex_hs_bytes (conj eq_refl (conj eq_refl eq_refl)))))))))). Qed.

(** C03: two ways of cutting any bytes into pieces give the same verdict, and on
    success the same value and output. *)
Theorem C03_chunking : forall (wb : WordBits), 32 <= word_bits ->
  forall junk1 junk2 ps from patch chunks1 chunks2,
  bytes_ok patch -> zlen patch <= ps -> ps + 128 < 2 ^ word_bits ->
  (announced_comp patch = 2 -> no_empty_segment (body_of patch) = true) ->
  concat chunks1 = patch -> concat chunks2 = patch ->
  (announced_comp patch = 0 -> header_complete (hd [] chunks1) = true \/ chunks1 = [patch]) ->
  (announced_comp patch = 0 -> header_complete (hd [] chunks2) = true \/ chunks2 = [patch]) ->
  forall v to,
    (exists fuel s w, c_apply fuel junk1 ps from chunks1 = Ret (v, s, w) /\ 0 <= v /\ f_to w = to) <->
    (exists fuel s w, c_apply fuel junk2 ps from chunks2 = Ret (v, s, w) /\ 0 <= v /\ f_to w = to).
Proof. exact @chunking. Qed.
Print Assumptions C03_chunking.

(** A corrupt crle stream (unknown segment kind 9) and two chunkings of it. *)
Example C03_example :
  let patch := [2; 7; 0; 3; 0; 3; 1; 9; 9; 9] in
  announced_comp patch = 2 /\ no_empty_segment (body_of patch) = true /\
  concat [[2]; [7; 0]; [3; 0; 3]; [1; 9; 9; 9]] = patch /\ concat [patch] = patch /\
  no_empty_segment (body_of ex_crle) = true.
Proof. exact (conj eq_refl (conj eq_refl (conj eq_refl (conj eq_refl eq_refl)))). Qed.

(** C04: "an uncompressed patch may be fed in pieces of any size" is false: a
    well-formed patch whose meaning is [to] is rejected when its first byte is
    fed alone. *)
Theorem C04_refuted : exists recs patch to chunks,
  seq_patch CompNone recs patch /\ apply_recs [] 0 recs = Some to /\
  concat chunks = patch /\
  forall junk, exists s w,
    @c_apply w64 100 junk (zlen patch) [] chunks = Ret (- E_CORRUPT_PATCH, s, w).
Proof. exact c04_refuted. Qed.
Print Assumptions C04_refuted.

(** C05: with arbitrary callbacks and an arbitrary patch, a non-negative result is
    the size announced in the patch header, and that many bytes were passed to
    to_write (counted modulo 2^word_bits, the range of size_t). *)
Theorem C05_success_size : forall (wb : WordBits), 32 <= word_bits ->
  forall (W : Type) (E : seq_env W) fuel junk ps w chunks v s1 w1 written, bytes_ok (concat chunks) ->
  feed (counting E) fuel 128 (ap_init junk ps) (w, 0) chunks = Ret (v, s1, (w1, written)) -> 0 <= v ->
  announced_size (concat chunks) = Some v /\ written mod 2 ^ word_bits = v.
Proof. exact @success_announced. Qed.
Print Assumptions C05_success_size.

Example C05_example : exists s w,
  @feed w64 _ (counting file_env) 100 128 (ap_init ex_junk (zlen ex_none)) (mkfiles ex_from 0 [], 0)
        [[0; 7; 0]; tl ex_body]
  = Ret (7, s, (w, 7)).
Proof. exact ex_counted. Qed.

(** C06: a patch that announces 2 bytes makes the library write 101. *)
Theorem C06_refuted : exists patch, forall junk, exists res s w,
  @c_apply w64 100 junk (zlen patch) [] [patch] = Ret (res, s, w) /\
  a_to_size s = 2 /\ zlen (f_to w) = 101.
Proof. exact c06_refuted. Qed.
Print Assumptions C06_refuted.

(** C06, patches without negative sizes: whatever the callbacks do and however the
    patch (or the beginning of it) is handed over, the bytes passed to to_write
    never exceed the announced size.  [body] is the uncompressed body. *)
Theorem C06_bounded : forall (wb : WordBits), 32 <= word_bits ->
  forall (W : Type) (E : seq_env W) junk ps c body patch more calls fuel w rs s1 w1 written,
  bytes_ok patch -> bytes_ok body ->
  announced_comp patch = comp_number c -> compressed c body (body_of patch) -> sizes_nonneg body = true ->
  concat (pieces_of calls) ++ more = patch ->
  run_calls (counting E) fuel (ap_init junk ps) (w, 0) calls = Ret (rs, s1, (w1, written)) ->
  written <= match announced_size patch with Some v => v | None => 0 end.
Proof. exact @bounded. Qed.
Print Assumptions C06_bounded.

(** A patch that announces 2 bytes and then describes 6. *)
Example C06_example :
  announced_comp ex_greedy = comp_number CompNone /\ compressed CompNone ex_greedy_body (body_of ex_greedy) /\
  sizes_nonneg ex_greedy_body = true /\ announced_size ex_greedy = Some 2 /\
  exists s w,
  @run_calls w64 _ (counting ex_device) 100 (ap_init ex_junk 15) (mkfiles ex_from 0 [], 0) [CallProcess ex_greedy; CallFinalize]
  = Ret ([- E_CORRUPT_PATCH; - E_ALREADY_FAILED], s, (w, 1)).
Proof. exact (conj eq_refl (conj (compressed_none _) (conj eq_refl (conj eq_refl ex_greedy_run)))). Qed.

(** C07: after any calls, once a process() call has reported an error all later
    calls leave the world alone (no callback is invoked) and report an error;
    process() without data has nothing to report. *)
Theorem C07_failure_sticky : forall (wb : WordBits) (W : Type) (E : seq_env W)
  fuel junk ps w0 before rs s w piece res s1 w1,
  run_calls E fuel (ap_init junk ps) w0 before = Ret (rs, s, w) ->
  process E fuel 128 s w piece = Ret (res, s1, w1) -> res <> 0 ->
  res < 0 /\ forall fuel' after, (1 <= fuel')%nat ->
    exists rs' s2, run_calls E fuel' s1 w1 after = Ret (rs', s2, w1) /\ Forall2 after_failure after rs'.
Proof. exact @failure_sticky. Qed.
Print Assumptions C07_failure_sticky.

Example C07_example : exists s w s1 w1,
  @run_calls w64 files file_env 100 (ap_init ex_junk 9) (mkfiles ex_from 0 [])
     [CallProcess [0; 7; 0; 3; 1; 0; 2]] = Ret ([0], s, w) /\
  f_to w = [11; 20; 32] /\
  @process w64 files file_env 100 128 s w [64 + 63; 0] = Ret (- E_CORRUPT_PATCH, s1, w1).
Proof. exact ex_failing. Qed.

(** C07 does not extend to an error reported by finalize(): calls made after it
    can still write and succeed. *)
Theorem C07_finalize_refuted : exists before after,
  forall junk, exists s1 w1 rs r s2 w2,
    @run_calls w64 files file_env 100 (ap_init junk 9) (mkfiles [] 0 []) (before ++ [CallFinalize])
      = Ret (rs ++ [r], s1, w1) /\
    r < 0 /\ f_to w1 = [] /\
    @run_calls w64 files file_env 100 s1 w1 after = Ret ([0; 1], s2, w2) /\ f_to w2 = [65].
Proof. exact c07_refuted. Qed.
Print Assumptions C07_finalize_refuted.

(** C09: a strict prefix of a well-formed patch is never accepted, however it is
    divided, whatever size was announced and whatever the callbacks do. *)
Theorem C09_truncated : forall (wb : WordBits), 32 <= word_bits ->
  forall (W : Type) (E : seq_env W) junk c recs patch pre rest ps chunks,
  seq_patch c recs patch -> recs_in_limits recs -> bytes_ok patch ->
  patch = pre ++ rest -> rest <> [] -> concat chunks = pre ->
  forall fuel w v s w1, feed E fuel 128 (ap_init junk ps) w chunks = Ret (v, s, w1) -> v < 0.
Proof. exact truncated_feed. Qed.
Print Assumptions C09_truncated.

(** The same for any sequence of calls: finalize() fails each time. *)
Theorem C09_truncated_calls : forall (wb : WordBits), 32 <= word_bits ->
  forall (W : Type) (E : seq_env W) junk c recs patch pre rest ps calls,
  seq_patch c recs patch -> recs_in_limits recs -> bytes_ok patch ->
  patch = pre ++ rest -> rest <> [] -> concat (pieces_of calls) = pre ->
  forall fuel w rs s w1, run_calls E fuel (ap_init junk ps) w calls = Ret (rs, s, w1) ->
  Forall2 (fun cl r => match cl with CallProcess _ => r <= 0 | CallFinalize => r < 0 end) calls rs.
Proof. exact truncated_calls. Qed.
Print Assumptions C09_truncated_calls.

Example C09_example :
  seq_patch CompHeatshrink ex_recs ex_hs /\ recs_in_limits ex_recs /\
  apply_recs ex_from 0 ex_recs = Some ex_to /\ bytes_ok ex_hs /\
  ex_hs = removelast ex_hs ++ [last ex_hs 0] /\
  concat [[4; 7; 68]; removelast ex_stream] = removelast ex_hs.
Proof. exact (conj ex_hs_ok (conj ex_limits (conj ex_meaning (conj ex_hs_bytes (conj eq_refl eq_refl))))). Qed.

(** C10, uncompressed patches: a well-formed patch followed by other bytes is
    reported as corrupt (after its output was written). *)
Theorem C10_none_trailing : forall (wb : WordBits), 32 <= word_bits ->
  forall junk recs patch from to trail chunks,
  seq_patch CompNone recs patch -> recs_in_limits recs -> apply_recs from 0 recs = Some to ->
  bytes_ok patch -> bytes_ok trail -> trail <> [] -> zlen (patch ++ trail) + 128 < 2 ^ word_bits ->
  concat chunks = patch ++ trail -> header_complete (hd [] chunks) = true ->
  exists n, forall fuel, (n <= fuel)%nat -> exists s w,
    c_apply fuel junk (zlen (patch ++ trail)) from chunks = Ret (- E_CORRUPT_PATCH, s, w) /\ f_to w = to.
Proof. exact @trailing_none. Qed.
Print Assumptions C10_none_trailing.

Example C10_example :
  seq_patch CompNone ex_recs ex_none /\ recs_in_limits ex_recs /\
  apply_recs ex_from 0 ex_recs = Some ex_to /\ bytes_ok ex_none /\
  concat [[0; 7; 0]; tl ex_body ++ [1; 2]] = ex_none ++ [1; 2] /\
  header_complete (hd [] [[0; 7; 0]; tl ex_body ++ [1; 2]]) = true.
Proof. exact (conj ex_none_ok (conj ex_limits (conj ex_meaning (conj ex_none_bytes (conj eq_refl eq_refl))))). Qed.

(** C10, heatshrink patches: a stream that still has data pending within a back
    reference when the output is complete is reported as corrupt, whatever follows. *)
Theorem C10_heatshrink_pending : forall (wb : WordBits), 32 <= word_bits ->
  forall junk recs patch from to ts dist c more bytes surplus chunks,
  patch = header_byte TYPE_SEQUENTIAL CompHeatshrink :: enc_size (recs_size recs) ++ 68 :: bytes ->
  last_nonempty recs -> recs_in_limits recs -> apply_recs from 0 recs = Some to ->
  Forall (token_ok 8 7) (ts ++ [Ref dist c]) -> bytes_bits bytes = enc_tokens 8 7 (ts ++ [Ref dist c]) ++ more ->
  tokens_expand [] (ts ++ [Ref dist c]) = enc_body recs ++ surplus ->
  zlen (tokens_expand [] ts) < zlen (enc_body recs) -> surplus <> [] ->
  bytes_ok patch -> zlen patch + 128 < 2 ^ word_bits -> concat chunks = patch ->
  exists n, forall fuel, (n <= fuel)%nat -> exists s w,
    c_apply fuel junk (zlen patch) from chunks = Ret (- E_CORRUPT_PATCH, s, w) /\ f_to w = to.
Proof. exact @pending_rejected. Qed.
Print Assumptions C10_heatshrink_pending.

Example C10_pending_example :
  ex_long = header_byte TYPE_SEQUENTIAL CompHeatshrink :: enc_size (recs_size ex_recs) ++ 68 :: ex_long_stream /\
  last_nonempty ex_recs /\ Forall (token_ok 8 7) (ex_long_tokens ++ [Ref 1 3]) /\
  bytes_bits ex_long_stream = enc_tokens 8 7 (ex_long_tokens ++ [Ref 1 3]) ++ ex_long_pad /\
  tokens_expand [] (ex_long_tokens ++ [Ref 1 3]) = enc_body ex_recs ++ [0; 0] /\
  (zlen (tokens_expand [] ex_long_tokens) <? zlen (enc_body ex_recs)) = true /\ bytes_ok ex_long.
Proof. exact ex_long_ok. Qed.

(** C10: a well-formed crle patch followed by trailing bytes is accepted. *)
Theorem C10_refuted : exists recs patch to trailing,
  seq_patch CompCrle recs patch /\ apply_recs [] 0 recs = Some to /\ trailing <> [] /\
  forall junk, exists s w,
    @c_apply w64 100 junk (zlen (patch ++ trailing)) [] [patch ++ trailing] = Ret (zlen to, s, w) /\
    f_to w = to.
Proof. exact c10_refuted. Qed.
Print Assumptions C10_refuted.

(** C11: two short patches that make the C code read an uninitialised variable
    and overflow an [int]. *)
Theorem C11_refuted : exists crle_patch none_patch,
  nth 0 crle_patch 0 = header_byte TYPE_SEQUENTIAL CompCrle /\
  nth 0 none_patch 0 = header_byte TYPE_SEQUENTIAL CompNone /\
  (forall junk, @c_apply w64 100 junk (zlen crle_patch) [] [crle_patch] = Undef) /\
  (forall junk, @c_apply w64 200 junk (zlen none_patch) [] [none_patch] = Undef).
Proof. exact c11_refuted. Qed.
Print Assumptions C11_refuted.

(** C11, what does hold: with callbacks that honour their contract on a from area
    of at most 2 GB, no sequence of calls with any bytes whatsoever makes the C code
    execute undefined behaviour, unless the patch is crle compressed and contains
    an empty segment. *)
Theorem C11_no_undefined_behaviour : forall (wb : WordBits), 32 <= word_bits ->
  forall (W : Type) (E : seq_env W) (pos : W -> Z), honest E pos ->
  forall junk ps w calls fuel, pos w = 0 -> Forall bytes_ok (pieces_of calls) ->
  (announced_comp (concat (pieces_of calls)) = 2 -> no_empty_segment (body_of (concat (pieces_of calls))) = true) ->
  run_calls E fuel (ap_init junk ps) w calls <> Undef.
Proof. exact @calls_safe. Qed.
Print Assumptions C11_no_undefined_behaviour.

(** C11, callback API. *)
Theorem C11_callbacks_no_undefined_behaviour : forall (wb : WordBits), 32 <= word_bits ->
  forall (W : Type) (E : seq_env W) (pos : W -> Z), honest E pos ->
  forall junk patch w fuel, pos w = 0 -> bytes_ok patch ->
  (announced_comp patch = 2 -> no_empty_segment (body_of patch) = true) ->
  apply_patch_callbacks (env_with E Z) fuel junk (patch_file patch) (zlen patch) (w, 0) <> Undef.
Proof. exact @callbacks_safe. Qed.
Print Assumptions C11_callbacks_no_undefined_behaviour.

(** Honest callbacks, and a patch that seeks beyond the from file. *)
Example C11_example :
  honest ex_device f_pos /\ bytes_ok ex_hostile /\ announced_comp ex_hostile = 0 /\
  exists s w,
  @run_calls w64 files ex_device 100 (ap_init ex_junk 17) (mkfiles ex_from 0 []) [CallProcess ex_hostile; CallFinalize]
  = Ret ([- E_IO_FAILED; - E_ALREADY_FAILED], s, w).
Proof. exact (conj ex_device_honest (conj ex_hostile_bytes (conj eq_refl ex_hostile_run))). Qed.

(** C12: init, any process() calls and finalize() terminate, whatever the patch
    bytes and the callbacks are. *)
Theorem C12_terminates : forall (wb : WordBits), 32 <= word_bits ->
  forall (W : Type) (E : seq_env W) junk ps chunks w, Forall bytes_ok chunks ->
  exists n, forall fuel, (n <= fuel)%nat ->
    feed E fuel 128 (ap_init junk ps) w chunks <> OutOfFuel.
Proof. exact @terminates. Qed.
Print Assumptions C12_terminates.

(** C12, callback API. *)
Theorem C12_callbacks_terminate : forall (wb : WordBits), 32 <= word_bits ->
  forall (W : Type) (E : seq_env W) junk patch_read ps w,
  (forall w n rr buf w1, patch_read w n = (rr, buf, w1) -> bytes_ok buf) ->
  exists n, forall fuel, (n <= fuel)%nat ->
    apply_patch_callbacks E fuel junk patch_read ps w <> OutOfFuel.
Proof. exact @callbacks_terminate. Qed.
Print Assumptions C12_callbacks_terminate.

(** A patch_read callback and some pieces of a (hostile) patch. *)
Example C12_example :
  Forall bytes_ok [[255; 128]; []; [3]] /\
  forall w n rr buf w1, ex_patch_read w n = (rr, buf, w1) -> bytes_ok buf.
Proof. exact (conj ex_chunks_bytes ex_patch_read_bytes). Qed.
