(** What the results of the C in-place applier mean. *)

From Coq Require Import ZArith List Bool.
From Verif Require Import Prelude Heatshrink CReader CSeq Spec SeqSpec Refuted CInPlace InPlaceSpec CodesSpec CallbackSpec IpCallbackSpec InPlaceExamples CodesExamples IpBoundSpec
  IpOutcomeSpec IpSuccess IpSticky IpTrunc IpOutcomeExamples.
Import ListNotations.
Open Scope Z_scope.

(** C52: whatever the patch (the pieces need not even make up a patch), when success is
    reported the result is the announced to size, the first requests have moved the from
    data as announced, and after that every byte from address 0 up to the to size has
    been written, once and in order.  Memory callbacks fail with negative codes other
    than -11 (see C48) and the device does not remember steps.  The patch would have to
    make the code write 2^word_bits bytes for the positions to wrap. *)
Theorem C52_success : forall (wb : WordBits), 32 <= word_bits ->
  forall (W : Type) (E : ip_env W), step_get E = None -> mem_codes (fun r => r <= 0 /\ r <> -11) E ->
  forall fuel junk ps chunks w v s w1 log, bytes_ok (concat chunks) ->
  ip_feed (watching E) fuel (ip_init junk ps) (w, []) chunks = Ret (v, s, (w1, log)) -> 0 <= v ->
  exists a moving writing, announces (concat chunks) = Some a /\ v = n_to a /\ log = moving ++ writing /\
    (consistent a -> moving = moves a) /\ (bytes_written writing < 2 ^ word_bits -> in_order 0 writing v).
Proof. exact @ip_success. Qed.
Print Assumptions C52_success.

(** C52, callback API. *)
Theorem C52_callbacks_success : forall (wb : WordBits), 32 <= word_bits ->
  forall (W : Type) (E : ip_env W), step_get E = None -> mem_codes (fun r => r <= 0 /\ r <> -11) E ->
  forall fuel junk patch w v s w1 log pos, bytes_ok patch ->
  apply_patch_in_place_callbacks (ip_env_with (watching E) Z) fuel junk (patch_file patch) (zlen patch) ((w, []), 0)
    = Ret (v, s, ((w1, log), pos)) -> 0 <= v ->
  exists a moving writing, announces patch = Some a /\ v = n_to a /\ log = moving ++ writing /\
    (consistent a -> moving = moves a) /\ (bytes_written writing < 2 ^ word_bits -> in_order 0 writing v).
Proof. exact @ip_success_callbacks. Qed.
Print Assumptions C52_callbacks_success.

Example C52_example : step_get plain_env = None /\ mem_codes (fun r => r <= 0 /\ r <> -11) plain_env /\
  exists s d log a,
  @ip_feed (32 : WordBits) _ (watching plain_env) 200 (ip_init junk_ip (zlen ip_patch)) (new_device ip_mem, []) (map (fun b => [b]) ip_patch) = Ret (43, s, (d, log)) /\
  announces (concat (map (fun b => [b]) ip_patch)) = Some a /\ consistent a /\ moves a = ztake 9 log /\ bytes_written (zdrop 9 log) = 43 /\ zlen log = 30.
Proof. exact (conj eq_refl (conj plain_codes ex_success)). Qed.

(** C53: after any calls, once a process() call has reported an error all later calls
    leave the world alone (no callback is invoked) and report an error; process()
    without data has nothing to report. *)
Theorem C53_failure_sticky : forall (wb : WordBits) (W : Type) (E : ip_env W)
  fuel junk ps w0 before rs s w piece res s1 w1,
  ip_run_calls E fuel (ip_init junk ps) w0 before = Ret (rs, s, w) ->
  ip_process E fuel s w piece = Ret (res, s1, w1) -> res < 0 ->
  forall fuel' after, (1 <= fuel')%nat ->
    exists rs' s2, ip_run_calls E fuel' s1 w1 after = Ret (rs', s2, w1) /\ Forall2 after_failure after rs'.
Proof. exact @ip_failure_sticky. Qed.
Print Assumptions C53_failure_sticky.

Example C53_example : exists s w s1 w1,
  @ip_run_calls (32 : WordBits) _ (worn_flash 1 (-1000)) 200 (ip_init junk_ip 99) worn_dev
    [CallProcess (ztake 10 worn_patch)] = Ret ([0], s, w) /\ d_mem w = [None; Some 9; Some 9; Some 9] /\
  @ip_process (32 : WordBits) _ (worn_flash 1 (-1000)) 200 s w (zdrop 10 worn_patch) = Ret (-1000, s1, w1).
Proof. exact ex_ip_sticky. Qed.

(** C53 does not extend to an error reported by finalize(): calls made after it can
    still change the memory and succeed. *)
Theorem C53_finalize_refuted : exists before after,
  forall junk, exists s1 w1 rs r s2 w2,
    @ip_run_calls w64 _ flash_env 200 (ip_init junk 9) worn_dev (before ++ [CallFinalize]) = Ret (rs ++ [r], s1, w1) /\
    r < 0 /\ d_mem w1 = d_mem worn_dev /\
    @ip_run_calls w64 _ flash_env 200 s1 w1 after = Ret ([0; 2], s2, w2) /\ d_mem w2 = [Some 7; Some 8; Some 9; Some 9].
Proof. exact ip_finalize_refuted. Qed.
Print Assumptions C53_finalize_refuted.

(** C54: a strict prefix of a well-formed in-place patch is never accepted, however it
    is divided, whatever size was announced and whatever the callbacks do, as long as
    they fail with negative codes other than -11 (C48_in_place_refuted shows what
    happens with -11). *)
Theorem C54_truncated : forall (wb : WordBits), 32 <= word_bits ->
  forall (W : Type) (E : ip_env W), mem_codes (fun r => r <= 0 /\ r <> -11) E ->
  forall junk c memory segment shift from_size to_size segs patch pre rest ps chunks,
  in_place_patch c memory segment shift from_size to_size segs patch -> sizes_ok memory segment shift from_size to_size ->
  segments_in_limits segment shift 0 segs -> bytes_ok patch ->
  patch = pre ++ rest -> rest <> [] -> concat chunks = pre ->
  forall fuel w v s w1, ip_feed E fuel (ip_init junk ps) w chunks = Ret (v, s, w1) -> v < 0.
Proof. exact @ip_truncated_feed. Qed.
Print Assumptions C54_truncated.

(** The same for any sequence of calls: finalize() fails each time. *)
Theorem C54_truncated_calls : forall (wb : WordBits), 32 <= word_bits ->
  forall (W : Type) (E : ip_env W), mem_codes (fun r => r <= 0 /\ r <> -11) E ->
  forall junk c memory segment shift from_size to_size segs patch pre rest ps calls,
  in_place_patch c memory segment shift from_size to_size segs patch -> sizes_ok memory segment shift from_size to_size ->
  segments_in_limits segment shift 0 segs -> bytes_ok patch ->
  patch = pre ++ rest -> rest <> [] -> concat (pieces_of calls) = pre ->
  forall fuel w rs s w1, ip_run_calls E fuel (ip_init junk ps) w calls = Ret (rs, s, w1) ->
  Forall2 (fun cl r => match cl with CallProcess _ => r <= 0 | CallFinalize => r < 0 end) calls rs.
Proof. exact @ip_truncated_calls. Qed.
Print Assumptions C54_truncated_calls.

(** C54, callback API. *)
Theorem C54_callbacks_truncated : forall (wb : WordBits), 32 <= word_bits ->
  forall (W : Type) (E : ip_env W), mem_codes (fun r => r <= 0 /\ r <> -11) E ->
  forall junk c memory segment shift from_size to_size segs patch pre rest,
  in_place_patch c memory segment shift from_size to_size segs patch -> sizes_ok memory segment shift from_size to_size ->
  segments_in_limits segment shift 0 segs -> bytes_ok patch ->
  patch = pre ++ rest -> rest <> [] ->
  forall fuel w v s w1, apply_patch_in_place_callbacks (ip_env_with E Z) fuel junk (patch_file pre) (zlen pre) (w, 0) = Ret (v, s, w1) -> v < 0.
Proof. exact @ip_truncated_callbacks. Qed.
Print Assumptions C54_callbacks_truncated.

Example C54_example : mem_codes (fun r => r <= 0 /\ r <> -11) (worn_flash 2 (-1000)) /\
  in_place_patch CompHeatshrink 4 1 1 0 3 worn_segs worn_patch /\ sizes_ok 4 1 1 0 3 /\
  segments_in_limits 1 1 0 worn_segs /\ bytes_ok worn_patch /\
  worn_patch = removelast worn_patch ++ [last worn_patch 0] /\
  concat [ztake 3 (removelast worn_patch); zdrop 3 (removelast worn_patch)] = removelast worn_patch.
Proof.
  exact (conj worn_codes_ok (conj worn_patch_ok (conj worn_sizes (conj worn_limits (conj worn_bytes (conj eq_refl eq_refl)))))).
Qed.
