(** Properties of the C in-place applier on arbitrary patches. *)

From Coq Require Import ZArith List Bool.
From Verif Require Import Prelude Heatshrink CReader CSeq Spec SeqSpec Refuted CInPlace InPlaceSpec CallbackSpec IpCallbackSpec InPlaceExamples IpBoundSpec IpBound IpBoundExamples.
Import ListNotations.
Open Scope Z_scope.

(** C50: three patches that make the C code divide by zero, overflow an [int] and read
    an uninitialised variable. *)
Theorem C50_refuted : exists zero_segment far empty_segment,
  nth 0 zero_segment 0 = header_byte TYPE_IN_PLACE CompNone /\ nth 0 far 0 = header_byte TYPE_IN_PLACE CompNone /\
  nth 0 empty_segment 0 = header_byte TYPE_IN_PLACE CompCrle /\
  (exists a, announces far = Some a /\ consistent a) /\ (exists a, announces empty_segment = Some a /\ consistent a) /\
  forall patch, In patch [zero_segment; far; empty_segment] ->
  forall junk, @ip_run_calls w64 _ open_env 200 (ip_init junk (zlen patch)) tt [CallProcess patch] = Undef.
Proof. exact c50_refuted. Qed.
Print Assumptions C50_refuted.

(** C50, what does hold: with callbacks that deliver the bytes they are asked for and
    return documented codes, no sequence of calls that hands over the patch (or the
    beginning of it) executes undefined behaviour, whatever the body says, unless the
    segment size is zero, or the body and the adjustments in it come to 2^30 or more.
    [body] is the uncompressed body. *)
Theorem C50_no_undefined_behaviour : forall (wb : WordBits), 32 <= word_bits ->
  forall (W : Type) (E : ip_env W) junk ps c body patch a more calls fuel w,
  codes_ok E -> reads_all E -> bytes_ok patch -> bytes_ok body ->
  announced_comp patch = comp_number c -> announces patch = Some a -> compressed c body (n_stream a) ->
  (0 < n_to a -> 0 < n_segment a) -> zlen body + moved (body_fields a body) < 2 ^ 30 ->
  concat (pieces_of calls) ++ more = patch ->
  ip_run_calls E fuel (ip_init junk ps) w calls <> Undef.
Proof. exact @ip_no_undef. Qed.
Print Assumptions C50_no_undefined_behaviour.

(** C50, callback API. *)
Theorem C50_callbacks_no_undefined_behaviour : forall (wb : WordBits), 32 <= word_bits ->
  forall (W : Type) (E : ip_env W) junk c body patch a fuel w,
  codes_ok E -> reads_all E -> bytes_ok patch -> bytes_ok body ->
  announced_comp patch = comp_number c -> announces patch = Some a -> compressed c body (n_stream a) ->
  (0 < n_to a -> 0 < n_segment a) -> zlen body + moved (body_fields a body) < 2 ^ 30 ->
  apply_patch_in_place_callbacks (ip_env_with E Z) fuel junk (patch_file patch) (zlen patch) (w, 0) <> Undef.
Proof. exact @ip_callbacks_no_undef. Qed.
Print Assumptions C50_callbacks_no_undefined_behaviour.

(** A patch that announces 8 bytes and then describes 40. *)
Example C50_example :
  codes_ok ex_device_env /\ reads_all ex_device_env /\
  (bytes_ok ex_greedy /\ bytes_ok ex_greedy_body /\ announced_comp ex_greedy = comp_number CompNone /\
   announces ex_greedy = Some ex_greedy_ann /\ compressed CompNone ex_greedy_body (n_stream ex_greedy_ann) /\
   consistent ex_greedy_ann /\ body_fields ex_greedy_ann ex_greedy_body = [FDiff 3; FExtra 2; FAdjust 0; FDiff 2; FExtra 33] /\
   Forall size_nonneg (body_fields ex_greedy_ann ex_greedy_body) /\
   zlen ex_greedy_body + moved (body_fields ex_greedy_ann ex_greedy_body) < 2 ^ 30) /\
  concat (pieces_of [CallProcess [16; 20; 5]; CallProcess (zdrop 3 ex_greedy); CallFinalize]) ++ [] = ex_greedy.
Proof. exact (conj ex_device_codes (conj ex_device_reads (conj ex_greedy_hyps eq_refl))). Qed.

(** C51: patches that announce more data than memory, a shift beyond the memory, a shift
    that leaves a part of a segment, and a negative size, each of which makes the C code
    erase or write outside the memory announced in its header. *)
Theorem C51_refuted : exists large_to large_shift odd_shift negative,
  forall patch, In patch [large_to; large_shift; odd_shift; negative] ->
  exists a, announces patch = Some a /\ (patch = negative -> consistent a) /\
    (patch <> negative -> Forall size_nonneg (body_fields a (n_stream a))) /\
    forall junk, exists rs s log,
      @ip_run_calls w64 _ (watching open_env) 200 (ip_init junk (zlen patch)) (tt, []) [CallProcess patch] = Ret (rs, s, (tt, log)) /\
      outside (n_memory a) log.
Proof. exact c51_refuted. Qed.
Print Assumptions C51_refuted.

(** C51, what does hold: if the sizes in the header fit together and no size in the body
    is negative, then nothing outside the announced memory is ever erased or written,
    whatever else the body says, whatever the callbacks deliver and however the patch (or
    the beginning of it) is handed over. *)
Theorem C51_changes_within_memory : forall (wb : WordBits), 32 <= word_bits ->
  forall (W : Type) (E : ip_env W) junk ps c body patch a more calls fuel w rs s1 w1 log,
  codes_ok E -> bytes_ok patch -> bytes_ok body ->
  announced_comp patch = comp_number c -> announces patch = Some a -> compressed c body (n_stream a) ->
  consistent a -> Forall size_nonneg (body_fields a body) ->
  concat (pieces_of calls) ++ more = patch ->
  ip_run_calls (watching E) fuel (ip_init junk ps) (w, []) calls = Ret (rs, s1, (w1, log)) ->
  Forall (changes_within (n_memory a)) log.
Proof. exact @ip_changes_within. Qed.
Print Assumptions C51_changes_within_memory.

(** C51, callback API. *)
Theorem C51_callbacks_changes_within_memory : forall (wb : WordBits), 32 <= word_bits ->
  forall (W : Type) (E : ip_env W) junk c body patch a fuel w res s1 w1 log pos,
  codes_ok E -> bytes_ok patch -> bytes_ok body ->
  announced_comp patch = comp_number c -> announces patch = Some a -> compressed c body (n_stream a) ->
  consistent a -> Forall size_nonneg (body_fields a body) ->
  apply_patch_in_place_callbacks (ip_env_with (watching E) Z) fuel junk (patch_file patch) (zlen patch) (w, [], 0) = Ret (res, s1, (w1, log, pos)) ->
  Forall (changes_within (n_memory a)) log.
Proof. exact @ip_callbacks_changes_within. Qed.
Print Assumptions C51_callbacks_changes_within_memory.

(** The patch above, up to the size that does not fit. *)
Example C51_example : exists s,
  @ip_run_calls w64 _ (watching ex_device_env) 100 (ip_init junk_ip 25) (tt, [])
    [CallProcess [16; 20; 5]; CallProcess (zdrop 3 ex_greedy); CallFinalize]
  = Ret ([0; - E_CORRUPT_PATCH; - E_ALREADY_FAILED], s,
         (tt, [EErase 15 5; ERead 5 5; EWrite 15 5; EErase 10 5; ERead 0 5; EWrite 10 5;
               EErase 0 5; ERead 10 3; EWrite 0 3; EWrite 3 2; EErase 5 3; ERead 10 2; EWrite 5 2])).
Proof. exact ex_greedy_run. Qed.

Example C51_callbacks_example : exists res s log pos,
  @apply_patch_in_place_callbacks w64 _ (ip_env_with (watching ex_device_env) Z) 100 junk_ip (patch_file ex_greedy) (zlen ex_greedy) (tt, [], 0)
  = Ret (res, s, (tt, log, pos)) /\ res = - E_CORRUPT_PATCH /\ length log = 13%nat.
Proof. exact ex_greedy_callbacks. Qed.

(** C51 does not extend to reads: a patch whose sizes all fit together is applied with a
    read beyond the memory. *)
Theorem C51_reads_refuted : exists patch a,
  announces patch = Some a /\ consistent a /\ Forall size_nonneg (body_fields a (n_stream a)) /\
  forall junk, exists rs s log,
    @ip_run_calls w64 _ (watching open_env) 200 (ip_init junk (zlen patch)) (tt, []) [CallProcess patch; CallFinalize] = Ret (rs, s, (tt, log)) /\
    rs = [0; 3] /\ Exists (fun e => ~ event_in_memory (n_memory a) e) log.
Proof. exact c51_reads_refuted. Qed.
Print Assumptions C51_reads_refuted.
