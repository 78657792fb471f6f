(** Dumping and restoring the state of the sequential applier. *)

From Coq Require Import ZArith List Bool.
From Verif Require Import Prelude Heatshrink CReader CSeq Spec SeqSpec SeqExamples Refuted DumpSpec DumpProofs DumpExamples.
Import ListNotations.
Open Scope Z_scope.

(** C08: after any history of processing, dumping, losing output and restoring,
    the rest of a well-formed patch in any pieces completes the output the patch
    describes. *)
Theorem C08_dump_restore : forall (wb : WordBits), 32 <= word_bits ->
  forall c recs patch from to s w chunks,
  seq_patch c recs patch -> recs_in_limits recs -> apply_recs from 0 recs = Some to ->
  bytes_ok patch -> zlen patch + 128 < 2 ^ word_bits -> zlen from <= INT_MAX ->
  session from patch (zlen patch) s w ->
  concat chunks = zdrop (get_patch_offset s) patch ->
  (c = CompNone -> get_patch_offset s = 0 -> header_complete (hd [] chunks) = true) ->
  exists n, forall fuel, (n <= fuel)%nat ->
    exists s1 w1, feed file_env fuel 128 s w chunks = Ret (zlen to, s1, w1) /\ f_to w1 = to.
Proof. exact @dump_meaning. Qed.
Print Assumptions C08_dump_restore.

(** A heatshrink patch dumped and restored three times, with four bytes written
    after the last dump lost. *)
Example C08_example :
  seq_patch CompHeatshrink ex_recs ex_hs /\ recs_in_limits ex_recs /\
  apply_recs ex_from 0 ex_recs = Some ex_to /\ bytes_ok ex_hs /\
  forall junk : ap, exists s w,
    @session w64 ex_from ex_hs (zlen ex_hs) s w /\ get_patch_offset s = 9 /\ get_to_offset s = 2 /\ zlen (f_to w) = 2.
Proof. exact (conj ex_hs_ok (conj ex_limits (conj ex_meaning (conj ex_hs_bytes ex_session)))). Qed.

(** C08: the same holds of arbitrary patches: the verdict, the value and the output
    are those of the whole patch processed in one go. *)
Theorem C08_same_verdict : forall (wb : WordBits), 32 <= word_bits ->
  forall from patch ps, bytes_ok patch -> zlen patch < 2 ^ word_bits -> zlen from <= INT_MAX ->
  forall s w chunks junk, session from patch ps s w -> zlen patch <= ps -> ps + 128 < 2 ^ word_bits ->
  (announced_comp patch = 2 -> no_empty_segment (body_of patch) = true) ->
  concat chunks = zdrop (get_patch_offset s) patch ->
  (announced_comp patch = 0 -> get_patch_offset s = 0 -> header_complete (hd [] chunks) = true) ->
  forall v to,
    (exists fuel s1 w1, feed file_env fuel 128 s w chunks = Ret (v, s1, w1) /\ 0 <= v /\ f_to w1 = to) <->
    (exists fuel s1 w1, c_apply fuel junk ps from [patch] = Ret (v, s1, w1) /\ 0 <= v /\ f_to w1 = to).
Proof. exact @dump_any. Qed.
Print Assumptions C08_same_verdict.

(** C08: a restored applier gives the results and leaves the files that an
    applier would which was fed the same part of the patch without interruption,
    whatever calls follow. *)
Theorem C08_transparent : forall (wb : WordBits), 32 <= word_bits ->
  forall from patch ps, bytes_ok patch -> zlen patch < 2 ^ word_bits -> zlen from <= INT_MAX ->
  forall s w, session from patch ps s w ->
  exists junk pieces s' fuel0,
    concat pieces = ztake (get_patch_offset s) patch /\
    (forall fuel, (fuel0 <= fuel)%nat ->
       run_calls file_env fuel (ap_init junk ps) (mkfiles from 0 []) (map CallProcess pieces) =
       Ret (map (fun _ => 0) pieces, s', w)) /\
    forall calls fuel, goes_on patch (get_patch_offset s) calls ->
      observed (run_calls file_env fuel s w calls) = observed (run_calls file_env fuel s' w calls).
Proof. exact @transparent. Qed.
Print Assumptions C08_transparent.

(** C08: restoring succeeds at every point of such a history. *)
Theorem C08_restorable : forall (wb : WordBits), 32 <= word_bits ->
  forall from patch ps, bytes_ok patch -> zlen patch < 2 ^ word_bits -> zlen from <= INT_MAX ->
  forall s w lost junk ps2, session from patch ps s w ->
  exists s1 w1, restore file_env (ap_init junk ps2) s (mkfiles from 0 (f_to w ++ lost)) = Ret (0, s1, w1).
Proof. exact @restorable. Qed.
Print Assumptions C08_restorable.

(** "At any point" is false for the heatshrink patch that creates an empty file:
    after a restore, finalize() uses a decoder that was never initialised. *)
Theorem C08_empty_refuted : exists patch,
  seq_patch CompHeatshrink [] patch /\ apply_recs [] 0 [] = Some [] /\
  forall junk junk2, exists s w s1 w1 s2 w2,
    @process w64 files file_env 100 128 (ap_init junk (zlen patch)) (mkfiles [] 0 []) patch = Ret (0, s, w) /\
    @finalize w64 files file_env 100 128 s w = Ret (0, s1, w1) /\
    @restore files file_env (ap_init junk2 (zlen patch)) s (mkfiles [] 0 (f_to w)) = Ret (0, s2, w2) /\
    @finalize w64 files file_env 100 128 s2 w2 = Undef.
Proof. exact c08_refuted. Qed.
Print Assumptions C08_empty_refuted.
