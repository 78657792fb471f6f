(** Theorems about dump and restore in a library built with LZMA.  Every proof is an
    application of a lemma of the other files. *)

From Coq Require Import ZArith List Bool.
From Verif Require Import Prelude Heatshrink CReader CSeq Spec SeqSpec SeqExamples Refuted CLzma CSeqLzma CDumpLzma LzmaSpec LzmaExamples DumpLzmaSpec DumpLzmaProofs DumpLzmaPlain DumpLzmaExamples.
Import ListNotations.
Open Scope Z_scope.

(** C81: after any pieces of a patch that announces LZMA have been processed, dump()
    succeeds exactly if all of them were processed without an error and the header is not
    complete yet; otherwise it says that it is not implemented, although the state has been
    written. *)
Theorem C81_dump : forall (wb : WordBits) (D : Type) (L : lzma_lib D) (W : Type) (E : seq_env W) fuel junk ps w pieces rs x w1,
  bytes_ok (concat pieces) -> concat pieces = [] \/ announced_comp (concat pieces) = 1 ->
  x_pieces L E fuel (xap_init junk ps) w pieces = Ret (rs, x, w1) ->
  x_dump 0 x = if forallb (Z.eqb 0) rs && negb (header_complete (concat pieces)) then 0 else - E_NOT_IMPLEMENTED.
Proof. exact @lzma_dump. Qed.
Print Assumptions C81_dump.

(** If the state cannot be written then dump() says so, whatever has been processed. *)
Theorem C81_unwritten : forall (D : Type) written (x : xap D), written <> 0 -> x_dump written x = - E_IO_FAILED.
Proof. exact unwritten_dump. Qed.
Print Assumptions C81_unwritten.

Example C81_unwritten_example : @x_dump toy (-1) (xap_init ex_junk (zlen ex_lzma)) = - E_IO_FAILED /\ @x_dump toy 0 (xap_init ex_junk (zlen ex_lzma)) = 0.
Proof. split; vm_compute; reflexivity. Qed.

(** A dump that succeeded can be restored: the patch is then to be processed from its
    beginning, as with a new applier, and no file is touched.  Restoring any other dump
    fails. *)
Theorem C81_restore : forall (wb : WordBits) (D : Type) (L : lzma_lib D) (W : Type) (E : seq_env W) fuel junk junk2 ps ps2 w w2 pieces rs x w1,
  bytes_ok (concat pieces) -> concat pieces = [] \/ announced_comp (concat pieces) = 1 ->
  x_pieces L E fuel (xap_init junk ps) w pieces = Ret (rs, x, w1) ->
  if x_dump 0 x =? 0 then x_restore E (xap_init junk2 ps2) x w2 = Ret (0, xap_init junk2 ps, w2)
  else exists e x2 w3, x_restore E (xap_init junk2 ps2) x w2 = Ret (e, x2, w3) /\ (e = - E_NOT_IMPLEMENTED \/ e = - E_IO_FAILED).
Proof. exact @lzma_restore. Qed.
Print Assumptions C81_restore.

Example C81_example : exists x1 x2 w2,
  @x_pieces toy w64 toy_lib files file_env 100 (xap_init ex_junk (zlen ex_lzma)) start [[1]; []] = Ret ([0; 0], x1, start) /\ x_dump 0 x1 = 0 /\
  @x_pieces toy w64 toy_lib files file_env 100 (xap_init ex_junk (zlen ex_lzma)) start [[1]; [7]; ztake 9 (zdrop 2 ex_lzma)] = Ret ([0; 0; 0], x2, w2) /\ x_dump 0 x2 = - E_NOT_IMPLEMENTED.
Proof. exact ex_lzma_dumps. Qed.

(** All other patches are processed, dumped and restored as by a library without LZMA,
    whatever the user does between the calls: all results and effects are the same. *)
Theorem C81_others : forall (wb : WordBits) (D : Type) (L : lzma_lib D) (W : Type) (E : seq_env W) (before : W -> W) (after : Z -> W -> W) patch,
  zlen patch < 2 ^ word_bits -> announced_comp patch <> 1 ->
  forall fuel junk ps w steps,
  x_run_steps E before after L fuel patch (xap_init junk ps) w steps = run_steps E before after fuel patch (ap_init junk ps) w steps.
Proof. exact @steps_same. Qed.
Print Assumptions C81_others.

Example C81_others_example : announced_comp ex_crle <> 1 /\
  exists w, @x_run_steps w64 files file_env rewind cut toy toy_lib 100 ex_crle (xap_init ex_junk (zlen ex_crle)) start ex_steps =
    Ret ([0; 0; 0; 0; 0; 0; 0; zlen ex_to], w) /\ f_to w = ex_to.
Proof. split; [discriminate|]. exact ex_steps_run. Qed.

(** An applier whose restore failed is not in the state of failure, unlike after an error
    of process(): it goes on with buffers that belong to the applier that was dumped. *)
Theorem C81_failure_is_final_refuted : exists x w x1 w1 x2 w2,
  @x_pieces toy w64 toy_lib files file_env 100 (xap_init ex_junk (zlen ex_lzma)) start [ztake 11 ex_lzma] = Ret ([0], x, w) /\ x_dump 0 x = - E_NOT_IMPLEMENTED /\
  x_restore file_env (xap_init ex_junk (zlen ex_lzma)) x (rewind w) = Ret (- E_NOT_IMPLEMENTED, x1, w1) /\
  @x_feed w64 toy toy_lib files file_env 100 x1 w1 [zdrop 11 ex_lzma] = Ret (zlen ex_to, x2, w2).
Proof. exact ex_goes_on. Qed.
Print Assumptions C81_failure_is_final_refuted.
