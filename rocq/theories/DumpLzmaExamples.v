(** Concrete cases for the theorems about dump and restore in a library with LZMA. *)

From Coq Require Import ZArith List Bool.
From Verif Require Import Prelude Heatshrink CReader CSeq Spec SeqSpec SeqExamples Refuted CLzma CSeqLzma CDumpLzma LzmaSpec LzmaExamples DumpLzmaSpec.
Import ListNotations.
Open Scope Z_scope.

Definition start : files := mkfiles ex_from 0 [].

(** Within the header, and behind it. *)
Lemma ex_lzma_dumps : exists x1 x2 w2,
  @x_pieces toy w64 toy_lib files file_env 100 (xap_init ex_junk (zlen ex_lzma)) start [[1]; []] = Ret ([0; 0], x1, start) /\ x_dump 0 x1 = 0 /\
  @x_pieces toy w64 toy_lib files file_env 100 (xap_init ex_junk (zlen ex_lzma)) start [[1]; [7]; ztake 9 (zdrop 2 ex_lzma)] = Ret ([0; 0; 0], x2, w2) /\ x_dump 0 x2 = - E_NOT_IMPLEMENTED.
Proof. do 3 eexists. split; [vm_compute; reflexivity|]. split; [vm_compute; reflexivity|]. split; vm_compute; reflexivity. Qed.

Definition rewind (w : files) : files := mkfiles (f_from w) 0 (f_to w).
Definition cut (n : Z) (w : files) : files := mkfiles (f_from w) (f_pos w) (ztake n (f_to w)).
Definition ex_steps : list step := [Piece 1; Restart ex_junk 5; Piece 6; Restart ex_junk 5; Piece 100].

Lemma ex_steps_run : exists w, @x_run_steps w64 files file_env rewind cut toy toy_lib 100 ex_crle (xap_init ex_junk (zlen ex_crle)) start ex_steps =
  Ret ([0; 0; 0; 0; 0; 0; 0; zlen ex_to], w) /\ f_to w = ex_to.
Proof. eexists. split; [vm_compute; reflexivity|]. vm_compute. reflexivity. Qed.

(** The restore fails, and the rest of the patch is accepted. *)
Lemma ex_goes_on : exists x w x1 w1 x2 w2,
  @x_pieces toy w64 toy_lib files file_env 100 (xap_init ex_junk (zlen ex_lzma)) start [ztake 11 ex_lzma] = Ret ([0], x, w) /\ x_dump 0 x = - E_NOT_IMPLEMENTED /\
  x_restore file_env (xap_init ex_junk (zlen ex_lzma)) x (rewind w) = Ret (- E_NOT_IMPLEMENTED, x1, w1) /\
  @x_feed w64 toy toy_lib files file_env 100 x1 w1 [zdrop 11 ex_lzma] = Ret (zlen ex_to, x2, w2).
Proof. do 6 eexists. split; [vm_compute; reflexivity|]. split; [vm_compute; reflexivity|]. split; [vm_compute; reflexivity|]. vm_compute. reflexivity. Qed.
