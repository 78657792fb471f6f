(** Examples for C75. *)

From Coq Require Import ZArith List Bool.
From Verif Require Import Prelude CReader CSeq CFile CFileSpec Spec SeqSpec RefuseSpec BodySpec BodyThms FitSpec SeqExamples Refuted FitFileThms.
Import ListNotations.
Open Scope Z_scope.

Definition fit_files (patch : list Z) (name : Z) : option (list Z) :=
  match name with 1 => Some [10; 20; 30; 40] | 2 => Some patch | 3 => Some [1; 1; 1; 1; 1] | 4 => Some [4] | _ => None end.

Lemma ex_fit_callbacks : exists s w pos, @run_callbacks w64 100 ex_junk [10; 20; 30; 40] odd_patch = Ret (3, s, (w, pos)) /\ f_to w = [31; 39; 9] /\ pos = zlen odd_patch.
Proof. do 3 eexists. split; [vm_compute; reflexivity|]. split; reflexivity. Qed.

Lemma ex_fit_files : exists d, @apply_patch_filenames w64 _ fs_stdio 100 ex_junk (disk (fit_files odd_patch)) 1 2 3 = Ret (3, d) /\ fs_file d 3 = Some [31; 39; 9] /\ fs_file d 4 = Some [4].
Proof. eexists. split; [vm_compute; reflexivity|]. split; reflexivity. Qed.

(** The same patch without its last byte: refused, and the old to file is lost. *)
Lemma ex_fit_short : exists code d out, @apply_patch_filenames w64 _ fs_stdio 100 ex_junk (disk (fit_files (ztake (zlen odd_patch - 1) odd_patch))) 1 2 3 = Ret (code, d) /\
  code < 0 /\ fs_file d 3 = Some out /\ fs_file d 1 = Some [10; 20; 30; 40].
Proof. do 3 eexists. split; [vm_compute; reflexivity|]. split; [reflexivity|]. split; vm_compute; reflexivity. Qed.
