(** Examples for C76. *)

From Coq Require Import ZArith List Bool.
From Verif Require Import Prelude Spec Bsdiff BsdiffSpec PyCreate PyInPlace InPlaceSpec PyApply PySpec PyApplyInPlace PyBsdiff40 PyFiles CreateExamples InPlaceExamples PyExamples PyMemExamples.
Import ListNotations.
Open Scope Z_scope.

(** The from and the to file, an old file, a memory file, and one that cannot be written. *)
Definition ex_store : store :=
  mkstore (fun n => match n with 1 => Some ex_from | 2 => Some ex_to | 4 => Some [1; 2; 3] | 5 => Some [] | 6 => Some [9] | 7 => Some py_mem | 8 => Some ip_from | 9 => Some ip_to | _ => None end)
          (fun n => n =? 6).
Definition ex_written (a b : list Z) : list Z := ztake 2 b.

Definition ex_create := create_patch_filenames (fun from to => raising (create_sequential CompCrle literals (sort_suffixes from) from to)) ex_written.
Definition ex_apply := apply_patch_filenames ex_ext ex_formats ex_hdiff 100 ex_written.

Lemma ex_store_run : exists s1 s2, ex_create ex_store 1 2 3 = Ret (Val tt, s1) /\ ex_apply s1 1 3 4 = Ret (Val 28, s2) /\
  st_file s2 4 = Some ex_to /\ st_file s2 6 = Some [9].
Proof. do 2 eexists. split; [vm_compute; reflexivity|]. split; [vm_compute; reflexivity|]. split; vm_compute; reflexivity. Qed.

Lemma ex_store_in_place : exists s1 s2 mem1,
  create_patch_filenames (fun from to => raising (create_in_place CompCrle literals sort_suffixes 80 16 None from to)) ex_written ex_store 8 9 3 = Ret (Val tt, s1) /\
  apply_patch_in_place_filenames ex_ext 100 ex_written s1 7 3 = Ret (Val 43, s2) /\ st_file s2 7 = Some mem1 /\ ztake 43 mem1 = ip_to /\ zdrop 80 mem1 = zrepeat 1 20.
Proof. do 3 eexists. split; [vm_compute; reflexivity|]. split; [vm_compute; reflexivity|]. split; [vm_compute; reflexivity|]. split; vm_compute; reflexivity. Qed.

(** A missing patch file, an empty one, and an output that cannot be written. *)
Lemma ex_store_missing : ex_apply ex_store 1 3 4 = Ret (Raise OtherError, ex_store) /\ ex_apply ex_store 1 2 6 = Ret (Raise OtherError, ex_store) /\
  exists s1, ex_apply ex_store 1 5 4 = Ret (Raise DetoolsError, s1) /\ st_file s1 4 = Some [] /\ st_file ex_store 4 = Some [1; 2; 3].
Proof. split; [vm_compute; reflexivity|]. split; [vm_compute; reflexivity|]. eexists. split; [vm_compute; reflexivity|]. split; vm_compute; reflexivity. Qed.
