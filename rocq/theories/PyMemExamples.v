(** Concrete cases for the theorems about the Python functions on in-place patches. *)

From Coq Require Import ZArith List Bool Lia ZifyBool ZifyNat ZifyN.
From Verif Require Import Prelude Lib Spec Bsdiff BsdiffSpec PyCreate PyInPlace PyApply PySpec PyApplyInPlace CreateExamples PyExamples.
From Verif Require Import InPlaceSpec InPlaceExamples.
Import ListNotations.
Open Scope Z_scope.

(** The memory of the C example with zeros for the erased bytes. *)
Definition py_mem : list Z := ip_from ++ zrepeat 77 13 ++ zrepeat 0 27 ++ zrepeat 1 20.

Lemma ex_py_mem : 80 <= zlen py_mem /\ ztake (zlen ip_from) py_mem = ip_from.
Proof. split; [vm_compute; discriminate|]. vm_compute. reflexivity. Qed.

Lemma ex_py_mem_run : forall bytesio, exists mem1, apply_patch_in_place ex_ext 100 bytesio py_mem ip_patch = ret (43, mem1) /\
  ztake 43 mem1 = ip_to /\ zdrop 80 mem1 = zrepeat 1 20.
Proof. intros bytesio. eexists. split; [destruct bytesio; vm_compute; reflexivity|]. split; vm_compute; reflexivity. Qed.

(** With no shift at all. *)
Lemma ex_py_no_shift : exists patch, create_in_place CompNone literals sort_suffixes 80 16 (Some 0) ip_from ip_to = Ret (Some patch) /\
  exists mem1, apply_patch_in_place ex_ext 100 true py_mem patch = ret (43, mem1) /\ ztake 43 mem1 = ip_to.
Proof. eexists. split; [vm_compute; reflexivity|]. eexists. split; [vm_compute; reflexivity|]. vm_compute. reflexivity. Qed.

Lemma ex_minimum : (16 | 80) /\ (16 | minimum_of 16 None) /\ (16 | minimum_of 16 (Some 0)).
Proof. split; [exists 5; reflexivity|]. split; [exists 2; reflexivity|exists 0; reflexivity]. Qed.

(** A to file larger than the memory, and a shift larger than the memory. *)
Definition tail20 : list Z := zrepeat 200 20.

Lemma py_overrun_to : exists patch, create_in_place CompNone literals sort_suffixes 48 16 (Some 16) ip_from (ip_to ++ tail20) = Ret (Some patch) /\
  exists mem1, apply_patch_in_place ex_ext 100 true (ip_from ++ zrepeat 0 8 ++ zrepeat 1 20) patch = ret (63, mem1) /\
  zdrop 48 mem1 = zrepeat 200 15 ++ zrepeat 1 5.
Proof. eexists. split; [vm_compute; reflexivity|]. eexists. split; [vm_compute; reflexivity|]. vm_compute. reflexivity. Qed.

Lemma py_overrun_shift : exists patch, create_in_place CompNone literals sort_suffixes 48 16 (Some 64) ip_from ip_to = Ret (Some patch) /\
  exists mem1, apply_patch_in_place ex_ext 100 true (ip_from ++ zrepeat 0 8 ++ zrepeat 1 20) patch = ret (43, mem1) /\
  zdrop 48 mem1 = zrepeat 1 16 ++ ztake 24 ip_from.
Proof. eexists. split; [vm_compute; reflexivity|]. eexists. split; [vm_compute; reflexivity|]. vm_compute. reflexivity. Qed.
