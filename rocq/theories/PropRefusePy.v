(** Theorems about patches the Python functions refuse because of their first byte
    ([strange], RefusePySpec.v), and about patch_info() of hdiffpatch patches.  Every
    proof is an application of a lemma of RefusePyProofs.v or RefuseBsdiff.v. *)

From Coq Require Import ZArith List Bool.
From Verif Require Import Prelude Spec PyApply PyApplyInPlace PyInfo PyHdiff PyInfoHdiff PyBsdiff40 PyBsdiff40Examples PyExamples HdiffExamples RefuseSpec RefusePySpec RefusePyProofs RefuseBsdiff.
Import ListNotations.
Open Scope Z_scope.

(** C85: whatever follows the first byte, and whatever the from data, apply_patch()
    refuses a patch that is neither sequential nor of the type hdiffpatch, or whose
    compression is unknown, with detools.Error; *)
Theorem C85_apply : forall X F L M fuel clamps from patch, strange [0; 2] patch ->
  apply_patch_any X F L M fuel clamps from patch = Ret (HRaise DetoolsError).
Proof. exact apply_any_refuses. Qed.
Print Assumptions C85_apply.

(** apply_patch_in_place() one that is not an in-place patch; *)
Theorem C85_in_place : forall X fuel bytesio mem patch, strange [1] patch ->
  apply_patch_in_place X fuel bytesio mem patch = raise DetoolsError.
Proof. exact apply_in_place_refuses. Qed.
Print Assumptions C85_in_place.

(** and patch_info() one that is of none of the three types. *)
Theorem C85_info : forall X DI fuel patch, strange [0; 1; 2] patch -> patch_info_any X DI fuel patch = raise DetoolsError.
Proof. exact info_refuses. Qed.
Print Assumptions C85_info.

(** An in-place patch, a sequential patch, a patch of type 3, a sequential patch of
    compression 7; and a sequential lz4 patch, which is not strange to apply_patch(). *)
Example C85_example : strange [0; 2] [16; 1; 2] /\ strange [1] [0; 4; 0] /\ strange [0; 1; 2] [48] /\ strange [0; 1; 2] [7; 1] /\ ~ strange [0; 2] [6; 0].
Proof.
  split; [left; intros [H|[H|[]]]; discriminate H|]. split; [left; intros [H|[]]; discriminate H|].
  split; [left; intros [H|[H|[H|[]]]]; discriminate H|]. split; [right; intros [_ H]; exact (H eq_refl)|].
  intros [H|H]; [apply H; left; reflexivity|apply H; split; discriminate].
Qed.

(** apply_patch_bsdiff() refuses everything that does not begin with "BSDIFF40" with
    detools.Error, and everything whose header of 32 bytes is not complete with some
    exception. *)
Theorem C85_bsdiff : forall bz fuel clamps from patch, ztake 8 patch <> [66; 83; 68; 73; 70; 70; 52; 48] ->
  apply_patch_bsdiff bz fuel clamps from patch = raise DetoolsError.
Proof. exact magic_refuses. Qed.
Print Assumptions C85_bsdiff.

Theorem C85_bsdiff_short : forall bz fuel clamps from patch, zlen patch < 32 -> exists e, apply_patch_bsdiff bz fuel clamps from patch = raise e.
Proof. exact short_refuses. Qed.
Print Assumptions C85_bsdiff_short.

(** "BSDIFF41" is refused; so is "BSDIFF40" alone, but not with detools.Error. *)
Example C85_bsdiff_example : ztake 8 [66; 83; 68; 73; 70; 70; 52; 49; 0] <> [66; 83; 68; 73; 70; 70; 52; 48] /\
  (zlen [66; 83; 68; 73; 70; 70; 52; 48] < 32)%Z /\ apply_patch_bsdiff PyBsdiff40Examples.stored 10 false (@nil Z) [66; 83; 68; 73; 70; 70; 52; 48] = raise OtherError.
Proof. split; [discriminate|]. split; reflexivity. Qed.

(** C33: patch_info() of a patch of the type hdiffpatch that was created, by whatever
    library, gives the size of the patch, its compression and the size of the to file. *)
Theorem C33_hdiffpatch : forall X DI L C bsdiff ffrom fto a score block use_mmap file fuel, decompressor_of X (cm_number C) <> None ->
  create_patch L C bsdiff ffrom fto a THdiffpatch score block use_mmap = Ret (HVal file) ->
  patch_info_any X DI fuel file = ret (InfoHdiff (zlen file, cm_number C, zlen (pf_content fto))).
Proof. exact hdiff_created_info. Qed.
Print Assumptions C33_hdiffpatch.

Example C33_hdiffpatch_example : decompressor_of ex_ext (cm_number (own_compressor CompCrle (fun _ => []))) <> None /\
  exists file, create_patch toy_hdiff (own_compressor CompCrle (fun _ => [])) never hd_from hd_to AHdiffpatch THdiffpatch 6 64 true = Ret (HVal file) /\
    zlen file = 11.
Proof. split; [discriminate|]. eexists. split; [vm_compute; reflexivity|]. vm_compute. reflexivity. Qed.
