(** Concrete cases for the theorems about the ranges printed for an in-place patch. *)

From Coq Require Import ZArith List Bool.
From Verif Require Import Prelude Spec PyCreate PyInPlace PyApply PyInfo PyInfoExamples PyReport ReportSpec BsdiffSpec CreateExamples InPlaceSpec InPlaceExamples PyExamples PyMemExamples.
Import ListNotations.
Open Scope Z_scope.

(** The ranges of the example of C33_in_place. *)
Lemma ex_report : exists info, patch_info ex_ext ex_di ex_hi 100 ip_patch = ret (InfoInPlace info) /\
  report_ranges info = [((0, 40), (0, 16)); ((0, 40), (16, 32)); ((16, 40), (32, 43))].
Proof. eexists. split; [exact ex_info_in_place|]. vm_compute. reflexivity. Qed.

(** With to data as large as the memory nothing is left of the from data in the end. *)
Definition long_to : list Z := zrepeat 7 80.

Lemma ex_backwards : exists patch info, create_in_place CompNone literals sort_suffixes 80 16 None ip_from long_to = Ret (Some patch) /\
  patch_info ex_ext ex_di ex_hi 200 patch = ret (InfoInPlace info) /\ In ((48, 40), (64, 80)) (report_ranges info).
Proof. eexists. eexists. split; [vm_compute; reflexivity|]. split; [vm_compute; reflexivity|]. vm_compute. tauto. Qed.
