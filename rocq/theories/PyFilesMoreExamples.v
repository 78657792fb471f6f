(** Concrete cases for the theorems about file names with other compressions and with
    patches of any content. *)

From Coq Require Import ZArith List Bool.
From Verif Require Import Prelude Spec SeqSpec Bsdiff BsdiffSpec PyCreate PyInPlace InPlaceSpec PyApply PySpec PyApplyInPlace PyBsdiff40 PyBsdiff40Spec PyFiles PyFilesExamples.
From Verif Require Import PyOther PyOtherSpec PyOtherProofs PyOtherExamples CreateExamples InPlaceExamples PyExamples PyMemExamples.
From Verif Require Import RefuseSpec BodySpec LooseSpec LooseThms PyAnySpec IpLooseSpec IpLooseThms PyBsdiff40Examples Bs40Spec Bs40Proofs.
Import ListNotations.
Open Scope Z_scope.

Lemma ex_other_numbers : other_number 5 /\ pair_ok (zstd_compress plain_lib) (x_other plain_ext 5).
Proof. split; [unfold other_number; auto|]. apply zstd_pair_ok. exact plain_prompt. Qed.

Lemma ex_other_files : exists s1 s2,
  create_patch_filenames (fun from to => raising (create_sequential_with 5 (zstd_compress plain_lib) (sort_suffixes from) from to)) ex_written ex_store 1 2 3 = Ret (Val tt, s1) /\
  apply_patch_filenames plain_ext ex_formats ex_hdiff 200 ex_written s1 1 3 4 = Ret (Val 28, s2) /\ st_file s2 4 = Some ex_to.
Proof. do 2 eexists. split; [vm_compute; reflexivity|]. split; [vm_compute; reflexivity|]. vm_compute. reflexivity. Qed.

Lemma ex_other_in_place_files : exists s1 s2 mem1,
  create_patch_filenames (fun from to => raising (create_in_place_with 5 (zstd_compress plain_lib) sort_suffixes 80 16 None from to)) ex_written ex_store 8 9 3 = Ret (Val tt, s1) /\
  apply_patch_in_place_filenames plain_ext 500 ex_written s1 7 3 = Ret (Val 43, s2) /\ st_file s2 7 = Some mem1 /\ ztake 43 mem1 = ip_to.
Proof. do 3 eexists. split; [vm_compute; reflexivity|]. split; [vm_compute; reflexivity|]. split; [vm_compute; reflexivity|]. vm_compute. reflexivity. Qed.

(** A patch that seeks before the beginning, one that does not, an in-place patch with its
    memory, and two BSDIFF40 patches. *)
Definition calm_example : list Z := [0; 2; 0; 1; 35; 1; 10; 65].
Definition calm_control : list Z := off (-5) ++ off 2 ++ off 1 ++ off 2 ++ off 4 ++ off 0.
Definition any_store : store :=
  mkstore (fun n => match n with
    | 1 => Some [7] | 2 => Some loose_example | 3 => Some calm_example | 4 => Some loose_ip_mem | 5 => Some loose_ip_patch | 6 => Some [10; 20; 30]
    | 7 => Some (bsdiff40 8 (90 :: ex_control) [90; 1; 255] [90; 7; 8; 9]) | 8 => Some (bsdiff40 8 (90 :: calm_control) [90; 1; 255] [90; 7; 8; 9]) | _ => None end)
    (fun _ => false).

Lemma ex_any_files : bytes_ok calm_example /\ patch_type (hd 0 calm_example) = 0 /\ announced_comp calm_example = 0 /\
  (forall n body d l, dec_size (tl calm_example) = Some (n, body) -> dec_size body = Some (d, l) -> d <= 0) /\
  loose_patch false [7] calm_example = Some (2, [42; 10]) /\ loose_patch false [7] loose_example = None /\
  (exists s1, apply_patch_filenames ex_ext ex_formats ex_hdiff 50 ex_written any_store 1 3 9 = Ret (Val 2, s1) /\ st_file s1 9 = Some [42; 10]) /\
  (exists s1, apply_patch_filenames ex_ext ex_formats ex_hdiff 50 ex_written any_store 1 2 9 = Ret (Raise OtherError, s1) /\ st_file s1 9 = Some [0; 2]).
Proof.
  split; [repeat (constructor; [split; [discriminate|reflexivity]|]); constructor|]. split; [reflexivity|]. split; [reflexivity|].
  split; [intros n body d l E1 E2; vm_compute in E1; injection E1 as <- <-; vm_compute in E2; injection E2 as <- <-; discriminate|].
  split; [vm_compute; reflexivity|]. split; [vm_compute; reflexivity|].
  split; (eexists; split; [vm_compute; reflexivity|]; vm_compute; reflexivity).
Qed.

Lemma ex_any_in_place : exists s1, apply_patch_in_place_filenames ex_ext 100 ex_written any_store 4 5 = Ret (Val 5, s1) /\ st_file s1 4 = Some [7; 8; 4; 5; 5; 4; 0; 0; 99].
Proof. eexists. split; [vm_compute; reflexivity|]. vm_compute. reflexivity. Qed.

Lemma ex_any_bsdiff :
  bsdiff_records (length calm_control) false [10; 20; 30] 0 8 calm_control [1; 255] [7; 8; 9] = Some ([7; 8; 21; 29; 9], ([], [], [])) /\
  (exists s1, apply_patch_bsdiff_filenames stored 10 ex_written any_store 6 8 9 = Ret (Val 8, s1) /\ st_file s1 9 = Some [7; 8; 21; 29; 9]) /\
  (exists s1, apply_patch_bsdiff_filenames stored 10 ex_written any_store 6 7 9 = Ret (Raise OtherError, s1) /\ st_file s1 9 = Some [66; 83]).
Proof. split; [vm_compute; reflexivity|]. split; (eexists; split; [vm_compute; reflexivity|]; vm_compute; reflexivity). Qed.
