(** Concrete cases for the theorems about the file functions. *)

From Coq Require Import String.
From Coq Require Import ZArith List Bool Lia ZifyBool ZifyNat ZifyN.
From Verif Require Import Prelude Lib Heatshrink CReader CSeq CInPlace CFile CFileSpec Spec Bsdiff BsdiffSpec PyCreate CreateExamples
  CallbackSpec InPlaceSpec PyInPlace InPlaceExamples.
Import ListNotations.
Open Scope Z_scope.

(** File 1 is the from file, 2 the patch, 3 the to file with old contents, 4 some other file. *)
Definition ex_patch : list Z :=
  match create_sequential CompCrle literals ex_sa ex_from ex_to with Ret (Some p) => p | _ => [] end.

Definition ex_files (name : Z) : option (list Z) :=
  match name with 1 => Some ex_from | 2 => Some ex_patch | 3 => Some [1; 2; 3] | 4 => Some [4] | _ => None end.

Lemma ex_files_created : create_sequential CompCrle literals ex_sa ex_from ex_to = Ret (Some ex_patch) /\ zlen ex_patch + 128 < 2 ^ 32 /\
  ex_files 1 = Some ex_from /\ ex_files 2 = Some ex_patch.
Proof. split; [vm_compute; reflexivity|]. split; [vm_compute; reflexivity|]. split; reflexivity. Qed.

Lemma ex_files_run : exists d, @apply_patch_filenames (32 : WordBits) _ fs_stdio 100 junk_ap (disk ex_files) 1 2 3 = Ret (28, d) /\
  fs_file d 3 = Some ex_to /\ fs_file d 4 = Some [4].
Proof. eexists. split; [vm_compute; reflexivity|]. split; vm_compute; reflexivity. Qed.

Lemma ex_files_full : exists d, @apply_patch_filenames (32 : WordBits) _ fs_full 100 junk_ap (disk ex_files) 1 2 3 = Ret (28, d).
Proof. eexists. vm_compute. reflexivity. Qed.

(** The log of a successful update, and of one in which the patch is missing. *)
Lemma ex_files_log : exists d log, @apply_patch_filenames (32 : WordBits) _ (tracked fs_stdio) 100 junk_ap (disk ex_files, []) 1 2 3 = Ret (28, (d, log)) /\
  firstn 4 log = [EvOpen 1; EvOpen 2; EvOpen 3; EvUse 3] /\ In (EvClose 2 0) log.
Proof. do 2 eexists. split; [vm_compute; reflexivity|]. split; [vm_compute; reflexivity|]. vm_compute. intuition. Qed.

Lemma ex_files_missing : exists d, @apply_patch_filenames (32 : WordBits) _ (tracked fs_stdio) 100 junk_ap (disk ex_files, []) 1 9 3
  = Ret (- E_FILE_OPEN_FAILED, (d, [EvOpen 1; EvOpen 2; EvClose 2 0; EvClose 1 0])) /\ fs_file d 3 = Some [].
Proof. eexists. split; vm_compute; reflexivity. Qed.

(** A patch to an empty file: 0 is returned if and only if all is closed. *)
Definition ex_empty (name : Z) : option (list Z) := match name with 1 => Some [7] | 2 => Some [2; 0] | _ => None end.
Lemma ex_files_empty : exists d d2 log log2,
  @apply_patch_filenames (32 : WordBits) _ (tracked fs_stdio) 100 junk_ap (disk ex_empty, []) 1 2 3 = Ret (0, (d, log)) /\
  @apply_patch_filenames (32 : WordBits) _ (tracked fs_full) 100 junk_ap (disk ex_empty, []) 1 2 3 = Ret (- E_FILE_CLOSE_FAILED, (d2, log2)) /\ In (EvClose 2 (-1)) log2.
Proof. do 4 eexists. split; [vm_compute; reflexivity|]. split; [vm_compute; reflexivity|]. vm_compute. intuition. Qed.

(** The to file is emptied although there is no patch to apply. *)
Lemma files_lost : exists (wb : WordBits) file nf np nt old fuel junk d,
  file nt = Some old /\ old <> [] /\ file np = None /\ nf <> nt /\ np <> nt /\
  apply_patch_filenames fs_stdio fuel junk (disk file) nf np nt = Ret (- E_FILE_OPEN_FAILED, d) /\ fs_file d nt = Some [].
Proof.
  exists 32, ex_files, 1, 9, 3, [1; 2; 3], 9%nat, junk_ap. eexists. split; [reflexivity|]. split; [discriminate|]. split; [reflexivity|]. split; [lia|]. split; [lia|].
  split; vm_compute; reflexivity.
Qed.

(** In-place: the memory file is longer than the memory. *)
Definition ip_bytes : list Z := ip_from ++ zrepeat 77 40 ++ [5; 6; 7].
Definition ip_files (name : Z) : option (list Z) := match name with 1 => Some ip_bytes | 2 => Some ip_patch | _ => None end.

Lemma ex_ip_files : create_in_place CompCrle literals sort_suffixes 80 16 None ip_from ip_to = Ret (Some ip_patch) /\
  80 <= zlen ip_bytes <= INT_MAX /\ ztake (zlen ip_from) ip_bytes = ip_from /\ zlen ip_patch + 128 < 2 ^ 32.
Proof. split; [apply ex_ip_created|]. split; [vm_compute; split; congruence|]. split; [vm_compute; reflexivity|]. vm_compute. reflexivity. Qed.

Lemma ex_ip_files_run : exists d out, @apply_patch_in_place_filenames (32 : WordBits) _ fs_stdio 200 junk_ip (disk ip_files) 1 2 None None = Ret (43, d) /\
  fs_file d 1 = Some out /\ ztake 43 out = ip_to /\ zdrop 80 out = [5; 6; 7].
Proof. do 2 eexists. split; [vm_compute; reflexivity|]. split; [vm_compute; reflexivity|]. split; vm_compute; reflexivity. Qed.

Lemma ex_ip_files_log : exists d log, @apply_patch_in_place_filenames (32 : WordBits) _ (tracked fs_stdio) 200 junk_ip (disk ip_files, []) 1 2
    (option_map tracked_set (Some (fun d _ => (0, d)))) None = Ret (43, (d, log)) /\ firstn 3 log = [EvOpen 1; EvOpen 2; EvUse 2] /\ In (EvClose 2 0) log.
Proof. do 2 eexists. split; [vm_compute; reflexivity|]. split; [vm_compute; reflexivity|]. vm_compute. intuition. Qed.

(** A memory without erased cells, interrupted once. *)
Definition ip_full : list (option Z) := map Some ip_bytes.
Lemma ex_ip_full : holds ip_full ip_from /\ 80 <= zlen ip_full /\ forall x, znth ip_full x <> Some None.
Proof.
  split; [vm_compute; reflexivity|]. split; [vm_compute; congruence|]. intros x. unfold ip_full, znth. destruct (x <? 0); [discriminate|].
  rewrite nth_error_map. destruct (nth_error ip_bytes (Z.to_nat x)); discriminate.
Qed.

Lemma ex_ip_strict : exists s d, @ip_apply (32 : WordBits) _ strict_flash_env 200 junk_ip (zlen ip_patch) (new_device ip_full) [ip_patch] = Ret (43, s, d) /\
  In (ERead 37 13) (d_log d) /\ In (EErase 32 16) (d_log d).
Proof. do 2 eexists. split; [vm_compute; reflexivity|]. vm_compute. intuition. Qed.

(** Reading an erased cell is noticed. *)
Lemma ex_strict_read : exists d, mem_read strict_flash_env (new_device [Some 1; None]) 0 2 = (-1, [], d).
Proof. eexists. vm_compute. reflexivity. Qed.

Lemma ex_error : error_as_string (-9) = Ret "Corrupt patch."%string /\ error_as_string 27 = Ret "Heatshrink header."%string /\ INT_MIN < -9 <= INT_MAX.
Proof. split; [reflexivity|]. split; [reflexivity|]. split; reflexivity || (unfold INT_MIN, INT_MAX; lia). Qed.
