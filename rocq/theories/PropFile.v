(** Theorems about the file functions and the error codes.  Every proof is an
    application of a lemma of the other files.  The functions of stdio.h are a
    parameter ([stdio]); [fs_stdio] is a file system in which nothing goes wrong
    (CFileSpec.v). *)

From Coq Require Import String.
From Coq Require Import ZArith List Bool.
From Verif Require Import Prelude Heatshrink CReader CSeq CInPlace CFile CFileSpec Spec Bsdiff BsdiffSpec PyCreate CallbackSpec InPlaceSpec PyInPlace.
From Verif Require Import InPlaceFinal FileTrack FileThms CreateExamples InPlaceExamples FileExamples.
Import ListNotations.
Open Scope Z_scope.

(** C38: for all ints but the smallest there is a description; the 27 codes, with
    either sign, have descriptions of their own and all other values have none. *)
Theorem C38_strings : forall e, INT_MIN < e <= INT_MAX ->
  (exists s, error_as_string e = Ret s) /\
  (error_as_string e <> Ret "Unknown error."%string <-> 1 <= Z.abs e <= 27) /\
  error_as_string e = error_as_string (Z.abs e) /\
  (forall f, 1 <= Z.abs e <= 27 -> 1 <= f <= 27 -> error_as_string (Z.abs e) = error_as_string f -> Z.abs e = f).
Proof.
  exact (fun e H => conj (error_string_total e H) (conj (error_string_known e H) (conj (error_string_codes e H) (fun f A B => error_string_distinct (Z.abs e) f A B)))).
Qed.
Print Assumptions C38_strings.

Example C38_example : error_as_string (-9) = Ret "Corrupt patch."%string /\ error_as_string 27 = Ret "Heatshrink header."%string /\ INT_MIN < -9 <= INT_MAX.
Proof. exact ex_error. Qed.

(** The exception: the smallest int is negated, which is undefined. *)
Theorem C38_min_refuted : error_as_string INT_MIN = Undef.
Proof. exact error_string_min. Qed.
Print Assumptions C38_min_refuted.

(** C39 is false for every update to a file that is not empty: every fclose fails, of
    the to file too, and the size of the to file is returned.  For an empty to file
    the failure is reported. *)
Theorem C39_refuted :
  (forall w f, fst (fclose fs_full w f) <> 0) /\
  forall (wb : WordBits), 32 <= word_bits ->
  forall junk c hs sa from to, array_ok sa from -> bytes_ok to -> zlen from < 2 ^ 27 -> zlen to < 2 ^ 27 ->
  (c = CompCrle -> forall chunks, create_patch sa from to = Ret (Some chunks) -> 1 + zlen (concat chunks) < 2 ^ 28) ->
  (c = CompHeatshrink -> forall pieces, bytes_ok (concat pieces) -> compressed CompHeatshrink (concat pieces) (hs pieces)) ->
  exists patch, create_sequential c hs sa from to = Ret (Some patch) /\
    (zlen patch + 128 < 2 ^ word_bits ->
     forall file nf np nt, file nf = Some from -> file np = Some patch -> nt <> nf -> nt <> np ->
     exists n, forall fuel, (n <= fuel)%nat ->
       exists d, apply_patch_filenames fs_full fuel junk (disk file) nf np nt = Ret (if zlen to =? 0 then - E_FILE_CLOSE_FAILED else zlen to, d)).
Proof. exact (conj full_fails close_failure_masked). Qed.
Print Assumptions C39_refuted.

Example C39_example : exists d, @apply_patch_filenames (32 : WordBits) _ fs_full 100 junk_ap (disk ex_files) 1 2 3 = Ret (28, d).
Proof. exact ex_files_full. Qed.

(** C39, what holds: for any behaviour of stdio, if 0 is returned then every fclose
    returned 0; for both functions. *)
Theorem C39_zero : forall (wb : WordBits) W (F : stdio W) fuel w,
  (forall junk from patch to w1 log,
     apply_patch_filenames (tracked F) fuel junk (w, []) from patch to = Ret (0, (w1, log)) -> all_closed log) /\
  (forall junk memory patch sset sget w1 log,
     apply_patch_in_place_filenames (tracked F) fuel junk (w, []) memory patch (option_map tracked_set sset) (option_map tracked_get sget) = Ret (0, (w1, log)) ->
     all_closed log).
Proof.
  exact (fun wb W F fuel w => conj (fun junk from patch to w1 log U => proj2 (filenames_track F fuel junk w from patch to 0 w1 log U) eq_refl)
    (fun junk memory patch sset sget w1 log U => proj2 (in_place_filenames_track F fuel junk w memory patch sset sget 0 w1 log U) eq_refl)).
Qed.
Print Assumptions C39_zero.

Example C39_zero_example : exists d d2 log log2,
  @apply_patch_filenames (32 : WordBits) _ (tracked fs_stdio) 100 junk_ap (disk ex_empty, []) 1 2 3 = Ret (0, (d, log)) /\
  @apply_patch_filenames (32 : WordBits) _ (tracked fs_full) 100 junk_ap (disk ex_empty, []) 1 2 3 = Ret (- E_FILE_CLOSE_FAILED, (d2, log2)) /\ In (EvClose 2 (-1)) log2.
Proof. exact ex_files_empty. Qed.

(** C43, sequential: the patch is created, and applied to the files it writes exactly
    the to file, whatever it contained, changes no other file and leaves no file open. *)
Theorem C43_files : forall (wb : WordBits), 32 <= word_bits ->
  forall junk c hs sa from to, array_ok sa from -> bytes_ok to -> zlen from < 2 ^ 27 -> zlen to < 2 ^ 27 ->
  (c = CompCrle -> forall chunks, create_patch sa from to = Ret (Some chunks) -> 1 + zlen (concat chunks) < 2 ^ 28) ->
  (c = CompHeatshrink -> forall pieces, bytes_ok (concat pieces) -> compressed CompHeatshrink (concat pieces) (hs pieces)) ->
  exists patch, create_sequential c hs sa from to = Ret (Some patch) /\
    (zlen patch + 128 < 2 ^ word_bits ->
     forall file nf np nt, file nf = Some from -> file np = Some patch -> nt <> nf -> nt <> np ->
     exists n, forall fuel, (n <= fuel)%nat ->
       exists d, apply_patch_filenames fs_stdio fuel junk (disk file) nf np nt = Ret (zlen to, d) /\
         fs_file d nt = Some to /\ (forall name, name <> nt -> fs_file d name = file name) /\ (forall f, fs_open d f = None)).
Proof. exact files_round_trip. Qed.
Print Assumptions C43_files.

Example C43_example : array_ok ex_sa ex_from /\ bytes_ok ex_to /\
  (create_sequential CompCrle literals ex_sa ex_from ex_to = Ret (Some ex_patch) /\ zlen ex_patch + 128 < 2 ^ 32 /\ ex_files 1 = Some ex_from /\ ex_files 2 = Some ex_patch) /\
  exists d, @apply_patch_filenames (32 : WordBits) _ fs_stdio 100 junk_ap (disk ex_files) 1 2 3 = Ret (28, d) /\ fs_file d 3 = Some ex_to /\ fs_file d 4 = Some [4].
Proof. exact (conj ex_array (conj ex_to_bytes (conj ex_files_created ex_files_run))). Qed.

(** C43, in-place, without step callbacks: the memory is a file that is at least as
    long as the memory of the patch and starts with the from data.  It is left with
    its length, with the to data at the start, and unchanged behind the memory. *)
Theorem C43_in_place : forall (wb : WordBits), 32 <= word_bits ->
  forall c hs sa memory segment minimum_shift from to,
  (forall l, array_ok (sa l) l) -> bytes_ok to ->
  0 < segment -> (segment | memory) -> (segment | minimum_of segment minimum_shift) ->
  segment <= minimum_of segment minimum_shift <= memory ->
  memory < 2 ^ 27 -> zlen from < 2 ^ 27 -> zlen to <= memory ->
  let shift := calc_shift memory segment (minimum_of segment minimum_shift) (zlen from) in
  (c = CompCrle -> forall body,
     create_in_place_segments sa segment shift (kept memory shift from) to (Z.to_nat (py_div_ceil (zlen to) segment)) 0 = Ret (Some body) ->
     zlen body < 2 ^ 28) ->
  (c = CompHeatshrink -> forall pieces, bytes_ok (concat pieces) -> compressed CompHeatshrink (concat pieces) (hs pieces)) ->
  exists patch, create_in_place c hs sa memory segment minimum_shift from to = Ret (Some patch) /\
    (zlen patch + 128 < 2 ^ word_bits ->
     forall junk file nm np bytes, file nm = Some bytes -> file np = Some patch -> nm <> np ->
     memory <= zlen bytes <= INT_MAX -> ztake (zlen from) bytes = from ->
     exists n, forall fuel, (n <= fuel)%nat ->
       exists d out, apply_patch_in_place_filenames fs_stdio fuel junk (disk file) nm np None None = Ret (zlen to, d) /\
         fs_file d nm = Some out /\ zlen out = zlen bytes /\ ztake (zlen to) out = to /\ zdrop memory out = zdrop memory bytes /\
         (forall name, name <> nm -> fs_file d name = file name) /\ (forall f, fs_open d f = None)).
Proof. exact in_place_files. Qed.
Print Assumptions C43_in_place.

Example C43_in_place_example :
  (create_in_place CompCrle literals sort_suffixes 80 16 None ip_from ip_to = Ret (Some ip_patch) /\
   80 <= zlen ip_bytes <= INT_MAX /\ ztake (zlen ip_from) ip_bytes = ip_from /\ zlen ip_patch + 128 < 2 ^ 32) /\
  exists d out, @apply_patch_in_place_filenames (32 : WordBits) _ fs_stdio 200 junk_ip (disk ip_files) 1 2 None None = Ret (43, d) /\
    fs_file d 1 = Some out /\ ztake 43 out = ip_to /\ zdrop 80 out = [5; 6; 7].
Proof. exact (conj ex_ip_files ex_ip_files_run). Qed.

(** C44: for any behaviour of stdio, any patch and any result: every file opened is
    closed exactly once, no file is used before it is opened or after it is closed,
    and no other file is used or closed. *)
Theorem C44_discipline : forall (wb : WordBits) W (F : stdio W) fuel w,
  (forall junk from patch to r w1 log,
     apply_patch_filenames (tracked F) fuel junk (w, []) from patch to = Ret (r, (w1, log)) -> disciplined [] log) /\
  (forall junk memory patch sset sget r w1 log,
     apply_patch_in_place_filenames (tracked F) fuel junk (w, []) memory patch (option_map tracked_set sset) (option_map tracked_get sget) = Ret (r, (w1, log)) ->
     disciplined [] log).
Proof.
  exact (fun wb W F fuel w => conj (fun junk from patch to r w1 log U => proj1 (filenames_track F fuel junk w from patch to r w1 log U))
    (fun junk memory patch sset sget r w1 log U => proj1 (in_place_filenames_track F fuel junk w memory patch sset sget r w1 log U))).
Qed.
Print Assumptions C44_discipline.

Example C44_example :
  (exists d log, @apply_patch_filenames (32 : WordBits) _ (tracked fs_stdio) 100 junk_ap (disk ex_files, []) 1 2 3 = Ret (28, (d, log)) /\
     firstn 4 log = [EvOpen 1; EvOpen 2; EvOpen 3; EvUse 3] /\ In (EvClose 2 0) log) /\
  (exists d, @apply_patch_filenames (32 : WordBits) _ (tracked fs_stdio) 100 junk_ap (disk ex_files, []) 1 9 3
     = Ret (- E_FILE_OPEN_FAILED, (d, [EvOpen 1; EvOpen 2; EvClose 2 0; EvClose 1 0])) /\ fs_file d 3 = Some []) /\
  exists d log, @apply_patch_in_place_filenames (32 : WordBits) _ (tracked fs_stdio) 200 junk_ip (disk ip_files, []) 1 2
    (option_map tracked_set (Some (fun d _ => (0, d)))) None = Ret (43, (d, log)) /\ firstn 3 log = [EvOpen 1; EvOpen 2; EvUse 2] /\ In (EvClose 2 0) log.
Proof. exact (conj ex_files_log (conj ex_files_missing ex_ip_files_log)). Qed.

(** C45 is false: a failed call leaves an existing to file empty, even when the patch
    file does not exist. *)
Theorem C45_refuted : exists (wb : WordBits) file nf np nt old fuel junk d,
  file nt = Some old /\ old <> [] /\ file np = None /\ nf <> nt /\ np <> nt /\
  apply_patch_filenames fs_stdio fuel junk (disk file) nf np nt = Ret (- E_FILE_OPEN_FAILED, d) /\ fs_file d nt = Some [].
Proof. exact files_lost. Qed.
Print Assumptions C45_refuted.

(** C46: with a memory without erased cells at the start, no cell the update has
    erased is read before it is written again: [strict_flash_env] fails on such a
    read, and every attempt, after any interruptions, succeeds unless power is lost
    in it. *)
Theorem C46_no_erased_read : forall (wb : WordBits), 32 <= word_bits ->
  forall memory segment shift from to mem c patch,
  sizes_ok memory segment shift (zlen from) (zlen to) -> in_place_update c memory segment shift from to patch ->
  bytes_ok patch -> zlen patch + 128 < 2 ^ word_bits -> memory <= zlen mem -> holds mem from ->
  (forall x, znth mem x <> Some None) ->
  let ok := division c memory segment shift (zlen from) (zlen to) patch in
  exists n, forall d, interrupted (zlen patch) ok (new_device mem) d ->
  forall fuel junk power torn torn_step pieces, ok pieces -> (n <= fuel)%nat ->
  exists r s d1, ip_apply strict_flash_env fuel junk (zlen patch) (power_up d power torn torn_step) pieces = Ret (r, s, d1) /\
    (r = zlen to /\ holds (d_mem d1) to /\ d_step d1 = 0 \/ r < 0 /\ power <> None /\ d_off d1 = true).
Proof. exact in_place_no_erased_read. Qed.
Print Assumptions C46_no_erased_read.

Example C46_example :
  (sizes_ok 80 16 32 (zlen ip_from) (zlen ip_to) /\ in_place_update CompCrle 80 16 32 ip_from ip_to ip_patch /\ bytes_ok ip_patch) /\
  (holds ip_full ip_from /\ 80 <= zlen ip_full /\ forall x, znth ip_full x <> Some None) /\
  (exists s d, @ip_apply (32 : WordBits) _ strict_flash_env 200 junk_ip (zlen ip_patch) (new_device ip_full) [ip_patch] = Ret (43, s, d) /\
    In (ERead 37 13) (d_log d) /\ In (EErase 32 16) (d_log d)) /\
  exists d, mem_read strict_flash_env (new_device [Some 1; None]) 0 2 = (-1, [], d).
Proof. exact (conj ex_ip_update (conj ex_ip_full (conj ex_ip_strict ex_strict_read))). Qed.
