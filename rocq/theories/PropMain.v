(** Theorems about the command line program of the C library (c/main.c).  Every proof is
    an application of a lemma of the other files. *)

From Coq Require Import String.
From Coq Require Import ZArith List Bool.
From Verif Require Import Prelude Heatshrink CReader CSeq CInPlace CFile CFileSpec Spec Bsdiff BsdiffSpec PyCreate CallbackSpec InPlaceSpec PyInPlace.
From Verif Require Import CreateExamples InPlaceExamples FileExamples CMain MainSpec MainProofs.
Import ListNotations.
Open Scope Z_scope.

(** C68: the exit status of a command is zero and nothing is printed if the library
    function succeeded; otherwise the status is the error code, between 1 and 27, and its
    description is printed.  [F] is any behaviour of stdio. *)
Theorem C68_status : forall (wb : WordBits), 32 <= word_bits ->
  forall (W : Type) (F : stdio W) fuel jap jip file argv w c r w1, command_of argv c ->
  library_call F fuel jap jip file w c = Ret (r, w1) ->
  (0 <= r /\ cmain F fuel jap jip file argv w = Ret (0, [], w1)) \/
  (r < 0 /\ 1 <= - r <= 27 /\ exists text, cmain F fuel jap jip file argv w = Ret (- r, [ErrorText text (- r)], w1) /\
     error_as_string r = Ret text /\ text <> "Unknown error."%string).
Proof. exact @main_command. Qed.
Print Assumptions C68_status.

(** C68: anything else than a command with its arguments prints a usage text, ends with
    status 1 and touches no file. *)
Theorem C68_usage : forall (wb : WordBits) (W : Type) (F : stdio W) fuel jap jip file argv w,
  (forall c, ~ command_of argv c) ->
  exists usage, is_usage usage /\ cmain F fuel jap jip file argv w = Ret (1, [usage], w).
Proof. exact @main_otherwise. Qed.
Print Assumptions C68_usage.

(** C68: the commands carry out updates. *)
Theorem C68_apply_patch : forall (wb : WordBits), 32 <= word_bits ->
  forall jap jip c hs sa from to, array_ok sa from -> bytes_ok to -> zlen from < 2 ^ 27 -> zlen to < 2 ^ 27 ->
  (c = CompCrle -> forall chunks, create_patch sa from to = Ret (Some chunks) -> 1 + zlen (concat chunks) < 2 ^ 28) ->
  (c = CompHeatshrink -> forall pieces, bytes_ok (concat pieces) -> compressed CompHeatshrink (concat pieces) (hs pieces)) ->
  exists patch, create_sequential c hs sa from to = Ret (Some patch) /\
    (zlen patch + 128 < 2 ^ word_bits ->
     forall file number fromfile patchfile tofile, file (number fromfile) = Some from -> file (number patchfile) = Some patch ->
     number tofile <> number fromfile -> number tofile <> number patchfile ->
     exists n, forall fuel, (n <= fuel)%nat ->
       exists d, cmain fs_stdio fuel jap jip number ["apply_patch"; fromfile; patchfile; tofile]%string (disk file) = Ret (0, [], d) /\
         fs_file d (number tofile) = Some to /\ (forall name, name <> number tofile -> fs_file d name = file name)).
Proof. exact @main_updates. Qed.
Print Assumptions C68_apply_patch.

Theorem C68_apply_patch_in_place : forall (wb : WordBits), 32 <= word_bits ->
  forall c hs sa memory segment minimum_shift from to,
  (forall l, array_ok (sa l) l) -> bytes_ok to ->
  0 < segment -> (segment | memory) -> (segment | minimum_of segment minimum_shift) ->
  segment <= minimum_of segment minimum_shift <= memory ->
  memory < 2 ^ 27 -> zlen from < 2 ^ 27 -> zlen to <= memory ->
  let shift := calc_shift memory segment (minimum_of segment minimum_shift) (zlen from) in
  (c = CompCrle -> forall body,
     create_in_place_segments sa segment shift (kept memory shift from) to (Z.to_nat (py_div_ceil (zlen to) segment)) 0 = Ret (Some body) ->
     zlen body < 2 ^ 28) ->
  (c = CompHeatshrink -> forall pieces, bytes_ok (concat pieces) -> compressed CompHeatshrink (concat pieces) (hs pieces)) ->
  exists patch, create_in_place c hs sa memory segment minimum_shift from to = Ret (Some patch) /\
    (zlen patch + 128 < 2 ^ word_bits ->
     forall jap jip file number memfile patchfile bytes, file (number memfile) = Some bytes -> file (number patchfile) = Some patch -> number memfile <> number patchfile ->
     memory <= zlen bytes <= INT_MAX -> ztake (zlen from) bytes = from ->
     exists n, forall fuel, (n <= fuel)%nat ->
       exists d out, cmain fs_stdio fuel jap jip number ["apply_patch_in_place"; memfile; patchfile]%string (disk file) = Ret (0, [], d) /\
         fs_file d (number memfile) = Some out /\ zlen out = zlen bytes /\ ztake (zlen to) out = to /\ zdrop memory out = zdrop memory bytes /\
         (forall name, name <> number memfile -> fs_file d name = file name)).
Proof. exact @main_updates_in_place. Qed.
Print Assumptions C68_apply_patch_in_place.

(** Status zero does not mean that the new file could be closed. *)
Theorem C68_close_refuted :
  (forall w f, fst (fclose fs_full w f) <> 0) /\
  exists d, @cmain (32 : WordBits) _ fs_full 100 junk_ap junk_ip ex_number ["apply_patch"; "old"; "patch"; "new"]%string (disk ex_files) = Ret (0, [], d).
Proof. exact main_close_masked. Qed.
Print Assumptions C68_close_refuted.

(** An update, an update with a file that is not a patch, an update in place and a command
    without all arguments. *)
Example C68_example :
  ((exists d, @cmain (32 : WordBits) _ fs_stdio 100 junk_ap junk_ip ex_number ["apply_patch"; "old"; "patch"; "new"]%string (disk ex_files) = Ret (0, [], d) /\ fs_file d 3 = Some ex_to) /\
   (exists d, @cmain (32 : WordBits) _ fs_stdio 100 junk_ap junk_ip ex_number ["apply_patch"; "old"; "other"; "new"]%string (disk ex_files) = Ret (19, [ErrorText "Not enough patch data." 19], d))) /\
  (exists d out, @cmain (32 : WordBits) _ fs_stdio 200 junk_ap junk_ip ex_number ["apply_patch_in_place"; "old"; "patch"]%string (disk ip_files) = Ret (0, [], d) /\
     fs_file d 1 = Some out /\ ztake 43 out = ip_to) /\
  (forall c, ~ command_of ["apply_patch"; "old"; "patch"]%string c).
Proof. exact (conj ex_main_run (conj ex_main_in_place ex_main_usage)). Qed.
