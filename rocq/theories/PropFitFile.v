(** Theorems about the callback function and the file function, for sequential patches
    of any content.  What a patch describes is in BodySpec.v, the limits are in FitSpec.v;
    [fs_stdio] is a file system in which nothing goes wrong (CFileSpec.v).  Every proof is
    an application of a lemma of the other files. *)

From Coq Require Import ZArith List Bool.
From Verif Require Import Prelude CReader CSeq CFile CFileSpec CallbackSpec Spec SeqSpec RefuseSpec BodySpec BodyThms FitSpec SeqExamples Refuted FitFileThms FitFileExamples.
Import ListNotations.
Open Scope Z_scope.

(** C75: the patch file may contain anything.  Only the to file is changed and no file is
    left open; if a size is returned then it is the size in the header of the patch, and
    the to file contains exactly what the body of the patch describes. *)
Theorem C75_meaning : forall (wb : WordBits), 32 <= word_bits ->
  forall junk fuel from patch body c file nf np nt v d,
  file nf = Some from -> file np = Some patch -> nt <> nf -> nt <> np -> patch <> [] ->
  bytes_ok patch -> zlen patch < 2 ^ word_bits -> announced_comp patch = comp_number c -> compressed c body (body_of patch) ->
  bytes_ok body -> zlen body < 2 ^ 31 ->
  apply_patch_filenames fs_stdio fuel junk (disk file) nf np nt = Ret (v, d) ->
  (forall name, name <> nt -> fs_file d name = file name) /\ (forall f, fs_open d f = None) /\
  exists out, fs_file d nt = Some out /\
    (0 <= v -> announced_size patch = Some v /\ exists rest, described from v body = Some (out, rest) /\ (c = CompNone -> rest = [])).
Proof. exact file_meaning. Qed.
Print Assumptions C75_meaning.

(** C75, acceptance: a patch that describes something within the limits is applied. *)
Theorem C75_accepts : forall (wb : WordBits), 32 <= word_bits ->
  forall junk from patch body c n to file nf np nt,
  file nf = Some from -> file np = Some patch -> nt <> nf -> nt <> np ->
  bytes_ok patch -> zlen patch + 128 < 2 ^ word_bits -> patch_type (hd 0 patch) = 0 ->
  announced_comp patch = comp_number c -> compressed c body (body_of patch) -> bytes_ok body -> zlen from < 2 ^ 31 ->
  announced_size patch = Some n -> described from n body = Some (to, []) -> fits n patch body = true ->
  exists m, forall fuel, (m <= fuel)%nat ->
    exists d, apply_patch_filenames fs_stdio fuel junk (disk file) nf np nt = Ret (n, d) /\ fs_file d nt = Some to /\
      (forall name, name <> nt -> fs_file d name = file name) /\ (forall f, fs_open d f = None).
Proof. exact file_accepts. Qed.
Print Assumptions C75_accepts.

(** C75, uncompressed patches: exactly those are applied. *)
Theorem C75_exactly : forall (wb : WordBits), 32 <= word_bits ->
  forall junk from patch v to file nf np nt,
  file nf = Some from -> file np = Some patch -> nt <> nf -> nt <> np -> patch <> [] ->
  bytes_ok patch -> zlen patch + 128 < 2 ^ word_bits -> zlen patch < 2 ^ 31 -> zlen from < 2 ^ 31 -> announced_comp patch = 0 ->
  ((exists fuel d, apply_patch_filenames fs_stdio fuel junk (disk file) nf np nt = Ret (v, d) /\ 0 <= v /\ fs_file d nt = Some to) <->
   patch_type (hd 0 patch) = 0 /\ announced_size patch = Some v /\
   described from v (body_of patch) = Some (to, []) /\ fits v patch (body_of patch) = true).
Proof. exact file_exactly. Qed.
Print Assumptions C75_exactly.

(** C75, the callback function on the same from data and patch. *)
Theorem C75_callbacks : forall (wb : WordBits), 32 <= word_bits ->
  forall junk from patch v to,
  bytes_ok patch -> zlen patch + 128 < 2 ^ word_bits -> zlen patch < 2 ^ 31 -> zlen from < 2 ^ 31 -> announced_comp patch = 0 -> patch <> [] ->
  ((exists fuel s w pos, apply_patch_callbacks (env_with file_env Z) fuel junk (patch_file patch) (zlen patch) (mkfiles from 0 [], 0) = Ret (v, s, (w, pos)) /\
      0 <= v /\ f_to w = to) <->
   patch_type (hd 0 patch) = 0 /\ announced_size patch = Some v /\
   described from v (body_of patch) = Some (to, []) /\ fits v patch (body_of patch) = true).
Proof. exact run_exactly. Qed.
Print Assumptions C75_callbacks.

(** A patch with overlong sizes and an empty record; its conditions are C74_example. *)
Example C75_example :
  (exists s w pos, @run_callbacks w64 100 ex_junk [10; 20; 30; 40] odd_patch = Ret (3, s, (w, pos)) /\ f_to w = [31; 39; 9] /\ pos = zlen odd_patch) /\
  (exists d, @apply_patch_filenames w64 _ fs_stdio 100 ex_junk (disk (fit_files odd_patch)) 1 2 3 = Ret (3, d) /\ fs_file d 3 = Some [31; 39; 9] /\ fs_file d 4 = Some [4]).
Proof. exact (conj ex_fit_callbacks ex_fit_files). Qed.

(** Without its last byte it is refused. *)
Example C75_short : exists code d out, @apply_patch_filenames w64 _ fs_stdio 100 ex_junk (disk (fit_files (ztake (zlen odd_patch - 1) odd_patch))) 1 2 3 = Ret (code, d) /\
  code < 0 /\ fs_file d 3 = Some out /\ fs_file d 1 = Some [10; 20; 30; 40].
Proof. exact ex_fit_short. Qed.
