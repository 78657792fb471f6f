(** What is asked of the HDiffPatch library, of the compressors and of the memory. *)

From Coq Require Import ZArith List Bool.
From Verif Require Import Prelude Spec PyApply PySpec PyHdiff.
Import ListNotations.
Open Scope Z_scope.

(** A patch for the pair of files: it holds the sizes, and applying it with a cache of
    at least 8 kB (PATCH_CACHE_SIZE_MIN) gives the to data. *)
Definition lib_patch_for (L : hdiff_lib) (from to patch : list Z) : Prop :=
  patch <> [] /\ bytes_ok patch /\ zlen patch < 2 ^ 63 /\ hl_info L patch = Some (zlen from, zlen to) /\
  forall cache, 8192 <= cache -> hl_patch L from patch cache = Some to.

(** The library's own format (patch type 2): whatever it creates is a patch for the
    pair of files. *)
Definition lib_ok (L : hdiff_lib) : Prop :=
  forall from to n patch, bytes_ok from -> bytes_ok to ->
    hl_diff L from to n 2 = Some patch \/ hl_diff_stream L from to n 2 = Some patch -> lib_patch_for L from to patch.

(** detools' additions to the library (patch type 0): what it creates are the records
    of a sequential patch, the last one of them not empty. *)
Definition lib_sequential_ok (L : hdiff_lib) : Prop :=
  forall from to n patch, bytes_ok from -> bytes_ok to ->
    hl_diff L from to n 0 = Some patch \/ hl_diff_stream L from to n 0 = Some patch ->
    bytes_ok patch /\ zlen patch < 2 ^ 62 /\
    exists recs, patch = enc_recs recs /\ apply_recs from 0 recs = Some to /\ recs_fit recs /\ (to = [] \/ last_nonempty recs).

(** The decompressor for the number in the header takes back what the compressor
    produces. *)
Definition compressor_ok (X : externals) (C : compressor) : Prop :=
  exists D, decompressor_of X (cm_number C) = Some D /\
    forall pieces, bytes_ok (concat pieces) -> concat pieces <> [] -> zlen (concat pieces) < 2 ^ 63 ->
      exists stream, cm_compress C pieces = Some stream /\ decodes D (concat pieces) stream.

(** The to data can be allocated, and malloc() succeeds after some number of failures. *)
Definition memory_ok (M : hdiff_memory) (to_size : Z) : Prop :=
  hm_bytearray M to_size = true /\ exists attempt, forall size, hm_malloc M attempt size = true.

(** The files can be read: with [use_mmap] they must be real files that are not
    empty. *)
Definition readable (use_mmap : bool) (f : py_file) : Prop :=
  use_mmap = true -> pf_fileno f = true /\ pf_content f <> [].
