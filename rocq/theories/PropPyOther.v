(** Theorems about patches compressed with other packages: C61. *)

From Coq Require Import ZArith List Bool.
From Verif Require Import Prelude Spec Bsdiff BsdiffSpec PyCreate PyInPlace PyApply PySpec PyApplyInPlace PyOther PyOtherSpec PyAnySpec.
From Verif Require Import CreateExamples InPlaceSpec InPlaceExamples PyExamples PyMemExamples PyOtherProofs PyOtherFinite PyOtherExamples.
Import ListNotations.
Open Scope Z_scope.

(** C61: for lzma (1), bz2 (3), zstd (5) and lz4 (6), whatever their packages do as long
    as decompressor and compressor belong together and the end is reported with the last
    byte of the data: a sequential patch is created, and applying it to the from data
    returns the to data. *)
Theorem C61_round_trip : forall X F hdiff clamps number compress sa from to,
  other_number number -> pair_ok compress (x_other X number) ->
  array_ok sa from -> bytes_ok to -> zlen from < 2 ^ 30 -> zlen to < 2 ^ 30 ->
  exists patch, create_sequential_with number compress sa from to = Ret (Some patch) /\
    exists n, forall fuel, (n <= fuel)%nat -> apply_patch X F hdiff fuel clamps from patch = ret (zlen to, to).
Proof. exact other_round_trip. Qed.
Print Assumptions C61_round_trip.

(** The same for in-place patches. *)
Theorem C61_in_place : forall X bytesio number compress sa memory segment minimum_shift from to mem,
  other_number number ->
  (forall l, array_ok (sa l) l) -> bytes_ok to ->
  0 < segment < 2 ^ 63 -> (segment | memory) -> (segment | minimum_of segment minimum_shift) ->
  0 <= minimum_of segment minimum_shift <= memory -> memory < 2 ^ 30 -> zlen to <= memory -> zlen from < 2 ^ 63 ->
  memory <= zlen mem -> ztake (zlen from) mem = from ->
  pair_ok compress (x_other X number) ->
  exists patch, create_in_place_with number compress sa memory segment minimum_shift from to = Ret (Some patch) /\
    exists n, forall fuel, (n <= fuel)%nat ->
    exists mem1, apply_patch_in_place X fuel bytesio mem patch = ret (zlen to, mem1) /\
      ztake (zlen to) mem1 = to /\ zdrop memory mem1 = zdrop memory mem /\ zlen mem1 = zlen mem.
Proof. exact other_in_place. Qed.
Print Assumptions C61_in_place.

(** If the end is reported only once the whole stream has been read, as the packages do
    that end a stream with a mark or a checksum, patches of up to 4096 bytes work. *)
Theorem C61_short : forall X F hdiff clamps number compress sa from to,
  other_number number -> pair_late compress (x_other X number) ->
  array_ok sa from -> bytes_ok to -> zlen from < 2 ^ 30 -> zlen to < 2 ^ 30 ->
  exists patch, create_sequential_with number compress sa from to = Ret (Some patch) /\
    (zlen patch <= 4096 -> exists n, forall fuel, (n <= fuel)%nat -> apply_patch X F hdiff fuel clamps from patch = ret (zlen to, to)).
Proof. exact other_short. Qed.
Print Assumptions C61_short.

(** Longer ones need not: if the last piece that is read from the file holds nothing but
    the rest of the end mark, it is never read, and the created patch is refused. *)
Theorem C61_long_refuted : exists L, zstd_ok L /\ exists X, x_other X 5 = zstd_dec L /\
  exists patch, create_sequential_with 5 (zstd_compress L) (sort_suffixes []) [] long_to = Ret (Some patch) /\ zlen patch = 4100 /\
    apply_patch X ex_formats ex_hdiff (Z.to_nat 20000) false [] patch = raise DetoolsError.
Proof. exact (ex_intro _ marked_lib (conj marked_ok (ex_intro _ marked_ext (conj eq_refl ex_long)))). Qed.
Print Assumptions C61_long_refuted.

(** The wrapper of zstandard meets these hypotheses. *)
Theorem C61_zstd : forall L, (zstd_ok L -> pair_late (zstd_compress L) (zstd_dec L)) /\ (zstd_prompt L -> pair_ok (zstd_compress L) (zstd_dec L)).
Proof. exact (fun L => conj (zstd_pair_late L) (zstd_pair_ok L)). Qed.
Print Assumptions C61_zstd.

Example C61_zstd_example : zstd_prompt plain_lib /\ zstd_ok marked_lib.
Proof. exact (conj plain_prompt marked_ok). Qed.

Example C61_example : other_number 5 /\ pair_ok (zstd_compress plain_lib) (x_other plain_ext 5) /\ array_ok ex_sa ex_from /\ bytes_ok ex_to /\
  exists patch, create_sequential_with 5 (zstd_compress plain_lib) ex_sa ex_from ex_to = Ret (Some patch) /\
    apply_patch plain_ext ex_formats ex_hdiff 200 false ex_from patch = ret (28, ex_to).
Proof. exact (conj (or_intror (or_intror (or_introl eq_refl))) (conj (zstd_pair_ok _ plain_prompt) (conj ex_array (conj ex_to_bytes ex_plain_run)))). Qed.

Example C61_in_place_example :
  exists patch, create_in_place_with 5 (zstd_compress plain_lib) sort_suffixes 80 16 None ip_from ip_to = Ret (Some patch) /\
    exists mem1, apply_patch_in_place plain_ext 500 true py_mem patch = ret (43, mem1) /\ ztake 43 mem1 = ip_to.
Proof. exact ex_plain_in_place. Qed.

Example C61_short_example : pair_late (zstd_compress marked_lib) (x_other marked_ext 5) /\
  exists patch, create_sequential_with 5 (zstd_compress marked_lib) ex_sa ex_from ex_to = Ret (Some patch) /\ zlen patch <= 4096 /\
    apply_patch marked_ext ex_formats ex_hdiff 400 false ex_from patch = ret (28, ex_to).
Proof. exact (conj (zstd_pair_late _ marked_ok) ex_marked_run). Qed.

(** The wrapper of lz4.frame writes the parts of a frame in their order, with the header
    that begin() returned in front, unless there is no data at all. *)
Theorem C61_lz4_frame : forall L pieces, pieces <> [] ->
  lz4_compress L pieces = Some (fst (l4_begin L) ++ concat (lz4_outputs L (snd (l4_begin L)) pieces)).
Proof. exact lz4_frame. Qed.
Print Assumptions C61_lz4_frame.

Example C61_lz4_example : lz4_compress frame_lib [[7; 8]; []; [9]] = Some [4; 34; 2; 7; 8; 0; 1; 9; 0; 3].
Proof. exact ex_frame. Qed.

(** C60 and C41 for zstd: the wrapper ends on any data if the package writes nothing when
    it is given nothing. *)
Theorem C60_zstd : forall L, zstd_quiet L -> forall file, finite_output (zstd_dec L) file.
Proof. exact zstd_finite. Qed.
Print Assumptions C60_zstd.

Example C60_zstd_example : zstd_quiet marked_lib.
Proof. exact (fun st => eq_refl). Qed.
