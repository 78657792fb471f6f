(** Theorems about the Python functions that take file names, with the compressions of
    other packages (C76) and with patches of any content (C82).  Every proof is an
    application of a lemma of the other files. *)

From Coq Require Import ZArith List Bool.
From Verif Require Import Prelude Spec SeqSpec Bsdiff BsdiffSpec PyCreate PyInPlace InPlaceSpec PyApply PySpec PyApplyInPlace PyBsdiff40 PyBsdiff40Spec PyFiles PyFilesExamples.
From Verif Require Import PyOther PyOtherSpec PyOtherProofs PyOtherExamples CreateExamples InPlaceExamples PyExamples PyMemExamples.
From Verif Require Import RefuseSpec BodySpec LooseSpec LooseThms PyAnySpec IpLooseSpec IpLooseThms PyBsdiff40Examples Bs40Spec Bs40Proofs PyFilesMore PyFilesMoreExamples.
Import ListNotations.
Open Scope Z_scope.

(** C76, sequential patches with the compressions lzma, bz2, zstd and lz4, whose packages
    are assumed to give back what they were given. *)
Theorem C76_other : forall X F hdiff number compress sa written1 written2 s nf nt np no from to,
  other_number number -> pair_ok compress (x_other X number) -> (forall l, array_ok (sa l) l) -> bytes_ok to -> zlen from < 2 ^ 30 -> zlen to < 2 ^ 30 ->
  st_file s nf = Some from -> st_file s nt = Some to -> st_locked s np = false -> st_locked s no = false ->
  np <> nf -> np <> nt -> no <> nf -> no <> np ->
  exists s1, create_patch_filenames (fun from to => raising (create_sequential_with number compress (sa from) from to)) written1 s nf nt np = Ret (Val tt, s1) /\
    (forall m, m <> np -> st_file s1 m = st_file s m) /\
    exists n, forall fuel, (n <= fuel)%nat ->
    exists s2, apply_patch_filenames X F hdiff fuel written2 s1 nf np no = Ret (Val (zlen to), s2) /\ st_file s2 no = Some to /\
      forall m, m <> no -> st_file s2 m = st_file s1 m.
Proof. exact other_files. Qed.
Print Assumptions C76_other.

(** C76, in-place patches with these compressions. *)
Theorem C76_other_in_place : forall X number compress sa memory segment minimum_shift written1 written2 s nf nt np nm from to mem,
  other_number number -> pair_ok compress (x_other X number) -> (forall l, array_ok (sa l) l) -> bytes_ok to ->
  0 < segment < 2 ^ 63 -> (segment | memory) -> (segment | minimum_of segment minimum_shift) ->
  0 <= minimum_of segment minimum_shift <= memory -> memory < 2 ^ 30 -> zlen to <= memory -> zlen from < 2 ^ 63 ->
  memory <= zlen mem -> ztake (zlen from) mem = from ->
  st_file s nf = Some from -> st_file s nt = Some to -> st_file s nm = Some mem -> st_locked s np = false -> st_locked s nm = false ->
  np <> nf -> np <> nt -> np <> nm ->
  exists s1, create_patch_filenames (fun from to => raising (create_in_place_with number compress sa memory segment minimum_shift from to)) written1 s nf nt np = Ret (Val tt, s1) /\
    (forall m, m <> np -> st_file s1 m = st_file s m) /\
    exists n, forall fuel, (n <= fuel)%nat ->
    exists s2 mem1, apply_patch_in_place_filenames X fuel written2 s1 nm np = Ret (Val (zlen to), s2) /\ st_file s2 nm = Some mem1 /\
      ztake (zlen to) mem1 = to /\ zdrop memory mem1 = zdrop memory mem /\ zlen mem1 = zlen mem /\
      forall m, m <> nm -> st_file s2 m = st_file s1 m.
Proof. exact other_in_place_files. Qed.
Print Assumptions C76_other_in_place.

Example C76_other_example : (other_number 5 /\ pair_ok (zstd_compress plain_lib) (x_other plain_ext 5)) /\
  (exists s1 s2,
  create_patch_filenames (fun from to => raising (create_sequential_with 5 (zstd_compress plain_lib) (sort_suffixes from) from to)) ex_written ex_store 1 2 3 = Ret (Val tt, s1) /\
  apply_patch_filenames plain_ext ex_formats ex_hdiff 200 ex_written s1 1 3 4 = Ret (Val 28, s2) /\ st_file s2 4 = Some ex_to) /\
  exists s1 s2 mem1,
  create_patch_filenames (fun from to => raising (create_in_place_with 5 (zstd_compress plain_lib) sort_suffixes 80 16 None from to)) ex_written ex_store 8 9 3 = Ret (Val tt, s1) /\
  apply_patch_in_place_filenames plain_ext 500 ex_written s1 7 3 = Ret (Val 43, s2) /\ st_file s2 7 = Some mem1 /\ ztake 43 mem1 = ip_to.
Proof. exact (conj ex_other_numbers (conj ex_other_files ex_other_in_place_files)). Qed.

(** C82, sequential patches: apply_patch_filenames() with any uncompressed patch file.  If
    the patch means some data, as in C78 for a file that cannot be moved before its
    beginning, then the size announced is returned and the to file holds that data,
    whatever it held before.  If not then an exception is raised, and the to file holds
    what had been written by then. *)
Theorem C82_sequential : forall X F hdiff written s nf np no from patch,
  st_file s nf = Some from -> st_file s np = Some patch -> st_locked s no = false -> no <> nf -> no <> np ->
  bytes_ok patch -> patch_type (hd 0 patch) = 0 -> announced_comp patch = 0 ->
  (forall n body d l, dec_size (tl patch) = Some (n, body) -> dec_size body = Some (d, l) -> d <= 0) ->
  exists m, forall fuel, (m <= fuel)%nat ->
  match loose_patch false from patch with
  | Some (n, to) => exists s1, apply_patch_filenames X F hdiff fuel written s nf np no = Ret (Val n, s1) /\ st_file s1 no = Some to
  | None => exists e s1, apply_patch_filenames X F hdiff fuel written s nf np no = Ret (Raise e, s1) /\ st_file s1 no = Some (written from patch)
  end.
Proof. exact plain_exact_files. Qed.
Print Assumptions C82_sequential.

(** C82, in-place patches: the memory file then starts with the data, and the rest is as
    in C79. *)
Theorem C82_in_place : forall X written s nm np mem patch z stream body c,
  st_file s nm = Some mem -> st_file s np = Some patch -> st_locked s nm = false ->
  bytes_ok patch -> patch_type (hd 0 patch) = 1 -> announced_comp patch = comp_number c -> in_place_header patch = Some (z, stream) -> fitting z (zlen mem) ->
  compressed c body stream -> bytes_ok body -> body <> [] -> (c = CompHeatshrink -> hs_reader_ok (x_heatshrink X)) ->
  exists m, forall fuel, (m <= fuel)%nat ->
  match body_means z mem body with
  | Means to [] => exists s1, apply_patch_in_place_filenames X fuel written s nm np = Ret (Val (is_to z), s1) /\
      st_file s1 nm = Some (to ++ zdrop (zlen to) (moved z mem))
  | Means _ _ | Bad => exists e s1, apply_patch_in_place_filenames X fuel written s nm np = Ret (Raise e, s1) /\ st_file s1 nm = Some (written mem patch)
  | Stale => True
  end.
Proof. exact in_place_exact_files. Qed.
Print Assumptions C82_in_place.

(** C82, BSDIFF40 patches: the records are those of C80. *)
Theorem C82_bsdiff : forall bz R, bz_ok bz R -> forall written s nf np no from n c d e ctrl diff extra,
  st_file s nf = Some from -> st_file s np = Some (bsdiff40 n ctrl diff extra) -> st_locked s no = false -> no <> nf -> no <> np ->
  bz_stream bz R c ctrl -> bz_stream bz R d diff -> bz_stream bz R e extra -> bytes_ok c ->
  zlen ctrl < 2 ^ 63 -> zlen diff < 2 ^ 63 -> - 2 ^ 63 < n < 2 ^ 63 ->
  exists m, forall fuel, (m <= fuel)%nat ->
  match bsdiff_records (length c) false from 0 n c d e with
  | Some (to, ([], [], [])) => exists s1, apply_patch_bsdiff_filenames bz fuel written s nf np no = Ret (Val n, s1) /\ st_file s1 no = Some to
  | _ => exists x s1, apply_patch_bsdiff_filenames bz fuel written s nf np no = Ret (Raise x, s1) /\ st_file s1 no = Some (written from (bsdiff40 n ctrl diff extra))
  end.
Proof. exact bsdiff_exact_files. Qed.
Print Assumptions C82_bsdiff.

(** The hypotheses of the other two are those of C79_example and C80_example. *)
Example C82_example : (bytes_ok calm_example /\ patch_type (hd 0 calm_example) = 0 /\ announced_comp calm_example = 0 /\
  (forall n body d l, dec_size (tl calm_example) = Some (n, body) -> dec_size body = Some (d, l) -> d <= 0) /\
  loose_patch false [7] calm_example = Some (2, [42; 10]) /\ loose_patch false [7] loose_example = None /\
  (exists s1, apply_patch_filenames ex_ext ex_formats ex_hdiff 50 ex_written any_store 1 3 9 = Ret (Val 2, s1) /\ st_file s1 9 = Some [42; 10]) /\
  (exists s1, apply_patch_filenames ex_ext ex_formats ex_hdiff 50 ex_written any_store 1 2 9 = Ret (Raise OtherError, s1) /\ st_file s1 9 = Some [0; 2])) /\
  (exists s1, apply_patch_in_place_filenames ex_ext 100 ex_written any_store 4 5 = Ret (Val 5, s1) /\ st_file s1 4 = Some [7; 8; 4; 5; 5; 4; 0; 0; 99]) /\
  (bsdiff_records (length calm_control) false [10; 20; 30] 0 8 calm_control [1; 255] [7; 8; 9] = Some ([7; 8; 21; 29; 9], ([], [], [])) /\
  (exists s1, apply_patch_bsdiff_filenames stored 10 ex_written any_store 6 8 9 = Ret (Val 8, s1) /\ st_file s1 9 = Some [7; 8; 21; 29; 9]) /\
  (exists s1, apply_patch_bsdiff_filenames stored 10 ex_written any_store 6 7 9 = Ret (Raise OtherError, s1) /\ st_file s1 9 = Some [66; 83])).
Proof. exact (conj ex_any_files (conj ex_any_in_place ex_any_bsdiff)). Qed.
