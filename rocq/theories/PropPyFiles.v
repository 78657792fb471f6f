(** Theorems about the Python functions that take file names.  [store] are the files of a
    disk (PyFiles.v); [written] is whatever a function has written before an exception.
    Every proof is an application of a lemma of the other files. *)

From Coq Require Import ZArith List Bool.
From Verif Require Import Prelude Spec Bsdiff BsdiffSpec PyCreate PyInPlace InPlaceSpec PyApply PySpec PyApplyInPlace PyBsdiff40 PyBsdiff40Spec PyInfo PyFiles PyFilesProofs PyFilesExamples.
From Verif Require Import CreateExamples InPlaceExamples PyExamples PyMemExamples.
Import ListNotations.
Open Scope Z_scope.

(** C76, sequential patches: create_patch_filenames() and then apply_patch_filenames()
    make a copy of the to file, whatever the files written contained before, and change
    nothing else. *)
Theorem C76_sequential : forall X F hdiff c hs sa written1 written2 s nf nt np no from to,
  (forall l, array_ok (sa l) l) -> bytes_ok to -> zlen from < 2 ^ 30 -> zlen to < 2 ^ 30 ->
  (c = CompHeatshrink -> hs_reader_ok (x_heatshrink X) /\
     forall pieces, bytes_ok (concat pieces) -> py_stream CompHeatshrink (concat pieces) (hs pieces)) ->
  st_file s nf = Some from -> st_file s nt = Some to -> st_locked s np = false -> st_locked s no = false ->
  np <> nf -> np <> nt -> no <> nf -> no <> np ->
  exists s1, create_patch_filenames (fun from to => raising (create_sequential c hs (sa from) from to)) written1 s nf nt np = Ret (Val tt, s1) /\
    (forall m, m <> np -> st_file s1 m = st_file s m) /\
    exists n, forall fuel, (n <= fuel)%nat ->
    exists s2, apply_patch_filenames X F hdiff fuel written2 s1 nf np no = Ret (Val (zlen to), s2) /\ st_file s2 no = Some to /\
      forall m, m <> no -> st_file s2 m = st_file s1 m.
Proof. exact sequential_files. Qed.
Print Assumptions C76_sequential.

(** C76, in-place patches: the memory file is updated in place. *)
Theorem C76_in_place : forall X c hs sa memory segment minimum_shift written1 written2 s nf nt np nm from to mem,
  (forall l, array_ok (sa l) l) -> bytes_ok to ->
  0 < segment < 2 ^ 63 -> (segment | memory) -> (segment | minimum_of segment minimum_shift) ->
  0 <= minimum_of segment minimum_shift <= memory -> memory < 2 ^ 30 -> zlen to <= memory -> zlen from < 2 ^ 63 ->
  memory <= zlen mem -> ztake (zlen from) mem = from ->
  (c = CompHeatshrink -> hs_reader_ok (x_heatshrink X) /\
     forall pieces, bytes_ok (concat pieces) -> py_stream CompHeatshrink (concat pieces) (hs pieces)) ->
  st_file s nf = Some from -> st_file s nt = Some to -> st_file s nm = Some mem -> st_locked s np = false -> st_locked s nm = false ->
  np <> nf -> np <> nt -> np <> nm ->
  exists s1, create_patch_filenames (fun from to => raising (create_in_place c hs sa memory segment minimum_shift from to)) written1 s nf nt np = Ret (Val tt, s1) /\
    (forall m, m <> np -> st_file s1 m = st_file s m) /\
    exists n, forall fuel, (n <= fuel)%nat ->
    exists s2 mem1, apply_patch_in_place_filenames X fuel written2 s1 nm np = Ret (Val (zlen to), s2) /\ st_file s2 nm = Some mem1 /\
      ztake (zlen to) mem1 = to /\ zdrop memory mem1 = zdrop memory mem /\ zlen mem1 = zlen mem /\
      forall m, m <> nm -> st_file s2 m = st_file s1 m.
Proof. exact in_place_files. Qed.
Print Assumptions C76_in_place.

(** C76, BSDIFF40 patches. *)
Theorem C76_bsdiff : forall bz sa written1 written2 s nf nt np no from to,
  bz_lossless bz -> (forall pieces, zlen (bz_compress bz pieces) <= 2 * zlen (concat pieces) + 1000) ->
  (forall l, array_ok (sa l) l) -> bytes_ok to -> zlen from < 2 ^ 30 -> zlen to < 2 ^ 30 ->
  st_file s nf = Some from -> st_file s nt = Some to -> st_locked s np = false -> st_locked s no = false ->
  np <> nf -> np <> nt -> no <> nf -> no <> np ->
  exists s1, create_patch_filenames (fun from to => create_patch_bsdiff bz (sa from) from to) written1 s nf nt np = Ret (Val tt, s1) /\
    (forall m, m <> np -> st_file s1 m = st_file s m) /\
    exists n, forall fuel, (n <= fuel)%nat ->
    exists s2, apply_patch_bsdiff_filenames bz fuel written2 s1 nf np no = Ret (Val (zlen to), s2) /\ st_file s2 no = Some to /\
      forall m, m <> no -> st_file s2 m = st_file s1 m.
Proof. exact bsdiff_files. Qed.
Print Assumptions C76_bsdiff.

Example C76_example : (forall l, array_ok (sort_suffixes l) l) /\ bytes_ok ex_to /\
  (exists s1 s2, ex_create ex_store 1 2 3 = Ret (Val tt, s1) /\ ex_apply s1 1 3 4 = Ret (Val 28, s2) /\ st_file s2 4 = Some ex_to /\ st_file s2 6 = Some [9]) /\
  exists s1 s2 mem1,
  create_patch_filenames (fun from to => raising (create_in_place CompCrle literals sort_suffixes 80 16 None from to)) ex_written ex_store 8 9 3 = Ret (Val tt, s1) /\
  apply_patch_in_place_filenames ex_ext 100 ex_written s1 7 3 = Ret (Val 43, s2) /\ st_file s2 7 = Some mem1 /\ ztake 43 mem1 = ip_to /\ zdrop 80 mem1 = zrepeat 1 20.
Proof. exact (conj sort_suffixes_ok (conj ex_to_bytes (conj ex_store_run ex_store_in_place))). Qed.

(** C77: a file that cannot be opened is noticed before anything is changed; *)
Theorem C77_unopened : forall s n1 n2 n3, st_file s n1 = None \/ st_file s n2 = None \/ st_locked s n3 = true ->
  (forall create written, create_patch_filenames create written s n1 n2 n3 = Ret (Raise OtherError, s)) /\
  (forall X F hdiff fuel written, apply_patch_filenames X F hdiff fuel written s n1 n2 n3 = Ret (Raise OtherError, s)) /\
  (forall bz fuel written, apply_patch_bsdiff_filenames bz fuel written s n1 n2 n3 = Ret (Raise OtherError, s)).
Proof.
  exact (fun s n1 n2 n3 H => conj (fun create written => two_unopened _ written s n1 n2 n3 H)
    (conj (fun X F hdiff fuel written => two_unopened _ written s n1 n2 n3 H) (fun bz fuel written => two_unopened _ written s n1 n2 n3 H))).
Qed.
Print Assumptions C77_unopened.

Theorem C77_unopened_in_place : forall X fuel written s nm np, st_file s nm = None \/ st_locked s nm = true \/ st_file s np = None ->
  apply_patch_in_place_filenames X fuel written s nm np = Ret (Raise OtherError, s).
Proof. exact in_place_unopened. Qed.
Print Assumptions C77_unopened_in_place.

(** and whatever the files contain and the result is, only the last one, or the memory
    file, is changed. *)
Theorem C77_others : forall s,
  (forall create written nf nt np r s1, create_patch_filenames create written s nf nt np = Ret (r, s1) -> forall m, m <> np -> st_file s1 m = st_file s m) /\
  (forall X F hdiff fuel written nf np nt r s1, apply_patch_filenames X F hdiff fuel written s nf np nt = Ret (r, s1) -> forall m, m <> nt -> st_file s1 m = st_file s m) /\
  (forall bz fuel written nf np nt r s1, apply_patch_bsdiff_filenames bz fuel written s nf np nt = Ret (r, s1) -> forall m, m <> nt -> st_file s1 m = st_file s m) /\
  (forall X fuel written nm np r s1, apply_patch_in_place_filenames X fuel written s nm np = Ret (r, s1) -> forall m, m <> nm -> st_file s1 m = st_file s m) /\
  (forall X DI HI fuel np r s1, patch_info_filename X DI HI fuel s np = Ret (r, s1) -> s1 = s).
Proof.
  exact (fun s => conj (fun create written nf nt np r s1 U => two_others _ written s nf nt np r s1 U)
    (conj (fun X F hdiff fuel written nf np nt r s1 U => two_others _ written s nf np nt r s1 U)
    (conj (fun bz fuel written nf np nt r s1 U => two_others _ written s nf np nt r s1 U)
    (conj (fun X fuel written nm np r s1 U => in_place_others X fuel written s nm np r s1 U)
      (fun X DI HI fuel np r s1 U => proj1 (info_reads X DI HI fuel s np r s1 U)))))).
Qed.
Print Assumptions C77_others.

Example C77_example : ex_apply ex_store 1 3 4 = Ret (Raise OtherError, ex_store) /\ ex_apply ex_store 1 2 6 = Ret (Raise OtherError, ex_store) /\
  exists s1, ex_apply ex_store 1 5 4 = Ret (Raise DetoolsError, s1) /\ st_file s1 4 = Some [] /\ st_file ex_store 4 = Some [1; 2; 3].
Proof. exact ex_store_missing. Qed.

(** The to file itself is lost whenever an error is found in the patch, here an empty
    one, as nothing has been written then; *)
Theorem C77_lost_refuted : forall X F hdiff fuel written s nf np nt from old,
  (forall l, written l [] = []) ->
  st_file s nf = Some from -> st_file s np = Some [] -> st_file s nt = Some old -> st_locked s nt = false -> nt <> nf -> nt <> np ->
  exists s1, apply_patch_filenames X F hdiff fuel written s nf np nt = Ret (Raise DetoolsError, s1) /\ st_file s1 nt = Some [].
Proof. exact empty_loses. Qed.
Print Assumptions C77_lost_refuted.

(** and a patch file given as to file too is lost before it is read. *)
Theorem C77_same_refuted : forall X F hdiff fuel written s nf np from patch,
  (forall l, written l [] = []) ->
  st_file s nf = Some from -> st_file s np = Some patch -> st_locked s np = false -> np <> nf ->
  exists s1, apply_patch_filenames X F hdiff fuel written s nf np np = Ret (Raise DetoolsError, s1) /\ st_file s1 np = Some [].
Proof. exact same_name. Qed.
Print Assumptions C77_same_refuted.
