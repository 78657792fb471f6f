(** Theorems about the Python functions on in-place patches.  Every proof is an
    application of a lemma of the other files. *)

From Coq Require Import ZArith List Bool.
From Verif Require Import Prelude Heatshrink CReader CSeq CInPlace Spec Bsdiff BsdiffSpec PyCreate CallbackSpec IpCallbackSpec InPlaceSpec
  PyInPlace PyApply PySpec PyApplyInPlace.
From Verif Require Import CreateExamples InPlaceFinal InPlaceExamples PyExamples PyMemThms PyMemCreate PyMemAgree PyMemExamples.
Import ListNotations.
Open Scope Z_scope.

(** C30: for sizes the creator accepts, a shift not larger than the memory and a to
    file that fits, an in-place patch is created and apply_patch_in_place() on a
    memory file that starts with the from data returns the size of the to data and
    leaves it at the start of the memory file; what is behind the memory, and the size
    of the file, do not change.  A from file larger than the memory is allowed if the
    memory file holds it.  [bytesio] is the kind of file. *)
Theorem C30_round_trip : forall X bytesio c hs sa memory segment minimum_shift from to mem,
  (forall l, array_ok (sa l) l) -> bytes_ok to ->
  0 < segment < 2 ^ 63 -> (segment | memory) -> (segment | minimum_of segment minimum_shift) ->
  0 <= minimum_of segment minimum_shift <= memory -> memory < 2 ^ 30 -> zlen to <= memory -> zlen from < 2 ^ 63 ->
  memory <= zlen mem -> ztake (zlen from) mem = from ->
  (c = CompHeatshrink -> hs_reader_ok (x_heatshrink X) /\
     forall pieces, bytes_ok (concat pieces) -> py_stream CompHeatshrink (concat pieces) (hs pieces)) ->
  exists patch, create_in_place c hs sa memory segment minimum_shift from to = Ret (Some patch) /\
    exists n, forall fuel, (n <= fuel)%nat ->
    exists mem1, apply_patch_in_place X fuel bytesio mem patch = ret (zlen to, mem1) /\
      ztake (zlen to) mem1 = to /\ zdrop memory mem1 = zdrop memory mem /\ zlen mem1 = zlen mem.
Proof. exact py_in_place_round_trip. Qed.
Print Assumptions C30_round_trip.

Example C30_example : (forall l, array_ok (sort_suffixes l) l) /\ bytes_ok ip_to /\
  ((16 | 80) /\ (16 | minimum_of 16 None) /\ (16 | minimum_of 16 (Some 0))) /\
  (80 <= zlen py_mem /\ ztake (zlen ip_from) py_mem = ip_from) /\
  hs_reader_ok (x_heatshrink ex_ext) /\
  (forall pieces, bytes_ok (concat pieces) -> py_stream CompHeatshrink (concat pieces) (literals pieces)) /\
  create_in_place CompCrle literals sort_suffixes 80 16 None ip_from ip_to = Ret (Some ip_patch).
Proof. exact (conj sort_suffixes_ok (conj ex_ip_to (conj ex_minimum (conj ex_py_mem (conj ex_reader_ok (conj literals_stream ex_ip_created)))))). Qed.

Example C30_run : forall bytesio, exists mem1, apply_patch_in_place ex_ext 100 bytesio py_mem ip_patch = ret (43, mem1) /\
  ztake 43 mem1 = ip_to /\ zdrop 80 mem1 = zrepeat 1 20.
Proof. exact ex_py_mem_run. Qed.

(** Also with a minimum shift size of zero, which the C functions cannot apply (C23). *)
Example C30_no_shift : exists patch, create_in_place CompNone literals sort_suffixes 80 16 (Some 0) ip_from ip_to = Ret (Some patch) /\
  exists mem1, apply_patch_in_place ex_ext 100 true py_mem patch = ret (43, mem1) /\ ztake 43 mem1 = ip_to.
Proof. exact ex_py_no_shift. Qed.

(** C30, not only for created patches: every well-formed in-place patch is applied
    with the meaning given in InPlaceSpec.v. *)
Theorem C30_meaning : forall X bytesio c memory segment shift from to segs patch mem,
  py_in_place_patch c memory segment shift (zlen from) (zlen to) segs patch ->
  apply_segments memory segment shift from 0 segs = Some to -> Forall recs_fit segs ->
  py_sizes_ok memory segment shift (zlen from) (zlen to) -> memory <= zlen mem -> ztake (zlen from) mem = from ->
  (c = CompHeatshrink -> hs_reader_ok (x_heatshrink X)) ->
  exists n, forall fuel, (n <= fuel)%nat ->
  exists mem1, apply_patch_in_place X fuel bytesio mem patch = ret (zlen to, mem1) /\
    ztake (zlen to) mem1 = to /\ zdrop memory mem1 = zdrop memory mem /\ zlen mem1 = zlen mem.
Proof. exact py_in_place_applies. Qed.
Print Assumptions C30_meaning.

(** The two conditions on the sizes are needed: the creator accepts a to file larger
    than the memory and a shift larger than the memory, and the applier then
    overwrites what is behind the memory (here bytes of value 1) or makes the file
    longer. *)
Theorem C30_large_to_refuted : exists patch,
  create_in_place CompNone literals sort_suffixes 48 16 (Some 16) ip_from (ip_to ++ tail20) = Ret (Some patch) /\
  exists mem1, apply_patch_in_place ex_ext 100 true (ip_from ++ zrepeat 0 8 ++ zrepeat 1 20) patch = ret (63, mem1) /\
  zdrop 48 mem1 = zrepeat 200 15 ++ zrepeat 1 5.
Proof. exact py_overrun_to. Qed.
Print Assumptions C30_large_to_refuted.

Theorem C30_large_shift_refuted : exists patch,
  create_in_place CompNone literals sort_suffixes 48 16 (Some 64) ip_from ip_to = Ret (Some patch) /\
  exists mem1, apply_patch_in_place ex_ext 100 true (ip_from ++ zrepeat 0 8 ++ zrepeat 1 20) patch = ret (43, mem1) /\
  zdrop 48 mem1 = zrepeat 1 16 ++ ztake 24 ip_from.
Proof. exact py_overrun_shift. Qed.
Print Assumptions C30_large_shift_refuted.

(** C32 for in-place patches: on every well-formed patch the C functions on a flash
    memory, fed in any pieces, and apply_patch_in_place() on a file return the same
    size and leave the same data. *)
Theorem C32_in_place_agree : forall (wb : WordBits), 32 <= word_bits ->
  forall X bytesio memory segment shift from to mem pmem c patch,
  sizes_ok memory segment shift (zlen from) (zlen to) -> in_place_update c memory segment shift from to patch ->
  bytes_ok patch -> zlen patch + 128 < 2 ^ word_bits ->
  memory <= zlen mem -> holds mem from -> memory <= zlen pmem -> ztake (zlen from) pmem = from ->
  (c = CompHeatshrink -> hs_reader_ok (x_heatshrink X)) ->
  forall pieces junk, division c memory segment shift (zlen from) (zlen to) patch pieces ->
  exists n, forall fuel, (n <= fuel)%nat ->
  exists s d pmem1, ip_apply flash_env fuel junk (zlen patch) (new_device mem) pieces = Ret (zlen to, s, d) /\
    apply_patch_in_place X fuel bytesio pmem patch = ret (zlen to, pmem1) /\
    holds (d_mem d) to /\ ztake (zlen to) pmem1 = to.
Proof. exact py_c_in_place_agree. Qed.
Print Assumptions C32_in_place_agree.

Example C32_in_place_example :
  (sizes_ok 80 16 32 (zlen ip_from) (zlen ip_to) /\ in_place_update CompCrle 80 16 32 ip_from ip_to ip_patch /\ bytes_ok ip_patch) /\
  (holds ip_mem ip_from /\ 80 <= zlen ip_mem) /\ (80 <= zlen py_mem /\ ztake (zlen ip_from) py_mem = ip_from) /\
  division CompCrle 80 16 32 (zlen ip_from) (zlen ip_to) ip_patch (map (fun b => [b]) ip_patch).
Proof. exact (conj ex_ip_update (conj ex_ip_holds (conj ex_py_mem ex_ip_pieces))). Qed.
