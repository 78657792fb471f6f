(** Properties of patches made with the HDiffPatch library (C69-C71). *)

From Coq Require Import ZArith List Bool.
From Verif Require Import Prelude Spec PyCreate PyApply PySpec PyOtherSpec PyExamples PyHdiff HdiffSpec HdiffProofs HdiffThms HdiffExamples.
Import ListNotations.
Open Scope Z_scope.

(** C69: patches of the type hdiffpatch, created with either algorithm, any
    compression and any scores and block sizes, give back the to data. *)
Theorem C69_hdiffpatch : forall X F C L M clamps bsdiff ffrom fto score block use_mmap,
  compressor_ok X C -> lib_ok L ->
  bytes_ok (pf_content ffrom) -> bytes_ok (pf_content fto) -> zlen (pf_content fto) < 2 ^ 63 -> memory_ok M (zlen (pf_content fto)) ->
  readable use_mmap ffrom -> readable use_mmap fto ->
  forall a, a = AHdiffpatch \/ a = AMatchBlocks ->
  (forall n, hl_diff L (pf_content ffrom) (pf_content fto) n 2 <> None) ->
  (forall n, hl_diff_stream L (pf_content ffrom) (pf_content fto) n 2 <> None) ->
  exists file, create_patch L C bsdiff ffrom fto a THdiffpatch score block use_mmap = Ret (HVal file) /\
    exists n, forall fuel, (n <= fuel)%nat ->
      apply_patch_any X F L M fuel clamps (pf_content ffrom) file = Ret (HVal (zlen (pf_content fto), pf_content fto)).
Proof. exact hdiff_round_trip. Qed.
Print Assumptions C69_hdiffpatch.

(** Sequential patches created with the algorithm match-blocks. *)
Theorem C69_match_blocks : forall X F C L M clamps bsdiff ffrom fto score block use_mmap,
  compressor_ok X C -> lib_sequential_ok L ->
  bytes_ok (pf_content ffrom) -> bytes_ok (pf_content fto) -> readable use_mmap ffrom -> readable use_mmap fto ->
  (forall n, hl_diff L (pf_content ffrom) (pf_content fto) n 0 <> None) ->
  (forall n, hl_diff_stream L (pf_content ffrom) (pf_content fto) n 0 <> None) ->
  exists file, create_patch L C bsdiff ffrom fto AMatchBlocks TSequential score block use_mmap = Ret (HVal file) /\
    exists n, forall fuel, (n <= fuel)%nat ->
      apply_patch_any X F L M fuel clamps (pf_content ffrom) file = Ret (HVal (zlen (pf_content fto), pf_content fto)).
Proof. exact blocks_round_trip. Qed.
Print Assumptions C69_match_blocks.

(** The compressions none, crle and heatshrink can be used, and the other ones if the
    compressor and the decompressor of the package belong together. *)
Theorem C69_own_compressions : forall X c hs,
  (c = CompHeatshrink -> hs_reader_ok (x_heatshrink X) /\ forall pieces, bytes_ok (concat pieces) -> py_stream CompHeatshrink (concat pieces) (hs pieces)) ->
  compressor_ok X (own_compressor c hs).
Proof. exact own_compressor_ok. Qed.
Print Assumptions C69_own_compressions.

Theorem C69_other_compressions : forall X number compress,
  other_number number -> pair_ok compress (x_other X number) -> compressor_ok X (mkcm number compress).
Proof. exact other_compressor_ok. Qed.
Print Assumptions C69_other_compressions.

(** With memory-mapped files (the default) it does not work for files that are empty
    or not real files, although it does for the algorithm bsdiff. *)
Theorem C69_mmap_refuted : forall L C bsdiff ffrom fto a t score block,
  a = AHdiffpatch /\ t = THdiffpatch \/ a = AMatchBlocks ->
  pf_fileno ffrom = false \/ pf_fileno fto = false \/ pf_content ffrom = [] \/ pf_content fto = [] ->
  create_patch L C bsdiff ffrom fto a t score block true = Ret (HRaise OtherError).
Proof. exact not_mapped. Qed.
Print Assumptions C69_mmap_refuted.

Example C69_example :
  lib_ok toy_hdiff /\ lib_sequential_ok toy_hdiff /\ memory_ok toy_memory 4 /\ compressor_ok ex_ext (own_compressor CompCrle (fun _ => [])) /\
  (exists file, create_patch toy_hdiff (own_compressor CompCrle (fun _ => [])) never hd_from hd_to AHdiffpatch THdiffpatch 6 64 true = Ret (HVal file) /\
     apply_patch_any ex_ext ex_formats toy_hdiff toy_memory 50 false [10; 20; 30] file = Ret (HVal (4, [11; 21; 31; 41]))) /\
  (exists file, create_patch toy_hdiff plain never hd_from hd_to AMatchBlocks TSequential 6 64 true = Ret (HVal file) /\
     apply_patch_any ex_ext ex_formats toy_hdiff toy_memory 50 false [10; 20; 30] file = Ret (HVal (4, [11; 21; 31; 41]))).
Proof.
  split; [exact toy_ok|]. split; [exact toy_sequential_ok|]. split; [exact (toy_memory_ok 4)|]. split; [apply own_compressor_ok; discriminate|].
  split; eexists; (split; [vm_compute; reflexivity|]); vm_compute; reflexivity.
Qed.

(** C70: a patch of the type hdiffpatch that has been cut off anywhere is refused with
    detools.Error, whatever it is applied to. *)
Theorem C70_truncated : forall X F L M clamps c hs from to patch,
  c = CompNone \/ c = CompCrle -> lib_patch_for L from to patch -> zlen to < 2 ^ 63 -> to <> [] ->
  exists file, hdiff_patch_file (own_compressor c hs) (zlen to) patch = Ret (HVal file) /\
    forall other k, 0 <= k < zlen file ->
      exists n, forall fuel, (n <= fuel)%nat -> apply_patch_any X F L M fuel clamps other (ztake k file) = Ret (HRaise DetoolsError).
Proof. exact hdiff_truncated. Qed.
Print Assumptions C70_truncated.

(** A patch for a from file of another size is refused with an exception. *)
Theorem C70_other_source : forall X F C L M clamps from to patch other,
  compressor_ok X C -> lib_patch_for L from to patch -> zlen to < 2 ^ 63 -> to <> [] -> zlen other <> zlen from ->
  exists file, hdiff_patch_file C (zlen to) patch = Ret (HVal file) /\
    exists n, forall fuel, (n <= fuel)%nat -> apply_patch_any X F L M fuel clamps other file = Ret (HRaise OtherError).
Proof. exact hdiff_other_source. Qed.
Print Assumptions C70_other_source.

(** But data that the library refuses ends the Python process. *)
Theorem C70_corrupt_refuted : forall X F L M clamps from data size,
  0 < size < 2 ^ 63 -> zlen data < 2 ^ 63 -> hl_info L data = Some (zlen from, size) ->
  (forall cache, hl_patch L from data cache = None) -> memory_ok M size ->
  exists n, forall fuel, (n <= fuel)%nat ->
    apply_patch_any X F L M fuel clamps from (py_pack_header 2 0 :: enc_size size ++ enc_size (zlen data) ++ data) = Ret HKilled.
Proof. exact hdiff_killed. Qed.
Print Assumptions C70_corrupt_refuted.

(** Bytes behind the patch are not noticed. *)
Theorem C70_trailing_refuted : forall X F L M clamps from to patch tl,
  lib_patch_for L from to patch -> zlen to < 2 ^ 63 -> to <> [] -> memory_ok M (zlen to) ->
  exists file, hdiff_patch_file plain (zlen to) patch = Ret (HVal file) /\
    exists n, forall fuel, (n <= fuel)%nat -> apply_patch_any X F L M fuel clamps from (file ++ tl) = Ret (HVal (zlen to, to)).
Proof. exact hdiff_trailing. Qed.
Print Assumptions C70_trailing_refuted.

(** Nor is a wrong size of the to data in the header. *)
Theorem C70_size_refuted : forall X F L M clamps from to patch size,
  lib_patch_for L from to patch -> 0 < size < 2 ^ 63 -> memory_ok M (zlen to) ->
  exists file, hdiff_patch_file plain size patch = Ret (HVal file) /\
    exists n, forall fuel, (n <= fuel)%nat -> apply_patch_any X F L M fuel clamps from file = Ret (HVal (zlen to, to)).
Proof. exact hdiff_size. Qed.
Print Assumptions C70_size_refuted.

(** Without memory for the cache of the library, applying a patch never ends. *)
Theorem C70_memory_refuted : forall X F L M clamps from to patch,
  lib_patch_for L from to patch -> zlen to < 2 ^ 63 -> to <> [] -> hm_bytearray M (zlen to) = true -> (forall k s, hm_malloc M k s = false) ->
  exists file, hdiff_patch_file plain (zlen to) patch = Ret (HVal file) /\
    exists n, forall fuel, (n <= fuel)%nat -> apply_patch_any X F L M fuel clamps from file = OutOfFuel.
Proof. exact hdiff_hangs. Qed.
Print Assumptions C70_memory_refuted.

Example C70_example :
  lib_patch_for toy_hdiff [10; 20; 30] [11; 21; 31; 41] [3; 4; 11; 21; 31; 41] /\
  hl_info toy_hdiff [3; 4; 11] = Some (zlen [10; 20; 30], 4) /\ (forall cache, hl_patch toy_hdiff [10; 20; 30] [3; 4; 11] cache = None) /\
  apply_patch_any ex_ext ex_formats toy_hdiff toy_memory 50 false [10; 20; 30] [32; 4; 3; 3; 4; 11] = Ret HKilled /\
  apply_patch_any ex_ext ex_formats toy_hdiff toy_memory 50 false [10; 20; 30] [32; 9; 6; 3; 4; 11; 21; 31; 41; 99] = Ret (HVal (4, [11; 21; 31; 41])).
Proof.
  split; [apply (toy_diff_ok [10; 20; 30] [11; 21; 31; 41] 0); [repeat constructor; discriminate..|reflexivity]|].
  split; [reflexivity|]. split; [reflexivity|]. split; vm_compute; reflexivity.
Qed.

(** C71: algorithms and patch types that cannot be combined are refused with
    detools.Error, whatever the files hold. *)
Theorem C71_unsupported : forall L C bsdiff ffrom fto a t score block use_mmap,
  match a with
  | ABsdiff => t = THdiffpatch \/ t = TUnknown
  | AHdiffpatch => t <> THdiffpatch
  | AMatchBlocks => False
  | AUnknown => True
  end -> create_patch L C bsdiff ffrom fto a t score block use_mmap = Ret (HRaise DetoolsError).
Proof. exact unsupported. Qed.
Print Assumptions C71_unsupported.

Theorem C71_blocks_in_place : forall L C bsdiff ffrom fto score block use_mmap,
  readable use_mmap ffrom -> readable use_mmap fto ->
  (forall n, hl_diff L (pf_content ffrom) (pf_content fto) n 1 <> None) ->
  (forall n, hl_diff_stream L (pf_content ffrom) (pf_content fto) n 1 <> None) ->
  create_patch L C bsdiff ffrom fto AMatchBlocks TInPlace score block use_mmap = Ret (HRaise DetoolsError).
Proof. exact blocks_in_place. Qed.
Print Assumptions C71_blocks_in_place.

(** The algorithm match-blocks with a patch type it does not know raises something
    else. *)
Theorem C71_blocks_refuted : forall L C bsdiff ffrom fto t score block use_mmap,
  t = TBsdiff \/ t = TUnknown ->
  create_patch L C bsdiff ffrom fto AMatchBlocks t score block use_mmap = Ret (HRaise OtherError).
Proof. exact blocks_key. Qed.
Print Assumptions C71_blocks_refuted.

Example C71_example :
  create_patch toy_hdiff plain never hd_from hd_to AHdiffpatch TSequential 6 64 true = Ret (HRaise DetoolsError) /\
  create_patch toy_hdiff plain never hd_from hd_to AMatchBlocks TInPlace 6 64 true = Ret (HRaise DetoolsError).
Proof. split; vm_compute; reflexivity. Qed.
