(** Theorems about patch_info(), about created in-place patches that have been cut off
    or are too long, and about the Python applier on arbitrary patches.  Every proof is
    an application of a lemma of the other files. *)

From Coq Require Import ZArith List Bool.
From Verif Require Import Prelude Spec PySize Bsdiff BsdiffSpec PyCreate PyInPlace PyApply PySpec PyApplyInPlace PyInfo PyInfoSpec.
From Verif Require Import InPlaceSpec InPlaceCreate CreateExamples InPlaceExamples PyExamples PyMemExamples PyInfoThms PyInfoCreate PyInfoExamples PyOther PyOtherSpec PyOtherExamples PyInfoOther.
Import ListNotations.
Open Scope Z_scope.

(** C33: patch_info() of a well-formed patch reports the size of the to data, which is
    the one in the header, and the sizes and adjustments of exactly its records. *)
Theorem C33_report : forall X DI HI c recs patch,
  py_patch c recs patch -> recs_fit recs -> (c = CompHeatshrink -> hs_reader_ok (x_heatshrink X)) ->
  exists n, forall fuel, (n <= fuel)%nat ->
  patch_info X DI HI fuel patch = ret (InfoSequential (mksi (zlen patch) (comp_number c) 0 None
    (mkinner (recs_size recs) (diff_sizes recs) (extra_sizes recs) (adjustments recs) (zlen (size_fields recs))))).
Proof. exact info_well_formed. Qed.
Print Assumptions C33_report.

(** Of a created patch it reports the records that make the to file out of the from
    file. *)
Theorem C33_created : forall X DI HI c hs sa from to,
  array_ok sa from -> bytes_ok to -> zlen from < 2 ^ 30 -> zlen to < 2 ^ 30 ->
  (c = CompHeatshrink -> hs_reader_ok (x_heatshrink X) /\
     forall pieces, bytes_ok (concat pieces) -> py_stream CompHeatshrink (concat pieces) (hs pieces)) ->
  exists patch recs, create_sequential c hs sa from to = Ret (Some patch) /\ apply_recs from 0 recs = Some to /\ recs_size recs = zlen to /\
    exists n, forall fuel, (n <= fuel)%nat ->
    patch_info X DI HI fuel patch = ret (InfoSequential (mksi (zlen patch) (comp_number c) 0 None
      (mkinner (recs_size recs) (diff_sizes recs) (extra_sizes recs) (adjustments recs) (zlen (size_fields recs))))).
Proof. exact info_created. Qed.
Print Assumptions C33_created.

Example C33_created_example : array_ok ex_sa ex_from /\ bytes_ok ex_to /\ hs_reader_ok (x_heatshrink ex_ext) /\
  exists patch i, create_sequential CompCrle literals ex_sa ex_from ex_to = Ret (Some patch) /\
  patch_info ex_ext ex_di ex_hi 100 patch = ret (InfoSequential i) /\ ii_to_size (si_inner i) = 28 /\
  ii_diffs (si_inner i) = [0; 12; 15] /\ ii_extras (si_inner i) = [0; 1; 0] /\ ii_adjustments (si_inner i) = [3; -15; -5].
Proof. exact (conj ex_array (conj ex_to_bytes (conj ex_reader_ok ex_info))). Qed.

(** The same with the compressions lzma, bz2, zstd and lz4. *)
Theorem C33_other : forall X DI HI number compress sa from to, other_number number -> pair_ok compress (x_other X number) ->
  array_ok sa from -> bytes_ok to -> zlen from < 2 ^ 30 -> zlen to < 2 ^ 30 ->
  exists patch recs, create_sequential_with number compress sa from to = Ret (Some patch) /\ apply_recs from 0 recs = Some to /\ recs_size recs = zlen to /\
    exists n, forall fuel, (n <= fuel)%nat ->
    patch_info X DI HI fuel patch = ret (InfoSequential (mksi (zlen patch) number 0 None
      (mkinner (recs_size recs) (diff_sizes recs) (extra_sizes recs) (adjustments recs) (zlen (size_fields recs))))).
Proof. exact info_other. Qed.
Print Assumptions C33_other.

Example C33_other_example : exists patch i, create_sequential_with 5 (zstd_compress plain_lib) ex_sa ex_from ex_to = Ret (Some patch) /\
  patch_info plain_ext ex_di ex_hi 200 patch = ret (InfoSequential i) /\ si_compression i = 5 /\ ii_to_size (si_inner i) = 28 /\
  ii_diffs (si_inner i) = [0; 12; 15] /\ ii_extras (si_inner i) = [0; 1; 0] /\ ii_adjustments (si_inner i) = [3; -15; -5].
Proof. exact ex_info_other. Qed.

(** Whatever the patch is: what patch_info() reports adds up to the to size in the
    header. *)
Theorem C33_sums : forall X DI HI fuel patch i,
  patch_info X DI HI fuel patch = ret (InfoSequential i) -> 0 <= ii_to_size (si_inner i) ->
  sum (ii_diffs (si_inner i)) + sum (ii_extras (si_inner i)) = ii_to_size (si_inner i) /\
  length (ii_diffs (si_inner i)) = length (ii_extras (si_inner i)) /\
  length (ii_extras (si_inner i)) = length (ii_adjustments (si_inner i)) /\
  si_patch_size i = zlen patch /\
  exists b l rest, patch = b :: l /\ py_unpack_size l = Some (ii_to_size (si_inner i), rest).
Proof. exact info_sums. Qed.
Print Assumptions C33_sums.

(** Whatever the body of the patch is: if patch_info() accepts it and reports no negative
    sizes, then apply_patch() does not find it to be wrong; it succeeds, or it fails
    because the from file is not one the patch is for. *)
Theorem C33_applies : forall X F hdiff DI HI clamps c n body stream,
  - 2 ^ 63 < n < 2 ^ 63 -> py_stream c body stream -> body <> [] ->
  (c = CompHeatshrink -> hs_reader_ok (x_heatshrink X)) ->
  let patch := header_byte TYPE_SEQUENTIAL c :: enc_size n ++ stream in
  exists m, forall fuel, (m <= fuel)%nat ->
  forall i, patch_info X DI HI fuel patch = ret (InfoSequential i) -> si_dfpatch_size i <= 0 ->
  Forall (Z.le 0) (ii_diffs (si_inner i)) -> Forall (Z.le 0) (ii_extras (si_inner i)) ->
  forall from, (exists to, apply_patch X F hdiff fuel clamps from patch = ret (n, to)) \/
               apply_patch X F hdiff fuel clamps from patch = raise OtherError.
Proof. exact info_applies. Qed.
Print Assumptions C33_applies.

Example C33_applies_example : py_stream CompNone odd_body odd_body /\ odd_body <> [] /\
  forall X F hdiff DI HI clamps,
  (exists i, patch_info X DI HI 100 (header_byte TYPE_SEQUENTIAL CompNone :: enc_size 4 ++ odd_body) = ret (InfoSequential i) /\
     ii_diffs (si_inner i) = [1; 2] /\ ii_extras (si_inner i) = [1; 0]) /\
  apply_patch X F hdiff 100 clamps [1; 2; 3; 4; 5; 6; 7; 8; 9; 10; 11; 12; 13] (header_byte TYPE_SEQUENTIAL CompNone :: enc_size 4 ++ odd_body) = ret (4, [6; 9; 13; 14]) /\
  apply_patch X F hdiff 100 clamps [1] (header_byte TYPE_SEQUENTIAL CompNone :: enc_size 4 ++ odd_body) = raise OtherError.
Proof. exact ex_odd. Qed.

(** A patch that has been cut off is an error for patch_info() too. *)
Theorem C33_truncated : forall X DI HI c recs patch l cut, c = CompNone \/ c = CompCrle ->
  py_patch c recs patch -> recs_fit recs -> l ++ cut = patch -> cut <> [] ->
  exists n, forall fuel, (n <= fuel)%nat -> patch_info X DI HI fuel l = raise DetoolsError.
Proof. exact info_rejects_cut. Qed.
Print Assumptions C33_truncated.

(** With negative sizes the two disagree. *)
Theorem C33_negative_refuted : exists patch, forall X F hdiff DI HI clamps from,
  apply_patch X F hdiff 100 clamps from patch = ret (2, [7; 8]) /\ patch_info X DI HI 100 patch = raise DetoolsError.
Proof. exact (ex_intro _ negative_patch ex_negative). Qed.
Print Assumptions C33_negative_refuted.

(** In-place patches: the header and the records of every segment. *)
Theorem C33_in_place : forall X DI HI c hs sa memory segment minimum from to, (forall l, array_ok (sa l) l) -> bytes_ok to ->
  0 < segment < 2 ^ 63 -> (segment | memory) -> (segment | minimum_of segment minimum) -> 0 <= minimum_of segment minimum <= memory ->
  memory < 2 ^ 30 -> zlen to <= memory -> zlen from < 2 ^ 63 ->
  (c = CompHeatshrink -> hs_reader_ok (x_heatshrink X) /\
     forall pieces, bytes_ok (concat pieces) -> py_stream CompHeatshrink (concat pieces) (hs pieces)) ->
  exists patch shift segs, create_in_place c hs sa memory segment minimum from to = Ret (Some patch) /\
    apply_segments memory segment shift from 0 segs = Some to /\
    exists n, forall fuel, (n <= fuel)%nat ->
    patch_info X DI HI fuel patch = ret (InfoInPlace (zlen patch, comp_number c, (memory, segment, shift, zlen from, zlen to),
      map (fun recs => (0, None, mkinner (recs_size recs) (diff_sizes recs) (extra_sizes recs) (adjustments recs) (zlen (size_fields recs)))) segs)).
Proof. exact info_in_place_created. Qed.
Print Assumptions C33_in_place.

Example C33_in_place_example : (forall l, array_ok (sort_suffixes l) l) /\ bytes_ok ip_to /\
  ((16 | 80) /\ (16 | minimum_of 16 None) /\ (16 | minimum_of 16 (Some 0))) /\
  create_in_place CompCrle literals sort_suffixes 80 16 None ip_from ip_to = Ret (Some ip_patch) /\
  patch_info ex_ext ex_di ex_hi 100 ip_patch = ret (InfoInPlace (49, 2, (80, 16, 32, 40, 43), ip_infos)).
Proof. exact (conj sort_suffixes_ok (conj ex_ip_to (conj ex_minimum (conj ex_ip_created ex_info_in_place)))). Qed.

(** But what follows an in-place patch is only an error for the applier. *)
Theorem C33_trailing_refuted : exists patch tl i, forall X DI HI,
  patch_info X DI HI 100 (patch ++ tl) = ret (InfoInPlace i) /\
  forall bytesio, apply_patch_in_place X 100 bytesio py_mem (patch ++ tl) = raise DetoolsError.
Proof. exact (ex_intro _ ip_patch (ex_intro _ [1; 2; 3] (ex_intro _ _ ex_info_trailing))). Qed.
Print Assumptions C33_trailing_refuted.

(** C34 for in-place patches: every strict prefix of a created one is an error. *)
Theorem C34_in_place_truncated : forall X c hs sa memory segment minimum from to mem bytesio, c = CompNone \/ c = CompCrle ->
  (forall l, array_ok (sa l) l) -> bytes_ok to ->
  0 < segment < 2 ^ 63 -> (segment | memory) -> (segment | minimum_of segment minimum) -> 0 <= minimum_of segment minimum <= memory ->
  memory < 2 ^ 30 -> zlen to <= memory -> zlen from < 2 ^ 63 ->
  memory <= zlen mem -> ztake (zlen from) mem = from ->
  exists patch, create_in_place c hs sa memory segment minimum from to = Ret (Some patch) /\
    forall k, 0 <= k < zlen patch ->
    exists n, forall fuel, (n <= fuel)%nat -> apply_patch_in_place X fuel bytesio mem (ztake k patch) = raise DetoolsError.
Proof. exact in_place_truncated. Qed.
Print Assumptions C34_in_place_truncated.

(** And so is one followed by more bytes. *)
Theorem C34_in_place_overlong : forall X c hs sa memory segment minimum from to mem bytesio, c = CompNone \/ c = CompCrle ->
  (forall l, array_ok (sa l) l) -> bytes_ok to ->
  0 < segment < 2 ^ 63 -> (segment | memory) -> (segment | minimum_of segment minimum) -> 0 <= minimum_of segment minimum <= memory ->
  memory < 2 ^ 30 -> zlen to <= memory -> zlen from < 2 ^ 63 ->
  memory <= zlen mem -> ztake (zlen from) mem = from -> to <> [] ->
  exists patch, create_in_place c hs sa memory segment minimum from to = Ret (Some patch) /\
    forall tl, bytes_ok tl -> tl <> [] -> (c = CompCrle -> ~ crle_void tl) ->
    exists n, forall fuel, (n <= fuel)%nat -> apply_patch_in_place X fuel bytesio mem (patch ++ tl) = raise DetoolsError.
Proof. exact in_place_overlong. Qed.
Print Assumptions C34_in_place_overlong.

Example C34_in_place_example : (forall l, array_ok (sort_suffixes l) l) /\ bytes_ok ip_to /\
  ((16 | 80) /\ (16 | minimum_of 16 None) /\ (16 | minimum_of 16 (Some 0))) /\
  (80 <= zlen py_mem /\ ztake (zlen ip_from) py_mem = ip_from) /\ (~ crle_void [0; 1; 7] /\ ~ crle_void [1] /\ ~ crle_void [2; 0; 0]) /\
  create_in_place CompCrle literals sort_suffixes 80 16 None ip_from ip_to = Ret (Some ip_patch).
Proof. exact (conj sort_suffixes_ok (conj ex_ip_to (conj ex_minimum (conj ex_py_mem (conj ex_not_void ex_ip_created))))). Qed.

(** C41: on any patch at all, of whatever bytes, that is not compressed or compressed
    with crle, apply_patch() ends, by returning or with an exception; if it returns, it
    has written as much as it says.  Data formats and hdiffpatch are assumed to end. *)
Theorem C41_total : forall X F hdiff clamps from patch,
  (match patch with
   | [] => True
   | b :: _ => fst (unpack_header b) = 2 \/ snd (unpack_header b) = 0 \/ snd (unpack_header b) = 2 \/ decompressor_of X (snd (unpack_header b)) = None
   end) ->
  (forall format from1 data n, exists v, F format from1 data n = Ret v) -> (forall a b, exists v, hdiff a b = Ret v) ->
  exists m, forall fuel, (m <= fuel)%nat -> exists v, apply_patch X F hdiff fuel clamps from patch = Ret v /\
    (forall n to, v = Val (n, to) -> (match patch with [] => True | b :: _ => fst (unpack_header b) <> 2 end) -> zlen to = Z.max 0 n).
Proof. exact apply_total. Qed.
Print Assumptions C41_total.

Example C41_example :
  (match negative_patch with
   | [] => True
   | b :: _ => fst (unpack_header b) = 2 \/ snd (unpack_header b) = 0 \/ snd (unpack_header b) = 2 \/ decompressor_of ex_ext (snd (unpack_header b)) = None
   end) /\
  (forall format from1 data n, exists v, ex_formats format from1 data n = Ret v) /\ (forall a b, exists v, ex_hdiff a b = Ret v).
Proof. exact ex_total. Qed.

(** A negative size can be returned. *)
Theorem C41_negative_refuted : exists patch, forall X F hdiff clamps from, apply_patch X F hdiff 100 clamps from patch = ret (-1, []).
Proof. exact (ex_intro _ minus_patch ex_minus). Qed.
Print Assumptions C41_negative_refuted.
