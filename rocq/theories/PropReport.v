(** Theorems about the ranges the command patch_info prints for the segments of an
    in-place patch.  [explains], [intact] and [tiles] are in ReportSpec.v.  Every proof is an
    application of a lemma of ReportProofs.v, ReportAny.v or ReportExamples.v. *)

From Coq Require Import ZArith List Bool.
From Verif Require Import Prelude Spec BsdiffSpec PyCreate PyInPlace PyApply PySpec PyInfo PyReport ReportSpec ReportProofs ReportAny.
From Verif Require Import PyInfoExamples CreateExamples InPlaceSpec InPlaceExamples PyExamples PyMemExamples ReportExamples.
Import ListNotations.
Open Scope Z_scope.

(** C86: for a patch that was created, the to ranges printed follow each other from the
    beginning to the end of the to data, and the records the patch holds for each segment
    ([py_in_place_patch], PySpec.v) turn the printed range of the from data into the
    printed range of the to data, and the from range is still in the memory then. *)
Theorem C86_ranges : forall X DI HI c hs sa memory segment minimum from to, (forall l, array_ok (sa l) l) -> bytes_ok to ->
  0 < segment < 2 ^ 63 -> (segment | memory) -> (segment | minimum_of segment minimum) -> 0 <= minimum_of segment minimum <= memory ->
  memory < 2 ^ 30 -> zlen to <= memory -> zlen from < 2 ^ 63 ->
  (c = CompHeatshrink -> hs_reader_ok (x_heatshrink X) /\
     forall pieces, bytes_ok (concat pieces) -> py_stream CompHeatshrink (concat pieces) (hs pieces)) ->
  exists patch shift info segs, create_in_place c hs sa memory segment minimum from to = Ret (Some patch) /\
    py_in_place_patch c memory segment shift (zlen from) (zlen to) segs patch /\
    (exists n, forall fuel, (n <= fuel)%nat -> patch_info X DI HI fuel patch = ret (InfoInPlace info)) /\
    Forall2 (explains from to) (report_ranges info) segs /\ Forall (intact memory shift (zlen from)) (report_ranges info) /\ tiles 0 (map snd (report_ranges info)) (zlen to).
Proof. exact report_created. Qed.
Print Assumptions C86_ranges.

Example C86_example : (forall l, array_ok (sort_suffixes l) l) /\ bytes_ok ip_to /\
  create_in_place CompCrle literals sort_suffixes 80 16 None ip_from ip_to = Ret (Some ip_patch) /\
  exists info, patch_info ex_ext ex_di ex_hi 100 ip_patch = ret (InfoInPlace info) /\
    report_ranges info = [((0, 40), (0, 16)); ((0, 40), (16, 32)); ((16, 40), (32, 43))].
Proof. exact (conj sort_suffixes_ok (conj ex_ip_to (conj ex_ip_created ex_report))). Qed.

(** The to ranges follow each other from the beginning to the end for any patch that
    patch_info() accepts, whatever its content, if its sizes make sense. *)
Theorem C86_any : forall X DI HI fuel patch size number memory segment shift from_size to_size segments,
  patch_info X DI HI fuel patch = ret (InfoInPlace (size, number, (memory, segment, shift, from_size, to_size), segments)) ->
  0 < segment -> 0 <= to_size ->
  tiles 0 (map snd (report_ranges (size, number, (memory, segment, shift, from_size, to_size), segments))) to_size.
Proof. exact any_tiles. Qed.
Print Assumptions C86_any.

Example C86_any_example : patch_info ex_ext ex_di ex_hi 100 ip_patch = ret (InfoInPlace (49, 2, (80, 16, 32, 40, 43), ip_infos)).
Proof. exact ex_info_in_place. Qed.

(** A from range of which nothing is left is printed with its end before its beginning. *)
Theorem C86_order_refuted : exists memory segment from to patch info fuel,
  create_in_place CompNone literals sort_suffixes memory segment None from to = Ret (Some patch) /\
  patch_info ex_ext ex_di ex_hi fuel patch = ret (InfoInPlace info) /\ exists b e r, In ((b, e), r) (report_ranges info) /\ e < b.
Proof.
  exact (match ex_backwards with
         | ex_intro _ patch (ex_intro _ info (conj A (conj B C))) =>
             ex_intro _ 80 (ex_intro _ 16 (ex_intro _ ip_from (ex_intro _ long_to (ex_intro _ patch (ex_intro _ info (ex_intro _ 200%nat
               (conj A (conj B (ex_intro _ 48 (ex_intro _ 40 (ex_intro _ (64, 80) (conj C eq_refl))))))))))))
         end).
Qed.
Print Assumptions C86_order_refuted.
