(** Specification for in-place patches with LZMA, as InPlaceSpec.v for the other
    compressions. *)

From Coq Require Import ZArith List Bool.
From Verif Require Import Prelude Heatshrink CReader CSeq CInPlace Spec CLzma CSeqLzma LzmaSpec CIpLzma InPlaceSpec.
Import ListNotations.
Open Scope Z_scope.

(** An in-place patch with the given sizes in the header and [stream] after it. *)
Definition lzma_in_place (memory segment shift from_size to_size : Z) (stream : list Z) : list Z :=
  TYPE_IN_PLACE * 16 + 1 :: enc_size memory ++ enc_size segment ++ enc_size shift ++
  enc_size from_size ++ enc_size to_size ++ stream.

(** [lzma_in_place_patch ...]: [patch] is an in-place patch for the given sizes whose
    segments are [segs], for a library that can start a decoder.  Without to data it does
    not matter what follows the header. *)
Definition lzma_in_place_patch {D} (L : lzma_lib D) (memory segment shift from_size to_size : Z)
           (segs : list (list prec)) (patch : list Z) : Prop :=
  segments_ok segment segs to_size /\
  exists stream,
    patch = lzma_in_place memory segment shift from_size to_size stream /\
    ((segs = [] /\ lz_start L <> None) \/ (segs <> [] /\ lzma_stream L (enc_segments segs) stream)).

(** As [interrupted] in InPlaceSpec.v: any number of attempts at applying the patch, each
    ended by an error before the final resetting of the step. *)
Inductive lzma_interrupted `{WordBits} {D} (L : lzma_lib D) (patch : list Z) : dev -> dev -> Prop :=
| lzma_interrupted_never : forall d, lzma_interrupted L patch d d
| lzma_interrupted_once_more : forall d power torn torn_step fuel junk patch_size pieces r y d1 d2,
    concat pieces = patch ->
    y_apply L flash_env fuel junk patch_size (power_up d power torn torn_step) pieces = Ret (r, y, d1) ->
    r < 0 ->
    ~ In (EStep 0) (d_log d1) ->
    lzma_interrupted L patch d1 d2 ->
    lzma_interrupted L patch d d2.
