(** Theorems about the Python functions on sequential patches.  Every proof is an
    application of a lemma of the other files. *)

From Coq Require Import ZArith List Bool.
From Verif Require Import Prelude Heatshrink CReader CSeq Spec Bsdiff BsdiffSpec PyCreate SeqSpec PyApply PySpec.
From Verif Require SeqExamples.
From Verif Require Import CreateExamples PyThms PyExamples.
Import ListNotations.
Open Scope Z_scope.

(** C29: a sequential patch is created whatever in-range array the match search is
    given, and apply_patch() on it writes exactly the to file and returns its
    size.  [X] are the external decompressors: heatshrink is only used with a
    decoder and an encoder that follow the format; nothing is assumed of the
    others, of the data formats [F] and of [hdiff].  [clamps]: what seek() does
    before the beginning of the from file. *)
Theorem C29_round_trip : forall X F hdiff clamps c hs sa from to,
  array_ok sa from -> bytes_ok to -> zlen from < 2 ^ 30 -> zlen to < 2 ^ 30 ->
  (c = CompHeatshrink -> hs_reader_ok (x_heatshrink X) /\
     forall pieces, bytes_ok (concat pieces) -> py_stream CompHeatshrink (concat pieces) (hs pieces)) ->
  exists patch, create_sequential c hs sa from to = Ret (Some patch) /\
    exists n, forall fuel, (n <= fuel)%nat -> apply_patch X F hdiff fuel clamps from patch = ret (zlen to, to).
Proof. exact py_round_trip. Qed.
Print Assumptions C29_round_trip.

Example C29_example : array_ok ex_sa ex_from /\ bytes_ok ex_to /\ hs_reader_ok (x_heatshrink ex_ext) /\
  forall pieces, bytes_ok (concat pieces) -> py_stream CompHeatshrink (concat pieces) (literals pieces).
Proof. exact (conj ex_array (conj ex_to_bytes (conj ex_reader_ok literals_stream))). Qed.

Example C29_run : forall c, exists patch, create_sequential c literals ex_sa ex_from ex_to = Ret (Some patch) /\
  apply_patch ex_ext ex_formats ex_hdiff 100 false ex_from patch = ret (28, ex_to).
Proof. exact ex_py_run. Qed.

(** C32: on every well-formed patch the C functions, fed in any pieces, and
    apply_patch() write the same data and return the same size. *)
Theorem C32_agree : forall (wb : WordBits), 32 <= word_bits ->
  forall X F hdiff clamps junk c recs patch from to chunks,
  seq_patch c recs patch -> recs_in_limits recs -> apply_recs from 0 recs = Some to ->
  bytes_ok patch -> zlen patch + 128 < 2 ^ word_bits ->
  concat chunks = patch -> (c = CompNone -> header_complete (hd [] chunks) = true) ->
  (c = CompHeatshrink -> hs_reader_ok (x_heatshrink X)) ->
  exists n, forall fuel, (n <= fuel)%nat ->
    exists s w, c_apply fuel junk (zlen patch) from chunks = Ret (zlen to, s, w) /\ f_to w = to /\
      apply_patch X F hdiff fuel clamps from patch = ret (zlen to, to).
Proof. exact @py_c_agree. Qed.
Print Assumptions C32_agree.

Example C32_example :
  seq_patch CompCrle SeqExamples.ex_recs SeqExamples.ex_crle /\ recs_in_limits SeqExamples.ex_recs /\
  apply_recs SeqExamples.ex_from 0 SeqExamples.ex_recs = Some SeqExamples.ex_to /\
  bytes_ok SeqExamples.ex_crle /\ hs_reader_ok (x_heatshrink ex_ext).
Proof. exact (conj SeqExamples.ex_crle_ok (conj SeqExamples.ex_limits (conj SeqExamples.ex_meaning (conj SeqExamples.ex_crle_bytes ex_reader_ok)))). Qed.

(** C34, first half: every strict prefix of a created patch is an error. *)
Theorem C34_truncated : forall X F hdiff clamps c hs sa from to, c = CompNone \/ c = CompCrle ->
  array_ok sa from -> bytes_ok to -> zlen from < 2 ^ 30 -> zlen to < 2 ^ 30 ->
  exists patch, create_sequential c hs sa from to = Ret (Some patch) /\
    forall k, 0 <= k < zlen patch ->
    exists n, forall fuel, (n <= fuel)%nat -> apply_patch X F hdiff fuel clamps from (ztake k patch) = raise DetoolsError.
Proof. exact py_truncated. Qed.
Print Assumptions C34_truncated.

Example C34_truncated_example : array_ok ex_sa ex_from /\ bytes_ok ex_to /\
  exists patch, create_sequential CompCrle literals ex_sa ex_from ex_to = Ret (Some patch) /\
    apply_patch ex_ext ex_formats ex_hdiff 100 false ex_from patch = ret (28, ex_to).
Proof. exact (conj ex_array (conj ex_to_bytes (ex_py_run CompCrle))). Qed.

(** C34, second half: so is a created patch followed by more bytes, unless the to
    file is empty or, with crle, the bytes are segments without content. *)
Theorem C34_overlong : forall X F hdiff clamps c hs sa from to, c = CompNone \/ c = CompCrle ->
  array_ok sa from -> bytes_ok to -> zlen from < 2 ^ 30 -> zlen to < 2 ^ 30 -> to <> [] ->
  exists patch, create_sequential c hs sa from to = Ret (Some patch) /\
    forall tl, bytes_ok tl -> tl <> [] -> (c = CompCrle -> ~ crle_void tl) ->
    exists n, forall fuel, (n <= fuel)%nat -> apply_patch X F hdiff fuel clamps from (patch ++ tl) = raise DetoolsError.
Proof. exact py_overlong. Qed.
Print Assumptions C34_overlong.

Example C34_overlong_example : array_ok ex_sa ex_from /\ bytes_ok ex_to /\ ex_to <> [] /\
  ~ crle_void [0; 1; 7] /\ ~ crle_void [1] /\ ~ crle_void [2; 0; 0].
Proof. exact (conj ex_array (conj ex_to_bytes (conj ex_to_ne ex_not_void))). Qed.

(** The two exceptions are real. *)
Theorem C34_empty_refuted : forall X F hdiff fuel clamps c hs sa from tl,
  exists patch, create_sequential c hs sa from [] = Ret (Some patch) /\
    apply_patch X F hdiff fuel clamps from (patch ++ tl) = ret (0, []).
Proof. exact py_empty_trailing. Qed.
Print Assumptions C34_empty_refuted.

Theorem C34_crle_refuted : exists patch, create_sequential CompCrle literals ex_sa ex_from ex_to = Ret (Some patch) /\
  forall X F hdiff, apply_patch X F hdiff 100 false ex_from (patch ++ [0; 0]) = ret (28, ex_to) /\
  apply_patch X F hdiff 100 false ex_from (patch ++ [0; 5]) = ret (28, ex_to).
Proof. exact py_void_trailing. Qed.
Print Assumptions C34_crle_refuted.
