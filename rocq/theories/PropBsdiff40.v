(** Theorems about BSDIFF40 patches.  Every proof is an application of a lemma of the
    other files. *)

From Coq Require Import ZArith List Bool.
From Verif Require Import Prelude Spec Bsdiff BsdiffSpec PyApply PySpec PyBsdiff40 PyBsdiff40Spec.
From Verif Require Import CreateExamples PyBsdiff40Proofs PyBsdiff40Thms PyBsdiff40Examples.
Import ListNotations.
Open Scope Z_scope.

(** C31: create_patch_bsdiff() makes a patch with which apply_patch_bsdiff() turns the
    from file into the to file, for every bz2 package that is lossless and makes data at
    most about twice as long, whatever in-range array the match search is given. *)
Theorem C31_round_trip : forall bz clamps sa from to,
  bz_lossless bz -> (forall pieces, zlen (bz_compress bz pieces) <= 2 * zlen (concat pieces) + 1000) ->
  array_ok sa from -> bytes_ok to -> zlen from < 2 ^ 30 -> zlen to < 2 ^ 30 ->
  exists patch, create_patch_bsdiff bz sa from to = ret patch /\
    exists n, forall fuel, (n <= fuel)%nat -> apply_patch_bsdiff bz fuel clamps from patch = ret (zlen to, to).
Proof. exact bsdiff40_round_trip. Qed.
Print Assumptions C31_round_trip.

Example C31_example : bz_lossless stored /\ (forall pieces, zlen (bz_compress stored pieces) <= 2 * zlen (concat pieces) + 1000) /\
  array_ok ex_sa ex_from /\ bytes_ok ex_to /\
  exists patch, create_patch_bsdiff stored ex_sa ex_from ex_to = ret patch /\ zlen patch = 135 /\
    apply_patch_bsdiff stored 10 false ex_from patch = ret (28, ex_to).
Proof. exact (conj stored_lossless (conj stored_short (conj ex_array (conj ex_to_bytes ex_bsdiff_run)))). Qed.

(** Every patch of the format, from whatever tool, is applied with its meaning. *)
Theorem C31_meaning : forall bz R, bz_ok bz R -> forall clamps from to recs ctrl diff extra fuel,
  bz_stream bz R (ctrl_of recs) ctrl -> bz_stream bz R (diff_of recs) diff -> bz_stream bz R (extra_of recs) extra ->
  zlen ctrl < 2 ^ 63 -> zlen diff < 2 ^ 63 -> recs = [] \/ last_nonempty recs -> recs_fit recs -> apply_recs from 0 recs = Some to ->
  (length recs < fuel)%nat ->
  apply_patch_bsdiff bz fuel clamps from (bsdiff40 (recs_size recs) ctrl diff extra) = ret (zlen to, to).
Proof. exact bsdiff40_applies. Qed.
Print Assumptions C31_meaning.

Example C31_meaning_example : bz_ok stored stored_rel /\
  (forall pieces, bz_stream stored stored_rel (concat pieces) (bz_compress stored pieces)) /\
  last_nonempty ex_records /\ recs_fit ex_records /\ apply_recs [10; 20; 30; 40] 0 ex_records = Some [11; 19; 7; 30; 40].
Proof. exact (conj stored_ok (conj stored_stream ex_records_ok)). Qed.

(** The 8 byte fields. *)
Theorem C31_fields : forall x, - 2 ^ 63 < x < 2 ^ 63 -> offtout x = ret (off x) /\ offtin (off x) = ret x.
Proof. exact (fun x H => conj (offtout_off x H) (offtin_off x H)). Qed.
Print Assumptions C31_fields.

(** C42: whatever the three streams hold and whatever size is announced,
    apply_patch_bsdiff() ends, and never writes more than announced. *)
Theorem C42_total : forall bz R, bz_ok bz R -> forall clamps from n c d e ctrl diff extra,
  bz_stream bz R c ctrl -> bz_stream bz R d diff -> bz_stream bz R e extra ->
  zlen ctrl < 2 ^ 63 -> zlen diff < 2 ^ 63 -> - 2 ^ 63 < n < 2 ^ 63 ->
  exists m, forall fuel, (m <= fuel)%nat -> exists v, apply_patch_bsdiff bz fuel clamps from (bsdiff40 n ctrl diff extra) = Ret v /\
    forall n1 to, v = Val (n1, to) -> n1 = n /\ zlen to <= Z.max 0 n.
Proof. exact bsdiff40_any. Qed.
Print Assumptions C42_total.

Example C42_example : bz_ok stored stored_rel /\
  bz_stream stored stored_rel (off 0 ++ off 5 ++ off 0) (90 :: off 0 ++ off 5 ++ off 0) /\
  bz_stream stored stored_rel [] [90] /\ bz_stream stored stored_rel [1; 2; 3] [90; 1; 2; 3].
Proof. exact (conj stored_ok ex_streams). Qed.

(** It can write less and return the announced size, though. *)
Theorem C42_short_refuted : exists bz R c d e ctrl diff extra,
  bz_ok bz R /\ (bz_stream bz R c ctrl /\ bz_stream bz R d diff /\ bz_stream bz R e extra) /\
  apply_patch_bsdiff bz 10 false [] (bsdiff40 5 ctrl diff extra) = ret (5, [1; 2; 3]).
Proof.
  exact (ex_intro _ stored (ex_intro _ stored_rel (ex_intro _ _ (ex_intro _ _ (ex_intro _ _ (ex_intro _ _ (ex_intro _ _ (ex_intro _ _
    (conj stored_ok (conj ex_streams ex_bsdiff_short)))))))))).
Qed.
Print Assumptions C42_short_refuted.
