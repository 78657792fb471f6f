(** Theorems about which BSDIFF40 patches are accepted.  Every proof is an application of a
    lemma of the other files. *)

From Coq Require Import ZArith List Bool.
From Verif Require Import Prelude Spec PyApply PyBsdiff40 PyBsdiff40Spec PyBsdiff40Examples Bs40Spec Bs40Proofs.
Import ListNotations.
Open Scope Z_scope.

(** C80: apply_patch_bsdiff() accepts exactly the BSDIFF40 patches whose streams describe
    records, and use up all of the streams; it then writes the data of the records.  It
    raises an exception for all others. *)
Theorem C80_exactly : forall bz R, bz_ok bz R -> forall clamps from n c d e ctrl diff extra,
  bz_stream bz R c ctrl -> bz_stream bz R d diff -> bz_stream bz R e extra -> bytes_ok c ->
  zlen ctrl < 2 ^ 63 -> zlen diff < 2 ^ 63 -> - 2 ^ 63 < n < 2 ^ 63 ->
  exists m, forall fuel, (m <= fuel)%nat ->
  match bsdiff_records (length c) clamps from 0 n c d e with
  | Some (to, ([], [], [])) => apply_patch_bsdiff bz fuel clamps from (bsdiff40 n ctrl diff extra) = ret (n, to)
  | _ => exists x, apply_patch_bsdiff bz fuel clamps from (bsdiff40 n ctrl diff extra) = raise x
  end.
Proof. exact bsdiff40_exact. Qed.
Print Assumptions C80_exactly.

(** What is written is then as long as the diff and extra data together, and at most as long
    as announced. *)
Theorem C80_length : forall clamps from n c d e to,
  bsdiff_records (length c) clamps from 0 n c d e = Some (to, ([], [], [])) -> zlen to = zlen d + zlen e /\ zlen to <= Z.max 0 n.
Proof. exact records_all. Qed.
Print Assumptions C80_length.

Example C80_example : bz_ok stored stored_rel /\
  (bz_stream stored stored_rel ex_control (90 :: ex_control) /\ bz_stream stored stored_rel [1; 255] [90; 1; 255] /\
   bz_stream stored stored_rel [7; 8; 9] [90; 7; 8; 9] /\ bytes_ok ex_control) /\
  (forall clamps, bsdiff_records (length ex_control) clamps [10; 20; 30] 0 8 ex_control [1; 255] [7; 8; 9] =
    if clamps then Some ([7; 8; 11; 19; 9], ([], [], [])) else None) /\
  apply_patch_bsdiff stored 10 true [10; 20; 30] (bsdiff40 8 (90 :: ex_control) [90; 1; 255] [90; 7; 8; 9]) = ret (8, [7; 8; 11; 19; 9]) /\
  apply_patch_bsdiff stored 10 false [10; 20; 30] (bsdiff40 8 (90 :: ex_control) [90; 1; 255] [90; 7; 8; 9]) = raise OtherError.
Proof. exact (conj stored_ok (conj ex_exact_streams ex_exact)). Qed.
