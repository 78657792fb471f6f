(** What patch_info() reports about the records of a patch. *)

From Coq Require Import ZArith List Bool.
From Verif Require Import Prelude Spec.
Import ListNotations.
Open Scope Z_scope.

Definition diff_sizes (recs : list prec) : list Z := map (fun r => zlen (r_diff r)) recs.
Definition extra_sizes (recs : list prec) : list Z := map (fun r => zlen (r_extra r)) recs.
Definition adjustments (recs : list prec) : list Z := map r_adj recs.
(** The size fields of the records, one after the other. *)
Definition size_fields (recs : list prec) : list Z :=
  flat_map (fun r => enc_size (zlen (r_diff r)) ++ enc_size (zlen (r_extra r)) ++ enc_size (r_adj r)) recs.

Definition sum (l : list Z) : Z := fold_right Z.add 0 l.
