(** Model of the ranges the command patch_info prints for the segments of an in-place
    patch, detools/__init__.py. *)

From Coq Require Import ZArith List Bool.
From Verif Require Import Prelude PyApply PyInfo.
Import ListNotations.
Open Scope Z_scope.

(** The loop of _patch_info_in_place, __init__.py:464-468: from range and to range of
    each of [count] segments, the first of which is number [i]. *)
Fixpoint report_loop (memory segment shift from_size to_size : Z) (count : nat) (i : Z) : list ((Z * Z) * (Z * Z)) :=
  match count with
  | O => []
  | S n =>
      let from_begin := Z.max (segment * (i + 1) - shift) 0 in
      let from_end := Z.min from_size (memory - shift) in
      let to_begin := segment * i in
      let to_end := Z.min (to_begin + segment) to_size in
      ((from_begin, from_end), (to_begin, to_end)) :: report_loop memory segment shift from_size to_size n (i + 1)
  end.

(** _patch_info_in_place, __init__.py:439-477, of what patch_info() returned; the other
    lines printed are left out. *)
Definition report_ranges (i : Z * Z * (Z * Z * Z * Z * Z) * list (Z * option Z * inner_info)) : list ((Z * Z) * (Z * Z)) :=
  let '(_, _, (memory, segment, shift, from_size, to_size), segments) := i in
  report_loop memory segment shift from_size to_size (length segments) 0.
