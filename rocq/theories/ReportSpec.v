(** What the ranges of a report of an in-place patch should be. *)

From Coq Require Import ZArith List Bool.
From Verif Require Import Prelude Spec.
Import ListNotations.
Open Scope Z_scope.

(** The bytes of [l] from [b] up to, but not including, [e]. *)
Definition cut (range : Z * Z) (l : list Z) : list Z := ztake (snd range - fst range) (zdrop (fst range) l).

(** [tiles a ranges b]: the ranges, none of which is empty, follow each other from [a]
    to [b] without gaps. *)
Inductive tiles : Z -> list (Z * Z) -> Z -> Prop :=
| tiles_nil a : tiles a [] a
| tiles_cons a b ranges c : a < b -> tiles b ranges c -> tiles a ((a, b) :: ranges) c.

(** The records of a segment turn the from range of the from data into the to range of
    the to data. *)
Definition explains (from to : list Z) (ranges : (Z * Z) * (Z * Z)) (recs : list prec) : Prop :=
  apply_recs (cut (fst ranges) from) 0 recs = Some (cut (snd ranges) to).

(** The from range is a part of the from data that is still in the memory, where it has
    been moved by [shift], when the to range has been written. *)
Definition intact (memory shift from_size : Z) (ranges : (Z * Z) * (Z * Z)) : Prop :=
  let '((from_begin, from_end), (_, to_end)) := ranges in
  0 <= from_begin /\ from_end <= from_size /\ shift + from_end <= memory /\ to_end <= shift + from_begin.
