(** Vocabulary for the outcome of in-place updates with arbitrary patches: how the from
    data is moved out of the way, and what writing the to data in order means. *)

From Coq Require Import ZArith List Bool.
From Verif Require Import Prelude Heatshrink CReader CSeq CInPlace Spec InPlaceSpec IpBoundSpec.
Import ListNotations.
Open Scope Z_scope.

(** [n] bytes in blocks of at most 128: offsets and sizes. *)
Definition blocks (n : Z) : list (Z * Z) :=
  map (fun i => (128 * i, Z.min 128 (n - 128 * i))) (addresses 0 ((n + 127) / 128)).

(** Segment [i] is moved up by the announced shift: its new place is erased, then it
    is copied block by block. *)
Definition move (a : announced) (i : Z) : list event :=
  let source := i * n_segment a in
  EErase (n_shift a + source) (n_segment a) ::
  flat_map (fun b => [ERead (source + fst b) (snd b); EWrite (n_shift a + source + fst b) (snd b)]) (blocks (n_segment a)).

(** The segments with from data that fits in the memory are moved, the last one first.
    Without to data there is nothing to do. *)
Definition moves (a : announced) : list event :=
  if n_to a =? 0 then []
  else flat_map (move a) (rev (addresses 0 ((Z.min (n_from a) (n_memory a - n_shift a) + n_segment a - 1) / n_segment a))).

(** All writes, in order, fill the cells from [pos] up to [stop] one after the other. *)
Fixpoint in_order (pos : Z) (l : list event) (stop : Z) : Prop :=
  match l with
  | [] => pos = stop
  | EWrite a n :: r => a = pos /\ in_order (pos + n) r stop
  | _ :: r => in_order pos r stop
  end.

Fixpoint bytes_written (l : list event) : Z :=
  match l with
  | [] => 0
  | EWrite _ n :: r => n + bytes_written r
  | _ :: r => bytes_written r
  end.
