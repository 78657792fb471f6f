(** Model of creating sequential patches with a data format (detools/create.py). *)

From Coq Require Import ZArith List Bool.
From Verif Require Import Prelude Spec PyCreate PyApply PyFormat.
Import ListNotations.
Open Scope Z_scope.

(** What a function of the C extension or a compressor returns, [None] being an
    exception. *)
Definition or_raise {A} (x : outcome (option A)) : pyo A :=
  letm r := x in match r with Some a => ret a | None => raise OtherError end.

(** create_patch_sequential_data, create.py:163-206, with a data format; [sort] is the
    suffix array algorithm, [M] difflib's, [hs] the compressor of heatshrink2. *)
Definition create_format_data (M : matcher) (sort : list Z -> list Z) (c : comp) (hs : list (list Z) -> list Z)
           (number : Z) (sg : segment) (from to : list Z) : pyo (list Z) :=
  if zlen to =? 0 then ret []
  else
    match format_of number with
    | None => raise DetoolsError
    | Some fm =>
        dop (from1, to1, patch) := encode M fm from to sg in
        dop a := size_bytes (zlen patch) in
        dop b := size_bytes number in
        dop chunks := or_raise (create_chunks (sort from1) from1 to1) in
        or_raise (py_compress c hs ((a ++ b ++ patch) :: chunks))
    end.

(** create_patch_sequential, create.py:209-231. *)
Definition create_format (M : matcher) (sort : list Z -> list Z) (c : comp) (hs : list (list Z) -> list Z)
           (number : Z) (sg : segment) (from to : list Z) : pyo (list Z) :=
  dop size := size_bytes (zlen to) in
  dop body := create_format_data M sort c hs number sg from to in
  ret (py_pack_header 0 (comp_number c) :: size ++ body).
