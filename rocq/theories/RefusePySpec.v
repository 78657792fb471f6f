(** Which patches the Python functions refuse because of their first byte. *)

From Coq Require Import ZArith List Bool.
From Verif Require Import RefuseSpec.
Import ListNotations.
Open Scope Z_scope.

(** [strange types patch]: [patch] is empty, of none of the types [types], or its
    compression is none of the seven that are documented: none, lzma, crle, bz2,
    heatshrink, zstd and lz4. *)
Definition strange (types : list Z) (patch : list Z) : Prop :=
  match patch with
  | [] => True
  | b :: _ => ~ In (patch_type b) types \/ ~ (0 <= patch_comp b <= 6)
  end.
