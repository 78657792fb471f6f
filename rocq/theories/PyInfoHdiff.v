(** Model of patch_info_hdiffpatch(), detools/info.py. *)

From Coq Require Import ZArith List Bool.
From Verif Require Import Prelude PyApply PyInfo PyHdiff.
Import ListNotations.
Open Scope Z_scope.

(** patch_info_hdiffpatch, info.py:149-161: size of the patch, compression and to size.
    The dictionary with the parameters of heatshrink is left out, and with it the
    PatchReader, whose constructor reads nothing. *)
Definition patch_info_hdiffpatch (X : externals) (patch : list Z) : pyo (Z * Z * Z) :=
  dop (_, to_size, _, _) := read_header_hdiffpatch X patch in
  ret (zlen patch, snd (unpack_header (hd 0 patch)), to_size).

(** patch_info, info.py:164-183, of patches of every type. *)
Definition patch_info_any (X : externals) (DI : df_info) (fuel : nat) (patch : list Z) : pyo patch_info_result :=
  patch_info X DI (patch_info_hdiffpatch X) fuel patch.
