(** Model of the creation of sequential patches, detools/create.py, without a data
    format. *)

From Coq Require Import ZArith List Bool.
From Verif Require Import Prelude PySize PyCrle Bsdiff Spec.
Import ListNotations.
Open Scope Z_scope.

(** pack_header, create.py:42-43 ('p1u3u4'). *)
Definition py_pack_header (patch_type compression : Z) : Z := patch_type * 16 + compression.

(** The concatenated results of compress() on every piece and of flush(), for the
    compressors none (compression/none.py:8-14), crle (compression/crle.py) and
    heatshrink (compression/heatshrink.py:25-42).  The latter calls the external
    package heatshrink2; [hs] is what it produces for the given pieces, including
    the header byte.  [None]: exception. *)
Definition py_compress (c : comp) (hs : list (list Z) -> list Z) (pieces : list (list Z)) : outcome (option (list Z)) :=
  match c with
  | CompNone => Ret (Some (concat pieces))
  | CompCrle =>
      letm r := crle_compress_all ccomp_init pieces [] in
      Ret (match r with Ok l => Some l | _ => None end)
  | CompHeatshrink => Ret (Some (hs pieces))
  end.

(** create_chunks, create.py:96-160: with and without mmap the same buffers are
    passed to create_patch().  [sa] is the suffix array. *)
Definition create_chunks (sa from to : list Z) : outcome (option (list (list Z))) :=
  create_patch sa from to.

(** create_patch_sequential_data, create.py:163-206, data_format None. *)
Definition create_sequential_data (c : comp) (hs : list (list Z) -> list Z) (sa from to : list Z) : outcome (option (list Z)) :=
  if zlen to =? 0 then Ret (Some [])
  else
    letm d := py_pack_size 0 in
    match d with
    | None => Ret None
    | Some dfpatch =>
        letm r := create_chunks sa from to in
        match r with
        | None => Ret None
        | Some chunks => py_compress c hs (dfpatch :: chunks)
        end
    end.

(** create_patch_sequential, create.py:209-231. *)
Definition create_sequential (c : comp) (hs : list (list Z) -> list Z) (sa from to : list Z) : outcome (option (list Z)) :=
  letm sz := py_pack_size (zlen to) in
  match sz with
  | None => Ret None
  | Some size =>
      letm r := create_sequential_data c hs sa from to in
      match r with
      | None => Ret None
      | Some body => Ret (Some (py_pack_header 0 (comp_number c) :: size ++ body))
      end
  end.
