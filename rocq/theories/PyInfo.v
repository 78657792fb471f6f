(** Model of patch_info(), detools/info.py. *)

From Coq Require Import ZArith List Bool.
From Verif Require Import Prelude PySize PyCrle PyApply PyApplyInPlace.
Import ListNotations.
Open Scope Z_scope.

(** The tuple returned by patch_info_sequential_inner: to size, diff sizes, extra
    sizes, adjustments and number of size bytes. *)
Record inner_info := mkinner {
  ii_to_size : Z;
  ii_diffs : list Z;
  ii_extras : list Z;
  ii_adjustments : list Z;
  ii_size_bytes : Z
}.

(** The loop of patch_info_sequential_inner, info.py:41-69.  The lists grow at the
    end.  decompress() of a negative size returns b''. *)
Fixpoint info_loop {D} (k fuel : nat) (to_pos to_size : Z) (diffs extras adjs : list Z) (bytes : Z) (r : preader D)
  : pyo (inner_info * preader D) :=
  if to_pos <? to_size then
    match k with
    | O => OutOfFuel
    | S k' =>
        dop (size1, n1, r1) := pr_unpack_size fuel r in
        if to_size <? to_pos + size1 then raise DetoolsError
        else
          dop (_, r2) := pr_decompress fuel size1 r1 in
          let to_pos1 := to_pos + size1 in
          dop (size2, n2, r3) := pr_unpack_size fuel r2 in
          if to_size <? to_pos1 + size2 then raise DetoolsError
          else
            dop (_, r4) := pr_decompress fuel size2 r3 in
            dop (size3, n3, r5) := pr_unpack_size fuel r4 in
            info_loop k' fuel (to_pos1 + size2) to_size (diffs ++ [size1]) (extras ++ [size2]) (adjs ++ [size3])
                      (bytes + n1 + n2 + n3) r5
    end
  else ret (mkinner to_size diffs extras adjs bytes, r).

(** patch_info_sequential_inner, info.py:34-75. *)
Definition info_inner {D} (fuel : nat) (r : preader D) (to_size : Z) : pyo (inner_info * preader D) :=
  info_loop fuel fuel 0 to_size [] [] [] 0 r.

(** data_format.info() and data_format_number_to_string(), of which only matters here
    whether they raise. *)
Definition df_info : Type := Z -> list Z -> pyo unit.

(** What patch_info() returns for a sequential patch: size of the patch file,
    compression, size of the data format patch, data format, and the tuple above.
    The heatshrink parameters and the information about the data format are left
    out. *)
Record seq_info := mksi {
  si_patch_size : Z;
  si_compression : Z;
  si_dfpatch_size : Z;
  si_format : option Z;
  si_inner : inner_info
}.

(** patch_info_sequential, info.py:78-110. *)
Definition patch_info_sequential (X : externals) (DI : df_info) (fuel : nat) (patch : list Z) : pyo seq_info :=
  dop (D, to_size, file) := read_header_sequential X patch in
  let number := snd (unpack_header (hd 0 patch)) in
  if to_size =? 0 then ret (mksi (zlen patch) number 0 None (mkinner 0 [] [] [] 0))
  else
    dop (size, _, r) := pr_unpack_size fuel (pr_open D file) in
    dop (format, r1) := (if 0 <? size then
                           dop (format, _, r2) := pr_unpack_size fuel r in
                           dop (data, r3) := pr_decompress fuel size r2 in
                           dop _ := DI format data in
                           ret (Some format, r3)
                         else ret (None, r)) in
    dop (info, r4) := info_inner fuel r1 to_size in
    if pr_eof r4 then ret (mksi (zlen patch) number size format info) else raise DetoolsError.

(** The segments of patch_info_in_place, info.py:127-140: size of the data format
    patch, data format and sizes for each. *)
Fixpoint info_segments {D} (DI : df_info) (count fuel : nat) (to_pos segment to_size : Z) (r : preader D)
  : pyo (list (Z * option Z * inner_info)) :=
  match count with
  | O => ret []
  | S n =>
      dop (size, _, r1) := pr_unpack_size fuel r in
      dop (format, r2) := (if 0 <? size then
                             dop (format, _, r3) := pr_unpack_size fuel r1 in
                             dop _ := DI format [] in
                             dop (_, r4) := pr_decompress fuel size r3 in
                             ret (Some format, r4)
                           else ret (None, r1)) in
      dop (info, r5) := info_inner fuel r2 (Z.min segment (to_size - to_pos)) in
      dop rest := info_segments DI n fuel (to_pos + segment) segment to_size r5 in
      ret ((size, format, info) :: rest)
  end.

(** patch_info_in_place, info.py:113-150: patch size, compression, memory, segment,
    shift, from and to size, and the segments.  The end of the patch is not checked. *)
Definition patch_info_in_place (X : externals) (DI : df_info) (fuel : nat) (patch : list Z)
  : pyo (Z * Z * (Z * Z * Z * Z * Z) * list (Z * option Z * inner_info)) :=
  dop (D, memory, segment, shift, from_size, to_size, file) := read_header_in_place X patch in
  let number := snd (unpack_header (hd 0 patch)) in
  dop segments := (if 0 <? to_size then
                     dop count := range_length to_size segment in
                     info_segments DI count fuel 0 segment to_size (pr_open D file)
                   else ret []) in
  ret (zlen patch, number, (memory, segment, shift, from_size, to_size), segments).

Inductive patch_info_result :=
| InfoSequential (i : seq_info)
| InfoInPlace (i : Z * Z * (Z * Z * Z * Z * Z) * list (Z * option Z * inner_info))
| InfoHdiff (i : Z * Z * Z).

(** patch_info, info.py:166-183.  [HI] is patch_info_hdiffpatch. *)
Definition patch_info (X : externals) (DI : df_info) (HI : list Z -> pyo (Z * Z * Z)) (fuel : nat) (patch : list Z)
  : pyo patch_info_result :=
  match patch with
  | [] => raise DetoolsError
  | b :: _ =>
      let (type, _) := unpack_header b in
      if type =? 0 then dop i := patch_info_sequential X DI fuel patch in ret (InfoSequential i)
      else if type =? 1 then dop i := patch_info_in_place X DI fuel patch in ret (InfoInPlace i)
      else if type =? 2 then dop i := HI patch in ret (InfoHdiff i)
      else raise DetoolsError
  end.
