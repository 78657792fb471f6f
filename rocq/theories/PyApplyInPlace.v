(** Model of the Python applier for in-place patches, detools/apply.py. *)

From Coq Require Import ZArith List Bool.
From Verif Require Import Prelude PySize PyCrle PyInPlace PyApply.
Import ListNotations.
Open Scope Z_scope.

(** ** The memory file *)

(** fmem.seek(pos, SEEK_SET): negative positions raise. *)
Definition seek_set (pos : Z) : pyo unit := if pos <? 0 then raise OtherError else ret tt.

(** fmem.read(size) at a position.  A negative size reads everything; for a real file
    ([bytesio] = false) only -1 does, others raise ValueError. *)
Definition mem_read (bytesio : bool) (mem : list Z) (pos size : Z) : pyo (list Z) :=
  if 0 <=? size then ret (file_read_at mem pos size)
  else if bytesio || (size =? -1) then ret (zdrop pos mem)
  else raise OtherError.

(** fmem.write(data) at a position: writing behind the end fills the gap with zeros. *)
Definition mem_write (mem : list Z) (pos : Z) (data : list Z) : list Z :=
  if zlen data =? 0 then mem
  else ztake pos mem ++ zrepeat 0 (pos - zlen mem) ++ data ++ zdrop (pos + zlen data) mem.

(** ** Header and shifting *)

(** read_header_in_place, apply.py:191-215: decompressor, memory size, segment size,
    shift size, from size, to size and the rest of the file. *)
Definition read_header_in_place (X : externals) (file : list Z)
  : pyo (decompressor * Z * Z * Z * Z * Z * list Z) :=
  match file with
  | [] => raise DetoolsError
  | b :: file1 =>
      let (type, number) := unpack_header b in
      if negb (type =? 1) then raise DetoolsError
      else match decompressor_of X number with
           | None => raise DetoolsError
           | Some D =>
               dop (memory, file2) := file_unpack_size file1 in
               dop (segment, file3) := file_unpack_size file2 in
               dop (shift, file4) := file_unpack_size file3 in
               dop (from_size, file5) := file_unpack_size file4 in
               dop (to_size, file6) := file_unpack_size file5 in
               ret (D, memory, segment, shift, from_size, to_size, file6)
           end
  end.

(** shift_memory, apply.py:247-263. *)
Definition shift_memory (bytesio : bool) (mem : list Z) (memory shift from_size : Z) : pyo (list Z) :=
  if zlen mem <? memory then raise DetoolsError
  else
    dop from_data := mem_read bytesio mem 0 from_size in
    dop _ := seek_set shift in
    ret (mem_write mem shift (py_slice from_data 0 (memory - shift))).

(** ** One segment, apply.py:266-305 *)

(** The state is that of the sequential applier with the memory as [ps_out], the
    position from_offset as [ps_from] and to_pos as [ps_dfdiff]. *)

(** The loop body for one diff chunk, apply.py:287-292. *)
Definition mem_diff_chunk {D} (to_offset chunk : Z) (data : list Z) (s : pstate D) : pyo (pstate D) :=
  dop _ := seek_set (ps_from s) in
  let from_data := file_read_at (ps_out s) (ps_from s) chunk in
  dop _ := seek_set (to_offset + ps_dfdiff s) in
  dop sum := add_bytes data from_data in
  ret (mkps (ps_reader s) (ps_from s + chunk) (mem_write (ps_out s) (to_offset + ps_dfdiff s) sum) (ps_dfdiff s + chunk)).

(** The loop body for one extra chunk, apply.py:300-301: the position is where the
    previous chunk ended. *)
Definition mem_extra_chunk {D} (to_offset chunk : Z) (data : list Z) (s : pstate D) : pyo (pstate D) :=
  ret (mkps (ps_reader s) (ps_from s) (mem_write (ps_out s) (to_offset + ps_dfdiff s) data) (ps_dfdiff s + chunk)).

(** The loop, apply.py:281-304. *)
Fixpoint segment_loop {D} (k fuel : nat) (to_offset to_pos to_size : Z) (s : pstate D) : pyo (pstate D) :=
  if to_pos <? to_size then
    match k with
    | O => OutOfFuel
    | S k' =>
        dop (to_pos1, s1) := iter_chunks fuel (mem_diff_chunk to_offset) to_pos to_size s in
        dop _ := seek_set (to_offset + to_pos1) in
        dop (to_pos2, s2) := iter_chunks fuel (mem_extra_chunk to_offset) to_pos1 to_size s1 in
        dop (adj, _, r3) := pr_unpack_size fuel (ps_reader s2) in
        segment_loop k' fuel to_offset to_pos2 to_size (mkps r3 (ps_from s2 + adj) (ps_out s2) (ps_dfdiff s2))
    end
  else ret s.

(** apply_patch_in_place_segment: NotImplementedError for a data format. *)
Definition apply_segment {D} (fuel : nat) (mem : list Z) (r : preader D) (to_offset to_size from_offset : Z)
  : pyo (list Z * preader D) :=
  dop (size, _, r1) := pr_unpack_size fuel r in
  if 0 <? size then raise OtherError
  else
    dop s := segment_loop fuel fuel to_offset 0 to_size (mkps r1 from_offset mem 0) in
    ret (ps_out s, ps_reader s).

(** ** apply_patch_in_place, apply.py:397-433 *)

(** The loop over the segments: [count] of them, the first being number [i]. *)
Fixpoint apply_segments_loop {D} (count fuel : nat) (i segment shift to_size : Z) (mem : list Z) (r : preader D)
  : pyo (list Z * preader D) :=
  match count with
  | O => ret (mem, r)
  | S n =>
      dop (mem1, r1) := apply_segment fuel mem r (i * segment) (Z.min segment (to_size - i * segment))
                                      (Z.max (segment * (i + 1)) shift) in
      apply_segments_loop n fuel (i + 1) segment shift to_size mem1 r1
  end.

(** Length of range(0, to_size, segment); ValueError for a step of zero. *)
Definition range_length (to_size segment : Z) : pyo nat :=
  if segment =? 0 then raise OtherError
  else if segment <? 0 then ret O
  else ret (Z.to_nat ((to_size + segment - 1) / segment)).

(** The value returned and the memory afterwards. *)
Definition apply_patch_in_place (X : externals) (fuel : nat) (bytesio : bool) (mem patch : list Z) : pyo (Z * list Z) :=
  dop (D, memory, segment, shift, from_size, to_size, file) := read_header_in_place X patch in
  if 0 <? to_size then
    dop mem1 := shift_memory bytesio mem memory shift from_size in
    dop count := range_length to_size segment in
    dop (mem2, r) := apply_segments_loop count fuel 0 segment shift to_size mem1 (pr_open D file) in
    if pr_eof r then ret (to_size, mem2) else raise DetoolsError
  else ret (to_size, mem).
