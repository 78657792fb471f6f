(** Model of the Python applier: detools/apply.py, sequential patches, and the
    decompressors of detools/compression.  Files are byte lists with a position. *)

From Coq Require Import ZArith List Bool.
From Verif Require Import Prelude PySize PyCrle.
Import ListNotations.
Open Scope Z_scope.

(** ** Exceptions *)

(** detools.Error, and everything else (ValueError, OSError, struct.error,
    IndexError, NotImplementedError). *)
Inductive exn := DetoolsError | OtherError.

Inductive res (A : Type) : Type :=
| Val (a : A)
| Raise (e : exn).
Arguments Val {A} a.
Arguments Raise {A} e.

(** A computation that may raise.  [Undef] is not used here; [OutOfFuel] as usual. *)
Definition pyo (A : Type) : Type := outcome (res A).
Definition ret {A} (a : A) : pyo A := Ret (Val a).
Definition raise {A} (e : exn) : pyo A := Ret (Raise e).
Definition pbind {A B} (m : pyo A) (k : A -> pyo B) : pyo B :=
  match m with
  | Ret (Val a) => k a
  | Ret (Raise e) => Ret (Raise e)
  | Undef => Undef
  | OutOfFuel => OutOfFuel
  end.

Notation "'dop' p ':=' m 'in' k" :=
  (pbind m (fun x => match x with p => k end))
    (at level 200, p pattern, m at level 200, k at level 200, right associativity).

(** ** Decompressors *)

(** The interface PatchReader uses: the constructor gets the number of bytes from
    the current position of the patch file to its end; decompress(data, size),
    [None] if it raises anything; the properties eof and needs_input. *)
Record decompressor := mkdc {
  dstate : Type;
  d_init : Z -> dstate;
  d_eof : dstate -> bool;
  d_needs_input : dstate -> bool;
  d_decompress : dstate -> list Z -> Z -> outcome (option (list Z * dstate))
}.

(** NoneDecompressor, compression/none.py:17-40. *)
Record ndec := mknd { nd_left : Z; nd_data : list Z }.

Definition none_eof (d : ndec) : bool := nd_left d =? 0.
Definition none_needs_input (d : ndec) : bool := (zlen (nd_data d) =? 0) && negb (none_eof d).
Definition none_decompress_call (d : ndec) (data : list Z) (size : Z) : outcome (option (list Z * ndec)) :=
  if none_eof d then Ret None
  else
    let all := nd_data d ++ data in
    let out := ztake size all in
    Ret (Some (out, mknd (nd_left d - zlen out) (zdrop size all))).

Definition none_dec : decompressor :=
  mkdc ndec (fun n => mknd n []) none_eof none_needs_input none_decompress_call.

(** CrleDecompressor, compression/crle.py:136-223. *)
Definition crle_dec : decompressor :=
  mkdc cdec cdec_init cd_eof cd_needs_input
       (fun d data size =>
          letm r := crle_decompress_call d data size in
          Ret (match r with Ok x => Some x | _ => None end)).

(** The decoder of the external package heatshrink2 (Encoder(Reader(window,
    lookahead))): fill() and finish(); [None] if they raise. *)
Record hs_reader := mkhsr {
  hsr_state : Type;
  hsr_open : Z -> Z -> hsr_state;
  hsr_fill : hsr_state -> list Z -> option (list Z * hsr_state);
  hsr_finish : hsr_state -> option (list Z)
}.

(** HeatshrinkDecompressor, compression/heatshrink.py:45-85. *)
Record hdec (H : hs_reader) := mkhd {
  hd_left : Z;
  hd_data : list Z;
  hd_encoder : option (hsr_state H)
}.
Arguments mkhd {H}.
Arguments hd_left {H}.
Arguments hd_data {H}.
Arguments hd_encoder {H}.

Definition hsd_eof {H} (d : hdec H) : bool := (hd_left d =? -1) && (zlen (hd_data d) =? 0).
Definition hsd_needs_input {H} (d : hdec H) : bool := (zlen (hd_data d) =? 0) && negb (hsd_eof d).

(** heatshrink.py:63-85, once the encoder exists. *)
Definition hsd_go {H} (left : Z) (data0 : list Z) (enc : hsr_state H) (data : list Z) (size : Z)
  : option (list Z * hdec H) :=
  match (if 0 <? left
         then match hsr_fill H enc data with
              | None => None
              | Some (out, enc1) => Some (data0 ++ out, left - zlen data, enc1)
              end
         else Some (data0, left, enc)) with
  | None => None
  | Some (data1, left1, enc1) =>
      match (if left1 =? 0
             then match hsr_finish H enc1 with
                  | None => None
                  | Some out => Some (data1 ++ out, -1)
                  end
             else Some (data1, left1)) with
      | None => None
      | Some (data2, left2) => Some (ztake size data2, mkhd left2 (zdrop size data2) (Some enc1))
      end
  end.

(** heatshrink.py:54-77.  The header byte holds window_sz2 - 4 and
    lookahead_sz2 - 3. *)
Definition hsd_decompress {H} (d : hdec H) (data : list Z) (size : Z) : outcome (option (list Z * hdec H)) :=
  match hd_encoder d with
  | Some enc => Ret (hsd_go (hd_left d) (hd_data d) enc data size)
  | None =>
      match data with
      | [] => Ret (Some ([], d))
      | b :: data1 =>
          Ret (hsd_go (hd_left d - 1) (hd_data d) (hsr_open H (b / 16 + 4) (b mod 16 + 3)) data1 size)
      end
  end.

Definition hs_dec (H : hs_reader) : decompressor :=
  mkdc (hdec H) (fun n => mkhd n [] None) hsd_eof hsd_needs_input hsd_decompress.

(** What is not part of the package: the heatshrink2 decoder, and the decompressors
    lzma (1), bz2 (3), zstd (5) and lz4 (6). *)
Record externals := mkext { x_heatshrink : hs_reader; x_other : Z -> decompressor }.

(** convert_compression, apply.py:119-141, together with the choice in
    PatchReader.__init__, apply.py:35-51; [None]: Error. *)
Definition decompressor_of (X : externals) (number : Z) : option decompressor :=
  if number =? 0 then Some none_dec
  else if number =? 2 then Some crle_dec
  else if number =? 4 then Some (hs_dec (x_heatshrink X))
  else if (number =? 1) || (number =? 3) || (number =? 5) || (number =? 6)
  then Some (x_other X number)
  else None.

(** ** PatchReader, apply.py:33-86 *)

(** The decompressor and the bytes of the patch file that have not been read. *)
Record preader (D : decompressor) := mkpr { pr_state : dstate D; pr_file : list Z }.
Arguments mkpr {D}.
Arguments pr_state {D}.
Arguments pr_file {D}.

(** apply.py:35-53 and patch_data_length, apply.py:115-116. *)
Definition pr_open (D : decompressor) (file : list Z) : preader D := mkpr (d_init D (zlen file)) file.

Definition pr_eof {D} (r : preader D) : bool := d_eof D (pr_state r).

(** The loop of decompress, apply.py:64-78. *)
Fixpoint pr_loop {D} (fuel : nat) (size : Z) (buf : list Z) (r : preader D) : pyo (list Z * preader D) :=
  if zlen buf <? size then
    match fuel with
    | O => OutOfFuel
    | S f =>
        let call (data rest : list Z) :=
          letm x := d_decompress D (pr_state r) data (size - zlen buf) in
          match x with
          | None => raise DetoolsError
          | Some (out, d1) => pr_loop f size (buf ++ out) (mkpr d1 rest)
          end in
        if pr_eof r then raise DetoolsError
        else if d_needs_input D (pr_state r) then
          match pr_file r with
          | [] => raise DetoolsError
          | _ => call (ztake 4096 (pr_file r)) (zdrop 4096 (pr_file r))
          end
        else call [] (pr_file r)
    end
  else ret (buf, r).

Definition pr_decompress {D} (fuel : nat) (size : Z) (r : preader D) : pyo (list Z * preader D) :=
  pr_loop fuel size [] r.

(** fin.read(1)[0] with [fin] a patch reader. *)
Definition pr_byte {D} (fuel : nat) (r : preader D) : pyo (Z * preader D) :=
  dop (l, r1) := pr_decompress fuel 1 r in
  match l with
  | [] => raise DetoolsError
  | b :: _ => ret (b, r1)
  end.

(** unpack_size_with_length, common.py:120-143, reading from a patch reader: the
    value and the number of bytes. *)
Fixpoint pr_size_loop {D} (k fuel : nat) (value offset count : Z) (r : preader D) : pyo (Z * Z * preader D) :=
  match k with
  | O => OutOfFuel
  | S k' =>
      dop (b, r1) := pr_byte fuel r in
      let value1 := Z.lor value (Z.shiftl (Z.land b 127) offset) in
      if Z.land b 128 =? 0 then ret (value1, count + 1, r1)
      else pr_size_loop k' fuel value1 (offset + 7) (count + 1) r1
  end.

Definition pr_unpack_size {D} (fuel : nat) (r : preader D) : pyo (Z * Z * preader D) :=
  dop (b, r1) := pr_byte fuel r in
  dop (v, count, r2) := (if Z.land b 128 =? 0 then ret (Z.land b 63, 1, r1)
                         else pr_size_loop fuel fuel (Z.land b 63) 6 1 r1) in
  ret (if Z.land b 64 =? 0 then v else - v, count, r2).

(** ** Sequential patches *)

(** unpack_header, common.py:205-206: patch type and compression. *)
Definition unpack_header (b : Z) : Z * Z := (Z.land (Z.shiftr b 4) 7, Z.land b 15).

(** unpack_size on the patch file itself. *)
Definition file_unpack_size (file : list Z) : pyo (Z * list Z) :=
  match py_unpack_size file with
  | None => raise DetoolsError
  | Some x => ret x
  end.

(** read_header_sequential, apply.py:144-164. *)
Definition read_header_sequential (X : externals) (file : list Z) : pyo (decompressor * Z * list Z) :=
  match file with
  | [] => raise DetoolsError
  | b :: file1 =>
      let (type, number) := unpack_header b in
      if negb (type =? 0) then raise DetoolsError
      else match decompressor_of X number with
           | None => raise DetoolsError
           | Some D =>
               dop (to_size, file2) := file_unpack_size file1 in
               ret (D, to_size, file2)
           end
  end.

(** bsdiff.add_bytes, bsdiff.c:566-620; ValueError if the lengths differ. *)
Fixpoint sum_bytes (a b : list Z) : list Z :=
  match a, b with
  | x :: a', y :: b' => Z.land (x + y) 255 :: sum_bytes a' b'
  | _, _ => []
  end.
Definition add_bytes (a b : list Z) : pyo (list Z) :=
  if zlen a =? zlen b then ret (sum_bytes a b) else raise OtherError.

(** file.read(size) at a position, size >= 0. *)
Definition file_read_at (content : list Z) (pos size : Z) : list Z := ztake size (zdrop pos content).

(** The state of apply_patch_sequential: the patch reader, the position in the from
    file, the data written, the position in the diff reader of the data format. *)
Record pstate (D : decompressor) := mkps {
  ps_reader : preader D;
  ps_from : Z;
  ps_out : list Z;
  ps_dfdiff : Z
}.
Arguments mkps {D}.
Arguments ps_reader {D}.
Arguments ps_from {D}.
Arguments ps_out {D}.
Arguments ps_dfdiff {D}.

(** apply.py:367-369 and 380-382: add the data of the data format, if any. *)
Definition add_dfdiff (dfdiff : option (list Z)) (pos chunk : Z) (data : list Z) : pyo (list Z) :=
  match dfdiff with
  | None => ret data
  | Some content => add_bytes data (file_read_at content pos chunk)
  end.

(** The loop body for one diff chunk, apply.py:364-372. *)
Definition diff_chunk {D} (from : list Z) (dfdiff : option (list Z)) (chunk : Z) (data : list Z) (s : pstate D) : pyo (pstate D) :=
  let from_data := file_read_at from (ps_from s) chunk in
  dop sum := add_bytes data from_data in
  dop sum2 := add_dfdiff dfdiff (ps_dfdiff s) chunk sum in
  ret (mkps (ps_reader s) (ps_from s + zlen from_data) (ps_out s ++ sum2) (ps_dfdiff s + chunk)).

(** The loop body for one extra chunk, apply.py:378-385. *)
Definition extra_chunk {D} (dfdiff : option (list Z)) (chunk : Z) (data : list Z) (s : pstate D) : pyo (pstate D) :=
  dop sum2 := add_dfdiff dfdiff (ps_dfdiff s) chunk data in
  ret (mkps (ps_reader s) (ps_from s) (ps_out s ++ sum2) (ps_dfdiff s + chunk)).

Definition set_reader {D} (s : pstate D) (r : preader D) : pstate D :=
  mkps r (ps_from s) (ps_out s) (ps_dfdiff s).

(** The loop of iter_chunks, apply.py:95-101, with the loop body of the caller. *)
Fixpoint chunk_loop {D} (k fuel : nat) (body : Z -> list Z -> pstate D -> pyo (pstate D))
         (left : Z) (s : pstate D) : pyo (pstate D) :=
  if 0 <? left then
    match k with
    | O => OutOfFuel
    | S k' =>
        let chunk := Z.min left 4096 in
        dop (data, r1) := pr_decompress fuel chunk (ps_reader s) in
        dop s1 := body chunk data (set_reader s r1) in
        chunk_loop k' fuel body (left - chunk) s1
    end
  else ret s.

(** iter_chunks, apply.py:89-101.  [to_pos] is the number of bytes written so far;
    the result is the state and the size announced (what to_pos grows by is the
    sum of the chunk sizes, that is max(size, 0)). *)
Definition iter_chunks {D} (fuel : nat) (body : Z -> list Z -> pstate D -> pyo (pstate D))
           (to_pos to_size : Z) (s : pstate D) : pyo (Z * pstate D) :=
  dop (size, _, r1) := pr_unpack_size fuel (ps_reader s) in
  if to_size <? to_pos + size then raise DetoolsError
  else
    dop s1 := chunk_loop fuel fuel body size (set_reader s r1) in
    ret (to_pos + Z.max size 0, s1).

(** ffrom.seek(size, SEEK_CUR), apply.py:388.  Seeking before the beginning is an
    OSError for a real file, but stops at 0 for io.BytesIO ([clamps]). *)
Definition seek_cur (clamps : bool) (pos delta : Z) : pyo Z :=
  if pos + delta <? 0 then (if clamps then ret 0 else raise OtherError) else ret (pos + delta).

(** The loop of apply_patch_sequential, apply.py:359-388. *)
Fixpoint apply_loop {D} (k fuel : nat) (clamps : bool) (from : list Z) (dfdiff : option (list Z))
         (to_pos to_size : Z) (s : pstate D) : pyo (pstate D) :=
  if to_pos <? to_size then
    match k with
    | O => OutOfFuel
    | S k' =>
        dop (to_pos1, s1) := iter_chunks fuel (diff_chunk from dfdiff) to_pos to_size s in
        dop (to_pos2, s2) := iter_chunks fuel (extra_chunk dfdiff) to_pos1 to_size s1 in
        dop (adj, _, r3) := pr_unpack_size fuel (ps_reader s2) in
        dop pos := seek_cur clamps (ps_from s2) adj in
        apply_loop k' fuel clamps from dfdiff to_pos2 to_size (mkps r3 pos (ps_out s2) (ps_dfdiff s2))
    end
  else ret s.

(** The readers of the data formats (data_format.create_readers): given the format
    number, the from data, the data format patch and the to size, the contents of
    the diff reader and of the from reader. *)
Definition df_readers : Type := Z -> list Z -> list Z -> Z -> pyo (list Z * list Z).

(** create_data_format_readers, apply.py:308-323: the diff reader, the from data
    and whether seeking clamps (the from reader of a data format is a BytesIO). *)
Definition create_data_format_readers {D} (fuel : nat) (F : df_readers) (clamps : bool)
           (from : list Z) (to_size : Z) (r : preader D)
  : pyo (option (list Z) * list Z * bool * preader D) :=
  dop (size, _, r1) := pr_unpack_size fuel r in
  if 0 <? size then
    dop (format, _, r2) := pr_unpack_size fuel r1 in
    dop (patch, r3) := pr_decompress fuel size r2 in
    dop (dfdiff, from1) := F format from patch to_size in
    ret (Some dfdiff, from1, true, r3)
  else ret (None, from, clamps, r1).

(** apply_patch_sequential, apply.py:349-394, on a from file that is at its
    beginning: the value returned and the data written. *)
Definition apply_patch_sequential (X : externals) (F : df_readers) (fuel : nat) (clamps : bool)
           (from patch : list Z) : pyo (Z * list Z) :=
  dop (D, to_size, file) := read_header_sequential X patch in
  if to_size =? 0 then ret (to_size, [])
  else
    dop (dfdiff, from1, clamps1, r) := create_data_format_readers fuel F clamps from to_size (pr_open D file) in
    dop s := apply_loop fuel fuel clamps1 from1 dfdiff 0 to_size (mkps r 0 [] 0) in
    if pr_eof (ps_reader s) then ret (to_size, ps_out s) else raise DetoolsError.

(** apply_patch, apply.py:326-346.  [hdiff] is apply_patch_hdiffpatch, which is
    mostly an external library. *)
Definition apply_patch (X : externals) (F : df_readers) (hdiff : list Z -> list Z -> pyo (Z * list Z))
           (fuel : nat) (clamps : bool) (from patch : list Z) : pyo (Z * list Z) :=
  match patch with
  | [] => raise DetoolsError
  | b :: _ =>
      let (type, _) := unpack_header b in
      if type =? 0 then apply_patch_sequential X F fuel clamps from patch
      else if type =? 2 then hdiff from patch
      else raise DetoolsError
  end.
