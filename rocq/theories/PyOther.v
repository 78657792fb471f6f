(** Model of the compressions that come from other packages: lzma (1), bz2 (3), zstd
    (5) and lz4 (6).  lzma and bz2 are objects of Python's standard library, used as
    they are; detools/compression/zstd.py and lz4.py wrap the packages zstandard and
    lz4.frame. *)

From Coq Require Import ZArith List Bool.
From Verif Require Import Prelude PySize PyCreate PyInPlace PyApply.
Import ListNotations.
Open Scope Z_scope.

(** ** Creation with any compressor *)

(** create_patch_sequential_data, create.py:163-206, data_format None.  [compress]:
    the concatenated results of compress() on every piece and of flush(); [None] if
    one of them raises. *)
Definition create_data_with (compress : list (list Z) -> option (list Z)) (sa from to : list Z) : outcome (option (list Z)) :=
  if zlen to =? 0 then Ret (Some [])
  else
    letm d := py_pack_size 0 in
    match d with
    | None => Ret None
    | Some dfpatch =>
        letm r := create_chunks sa from to in
        match r with
        | None => Ret None
        | Some chunks => Ret (compress (dfpatch :: chunks))
        end
    end.

(** create_patch_sequential, create.py:209-231. *)
Definition create_sequential_with (number : Z) (compress : list (list Z) -> option (list Z)) (sa from to : list Z) : outcome (option (list Z)) :=
  letm sz := py_pack_size (zlen to) in
  match sz with
  | None => Ret None
  | Some size =>
      letm r := create_data_with compress sa from to in
      match r with
      | None => Ret None
      | Some body => Ret (Some (py_pack_header 0 number :: size ++ body))
      end
  end.

(** create_patch_in_place, create.py:251-327. *)
Definition create_in_place_with (number : Z) (compress : list (list Z) -> option (list Z)) (sa : list Z -> list Z)
           (memory segment : Z) (minimum_shift : option Z) (from to : list Z) : outcome (option (list Z)) :=
  if segment =? 0 then Ret None
  else if negb (memory mod segment =? 0) then Ret None
  else
    let minimum := minimum_of segment minimum_shift in
    if negb (minimum mod segment =? 0) then Ret None
    else
      let shift := calc_shift memory segment minimum (zlen from) in
      let from_data := py_slice from 0 (memory - shift) in
      letm segs := create_in_place_segments sa segment shift from_data to
                     (Z.to_nat (py_div_ceil (zlen to) segment)) 0 in
      match segs with
      | None => Ret None
      | Some body =>
          letm sizes := pack_sizes [memory; segment; shift; zlen from; zlen to] in
          match sizes with
          | None => Ret None
          | Some sz =>
              let header := py_pack_header 1 number :: sz in
              if zlen to =? 0 then Ret (Some header)
              else Ret (match compress [body] with None => None | Some stream => Some (header ++ stream) end)
          end
      end.

(** ** zstd *)

(** The package zstandard: ZstdCompressor(level=22).compress() and the stream writer
    of ZstdDecompressor: write() appends to the file it was created with; [None] if
    it raises. *)
Record zstd_lib := mkzs {
  zs_compress : list Z -> list Z;
  zs_state : Type;
  zs_open : zs_state;
  zs_write : zs_state -> list Z -> option (list Z * zs_state)
}.

(** ZstdCompressor, compression/zstd.py:11-22: the pieces are collected and
    compressed in flush(). *)
Definition zstd_compress (L : zstd_lib) (pieces : list (list Z)) : option (list Z) :=
  Some (zs_compress L (concat pieces)).

(** ZstdDecompressor, compression/zstd.py:25-55.  [zd_out]: what the file holds from
    _output_offset on. *)
Record zdec (L : zstd_lib) := mkzd { zd_left : Z; zd_out : list Z; zd_state : zs_state L }.
Arguments mkzd {L}.
Arguments zd_left {L}.
Arguments zd_out {L}.
Arguments zd_state {L}.

Definition zstd_eof {L} (d : zdec L) : bool := (zd_left d =? 0) && (zlen (zd_out d) =? 0).
Definition zstd_needs_input {L} (d : zdec L) : bool := (zlen (zd_out d) =? 0) && negb (zstd_eof d).
Definition zstd_decompress {L} (d : zdec L) (data : list Z) (size : Z) : outcome (option (list Z * zdec L)) :=
  if zstd_eof d then Ret None
  else
    match zs_write L (zd_state d) data with
    | None => Ret None
    | Some (more, st) =>
        let out := zd_out d ++ more in
        Ret (Some (ztake size out, mkzd (zd_left d - zlen data) (zdrop size out) st))
    end.

Definition zstd_dec (L : zstd_lib) : decompressor :=
  mkdc (zdec L) (fun n => mkzd n [] (zs_open L)) zstd_eof zstd_needs_input zstd_decompress.

(** ** lz4 *)

(** The compressor of lz4.frame: begin(), compress() and flush(). *)
Record lz4_lib := mkl4 {
  l4_state : Type;
  l4_begin : list Z * l4_state;
  l4_compress : l4_state -> list Z -> list Z * l4_state;
  l4_flush : l4_state -> list Z
}.

(** Lz4Compressor, compression/lz4.py:11-28: the frame header comes with the first
    result of compress(). *)
Definition lz4_piece (L : lz4_lib) (s : option (list Z) * l4_state L) (data : list Z) : list Z * (option (list Z) * l4_state L) :=
  let '(out, st) := l4_compress L (snd s) data in
  match fst s with
  | Some header => (header ++ out, (None, st))
  | None => (out, (None, st))
  end.

Fixpoint lz4_pieces (L : lz4_lib) (s : option (list Z) * l4_state L) (pieces : list (list Z)) : list Z :=
  match pieces with
  | [] => l4_flush L (snd s)
  | data :: rest => let '(out, s1) := lz4_piece L s data in out ++ lz4_pieces L s1 rest
  end.

Definition lz4_compress (L : lz4_lib) (pieces : list (list Z)) : option (list Z) :=
  let '(header, st) := l4_begin L in Some (lz4_pieces L (Some header, st) pieces).
