(** Model of the BSDIFF40 patches: create_patch_bsdiff (detools/create.py) and
    apply_patch_bsdiff (detools/apply.py). *)

From Coq Require Import ZArith List Bool.
From Verif Require Import Prelude PySize Bsdiff PyApply.
Import ListNotations.
Open Scope Z_scope.

(** What is used of the package bz2.  [bz_compress]: the results of compress() on every
    piece and of flush(), concatenated.  decompress(data, max_length): [None] if it
    raises. *)
Record bz2 := mkbz {
  bz_compress : list (list Z) -> list Z;
  bz_state : Type;
  bz_open : bz_state;
  bz_decompress : bz_state -> list Z -> Z -> option (list Z * bz_state);
  bz_eof : bz_state -> bool
}.

(** struct.pack('<Q', v), v >= 0, and struct.unpack('<Q', data). *)
Fixpoint pack_le (k : nat) (v : Z) : list Z :=
  match k with
  | O => []
  | S k' => v mod 256 :: pack_le k' (v / 256)
  end.
Fixpoint unpack_le (l : list Z) : Z :=
  match l with
  | [] => 0
  | b :: l' => b + 256 * unpack_le l'
  end.

(** offtout, create.py:330-335; struct.error if the value does not fit. *)
Definition offtout (x : Z) : pyo (list Z) :=
  let v := if x <? 0 then Z.lor (x * -1) (Z.shiftl 1 63) else x in
  if v <? 2 ^ 64 then ret (pack_le 8 v) else raise OtherError.

(** offtin, apply.py:218-225; struct.error if there are not 8 bytes. *)
Definition offtin (data : list Z) : pyo Z :=
  if zlen data =? 8 then
    let x := unpack_le data in
    ret (if Z.land x (Z.shiftl 1 63) =? 0 then x else Z.land x (Z.lnot (Z.shiftl 1 63)) * -1)
  else raise OtherError.

(** unpack_size_bytes, common.py:149-150, and offtout. *)
Definition control (chunk : list Z) : pyo (list Z) :=
  dop (v, _) := file_unpack_size chunk in
  offtout v.

(** The loop over the chunks, create.py:361-369: what is given to the three
    compressors.  IndexError if the number of chunks is not a multiple of 5. *)
Fixpoint split_chunks (chunks : list (list Z)) : pyo (list (list Z) * list (list Z) * list (list Z)) :=
  match chunks with
  | [] => ret ([], [], [])
  | c0 :: c1 :: c2 :: c3 :: c4 :: rest =>
      dop s0 := control c0 in
      dop s2 := control c2 in
      dop s4 := control c4 in
      dop (ctrl, diff, extra) := split_chunks rest in
      ret (s0 :: s2 :: s4 :: ctrl, c1 :: diff, c3 :: extra)
  | _ => raise OtherError
  end.

(** b'BSDIFF40' *)
Definition magic : list Z := [66; 83; 68; 73; 70; 70; 52; 48].

(** create_patch_bsdiff, create.py:338-386.  [sa] is the suffix array. *)
Definition create_patch_bsdiff (bz : bz2) (sa from to : list Z) : pyo (list Z) :=
  letm r := create_patch sa from to in
  match r with
  | None => raise OtherError
  | Some chunks =>
      dop (ctrl, diff, extra) := split_chunks chunks in
      let fctrl := bz_compress bz ctrl in
      let fdiff := bz_compress bz diff in
      let fextra := bz_compress bz extra in
      dop h1 := offtout (zlen fctrl) in
      dop h2 := offtout (zlen fdiff) in
      dop h3 := offtout (zlen to) in
      ret (magic ++ h1 ++ h2 ++ h3 ++ fctrl ++ fdiff ++ fextra)
  end.

(** file.read(size) at the beginning of [l]; a negative size reads everything. *)
Definition read_front (size : Z) (l : list Z) : list Z * list Z :=
  if size <? 0 then (l, []) else (ztake size l, zdrop size l).

Definition list_eqb (a b : list Z) : bool := if list_eq_dec Z.eq_dec a b then true else false.

(** read_header_bsdiff, apply.py:228-244: control size, diff size, to size and the rest
    of the file. *)
Definition read_header_bsdiff (patch : list Z) : pyo (Z * Z * Z * list Z) :=
  let (m, p1) := read_front 8 patch in
  if negb (list_eqb m magic) then raise DetoolsError
  else
    let (d1, p2) := read_front 8 p1 in
    dop ctrl_size := offtin d1 in
    let (d2, p3) := read_front 8 p2 in
    dop diff_size := offtin d2 in
    let (d3, p4) := read_front 8 p3 in
    dop to_size := offtin d3 in
    ret (ctrl_size, diff_size, to_size, p4).

(** A call of decompress() that is not guarded: whatever it raises is not a
    detools.Error. *)
Definition bz_call (bz : bz2) (s : bz_state bz) (data : list Z) (n : Z) : pyo (list Z * bz_state bz) :=
  match bz_decompress bz s data n with
  | None => raise OtherError
  | Some x => ret x
  end.

(** The three decompressors, the position in the from file and the data written. *)
Record bstate (bz : bz2) := mkbs {
  bs_ctrl : bz_state bz;
  bs_diff : bz_state bz;
  bs_extra : bz_state bz;
  bs_from : Z;
  bs_out : list Z
}.
Arguments mkbs {bz}.
Arguments bs_ctrl {bz}.
Arguments bs_diff {bz}.
Arguments bs_extra {bz}.
Arguments bs_from {bz}.
Arguments bs_out {bz}.

(** The diff data, apply.py:469-476. *)
Definition bsdiff_diff (bz : bz2) (from : list Z) (to_pos size : Z) (s : bstate bz) : pyo (Z * bstate bz) :=
  if 0 <? size then
    dop (data, d) := bz_call bz (bs_diff s) [] size in
    let from_data := file_read_at from (bs_from s) size in
    dop sum := add_bytes data from_data in
    ret (to_pos + size, mkbs (bs_ctrl s) d (bs_extra s) (bs_from s + zlen from_data) (bs_out s ++ sum))
  else ret (to_pos, s).

(** The extra data, apply.py:482-485. *)
Definition bsdiff_extra (bz : bz2) (to_pos size : Z) (s : bstate bz) : pyo (Z * bstate bz) :=
  if 0 <? size then
    dop (data, d) := bz_call bz (bs_extra s) [] size in
    ret (to_pos + size, mkbs (bs_ctrl s) (bs_diff s) d (bs_from s) (bs_out s ++ data))
  else ret (to_pos, s).

(** The loop, apply.py:462-488. *)
Fixpoint bsdiff_loop (bz : bz2) (k : nat) (clamps : bool) (from : list Z) (to_pos to_size : Z) (s : bstate bz) : pyo (bstate bz) :=
  if to_pos <? to_size then
    match k with
    | O => OutOfFuel
    | S k' =>
        dop (x0, c1) := bz_call bz (bs_ctrl s) [] 8 in
        dop diff_size := offtin x0 in
        dop (x1, c2) := bz_call bz c1 [] 8 in
        dop extra_size := offtin x1 in
        dop (x2, c3) := bz_call bz c2 [] 8 in
        dop adjustment := offtin x2 in
        let s1 := mkbs c3 (bs_diff s) (bs_extra s) (bs_from s) (bs_out s) in
        if to_size <? to_pos + diff_size then raise DetoolsError
        else
          dop (to_pos1, s2) := bsdiff_diff bz from to_pos diff_size s1 in
          if to_size <? to_pos1 + extra_size then raise DetoolsError
          else
            dop (to_pos2, s3) := bsdiff_extra bz to_pos1 extra_size s2 in
            dop pos := seek_cur clamps (bs_from s3) adjustment in
            bsdiff_loop bz k' clamps from to_pos2 to_size (mkbs (bs_ctrl s3) (bs_diff s3) (bs_extra s3) pos (bs_out s3))
    end
  else ret s.

(** apply_patch_bsdiff, apply.py:436-499, on a from file that is at its beginning: the
    value returned and the data written. *)
Definition apply_patch_bsdiff (bz : bz2) (fuel : nat) (clamps : bool) (from patch : list Z) : pyo (Z * list Z) :=
  dop (ctrl_size, diff_size, to_size, p) := read_header_bsdiff patch in
  let (d1, p1) := read_front ctrl_size p in
  dop (_, ctrl) := bz_call bz (bz_open bz) d1 0 in
  let (d2, p2) := read_front diff_size p1 in
  dop (_, diff) := bz_call bz (bz_open bz) d2 0 in
  dop (_, extra) := bz_call bz (bz_open bz) p2 0 in
  dop s := bsdiff_loop bz fuel clamps from 0 to_size (mkbs ctrl diff extra 0 []) in
  if negb (bz_eof bz (bs_ctrl s)) then raise DetoolsError
  else if negb (bz_eof bz (bs_diff s)) then raise DetoolsError
  else if negb (bz_eof bz (bs_extra s)) then raise DetoolsError
  else ret (to_size, bs_out s).
