(** Model of detools/compression/crle.py. *)

From Coq Require Import ZArith List Bool.
From Verif Require Import Prelude PySize.
Import ListNotations.
Open Scope Z_scope.

Definition MINIMUM_REPEATED_SIZE : Z := 6.   (* crle.py:13 *)

(** Python exceptions: detools Error, IndexError. *)
Inductive py (A : Type) : Type :=
| Ok (a : A)
| PyError
| PyIndexError.
Arguments Ok {A} a.
Arguments PyError {A}.
Arguments PyIndexError {A}.

(** ** pack_size and unpack_size, crle.py:226-255 *)

(** The loop at crle.py:235-237; the fuel covers every value below 2^63. *)
Fixpoint crle_pack_loop (fuel : nat) (value : Z) : outcome (list Z) :=
  if 0 <? value then
    match fuel with
    | O => OutOfFuel
    | S f => letm l := crle_pack_loop f (Z.shiftr value 7) in
             Ret (Z.lor 128 (Z.land value 127) :: l)
    end
  else Ret [].

Definition crle_pack_size (value : Z) : outcome (py (list Z)) :=
  if 2 ^ 63 <=? value then Ret PyError
  else
    letm l := crle_pack_loop 9 (Z.shiftr value 7) in
    Ret (Ok (clear_last (Z.lor 128 (Z.land value 127) :: l))).

(** crle.py:244-255; [buf] is the part of the buffer from [position] on.  Returns
    the value and the position after the size. *)
Fixpoint crle_unpack_loop (buf : list Z) (value offset position : Z) : py (Z * Z) :=
  match buf with
  | [] => PyIndexError
  | b :: buf' =>
      let value1 := Z.lor value (Z.shiftl (Z.land b 127) offset) in
      if Z.land b 128 =? 0 then Ok (value1, position + 1)
      else crle_unpack_loop buf' value1 (offset + 7) (position + 1)
  end.

Definition crle_unpack_size (buf : list Z) (position : Z) : py (Z * Z) :=
  crle_unpack_loop (zdrop position buf) 0 0 position.

(** ** CrleCompressor, crle.py:19-133 *)

(** self._data and self._number_of_compressed_bytes; self._flushing is passed as
    an argument because flush() sets it just before its loop. *)
Record ccomp := mkcc { cc_data : list Z; cc_bytes : Z }.

Definition ccomp_init : ccomp := mkcc [] 0.

(** The inner while loop of find_repeated_segment, crle.py:69-71. *)
Fixpoint run_length (byte : Z) (l : list Z) : Z :=
  match l with
  | [] => 0
  | b :: l' => if b =? byte then 1 + run_length byte l' else 0
  end.

(** find_repeated_segment, crle.py:59-76; [offset] is the position of [l]. *)
Fixpoint find_repeated (l : list Z) (offset : Z) : option (Z * Z) :=
  match l with
  | [] => None
  | b :: l' =>
      let length := run_length b l in
      if MINIMUM_REPEATED_SIZE <=? length then Some (offset, length)
      else find_repeated l' (offset + 1)
  end.

(** get_segment, crle.py:79-108: kind (true = REPEATED), its data, what remains. *)
Definition get_segment (flushing : bool) (data : list Z) : option (bool * list Z * list Z) :=
  match find_repeated data 0 with
  | None => if flushing then Some (false, data, []) else None
  | Some (offset, length) =>
      if 0 <? offset then Some (false, ztake offset data, zdrop offset data)
      else if (offset + length <? zlen data) || flushing
           then Some (true, ztake length data, zdrop length data)
           else None
  end.

(** compress_segment, crle.py:110-133. *)
Definition compress_segment (flushing : bool) (c : ccomp) : outcome (py (list Z * ccomp)) :=
  if zlen (cc_data c) =? 0 then Ret (Ok ([], c))
  else
    match get_segment flushing (cc_data c) with
    | None => Ret (Ok ([], c))
    | Some (repeated, data, rest) =>
        letm p := crle_pack_size (zlen data) in
        match p with
        | Ok size =>
            let out := (if repeated then 1 else 0) :: size
                       ++ (if repeated then ztake 1 data else data) in
            Ret (Ok (out, mkcc rest (cc_bytes c + zlen out)))
        | _ => Ret PyError
        end
    end.

(** compress, crle.py:26-33. *)
Definition crle_compress (c : ccomp) (data : list Z) : outcome (py (list Z * ccomp)) :=
  compress_segment false (mkcc (cc_data c ++ data) (cc_bytes c)).

(** The loop of flush, crle.py:47-53. *)
Fixpoint flush_loop (fuel : nat) (c : ccomp) (acc : list Z) : outcome (py (list Z)) :=
  match fuel with
  | O => OutOfFuel
  | S f =>
      letm r := compress_segment true c in
      match r with
      | Ok ([], _) => Ret (Ok acc)
      | Ok (chunk, c1) => flush_loop f c1 (acc ++ chunk)
      | _ => Ret PyError
      end
  end.

(** flush, crle.py:35-57. *)
Definition crle_flush (c : ccomp) : outcome (py (list Z)) :=
  if (cc_bytes c =? zlen (cc_data c)) && (zlen (cc_data c) =? 0) then
    letm p := crle_pack_size 0 in
    match p with Ok size => Ret (Ok (0 :: size)) | _ => Ret PyError end
  else flush_loop (S (length (cc_data c))) c [].

(** A whole compression: compress() every piece, then flush(). *)
Fixpoint crle_compress_all (c : ccomp) (pieces : list (list Z)) (acc : list Z) : outcome (py (list Z)) :=
  match pieces with
  | [] =>
      letm r := crle_flush c in
      match r with Ok l => Ret (Ok (acc ++ l)) | _ => Ret PyError end
  | p :: ps =>
      letm r := crle_compress c p in
      match r with
      | Ok (l, c1) => crle_compress_all c1 ps (acc ++ l)
      | _ => Ret PyError
      end
  end.

(** ** CrleDecompressor, crle.py:136-223 *)

Record cdec := mkcd {
  cd_left : Z;          (* _number_of_indata_bytes_left *)
  cd_in : list Z;       (* _indata *)
  cd_out : list Z;      (* _outdata *)
  cd_scattered : Z      (* _number_of_scattered_bytes_left *)
}.

Definition cdec_init (number_of_bytes : Z) : cdec := mkcd number_of_bytes [] [] 0.

(** eof and needs_input, crle.py:163-171. *)
Definition cd_eof (d : cdec) : bool :=
  (cd_left d =? 0) && (zlen (cd_out d) =? 0) && (zlen (cd_in d) =? 0).
Definition cd_needs_input (d : cdec) : bool := (zlen (cd_out d) =? 0) && negb (cd_eof d).

(** [n * data]. *)
Fixpoint repeat_bytes (n : nat) (data : list Z) : list Z :=
  match n with O => [] | S n' => data ++ repeat_bytes n' data end.

(** decompress_segment, crle.py:184-223: the data and the new state. *)
Definition decompress_segment (d : cdec) : py (list Z * cdec) :=
  let take (length offset repetitions scattered : Z) :=
    if zlen (cd_in d) <? offset + length then PyIndexError
    else Ok (repeat_bytes (Z.to_nat repetitions) (ztake length (zdrop offset (cd_in d))),
             mkcd (cd_left d) (zdrop (offset + length) (cd_in d)) (cd_out d) scattered) in
  if cd_scattered d =? 0 then
    match cd_in d with
    | [] => PyIndexError
    | kind :: _ =>
        if kind =? 0 then
          match crle_unpack_size (cd_in d) 1 with
          | Ok (length, offset) =>
              let remaining := offset + length - zlen (cd_in d) in
              if 0 <? remaining then take (length - remaining) offset 1 remaining
              else take length offset 1 (cd_scattered d)
          | PyError => PyError
          | PyIndexError => PyIndexError
          end
        else if kind =? 1 then
          match crle_unpack_size (cd_in d) 1 with
          | Ok (repetitions, offset) => take 1 offset repetitions (cd_scattered d)
          | PyError => PyError
          | PyIndexError => PyIndexError
          end
        else PyError
    end
  else if 0 <? zlen (cd_in d) then
    let length := Z.min (zlen (cd_in d)) (cd_scattered d) in
    take length 0 1 (cd_scattered d - length)
  else PyIndexError.

(** decompress_segments, crle.py:173-182. *)
Fixpoint decompress_segments (fuel : nat) (d : cdec) (acc : list Z) : outcome (py (list Z * cdec)) :=
  match fuel with
  | O => OutOfFuel
  | S f =>
      match decompress_segment d with
      | Ok (data, d1) => decompress_segments f d1 (acc ++ data)
      | PyIndexError => Ret (Ok (acc, d))
      | PyError => Ret PyError
      end
  end.

(** decompress, crle.py:144-161. *)
Definition crle_decompress_call (d : cdec) (data : list Z) (size : Z) : outcome (py (list Z * cdec)) :=
  if cd_eof d then Ret PyError
  else
    let data1 := if cd_left d <? zlen data then ztake (cd_left d) data else data in
    let d1 := mkcd (cd_left d - zlen data1) (cd_in d ++ data1) (cd_out d) (cd_scattered d) in
    letm r := decompress_segments (S (length (cd_in d1))) d1 [] in
    match r with
    | Ok (out, d2) =>
        let all := cd_out d2 ++ out in
        Ret (Ok (ztake size all, mkcd (cd_left d2) (cd_in d2) (zdrop size all) (cd_scattered d2)))
    | _ => Ret PyError
    end.

(** Calls [decompress(piece, size)] until the end of the stream is reported.  The
    result is what the calls returned, concatenated, and the final eof flag. *)
Fixpoint crle_decompress_calls (d : cdec) (calls : list (list Z * Z)) (acc : list Z)
  : outcome (py (list Z * bool)) :=
  match calls with
  | [] => Ret (Ok (acc, cd_eof d))
  | (piece, size) :: cs =>
      if cd_eof d then Ret (Ok (acc, true))
      else
        letm r := crle_decompress_call d piece size in
        match r with
        | Ok (out, d1) => crle_decompress_calls d1 cs (acc ++ out)
        | _ => Ret PyError
        end
  end.
