(** Model of the size codecs of the Python package: pack_size of the C extension
    detools/bsdiff.c, and the readers in detools/common.py. *)

From Coq Require Import ZArith List Bool.
From Verif Require Import Prelude.
Import ListNotations.
Open Scope Z_scope.

(** Clear the continuation bit of the last byte written,
    bsdiff.c:124 ([buf_p[res - 1] &= 0x7f]) and crle.py:239. *)
Fixpoint clear_last (l : list Z) : list Z :=
  match l with
  | [] => []
  | [b] => [Z.land b 127]
  | b :: l' => b :: clear_last l'
  end.

(** The loop of pack_size, bsdiff.c:117-121.  [room] is the space left in the
    caller's 10 byte buffer; writing beyond it is undefined behaviour. *)
Fixpoint pack_loop (room : nat) (value : Z) : outcome (list Z) :=
  if 0 <? value then
    match room with
    | O => Undef
    | S r => letm l := pack_loop r (Z.shiftr value 7) in
             Ret (Z.lor 128 (Z.land value 127) :: l)
    end
  else Ret [].

(** pack_size, bsdiff.c:93-127, with the 10 byte buffers all its callers use
    (the guard [size < 10] never fires).  Negating INT64_MIN overflows. *)
Definition c_pack_size (value : Z) : outcome (list Z) :=
  if value =? 0 then Ret (clear_last [0])
  else
    let sign := if 0 <? value then 0 else 64 in
    letm v := (if 0 <? value then Ret value
               else if value =? - 2 ^ 63 then Undef else Ret (- value)) in
    letm l := pack_loop 9 (Z.shiftr v 6) in
    Ret (clear_last (Z.lor sign (Z.lor 128 (Z.land v 63)) :: l)).

(** m_pack_size, bsdiff.c:383-411: [None] is the OverflowError raised by
    PyLong_AsLongLong. *)
Definition py_pack_size (value : Z) : outcome (option (list Z)) :=
  if (- 2 ^ 63 <=? value) && (value <? 2 ^ 63)
  then letm l := c_pack_size value in Ret (Some l)
  else Ret None.

(** The while loop of unpack_size_with_length, common.py:130-137; recursion on the
    bytes of [fin].  [None]: Error. *)
Fixpoint py_unpack_loop (l : list Z) (value offset : Z) : option (Z * list Z) :=
  match l with
  | [] => None
  | b :: l' =>
      let value1 := Z.lor value (Z.shiftl (Z.land b 127) offset) in
      if Z.land b 128 =? 0 then Some (value1, l')
      else py_unpack_loop l' value1 (offset + 7)
  end.

(** unpack_size_with_length and unpack_size, common.py:120-147; [fin] is the list
    of bytes that can still be read from it (the length result, used only for
    statistics, is left out). *)
Definition py_unpack_size (fin : list Z) : option (Z * list Z) :=
  match fin with
  | [] => None
  | b :: l =>
      match (if Z.land b 128 =? 0 then Some (Z.land b 63, l)
             else py_unpack_loop l (Z.land b 63) 6) with
      | None => None
      | Some (v, l') => Some (if Z.land b 64 =? 0 then v else - v, l')
      end
  end.

(** struct.unpack('>q', struct.pack('>Q', v)) and back. *)
Definition to_signed (v : Z) : Z := if v <? 2 ^ 63 then v else v - 2 ^ 64.
Definition to_unsigned (v : Z) : Z := if v <? 0 then v + 2 ^ 64 else v.

(** pack_usize, common.py:153-154; [None]: struct.error. *)
Definition py_pack_usize (value : Z) : outcome (option (list Z)) :=
  if (0 <=? value) && (value <? 2 ^ 64) then py_pack_size (to_signed value)
  else Ret None.

(** unpack_usize, common.py:157-158; [None]: Error or struct.error. *)
Definition py_unpack_usize (fin : list Z) : option (Z * list Z) :=
  match py_unpack_size fin with
  | None => None
  | Some (v, l) =>
      if (- 2 ^ 63 <=? v) && (v <? 2 ^ 63) then Some (to_unsigned v, l) else None
  end.
