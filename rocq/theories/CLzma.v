(** Model of the LZMA patch reader of c/detools.c, lines 391-575
    (DETOOLS_CONFIG_COMPRESSION_LZMA = 1), and of the reader functions of
    CReader.v for a library built with it.

    liblzma itself is not modelled: it is a parameter of the model.  The heap is
    represented by the numbers of the blocks that are allocated, so that a double
    free or a lost block is visible, and by the size of each block that is
    written, so that a write behind its end is. *)

From Coq Require Import ZArith List Bool.
From Verif Require Import Prelude Heatshrink CReader.
Import ListNotations.
Open Scope Z_scope.

(** More error codes, c/detools.h:60-90. *)
Definition E_LZMA_INIT := 6.
Definition E_LZMA_DECODE := 7.
Definition E_OUT_OF_MEMORY := 8.

(** What lzma_code returns, as far as detools.c:495-503 looks at it. *)
Inductive lzma_ret := LzOk | LzStreamEnd | LzOther.

(** The external functions the reader calls, over the state [D] of a decoder.
    [lz_start] is lzma_alone_decoder ([None]: not LZMA_OK).  [lz_code d input n]
    is lzma_code with [input] at next_in/avail_in and room for [n] bytes at
    next_out/avail_out; it gives the result, the number of bytes consumed, the
    bytes written and the new state.  [lz_malloc k] tells whether the [k]th call
    of malloc succeeds. *)
Record lzma_lib (D : Type) := mklib {
  lz_start : option D;
  lz_code : D -> list Z -> Z -> lzma_ret * Z * list Z * D;
  lz_malloc : Z -> bool
}.
Arguments lz_start {D}.
Arguments lz_code {D}.
Arguments lz_malloc {D}.

(** The allocated blocks and the number of calls of malloc so far. *)
Record heap := mkheap { h_live : list Z; h_calls : Z }.

(** malloc(): the new block is numbered with the call. *)
Definition h_alloc {D} (L : lzma_lib D) (h : heap) : option Z * heap :=
  if lz_malloc L (h_calls h)
  then (Some (h_calls h), mkheap (h_calls h :: h_live h) (h_calls h + 1))
  else (None, mkheap (h_live h) (h_calls h + 1)).

(** free() of a block: undefined if it is not allocated. *)
Definition h_free (h : heap) (b : Z) : outcome heap :=
  if existsb (Z.eqb b) (h_live h)
  then Ret (mkheap (filter (fun x => negb (x =? b)) (h_live h)) (h_calls h))
  else Undef.

(** struct detools_apply_patch_patch_reader_lzma_t, detools.h:225-235.  [l_in] is
    input_p with the avail_in bytes at next_in ([None]: both pointers are NULL and
    avail_in is 0), [l_out] is output_p with the output_size bytes in it ([None]:
    NULL and 0). *)
Record lzma_reader (D : Type) := mklz {
  l_dec : D;
  l_in : option (Z * list Z);
  l_out : option (Z * list Z);
  l_heap : heap
}.
Arguments mklz {D}.
Arguments l_dec {D}.
Arguments l_in {D}.
Arguments l_out {D}.
Arguments l_heap {D}.

(** The bytes of a buffer that may not be there. *)
Definition held (b : option (Z * list Z)) : list Z :=
  match b with Some (_, l) => l | None => [] end.

Section Lzma.
Context `{WordBits}.
Context {D : Type} (L : lzma_lib D).

(** get_decompressed_data, detools.c:391-411; [None] is the result 1. *)
Definition get_decompressed_data (r : lzma_reader D) (n : Z) : option (list Z * lzma_reader D) :=
  match l_out r with
  | Some (b, l) =>
      if n <=? zlen l
      then Some (ztake n l, mklz (l_dec r) (l_in r) (Some (b, zdrop n l)) (l_heap r))
      else None
  | None => if n <=? 0 then Some ([], r) else None
  end.

(** prepare_input_buffer, detools.c:413-447.  The size given to malloc is computed
    in size_t; a block that is too small for what is copied into it is [Undef]. *)
Definition prepare_input_buffer (r : lzma_reader D) (left : list Z)
  : outcome (Z * lzma_reader D * list Z) :=
  match left with
  | [] => Ret (1, r, [])
  | _ =>
      let size := zlen (held (l_in r)) + zlen left in
      let '(p, h1) := h_alloc L (l_heap r) in
      match p with
      | None => Ret (- E_OUT_OF_MEMORY, mklz (l_dec r) (l_in r) (l_out r) h1, left)
      | Some b =>
          if wrap size <? size then Undef
          else
            letm h2 := match l_in r with
                       | Some (old, _) => h_free h1 old
                       | None => Ret h1
                       end in
            Ret (0, mklz (l_dec r) (Some (b, held (l_in r) ++ left)) (l_out r) h2, [])
      end
  end.

(** prepare_output_buffer, detools.c:449-473.  Copying more than the new block can
    hold is [Undef]; stream.avail_out is then [n] minus the bytes held. *)
Definition prepare_output_buffer (r : lzma_reader D) (n : Z) : outcome (Z * lzma_reader D) :=
  let '(p, h1) := h_alloc L (l_heap r) in
  match p with
  | None => Ret (- E_OUT_OF_MEMORY, mklz (l_dec r) (l_in r) (l_out r) h1)
  | Some b =>
      if n <? zlen (held (l_out r)) then Undef
      else
        letm h2 := match l_out r with
                   | Some (old, _) => h_free h1 old
                   | None => Ret h1
                   end in
        Ret (0, mklz (l_dec r) (l_in r) (Some (b, held (l_out r))) h2)
  end.

(** The lzma_code() call with its result, detools.c:493-506.  A library that reads
    or writes more than it was given is [Undef].  If decoding fails output_size is
    not updated. *)
Definition run_decoder (r : lzma_reader D) (n : Z) : outcome (Z * lzma_reader D) :=
  let '(ret, k, out, d) := lz_code L (l_dec r) (held (l_in r)) (n - zlen (held (l_out r))) in
  if (k <? 0) || (zlen (held (l_in r)) <? k) || (n - zlen (held (l_out r)) <? zlen out) then Undef
  else
    let inp := option_map (fun bl => (fst bl, zdrop k (snd bl))) (l_in r) in
    match ret with
    | LzOther => Ret (- E_LZMA_DECODE, mklz d inp (l_out r) (l_heap r))
    | _ => Ret (0, mklz d inp (option_map (fun bl => (fst bl, snd bl ++ out)) (l_out r)) (l_heap r))
    end.

(** The loop of patch_reader_lzma_decompress, detools.c:485-524. *)
Fixpoint lzma_loop (fuel : nat) (r : lzma_reader D) (left : list Z) (n : Z)
  : outcome (Z * list Z * lzma_reader D * list Z) :=
  match fuel with
  | O => OutOfFuel
  | S f =>
      letm (res, r1) :=
        (match held (l_in r) with
         | [] => Ret (0, r)
         | _ =>
             letm (res, r1) := prepare_output_buffer r n in
             if negb (res =? 0) then Ret (res, r1) else run_decoder r1 n
         end) in
      if negb (res =? 0) then Ret (res, [], r1, left)
      else
        match get_decompressed_data r1 n with
        | Some (out, r2) => Ret (0, out, r2, left)
        | None =>
            letm (res, r2, left2) := prepare_input_buffer r1 left in
            if negb (res =? 0) then Ret (res, [], r2, left2)
            else lzma_loop f r2 left2 n
        end
  end.

(** patch_reader_lzma_decompress, detools.c:475-525.  The requested size is
    delivered or nothing.  A second iteration empties the chunk, so three are
    enough. *)
Definition lzma_decompress (r : lzma_reader D) (left : list Z) (n : Z)
  : outcome (Z * list Z * lzma_reader D * list Z) :=
  match get_decompressed_data r n with
  | Some (out, r1) => Ret (0, out, r1, left)
  | None => lzma_loop 3 r left n
  end.

(** patch_reader_lzma_destroy, detools.c:527-551; gives the result and the heap. *)
Definition lzma_destroy (r : lzma_reader D) : outcome (Z * heap) :=
  letm h1 := match l_in r with Some (b, _) => h_free (l_heap r) b | None => Ret (l_heap r) end in
  letm h2 := match l_out r with Some (b, _) => h_free h1 b | None => Ret h1 end in
  Ret (if (zlen (held (l_in r)) =? 0) && (zlen (held (l_out r)) =? 0) then 0
       else - E_CORRUPT_PATCH, h2).

(** ** Patch reader of a library with LZMA *)

(** As [reader] in CReader.v, with the LZMA reader; [XFreed h] is an LZMA reader
    after destroy, whose pointers are dangling. *)
Inductive xreader :=
| XPlain (r : reader)
| XLzma (r : lzma_reader D)
| XFreed (h : heap).

(** patch_reader_init, detools.c:859-905, with patch_reader_lzma_init,
    detools.c:553-575: the result and the reader, if one was set up. *)
Definition xreader_init (patch_size compression : Z) : Z * option xreader :=
  if compression =? 1 then
    match lz_start L with
    | None => (- E_LZMA_INIT, None)
    | Some d => (0, Some (XLzma (mklz d None None (mkheap [] 0))))
    end
  else
    match reader_init patch_size compression with
    | None => (- E_BAD_COMPRESSION, None)
    | Some r => (0, Some (XPlain r))
    end.

(** patch_reader_decompress, detools.c:1001-1007. *)
Definition xdecompress (r : xreader) (left : list Z) (n : Z)
  : outcome (Z * list Z * xreader * list Z) :=
  match r with
  | XPlain r =>
      letm (res, out, r1, left1) := decompress r left n in Ret (res, out, XPlain r1, left1)
  | XLzma r =>
      letm (res, out, r1, left1) := lzma_decompress r left n in Ret (res, out, XLzma r1, left1)
  | XFreed _ => Undef
  end.

(** The destroy function of the reader; gives the result and the reader after it. *)
Definition xdestroy (r : xreader) : outcome (Z * xreader) :=
  match r with
  | XPlain r => letm d := destroy r in Ret (d, XPlain r)
  | XLzma r => letm (d, h) := lzma_destroy r in Ret (d, XFreed h)
  | XFreed _ => Undef
  end.

(** patch_reader_unpack_size, detools.c:1012-1068, as in CReader.v. *)
Fixpoint xunpack_size_loop (fuel : nat) (z : size_st) (r : xreader) (left : list Z)
         (byte : option Z) (n : Z)
  : outcome (Z * Z * size_st * xreader * list Z) :=
  match fuel with
  | O => OutOfFuel
  | S f =>
      letm (res, out, r1, left1) := xdecompress r left n in
      if negb (res =? 0) then Ret (res, 0, z, r1, left1)
      else
        let byte1 := match out with b :: _ => Some b | [] => byte end in
        match byte1 with
        | None => Undef
        | Some b =>
            letm oz := size_byte z b in
            match oz with
            | None => Ret (- E_CORRUPT_PATCH_OVERFLOW, 0, z, r1, left1)
            | Some z1 =>
                if Z.land b 128 =? 0 then
                  let v := if z_signed z1 then - z_value z1 else z_value z1 in
                  Ret (0, v, mksz false v (z_offset z1) (z_signed z1), r1, left1)
                else xunpack_size_loop f z1 r1 left1 (Some b) (zlen out)
            end
        end
  end.

Definition xunpack_size (z : size_st) (r : xreader) (left : list Z)
  : outcome (Z * Z * size_st * xreader * list Z) :=
  xunpack_size_loop 6 z r left None 1.

(** common_process_size, detools.c:1070-1089. *)
Definition xcommon_process_size (z : size_st) (r : xreader) (left : list Z)
           (to_pos to_size : Z)
  : outcome (Z * Z * size_st * xreader * list Z) :=
  letm (res, v, z1, r1, left1) := xunpack_size z r left in
  if negb (res =? 0) then Ret (res, v, z1, r1, left1)
  else if to_size <? wrap (to_pos + wrap v)
  then Ret (- E_CORRUPT_PATCH, v, z1, r1, left1)
  else Ret (0, v, z1, r1, left1).

End Lzma.
Arguments XPlain {D}.
Arguments XLzma {D}.
Arguments XFreed {D}.
