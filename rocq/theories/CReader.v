(** Model of the patch readers of c/detools.c: chunk access, size fields and
    the none, crle and heatshrink decompressors.

    Build configuration modelled: DETOOLS_CONFIG_COMPRESSION_NONE/CRLE/HEATSHRINK
    = 1, DETOOLS_CONFIG_COMPRESSION_LZMA = 0 (liblzma is an external library),
    HEATSHRINK_DYNAMIC_ALLOC = 0 (the default of heatshrink_config.h:6).

    A chunk (detools.h: struct detools_apply_patch_chunk_t) is represented by its
    size and by the list of its bytes that have not been read yet; [chunk.offset]
    is the size minus the length of that list.  Readers only ever look at the
    unread bytes, so they take and return that list. *)

From Coq Require Import ZArith List Bool.
From Verif Require Import Prelude Heatshrink.
Import ListNotations.
Open Scope Z_scope.

(** Error codes, c/detools.h:60-90 (negated when returned). *)
Definition E_NOT_IMPLEMENTED := 1.
Definition E_NOT_DONE := 2.
Definition E_BAD_PATCH_TYPE := 3.
Definition E_BAD_COMPRESSION := 4.
Definition E_INTERNAL_ERROR := 5.
Definition E_CORRUPT_PATCH := 9.
Definition E_IO_FAILED := 10.
Definition E_ALREADY_DONE := 11.
Definition E_SHORT_HEADER := 18.
Definition E_NOT_ENOUGH_PATCH_DATA := 19.
Definition E_HEATSHRINK_SINK := 20.
Definition E_HEATSHRINK_POLL := 21.
Definition E_STEP_SET_FAILED := 22.
Definition E_STEP_GET_FAILED := 23.
Definition E_ALREADY_FAILED := 24.
Definition E_CORRUPT_PATCH_OVERFLOW := 25.
Definition E_CORRUPT_PATCH_CRLE_KIND := 26.
Definition E_HEATSHRINK_HEADER := 27.

(** struct detools_apply_patch_size_t, detools.h:211-216: resumable decoder of
    one size field.  The [state] member (an int holding one of the two enumerators
    first/consecutive) is a boolean here: [true] = consecutive. *)
Record size_st := mksz {
  z_cons : bool;
  z_value : Z;
  z_offset : Z;
  z_signed : bool
}.

(** is_overflow, detools.c:119-122. *)
Definition is_overflow (offset : Z) : bool := 32 <? offset + 7.

(** Accumulation of 7 more bits, detools.c:154-159 and 1043-1048:
    [value |= ((byte & 0x7f) << offset)]. *)
Definition acc_bits (value byte offset : Z) : outcome Z :=
  letm s := int_shl (Z.land byte 127) offset in Ret (Z.lor value s).

(** chunk_unpack_header_size, detools.c:124-172.  Returns (res, value, state,
    unread bytes); res = 1 means that the chunk is exhausted.  The recursion is
    on the unread bytes because every iteration reads one. *)
Fixpoint unpack_header_size (left : list Z) (z : size_st)
  : outcome (Z * Z * size_st * list Z) :=
  match left with
  | [] => Ret (1, 0, z, [])
  | b :: left' =>
      letm o :=
        (if z_cons z then
           if is_overflow (z_offset z) then Ret None
           else letm v := acc_bits (z_value z) b (z_offset z) in
                Ret (Some (mksz true v (z_offset z + 7) (z_signed z)))
         else Ret (Some (mksz true (Z.land b 63) 6 (z_signed z)))) in
      match o with
      | None => Ret (- E_CORRUPT_PATCH_OVERFLOW, 0, z, left')
      | Some z1 =>
          if Z.land b 128 =? 0
          then Ret (0, z_value z1,
                    mksz false (z_value z1) (z_offset z1) (z_signed z1), left')
          else unpack_header_size left' z1
      end
  end.

(** ** CRLE reader *)

(** struct detools_unpack_usize_t, detools.h:256-260. *)
Record usize_st := mkuz { u_cons : bool; u_value : Z; u_offset : Z }.

(** unpack_usize_init, detools.c:585-590. *)
Definition usize_init : usize_st := mkuz false 0 0.

(** The do-while loop of unpack_usize, detools.c:614-629. *)
Fixpoint unpack_usize_loop (left : list Z) (u : usize_st)
  : outcome (Z * Z * usize_st * list Z) :=
  match left with
  | [] => Ret (1, 0, u, [])
  | b :: left' =>
      if is_overflow (u_offset u)
      then Ret (- E_CORRUPT_PATCH_OVERFLOW, 0, u, left')
      else
        letm v := acc_bits (u_value u) b (u_offset u) in
        let u1 := mkuz (u_cons u) v (u_offset u + 7) in
        if Z.land b 128 =? 0 then Ret (0, v, u1, left')
        else unpack_usize_loop left' u1
  end.

(** unpack_usize, detools.c:592-632. *)
Definition unpack_usize (left : list Z) (u : usize_st)
  : outcome (Z * Z * usize_st * list Z) :=
  unpack_usize_loop left (if u_cons u then u else mkuz true 0 0).

(** struct detools_apply_patch_patch_reader_crle_t, detools.h:271-284, with the
    union member that is live in each state attached to that state. *)
Inductive crle_st :=
| CIdle
| CScatSize (u : usize_st)
| CScatData (bytes_left : Z)
| CRepSize (u : usize_st)
| CRepData (bytes_left : Z)
| CRepRead (bytes_left : Z) (value : Z).

(** One iteration of the loop in patch_reader_crle_decompress,
    detools.c:787-823, i.e. the functions at detools.c:634-775.  [n] is the
    requested size; returns (res, bytes produced, state, unread bytes). *)
Definition crle_step (s : crle_st) (left : list Z) (n : Z)
  : outcome (Z * list Z * crle_st * list Z) :=
  match s with
  | CIdle =>                                     (* detools.c:634-667 *)
      match left with
      | [] => Ret (1, [], CIdle, [])
      | k :: left' =>
          if k =? 0 then Ret (2, [], CScatSize usize_init, left')
          else if k =? 1 then Ret (2, [], CRepSize usize_init, left')
          else Ret (- E_CORRUPT_PATCH_CRLE_KIND, [], CIdle, left')
      end
  | CScatSize u =>                               (* detools.c:669-688 *)
      letm (r, v, u1, left') := unpack_usize left u in
      if r =? 0 then Ret (2, [], CScatData v, left')
      else Ret (r, [], CScatSize u1, left')
  | CScatData k =>                               (* detools.c:690-712 *)
      match left with
      | [] => Ret (1, [], CScatData k, [])
      | _ =>
          let m := Z.min (Z.min n k) (zlen left) in
          let k1 := k - m in
          Ret (0, ztake m left, if k1 =? 0 then CIdle else CScatData k1, zdrop m left)
      end
  | CRepSize u =>                                (* detools.c:714-733 *)
      letm (r, v, u1, left') := unpack_usize left u in
      if r =? 0 then Ret (2, [], CRepData v, left')
      else Ret (r, [], CRepSize u1, left')
  | CRepData k =>                                (* detools.c:735-751 *)
      match left with
      | [] => Ret (1, [], CRepData k, [])
      | v :: left' => Ret (2, [], CRepRead k v, left')
      end
  | CRepRead k v =>                              (* detools.c:753-775 *)
      let m := Z.min n k in
      let k1 := k - m in
      Ret (0, zrepeat v m, if k1 =? 0 then CIdle else CRepRead k1 v, left)
  end.

(** patch_reader_crle_decompress, detools.c:777-827: iterate while res = 2.  At
    most four iterations are possible (kind, size, value, data). *)
Fixpoint crle_loop (fuel : nat) (s : crle_st) (left : list Z) (n : Z)
  : outcome (Z * list Z * crle_st * list Z) :=
  match fuel with
  | O => OutOfFuel
  | S f =>
      letm (r, out, s1, left1) := crle_step s left n in
      if r =? 2 then crle_loop f s1 left1 n else Ret (r, out, s1, left1)
  end.

Definition crle_decompress (s : crle_st) (left : list Z) (n : Z) :=
  crle_loop 5 s left n.

(** ** Heatshrink reader *)

(** struct detools_apply_patch_patch_reader_heatshrink_t, detools.h:240-249.
    [hr_ptr] tells whether decoder_p is non-NULL (it then points to the member
    [decoder]); [hr_dec = None] means that this member is uninitialised memory. *)
Record hs_reader := mkhr {
  hr_window : Z;
  hr_lookahead : Z;
  hr_ptr : bool;
  hr_dec : option hsd
}.

Definition HS_WINDOW : Z := 8.       (* HEATSHRINK_STATIC_WINDOW_BITS *)
Definition HS_LOOKAHEAD : Z := 7.    (* HEATSHRINK_STATIC_LOOKAHEAD_BITS *)

(** The while loop of patch_reader_heatshrink_decompress, detools.c:290-337.
    [out] is what has been produced so far, [left] in C is [n - |out|].  Every
    iteration but the last consumes one unread byte. *)
Fixpoint hs_decompress_loop (left : list Z) (d : hsd) (n : Z) (out : list Z)
  : outcome (Z * list Z * hsd * list Z) :=
  letm (d1, o) := hs_poll HS_WINDOW HS_LOOKAHEAD (n - zlen out) d in
  let out1 := out ++ o in
  if n - zlen out1 =? 0 then Ret (0, out1, d1, left)
  else
    match left with
    | [] => if zlen out1 =? 0 then Ret (1, [], d1, []) else Ret (0, out1, d1, [])
    | b :: left' =>
        letm od := hs_sink1 d1 b in
        match od with
        | None => Ret (- E_HEATSHRINK_SINK, [], d1, left')
        | Some d2 => hs_decompress_loop left' d2 n out1
        end
    end.

(** patch_reader_heatshrink_decompress, detools.c:251-341, including
    unpack_heatshrink_header, detools.c:243-249. *)
Definition hs_decompress (h : hs_reader) (left : list Z) (n : Z)
  : outcome (Z * list Z * hs_reader * list Z) :=
  let run (h : hs_reader) (left : list Z) :=
    if hr_ptr h then
      match hr_dec h with
      | None => Undef
      | Some d =>
          letm (r, out, d1, left1) := hs_decompress_loop left d n [] in
          Ret (r, out, mkhr (hr_window h) (hr_lookahead h) true (Some d1), left1)
      end
    else Ret (- E_HEATSHRINK_POLL, [], h, left) in
  if hr_window h =? -1 then
    match left with
    | [] => Ret (1, [], h, [])
    | b :: left' =>
        let w := Z.land (Z.shiftr b 4) 15 + 4 in
        let l := Z.land b 15 + 3 in
        if negb (w =? HS_WINDOW) || negb (l =? HS_LOOKAHEAD)
        then Ret (- E_HEATSHRINK_HEADER, [], mkhr w l (hr_ptr h) (hr_dec h), left')
        else run (mkhr w l true (Some (hs_reset w))) left'
    end
  else run h left.

(** ** Patch reader *)

(** The union of detools_apply_patch_patch_reader_t, detools.h:286-307, with the
    decompress/destroy function pointers represented by the constructor. *)
Inductive reader :=
| RNone (patch_size patch_offset : Z)
| RCrle (s : crle_st)
| RHs (h : hs_reader).

Section WithWordBits.
Context `{WordBits}.

(** patch_reader_none_decompress, detools.c:180-205; chunk_read,
    detools.c:103-115. *)
Definition none_decompress (psize poff : Z) (left : list Z) (n : Z)
  : outcome (Z * list Z * reader * list Z) :=
  if psize <? wrap (poff + n) then Ret (- E_CORRUPT_PATCH, [], RNone psize poff, left)
  else match left with
       | [] => Ret (1, [], RNone psize poff, [])
       | _ =>
           let m := Z.min n (zlen left) in
           Ret (0, ztake m left, RNone psize (wrap (poff + m)), zdrop m left)
       end.

(** patch_reader_decompress, detools.c:1001-1007. *)
Definition decompress (r : reader) (left : list Z) (n : Z)
  : outcome (Z * list Z * reader * list Z) :=
  match r with
  | RNone ps po => none_decompress ps po left n
  | RCrle s =>
      letm (res, out, s1, left1) := crle_decompress s left n in
      Ret (res, out, RCrle s1, left1)
  | RHs h =>
      letm (res, out, h1, left1) := hs_decompress h left n in
      Ret (res, out, RHs h1, left1)
  end.

(** patch_reader_none_destroy (detools.c:207-219), patch_reader_crle_destroy
    (829-835), patch_reader_heatshrink_destroy (343-366). *)
Definition destroy (r : reader) : outcome Z :=
  match r with
  | RNone ps po => Ret (if po =? ps then 0 else - E_CORRUPT_PATCH)
  | RCrle _ => Ret 0
  | RHs h =>
      if hr_ptr h then
        match hr_dec h with
        | None => Undef
        | Some d => Ret (if hs_finish d then 0 else - E_CORRUPT_PATCH)
        end
      else Ret 0
  end.

(** patch_reader_init, detools.c:859-905 (with the none, crle and heatshrink
    init functions at 221-236, 837-850 and 368-384).  [None]: the compression is
    not known (-DETOOLS_BAD_COMPRESSION), the reader is left untouched. *)
Definition reader_init (patch_size compression : Z) : option reader :=
  if compression =? 0 then Some (RNone patch_size 0)
  else if compression =? 2 then Some (RCrle CIdle)
  else if compression =? 4 then Some (RHs (mkhr (-1) (-1) false None))
  else None.

(** One pass through the switch in patch_reader_unpack_size, detools.c:1022-1054,
    for a byte that has been decompressed; [None]: overflow. *)
Definition size_byte (z : size_st) (b : Z) : outcome (option size_st) :=
  if z_cons z then
    if is_overflow (z_offset z) then Ret None
    else letm v := acc_bits (z_value z) b (z_offset z) in
         Ret (Some (mksz true v (z_offset z + 7) (z_signed z)))
  else Ret (Some (mksz true (Z.land b 63) 6 (Z.land b 64 =? 64))).

(** patch_reader_unpack_size, detools.c:1012-1068.  [byte] is the local variable
    [byte] ([None] while uninitialised) and [n] the local variable [size], which
    a decompressor may lower to 0; using [byte] uninitialised is [Undef].
    Returns (res, value, size state, reader, unread bytes). *)
Fixpoint unpack_size_loop (fuel : nat) (z : size_st) (r : reader) (left : list Z)
         (byte : option Z) (n : Z)
  : outcome (Z * Z * size_st * reader * list Z) :=
  match fuel with
  | O => OutOfFuel
  | S f =>
      letm (res, out, r1, left1) := decompress r left n in
      if negb (res =? 0) then Ret (res, 0, z, r1, left1)
      else
        let byte1 := match out with b :: _ => Some b | [] => byte end in
        match byte1 with
        | None => Undef
        | Some b =>
            letm oz := size_byte z b in
            match oz with
            | None => Ret (- E_CORRUPT_PATCH_OVERFLOW, 0, z, r1, left1)
            | Some z1 =>
                if Z.land b 128 =? 0 then
                  let v := if z_signed z1 then - z_value z1 else z_value z1 in
                  Ret (0, v, mksz false v (z_offset z1) (z_signed z1), r1, left1)
                else unpack_size_loop f z1 r1 left1 (Some b) (zlen out)
            end
        end
  end.

(** The loop runs at most five times: offsets 6, 13, 20 are accepted, 27 is not. *)
Definition unpack_size (z : size_st) (r : reader) (left : list Z)
  : outcome (Z * Z * size_st * reader * list Z) :=
  unpack_size_loop 6 z r left None 1.

(** common_process_size, detools.c:1070-1089; the addition wraps in size_t. *)
Definition common_process_size (z : size_st) (r : reader) (left : list Z)
           (to_pos to_size : Z)
  : outcome (Z * Z * size_st * reader * list Z) :=
  letm (res, v, z1, r1, left1) := unpack_size z r left in
  if negb (res =? 0) then Ret (res, v, z1, r1, left1)
  else if to_size <? wrap (to_pos + wrap v)
  then Ret (- E_CORRUPT_PATCH, v, z1, r1, left1)
  else Ret (0, v, z1, r1, left1).

End WithWordBits.
