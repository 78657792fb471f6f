(** Model of the sequential ("normal") patch applier of c/detools.c,
    lines 1091-1523, and of the callback API, lines 2187-2245. *)

From Coq Require Import ZArith List Bool.
From Verif Require Import Prelude Heatshrink CReader.
Import ListNotations.
Open Scope Z_scope.

(** enum detools_apply_patch_state_t, detools.h:315-325. *)
Inductive pstate :=
| SInit | SDfpatchSize | SDiffSize | SDiffData | SExtraSize | SExtraData
| SAdjustment | SDone | SFailed.

(** User callbacks over an arbitrary world [W] (the void *arg_p):
    detools_read_t, detools_seek_t, detools_write_t of detools.h:98-135.
    [from_read w n] gives (result, buffer contents, world); a callback that
    returns 0 must have filled [n] bytes. *)
Record seq_env (W : Type) := mkenv {
  from_read : W -> Z -> Z * list Z * W;
  from_seek : W -> Z -> Z * W;
  to_write : W -> list Z -> Z * W
}.
Arguments from_read {W}.
Arguments from_seek {W}.
Arguments to_write {W}.

(** struct detools_apply_patch_t, detools.h:335-352.  [a_reader = None] means
    patch_reader.destroy = NULL (no reader initialised).  [a_rsize] is
    patch_reader.size, [a_size] is size.  [a_to_init] is the init_state
    (false = fixed_header, true = to_size).  Fields that
    detools_apply_patch_init leaves uninitialised start with arbitrary values;
    the code never reads them before writing them except to_size in finalize,
    which is only used when the run was successful. *)
Record ap := mkap {
  a_patch_size : Z;
  a_state : pstate;
  a_to_init : bool;
  a_compression : Z;
  a_patch_offset : Z;
  a_to_offset : Z;
  a_to_size : Z;
  a_from_offset : Z;
  a_chunk_size : Z;
  a_reader : option reader;
  a_rsize : size_st;
  a_csize : Z;
  a_left : list Z;
  a_size : size_st
}.

(** Field updates. *)
Definition set_st (s : ap) (x : pstate) : ap :=
  mkap (a_patch_size s) x (a_to_init s) (a_compression s) (a_patch_offset s)
       (a_to_offset s) (a_to_size s) (a_from_offset s) (a_chunk_size s)
       (a_reader s) (a_rsize s) (a_csize s) (a_left s) (a_size s).

Definition set_left (s : ap) (x : list Z) : ap :=
  mkap (a_patch_size s) (a_state s) (a_to_init s) (a_compression s) (a_patch_offset s)
       (a_to_offset s) (a_to_size s) (a_from_offset s) (a_chunk_size s)
       (a_reader s) (a_rsize s) (a_csize s) x (a_size s).

Definition set_chunk (s : ap) (l : list Z) : ap :=
  mkap (a_patch_size s) (a_state s) (a_to_init s) (a_compression s) (a_patch_offset s)
       (a_to_offset s) (a_to_size s) (a_from_offset s) (a_chunk_size s)
       (a_reader s) (a_rsize s) (zlen l) l (a_size s).

Definition set_patch_offset (s : ap) (x : Z) : ap :=
  mkap (a_patch_size s) (a_state s) (a_to_init s) (a_compression s) x
       (a_to_offset s) (a_to_size s) (a_from_offset s) (a_chunk_size s)
       (a_reader s) (a_rsize s) (a_csize s) (a_left s) (a_size s).

Definition set_header (s : ap) (ti : bool) (comp : Z) (z : size_st) (l : list Z) : ap :=
  mkap (a_patch_size s) (a_state s) ti comp (a_patch_offset s)
       (a_to_offset s) (a_to_size s) (a_from_offset s) (a_chunk_size s)
       (a_reader s) (a_rsize s) (a_csize s) l z.

Definition set_reader (s : ap) (r : option reader) (z : size_st) (l : list Z) : ap :=
  mkap (a_patch_size s) (a_state s) (a_to_init s) (a_compression s) (a_patch_offset s)
       (a_to_offset s) (a_to_size s) (a_from_offset s) (a_chunk_size s)
       r z (a_csize s) l (a_size s).

Definition set_to_size (s : ap) (x : Z) : ap :=
  mkap (a_patch_size s) (a_state s) (a_to_init s) (a_compression s) (a_patch_offset s)
       (a_to_offset s) x (a_from_offset s) (a_chunk_size s)
       (a_reader s) (a_rsize s) (a_csize s) (a_left s) (a_size s).

Definition set_from_offset (s : ap) (x : Z) : ap :=
  mkap (a_patch_size s) (a_state s) (a_to_init s) (a_compression s) (a_patch_offset s)
       (a_to_offset s) (a_to_size s) x (a_chunk_size s)
       (a_reader s) (a_rsize s) (a_csize s) (a_left s) (a_size s).

Definition set_chunk_size (s : ap) (x : Z) : ap :=
  mkap (a_patch_size s) (a_state s) (a_to_init s) (a_compression s) (a_patch_offset s)
       (a_to_offset s) (a_to_size s) (a_from_offset s) x
       (a_reader s) (a_rsize s) (a_csize s) (a_left s) (a_size s).

Definition set_to_offset (s : ap) (x : Z) : ap :=
  mkap (a_patch_size s) (a_state s) (a_to_init s) (a_compression s) (a_patch_offset s)
       x (a_to_size s) (a_from_offset s) (a_chunk_size s)
       (a_reader s) (a_rsize s) (a_csize s) (a_left s) (a_size s).

(** [to[i] = (uint8_t)(to[i] + from[i])] for i < to_size, detools.c:1245-1247.
    A from buffer with fewer bytes than promised is an uninitialised read. *)
Fixpoint add_data (to from : list Z) : outcome (list Z) :=
  match to, from with
  | [], _ => Ret []
  | _ :: _, [] => Undef
  | t :: to', f :: from' =>
      letm rest := add_data to' from' in Ret ((t + f) mod 256 :: rest)
  end.

Section Machine.
Context `{WordBits}.
Context {W : Type} (E : seq_env W).

(** chunk.offset *)
Definition chunk_offset (s : ap) : Z := a_csize s - zlen (a_left s).

(** process_init_fixed_header, detools.c:1095-1115. *)
Definition process_init_fixed_header (s : ap) : outcome (Z * ap) :=
  match a_left s with
  | [] => Ret (- E_SHORT_HEADER, s)
  | b :: l =>
      let patch_type := Z.land (Z.shiftr b 4) 7 in
      let comp := Z.land b 15 in
      if negb (patch_type =? 0)
      then Ret (- E_BAD_PATCH_TYPE, set_header s (a_to_init s) comp (a_size s) l)
      else Ret (0, set_header s true comp
                     (mksz false (z_value (a_size s)) (z_offset (a_size s))
                           (z_signed (a_size s))) l)
  end.

(** process_init_to_size, detools.c:1117-1150. *)
Definition process_init_to_size (s : ap) : outcome (Z * ap) :=
  letm (res, v, z1, l1) := unpack_header_size (a_left s) (a_size s) in
  let s1 := set_header s (a_to_init s) (a_compression s) z1 l1 in
  if negb (res =? 0) then Ret (res, s1)
  else
    match reader_init (wrap (a_patch_size s1 - chunk_offset s1)) (a_compression s1) with
    | None =>
        (* -DETOOLS_BAD_COMPRESSION; patch_reader.size.state was set *)
        Ret (- E_BAD_COMPRESSION,
             set_reader s1 (a_reader s1)
               (mksz false (z_value (a_rsize s1)) (z_offset (a_rsize s1))
                     (z_signed (a_rsize s1))) l1)
    | Some r =>
        let s2 := set_reader s1 (Some r)
                    (mksz false (z_value (a_rsize s1)) (z_offset (a_rsize s1))
                          (z_signed (a_rsize s1))) l1 in
        if v <? 0 then Ret (- E_CORRUPT_PATCH, s2)
        else
          let s3 := set_to_size s2 (wrap v) in
          Ret (0, set_st s3 (if 0 <? v then SDfpatchSize else SDone))
    end.

(** process_init, detools.c:1152-1172. *)
Definition process_init (s : ap) : outcome (Z * ap) :=
  if a_to_init s then process_init_to_size s else process_init_fixed_header s.

(** process_dfpatch_size, detools.c:1174-1192.  Using the reader although none is
    initialised would be a call through an uninitialised pointer. *)
Definition process_dfpatch_size (s : ap) : outcome (Z * ap) :=
  match a_reader s with
  | None => Undef
  | Some r =>
      letm (res, v, z1, r1, l1) := unpack_size (a_rsize s) r (a_left s) in
      let s1 := set_reader s (Some r1) z1 l1 in
      if negb (res =? 0) then Ret (res, s1)
      else if 0 <? v then Ret (- E_NOT_IMPLEMENTED, s1)
      else Ret (0, set_st s1 SDiffSize)
  end.

(** process_size, detools.c:1194-1213. *)
Definition process_size (s : ap) (next : pstate) : outcome (Z * ap) :=
  match a_reader s with
  | None => Undef
  | Some r =>
      letm (res, v, z1, r1, l1) :=
        common_process_size (a_rsize s) r (a_left s) (a_to_offset s) (a_to_size s) in
      let s1 := set_reader s (Some r1) z1 l1 in
      if negb (res =? 0) then Ret (res, s1)
      else Ret (0, set_chunk_size (set_st s1 next) (wrap v))
  end.

(** process_data, detools.c:1215-1264.  [B] is sizeof(to), 128 in the code. *)
Definition process_data (B : Z) (s : ap) (w : W) (next : pstate)
  : outcome (Z * ap * W) :=
  let n := Z.min B (a_chunk_size s) in
  if n =? 0 then Ret (0, set_st s next, w)
  else
    match a_reader s with
    | None => Undef
    | Some r =>
        letm (res, out, r1, l1) := decompress r (a_left s) n in
        let s1 := set_reader s (Some r1) (a_rsize s) l1 in
        if negb (res =? 0) then Ret (res, s1, w)
        else
          let m := zlen out in
          letm (io, data, s2, w2) :=
            (match next with
             | SExtraSize =>
                 let '(rr, from, w1) := from_read E w m in
                 if negb (rr =? 0) then Ret (true, out, s1, w1)
                 else
                   letm d := add_data out from in
                   Ret (false, d,
                        set_from_offset s1 (to_int (a_from_offset s1 + m)), w1)
             | _ => Ret (false, out, s1, w)
             end) in
          if (io : bool) then Ret (- E_IO_FAILED, s2, w2)
          else
            let s3 := set_chunk_size
                        (set_to_offset s2 (wrap (a_to_offset s2 + m)))
                        (wrap (a_chunk_size s2 - m)) in
            let '(rw, w3) := to_write E w2 data in
            if negb (rw =? 0) then Ret (- E_IO_FAILED, s3, w3)
            else Ret (0, s3, w3)
    end.

(** process_adjustment, detools.c:1286-1312. *)
Definition process_adjustment (s : ap) (w : W) : outcome (Z * ap * W) :=
  match a_reader s with
  | None => Undef
  | Some r =>
      letm (res, v, z1, r1, l1) := unpack_size (a_rsize s) r (a_left s) in
      let s1 := set_reader s (Some r1) z1 l1 in
      if negb (res =? 0) then Ret (res, s1, w)
      else
        let '(rs, w1) := from_seek E w v in
        if negb (rs =? 0) then Ret (- E_IO_FAILED, s1, w1)
        else
          letm fo := int_add (a_from_offset s1) v in
          let s2 := set_from_offset s1 fo in
          Ret (0, set_st s2 (if a_to_offset s2 =? a_to_size s2 then SDone else SDiffSize), w1)
  end.

(** apply_patch_process_once, detools.c:1314-1365 (with the wrappers at
    1266-1284). *)
Definition process_once (B : Z) (s : ap) (w : W) : outcome (Z * ap * W) :=
  letm (res, s1, w1) :=
    match a_state s with
    | SInit => letm (r, s1) := process_init s in Ret (r, s1, w)
    | SDfpatchSize => letm (r, s1) := process_dfpatch_size s in Ret (r, s1, w)
    | SDiffSize => letm (r, s1) := process_size s SDiffData in Ret (r, s1, w)
    | SDiffData => process_data B s w SExtraSize
    | SExtraSize => letm (r, s1) := process_size s SExtraData in Ret (r, s1, w)
    | SExtraData => process_data B s w SAdjustment
    | SAdjustment => process_adjustment s w
    | SDone => Ret (- E_ALREADY_DONE, s, w)
    | SFailed => Ret (- E_ALREADY_FAILED, s, w)
    end in
  match a_state s with
  | SDone => Ret (res, s1, w1)              (* returns before the res < 0 test *)
  | _ => Ret (res, if res <? 0 then set_st s1 SFailed else s1, w1)
  end.

(** The while loop of detools_apply_patch_process, detools.c:1498-1500. *)
Fixpoint process_loop (fuel : nat) (B : Z) (res : Z) (s : ap) (w : W)
  : outcome (Z * ap * W) :=
  match a_left s with
  | [] => Ret (res, s, w)
  | _ =>
      if res <? 0 then Ret (res, s, w)
      else
        match fuel with
        | O => OutOfFuel
        | S f =>
            letm (r1, s1, w1) := process_once B s w in
            process_loop f B r1 s1 w1
        end
  end.

(** detools_apply_patch_process, detools.c:1486-1507. *)
Definition process (fuel : nat) (B : Z) (s : ap) (w : W) (patch : list Z)
  : outcome (Z * ap * W) :=
  let s1 := set_chunk (set_patch_offset s (wrap (a_patch_offset s + zlen patch))) patch in
  letm (res, s2, w2) := process_loop fuel B 0 s1 w in
  Ret (if (res =? 1) || (res =? - E_ALREADY_DONE) then 0 else res, s2, w2).

(** The do-while loop of detools_apply_patch_finalize, detools.c:1516-1518. *)
Fixpoint finalize_loop (fuel : nat) (B : Z) (s : ap) (w : W) : outcome (Z * ap * W) :=
  match fuel with
  | O => OutOfFuel
  | S f =>
      letm (r1, s1, w1) := process_once B s w in
      if r1 =? 0 then finalize_loop f B s1 w1 else Ret (r1, s1, w1)
  end.

(** apply_patch_common_finalize, detools.c:1367-1393. *)
Definition common_finalize (res : Z) (r : option reader) (to_size : Z) : outcome Z :=
  let res1 := if res =? 1 then - E_NOT_ENOUGH_PATCH_DATA else res in
  let res2 := if res1 =? - E_ALREADY_DONE then 0 else res1 in
  letm res3 :=
    match r with
    | None => Ret res2
    | Some r => letm d := destroy r in Ret (if res2 =? 0 then d else res2)
    end in
  Ret (if res3 =? 0 then to_int to_size else res3).

(** detools_apply_patch_finalize, detools.c:1509-1523. *)
Definition finalize (fuel : nat) (B : Z) (s : ap) (w : W) : outcome (Z * ap * W) :=
  let s1 := set_chunk s [] in
  letm (res, s2, w2) := finalize_loop fuel B s1 w in
  letm r := common_finalize res (a_reader s2) (a_to_size s2) in
  Ret (r, s2, w2).

(** detools_apply_patch_init, detools.c:1395-1415.  [junk] stands for the
    previous contents of the struct; only the listed fields are set. *)
Definition ap_init (junk : ap) (patch_size : Z) : ap :=
  mkap patch_size SInit false (a_compression junk) 0 0 (a_to_size junk) 0
       (a_chunk_size junk) None (a_rsize junk) (a_csize junk) (a_left junk) (a_size junk).

(** A user feeding the patch in the given pieces: process() each piece, stop at
    the first error, then finalize() (always called, its result is used only if
    all process() calls succeeded).  This is the protocol documented in
    detools.h:467-492 and followed by callbacks_process, detools.c:2187-2221. *)
Fixpoint feed (fuel : nat) (B : Z) (s : ap) (w : W) (chunks : list (list Z))
  : outcome (Z * ap * W) :=
  match chunks with
  | [] => finalize fuel B s w
  | c :: cs =>
      letm (res, s1, w1) := process fuel B s w c in
      if res =? 0 then feed fuel B s1 w1 cs
      else
        letm (r2, s2, w2) := finalize fuel B s1 w1 in
        Ret (res, s2, w2)
  end.

(** callbacks_process, detools.c:2187-2221.  [patch_read w n] is the user's
    patch_read callback. *)
Fixpoint callbacks_loop (fuel : nat) (patch_read : W -> Z -> Z * list Z * W)
         (patch_size patch_offset : Z) (s : ap) (w : W) : outcome (Z * ap * W) :=
  if negb (patch_offset <? patch_size) then finalize fuel 128 s w
  else
    match fuel with
    | O => OutOfFuel
    | S f =>
        let n := Z.min (patch_size - patch_offset) 512 in
        let '(rr, buf, w1) := patch_read w n in
        if negb (rr =? 0) then
          letm (r2, s2, w2) := finalize fuel 128 s w1 in
          Ret (- E_IO_FAILED, s2, w2)
        else if negb (zlen buf =? n) then Undef
        else
          letm (res, s1, w2) := process fuel 128 s w1 buf in
          if res =? 0
          then callbacks_loop f patch_read patch_size (patch_offset + n) s1 w2
          else
            letm (r2, s2, w3) := finalize fuel 128 s1 w2 in
            Ret (res, s2, w3)
    end.

(** detools_apply_patch_callbacks, detools.c:2223-2245. *)
Definition apply_patch_callbacks (fuel : nat) (junk : ap)
           (patch_read : W -> Z -> Z * list Z * W) (patch_size : Z) (w : W)
  : outcome (Z * ap * W) :=
  callbacks_loop fuel patch_read patch_size 0 (ap_init junk patch_size) w.

(** detools_apply_patch_dump, detools.c:1417-1435: the whole struct is handed to
    state_write; the result tells whether the compression supports dumping
    (patch_reader_dump, detools.c:907-943). *)
Definition dump_ok (s : ap) : bool :=
  match a_state s with
  | SInit => true
  | _ => (a_compression s =? 0) || (a_compression s =? 2) || (a_compression s =? 4)
  end.

(** patch_reader_restore, detools.c:945-992: decoder_p is always pointed at the
    embedded decoder. *)
Definition restore_reader (r : option reader) : option reader :=
  match r with
  | Some (RHs h) => Some (RHs (mkhr (hr_window h) (hr_lookahead h) true (hr_dec h)))
  | _ => r
  end.

(** detools_apply_patch_restore, detools.c:1437-1474, on a state [s] that has
    been initialised; [dumped] is the struct read back.  Returns (res, state,
    world).  The reader is restored with the compression of the dump; a dump in
    a state after init always has the matching reader. *)
Definition restore (s dumped : ap) (w : W) : outcome (Z * ap * W) :=
  match a_state dumped with
  | SInit =>
      Ret (0, mkap (a_patch_size dumped) SInit (a_to_init s) (a_compression s)
                   (a_patch_offset s) (a_to_offset s) (a_to_size s) (a_from_offset s)
                   (a_chunk_size s) (a_reader s) (a_rsize s) (a_csize s) (a_left s)
                   (a_size s), w)
  | st =>
      let s1 := mkap (a_patch_size dumped) st (a_to_init s) (a_compression dumped)
                     (a_patch_offset dumped) (a_to_offset dumped) (a_to_size dumped)
                     (a_from_offset dumped) (a_chunk_size dumped)
                     (a_reader s) (a_rsize s) (a_csize s) (a_left s) (a_size s) in
      let '(rs, w1) := from_seek E w (a_from_offset s1) in
      if negb (rs =? 0) then Ret (- E_IO_FAILED, s1, w1)
      else
        let s2 := mkap (a_patch_size s1) (a_state s1) (a_to_init s1) (a_compression s1)
                       (a_patch_offset s1) (a_to_offset s1) (a_to_size s1)
                       (a_from_offset s1) (a_chunk_size s1)
                       (restore_reader (a_reader dumped)) (a_rsize dumped)
                       (a_csize s1) (a_left s1) (a_size s1) in
        Ret (if dump_ok dumped then 0 else - E_NOT_IMPLEMENTED, s2, w1)
  end.

(** detools_apply_patch_get_patch_offset, detools.c:1476-1479. *)
Definition get_patch_offset (s : ap) : Z := a_patch_offset s.

(** detools_apply_patch_get_to_offset, detools.c:1481-1484. *)
Definition get_to_offset (s : ap) : Z := a_to_offset s.

End Machine.

(** ** The file world: what detools_apply_patch_filenames (detools.c:2488-2523)
    connects the callbacks to, and what the callback contract in detools.h
    describes. *)

Record files := mkfiles {
  f_from : list Z;     (* contents of the from file *)
  f_pos : Z;           (* read position in it *)
  f_to : list Z        (* what has been written to the to file *)
}.

(** file_io_from_read / file_io_read, detools.c:2429-2451: fails unless all the
    bytes can be read; reading 0 bytes always succeeds. *)
Definition file_read (w : files) (n : Z) : Z * list Z * files :=
  if n =? 0 then (0, [], w)
  else if (0 <=? f_pos w) && (f_pos w + n <=? zlen (f_from w))
  then (0, ztake n (zdrop (f_pos w) (f_from w)),
        mkfiles (f_from w) (f_pos w + n) (f_to w))
  else (-14, [], w).

(** file_io_from_seek, detools.c:2453-2460 (fseek(SEEK_CUR) fails only for a
    negative resulting position). *)
Definition file_seek (w : files) (off : Z) : Z * files :=
  if f_pos w + off <? 0 then (-16, w)
  else (0, mkfiles (f_from w) (f_pos w + off) (f_to w)).

(** file_io_to_write, detools.c:2471-2486, on a file that accepts all data. *)
Definition file_write (w : files) (data : list Z) : Z * files :=
  (0, mkfiles (f_from w) (f_pos w) (f_to w ++ data)).

Definition file_env : seq_env files := mkenv files file_read file_seek file_write.

(** The whole protocol on files: init, process() every piece of the patch in
    turn, finalize().  The result is the return value a caller sees: the first
    error of process(), otherwise the value of finalize() (the to-file size). *)
Definition c_apply `{WordBits} (fuel : nat) (junk : ap) (patch_size : Z)
           (from : list Z) (chunks : list (list Z)) : outcome (Z * ap * files) :=
  feed file_env fuel 128 (ap_init junk patch_size) (mkfiles from 0 []) chunks.
