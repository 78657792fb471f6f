(** Model of the in-place patch applier of c/detools.c, lines 1525-2181, and of
    its callback API, lines 2247-2321. *)

From Coq Require Import ZArith List Bool.
From Verif Require Import Prelude Heatshrink CReader CSeq.
Import ListNotations.
Open Scope Z_scope.

(** User callbacks over an arbitrary world [W] (the void *arg_p):
    detools_mem_read_t, detools_mem_write_t, detools_mem_erase_t,
    detools_step_set_t, detools_step_get_t of detools.h:127-209.
    [mem_read w src n] gives (result, buffer contents, world).  The step
    callbacks may be NULL ([None]). *)
Record ip_env (W : Type) := mkipenv {
  mem_read : W -> Z -> Z -> Z * list Z * W;
  mem_write : W -> Z -> list Z -> Z * W;
  mem_erase : W -> Z -> Z -> Z * W;
  step_set : option (W -> Z -> Z * W);
  step_get : option (W -> Z * Z * W)
}.
Arguments mem_read {W}.
Arguments mem_write {W}.
Arguments mem_erase {W}.
Arguments step_set {W}.
Arguments step_get {W}.

(** enum detools_apply_patch_in_place_init_state_t, detools.h:354-361. *)
Inductive istate := IFixed | IMemory | ISegment | IShift | IFrom | ITo.

(** The anonymous segment struct of detools_apply_patch_in_place_t,
    detools.h:385-391. *)
Record segst := mksegst {
  g_index : Z;
  g_from_offset : Z;
  g_to_offset : Z;
  g_to_size : Z;
  g_to_pos : Z
}.

(** struct detools_apply_patch_in_place_t, detools.h:366-395.  [i_reader = None]
    means patch_reader.destroy = NULL.  Chunk: [i_csize] is chunk.size, [i_left]
    the bytes from chunk.offset on. *)
Record ip := mkip {
  i_patch_size : Z;
  i_state : pstate;
  i_init : istate;
  i_compression : Z;
  i_step : Z;
  i_to_pos : Z;
  i_to_size : Z;
  i_from_size : Z;
  i_memory_size : Z;
  i_segment_size : Z;
  i_shift_size : Z;
  i_chunk_size : Z;
  i_seg : segst;
  i_reader : option reader;
  i_rsize : size_st;
  i_csize : Z;
  i_left : list Z;
  i_size : size_st
}.

(** Field updates. *)
Definition iset_st (s : ip) (x : pstate) : ip :=
  mkip (i_patch_size s) x (i_init s) (i_compression s) (i_step s) (i_to_pos s) (i_to_size s)
       (i_from_size s) (i_memory_size s) (i_segment_size s) (i_shift_size s) (i_chunk_size s)
       (i_seg s) (i_reader s) (i_rsize s) (i_csize s) (i_left s) (i_size s).

Definition iset_chunk (s : ip) (l : list Z) : ip :=
  mkip (i_patch_size s) (i_state s) (i_init s) (i_compression s) (i_step s) (i_to_pos s)
       (i_to_size s) (i_from_size s) (i_memory_size s) (i_segment_size s) (i_shift_size s)
       (i_chunk_size s) (i_seg s) (i_reader s) (i_rsize s) (zlen l) l (i_size s).

Definition iset_header (s : ip) (st : istate) (comp : Z) (z : size_st) (l : list Z) : ip :=
  mkip (i_patch_size s) (i_state s) st comp (i_step s) (i_to_pos s) (i_to_size s)
       (i_from_size s) (i_memory_size s) (i_segment_size s) (i_shift_size s) (i_chunk_size s)
       (i_seg s) (i_reader s) (i_rsize s) (i_csize s) l z.

Definition iset_sizes (s : ip) (memory segment shift from : Z) : ip :=
  mkip (i_patch_size s) (i_state s) (i_init s) (i_compression s) (i_step s) (i_to_pos s)
       (i_to_size s) from memory segment shift (i_chunk_size s)
       (i_seg s) (i_reader s) (i_rsize s) (i_csize s) (i_left s) (i_size s).

Definition iset_reader (s : ip) (r : option reader) (z : size_st) (l : list Z) : ip :=
  mkip (i_patch_size s) (i_state s) (i_init s) (i_compression s) (i_step s) (i_to_pos s)
       (i_to_size s) (i_from_size s) (i_memory_size s) (i_segment_size s) (i_shift_size s)
       (i_chunk_size s) (i_seg s) r z (i_csize s) l (i_size s).

Definition iset_to (s : ip) (pos size : Z) : ip :=
  mkip (i_patch_size s) (i_state s) (i_init s) (i_compression s) (i_step s) pos size
       (i_from_size s) (i_memory_size s) (i_segment_size s) (i_shift_size s) (i_chunk_size s)
       (i_seg s) (i_reader s) (i_rsize s) (i_csize s) (i_left s) (i_size s).

Definition iset_seg (s : ip) (g : segst) : ip :=
  mkip (i_patch_size s) (i_state s) (i_init s) (i_compression s) (i_step s) (i_to_pos s)
       (i_to_size s) (i_from_size s) (i_memory_size s) (i_segment_size s) (i_shift_size s)
       (i_chunk_size s) g (i_reader s) (i_rsize s) (i_csize s) (i_left s) (i_size s).

Definition iset_chunk_size (s : ip) (x : Z) : ip :=
  mkip (i_patch_size s) (i_state s) (i_init s) (i_compression s) (i_step s) (i_to_pos s)
       (i_to_size s) (i_from_size s) (i_memory_size s) (i_segment_size s) (i_shift_size s)
       x (i_seg s) (i_reader s) (i_rsize s) (i_csize s) (i_left s) (i_size s).

Definition iset_step (s : ip) (x : Z) : ip :=
  mkip (i_patch_size s) (i_state s) (i_init s) (i_compression s) x (i_to_pos s)
       (i_to_size s) (i_from_size s) (i_memory_size s) (i_segment_size s) (i_shift_size s)
       (i_chunk_size s) (i_seg s) (i_reader s) (i_rsize s) (i_csize s) (i_left s) (i_size s).

(** A size decoder whose state has been set to
    detools_unpack_usize_state_first_t. *)
Definition z_first (z : size_st) : size_st :=
  mksz false (z_value z) (z_offset z) (z_signed z).

Section Machine.
Context `{WordBits}.
Context {W : Type} (E : ip_env W).

(** chunk.offset *)
Definition ichunk_offset (s : ip) : Z := i_csize s - zlen (i_left s).

(** in_place_all_steps_completed, detools.c:1529-1544. *)
Definition all_steps_completed (w : W) : Z * W :=
  match step_set E with
  | None => (0, w)
  | Some set =>
      let '(res, w1) := set w 0 in
      ((if negb (res =? 0) then - E_STEP_SET_FAILED else res), w1)
  end.

(** in_place_is_step_completed, detools.c:1546-1565, with [step] the
    ongoing_step: (result, *res_p, world). *)
Definition is_step_completed (step : Z) (w : W) : Z * bool * W :=
  match step_get E with
  | None => (0, false, w)
  | Some get =>
      let '(res, completed, w1) := get w in
      if negb (res =? 0) then (- E_STEP_GET_FAILED, false, w1)
      else (0, step <=? completed, w1)
  end.

(** in_place_next_step, detools.c:1567-1593: (result, ongoing_step, world).
    The increment of ongoing_step is an [int] addition. *)
Definition next_step (step : Z) (w : W) : outcome (Z * Z * W) :=
  match step_set E with
  | None => letm step1 := int_add step 1 in Ret (0, step1, w)
  | Some set =>
      let '(res, completed, w1) := is_step_completed step w in
      if negb (res =? 0) then Ret (res, step, w1)
      else
        let '(res1, w2) :=
          (if (completed : bool) then (0, w1)
           else let '(r, w2) := set w1 step in
                ((if negb (r =? 0) then - E_STEP_SET_FAILED else r), w2)) in
        letm step1 := int_add step 1 in Ret (res1, step1, w2)
  end.

(** in_place_mem_read, detools.c:1595-1616: (result, buffer, world). *)
Definition ip_mem_read (step : Z) (w : W) (src n : Z) : Z * list Z * W :=
  let '(res, completed, w1) := is_step_completed step w in
  if negb (res =? 0) then (res, [], w1)
  else if (completed : bool) then (0, zrepeat 0 n, w1)
  else mem_read E w1 src n.

(** in_place_mem_write, detools.c:1618-1637. *)
Definition ip_mem_write (step : Z) (w : W) (dst : Z) (data : list Z) : Z * W :=
  let '(res, completed, w1) := is_step_completed step w in
  if negb (res =? 0) then (res, w1)
  else if (completed : bool) then (0, w1)
  else mem_write E w1 dst data.

(** in_place_mem_erase, detools.c:1639-1657. *)
Definition ip_mem_erase (step : Z) (w : W) (addr n : Z) : Z * W :=
  let '(res, completed, w1) := is_step_completed step w in
  if negb (res =? 0) then (res, w1)
  else if (completed : bool) then (0, w1)
  else mem_erase E w1 addr n.

(** The while loop copying one segment, detools.c:1692-1715.  [offset] grows by
    at least one per turn as long as it is below [segment]. *)
Fixpoint copy_loop (fuel : nat) (step : Z) (w : W) (read write segment offset : Z)
  : outcome (Z * W) :=
  if negb (offset <? segment) then Ret (0, w)
  else
    match fuel with
    | O => OutOfFuel
    | S f =>
        let n := Z.min 128 (segment - offset) in
        let '(res, buf, w1) := ip_mem_read step w (wrap (read + offset)) n in
        if negb (res =? 0) then Ret (res, w1)
        else if negb (zlen buf =? n) then Undef
        else
          let '(res1, w2) := ip_mem_write step w1 (wrap (write + offset)) buf in
          if negb (res1 =? 0) then Ret (res1, w2)
          else copy_loop f step w2 read write segment (offset + n)
    end.

(** The for loop of in_place_shift_memory, detools.c:1678-1727, [n] turns left:
    (result, ongoing_step, world). *)
Fixpoint shift_loop (n : nat) (step : Z) (w : W) (read write segment : Z)
  : outcome (Z * Z * W) :=
  match n with
  | O => Ret (0, step, w)
  | S k =>
      let '(res, w1) := ip_mem_erase step w write segment in
      if negb (res =? 0) then Ret (res, step, w1)
      else
        letm (res1, w2) := copy_loop (Z.to_nat segment) step w1 read write segment 0 in
        if negb (res1 =? 0) then Ret (res1, step, w2)
        else
          letm (res2, step1, w3) := next_step step w2 in
          if negb (res2 =? 0) then Ret (res2, step1, w3)
          else shift_loop k step1 w3 (wrap (read - segment)) (wrap (write - segment)) segment
  end.

(** in_place_shift_memory, detools.c:1659-1724.  Division by zero is undefined. *)
Definition shift_memory (step : Z) (w : W) (memory from segment shift : Z)
  : outcome (Z * Z * W) :=
  if segment =? 0 then Undef
  else
    let n := wrap (wrap (Z.min from (wrap (memory - shift)) + segment) - 1) / segment in
    let read := wrap (wrap (n - 1) * segment) in
    shift_loop (Z.to_nat n) step w read (wrap (read + shift)) segment.

(** in_place_process_init_fixed_header, detools.c:1726-1747. *)
Definition ip_init_fixed_header (s : ip) : outcome (Z * ip) :=
  match i_left s with
  | [] => Ret (- E_SHORT_HEADER, s)
  | b :: l =>
      let patch_type := Z.land (Z.shiftr b 4) 7 in
      let comp := Z.land b 15 in
      if negb (patch_type =? 1)
      then Ret (- E_BAD_PATCH_TYPE, iset_header s (i_init s) comp (i_size s) l)
      else Ret (0, iset_header s IMemory comp (z_first (i_size s)) l)
  end.

(** in_place_process_init_memory_size, _segment_size, _shift_size and
    _from_size, detools.c:1749-1823: the same code except for the field the
    size goes to ([store]) and the next init state. *)
Definition ip_init_size (s : ip) (next : istate) (store : ip -> Z -> ip)
  : outcome (Z * ip) :=
  letm (res, v, z1, l1) := unpack_header_size (i_left s) (i_size s) in
  if negb (res =? 0) then Ret (res, iset_header s (i_init s) (i_compression s) z1 l1)
  else Ret (0, store (iset_header s next (i_compression s) (z_first z1) l1) (wrap v)).

(** in_place_process_init_to_size, detools.c:1825-1869. *)
Definition ip_init_to_size (s : ip) (w : W) : outcome (Z * ip * W) :=
  letm (res, v, z1, l1) := unpack_header_size (i_left s) (i_size s) in
  let s1 := iset_header s (i_init s) (i_compression s) z1 l1 in
  if negb (res =? 0) then Ret (res, s1, w)
  else
    match reader_init (wrap (i_patch_size s1 - ichunk_offset s1)) (i_compression s1) with
    | None =>
        Ret (- E_BAD_COMPRESSION, iset_reader s1 (i_reader s1) (z_first (i_rsize s1)) l1, w)
    | Some r =>
        let s2 := iset_reader s1 (Some r) (z_first (i_rsize s1)) l1 in
        if v <? 0 then Ret (- E_CORRUPT_PATCH, s2, w)
        else
          let g := i_seg s2 in
          let s3 := iset_seg (iset_to s2 0 (wrap v))
                      (mksegst 0 (g_from_offset g) (g_to_offset g) (g_to_size g) (g_to_pos g)) in
          if 0 <? v then
            letm (res1, step1, w1) :=
              shift_memory (i_step s3) w (i_memory_size s3) (i_from_size s3)
                           (i_segment_size s3) (i_shift_size s3) in
            let s4 := iset_step s3 step1 in
            if negb (res1 =? 0) then Ret (res1, s4, w1)
            else Ret (0, iset_st s4 SDfpatchSize, w1)
          else Ret (0, iset_st s3 SDone, w)
    end.

(** in_place_process_init, detools.c:1871-1906. *)
Definition ip_process_init (s : ip) (w : W) : outcome (Z * ip * W) :=
  match i_init s with
  | IFixed => letm (r, s1) := ip_init_fixed_header s in Ret (r, s1, w)
  | IMemory =>
      letm (r, s1) := ip_init_size s ISegment (fun s v =>
        iset_sizes s v (i_segment_size s) (i_shift_size s) (i_from_size s)) in
      Ret (r, s1, w)
  | ISegment =>
      letm (r, s1) := ip_init_size s IShift (fun s v =>
        iset_sizes s (i_memory_size s) v (i_shift_size s) (i_from_size s)) in
      Ret (r, s1, w)
  | IShift =>
      letm (r, s1) := ip_init_size s IFrom (fun s v =>
        iset_sizes s (i_memory_size s) (i_segment_size s) v (i_from_size s)) in
      Ret (r, s1, w)
  | IFrom =>
      letm (r, s1) := ip_init_size s ITo (fun s v =>
        iset_sizes s (i_memory_size s) (i_segment_size s) (i_shift_size s) v) in
      Ret (r, s1, w)
  | ITo => ip_init_to_size s w
  end.

(** in_place_process_dfpatch_size, detools.c:1908-1938. *)
Definition ip_process_dfpatch_size (s : ip) (w : W) : outcome (Z * ip * W) :=
  match i_reader s with
  | None => Undef
  | Some r =>
      letm (res, v, z1, r1, l1) := unpack_size (i_rsize s) r (i_left s) in
      let s1 := iset_reader s (Some r1) z1 l1 in
      if negb (res =? 0) then Ret (res, s1, w)
      else if 0 <? v then Ret (- E_NOT_IMPLEMENTED, s1, w)
      else
        let index := g_index (i_seg s1) in
        let to_offset := wrap (index * i_segment_size s1) in
        let to_size := Z.min (i_segment_size s1) (wrap (i_to_size s1 - to_offset)) in
        let g := mksegst (wrap (index + 1))
                   (to_int (Z.max (wrap (i_segment_size s1 * wrap (index + 1))) (i_shift_size s1)))
                   to_offset to_size 0 in
        let s2 := iset_seg (iset_st s1 SDiffSize) g in
        let '(res1, w1) := ip_mem_erase (i_step s2) w to_offset to_size in
        Ret (res1, s2, w1)
  end.

(** in_place_process_size, detools.c:1940-1959. *)
Definition ip_process_size (s : ip) (next : pstate) : outcome (Z * ip) :=
  match i_reader s with
  | None => Undef
  | Some r =>
      letm (res, v, z1, r1, l1) :=
        common_process_size (i_rsize s) r (i_left s) (i_to_pos s) (i_to_size s) in
      let s1 := iset_reader s (Some r1) z1 l1 in
      if negb (res =? 0) then Ret (res, s1)
      else Ret (0, iset_chunk_size (iset_st s1 next) (wrap v))
  end.

(** in_place_process_data, detools.c:1961-2017.  from_offset + (int)to_size is an
    [int] addition. *)
Definition ip_process_data (s : ip) (w : W) (next : pstate) : outcome (Z * ip * W) :=
  let n := Z.min 128 (i_chunk_size s) in
  if n =? 0 then Ret (0, iset_st s next, w)
  else
    match i_reader s with
    | None => Undef
    | Some r =>
        letm (res, out, r1, l1) := decompress r (i_left s) n in
        let s1 := iset_reader s (Some r1) (i_rsize s) l1 in
        if negb (res =? 0) then Ret (res, s1, w)
        else
          let m := zlen out in
          letm (io, data, s2, w2) :=
            (match next with
             | SExtraSize =>
                 let g := i_seg s1 in
                 let '(rr, from, w1) := ip_mem_read (i_step s1) w (wrap (g_from_offset g)) m in
                 if negb (rr =? 0) then Ret (true, out, s1, w1)
                 else
                   letm fo := int_add (g_from_offset g) (to_int m) in
                   letm d := add_data out from in
                   Ret (false, d,
                        iset_seg s1 (mksegst (g_index g) fo (g_to_offset g) (g_to_size g)
                                           (g_to_pos g)), w1)
             | _ => Ret (false, out, s1, w)
             end) in
          if (io : bool) then Ret (- E_IO_FAILED, s2, w2)
          else
            let g := i_seg s2 in
            let '(rw, w3) :=
              ip_mem_write (i_step s2) w2 (wrap (g_to_pos g + g_to_offset g)) data in
            if negb (rw =? 0) then Ret (- E_IO_FAILED, s2, w3)
            else
              Ret (0,
                   iset_chunk_size
                     (iset_seg (iset_to s2 (wrap (i_to_pos s2 + m)) (i_to_size s2))
                        (mksegst (g_index g) (g_from_offset g) (g_to_offset g) (g_to_size g)
                               (wrap (g_to_pos g + m))))
                     (wrap (i_chunk_size s2 - m)), w3)
    end.

(** in_place_process_adjustment, detools.c:2039-2062. *)
Definition ip_process_adjustment (s : ip) (w : W) : outcome (Z * ip * W) :=
  match i_reader s with
  | None => Undef
  | Some r =>
      letm (res, v, z1, r1, l1) := unpack_size (i_rsize s) r (i_left s) in
      let s1 := iset_reader s (Some r1) z1 l1 in
      if negb (res =? 0) then Ret (res, s1, w)
      else
        let g := i_seg s1 in
        if i_to_pos s1 =? i_to_size s1 then
          let '(res1, w1) := all_steps_completed w in
          Ret (res1, iset_st s1 SDone, w1)
        else if g_to_pos g =? g_to_size g then
          letm (res1, step1, w1) := next_step (i_step s1) w in
          Ret (res1, iset_st (iset_step s1 step1) SDfpatchSize, w1)
        else
          letm fo := int_add (g_from_offset g) v in
          Ret (0, iset_st (iset_seg s1 (mksegst (g_index g) fo (g_to_offset g) (g_to_size g)
                                              (g_to_pos g))) SDiffSize, w)
  end.

(** apply_patch_in_place_process_once, detools.c:2064-2116 (with the wrappers at
    2019-2037). *)
Definition ip_process_once (s : ip) (w : W) : outcome (Z * ip * W) :=
  letm (res, s1, w1) :=
    match i_state s with
    | SInit => ip_process_init s w
    | SDfpatchSize => ip_process_dfpatch_size s w
    | SDiffSize => letm (r, s1) := ip_process_size s SDiffData in Ret (r, s1, w)
    | SDiffData => ip_process_data s w SExtraSize
    | SExtraSize => letm (r, s1) := ip_process_size s SExtraData in Ret (r, s1, w)
    | SExtraData => ip_process_data s w SAdjustment
    | SAdjustment => ip_process_adjustment s w
    | SDone => Ret (- E_ALREADY_DONE, s, w)
    | SFailed => Ret (- E_ALREADY_FAILED, s, w)
    end in
  match i_state s with
  | SDone => Ret (res, s1, w1)              (* returns before the res < 0 test *)
  | _ => Ret (res, if res <? 0 then iset_st s1 SFailed else s1, w1)
  end.

(** The while loop of detools_apply_patch_in_place_process, detools.c:2155-2157. *)
Fixpoint ip_process_loop (fuel : nat) (res : Z) (s : ip) (w : W) : outcome (Z * ip * W) :=
  match i_left s with
  | [] => Ret (res, s, w)
  | _ =>
      if res <? 0 then Ret (res, s, w)
      else
        match fuel with
        | O => OutOfFuel
        | S f =>
            letm (r1, s1, w1) := ip_process_once s w in
            ip_process_loop f r1 s1 w1
        end
  end.

(** detools_apply_patch_in_place_process, detools.c:2143-2164. *)
Definition ip_process (fuel : nat) (s : ip) (w : W) (patch : list Z) : outcome (Z * ip * W) :=
  letm (res, s2, w2) := ip_process_loop fuel 0 (iset_chunk s patch) w in
  Ret (if (res =? 1) || (res =? - E_ALREADY_DONE) then 0 else res, s2, w2).

(** The do-while loop of detools_apply_patch_in_place_finalize,
    detools.c:2174-2176. *)
Fixpoint ip_finalize_loop (fuel : nat) (s : ip) (w : W) : outcome (Z * ip * W) :=
  match fuel with
  | O => OutOfFuel
  | S f =>
      letm (r1, s1, w1) := ip_process_once s w in
      if r1 =? 0 then ip_finalize_loop f s1 w1 else Ret (r1, s1, w1)
  end.

(** detools_apply_patch_in_place_finalize, detools.c:2166-2181. *)
Definition ip_finalize (fuel : nat) (s : ip) (w : W) : outcome (Z * ip * W) :=
  letm (res, s2, w2) := ip_finalize_loop fuel (iset_chunk s []) w in
  letm r := common_finalize res (i_reader s2) (i_to_size s2) in
  Ret (r, s2, w2).

(** detools_apply_patch_in_place_init, detools.c:2118-2141.  [junk] stands for
    the previous contents of the struct; only the listed fields are set. *)
Definition ip_init (junk : ip) (patch_size : Z) : ip :=
  mkip patch_size SInit IFixed (i_compression junk) 1 (i_to_pos junk) (i_to_size junk)
       (i_from_size junk) (i_memory_size junk) (i_segment_size junk) (i_shift_size junk)
       (i_chunk_size junk) (i_seg junk) None (i_rsize junk) (i_csize junk) (i_left junk)
       (i_size junk).

(** A user feeding the patch in the given pieces: process() each piece, stop at
    the first error, then finalize() (its result is used only if all process()
    calls succeeded), as documented in detools.h:521-547 and done by
    in_place_callbacks_process, detools.c:2247-2282. *)
Fixpoint ip_feed (fuel : nat) (s : ip) (w : W) (chunks : list (list Z))
  : outcome (Z * ip * W) :=
  match chunks with
  | [] => ip_finalize fuel s w
  | c :: cs =>
      letm (res, s1, w1) := ip_process fuel s w c in
      if res =? 0 then ip_feed fuel s1 w1 cs
      else
        letm (r2, s2, w2) := ip_finalize fuel s1 w1 in
        Ret (res, s2, w2)
  end.

(** One whole attempt at applying a patch: init, then [ip_feed]. *)
Definition ip_apply (fuel : nat) (junk : ip) (patch_size : Z) (w : W)
           (chunks : list (list Z)) : outcome (Z * ip * W) :=
  ip_feed fuel (ip_init junk patch_size) w chunks.

(** in_place_callbacks_process, detools.c:2247-2282. *)
Fixpoint ip_callbacks_loop (fuel : nat) (patch_read : W -> Z -> Z * list Z * W)
         (patch_size patch_offset : Z) (s : ip) (w : W) : outcome (Z * ip * W) :=
  if negb (patch_offset <? patch_size) then ip_finalize fuel s w
  else
    match fuel with
    | O => OutOfFuel
    | S f =>
        let n := Z.min (patch_size - patch_offset) 512 in
        let '(rr, buf, w1) := patch_read w n in
        if negb (rr =? 0) then
          letm (r2, s2, w2) := ip_finalize fuel s w1 in
          Ret (- E_IO_FAILED, s2, w2)
        else if negb (zlen buf =? n) then Undef
        else
          letm (res, s1, w2) := ip_process fuel s w1 buf in
          if res =? 0
          then ip_callbacks_loop f patch_read patch_size (patch_offset + n) s1 w2
          else
            letm (r2, s2, w3) := ip_finalize fuel s1 w2 in
            Ret (res, s2, w3)
    end.

(** detools_apply_patch_in_place_callbacks, detools.c:2284-2321. *)
Definition apply_patch_in_place_callbacks (fuel : nat) (junk : ip)
           (patch_read : W -> Z -> Z * list Z * W) (patch_size : Z) (w : W)
  : outcome (Z * ip * W) :=
  ip_callbacks_loop fuel patch_read patch_size 0 (ip_init junk patch_size) w.

End Machine.
