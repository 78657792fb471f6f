(** Model of the in-place patch applier of c/detools.c, lines 1525-2181 and
    2247-2321, in a library built with LZMA: the functions of CInPlace.v over the
    readers of CLzma.v.  What does not involve the reader is taken from CInPlace.v. *)

From Coq Require Import ZArith List Bool.
From Verif Require Import Prelude Heatshrink CReader CSeq CInPlace CLzma CSeqLzma.
Import ListNotations.
Open Scope Z_scope.

(** struct detools_apply_patch_in_place_t, detools.h:366-395: [y_ip] holds all the
    fields but the reader (its own field [i_reader] is not used), [y_reader] the
    reader. *)
Record xip (D : Type) := mkxip { y_ip : ip; y_reader : option (xreader (D := D)) }.
Arguments mkxip {D}.
Arguments y_ip {D}.
Arguments y_reader {D}.

Section Machine.
Context `{WordBits}.
Context {D : Type} (L : lzma_lib D).
Context {W : Type} (E : ip_env W).

(** Update of the fields next to the reader: patch_reader.size and the chunk. *)
Definition iset_size_left (s : ip) (z : size_st) (l : list Z) : ip := iset_reader s (i_reader s) z l.

(** in_place_process_init_to_size, detools.c:1825-1869. *)
Definition y_init_to_size (y : xip D) (w : W) : outcome (Z * xip D * W) :=
  let s := y_ip y in
  letm (res, v, z1, l1) := unpack_header_size (i_left s) (i_size s) in
  let s1 := iset_header s (i_init s) (i_compression s) z1 l1 in
  if negb (res =? 0) then Ret (res, mkxip s1 (y_reader y), w)
  else
    let s2 := iset_size_left s1 (z_first (i_rsize s1)) l1 in
    match xreader_init L (wrap (i_patch_size s1 - ichunk_offset s1)) (i_compression s1) with
    | (e, None) => Ret (e, mkxip s2 (y_reader y), w)
    | (_, Some r) =>
        if v <? 0 then Ret (- E_CORRUPT_PATCH, mkxip s2 (Some r), w)
        else
          let g := i_seg s2 in
          let s3 := iset_seg (iset_to s2 0 (wrap v))
                      (mksegst 0 (g_from_offset g) (g_to_offset g) (g_to_size g) (g_to_pos g)) in
          if 0 <? v then
            letm (res1, step1, w1) :=
              shift_memory E (i_step s3) w (i_memory_size s3) (i_from_size s3)
                           (i_segment_size s3) (i_shift_size s3) in
            let s4 := iset_step s3 step1 in
            if negb (res1 =? 0) then Ret (res1, mkxip s4 (Some r), w1)
            else Ret (0, mkxip (iset_st s4 SDfpatchSize) (Some r), w1)
          else Ret (0, mkxip (iset_st s3 SDone) (Some r), w)
    end.

(** in_place_process_init, detools.c:1871-1906; only the last field of the header
    involves the reader. *)
Definition y_init (y : xip D) (w : W) : outcome (Z * xip D * W) :=
  match i_init (y_ip y) with
  | ITo => y_init_to_size y w
  | _ => letm (res, s1, w1) := ip_process_init E (y_ip y) w in Ret (res, mkxip s1 (y_reader y), w1)
  end.

(** in_place_process_dfpatch_size, detools.c:1908-1938. *)
Definition y_dfpatch_size (y : xip D) (w : W) : outcome (Z * xip D * W) :=
  match y_reader y with
  | None => Undef
  | Some r =>
      let s := y_ip y in
      letm (res, v, z1, r1, l1) := xunpack_size L (i_rsize s) r (i_left s) in
      let s1 := iset_size_left s z1 l1 in
      if negb (res =? 0) then Ret (res, mkxip s1 (Some r1), w)
      else if 0 <? v then Ret (- E_NOT_IMPLEMENTED, mkxip s1 (Some r1), w)
      else
        let index := g_index (i_seg s1) in
        let to_offset := wrap (index * i_segment_size s1) in
        let to_size := Z.min (i_segment_size s1) (wrap (i_to_size s1 - to_offset)) in
        let g := mksegst (wrap (index + 1))
                   (to_int (Z.max (wrap (i_segment_size s1 * wrap (index + 1))) (i_shift_size s1)))
                   to_offset to_size 0 in
        let s2 := iset_seg (iset_st s1 SDiffSize) g in
        let '(res1, w1) := ip_mem_erase E (i_step s2) w to_offset to_size in
        Ret (res1, mkxip s2 (Some r1), w1)
  end.

(** in_place_process_size, detools.c:1940-1959. *)
Definition y_size (y : xip D) (next : pstate) : outcome (Z * xip D) :=
  match y_reader y with
  | None => Undef
  | Some r =>
      let s := y_ip y in
      letm (res, v, z1, r1, l1) :=
        xcommon_process_size L (i_rsize s) r (i_left s) (i_to_pos s) (i_to_size s) in
      let s1 := iset_size_left s z1 l1 in
      if negb (res =? 0) then Ret (res, mkxip s1 (Some r1))
      else Ret (0, mkxip (iset_chunk_size (iset_st s1 next) (wrap v)) (Some r1))
  end.

(** in_place_process_data, detools.c:1961-2017. *)
Definition y_data (y : xip D) (w : W) (next : pstate) : outcome (Z * xip D * W) :=
  let s := y_ip y in
  let n := Z.min 128 (i_chunk_size s) in
  if n =? 0 then Ret (0, mkxip (iset_st s next) (y_reader y), w)
  else
    match y_reader y with
    | None => Undef
    | Some r =>
        letm (res, out, r1, l1) := xdecompress L r (i_left s) n in
        let s1 := iset_size_left s (i_rsize s) l1 in
        if negb (res =? 0) then Ret (res, mkxip s1 (Some r1), w)
        else
          let m := zlen out in
          letm (io, data, s2, w2) :=
            (match next with
             | SExtraSize =>
                 let g := i_seg s1 in
                 let '(rr, from, w1) := ip_mem_read E (i_step s1) w (wrap (g_from_offset g)) m in
                 if negb (rr =? 0) then Ret (true, out, s1, w1)
                 else
                   letm fo := int_add (g_from_offset g) (to_int m) in
                   letm d := add_data out from in
                   Ret (false, d,
                        iset_seg s1 (mksegst (g_index g) fo (g_to_offset g) (g_to_size g)
                                           (g_to_pos g)), w1)
             | _ => Ret (false, out, s1, w)
             end) in
          if (io : bool) then Ret (- E_IO_FAILED, mkxip s2 (Some r1), w2)
          else
            let g := i_seg s2 in
            let '(rw, w3) :=
              ip_mem_write E (i_step s2) w2 (wrap (g_to_pos g + g_to_offset g)) data in
            if negb (rw =? 0) then Ret (- E_IO_FAILED, mkxip s2 (Some r1), w3)
            else
              Ret (0,
                   mkxip
                     (iset_chunk_size
                        (iset_seg (iset_to s2 (wrap (i_to_pos s2 + m)) (i_to_size s2))
                           (mksegst (g_index g) (g_from_offset g) (g_to_offset g) (g_to_size g)
                                  (wrap (g_to_pos g + m))))
                        (wrap (i_chunk_size s2 - m))) (Some r1), w3)
    end.

(** in_place_process_adjustment, detools.c:2039-2062. *)
Definition y_adjustment (y : xip D) (w : W) : outcome (Z * xip D * W) :=
  match y_reader y with
  | None => Undef
  | Some r =>
      let s := y_ip y in
      letm (res, v, z1, r1, l1) := xunpack_size L (i_rsize s) r (i_left s) in
      let s1 := iset_size_left s z1 l1 in
      if negb (res =? 0) then Ret (res, mkxip s1 (Some r1), w)
      else
        let g := i_seg s1 in
        if i_to_pos s1 =? i_to_size s1 then
          let '(res1, w1) := all_steps_completed E w in
          Ret (res1, mkxip (iset_st s1 SDone) (Some r1), w1)
        else if g_to_pos g =? g_to_size g then
          letm (res1, step1, w1) := next_step E (i_step s1) w in
          Ret (res1, mkxip (iset_st (iset_step s1 step1) SDfpatchSize) (Some r1), w1)
        else
          letm fo := int_add (g_from_offset g) v in
          Ret (0, mkxip (iset_st (iset_seg s1 (mksegst (g_index g) fo (g_to_offset g) (g_to_size g)
                                                     (g_to_pos g))) SDiffSize) (Some r1), w)
  end.

(** apply_patch_in_place_process_once, detools.c:2064-2116. *)
Definition y_once (y : xip D) (w : W) : outcome (Z * xip D * W) :=
  letm (res, y1, w1) :=
    match i_state (y_ip y) with
    | SInit => y_init y w
    | SDfpatchSize => y_dfpatch_size y w
    | SDiffSize => letm (r, y1) := y_size y SDiffData in Ret (r, y1, w)
    | SDiffData => y_data y w SExtraSize
    | SExtraSize => letm (r, y1) := y_size y SExtraData in Ret (r, y1, w)
    | SExtraData => y_data y w SAdjustment
    | SAdjustment => y_adjustment y w
    | SDone => Ret (- E_ALREADY_DONE, y, w)
    | SFailed => Ret (- E_ALREADY_FAILED, y, w)
    end in
  match i_state (y_ip y) with
  | SDone => Ret (res, y1, w1)
  | _ => Ret (res, if res <? 0 then mkxip (iset_st (y_ip y1) SFailed) (y_reader y1) else y1, w1)
  end.

(** The while loop of detools_apply_patch_in_place_process, detools.c:2155-2157. *)
Fixpoint y_process_loop (fuel : nat) (res : Z) (y : xip D) (w : W) : outcome (Z * xip D * W) :=
  match i_left (y_ip y) with
  | [] => Ret (res, y, w)
  | _ =>
      if res <? 0 then Ret (res, y, w)
      else
        match fuel with
        | O => OutOfFuel
        | S f => letm (r1, y1, w1) := y_once y w in y_process_loop f r1 y1 w1
        end
  end.

(** detools_apply_patch_in_place_process, detools.c:2143-2164. *)
Definition y_process (fuel : nat) (y : xip D) (w : W) (patch : list Z) : outcome (Z * xip D * W) :=
  letm (res, y2, w2) := y_process_loop fuel 0 (mkxip (iset_chunk (y_ip y) patch) (y_reader y)) w in
  Ret (if (res =? 1) || (res =? - E_ALREADY_DONE) then 0 else res, y2, w2).

(** The do-while loop of detools_apply_patch_in_place_finalize,
    detools.c:2174-2176. *)
Fixpoint y_finalize_loop (fuel : nat) (y : xip D) (w : W) : outcome (Z * xip D * W) :=
  match fuel with
  | O => OutOfFuel
  | S f =>
      letm (r1, y1, w1) := y_once y w in
      if r1 =? 0 then y_finalize_loop f y1 w1 else Ret (r1, y1, w1)
  end.

(** detools_apply_patch_in_place_finalize, detools.c:2166-2181. *)
Definition y_finalize (fuel : nat) (y : xip D) (w : W) : outcome (Z * xip D * W) :=
  letm (res, y2, w2) := y_finalize_loop fuel (mkxip (iset_chunk (y_ip y) []) (y_reader y)) w in
  letm (r, rd) := x_common_finalize res (y_reader y2) (i_to_size (y_ip y2)) in
  Ret (r, mkxip (y_ip y2) rd, w2).

(** detools_apply_patch_in_place_init, detools.c:2118-2141. *)
Definition xip_init (junk : ip) (patch_size : Z) : xip D := mkxip (ip_init junk patch_size) None.

(** The documented protocol, as [ip_feed] in CInPlace.v. *)
Fixpoint y_feed (fuel : nat) (y : xip D) (w : W) (chunks : list (list Z)) : outcome (Z * xip D * W) :=
  match chunks with
  | [] => y_finalize fuel y w
  | c :: cs =>
      letm (res, y1, w1) := y_process fuel y w c in
      if res =? 0 then y_feed fuel y1 w1 cs
      else
        letm (r2, y2, w2) := y_finalize fuel y1 w1 in
        Ret (res, y2, w2)
  end.

(** One whole attempt, as [ip_apply] in CInPlace.v. *)
Definition y_apply (fuel : nat) (junk : ip) (patch_size : Z) (w : W) (chunks : list (list Z))
  : outcome (Z * xip D * W) :=
  y_feed fuel (xip_init junk patch_size) w chunks.

(** in_place_callbacks_process, detools.c:2247-2282. *)
Fixpoint y_callbacks_loop (fuel : nat) (patch_read : W -> Z -> Z * list Z * W)
         (patch_size patch_offset : Z) (y : xip D) (w : W) : outcome (Z * xip D * W) :=
  if negb (patch_offset <? patch_size) then y_finalize fuel y w
  else
    match fuel with
    | O => OutOfFuel
    | S f =>
        let n := Z.min (patch_size - patch_offset) 512 in
        let '(rr, buf, w1) := patch_read w n in
        if negb (rr =? 0) then
          letm (r2, y2, w2) := y_finalize fuel y w1 in
          Ret (- E_IO_FAILED, y2, w2)
        else if negb (zlen buf =? n) then Undef
        else
          letm (res, y1, w2) := y_process fuel y w1 buf in
          if res =? 0
          then y_callbacks_loop f patch_read patch_size (patch_offset + n) y1 w2
          else
            letm (r2, y2, w3) := y_finalize fuel y1 w2 in
            Ret (res, y2, w3)
    end.

(** detools_apply_patch_in_place_callbacks, detools.c:2284-2321. *)
Definition y_apply_patch_in_place_callbacks (fuel : nat) (junk : ip)
           (patch_read : W -> Z -> Z * list Z * W) (patch_size : Z) (w : W)
  : outcome (Z * xip D * W) :=
  y_callbacks_loop fuel patch_read patch_size 0 (xip_init junk patch_size) w.

End Machine.
