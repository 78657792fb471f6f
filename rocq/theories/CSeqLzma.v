(** Model of the sequential patch applier of c/detools.c, lines 1091-1523 and
    2187-2245, in a library built with LZMA: the functions of CSeq.v over the
    readers of CLzma.v.  What does not involve the reader is taken from CSeq.v. *)

From Coq Require Import ZArith List Bool.
From Verif Require Import Prelude Heatshrink CReader CSeq CLzma.
Import ListNotations.
Open Scope Z_scope.

(** struct detools_apply_patch_t, detools.h:335-352: [x_ap] holds all the fields
    but the reader (its own field [a_reader] is not used), [x_reader] the reader. *)
Record xap (D : Type) := mkxap { x_ap : ap; x_reader : option (xreader (D := D)) }.
Arguments mkxap {D}.
Arguments x_ap {D}.
Arguments x_reader {D}.

Section Machine.
Context `{WordBits}.
Context {D : Type} (L : lzma_lib D).
Context {W : Type} (E : seq_env W).

(** Update of the fields next to the reader: patch_reader.size and the chunk. *)
Definition set_size_left (s : ap) (z : size_st) (l : list Z) : ap := set_reader s (a_reader s) z l.

(** process_init_to_size, detools.c:1117-1150. *)
Definition x_init_to_size (x : xap D) : outcome (Z * xap D) :=
  let s := x_ap x in
  letm (res, v, z1, l1) := unpack_header_size (a_left s) (a_size s) in
  let s1 := set_header s (a_to_init s) (a_compression s) z1 l1 in
  if negb (res =? 0) then Ret (res, mkxap s1 (x_reader x))
  else
    let s2 := set_size_left s1
                (mksz false (z_value (a_rsize s1)) (z_offset (a_rsize s1))
                      (z_signed (a_rsize s1))) l1 in
    match xreader_init L (wrap (a_patch_size s1 - chunk_offset s1)) (a_compression s1) with
    | (e, None) => Ret (e, mkxap s2 (x_reader x))
    | (_, Some r) =>
        if v <? 0 then Ret (- E_CORRUPT_PATCH, mkxap s2 (Some r))
        else
          let s3 := set_to_size s2 (wrap v) in
          Ret (0, mkxap (set_st s3 (if 0 <? v then SDfpatchSize else SDone)) (Some r))
    end.

(** process_init, detools.c:1152-1172. *)
Definition x_init (x : xap D) : outcome (Z * xap D) :=
  if a_to_init (x_ap x) then x_init_to_size x
  else letm (res, s) := process_init_fixed_header (x_ap x) in Ret (res, mkxap s (x_reader x)).

(** process_dfpatch_size, detools.c:1174-1192. *)
Definition x_dfpatch_size (x : xap D) : outcome (Z * xap D) :=
  match x_reader x with
  | None => Undef
  | Some r =>
      let s := x_ap x in
      letm (res, v, z1, r1, l1) := xunpack_size L (a_rsize s) r (a_left s) in
      let s1 := set_size_left s z1 l1 in
      if negb (res =? 0) then Ret (res, mkxap s1 (Some r1))
      else if 0 <? v then Ret (- E_NOT_IMPLEMENTED, mkxap s1 (Some r1))
      else Ret (0, mkxap (set_st s1 SDiffSize) (Some r1))
  end.

(** process_size, detools.c:1194-1213. *)
Definition x_size (x : xap D) (next : pstate) : outcome (Z * xap D) :=
  match x_reader x with
  | None => Undef
  | Some r =>
      let s := x_ap x in
      letm (res, v, z1, r1, l1) :=
        xcommon_process_size L (a_rsize s) r (a_left s) (a_to_offset s) (a_to_size s) in
      let s1 := set_size_left s z1 l1 in
      if negb (res =? 0) then Ret (res, mkxap s1 (Some r1))
      else Ret (0, mkxap (set_chunk_size (set_st s1 next) (wrap v)) (Some r1))
  end.

(** process_data, detools.c:1215-1264. *)
Definition x_data (x : xap D) (w : W) (next : pstate) : outcome (Z * xap D * W) :=
  let s := x_ap x in
  let n := Z.min 128 (a_chunk_size s) in
  if n =? 0 then Ret (0, mkxap (set_st s next) (x_reader x), w)
  else
    match x_reader x with
    | None => Undef
    | Some r =>
        letm (res, out, r1, l1) := xdecompress L r (a_left s) n in
        let s1 := set_size_left s (a_rsize s) l1 in
        if negb (res =? 0) then Ret (res, mkxap s1 (Some r1), w)
        else
          let m := zlen out in
          letm (io, data, s2, w2) :=
            (match next with
             | SExtraSize =>
                 let '(rr, from, w1) := from_read E w m in
                 if negb (rr =? 0) then Ret (true, out, s1, w1)
                 else
                   letm d := add_data out from in
                   Ret (false, d,
                        set_from_offset s1 (to_int (a_from_offset s1 + m)), w1)
             | _ => Ret (false, out, s1, w)
             end) in
          if (io : bool) then Ret (- E_IO_FAILED, mkxap s2 (Some r1), w2)
          else
            let s3 := set_chunk_size
                        (set_to_offset s2 (wrap (a_to_offset s2 + m)))
                        (wrap (a_chunk_size s2 - m)) in
            let '(rw, w3) := to_write E w2 data in
            if negb (rw =? 0) then Ret (- E_IO_FAILED, mkxap s3 (Some r1), w3)
            else Ret (0, mkxap s3 (Some r1), w3)
    end.

(** process_adjustment, detools.c:1286-1312. *)
Definition x_adjustment (x : xap D) (w : W) : outcome (Z * xap D * W) :=
  match x_reader x with
  | None => Undef
  | Some r =>
      let s := x_ap x in
      letm (res, v, z1, r1, l1) := xunpack_size L (a_rsize s) r (a_left s) in
      let s1 := set_size_left s z1 l1 in
      if negb (res =? 0) then Ret (res, mkxap s1 (Some r1), w)
      else
        let '(rs, w1) := from_seek E w v in
        if negb (rs =? 0) then Ret (- E_IO_FAILED, mkxap s1 (Some r1), w1)
        else
          letm fo := int_add (a_from_offset s1) v in
          let s2 := set_from_offset s1 fo in
          Ret (0, mkxap (set_st s2 (if a_to_offset s2 =? a_to_size s2 then SDone else SDiffSize))
                        (Some r1), w1)
  end.

(** apply_patch_process_once, detools.c:1314-1365. *)
Definition x_once (x : xap D) (w : W) : outcome (Z * xap D * W) :=
  letm (res, x1, w1) :=
    match a_state (x_ap x) with
    | SInit => letm (r, x1) := x_init x in Ret (r, x1, w)
    | SDfpatchSize => letm (r, x1) := x_dfpatch_size x in Ret (r, x1, w)
    | SDiffSize => letm (r, x1) := x_size x SDiffData in Ret (r, x1, w)
    | SDiffData => x_data x w SExtraSize
    | SExtraSize => letm (r, x1) := x_size x SExtraData in Ret (r, x1, w)
    | SExtraData => x_data x w SAdjustment
    | SAdjustment => x_adjustment x w
    | SDone => Ret (- E_ALREADY_DONE, x, w)
    | SFailed => Ret (- E_ALREADY_FAILED, x, w)
    end in
  match a_state (x_ap x) with
  | SDone => Ret (res, x1, w1)
  | _ => Ret (res, if res <? 0 then mkxap (set_st (x_ap x1) SFailed) (x_reader x1) else x1, w1)
  end.

(** The while loop of detools_apply_patch_process, detools.c:1498-1500. *)
Fixpoint x_process_loop (fuel : nat) (res : Z) (x : xap D) (w : W) : outcome (Z * xap D * W) :=
  match a_left (x_ap x) with
  | [] => Ret (res, x, w)
  | _ =>
      if res <? 0 then Ret (res, x, w)
      else
        match fuel with
        | O => OutOfFuel
        | S f => letm (r1, x1, w1) := x_once x w in x_process_loop f r1 x1 w1
        end
  end.

(** detools_apply_patch_process, detools.c:1486-1507. *)
Definition x_process (fuel : nat) (x : xap D) (w : W) (patch : list Z) : outcome (Z * xap D * W) :=
  let s := x_ap x in
  let s1 := set_chunk (set_patch_offset s (wrap (a_patch_offset s + zlen patch))) patch in
  letm (res, x2, w2) := x_process_loop fuel 0 (mkxap s1 (x_reader x)) w in
  Ret (if (res =? 1) || (res =? - E_ALREADY_DONE) then 0 else res, x2, w2).

(** The do-while loop of detools_apply_patch_finalize, detools.c:1516-1518. *)
Fixpoint x_finalize_loop (fuel : nat) (x : xap D) (w : W) : outcome (Z * xap D * W) :=
  match fuel with
  | O => OutOfFuel
  | S f =>
      letm (r1, x1, w1) := x_once x w in
      if r1 =? 0 then x_finalize_loop f x1 w1 else Ret (r1, x1, w1)
  end.

(** apply_patch_common_finalize, detools.c:1367-1393; also gives the reader after
    it was destroyed. *)
Definition x_common_finalize (res : Z) (r : option xreader) (to_size : Z)
  : outcome (Z * option (xreader (D := D))) :=
  let res1 := if res =? 1 then - E_NOT_ENOUGH_PATCH_DATA else res in
  let res2 := if res1 =? - E_ALREADY_DONE then 0 else res1 in
  letm (res3, r1) :=
    match r with
    | None => Ret (res2, None)
    | Some r => letm (d, r1) := xdestroy r in Ret (if res2 =? 0 then d else res2, Some r1)
    end in
  Ret (if res3 =? 0 then to_int to_size else res3, r1).

(** detools_apply_patch_finalize, detools.c:1509-1523. *)
Definition x_finalize (fuel : nat) (x : xap D) (w : W) : outcome (Z * xap D * W) :=
  letm (res, x2, w2) := x_finalize_loop fuel (mkxap (set_chunk (x_ap x) []) (x_reader x)) w in
  letm (r, rd) := x_common_finalize res (x_reader x2) (a_to_size (x_ap x2)) in
  Ret (r, mkxap (x_ap x2) rd, w2).

(** detools_apply_patch_init, detools.c:1395-1415. *)
Definition xap_init (junk : ap) (patch_size : Z) : xap D := mkxap (ap_init junk patch_size) None.

(** The documented protocol, as [feed] in CSeq.v. *)
Fixpoint x_feed (fuel : nat) (x : xap D) (w : W) (chunks : list (list Z)) : outcome (Z * xap D * W) :=
  match chunks with
  | [] => x_finalize fuel x w
  | c :: cs =>
      letm (res, x1, w1) := x_process fuel x w c in
      if res =? 0 then x_feed fuel x1 w1 cs
      else
        letm (r2, x2, w2) := x_finalize fuel x1 w1 in
        Ret (res, x2, w2)
  end.

(** callbacks_process, detools.c:2187-2221. *)
Fixpoint x_callbacks_loop (fuel : nat) (patch_read : W -> Z -> Z * list Z * W)
         (patch_size patch_offset : Z) (x : xap D) (w : W) : outcome (Z * xap D * W) :=
  if negb (patch_offset <? patch_size) then x_finalize fuel x w
  else
    match fuel with
    | O => OutOfFuel
    | S f =>
        let n := Z.min (patch_size - patch_offset) 512 in
        let '(rr, buf, w1) := patch_read w n in
        if negb (rr =? 0) then
          letm (r2, x2, w2) := x_finalize fuel x w1 in
          Ret (- E_IO_FAILED, x2, w2)
        else if negb (zlen buf =? n) then Undef
        else
          letm (res, x1, w2) := x_process fuel x w1 buf in
          if res =? 0
          then x_callbacks_loop f patch_read patch_size (patch_offset + n) x1 w2
          else
            letm (r2, x2, w3) := x_finalize fuel x1 w2 in
            Ret (res, x2, w3)
    end.

(** detools_apply_patch_callbacks, detools.c:2223-2245. *)
Definition x_apply_patch_callbacks (fuel : nat) (junk : ap)
           (patch_read : W -> Z -> Z * list Z * W) (patch_size : Z) (w : W)
  : outcome (Z * xap D * W) :=
  x_callbacks_loop fuel patch_read patch_size 0 (xap_init junk patch_size) w.

End Machine.

(** The whole protocol on files, as [c_apply] in CSeq.v. *)
Definition x_apply `{WordBits} {D} (L : lzma_lib D) (fuel : nat) (junk : ap) (patch_size : Z)
           (from : list Z) (chunks : list (list Z)) : outcome (Z * xap D * files) :=
  x_feed L file_env fuel (xap_init junk patch_size) (mkfiles from 0 []) chunks.
