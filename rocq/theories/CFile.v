(** Model of the file functions of c/detools.c, lines 2323-2689, and of
    detools_error_as_string, lines 2691-2783. *)

From Coq Require Import ZArith List Bool String.
From Verif Require Import Prelude Heatshrink CReader CSeq CInPlace.
Import ListNotations.
Open Scope Z_scope.

(** The functions of stdio.h used, over an arbitrary world [W].  File names and FILE
    pointers are numbers.  [fopen w name mode]: [None] is NULL.  [fread w f n] is
    fread(buf, n, 1, f): (number of elements read, buffer contents, world).
    [fwrite w f data] is fwrite(data, size, 1, f). *)
Inductive fmode := ReadBinary | WriteBinary | UpdateBinary.   (* "rb", "wb", "r+b" *)
Inductive whence := SeekSet | SeekCur | SeekEnd.

Record stdio (W : Type) := mkstdio {
  fopen : W -> Z -> fmode -> option Z * W;
  fseek : W -> Z -> Z -> whence -> Z * W;
  ftell : W -> Z -> Z * W;
  fread : W -> Z -> Z -> Z * list Z * W;
  fwrite : W -> Z -> list Z -> Z * W;
  fclose : W -> Z -> Z * W
}.
Arguments fopen {W}.
Arguments fseek {W}.
Arguments ftell {W}.
Arguments fread {W}.
Arguments fwrite {W}.
Arguments fclose {W}.

Definition E_FILE_OPEN_FAILED : Z := 12.
Definition E_FILE_CLOSE_FAILED : Z := 13.
Definition E_FILE_READ_FAILED : Z := 14.
Definition E_FILE_WRITE_FAILED : Z := 15.
Definition E_FILE_SEEK_FAILED : Z := 16.
Definition E_FILE_TELL_FAILED : Z := 17.

Section Files.
Context `{WordBits}.
Context {W : Type} (F : stdio W).

(** file_size, detools.c:2327-2354: (result, size, world). *)
Definition file_size (w : W) (f : Z) : Z * Z * W :=
  let '(r1, w1) := fseek F w f 0 SeekEnd in
  if negb (r1 =? 0) then (- E_FILE_SEEK_FAILED, 0, w1)
  else
    let '(size, w2) := ftell F w1 f in
    if size <=? 0 then (- E_FILE_TELL_FAILED, 0, w2)
    else
      let '(r3, w3) := fseek F w2 f 0 SeekSet in
      if negb (r3 =? 0) then (- E_FILE_SEEK_FAILED, wrap size, w3)
      else (0, wrap size, w3).

(** struct file_io_t, detools.c:2321-2325. *)
Record file_io := mkio { io_from : Z; io_patch : Z; io_to : Z }.

(** file_io_init, detools.c:2355-2410: the error, or the open files and the size of
    the patch. *)
Definition file_io_init (w : W) (from patch to : Z) : (Z + file_io * Z) * W :=
  match fopen F w from ReadBinary with
  | (None, w1) => (inl (- E_FILE_OPEN_FAILED), w1)
  | (Some ffrom, w1) =>
      match fopen F w1 to WriteBinary with
      | (None, w2) =>
          let '(_, w3) := fclose F w2 ffrom in (inl (- E_FILE_OPEN_FAILED), w3)
      | (Some fto, w2) =>
          match fopen F w2 patch ReadBinary with
          | (None, w3) =>
              let '(_, w4) := fclose F w3 fto in
              let '(_, w5) := fclose F w4 ffrom in
              (inl (- E_FILE_OPEN_FAILED), w5)
          | (Some fpatch, w3) =>
              let '(res, size, w4) := file_size w3 fpatch in
              if negb (res =? 0) then
                let '(_, w5) := fclose F w4 fpatch in
                let '(_, w6) := fclose F w5 fto in
                let '(_, w7) := fclose F w6 ffrom in
                (inl res, w7)
              else (inr (mkio ffrom fpatch fto, size), w4)
          end
      end
  end.

(** file_io_cleanup, detools.c:2412-2427. *)
Definition file_io_cleanup (w : W) (io : file_io) : Z * W :=
  let '(r1, w1) := fclose F w (io_from io) in
  let '(r2, w2) := fclose F w1 (io_to io) in
  let '(r3, w3) := fclose F w2 (io_patch io) in
  (if negb (r1 =? 0) || negb (r2 =? 0) || negb (r3 =? 0) then - E_FILE_CLOSE_FAILED else r1, w3).

(** file_io_read, detools.c:2429-2442. *)
Definition file_io_read (f : Z) (w : W) (n : Z) : Z * list Z * W :=
  if 0 <? n then
    let '(k, data, w1) := fread F w f n in
    (if k =? 1 then 0 else - E_FILE_READ_FAILED, data, w1)
  else (0, [], w).

(** file_io_from_seek, detools.c:2453-2460. *)
Definition file_io_from_seek (f : Z) (w : W) (offset : Z) : Z * W := fseek F w f offset SeekCur.

(** file_io_to_write, detools.c:2471-2486. *)
Definition file_io_to_write (f : Z) (w : W) (data : list Z) : Z * W :=
  if 0 <? zlen data then
    let '(k, w1) := fwrite F w f data in
    (if k =? 1 then 0 else - E_FILE_WRITE_FAILED, w1)
  else (0, w).

(** The callbacks passed at detools.c:2506-2511. *)
Definition file_io_env (io : file_io) : seq_env W :=
  mkenv W (file_io_read (io_from io)) (file_io_from_seek (io_from io)) (file_io_to_write (io_to io)).

(** detools_apply_patch_filenames, detools.c:2488-2523: [junk] are the initial
    contents of the local struct of detools_apply_patch_callbacks. *)
Definition apply_patch_filenames (fuel : nat) (junk : ap) (w : W) (from patch to : Z) : outcome (Z * W) :=
  match file_io_init w from patch to with
  | (inl res, w1) => Ret (res, w1)
  | (inr (io, size), w1) =>
      letm (res, s, w2) := apply_patch_callbacks (file_io_env io) fuel junk (file_io_read (io_patch io)) size w1 in
      let '(closed, w3) := file_io_cleanup w2 io in
      if negb (res =? 0) then Ret (res, w3) else Ret (closed, w3)
  end.

(** struct in_place_file_io_t, detools.c:2525-2528. *)
Record in_place_file_io := mkipio { ip_memory : Z; ip_patch_file : Z }.

(** in_place_file_io_init, detools.c:2530-2572. *)
Definition in_place_file_io_init (w : W) (memory patch : Z) : (Z + in_place_file_io * Z) * W :=
  match fopen F w memory UpdateBinary with
  | (None, w1) => (inl (- E_FILE_OPEN_FAILED), w1)
  | (Some fmemory, w1) =>
      match fopen F w1 patch ReadBinary with
      | (None, w2) =>
          let '(_, w3) := fclose F w2 fmemory in (inl (- E_FILE_OPEN_FAILED), w3)
      | (Some fpatch, w2) =>
          let '(res, size, w3) := file_size w2 fpatch in
          if negb (res =? 0) then
            let '(_, w4) := fclose F w3 fpatch in
            let '(_, w5) := fclose F w4 fmemory in
            (inl res, w5)
          else (inr (mkipio fmemory fpatch, size), w3)
      end
  end.

(** in_place_file_io_mem_read, detools.c:2574-2598. *)
Definition in_place_file_io_mem_read (f : Z) (w : W) (src n : Z) : Z * list Z * W :=
  if 0 <? n then
    let '(r, w1) := fseek F w f (to_int src) SeekSet in
    if negb (r =? 0) then (- E_FILE_SEEK_FAILED, [], w1)
    else
      let '(k, data, w2) := fread F w1 f n in
      (if k =? 1 then 0 else - E_FILE_READ_FAILED, data, w2)
  else (0, [], w).

(** in_place_file_io_mem_write, detools.c:2600-2624. *)
Definition in_place_file_io_mem_write (f : Z) (w : W) (dst : Z) (data : list Z) : Z * W :=
  if 0 <? zlen data then
    let '(r, w1) := fseek F w f (to_int dst) SeekSet in
    if negb (r =? 0) then (- E_FILE_SEEK_FAILED, w1)
    else
      let '(k, w2) := fwrite F w1 f data in
      (if k =? 1 then 0 else - E_FILE_WRITE_FAILED, w2)
  else (0, w).

(** in_place_file_io_mem_erase, detools.c:2626-2633. *)
Definition in_place_file_io_mem_erase (w : W) (addr n : Z) : Z * W := (0, w).

(** in_place_file_io_cleanup, detools.c:2635-2648. *)
Definition in_place_file_io_cleanup (w : W) (io : in_place_file_io) : Z * W :=
  let '(r1, w1) := fclose F w (ip_memory io) in
  let '(r2, w2) := fclose F w1 (ip_patch_file io) in
  (if negb (r1 =? 0) || negb (r2 =? 0) then - E_FILE_CLOSE_FAILED else r1, w2).

(** The callbacks passed at detools.c:2668-2675; the step callbacks are the user's. *)
Definition in_place_file_io_env (io : in_place_file_io) (sset : option (W -> Z -> Z * W)) (sget : option (W -> Z * Z * W)) : ip_env W :=
  mkipenv W (in_place_file_io_mem_read (ip_memory io)) (in_place_file_io_mem_write (ip_memory io))
          in_place_file_io_mem_erase sset sget.

(** detools_apply_patch_in_place_filenames, detools.c:2650-2687.  It passes
    file_io_patch_read, which takes its argument for a struct file_io_t although it
    is a struct in_place_file_io_t; the patch file is the second member of both. *)
Definition apply_patch_in_place_filenames (fuel : nat) (junk : ip) (w : W) (memory patch : Z)
           (sset : option (W -> Z -> Z * W)) (sget : option (W -> Z * Z * W)) : outcome (Z * W) :=
  match in_place_file_io_init w memory patch with
  | (inl res, w1) => Ret (res, w1)
  | (inr (io, size), w1) =>
      letm (res, s, w2) := apply_patch_in_place_callbacks (in_place_file_io_env io sset sget) fuel junk
                             (file_io_read (ip_patch_file io)) size w1 in
      let '(closed, w3) := in_place_file_io_cleanup w2 io in
      if negb (res =? 0) then Ret (res, w3) else Ret (closed, w3)
  end.

End Files.

(** detools_error_as_string, detools.c:2691-2783; the codes are those of
    detools.h:66-93.  Negating INT_MIN is undefined. *)
Definition error_as_string (error : Z) : outcome string :=
  letm e := (if error <? 0 then (if in_int (- error) then Ret (- error) else Undef) else Ret error) in
  Ret (match e with
       | 1 => "Function not implemented."
       | 2 => "Not done."
       | 3 => "Bad patch type."
       | 4 => "Bad compression."
       | 5 => "Internal error."
       | 6 => "LZMA init."
       | 7 => "LZMA decode."
       | 8 => "Out of memory."
       | 9 => "Corrupt patch."
       | 10 => "Input/output failed."
       | 11 => "Already done."
       | 12 => "File open failed."
       | 13 => "File close failed."
       | 14 => "File read failed."
       | 15 => "File write failed."
       | 16 => "File seek failed."
       | 17 => "File tell failed."
       | 18 => "Short header."
       | 19 => "Not enough patch data."
       | 20 => "Heatshrink sink."
       | 21 => "Heatshrink poll."
       | 22 => "Step set failed."
       | 23 => "Step get failed."
       | 24 => "Already failed."
       | 25 => "Corrupt patch, overflow."
       | 26 => "Corrupt patch, CRLE kind."
       | 27 => "Heatshrink header."
       | _ => "Unknown error."
       end)%string.
