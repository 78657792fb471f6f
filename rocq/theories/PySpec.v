(** Specification of what the Python apply functions are proved to do. *)

From Coq Require Import ZArith List Bool.
From Verif Require Import Prelude Spec PyCreate PyApply.
From Verif Require InPlaceSpec.
Import ListNotations.
Open Scope Z_scope.

(** A sequence of crle segments without any content: empty segments, and possibly
    the header of a scattered segment whose bytes are all missing at the end. *)
Inductive crle_void : list Z -> Prop :=
| void_nil : crle_void []
| void_scattered : forall l rest, dec_usize l = Some (0, rest) -> crle_void rest -> crle_void (0 :: l)
| void_repeated : forall l v rest, dec_usize l = Some (0, v :: rest) -> crle_void rest -> crle_void (1 :: l)
| void_missing : forall l n, dec_usize l = Some (n, []) -> crle_void (0 :: l).

(** ** Decompressors *)

(** One call of decompress on [data], with [rest] remaining in the file: it raises
    and nothing more will be delivered, or delivers a beginning of [out].  With
    [progress] it delivers at least one byte, or it asks for input or reports the end
    from then on. *)
Definition delivers (D : decompressor) (R : dstate D -> list Z -> list Z -> Prop) (d : dstate D)
           (data rest out : list Z) (n : Z) (progress : bool) : Prop :=
  (out = [] /\ d_decompress D d data n = Ret None) \/
  exists o out1 d1, d_decompress D d data n = Ret (Some (o, d1)) /\ R d1 rest out1 /\ out = o ++ out1 /\
    zlen o <= n /\ (progress = true -> o <> [] \/ d_needs_input D d1 = true \/ d_eof D d1 = true).

(** [R d file out]: with [file] still to be read, the decompressor in state [d] will
    deliver [out] and then raise or report the end. *)
Definition contract (D : decompressor) (R : dstate D -> list Z -> list Z -> Prop) : Prop :=
  forall d file out, R d file out ->
  if d_eof D d then out = []
  else if d_needs_input D d then
    match file with
    | [] => out = []
    | _ => forall n, 0 < n -> delivers D R d (ztake 4096 file) (zdrop 4096 file) out n false
    end
  else forall n, 0 < n -> delivers D R d [] file out n true.

(** The end is reported once everything has been delivered. *)
Definition ends (D : decompressor) (R : dstate D -> list Z -> list Z -> Prop) : Prop :=
  forall d file, R d file [] -> d_eof D d = true.

(** [decodes D body stream]: however it is called, the decompressor turns [stream]
    into [body] and then reports the end. *)
Definition decodes (D : decompressor) (body stream : list Z) : Prop :=
  exists R, contract D R /\ ends D R /\ R (d_init D (zlen stream)) stream body.

(** The decoder of the heatshrink2 package, as far as detools relies on it: whatever
    the pieces given to fill(), what fill() and finish() return adds up to the
    expansion of the tokens, and all of it has been returned only once the last
    byte, which holds at least one bit of the last token, has been seen. *)
Definition hs_reader_ok (H : hs_reader) : Prop :=
  exists Q : hsr_state H -> list Z -> list Z -> Prop,
    (forall st data rest out, Q st (data ++ rest) out ->
       exists o out1 st1, hsr_fill H st data = Some (o, st1) /\ out = o ++ out1 /\ Q st1 rest out1) /\
    (forall st out, Q st [] out -> hsr_finish H st = Some out) /\
    (forall st rest, Q st rest [] -> rest = []) /\
    (forall wb lb ts pad bytes, 4 <= wb < 16 -> 3 <= lb < 16 -> Forall (token_ok wb lb) ts -> bytes_ok bytes -> (length pad < 8)%nat ->
       bytes_bits bytes = enc_tokens wb lb ts ++ pad -> Q (hsr_open H wb lb) bytes (tokens_expand [] ts)).

(** Like [compressed] of Spec.v, without the limits of the C reader. *)
Inductive py_stream : comp -> list Z -> list Z -> Prop :=
| py_none : forall body, py_stream CompNone body body
| py_crle : forall segs, Forall (fun s => 1 <= seg_len s < 2 ^ 63) segs ->
    py_stream CompCrle (segs_expand segs) (enc_segs segs)
| py_heatshrink : forall wb lb ts pad bytes, 4 <= wb < 16 -> 3 <= lb < 16 -> Forall (token_ok wb lb) ts -> bytes_ok bytes ->
    (length pad < 8)%nat -> bytes_bits bytes = enc_tokens wb lb ts ++ pad ->
    py_stream CompHeatshrink (tokens_expand [] ts) ((wb - 4) * 16 + (lb - 3) :: bytes).

(** A sequential patch whose records are [recs]. *)
Definition py_patch (c : comp) (recs : list prec) (patch : list Z) : Prop :=
  (recs = [] /\ patch = header_byte TYPE_SEQUENTIAL c :: enc_size 0) \/
  (last_nonempty recs /\
   exists stream, py_stream c (enc_body recs) stream /\
     patch = header_byte TYPE_SEQUENTIAL c :: enc_size (recs_size recs) ++ stream).

(** Everything fits in the size fields. *)
Definition recs_fit (recs : list prec) : Prop :=
  recs_size recs < 2 ^ 63 /\ Forall (fun r => - 2 ^ 63 < r_adj r < 2 ^ 63) recs.

(** An in-place patch for the given sizes whose segments are [segs]; like
    [in_place_patch] of InPlaceSpec.v, without the limits of the C reader. *)
Definition py_in_place_patch (c : comp) (memory segment shift from_size to_size : Z)
           (segs : list (list prec)) (patch : list Z) : Prop :=
  InPlaceSpec.segments_ok segment segs to_size /\
  exists stream,
    patch = InPlaceSpec.in_place_header c memory segment shift from_size to_size ++ stream /\
    ((segs = [] /\ stream = []) \/ (segs <> [] /\ py_stream c (InPlaceSpec.enc_segments segs) stream)).

(** Sizes an in-place update works with: the shift does not exceed the memory, the
    to data fits. *)
Definition py_sizes_ok (memory segment shift from_size to_size : Z) : Prop :=
  0 < segment < 2 ^ 63 /\ 0 <= shift <= memory /\ 0 <= to_size <= memory /\ memory < 2 ^ 63 /\ 0 <= from_size < 2 ^ 63.
