(** What the theorems about LZMA patches assume of liblzma, written independently
    of the code that uses it. *)

From Coq Require Import ZArith List Bool.
From Verif Require Import Prelude Spec CLzma.
Import ListNotations.
Open Scope Z_scope.

Section Spec.
Context {D : Type} (L : lzma_lib D).

(** The library keeps to the buffers it is given: it consumes no more than the
    input there is and writes at most [n] bytes. *)
Definition lib_ok : Prop := forall d input n ret k out d',
  input <> [] -> 0 < n -> lz_code L d input n = (ret, k, out, d') ->
  0 <= k <= zlen input /\ zlen out <= n /\ bytes_ok out.

(** One invariant of a decoder in the middle of a stream: [R d i o] is meant to say
    that a decoder in state [d] turns the rest [i] of its stream into [o].

    Given any non-empty part of what is left of the stream and any room, the decoder
    succeeds and writes the next bytes of [o].  It only leaves input alone when the
    room is used up, and not even then if it has written everything: it then goes on
    to the end of the stream (which is marked in the stream itself, the format in
    use does not tell the size beforehand).  The end of the stream comes after all
    the data, so a decoder that has seen the whole stream has written everything. *)
Definition decoder_invariant (R : D -> list Z -> list Z -> Prop) : Prop :=
  (forall d o, R d [] o -> o = []) /\
  forall d i o, R d i o -> forall given rest n, i = given ++ rest -> given <> [] -> 0 < n ->
    exists ret k out d' o',
      lz_code L d given n = (ret, k, out, d') /\ ret <> LzOther /\
      0 <= k <= zlen given /\ zlen out <= n /\ o = out ++ o' /\ R d' (zdrop k i) o' /\
      (zlen out < n -> k = zlen given) /\ (o' = [] -> k = zlen given).

(** A decoder in state [d] turns the stream [i] into [o], however it is called. *)
Definition decodes (d : D) (i o : list Z) : Prop :=
  exists R, decoder_invariant R /\ R d i o.

(** [stream] is an LZMA stream of [body]. *)
Definition lzma_stream (body stream : list Z) : Prop :=
  exists d, lz_start L = Some d /\ decodes d stream body.

(** The library does not make output out of nothing: there is a bound on what comes
    out per byte that goes in, up to what a decoder may have in store. *)
Definition bounded_output : Prop := exists (most : Z) (store : D -> Z),
  0 <= most /\ (forall d, 0 <= store d) /\
  forall d input n ret k out d', input <> [] -> 0 < n -> lz_code L d input n = (ret, k, out, d') ->
    zlen out + store d' <= store d + most * k.

(** All allocations succeed. *)
Definition enough_memory : Prop := forall k, lz_malloc L k = true.

End Spec.

(** ** Sequential patches with LZMA

    As [seq_patch] in Spec.v: [patch] is a sequential patch with the records [recs]
    for a library that can start a decoder. *)
Definition lzma_patch {D} (L : lzma_lib D) (recs : list prec) (patch : list Z) : Prop :=
  (recs = [] /\ patch = TYPE_SEQUENTIAL * 16 + 1 :: enc_size 0 /\ lz_start L <> None) \/
  (last_nonempty recs /\
   exists stream, lzma_stream L (enc_body recs) stream /\
     patch = TYPE_SEQUENTIAL * 16 + 1 :: enc_size (recs_size recs) ++ stream).

(** Nothing is left allocated once the reader was destroyed, or if there is none. *)
Definition nothing_allocated {D} (r : option (xreader (D := D))) : Prop :=
  match r with
  | None => True
  | Some (XFreed h) => h_live h = []
  | Some _ => False
  end.
