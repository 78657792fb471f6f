(** What is asked of the compressions that come from other packages. *)

From Coq Require Import ZArith List Bool.
From Verif Require Import Prelude PyApply PySpec PyOther.
Import ListNotations.
Open Scope Z_scope.

(** [decodes_late D body stream]: however it is called, the decompressor turns
    [stream] into [body]; once all of the stream has been read and all of the body
    delivered, it reports the end. ([decodes] asks for the end to be reported as soon
    as all of the body has been delivered, even if some of the stream has not been
    read yet.)  A new one asks for input. *)
Definition decodes_late (D : decompressor) (body stream : list Z) : Prop :=
  (stream <> [] -> d_eof D (d_init D (zlen stream)) = false /\ d_needs_input D (d_init D (zlen stream)) = true) /\
  exists R, contract D R /\ (forall d, R d [] [] -> d_eof D d = true) /\ R (d_init D (zlen stream)) stream body.

(** The compressor and the decompressor of a package belong together. *)
Definition pair_ok (compress : list (list Z) -> option (list Z)) (D : decompressor) : Prop :=
  forall pieces, bytes_ok (concat pieces) -> concat pieces <> [] -> exists stream, compress pieces = Some stream /\ decodes D (concat pieces) stream.

Definition pair_late (compress : list (list Z) -> option (list Z)) (D : decompressor) : Prop :=
  forall pieces, bytes_ok (concat pieces) -> concat pieces <> [] -> exists stream, compress pieces = Some stream /\ decodes_late D (concat pieces) stream.

(** The numbers of the other packages' compressions. *)
Definition other_number (number : Z) : Prop := number = 1 \/ number = 3 \/ number = 5 \/ number = 6.

(** The package zstandard, as far as detools relies on it: whatever the pieces of what
    compress() returned, writing them appends the data, and after the last one all
    of it. *)
Definition zstd_ok (L : zstd_lib) : Prop :=
  exists Q : zs_state L -> list Z -> list Z -> Prop,
    (forall st data rest out, Q st (data ++ rest) out ->
       exists o out1 st1, zs_write L st data = Some (o, st1) /\ out = o ++ out1 /\ Q st1 rest out1) /\
    (forall st out, Q st [] out -> out = []) /\
    (forall body, bytes_ok body -> body <> [] -> Q (zs_open L) (zs_compress L body) body).

(** In addition, the last byte of the stream is needed for the last byte of the
    data. *)
Definition zstd_prompt (L : zstd_lib) : Prop :=
  exists Q : zs_state L -> list Z -> list Z -> Prop,
    (forall st data rest out, Q st (data ++ rest) out ->
       exists o out1 st1, zs_write L st data = Some (o, st1) /\ out = o ++ out1 /\ Q st1 rest out1) /\
    (forall st out, Q st [] out -> out = []) /\
    (forall st rest, Q st rest [] -> rest = []) /\
    (forall body, bytes_ok body -> body <> [] -> Q (zs_open L) (zs_compress L body) body).

(** The stream writer appends nothing if it is given nothing. *)
Definition zstd_quiet (L : zstd_lib) : Prop := forall st, zs_write L st [] = Some ([], st).

(** The parts of an lz4 frame in their order: what begin() returned, what compress()
    returned for each piece, what flush() returned. *)
Fixpoint lz4_outputs (L : lz4_lib) (st : l4_state L) (pieces : list (list Z)) : list (list Z) :=
  match pieces with
  | [] => [l4_flush L st]
  | data :: rest => fst (l4_compress L st data) :: lz4_outputs L (snd (l4_compress L st data)) rest
  end.
