(** Schedules of input and requests for the patch readers, and of sink and poll
    calls for the heatshrink decoder. *)

From Coq Require Import ZArith List Bool.
From Verif Require Import Prelude Heatshrink CReader.
Import ListNotations.
Open Scope Z_scope.

(** What happens to a patch reader: input arrives, or the applier asks for up to
    [n] decompressed bytes. *)
Inductive event :=
| Arrive (piece : list Z)
| Ask (n : Z).

(** All the input that arrives in a schedule. *)
Fixpoint arrived (es : list event) : list Z :=
  match es with
  | [] => []
  | Arrive l :: es => l ++ arrived es
  | Ask _ :: es => arrived es
  end.

Definition event_ok (e : event) : Prop :=
  match e with Arrive l => bytes_ok l | Ask n => 1 <= n end.

Section Drive.
Context `{WordBits}.

(** Run a schedule; [left] is input that has arrived and was not consumed, [acc]
    is what was delivered.  The first component is the first error, or 0. *)
Fixpoint drive (r : reader) (left acc : list Z) (es : list event) : outcome (Z * list Z) :=
  match es with
  | [] => Ret (0, acc)
  | Arrive l :: es => drive r (left ++ l) acc es
  | Ask n :: es =>
      letm (res, out, r1, left1) := decompress r left n in
      if res <? 0 then Ret (res, acc) else drive r1 left1 (acc ++ out) es
  end.

End Drive.

(** Calls on a heatshrink decoder: sink one byte (if the buffer is full it is
    refused and dropped), or poll with an output buffer of [n] bytes. *)
Inductive hs_call :=
| HsSink (b : Z)
| HsPoll (n : Z).

Definition hs_call_ok (c : hs_call) : Prop :=
  match c with HsSink b => byte_ok b | HsPoll n => 0 <= n end.

(** The buffer sizes of the polls of a schedule. *)
Fixpoint polls (cs : list hs_call) : list Z :=
  match cs with
  | [] => []
  | HsSink _ :: cs => polls cs
  | HsPoll n :: cs => n :: polls cs
  end.

(** [wb]: window bits, [lb]: lookahead bits. *)
Fixpoint hs_calls (wb lb : Z) (d : hsd) (cs : list hs_call) : outcome (list (list Z)) :=
  match cs with
  | [] => Ret []
  | HsSink b :: cs =>
      letm o := hs_sink1 d b in
      hs_calls wb lb (match o with Some d1 => d1 | None => d end) cs
  | HsPoll n :: cs =>
      letm (d1, out) := hs_poll wb lb n d in
      letm outs := hs_calls wb lb d1 cs in
      Ret (out :: outs)
  end.

(** The C decoders of size fields, given the bytes in pieces: a decoder that
    returns 1 is called again with the next piece.  The result is the return
    value, the decoded value and the bytes not consumed. *)
Fixpoint header_pieces (z : size_st) (pieces : list (list Z)) : outcome (Z * Z * list Z) :=
  match pieces with
  | [] => Ret (1, 0, [])
  | p :: ps =>
      letm (res, v, z1, rest) := unpack_header_size p z in
      if res =? 1 then header_pieces z1 ps else Ret (res, v, rest ++ concat ps)
  end.

Fixpoint size_pieces `{WordBits} (z : size_st) (r : reader) (pieces : list (list Z)) : outcome (Z * Z * list Z) :=
  match pieces with
  | [] => Ret (1, 0, [])
  | p :: ps =>
      letm (res, v, z1, r1, rest) := unpack_size z r p in
      if res =? 1 then size_pieces z1 r1 ps else Ret (res, v, rest ++ concat ps)
  end.
