(** The BSDIFF40 format: a header of 32 bytes and three bzip2 streams. *)

From Coq Require Import ZArith List Bool.
From Verif Require Import Prelude Spec PyBsdiff40.
Import ListNotations.
Open Scope Z_scope.

(** [bz] can be relied on: [R s out] says that the decompressor in state [s] has been
    given a whole stream and that [out] has not been asked for yet. *)
Definition bz_ok (bz : bz2) (R : bz_state bz -> list Z -> Prop) : Prop :=
  (forall s out n, R s out -> out <> [] -> 0 < n ->
     exists s1, bz_decompress bz s [] n = Some (ztake n out, s1) /\ R s1 (zdrop n out)) /\
  (forall s n, R s [] -> bz_decompress bz s [] n = None) /\
  (forall s out, R s out -> (bz_eof bz s = true <-> out = [])).

(** [stream] is a stream of [content]. *)
Definition bz_stream (bz : bz2) (R : bz_state bz -> list Z -> Prop) (content stream : list Z) : Prop :=
  exists s, bz_decompress bz (bz_open bz) stream 0 = Some ([], s) /\ R s content.

(** Lossless: every stream the compressor makes is one of what it was given. *)
Definition bz_lossless (bz : bz2) : Prop :=
  exists R, bz_ok bz R /\ forall pieces, bytes_ok (concat pieces) -> bz_stream bz R (concat pieces) (bz_compress bz pieces).

(** 8 bytes, least significant first; the sign is the most significant bit. *)
Fixpoint le_bytes (k : nat) (v : Z) : list Z :=
  match k with O => [] | S k' => v mod 256 :: le_bytes k' (v / 256) end.
Definition off (x : Z) : list Z := le_bytes 8 (Z.abs x + (if x <? 0 then 2 ^ 63 else 0)).

Definition ctrl_of (recs : list prec) : list Z :=
  flat_map (fun r => off (zlen (r_diff r)) ++ off (zlen (r_extra r)) ++ off (r_adj r)) recs.
Definition diff_of (recs : list prec) : list Z := flat_map r_diff recs.
Definition extra_of (recs : list prec) : list Z := flat_map r_extra recs.

(** A patch made of three streams, announcing [n] bytes. *)
Definition bsdiff40 (n : Z) (ctrl diff extra : list Z) : list Z :=
  [66; 83; 68; 73; 70; 70; 52; 48] ++ off (zlen ctrl) ++ off (zlen diff) ++ off n ++ ctrl ++ diff ++ extra.
