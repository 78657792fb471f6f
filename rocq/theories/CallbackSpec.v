(** Worlds for the callback API: the patch as a file that is read sequentially, and
    a record of the requests made. *)

From Coq Require Import ZArith List Bool.
From Verif Require Import Prelude Heatshrink CReader CSeq.
Import ListNotations.
Open Scope Z_scope.

(** The callbacks [E], carrying along something they do not touch. *)
Definition env_with {W : Type} (E : seq_env W) (X : Type) : seq_env (W * X) :=
  mkenv (W * X)
    (fun wx n => let '(r, buf, w1) := from_read E (fst wx) n in (r, buf, (w1, snd wx)))
    (fun wx off => let '(r, w1) := from_seek E (fst wx) off in (r, (w1, snd wx)))
    (fun wx data => let '(r, w1) := to_write E (fst wx) data in (r, (w1, snd wx))).

(** patch_read on a file with contents [patch]; the extra component is the read
    position (file_io_patch_read, detools.c:2462-2467). *)
Definition patch_file {W : Type} (patch : list Z) (wx : W * Z) (n : Z) : Z * list Z * (W * Z) :=
  let (w, pos) := wx in
  if pos + n <=? zlen patch then (0, ztake n (zdrop pos patch), (w, pos + n)) else (-14, [], wx).

(** An arbitrary patch_read whose requests are recorded. *)
Definition recorded {W : Type} (patch_read : W -> Z -> Z * list Z * W) (wx : W * list Z) (n : Z)
  : Z * list Z * (W * list Z) :=
  let '(r, buf, w1) := patch_read (fst wx) n in (r, buf, (w1, snd wx ++ [n])).

Definition sum (l : list Z) : Z := fold_right Z.add 0 l.
