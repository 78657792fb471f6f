(** Model of dump and restore of the sequential applier in a library built with LZMA,
    c/detools.c:907-992 and 1417-1474. *)

From Coq Require Import ZArith List Bool.
From Verif Require Import Prelude Heatshrink CReader CSeq CLzma CSeqLzma.
Import ListNotations.
Open Scope Z_scope.

Section Machine.
Context {D : Type}.

(** detools_apply_patch_dump, detools.c:1417-1435, with patch_reader_dump,
    detools.c:907-943: [written] is the result of state_write, which is handed the whole
    struct, that is [x]. *)
Definition x_dump (written : Z) (x : xap D) : Z :=
  if negb (written =? 0) then - E_IO_FAILED
  else if dump_ok (x_ap x) then 0 else - E_NOT_IMPLEMENTED.

(** *self_p = *dumped_p of patch_reader_restore, detools.c:945-992, as [restore_reader] in
    CSeq.v.  Simplification: the pointers of an LZMA reader are copied as if what they
    point to were still there. *)
Definition x_restore_reader (r : option (xreader (D := D))) : option (xreader (D := D)) :=
  match r with
  | Some (XPlain r) => option_map XPlain (restore_reader (Some r))
  | _ => r
  end.

(** detools_apply_patch_restore, detools.c:1437-1474, as [restore] in CSeq.v. *)
Definition x_restore {W : Type} (E : seq_env W) (x dumped : xap D) (w : W) : outcome (Z * xap D * W) :=
  letm (res, s, w1) := restore E (x_ap x) (x_ap dumped) w in
  Ret (res, mkxap s (match a_state (x_ap dumped) with
                     | SInit => x_reader x
                     | _ => if res =? - E_IO_FAILED then x_reader x else x_restore_reader (x_reader dumped)
                     end), w1).

(** A user who processes a patch in pieces, without looking at the results. *)
Fixpoint x_pieces `{WordBits} (L : lzma_lib D) {W : Type} (E : seq_env W) (fuel : nat) (x : xap D) (w : W) (pieces : list (list Z))
  : outcome (list Z * xap D * W) :=
  match pieces with
  | [] => Ret ([], x, w)
  | p :: ps =>
      letm (r, x1, w1) := x_process L E fuel x w p in
      letm (rs, x2, w2) := x_pieces L E fuel x1 w1 ps in
      Ret (r :: rs, x2, w2)
  end.

End Machine.
