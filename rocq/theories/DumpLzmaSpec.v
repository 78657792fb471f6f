(** A user who applies a patch in pieces and, between them, saves the state and goes on
    with a new applier, in a library with and without LZMA. *)

From Coq Require Import ZArith List Bool.
From Verif Require Import Prelude Heatshrink CReader CSeq CLzma CSeqLzma CDumpLzma DumpSpec.
Import ListNotations.
Open Scope Z_scope.

(** Process the next [n] bytes, as told by get_patch_offset(), or dump, initialise a new
    applier and restore; [junk] and [size] are what its struct held before and the patch
    size that it was initialised with. *)
Inductive step := Piece (n : Z) | Restart (junk : ap) (size : Z).

Section Steps.
Context `{WordBits} {W : Type} (E : seq_env W).

(** What the user does to the files before and after a restore; the latter is told the
    result of get_to_offset(). *)
Context (before : W -> W) (after : Z -> W -> W).

Definition dump_result (s : ap) : Z := if dump_ok s then 0 else - E_NOT_IMPLEMENTED.

(** The results of all calls, the last one being finalize(). *)
Fixpoint run_steps (fuel : nat) (patch : list Z) (s : ap) (w : W) (steps : list step) : outcome (list Z * W) :=
  match steps with
  | [] => letm (v, s1, w1) := finalize E fuel 128 s w in Ret ([v], w1)
  | Piece n :: rest =>
      letm (v, s1, w1) := process E fuel 128 s w (piece_at patch (get_patch_offset s) n) in
      letm (vs, w2) := run_steps fuel patch s1 w1 rest in Ret (v :: vs, w2)
  | Restart junk size :: rest =>
      letm (v, s1, w1) := restore E (ap_init junk size) s (before w) in
      letm (vs, w2) := run_steps fuel patch s1 (after (get_to_offset s1) w1) rest in Ret (dump_result s :: v :: vs, w2)
  end.

Context {D : Type} (L : lzma_lib D).

Fixpoint x_run_steps (fuel : nat) (patch : list Z) (x : xap D) (w : W) (steps : list step) : outcome (list Z * W) :=
  match steps with
  | [] => letm (v, x1, w1) := x_finalize L E fuel x w in Ret ([v], w1)
  | Piece n :: rest =>
      letm (v, x1, w1) := x_process L E fuel x w (piece_at patch (get_patch_offset (x_ap x)) n) in
      letm (vs, w2) := x_run_steps fuel patch x1 w1 rest in Ret (v :: vs, w2)
  | Restart junk size :: rest =>
      letm (v, x1, w1) := x_restore E (xap_init junk size) x (before w) in
      letm (vs, w2) := x_run_steps fuel patch x1 (after (get_to_offset (x_ap x1)) w1) rest in Ret (x_dump 0 x :: v :: vs, w2)
  end.

End Steps.
