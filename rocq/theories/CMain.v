(** Model of the command line program of the C library, c/main.c. *)

From Coq Require Import String.
From Coq Require Import ZArith List Bool.
From Verif Require Import Prelude Heatshrink CReader CSeq CInPlace CFile.
Import ListNotations.
Open Scope Z_scope.

(** What the program prints: one of the three usage texts, main.c:37-55, or
    "error: TEXT (error code CODE)", main.c:88-90. *)
Inductive printed :=
| UsageCommands | UsageApplyPatch | UsageApplyPatchInPlace
| ErrorText (text : string) (code : Z).

Section Main.
Context `{WordBits}.
Context {W : Type} (F : stdio W).

(** main.c:83-93, from the result of the command on: the exit status and what is
    printed.  The shell sees the low eight bits of the value main() returns. *)
Definition main_end (res : Z) : outcome (Z * list printed) :=
  if 0 <? res then Ret (0, [])
  else if res <? 0 then
    if in_int (- res) then
      letm text := error_as_string (- res) in
      Ret ((- res) mod 256, [ErrorText text (- res)])
    else Undef
  else Ret (0, []).

(** main, main.c:57-94; [argv] without the name of the program, so that argc is one
    more than its length; [file] gives the number CFile.v uses for a file name.  [jap]
    and [jip] are what the structs in the library functions contain initially. *)
Definition cmain (fuel : nat) (jap : ap) (jip : ip) (file : string -> Z) (argv : list string) (w : W)
  : outcome (Z * list printed * W) :=
  match argv with
  | [] => Ret (1, [UsageCommands], w)
  | command :: args =>
      if String.eqb "apply_patch" command then
        match args with
        | [from; patch; to] =>
            letm (res, w1) := apply_patch_filenames F fuel jap w (file from) (file patch) (file to) in
            letm (status, out) := main_end res in
            Ret (status, out, w1)
        | _ => Ret (1, [UsageApplyPatch], w)
        end
      else if String.eqb "apply_patch_in_place" command then
        match args with
        | [memory; patch] =>
            letm (res, w1) := apply_patch_in_place_filenames F fuel jip w (file memory) (file patch) None None in
            letm (status, out) := main_end res in
            Ret (status, out, w1)
        | _ => Ret (1, [UsageApplyPatchInPlace], w)
        end
      else Ret (1, [UsageCommands], w)
  end.

End Main.
