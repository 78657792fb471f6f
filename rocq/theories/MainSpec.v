(** What the command line program of the C library is expected to do. *)

From Coq Require Import String.
From Coq Require Import ZArith List Bool.
From Verif Require Import Prelude Heatshrink CReader CSeq CInPlace CFile CMain.
Import ListNotations.
Open Scope Z_scope.
Open Scope string_scope.

(** The two commands there are. *)
Inductive command := ApplyPatch (from patch to : string) | ApplyPatchInPlace (memory patch : string).

Definition command_of (argv : list string) (c : command) : Prop :=
  match c with
  | ApplyPatch from patch to => argv = ["apply_patch"; from; patch; to]
  | ApplyPatchInPlace memory patch => argv = ["apply_patch_in_place"; memory; patch]
  end.

(** The library function of a command. *)
Definition library_call `{WordBits} {W : Type} (F : stdio W) (fuel : nat) (jap : ap) (jip : ip) (file : string -> Z) (w : W) (c : command) : outcome (Z * W) :=
  match c with
  | ApplyPatch from patch to => apply_patch_filenames F fuel jap w (file from) (file patch) (file to)
  | ApplyPatchInPlace memory patch => apply_patch_in_place_filenames F fuel jip w (file memory) (file patch) None None
  end.

Definition is_usage (p : printed) : Prop := match p with ErrorText _ _ => False | _ => True end.
