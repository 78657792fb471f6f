(** Which patches an applier refuses because of their header. *)

From Coq Require Import ZArith List Bool.
From Verif Require Import Prelude CReader Spec CLzma.
Import ListNotations.
Open Scope Z_scope.

(** The two parts of the first byte. *)
Definition patch_type (b : Z) : Z := (b / 16) mod 8.
Definition patch_comp (b : Z) : Z := b mod 16.

(** [refused type k unusable patch code]: an applier for patches of type [type], whose
    header has [k] sizes, refuses [patch] with [code]: the patch is of another type, one
    of its sizes is too large, or its compression cannot be used. *)
Inductive refused (type : Z) (k : nat) (unusable : Z -> Z -> Prop) : list Z -> Z -> Prop :=
| other_type b rest :
    patch_type b <> type ->
    refused type k unusable (b :: rest) (- E_BAD_PATCH_TYPE)
| size_too_large b sizes v rest :
    patch_type b = type -> (length sizes < k)%nat -> Forall (fun n => 0 <= n < 2 ^ 27) sizes -> 2 ^ 27 <= Z.abs v ->
    refused type k unusable (b :: flat_map enc_size sizes ++ enc_size v ++ rest) (- E_CORRUPT_PATCH_OVERFLOW)
| other_compression b sizes rest code :
    patch_type b = type -> length sizes = k -> Forall (fun n => 0 <= n < 2 ^ 27) sizes -> unusable (patch_comp b) code ->
    refused type k unusable (b :: flat_map enc_size sizes ++ rest) code.

(** Compressions a library built without LZMA cannot use: all but none, CRLE and
    heatshrink. *)
Definition unknown (c code : Z) : Prop := c <> 0 /\ c <> 2 /\ c <> 4 /\ code = - E_BAD_COMPRESSION.

(** The same with LZMA, whose decoder it may be impossible to start. *)
Definition unknown_lzma {D : Type} (L : lzma_lib D) (c code : Z) : Prop :=
  (c <> 1 /\ unknown c code) \/ (c = 1 /\ lz_start L = None /\ code = - E_LZMA_INIT).
