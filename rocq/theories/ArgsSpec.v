(** Numerals. *)

From Coq Require Import ZArith List Bool.
From Verif Require Import Prelude.
Import ListNotations.
Open Scope Z_scope.

(** The characters of the digits of a base, and their values. *)
Definition decimal_digit (c v : Z) : Prop := 0 <= v <= 9 /\ c = 48 + v.
Definition hex_digit (c v : Z) : Prop := decimal_digit c v \/ (10 <= v <= 15 /\ (c = 97 + (v - 10) \/ c = 65 + (v - 10))).

(** Horner's rule. *)
Definition value_of (base : Z) (vs : list Z) : Z := fold_left (fun n v => n * base + v) vs 0.

(** A number as people write it: 0 or decimal digits that do not start with 0, or 0x and
    hexadecimal digits of either case. *)
Inductive numeral : list Z -> Z -> Prop :=
| NumZero : numeral [48] 0
| NumDec : forall cs vs v, Forall2 decimal_digit cs vs -> hd_error vs = Some v -> v <> 0 -> numeral cs (value_of 10 vs)
| NumHex : forall x cs vs, x = 120 \/ x = 88 -> Forall2 hex_digit cs vs -> cs <> [] -> numeral (48 :: x :: cs) (value_of 16 vs).
