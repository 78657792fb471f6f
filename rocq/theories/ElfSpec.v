(** What is said about ELF files. *)

From Coq Require Import ZArith List Bool.
From Verif Require Import Prelude PyElf.
Import ListNotations.
Open Scope Z_scope.

(** A function or an object of some size in a symbol table. *)
Definition listed (elf : list section) (y : symbol) : Prop :=
  exists s l, In s elf /\ sec_symbols s = Some l /\ sec_entsize s <> 0 /\ In y l /\ sy_type y <> OtherType /\ sy_size y <> 0.

(** Section number [i] is the first one with an address. *)
Definition has_address (s : section) (a : Z) : Prop := sec_addr s <= a < sec_addr s + sec_size s.
Definition home (elf : list section) (i : nat) (a : Z) : Prop :=
  exists before s after, elf = before ++ s :: after /\ length before = i /\ has_address s a /\ forall t, In t before -> ~ has_address t a.

(** The functions and objects of a section. *)
Definition symbol_of (elf : list section) (i : nat) (y : symbol) : Prop := listed elf y /\ home elf i (sy_value y).
Definition function_of (elf : list section) (i : nat) (y : symbol) : Prop := symbol_of elf i y /\ sy_type y = Func.
Definition object_of (elf : list section) (i : nat) (y : symbol) : Prop := symbol_of elf i y /\ sy_type y = Object.
Definition symbol_end (y : symbol) : Z := sy_value y + sy_size y.

(** Sizes are not negative in an ELF file. *)
Definition elf_ok (elf : list section) : Prop := forall y, listed elf y -> 0 <= sy_size y.

(** An end of the code range is strictly within the data range. *)
Definition straddles (data : arange) (a : Z) : Prop := ar_begin data < a < ar_end data.
