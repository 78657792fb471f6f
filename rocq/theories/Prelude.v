(** Common vocabulary of the model: outcomes, bytes, machine words, lists.

    Nothing in this file models a particular function of /repo; it fixes how C
    and Python values are represented.  See DESIGN.md, "Approach". *)

From Coq Require Import ZArith List Bool.
Import ListNotations.
Open Scope Z_scope.

(** Result of running a modelled function.  [Undef] is C undefined behaviour
    (or a Python exception where a model says so); [OutOfFuel] means that the
    fuel of a modelled loop did not suffice.  Neither is a result. *)
Inductive outcome (A : Type) : Type :=
| Ret (a : A)
| Undef
| OutOfFuel.
Arguments Ret {A} a.
Arguments Undef {A}.
Arguments OutOfFuel {A}.

Definition obind {A B : Type} (m : outcome A) (k : A -> outcome B) : outcome B :=
  match m with
  | Ret a => k a
  | Undef => Undef
  | OutOfFuel => OutOfFuel
  end.

Notation "'letm' p ':=' m 'in' k" :=
  (obind m (fun x => match x with p => k end))
    (at level 200, p pattern, m at level 200, k at level 200, right associativity).

(** Bytes are integers in [0, 256). *)
Definition byte_ok (b : Z) : Prop := 0 <= b < 256.
Definition bytes_ok (l : list Z) : Prop := Forall byte_ok l.

(** Lengths, prefixes and suffixes indexed by [Z], as C indexes with size_t. *)
Definition zlen {A : Type} (l : list A) : Z := Z.of_nat (length l).
Definition ztake {A : Type} (n : Z) (l : list A) : list A := firstn (Z.to_nat n) l.
Definition zdrop {A : Type} (n : Z) (l : list A) : list A := skipn (Z.to_nat n) l.
Definition zrepeat {A : Type} (x : A) (n : Z) : list A := repeat x (Z.to_nat n).

(** Element [i] of a list, [None] outside (also for negative [i]). *)
Definition znth {A : Type} (l : list A) (i : Z) : option A :=
  if i <? 0 then None else nth_error l (Z.to_nat i).

Fixpoint upd {A : Type} (l : list A) (n : nat) (x : A) : list A :=
  match l, n with
  | [], _ => []
  | _ :: t, O => x :: t
  | h :: t, S n' => h :: upd t n' x
  end.

(** Array store; [None] outside the array. *)
Definition zupd {A : Type} (l : list A) (i : Z) (x : A) : option (list A) :=
  if (0 <=? i) && (i <? zlen l) then Some (upd l (Z.to_nat i) x) else None.

(** [size_t] has [word_bits] bits; C [int] has 32. *)
Class WordBits := word_bits : Z.

Definition wrap `{WordBits} (x : Z) : Z := x mod 2 ^ word_bits.

Definition INT_MAX : Z := 2147483647.
Definition INT_MIN : Z := -2147483648.
Definition in_int (x : Z) : bool := (INT_MIN <=? x) && (x <=? INT_MAX).

(** Conversion of an integer to [int]: implementation defined, modular on the
    supported compilers. *)
Definition to_int (x : Z) : Z := (x + 2147483648) mod 4294967296 - 2147483648.

(** Signed addition: overflow is undefined behaviour. *)
Definition int_add (a b : Z) : outcome Z :=
  if in_int (a + b) then Ret (a + b) else Undef.

(** [a << k] on [int] with [a >= 0]: undefined when the result does not fit. *)
Definition int_shl (a k : Z) : outcome Z :=
  if (0 <=? k) && (k <? 32) && in_int (Z.shiftl a k)
  then Ret (Z.shiftl a k) else Undef.

Definition b2z (b : bool) : Z := if b then 1 else 0.
