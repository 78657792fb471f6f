(** Specification vocabulary for patch creation. *)

From Coq Require Import ZArith List Bool.
From Verif Require Import Prelude Spec.
Import ListNotations.
Open Scope Z_scope.

(** Length of the longest common prefix. *)
Fixpoint lcp (a b : list Z) : Z :=
  match a, b with
  | x :: a', y :: b' => if x =? y then 1 + lcp a' b' else 0
  | _, _ => 0
  end.

(** An array that may be given to the search: one more entry than [from] has
    bytes, each a position in [from] or its end. *)
Definition array_ok (sa from : list Z) : Prop :=
  zlen sa = zlen from + 1 /\ Forall (fun p => 0 <= p <= zlen from) sa.

(** Lexicographic order, a proper prefix first. *)
Fixpoint lex_le (a b : list Z) : bool :=
  match a, b with
  | [], _ => true
  | _ :: _, [] => false
  | x :: a', y :: b' => if x =? y then lex_le a' b' else x <? y
  end.

(** [sa] is the suffix array of [from]. *)
Definition is_suffix_array (sa from : list Z) : Prop :=
  array_ok sa from /\ NoDup sa /\
  forall i j p q, 0 <= i <= j -> znth sa i = Some p -> znth sa j = Some q ->
    lex_le (zdrop p from) (zdrop q from) = true.
