(** Theorems about the ranges of addresses and offsets given on the command line.  How a
    number is written is in ArgsSpec.v; 45 is '-'.  Every proof is an application of a
    lemma of ArgsProofs.v. *)

From Coq Require Import ZArith List Bool.
From Verif Require Import Prelude PyApply PyArgs ArgsSpec ArgsProofs ArgsExamples.
Import ListNotations.
Open Scope Z_scope.

(** C84: two numbers in decimal or hexadecimal notation with a '-' between them are
    understood as the range between these numbers, and refused if they are in the wrong
    order. *)
Theorem C84_understood : forall s1 s2 b e, numeral s1 b -> numeral s2 e ->
  parse_range (Some (s1 ++ 45 :: s2)) = if e <? b then raise DetoolsError else ret (b, e).
Proof. exact range_understood. Qed.
Print Assumptions C84_understood.

(** Whatever is given, the result is a range of numbers that are not negative, or
    detools.Error is raised; *)
Theorem C84_result : forall v, (exists b e, parse_range v = ret (b, e) /\ 0 <= b <= e) \/ parse_range v = raise DetoolsError.
Proof. exact range_result. Qed.
Print Assumptions C84_result.

(** and only what has exactly one '-' is accepted. *)
Theorem C84_parts : forall s b e, parse_range (Some s) = ret (b, e) -> exists s1 s2, s = s1 ++ 45 :: s2 /\ ~ In 45 s1 /\ ~ In 45 s2.
Proof. exact range_parts. Qed.
Print Assumptions C84_parts.

(** "0x1f-40", "40-0x1F", "07-9" and "1--2". *)
Example C84_example : numeral [48; 120; 49; 102] 31 /\ numeral [52; 48] 40 /\
  parse_range (Some [48; 120; 49; 102; 45; 52; 48]) = ret (31, 40) /\ parse_range (Some [52; 48; 45; 48; 120; 49; 70]) = raise DetoolsError /\
  parse_range (Some [48; 55; 45; 57]) = raise DetoolsError /\ parse_range (Some [49; 45; 45; 50]) = raise DetoolsError /\ parse_range None = ret (0, 0).
Proof. exact ex_ranges. Qed.
