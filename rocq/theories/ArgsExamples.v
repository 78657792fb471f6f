(** Concrete ranges. *)

From Coq Require Import ZArith List Bool Lia.
From Verif Require Import Prelude PyApply PyArgs ArgsSpec.
Import ListNotations.
Open Scope Z_scope.

Lemma ex_ranges : numeral [48; 120; 49; 102] 31 /\ numeral [52; 48] 40 /\
  parse_range (Some [48; 120; 49; 102; 45; 52; 48]) = ret (31, 40) /\ parse_range (Some [52; 48; 45; 48; 120; 49; 70]) = raise DetoolsError /\
  parse_range (Some [48; 55; 45; 57]) = raise DetoolsError /\ parse_range (Some [49; 45; 45; 50]) = raise DetoolsError /\ parse_range None = ret (0, 0).
Proof.
  split; [apply (NumHex 120 [49; 102] [1; 15]); [auto| |discriminate]; repeat constructor; unfold hex_digit, decimal_digit; lia|].
  split; [apply (NumDec [52; 48] [4; 0] 4); [|reflexivity|discriminate]; repeat constructor; unfold decimal_digit; lia|].
  repeat (split; [vm_compute; reflexivity|]). vm_compute. reflexivity.
Qed.
