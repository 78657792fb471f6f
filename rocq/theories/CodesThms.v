(** Documented results have descriptions. *)

From Coq Require Import String.
From Coq Require Import ZArith List Bool Lia ZifyBool ZifyNat ZifyN.
From Verif Require Import Prelude Lib Heatshrink CReader CSeq CInPlace CFile SeqSpec FileThms CodesSpec CodesSeq.
Import ListNotations.
Open Scope Z_scope.

Lemma documented_described : forall r, documented r -> r < 0 -> exists d, error_as_string r = Ret d /\ d <> "Unknown error."%string.
Proof.
  intros r D N. unfold documented in D. assert (INT_MIN < r <= INT_MAX) as R by (unfold INT_MIN, INT_MAX; lia).
  destruct (error_string_total r R) as (d & H). exists d. split; [exact H|]. intros ->. apply (proj2 (error_string_known r R)); [lia|exact H].
Qed.

Theorem seq_results_described : forall (wb : WordBits), 32 <= word_bits ->
  forall (W : Type) (E : seq_env W) fuel junk ps w calls rs s1 w1,
  run_calls E fuel (ap_init junk ps) w calls = Ret (rs, s1, w1) ->
  Forall documented rs /\ Forall (fun r => r < 0 -> exists d, error_as_string r = Ret d /\ d <> "Unknown error."%string) rs.
Proof.
  intros wb Hw W E fuel junk ps w calls rs s1 w1 U. pose proof (seq_results Hw E _ _ _ _ _ _ _ _ U) as D. split; [exact D|].
  eapply Forall_impl; [|exact D]. intros. apply documented_described; auto.
Qed.
