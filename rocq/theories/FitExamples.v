(** Examples for C74. *)

From Coq Require Import ZArith List Bool.
From Verif Require Import Prelude Lib CReader CSeq Spec SeqSpec PyApply PySpec RefuseSpec BodySpec BodyThms FitSpec SeqExamples Refuted.
Import ListNotations.
Open Scope Z_scope.

Lemma ex_odd_fits : patch_type (hd 0 odd_patch) = 0 /\ announced_comp odd_patch = 0 /\ header_complete [128; 131; 0; 64] = true /\
  announced_size odd_patch = Some 3 /\ described [10; 20; 30; 40] 3 (body_of odd_patch) = Some ([31; 39; 9], []) /\
  fits 3 odd_patch (body_of odd_patch) = true.
Proof. repeat split. Qed.

Definition long_patch : list Z := [0; 1; 0; 0; 129; 128; 128; 128; 0; 42; 0].

Lemma ex_five : patch_type (hd 0 long_patch) = 0 /\ announced_comp long_patch = 0 /\ header_complete long_patch = true /\
  announced_size long_patch = Some 1 /\ described [] 1 (body_of long_patch) = Some ([42], []) /\ fits 1 long_patch (body_of long_patch) = false /\
  (exists s w, @c_apply w64 100 ex_junk (zlen long_patch) [] [long_patch] = Ret (- E_CORRUPT_PATCH_OVERFLOW, s, w)) /\
  (forall X F hdiff, apply_patch X F hdiff 100 false [] long_patch = ret (1, [42])).
Proof.
  do 6 (split; [reflexivity|]). split; [eexists; eexists; vm_compute; reflexivity|].
  intros. vm_compute. reflexivity.
Qed.
