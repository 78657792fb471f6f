(** Arbitrary LZMA patches with the callback API. *)

From Coq Require Import ZArith List Bool Lia ZifyBool ZifyNat ZifyN.
From Verif Require Import Prelude Lib Heatshrink CReader CSeq Spec SeqSpec CallbackSpec CallbackProofs CLzma CSeqLzma LzmaSpec LzmaCallback LzmaApply.
Import ListNotations.
Open Scope Z_scope.

Theorem lzma_callbacks_hostile : forall {WBits : WordBits}, 32 <= word_bits -> forall {D : Type} (L : lzma_lib D),
  forall (W : Type) (E : seq_env W) (pos : W -> Z), lib_ok L -> bounded_output L -> honest E pos ->
  forall junk w patch, pos w = 0 -> announced_comp patch = 1 -> zlen patch < 2 ^ word_bits ->
  exists n v x w1, nothing_allocated (x_reader x) /\
    forall fuel, (n <= fuel)%nat ->
    x_apply_patch_callbacks L (env_with E Z) fuel junk (patch_file patch) (zlen patch) (w, 0) = Ret (v, x, w1).
Proof.
  intros WBits Hword D L W E pos Hlib Hb Hon junk w patch Hpos Ha Hl. pose proof (zlen_nonneg patch).
  set (k := Z.to_nat (zlen patch)). assert (Hk : zlen patch <= 512 * Z.of_nat k) by lia.
  assert (Hc : concat (pieces k patch) = patch) by (apply pieces_concat; exact Hk).
  destruct (lzma_terminates Hword L W E Hlib Hb junk (zlen patch) w (pieces k patch)) as (n & N); rewrite ?Hc; auto.
  destruct (lzma_no_ub Hword L W E pos Hlib Hon n junk (zlen patch) w (pieces k patch)) as (N1 & N2); rewrite ?Hc; auto.
  specialize (N n (le_n _)).
  destruct (x_feed L E n (xap_init junk (zlen patch)) w (pieces k patch)) as [[[v x] w1]| |] eqn:F; try congruence.
  destruct (xcallbacks_feed L E patch k n 0 _ _ _ _ _ ltac:(lia) ltac:(lia) F) as (p & G).
  exists (n + k)%nat, v, x, (w1, p). split; [eapply N2; reflexivity|]. exact G.
Qed.
