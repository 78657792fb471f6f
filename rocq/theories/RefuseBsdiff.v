(** Proofs about BSDIFF40 patches that are refused because of their header. *)

From Coq Require Import ZArith List Bool Lia ZifyBool.
From Verif Require Import Prelude Lib PyApply PyBsdiff40.
Import ListNotations.
Open Scope Z_scope.

Lemma magic_refuses : forall bz fuel clamps from patch, ztake 8 patch <> [66; 83; 68; 73; 70; 70; 52; 48] ->
  apply_patch_bsdiff bz fuel clamps from patch = raise DetoolsError.
Proof.
  intros bz fuel clamps from patch H. unfold apply_patch_bsdiff, read_header_bsdiff, read_front. change (8 <? 0) with false. cbn iota beta.
  unfold list_eqb. destruct (list_eq_dec Z.eq_dec (ztake 8 patch) magic) as [E|E]; [contradiction|reflexivity].
Qed.

Lemma offtin_short : forall l, zlen l < 8 -> offtin l = raise OtherError.
Proof. intros l H. unfold offtin. destruct (Z.eqb_spec (zlen l) 8); [lia|reflexivity]. Qed.

Lemma offtin_result : forall l, (exists v, offtin l = ret v) \/ offtin l = raise OtherError.
Proof. intros l. unfold offtin. destruct (zlen l =? 8); [left; eexists; reflexivity|right; reflexivity]. Qed.

Lemma short_refuses : forall bz fuel clamps from patch, zlen patch < 32 -> exists e, apply_patch_bsdiff bz fuel clamps from patch = raise e.
Proof.
  intros bz fuel clamps from patch H. unfold apply_patch_bsdiff, read_header_bsdiff, read_front. change (8 <? 0) with false. cbn iota beta.
  destruct (list_eqb _ _); cbn [negb]; [|eexists; reflexivity].
  destruct (offtin_result (ztake 8 (zdrop 8 patch))) as [(a & ->)| ->]; [|eexists; reflexivity]. cbn [pbind ret].
  destruct (offtin_result (ztake 8 (zdrop 8 (zdrop 8 patch)))) as [(b & ->)| ->]; [|eexists; reflexivity]. cbn [pbind ret].
  rewrite (offtin_short (ztake 8 (zdrop 8 (zdrop 8 (zdrop 8 patch))))); [eexists; reflexivity|].
  rewrite zlen_ztake, !zlen_zdrop by lia. lia.
Qed.
