(** Examples of dump and restore. *)

From Coq Require Import ZArith List Bool.
From Verif Require Import Prelude Heatshrink CReader CSeq Spec SeqSpec SeqExamples Refuted DumpSpec.
Import ListNotations.
Open Scope Z_scope.

(** C08 is false of the one kind of heatshrink patch without a body. *)
Lemma c08_refuted : exists patch,
  seq_patch CompHeatshrink [] patch /\ apply_recs [] 0 [] = Some [] /\
  forall junk junk2, exists s w s1 w1 s2 w2,
    @process w64 files file_env 100 128 (ap_init junk (zlen patch)) (mkfiles [] 0 []) patch = Ret (0, s, w) /\
    @finalize w64 files file_env 100 128 s w = Ret (0, s1, w1) /\
    @restore files file_env (ap_init junk2 (zlen patch)) s (mkfiles [] 0 (f_to w)) = Ret (0, s2, w2) /\
    @finalize w64 files file_env 100 128 s2 w2 = Undef.
Proof.
  exists [4; 0]. split; [left; split; reflexivity|]. split; [reflexivity|]. intros junk junk2. do 6 eexists.
  do 3 (split; [vm_compute; reflexivity|]). vm_compute. reflexivity.
Qed.

(** Dumped and restored right behind the header, within the body and once more at
    the same place, with output lost in between. *)
Lemma ex_session : forall junk : ap, exists s w,
  @session w64 ex_from ex_hs (zlen ex_hs) s w /\ get_patch_offset s = 9 /\ get_to_offset s = 2 /\ zlen (f_to w) = 2.
Proof.
  intros junk.
  assert (D : forall o, dumpable ex_hs o). { intros o _. right. split; [discriminate|reflexivity]. }
  do 2 eexists. split; [
    eapply (@session_restore w64 _ _ _ _ _ [1; 2; 3; 4] junk 0); [
    eapply (@session_restore w64 _ _ _ _ _ [] junk 5); [
    eapply (@session_process w64 _ _ _ _ _ 7 100%nat); [
    eapply (@session_restore w64 _ _ _ _ _ [] junk 0); [
    eapply (@session_process w64 _ _ _ _ _ 2 100%nat); [apply session_start with (junk := junk)|vm_compute; split; discriminate|intros; discriminate|vm_compute; reflexivity]|apply D|vm_compute; reflexivity|vm_compute; reflexivity]|vm_compute; split; discriminate|intros; discriminate|vm_compute; reflexivity]|apply D|vm_compute; reflexivity|vm_compute; reflexivity]|apply D|vm_compute; reflexivity|vm_compute; reflexivity]
    |do 2 (split; [vm_compute; reflexivity|]); vm_compute; reflexivity].
Qed.
