(** Created patches: what patch_info() says about them, and created in-place patches
    that have been cut off or are followed by other bytes. *)

From Coq Require Import ZArith List Bool Lia ZifyBool ZifyNat ZifyN.
From Verif Require Import Prelude Lib Spec PySize PyCrle Bsdiff BsdiffSpec PyCreate CrleProofs PyInPlace PyApply PySpec PySeq PyThms PyApplyInPlace PyMemThms PyMemCreate
  PyInfo PyInfoSpec PyInfoThms PyMemCut.
From Verif Require Import InPlaceSpec InPlaceCreate.
Import ListNotations.
Open Scope Z_scope.

Lemma info_created : forall X DI HI c hs sa from to,
  array_ok sa from -> bytes_ok to -> zlen from < 2 ^ 30 -> zlen to < 2 ^ 30 ->
  (c = CompHeatshrink -> hs_reader_ok (x_heatshrink X) /\
     forall pieces, bytes_ok (concat pieces) -> py_stream CompHeatshrink (concat pieces) (hs pieces)) ->
  exists patch recs, create_sequential c hs sa from to = Ret (Some patch) /\ apply_recs from 0 recs = Some to /\ recs_size recs = zlen to /\
    exists n, forall fuel, (n <= fuel)%nat -> patch_info X DI HI fuel patch = ret (info_of c recs patch).
Proof.
  intros X DI HI c hs sa from to Hsa Hto Hf Ht Hh.
  destruct (create_py c hs sa from to) as (recs & patch & A1 & A2 & A3 & A4 & A5); auto.
  { intros Hc. apply Hh. exact Hc. }
  exists patch, recs. split; [exact A1|]. split; [exact A5|]. split; [symmetry; eapply apply_size; eauto|]. apply info_well_formed; auto. intros Hc. apply Hh. exact Hc.
Qed.

Lemma info_in_place_created : forall X DI HI c hs sa memory segment minimum from to, (forall l, array_ok (sa l) l) -> bytes_ok to ->
  0 < segment < 2 ^ 63 -> (segment | memory) -> (segment | minimum_of segment minimum) -> 0 <= minimum_of segment minimum <= memory ->
  memory < 2 ^ 30 -> zlen to <= memory -> zlen from < 2 ^ 63 ->
  (c = CompHeatshrink -> hs_reader_ok (x_heatshrink X) /\
     forall pieces, bytes_ok (concat pieces) -> py_stream CompHeatshrink (concat pieces) (hs pieces)) ->
  exists patch shift segs, create_in_place c hs sa memory segment minimum from to = Ret (Some patch) /\
    apply_segments memory segment shift from 0 segs = Some to /\
    exists n, forall fuel, (n <= fuel)%nat ->
    patch_info X DI HI fuel patch = ret (InfoInPlace (zlen patch, comp_number c, (memory, segment, shift, zlen from, zlen to), map segment_info segs)).
Proof.
  intros X DI HI c hs sa memory segment minimum from to Hsa Hto S1 S2 S3 S4 S5 S6 S7 Hh.
  destruct (create_in_place_py c hs sa memory segment minimum from to) as (patch & shift & segs & A1 & A2 & A3 & A4 & A5 & A6); auto.
  { intros Hc. apply Hh. exact Hc. }
  exists patch, shift, segs. split; [exact A1|]. split; [exact A5|]. apply info_in_place_spec; auto. intros Hc. apply Hh. exact Hc.
Qed.

Section InPlace.
Variables (X : externals) (c : comp) (hs : list (list Z) -> list Z) (sa : list Z -> list Z).
Variables memory segment : Z.
Variable minimum : option Z.
Variables from to mem : list Z.
Variable bytesio : bool.
Hypothesis Hc : c = CompNone \/ c = CompCrle.
Hypothesis Hsa : forall l, array_ok (sa l) l.
Hypothesis Hto : bytes_ok to.
Hypothesis H1 : 0 < segment < 2 ^ 63.
Hypothesis H2 : (segment | memory).
Hypothesis H3 : (segment | minimum_of segment minimum).
Hypothesis H4 : 0 <= minimum_of segment minimum <= memory.
Hypothesis H5 : memory < 2 ^ 30.
Hypothesis H6 : zlen to <= memory.
Hypothesis H7 : zlen from < 2 ^ 63.
Hypothesis Hm : memory <= zlen mem.
Hypothesis Hfrom : ztake (zlen from) mem = from.

Lemma in_place_truncated : exists patch, create_in_place c hs sa memory segment minimum from to = Ret (Some patch) /\
  forall k, 0 <= k < zlen patch -> exists n, forall fuel, (n <= fuel)%nat -> apply_patch_in_place X fuel bytesio mem (ztake k patch) = raise DetoolsError.
Proof.
  destruct (create_in_place_py c hs sa memory segment minimum from to) as (patch & shift & segs & A1 & A2 & A3 & A4 & A5 & A6); auto.
  { intros ->. destruct Hc; discriminate. }
  exists patch. split; [exact A1|]. intros k Hk. eapply in_place_rejects_cut with (cut := zdrop k patch); eauto; [apply ztake_zdrop|].
  intros Y. apply (f_equal zlen) in Y. rewrite zlen_zdrop in Y by lia. change (zlen (@nil Z)) with 0 in Y. lia.
Qed.

Lemma in_place_overlong : to <> [] -> exists patch, create_in_place c hs sa memory segment minimum from to = Ret (Some patch) /\
  forall tl, bytes_ok tl -> tl <> [] -> (c = CompCrle -> ~ crle_void tl) ->
  exists n, forall fuel, (n <= fuel)%nat -> apply_patch_in_place X fuel bytesio mem (patch ++ tl) = raise DetoolsError.
Proof.
  intros Hne. destruct (create_in_place_py c hs sa memory segment minimum from to) as (patch & shift & segs & A1 & A2 & A3 & A4 & A5 & A6); auto.
  { intros ->. destruct Hc; discriminate. }
  exists patch. split; [exact A1|]. intros tl Ht Hn Hv. eapply in_place_rejects_over; eauto.
  - intros ->. cbn in A5. congruence.
  - apply bytes_ok_app; auto.
Qed.
End InPlace.
