(** The C and the Python functions agree on in-place patches. *)

From Coq Require Import ZArith List Bool Lia ZifyBool ZifyNat ZifyN.
From Verif Require Import Prelude Lib Heatshrink CReader CSeq CInPlace Spec PyApply PySpec PyThms PyApplyInPlace PyMemThms CallbackSpec IpCallbackSpec
  InPlaceSpec InPlaceFinal.
Import ListNotations.
Open Scope Z_scope.

Lemma segments_fit : forall segment shift segs i to_size, 0 <= to_size < 2 ^ 63 -> 0 < segment -> segments_ok segment segs to_size ->
  segments_in_limits segment shift i segs -> Forall recs_fit segs.
Proof.
  induction segs as [|recs segs IH]; intros i to_size B S O L; [constructor|].
  cbn [segments_ok segments_in_limits] in *. destruct O as (O1 & O2 & O3). destruct L as (L1 & L2 & L3). constructor.
  - split; [lia|]. eapply Forall_impl; [|exact L1]. cbv beta. unfold size_limit. change (2 ^ 27) with 134217728. change (2 ^ 63) with 9223372036854775808. lia.
  - eapply IH; [|auto|exact O3|exact L3]. lia.
Qed.

Lemma py_c_in_place_agree : forall (wb : WordBits), 32 <= word_bits ->
  forall X bytesio memory segment shift from to mem pmem c patch,
  sizes_ok memory segment shift (zlen from) (zlen to) -> in_place_update c memory segment shift from to patch ->
  bytes_ok patch -> zlen patch + 128 < 2 ^ word_bits ->
  memory <= zlen mem -> holds mem from -> memory <= zlen pmem -> ztake (zlen from) pmem = from ->
  (c = CompHeatshrink -> hs_reader_ok (x_heatshrink X)) ->
  forall pieces junk, division c memory segment shift (zlen from) (zlen to) patch pieces ->
  exists n, forall fuel, (n <= fuel)%nat ->
  exists s d pmem1, ip_apply flash_env fuel junk (zlen patch) (new_device mem) pieces = Ret (zlen to, s, d) /\
    apply_patch_in_place X fuel bytesio pmem patch = ret (zlen to, pmem1) /\
    holds (d_mem d) to /\ ztake (zlen to) pmem1 = to.
Proof.
  intros wb Hwb X bytesio memory segment shift from to mem pmem c patch Hs Hu Hb Hz Hm Hh Hpm Hph HH pieces junk D.
  destruct (@in_place_applied wb Hwb memory segment shift from to mem c patch Hs Hu Hb Hz Hm Hh pieces junk D) as (n1 & H1).
  destruct Hu as (segs & (P1 & stream & P2 & P3) & P4 & P5). destruct Hs as (S1 & S2 & S3 & S4 & S5 & S6 & S7). unfold size_limit in S6, S7. change (2 ^ 27) with 134217728 in *.
  destruct (py_in_place_applies X bytesio c memory segment shift from to segs patch pmem) as (n2 & H2); auto.
  - split; [auto|]. exists stream. split; [auto|]. destruct P3 as [P3|(P3 & P6)]; [left; auto|right]. split; auto using compressed_py.
  - eapply segments_fit; eauto. change (2 ^ 63) with 9223372036854775808. lia.
  - unfold py_sizes_ok. change (2 ^ 63) with 9223372036854775808. assert (segment <= memory) by lia. lia.
  - exists (n1 + n2)%nat. intros fuel Hf. destruct (H1 fuel ltac:(lia)) as (s & d & A & B & _). destruct (H2 fuel ltac:(lia)) as (mem1 & E & F & _).
    exists s, d, mem1. auto.
Qed.
