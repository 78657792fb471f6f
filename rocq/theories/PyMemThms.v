(** Python's in-place apply function on whole patches. *)

From Coq Require Import ZArith List Bool Lia ZifyBool ZifyNat ZifyN.
From Verif Require Import Prelude Lib Spec PySize PyCrle PyInPlace PyApply PySpec SizeCodec CrleProofs PyReader PyApplyProofs PySeq PyApplyInPlace PyMemProofs.
From Verif Require InPlaceSpec InPlaceCreate.
Import ListNotations.
Open Scope Z_scope.

Notation kept := InPlaceSpec.kept.
Notation visible := InPlaceSpec.visible.
Notation apply_segments := InPlaceSpec.apply_segments.
Notation segments_ok := InPlaceSpec.segments_ok.
Notation enc_segments := InPlaceSpec.enc_segments.

Lemma read_further : forall (v mem : list Z) b d, 0 <= b -> 0 <= d -> ztake (zlen v) (zdrop b mem) = v ->
  ztake (zlen (zdrop d v)) (zdrop (b + d) mem) = zdrop d v.
Proof.
  intros v mem b d Hb Hd E. pose proof (zlen_nonneg v). rewrite zlen_zdrop by lia. destruct (Z_le_gt_dec d (zlen v)).
  - rewrite <- E at 2. rewrite zdrop_ztake by lia. rewrite zdrop_zdrop by lia. f_equal; [lia|]. f_equal. lia.
  - rewrite (zdrop_all d v) by lia. replace (Z.max 0 (zlen v - d)) with 0 by lia. apply ztake_0.
Qed.

Lemma segments_empty : forall segment segs, segments_ok segment segs 0 -> 0 < segment -> segs = [].
Proof.
  intros segment [|recs segs] H Hs; [reflexivity|]. cbn [InPlaceSpec.segments_ok] in H. destruct H as (A & B & _). apply last_pos in B. lia.
Qed.

Lemma segments_count : forall segment segs n, segments_ok segment segs n -> 0 < segment -> 0 <= n -> Z.of_nat (length segs) = (n + segment - 1) / segment.
Proof.
  induction segs as [|recs segs IH]; intros n H Hs Hn; cbn [InPlaceSpec.segments_ok length] in *.
  - subst n. rewrite Z.div_small by lia. reflexivity.
  - destruct H as (A & B & C). apply last_pos in B. specialize (IH _ C Hs ltac:(lia)). rewrite Nat2Z.inj_succ, IH, A.
    destruct (Z.min_spec segment n) as [(L & ->)|(L & ->)].
    + replace (n + segment - 1) with (n - segment + segment - 1 + 1 * segment) by lia. rewrite Z.div_add by lia. lia.
    + replace (n - n + segment - 1) with (segment - 1) by lia. rewrite Z.div_small by lia.
      replace (n + segment - 1) with (n - 1 + 1 * segment) by lia. rewrite Z.div_add by lia. rewrite Z.div_small by lia. reflexivity.
Qed.

Section Segments.
Context (D : decompressor) (R : dstate D -> list Z -> list Z -> Prop) (HR : contract D R).
Context (fuel : nat) (memory segment shift T : Z) (from : list Z).
Hypothesis Hsegment : 0 < segment.
Hypothesis Hshift : 0 <= shift.

(** What is left of the shifted from data when segment [i] is next. *)
Definition source (i : Z) : list Z := zdrop (Z.max (i * segment - shift) 0) (kept memory shift from).
Definition in_memory (i : Z) (mem : list Z) : Prop := ztake (zlen (source i)) (zdrop (Z.max (i * segment) shift) mem) = source i.

Lemma in_memory_next : forall i mem, 0 <= i -> in_memory i mem -> in_memory (i + 1) mem.
Proof using Hsegment Hshift.
  intros i mem Hi H. unfold in_memory, source in *. assert (0 <= i * segment) by (apply Z.mul_nonneg_nonneg; lia).
  replace ((i + 1) * segment) with (i * segment + segment) in * by lia.
  pose proof (read_further _ mem (Z.max (i * segment) shift) (Z.max (i * segment + segment) shift - Z.max (i * segment) shift) ltac:(lia) ltac:(lia) H) as X.
  rewrite zdrop_zdrop in X by lia.
  replace (Z.max (i * segment + segment) shift - Z.max (i * segment) shift + Z.max (i * segment - shift) 0) with (Z.max (i * segment + segment - shift) 0) in X by lia.
  replace (Z.max (i * segment) shift + (Z.max (i * segment + segment) shift - Z.max (i * segment) shift)) with (Z.max (i * segment + segment) shift) in X by lia. exact X.
Qed.

Lemma segments_spec : forall segs i mem r out cut rest to, holds R fuel r out -> out ++ cut = enc_segments segs ++ rest -> 0 <= i ->
  apply_segments memory segment shift from i segs = Some to -> segments_ok segment segs (Z.max 0 (T - i * segment)) -> Forall recs_fit segs ->
  in_memory i mem -> (segs <> [] -> i * segment + zlen to <= zlen mem) ->
  (exists out1 r1, out1 ++ cut = rest /\ holds R fuel r1 out1 /\
     apply_segments_loop (length segs) fuel i segment shift T mem r = ret (match segs with [] => mem | _ => blit mem (i * segment) to end, r1)) \/
  (cut <> [] /\ apply_segments_loop (length segs) fuel i segment shift T mem r = raise DetoolsError).
Proof using HR Hsegment Hshift.
  induction segs as [|recs segs IH]; intros i mem r out cut rest to H E Hi Ha Hok Hfit Hm Hroom.
  - cbn [length apply_segments_loop]. left. exists out, r. auto.
  - cbn [InPlaceSpec.apply_segments] in Ha. destruct (apply_recs (visible memory segment shift from i) 0 recs) as [a|] eqn:Ea; [|discriminate].
    destruct (apply_segments memory segment shift from (i + 1) segs) as [b|] eqn:Eb; [|discriminate]. injection Ha as <-.
    cbn [InPlaceSpec.segments_ok] in Hok. destruct Hok as (O1 & O2 & O3). inversion Hfit as [|? ? F1 F2]; subst. cbn [length apply_segments_loop].
    assert (Hpos : 0 < recs_size recs) by (apply last_pos; auto). assert (Hi0 : 0 <= i * segment) by (apply Z.mul_nonneg_nonneg; lia).
    assert (La : zlen a = recs_size recs) by (apply (apply_size _ _ _ _ Ea)). specialize (Hroom ltac:(discriminate)). rewrite zlen_app in Hroom. pose proof (zlen_nonneg b).
    pose proof (in_memory_next i mem Hi Hm) as Hm1. unfold in_memory in Hm1. change (source (i + 1)) with (visible memory segment shift from i) in Hm1.
    replace (Z.min segment (T - i * segment)) with (recs_size recs) by lia. replace (segment * (i + 1)) with ((i + 1) * segment) by lia.
    unfold InPlaceSpec.enc_segments in E. cbn [flat_map] in E. fold (enc_segments segs) in E. rewrite <- app_assoc in E.
    replace ((i + 1) * segment) with (i * segment + segment) in * by lia.
    destruct (apply_segment_spec D R HR fuel (i * segment) Hi0 (visible memory segment shift from i) (Z.max (i * segment + segment) shift) recs mem r out cut _ a H E)
      as [(out1 & r1 & A1 & A2 & A3)|(A1 & A2)]; auto; try lia; [|right; rewrite A2; auto].
    rewrite A3. cbn [pbind ret]. set (mem1 := blit mem (i * segment) a).
    assert (Hrest : T - i * segment <= segment -> segs = []).
    { intros L. apply (segments_empty segment); auto. replace (Z.max 0 (T - i * segment) - recs_size recs) with 0 in O3 by lia. exact O3. }
    destruct (IH (i + 1) mem1 r1 out1 cut rest b) as [(out2 & r2 & B1 & B2 & B3)|(B1 & B2)]; auto; try lia.
    + replace (Z.max 0 (T - (i + 1) * segment)) with (Z.max 0 (T - i * segment) - recs_size recs) by lia. exact O3.
    + unfold in_memory, mem1. change (source (i + 1)) with (visible memory segment shift from i). replace ((i + 1) * segment) with (i * segment + segment) by lia.
      rewrite zdrop_blit by lia. exact Hm1.
    + intros N. unfold mem1. rewrite zlen_blit by lia. destruct (Z_le_gt_dec (T - i * segment) segment); [destruct (N (Hrest ltac:(lia)))|]. lia.
    + left. exists out2, r2. split; [exact B1|]. split; [exact B2|]. rewrite B3. destruct segs as [|recs2 segs2] eqn:Eg.
      * cbn in Eb. injection Eb as <-. rewrite app_nil_r. reflexivity.
      * destruct (Z_le_gt_dec (T - i * segment) segment); [specialize (Hrest ltac:(lia)); discriminate|]. unfold mem1.
        replace ((i + 1) * segment) with (i * segment + zlen a) by lia. rewrite blit_blit by lia. reflexivity.
Qed.
End Segments.

(** ** The header *)

Definition in_place_body (fuel : nat) (bytesio : bool) (mem : list Z) (D : decompressor) (memory segment shift from_size to_size : Z) (file : list Z) : pyo (Z * list Z) :=
  if 0 <? to_size then
    dop mem1 := shift_memory bytesio mem memory shift from_size in
    dop count := range_length to_size segment in
    dop (mem2, r) := apply_segments_loop count fuel 0 segment shift to_size mem1 (pr_open D file) in
    if pr_eof r then ret (to_size, mem2) else raise DetoolsError
  else ret (to_size, mem).

Lemma in_place_type : forall c, unpack_header (header_byte TYPE_IN_PLACE c) = (1, comp_number c).
Proof. intros []; reflexivity. Qed.

Lemma in_place_read : forall X c D memory segment shift from_size to_size file, decompressor_of X (comp_number c) = Some D ->
  - 2 ^ 63 < memory < 2 ^ 63 -> - 2 ^ 63 < segment < 2 ^ 63 -> - 2 ^ 63 < shift < 2 ^ 63 -> - 2 ^ 63 < from_size < 2 ^ 63 -> - 2 ^ 63 < to_size < 2 ^ 63 ->
  read_header_in_place X (InPlaceSpec.in_place_header c memory segment shift from_size to_size ++ file) = ret (D, memory, segment, shift, from_size, to_size, file).
Proof.
  intros X c D memory segment shift from_size to_size file HD H1 H2 H3 H4 H5. unfold read_header_in_place, InPlaceSpec.in_place_header. rewrite <- app_comm_cons. rewrite <- !app_assoc.
  rewrite in_place_type, HD. change (negb (1 =? 1)) with false. cbn iota. unfold file_unpack_size. do 5 (rewrite py_unpack_enc by assumption; cbn [pbind ret]). reflexivity.
Qed.

Lemma in_place_sizes : forall memory segment shift from_size to_size, py_sizes_ok memory segment shift from_size to_size ->
  - 2 ^ 63 < memory < 2 ^ 63 /\ - 2 ^ 63 < segment < 2 ^ 63 /\ - 2 ^ 63 < shift < 2 ^ 63 /\ - 2 ^ 63 < from_size < 2 ^ 63 /\ - 2 ^ 63 < to_size < 2 ^ 63.
Proof. unfold py_sizes_ok. intros. change (2 ^ 63) with 9223372036854775808 in *. lia. Qed.

Lemma in_place_header_spec : forall X c D fuel bytesio mem memory segment shift from_size to_size file, decompressor_of X (comp_number c) = Some D ->
  py_sizes_ok memory segment shift from_size to_size ->
  apply_patch_in_place X fuel bytesio mem (InPlaceSpec.in_place_header c memory segment shift from_size to_size ++ file) =
  in_place_body fuel bytesio mem D memory segment shift from_size to_size file.
Proof.
  intros X c D fuel bytesio mem memory segment shift from_size to_size file HD Hs. destruct (in_place_sizes _ _ _ _ _ Hs) as (A1 & A2 & A3 & A4 & A5).
  unfold apply_patch_in_place. rewrite (in_place_read X c D) by auto. reflexivity.
Qed.

Lemma shift_spec : forall bytesio mem memory shift (from : list Z), 0 <= shift <= memory -> memory <= zlen mem -> ztake (zlen from) mem = from ->
  shift_memory bytesio mem memory shift (zlen from) = ret (blit mem shift (kept memory shift from)).
Proof.
  intros bytesio mem memory shift from Hs Hm Hf. pose proof (zlen_nonneg from). unfold shift_memory. destruct (Z.ltb_spec (zlen mem) memory); [lia|].
  unfold mem_read. destruct (Z.leb_spec 0 (zlen from)); [|lia]. cbn [pbind ret]. unfold file_read_at. rewrite zdrop_0, Hf. rewrite seek_ok by lia. cbn [pbind ret].
  rewrite InPlaceCreate.py_slice_nonneg by lia. rewrite zdrop_0, Z.sub_0_r. fold (kept memory shift from). rewrite mem_write_blit; [reflexivity|lia|].
  unfold InPlaceSpec.kept. rewrite zlen_ztake by lia. lia.
Qed.

(** The body, complete or cut off. *)
Lemma in_place_body_spec : forall D R, contract D R -> forall fuel bytesio mem memory segment shift from to segs file out cut rest,
  R (d_init D (zlen file)) file out -> (2 * (length file + length out) + 1 < fuel)%nat -> out ++ cut = enc_segments segs ++ rest ->
  py_sizes_ok memory segment shift (zlen from) (zlen to) -> memory <= zlen mem -> ztake (zlen from) mem = from ->
  apply_segments memory segment shift from 0 segs = Some to -> segments_ok segment segs (zlen to) -> Forall recs_fit segs -> to <> [] ->
  (exists r out1, out1 ++ cut = rest /\ R (pr_state r) (pr_file r) out1 /\
     in_place_body fuel bytesio mem D memory segment shift (zlen from) (zlen to) file =
     if pr_eof r then ret (zlen to, blit (blit mem shift (kept memory shift from)) 0 to) else raise DetoolsError) \/
  (cut <> [] /\ in_place_body fuel bytesio mem D memory segment shift (zlen from) (zlen to) file = raise DetoolsError).
Proof.
  intros D R HR fuel bytesio mem memory segment shift from to segs file out cut rest HS Hf E Hsz Hm Hfrom Ha Hok Hfit Hne.
  destruct Hsz as (Z1 & Z2 & Z3 & Z4 & Z5). assert (Hpos : 0 < zlen to) by (destruct to; [congruence|]; rewrite zlen_cons; pose proof (zlen_nonneg to); lia).
  unfold in_place_body. destruct (Z.ltb_spec 0 (zlen to)); [|lia]. rewrite shift_spec by auto. cbn [pbind ret]. unfold range_length.
  destruct (Z.eqb_spec segment 0); [lia|]. destruct (Z.ltb_spec segment 0); [lia|]. cbn [pbind ret]. rewrite <- (segments_count segment segs) by (auto; lia). rewrite Nat2Z.id.
  set (mem1 := blit mem shift (kept memory shift from)).
  assert (Lk : zlen (kept memory shift from) <= memory - shift) by (unfold InPlaceSpec.kept; rewrite zlen_ztake by lia; lia).
  assert (Lm : zlen mem1 = zlen mem) by (apply zlen_blit; lia).
  destruct (segments_spec D R HR fuel memory segment shift (zlen to) from ltac:(lia) ltac:(lia) segs 0 mem1 (pr_open D file) out cut rest to) as [(out1 & r1 & A1 & (A2 & _) & A3)|(A1 & A2)]; auto; try lia.
  - split; assumption.
  - replace (Z.max 0 (zlen to - 0 * segment)) with (zlen to) by lia. exact Hok.
  - unfold in_memory, source. replace (Z.max (0 * segment - shift) 0) with 0 by lia. replace (Z.max (0 * segment) shift) with shift by lia. rewrite zdrop_0.
    pose proof (zlen_nonneg (kept memory shift from)).
    unfold mem1, InPlaceSpec.blit. rewrite zdrop_app_exact by (rewrite zlen_ztake by lia; lia). apply ztake_app_exact. reflexivity.
  - left. exists r1, out1. split; [exact A1|]. split; [exact A2|]. rewrite A3. cbn [pbind ret]. change (0 * segment) with 0. destruct segs as [|a b] eqn:Eg; [|reflexivity].
    cbn in Ha. congruence.
  - right. rewrite A2. auto.
Qed.

(** Every well-formed in-place patch is applied. *)
Lemma py_in_place_applies : forall X bytesio c memory segment shift from to segs patch mem,
  py_in_place_patch c memory segment shift (zlen from) (zlen to) segs patch -> apply_segments memory segment shift from 0 segs = Some to -> Forall recs_fit segs ->
  py_sizes_ok memory segment shift (zlen from) (zlen to) -> memory <= zlen mem -> ztake (zlen from) mem = from ->
  (c = CompHeatshrink -> hs_reader_ok (x_heatshrink X)) ->
  exists n, forall fuel, (n <= fuel)%nat -> exists mem1, apply_patch_in_place X fuel bytesio mem patch = ret (zlen to, mem1) /\
    ztake (zlen to) mem1 = to /\ zdrop memory mem1 = zdrop memory mem /\ zlen mem1 = zlen mem.
Proof.
  intros X bytesio c memory segment shift from to segs patch mem (Hok & stream & -> & Hst) Ha Hfit Hsz Hm Hfrom Hh. destruct (comp_dec X c) as (D & HD & HDs).
  destruct Hst as [(-> & ->)|(Hne & S)].
  - exists O. intros fuel _. rewrite (in_place_header_spec X c D) by auto. cbn in Ha. injection Ha as <-. exists mem. unfold in_place_body. cbn. auto.
  - assert (Hto : to <> []). { intros ->. apply segments_empty in Hok; [congruence|]. destruct Hsz; lia. }
    destruct (HDs _ _ S) as (R & R1 & R2 & R3); auto.
    { destruct segs as [|recs segs]; [congruence|]. unfold InPlaceSpec.enc_segments, enc_body. cbn [flat_map]. intros N. apply app_eq_nil in N. destruct N as [N _]. apply app_eq_nil in N. destruct N. discriminate. }
    exists (Datatypes.S (2 * (length stream + length (enc_segments segs)) + 1)). intros fuel Hf. rewrite (in_place_header_spec X c D) by auto.
    destruct (in_place_body_spec D R R1 fuel bytesio mem memory segment shift from to segs stream (enc_segments segs) [] []) as [(r & out1 & B1 & B2 & B3)|(B1 & _)]; auto; [|congruence].
    destruct Hsz as (Z1 & Z2 & Z3 & Z4 & Z5).
    exists (blit (blit mem shift (kept memory shift from)) 0 to). split.
    + rewrite B3. apply app_eq_nil in B1. destruct B1 as (-> & _). unfold pr_eof. rewrite (R2 _ _ B2). reflexivity.
    + assert (Lk : zlen (kept memory shift from) <= memory - shift) by (unfold InPlaceSpec.kept; rewrite zlen_ztake by lia; lia).
      assert (Lm : zlen (blit mem shift (kept memory shift from)) = zlen mem) by (apply zlen_blit; lia).
      split; [replace (zlen to) with (0 + zlen to) at 1 by lia; rewrite blit_end by lia; rewrite ztake_0; reflexivity|]. split; [|rewrite zlen_blit by lia; exact Lm].
      rewrite !zdrop_blit by lia. reflexivity.
Qed.
