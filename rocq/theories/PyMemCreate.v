(** Creating an in-place patch and applying it with the Python functions. *)

From Coq Require Import ZArith List Bool Lia ZifyBool ZifyNat ZifyN.
From Verif Require Import Prelude Lib Spec PySize PyCrle Bsdiff BsdiffSpec BsdiffProofs PyCreate SizeCodec CrleProofs CodecExamples SeqApply CreateProofs
  PyInPlace PyApply PySpec PyApplyProofs PySeq PyThms PyApplyInPlace PyMemProofs PyMemThms.
From Verif Require Import InPlaceSpec InPlaceCreate.
Import ListNotations.
Open Scope Z_scope.

(** The body of a patch is not longer than this. *)
Lemma part_len : forall sa from to recs, create_patch sa from to = Ret (Some (flat_map rec_chunks recs)) -> recs_size recs = zlen to ->
  zlen (enc_body recs) <= 44 + 67 * zlen to.
Proof.
  intros sa from to recs E Hs. unfold create_patch in E. apply loop_chunks in E. cbn [length] in E.
  assert (X : length (flat_map rec_chunks recs) = (5 * length recs)%nat).
  { clear. induction recs; [reflexivity|]. cbn [flat_map]. rewrite app_length, IHrecs. cbn [length rec_chunks]. lia. }
  rewrite X in E. pose proof (enc_recs_len recs) as H. unfold enc_body. rewrite zlen_app. pose proof (enc_size_short 0). rewrite Hs in *. unfold zlen in H at 2. unfold zlen at 3. lia.
Qed.

Section Create.
Variable sa : list Z -> list Z.
Hypothesis Hsa : forall l, array_ok (sa l) l.
Variables memory segment shift : Z.
Variables from to : list Z.
Hypothesis Hsegment : 0 < segment.
Hypothesis Hshift : 0 <= shift <= memory.
Hypothesis Hmemory : memory < 2 ^ 30.
Hypothesis Hfit : zlen to <= memory.
Hypothesis Hto : bytes_ok to.

Lemma py_segments_created : forall count i, 0 <= i ->
  (count = O -> zlen to <= i * segment) -> (i + Z.of_nat count) * segment <= zlen to + segment - 1 \/ count = O ->
  zlen to <= (i + Z.of_nat count) * segment ->
  exists segs, create_in_place_segments sa segment shift (kept memory shift from) to count i = Ret (Some (enc_segments segs)) /\
    apply_segments memory segment shift from i segs = Some (zdrop (i * segment) to) /\
    segments_ok segment segs (zlen (zdrop (i * segment) to)) /\
    Forall recs_fit segs /\ bytes_ok (enc_segments segs) /\ length segs = count /\ zlen (enc_segments segs) <= 111 * zlen (zdrop (i * segment) to).
Proof.
  change (2 ^ 30) with 1073741824 in *.
  induction count; intros i Hi H0 H1 H2.
  - exists []. cbn [create_in_place_segments apply_segments segments_ok]. rewrite zdrop_all by lia.
    split; [reflexivity|]. split; [reflexivity|]. split; [reflexivity|]. split; [constructor|]. split; [constructor|]. split; [reflexivity|]. cbn. lia.
  - destruct H1 as [H1|]; [|discriminate]. replace (i + Z.of_nat (S count)) with (i + Z.of_nat count + 1) in * by lia.
    assert (Hi0 : 0 <= i * segment) by (apply Z.mul_nonneg_nonneg; lia).
    assert (Hc0 : 0 <= Z.of_nat count * segment) by (apply Z.mul_nonneg_nonneg; lia).
    assert (Hlt : i * segment < zlen to) by lia.
    destruct (IHcount (i + 1)) as (segs & A & B & C & D & E & F & G); [lia| | |lia|].
    { intros ->. lia. }
    { destruct count; [right; reflexivity|left]. lia. }
    cbn [create_in_place_segments]. cbv zeta.
    set (fo := Z.max (i * segment + segment - shift) 0).
    assert (Hv : py_slice (kept memory shift from) fo (zlen (kept memory shift from)) = visible memory segment shift from i).
    { rewrite zdrop_as_slice by lia. unfold visible. f_equal. lia. }
    rewrite Hv. rewrite py_slice_nonneg by lia. replace (i * segment + segment - i * segment) with segment by lia.
    set (part := ztake segment (zdrop (i * segment) to)). set (vis := visible memory segment shift from i).
    assert (Hzr : zlen (zdrop (i * segment) to) = zlen to - i * segment) by (rewrite zlen_zdrop by lia; lia).
    assert (Hzp : zlen part = Z.min segment (zlen to - i * segment)) by (unfold part; rewrite zlen_ztake by lia; lia).
    assert (Hzv : zlen vis <= memory - shift).
    { unfold vis, visible, kept. rewrite zlen_zdrop, zlen_ztake by lia. lia. }
    assert (Hbp : bytes_ok part). { unfold part. apply Forall_ztake. apply Forall_zdrop. exact Hto. }
    destruct (create_patch_spec (sa vis) vis part (Hsa vis) ltac:(change (2 ^ 30) with 1073741824; lia) ltac:(change (2 ^ 30) with 1073741824; lia) Hbp)
      as (recs & Q1 & Q2 & Q3 & Q4 & Q5 & Q6).
    { intros X. rewrite X in Hzp. change (zlen (@nil Z)) with 0 in Hzp. lia. }
    pose proof (part_len _ _ _ _ Q1 Q4) as Hlen.
    unfold create_sequential_data. destruct (Z.eqb_spec (zlen part) 0) as [X|_]; [lia|].
    rewrite (proj1 (py_size_codec_enc 0 [] ltac:(change (2 ^ 63) with 9223372036854775808; lia))). cbn [obind].
    unfold create_chunks. rewrite Q1. cbn [obind py_compress]. rewrite A. cbn [obind].
    exists (recs :: segs). cbn [apply_segments segments_ok length]. unfold enc_segments in *. cbn [flat_map].
    assert (Hbody : concat (enc_size 0 :: flat_map rec_chunks recs) = enc_body recs) by (cbn [concat]; rewrite concat_recs; reflexivity).
    split; [rewrite Hbody; reflexivity|]. fold vis. rewrite Q6, B.
    replace ((i + 1) * segment) with (segment + i * segment) in * by lia.
    split. { f_equal. unfold part. rewrite <- zdrop_zdrop by lia. apply ztake_zdrop. }
    assert (Hzs : zlen (zdrop (segment + i * segment) to) = Z.max 0 (zlen to - (segment + i * segment))) by (rewrite zlen_zdrop by lia; lia).
    split. { rewrite Q4, Hzp, Hzr. split; [lia|]. split; [auto|]. rewrite Hzs in C.
      replace (zlen to - i * segment - Z.min segment (zlen to - i * segment)) with (Z.max 0 (zlen to - (segment + i * segment))) by lia. exact C. }
    split. { constructor; [|exact D]. unfold recs_fit. rewrite Q4. change (2 ^ 63) with 9223372036854775808. split; [lia|].
      eapply Forall_impl; [|exact Q3]; unfold rec_fits; cbn beta. pose proof (zlen_nonneg vis). intros r (_ & _ & R); lia. }
    split; [|split; [lia|]].
    + apply bytes_ok_app. split; [|exact E]. unfold enc_body. rewrite bytes_ok_app. split; [apply enc_size_bytes|eapply recs_bytes; eauto].
    + rewrite zlen_app. lia.
Qed.
End Create.

Lemma calc_shift_range : forall memory segment minimum from_size, 0 < segment -> (segment | memory) -> 0 <= minimum <= memory -> 0 <= from_size ->
  0 <= calc_shift memory segment minimum from_size <= memory.
Proof.
  intros memory segment minimum from_size S0 [a Ha] S1 S2. unfold calc_shift, py_div_ceil. cbv zeta.
  assert (E : (memory + segment - 1) / segment = a).
  { rewrite Ha. replace (a * segment + segment - 1) with (segment - 1 + a * segment) by lia. rewrite Z.div_add by lia. rewrite Z.div_small by lia. lia. }
  rewrite E. set (n := (from_size + segment - 1) / segment). assert (Hn : 0 <= n) by (apply Z.div_pos; lia).
  assert (0 <= n * segment) by (apply Z.mul_nonneg_nonneg; lia).
  destruct (Z.ltb_spec ((a - n) * segment) minimum); lia.
Qed.

Lemma create_in_place_py : forall c hs sa memory segment minimum from to, (forall l, array_ok (sa l) l) -> bytes_ok to ->
  0 < segment < 2 ^ 63 -> (segment | memory) -> (segment | minimum_of segment minimum) -> 0 <= minimum_of segment minimum <= memory ->
  memory < 2 ^ 30 -> zlen to <= memory -> zlen from < 2 ^ 63 ->
  (c = CompHeatshrink -> forall pieces, bytes_ok (concat pieces) -> py_stream CompHeatshrink (concat pieces) (hs pieces)) ->
  exists patch shift segs, create_in_place c hs sa memory segment minimum from to = Ret (Some patch) /\ bytes_ok patch /\ py_sizes_ok memory segment shift (zlen from) (zlen to) /\ py_in_place_patch c memory segment shift (zlen from) (zlen to) segs patch /\ apply_segments memory segment shift from 0 segs = Some to /\ Forall recs_fit segs.
Proof.
  intros c hs sa memory segment minimum from to Hsa Hto S1 S2 S3 S4 S5 S6 S7 Hh. set (shift := calc_shift memory segment (minimum_of segment minimum) (zlen from)).
  pose proof (zlen_nonneg to). pose proof (zlen_nonneg from).
  assert (Hshift : 0 <= shift <= memory) by (apply calc_shift_range; auto; lia).
  set (n := py_div_ceil (zlen to) segment).
  assert (Hn : zlen to <= n * segment < zlen to + segment).
  { unfold n, py_div_ceil. pose proof (Z.div_mod (zlen to + segment - 1) segment ltac:(lia)). pose proof (Z.mod_pos_bound (zlen to + segment - 1) segment ltac:(lia)). lia. }
  assert (Hn0 : 0 <= n) by (apply Z.div_pos; lia).
  destruct (py_segments_created sa Hsa memory segment shift from to (proj1 S1) Hshift S5 S6 Hto (Z.to_nat n) 0) as (segs & A & B & C & D & E & F & G); [lia| |rewrite Z2Nat.id by lia; left; lia|rewrite Z2Nat.id by lia; lia|].
  { intros X. assert (n = 0) by lia. lia. }
  rewrite Z.mul_0_l, zdrop_0 in B, C, G.
  assert (Hk : py_slice from 0 (memory - shift) = kept memory shift from).
  { rewrite py_slice_nonneg by lia. rewrite zdrop_0, Z.sub_0_r. reflexivity. }
  assert (Hsz : pack_sizes [memory; segment; shift; zlen from; zlen to] = Ret (Some (enc_size memory ++ enc_size segment ++ enc_size shift ++ enc_size (zlen from) ++ enc_size (zlen to)))).
  { change (2 ^ 30) with 1073741824 in *. change (2 ^ 63) with 9223372036854775808 in *.
    rewrite pack_sizes_enc; [cbn [flat_map]; rewrite app_nil_r; reflexivity|]. change (2 ^ 63) with 9223372036854775808. repeat constructor; lia. }
  assert (Hhd : py_pack_header 1 (comp_number c) = header_byte TYPE_IN_PLACE c) by (destruct c; reflexivity).
  assert (Hhb : bytes_ok (in_place_header c memory segment shift (zlen from) (zlen to))).
  { unfold in_place_header. constructor; [unfold byte_ok; destruct c; vm_compute; split; first [discriminate|reflexivity]|].
    rewrite !bytes_ok_app. auto 10 using enc_size_bytes. }
  assert (Hmod : forall x, (segment | x) -> (x mod segment =? 0) = true) by (intros x X; apply Z.eqb_eq; apply Z.mod_divide; [lia|auto]).
  assert (Hsizes : py_sizes_ok memory segment shift (zlen from) (zlen to)).
  { unfold py_sizes_ok. change (2 ^ 30) with 1073741824 in *. change (2 ^ 63) with 9223372036854775808 in *. lia. }
  unfold create_in_place. destruct (Z.eqb_spec segment 0); [lia|]. rewrite !Hmod by auto. cbn [negb]. cbv zeta.
  fold shift. rewrite Hk. fold n. rewrite A. cbn [obind]. rewrite Hsz. cbn [obind]. rewrite Hhd.
  fold (in_place_header c memory segment shift (zlen from) (zlen to)).
  destruct (Z.eqb_spec (zlen to) 0) as [E0|E0].
  - exists (in_place_header c memory segment shift (zlen from) (zlen to)), shift, segs. rewrite E0 in *. apply segments_empty in C; [|lia]. subst segs.
    split; [reflexivity|]. split; [auto|]. split; [auto|]. split; [|auto]. split; [reflexivity|]. exists []. rewrite app_nil_r. auto.
  - assert (Hne : segs <> []) by (intros ->; cbn in B; apply E0; injection B as <-; reflexivity).
    destruct (py_compress_stream c hs [enc_segments segs]) as (stream & T1 & T2 & T3); cbn [concat]; rewrite ?app_nil_r; auto.
    + destruct segs as [|recs segs]; [congruence|]. unfold enc_segments. cbn [flat_map]. intros X. apply app_eq_nil in X. destruct X as [X _]. apply (enc_body_ne recs X).
    + change (2 ^ 30) with 1073741824 in *. change (2 ^ 63) with 9223372036854775808 in *. lia.
    + intros X. rewrite <- (app_nil_r (enc_segments segs)) at 1. change (enc_segments segs ++ []) with (concat [enc_segments segs]). apply Hh; auto. cbn [concat]. rewrite app_nil_r. auto.
    + rewrite T1. cbn [obind]. exists (in_place_header c memory segment shift (zlen from) (zlen to) ++ stream), shift, segs. split; [reflexivity|]. split; [apply bytes_ok_app; auto|]. split; [auto|].
      split; [|auto]. split; [auto|]. exists stream. split; [reflexivity|]. right. split; [auto|]. cbn [concat] in T2. rewrite app_nil_r in T2. exact T2.
Qed.

Lemma py_in_place_round_trip : forall X bytesio c hs sa memory segment minimum from to mem, (forall l, array_ok (sa l) l) -> bytes_ok to ->
  0 < segment < 2 ^ 63 -> (segment | memory) -> (segment | minimum_of segment minimum) -> 0 <= minimum_of segment minimum <= memory ->
  memory < 2 ^ 30 -> zlen to <= memory -> zlen from < 2 ^ 63 -> memory <= zlen mem -> ztake (zlen from) mem = from ->
  (c = CompHeatshrink -> hs_reader_ok (x_heatshrink X) /\ forall pieces, bytes_ok (concat pieces) -> py_stream CompHeatshrink (concat pieces) (hs pieces)) ->
  exists patch, create_in_place c hs sa memory segment minimum from to = Ret (Some patch) /\
  exists n, forall fuel, (n <= fuel)%nat -> exists mem1, apply_patch_in_place X fuel bytesio mem patch = ret (zlen to, mem1) /\
    ztake (zlen to) mem1 = to /\ zdrop memory mem1 = zdrop memory mem /\ zlen mem1 = zlen mem.
Proof.
  intros X bytesio c hs sa memory segment minimum from to mem Hsa Hto S1 S2 S3 S4 S5 S6 S7 Hm Hf Hh.
  destruct (create_in_place_py c hs sa memory segment minimum from to) as (patch & shift & segs & A & B & C & D & E & F); auto; [intros Y; apply (Hh Y)|].
  exists patch. split; [auto|]. eapply py_in_place_applies; eauto. intros Y; apply (Hh Y).
Qed.
