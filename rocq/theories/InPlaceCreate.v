(** Created in-place patches describe the to data. *)

From Coq Require Import ZArith List Bool Lia ZifyBool ZifyNat ZifyN.
From Verif Require Import Prelude Lib Heatshrink CReader CSeq CInPlace Spec PySize PyCrle Bsdiff BsdiffSpec BsdiffProofs PyCreate
  SizeCodec CrleProofs CodecExamples SeqApply CreateProofs InPlaceSpec PyInPlace.
Import ListNotations.
Open Scope Z_scope.

Lemma py_slice_nonneg : forall l a b, 0 <= a -> 0 <= b -> py_slice l a b = ztake (b - a) (zdrop a l).
Proof.
  intros l a b Ha Hb. unfold py_slice, py_index. cbv zeta. destruct (Z.ltb_spec a 0); [lia|]. destruct (Z.ltb_spec b 0); [lia|].
  pose proof (zlen_nonneg l).
  destruct (Z.min_spec a (zlen l)) as [(A & ->)|(A & ->)].
  - destruct (Z.min_spec b (zlen l)) as [(B & ->)|(B & ->)]; [reflexivity|].
    rewrite !ztake_all; [reflexivity| |]; rewrite zlen_zdrop by lia; lia.
  - rewrite !zdrop_all by lia. unfold ztake; rewrite !firstn_nil; reflexivity.
Qed.

Lemma zdrop_as_slice : forall l a, 0 <= a -> py_slice l a (zlen l) = zdrop a l.
Proof.
  intros l a Ha. pose proof (zlen_nonneg l). rewrite py_slice_nonneg by lia. destruct (Z_le_gt_dec a (zlen l)).
  - apply ztake_all. rewrite zlen_zdrop by lia. lia.
  - rewrite zdrop_all by lia. unfold ztake. apply firstn_nil.
Qed.

Section Create.
Variable sa : list Z -> list Z.
Hypothesis Hsa : forall l, array_ok (sa l) l.
Variables memory segment shift : Z.
Variables from to : list Z.
Hypothesis Hsizes : sizes_ok memory segment shift (zlen from) (zlen to).
Hypothesis Hto : bytes_ok to.

Lemma segments_created : forall count i, 0 <= i ->
  (count = O -> zlen to <= i * segment) -> (i + Z.of_nat count) * segment <= zlen to + segment - 1 \/ count = O ->
  zlen to <= (i + Z.of_nat count) * segment ->
  exists segs, create_in_place_segments sa segment shift (kept memory shift from) to count i = Ret (Some (enc_segments segs)) /\
    apply_segments memory segment shift from i segs = Some (zdrop (i * segment) to) /\
    segments_ok segment segs (zlen (zdrop (i * segment) to)) /\
    segments_in_limits segment shift i segs /\ bytes_ok (enc_segments segs) /\ length segs = count.
Proof.
  pose proof Hsizes as (S1 & S2 & S3 & S4 & S5 & S6 & S7). unfold size_limit in *. change (2 ^ 27) with 134217728 in *.
  induction count; intros i Hi H0 H1 H2.
  - exists []. cbn [create_in_place_segments apply_segments segments_ok segments_in_limits]. rewrite zdrop_all by lia.
    split; [reflexivity|]. split; [reflexivity|]. split; [reflexivity|]. split; [exact I|]. split; [constructor|reflexivity].
  - destruct H1 as [H1|]; [|discriminate]. replace (i + Z.of_nat (S count)) with (i + Z.of_nat count + 1) in * by lia.
    assert (Hi0 : 0 <= i * segment) by (apply Z.mul_nonneg_nonneg; lia).
    assert (Hc0 : 0 <= Z.of_nat count * segment) by (apply Z.mul_nonneg_nonneg; lia).
    assert (Hlt : i * segment < zlen to) by lia.
    destruct (IHcount (i + 1)) as (segs & A & B & C & D & E & F); [lia| | |lia|].
    { intros ->. lia. }
    { destruct count; [right; reflexivity|left]. lia. }
    cbn [create_in_place_segments]. cbv zeta.
    set (fo := Z.max (i * segment + segment - shift) 0).
    assert (Hv : py_slice (kept memory shift from) fo (zlen (kept memory shift from)) = visible memory segment shift from i).
    { rewrite zdrop_as_slice by lia. unfold visible. f_equal. lia. }
    rewrite Hv. rewrite py_slice_nonneg by lia. replace (i * segment + segment - i * segment) with segment by lia.
    set (part := ztake segment (zdrop (i * segment) to)). set (vis := visible memory segment shift from i).
    assert (Hzr : zlen (zdrop (i * segment) to) = zlen to - i * segment) by (rewrite zlen_zdrop by lia; lia).
    assert (Hzp : zlen part = Z.min segment (zlen to - i * segment)) by (unfold part; rewrite zlen_ztake by lia; lia).
    assert (Hzv : zlen vis <= memory - shift).
    { unfold vis, visible, kept. rewrite zlen_zdrop, zlen_ztake by lia. lia. }
    assert (Hvf : zlen vis <= zlen from).
    { unfold vis, visible, kept. rewrite zlen_zdrop, zlen_ztake by lia. lia. }
    assert (Hbp : bytes_ok part). { unfold part. apply Forall_ztake. apply Forall_zdrop. exact Hto. }
    destruct (create_patch_spec (sa vis) vis part (Hsa vis) ltac:(change (2 ^ 30) with 1073741824; lia) ltac:(change (2 ^ 30) with 1073741824; lia) Hbp)
      as (recs & Q1 & Q2 & Q3 & Q4 & Q5 & Q6).
    { intros X. rewrite X in Hzp. change (zlen (@nil Z)) with 0 in Hzp. lia. }
    unfold create_sequential_data. destruct (Z.eqb_spec (zlen part) 0) as [X|_]; [lia|].
    rewrite (proj1 (py_size_codec_enc 0 [] ltac:(change (2 ^ 63) with 9223372036854775808; lia))). cbn [obind].
    unfold create_chunks. rewrite Q1. cbn [obind py_compress]. rewrite A. cbn [obind].
    exists (recs :: segs). cbn [apply_segments segments_ok segments_in_limits length]. unfold enc_segments in *. cbn [flat_map].
    assert (Hbody : concat (enc_size 0 :: flat_map rec_chunks recs) = enc_body recs) by (cbn [concat]; rewrite concat_recs; reflexivity).
    split; [rewrite Hbody; reflexivity|]. fold vis. rewrite Q6, B.
    replace ((i + 1) * segment) with (segment + i * segment) in * by lia.
    split. { f_equal. unfold part. rewrite <- zdrop_zdrop by lia. apply ztake_zdrop. }
    split. { rewrite Q4, Hzp, Hzr. split; [lia|]. split; [auto|]. rewrite zlen_zdrop in C by lia.
      replace (zlen to - i * segment - Z.min segment (zlen to - i * segment)) with (Z.max 0 (zlen to - (segment + i * segment))) by lia. exact C. }
    split. { split; [eapply Forall_impl; [|exact Q3]; unfold rec_fits; cbn beta; unfold size_limit; change (2 ^ 27) with 134217728; intros r (_ & _ & R); lia|].
      split; [|exact D]. eapply Forall_impl; [|exact Q5]. cbn beta. unfold INT_MAX. intros p P. lia. }
    split; [|lia]. apply bytes_ok_app. split; [|exact E]. unfold enc_body. rewrite bytes_ok_app. split; [apply enc_size_bytes|eapply recs_bytes; eauto].
Qed.
End Create.

Lemma calc_shift_ok : forall memory segment minimum from_size, 0 < segment -> (segment | memory) -> (segment | minimum) ->
  segment <= minimum <= memory -> 0 <= from_size ->
  let shift := calc_shift memory segment minimum from_size in (segment | shift) /\ segment <= shift <= memory.
Proof.
  intros memory segment minimum from_size S0 [a Ha] [b Hb] S1 S2. unfold calc_shift, py_div_ceil. cbv zeta.
  assert (E : (memory + segment - 1) / segment = a).
  { rewrite Ha. replace (a * segment + segment - 1) with (segment - 1 + a * segment) by lia. rewrite Z.div_add by lia. rewrite Z.div_small by lia. lia. }
  rewrite E. set (n := (from_size + segment - 1) / segment). assert (Hn : 0 <= n) by (apply Z.div_pos; lia).
  assert (0 <= n * segment) by (apply Z.mul_nonneg_nonneg; lia).
  destruct (Z.ltb_spec ((a - n) * segment) minimum).
  - split; [exists b; auto|lia].
  - split; [exists (a - n); auto|lia].
Qed.

Lemma pack_sizes_enc : forall sizes, Forall (fun n => 0 <= n < 2 ^ 63) sizes -> pack_sizes sizes = Ret (Some (flat_map enc_size sizes)).
Proof.
  induction 1 as [|n sizes Hn _ IH]; [reflexivity|]. cbn [pack_sizes flat_map]. rewrite (proj1 (py_size_codec_enc n [] ltac:(lia))). rewrite IH. reflexivity.
Qed.

Lemma create_in_place_spec : forall c hs sa memory segment minimum_shift from to,
  (forall l, array_ok (sa l) l) -> bytes_ok to ->
  0 < segment -> (segment | memory) -> (segment | minimum_of segment minimum_shift) -> segment <= minimum_of segment minimum_shift <= memory ->
  memory < 2 ^ 27 -> zlen from < 2 ^ 27 -> zlen to <= memory ->
  (c = CompCrle -> forall body, create_in_place_segments sa segment (calc_shift memory segment (minimum_of segment minimum_shift) (zlen from))
       (kept memory (calc_shift memory segment (minimum_of segment minimum_shift) (zlen from)) from) to
       (Z.to_nat (py_div_ceil (zlen to) segment)) 0 = Ret (Some body) -> zlen body < 2 ^ 28) ->
  (c = CompHeatshrink -> forall pieces, bytes_ok (concat pieces) -> compressed CompHeatshrink (concat pieces) (hs pieces)) ->
  exists patch shift, create_in_place c hs sa memory segment minimum_shift from to = Ret (Some patch) /\ bytes_ok patch /\
    shift = calc_shift memory segment (minimum_of segment minimum_shift) (zlen from) /\
    sizes_ok memory segment shift (zlen from) (zlen to) /\ in_place_update c memory segment shift from to patch.
Proof.
  intros c hs sa memory segment minimum_shift from to Hsa Hto G1 G2 G3 G4 G5 G6 G7 Hc Hh.
  pose proof (zlen_nonneg from). pose proof (zlen_nonneg to).
  destruct (calc_shift_ok memory segment (minimum_of segment minimum_shift) (zlen from)) as (C1 & C2); auto.
  set (shift := calc_shift memory segment (minimum_of segment minimum_shift) (zlen from)) in *.
  assert (Hsizes : sizes_ok memory segment shift (zlen from) (zlen to)).
  { unfold sizes_ok, size_limit. change (2 ^ 27) with 134217728 in *. split; [auto|]. split; [auto|]. split; [auto|]. lia. }
  change (2 ^ 27) with 134217728 in *.
  assert (Hdc : forall n, n = py_div_ceil (zlen to) segment -> 0 <= n /\ n * segment <= zlen to + segment - 1 /\ zlen to <= n * segment).
  { intros n ->. unfold py_div_ceil. pose proof (Z.div_mod (zlen to + segment - 1) segment). pose proof (Z.mod_pos_bound (zlen to + segment - 1) segment).
    split; [apply Z.div_pos; lia|]. lia. }
  specialize (Hdc _ eq_refl). set (n := py_div_ceil (zlen to) segment) in *.
  destruct (segments_created sa Hsa memory segment shift from to Hsizes Hto (Z.to_nat n) 0) as (segs & A & B & C & D & E & F); [lia| | |lia|].
  { intros X. assert (n = 0) by lia. rewrite H1 in *. lia. }
  { left. lia. }
  rewrite Z.mul_0_l, zdrop_0 in B, C.
  exists (in_place_header c memory segment shift (zlen from) (zlen to) ++
    match py_compress c hs [enc_segments segs] with Ret (Some s) => if zlen to =? 0 then [] else s | _ => [] end), shift.
  assert (Hk : py_slice from 0 (memory - shift) = kept memory shift from).
  { rewrite py_slice_nonneg by lia. rewrite zdrop_0. unfold kept. f_equal. lia. }
  assert (Hhd : py_pack_header 1 (comp_number c) = header_byte TYPE_IN_PLACE c) by (destruct c; reflexivity).
  assert (Hhb : bytes_ok (in_place_header c memory segment shift (zlen from) (zlen to))).
  { unfold in_place_header. constructor; [unfold byte_ok; destruct c; vm_compute; split; first [discriminate|reflexivity]|].
    rewrite !bytes_ok_app. auto 10 using enc_size_bytes. }
  assert (Hsz : pack_sizes [memory; segment; shift; zlen from; zlen to] = Ret (Some (enc_size memory ++ enc_size segment ++ enc_size shift ++ enc_size (zlen from) ++ enc_size (zlen to)))).
  { rewrite pack_sizes_enc; [cbn [flat_map]; rewrite app_nil_r; reflexivity|]. change (2 ^ 63) with 9223372036854775808. repeat constructor; lia. }
  assert (Hmod : forall x, (segment | x) -> (x mod segment =? 0) = true) by (intros x X; apply Z.eqb_eq; apply Z.mod_divide; [lia|auto]).
  unfold create_in_place. destruct (Z.eqb_spec segment 0); [lia|]. rewrite !Hmod by auto. cbn [negb]. cbv zeta.
  fold shift. rewrite Hk. fold n. rewrite A. cbn [obind]. rewrite Hsz. cbn [obind]. rewrite Hhd.
  fold (in_place_header c memory segment shift (zlen from) (zlen to)).
  destruct (Z.eqb_spec (zlen to) 0) as [E0|E0].
  - assert (Ht : to = []) by (apply zlen_0_nil; auto). assert (segs = []).
    { destruct segs; [reflexivity|]. cbn [length] in F. rewrite E0 in *. assert (n = 0) by (destruct (Z.eq_dec n 0); [auto|]; nia). lia. }
    subst segs. assert (X : forall o : outcome (option (list Z)), match o with Ret (Some _) => @nil Z | _ => [] end = []) by (intros [[|]| |]; reflexivity).
    rewrite X, app_nil_r. split; [reflexivity|]. split; [auto|]. split; [auto|]. split; [auto|]. exists []. split; [|split; [auto|exact I]].
    split; [cbn; auto|]. exists []. rewrite app_nil_r. auto.
  - assert (Hne : segs <> []) by (intros ->; cbn in B; apply E0; injection B as <-; reflexivity).
    destruct (py_compress_spec c hs [enc_segments segs]) as (stream & S1 & S2 & S3); cbn [concat]; rewrite ?app_nil_r; auto.
    + destruct segs as [|recs segs]; [congruence|]. unfold enc_segments. cbn [flat_map]. intros X. apply app_eq_nil in X. destruct X as [X _]. apply (enc_body_ne recs X).
    + intros X. rewrite <- (app_nil_r (enc_segments segs)) at 1. change (enc_segments segs ++ []) with (concat [enc_segments segs]). apply Hh; auto. cbn [concat]. rewrite app_nil_r. auto.
    + rewrite S1. cbn [obind]. split; [reflexivity|]. split; [apply bytes_ok_app; auto|]. split; [auto|]. split; [auto|].
      exists segs. split; [|auto]. split; [auto|]. exists stream. split; [reflexivity|]. right. split; [auto|]. cbn [concat] in S2. rewrite app_nil_r in S2. exact S2.
Qed.
