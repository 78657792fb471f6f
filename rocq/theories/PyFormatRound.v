(** C36: a patch created with a data format is applied to the from data and gives
    the to data. *)

From Coq Require Import ZArith List Bool Lia ZifyBool ZifyNat ZifyN.
From Verif Require Import Prelude Lib Spec PySize PyCrle Bsdiff BsdiffSpec BsdiffProofs PyCreate SizeCodec CrleProofs CodecExamples CreateProofs
  PyApply PySpec PyReader PyApplyProofs PySeq PyThms PyFormat PyFormatSpec PyFormatCodec PyFormatLossless PyFormatCreate.
Import ListNotations.
Open Scope Z_scope.

Local Notation P63 := 9223372036854775808.

Lemma recs_len : forall sa from to recs, create_patch sa from to = Ret (Some (flat_map rec_chunks recs)) -> recs_size recs = zlen to -> zlen to < 2 ^ 30 ->
  zlen (enc_recs recs) < 2 ^ 40.
Proof.
  intros sa from to recs E Hs HT. unfold create_patch in E. apply loop_chunks in E. cbn [length] in E.
  assert (X : length (flat_map rec_chunks recs) = (5 * length recs)%nat).
  { clear. induction recs; [reflexivity|]. cbn [flat_map]. rewrite app_length, IHrecs. cbn [length rec_chunks]. lia. }
  rewrite X in E. pose proof (enc_recs_len recs). rewrite Hs in *. unfold zlen in HT.
  change (2 ^ 40) with 1099511627776. change (2 ^ 30) with 1073741824 in *. unfold zlen in H at 2. lia.
Qed.

Lemma with_all : forall diff x, zlen diff = zlen x -> with_df (Some diff) 0 x = sum_bytes x diff.
Proof. intros diff x E. cbn [with_df]. rewrite zdrop_0, <- E, ztake_all by lia. symmetry. apply sum_add. Qed.

Lemma format_round_trip : forall X hdiff clamps M sort c hs number sg from to fm, matcher_ok M -> (forall x, zlen x = zlen from -> array_ok (sort x) x) ->
  format_of number = Some fm -> bytes_ok from -> bytes_ok to -> zlen from < 2 ^ 30 -> zlen to < 2 ^ 30 -> segment_ok sg -> pointers_fit number sg ->
  (forall from1 to1 patch, encode M fm from to sg = ret (from1, to1, patch) -> zlen patch < 2 ^ 62) ->
  (c = CompHeatshrink -> hs_reader_ok (x_heatshrink X) /\ forall pieces, bytes_ok (concat pieces) -> py_stream CompHeatshrink (concat pieces) (hs pieces)) ->
  exists patch, create_format M sort c hs number sg from to = ret patch /\
    exists n, forall fuel, (n <= fuel)%nat -> apply_patch X format_readers hdiff fuel clamps from patch = ret (zlen to, to).
Proof.
  intros X hdiff clamps M sort c hs number sg from to fm HM Hsa Hfm Hf Ht HF HT Hsg Hfit Hp Hh. pose proof (zlen_nonneg to). pose proof (zlen_nonneg from).
  assert (Hhd : py_pack_header 0 (comp_number c) = header_byte TYPE_SEQUENTIAL c) by (destruct c; reflexivity).
  assert (B30 : forall z, z < 2 ^ 30 -> z < P63) by (intros z; change (2 ^ 30) with 1073741824; lia).
  unfold create_format. rewrite Hhd. rewrite size_bytes_enc by (unfold small; specialize (B30 _ HT); lia). cbn [pbind ret].
  destruct (comp_dec X c) as (D & HD & HDs). unfold create_format_data. destruct (Z.eqb_spec (zlen to) 0) as [E0|E0].
  - apply zlen_0_nil in E0. subst to. cbn [pbind ret]. eexists. split; [reflexivity|]. exists O. intros fuel _.
    change (zlen (@nil Z)) with 0. rewrite (apply_header X format_readers hdiff fuel clamps from c D) by (auto; change (2 ^ 63) with P63; lia). reflexivity.
  - rewrite Hfm. destruct (lossless M number fm from to sg HM Hfm Hf Ht) as (from1 & to1 & p & diff & L1 & L2 & (L3 & L4 & L5) & (L6 & L7 & L8 & L9 & L10) & L11); auto;
      try (change (2 ^ 63) with P63; apply B30; assumption).
    specialize (Hp _ _ _ L1). change (2 ^ 62) with 4611686018427387904 in Hp. rewrite L1. cbn [pbind ret]. pose proof (zlen_nonneg p).
    assert (Pp : 0 < zlen p) by (destruct p; [congruence|]; rewrite zlen_cons in *; pose proof (zlen_nonneg p); lia).
    assert (Sp : small (zlen p)) by (unfold small; lia).
    assert (Sn : small number) by (unfold format_of in Hfm; unfold small; destruct (Z.eqb_spec number 0); [lia|]; destruct (Z.eqb_spec number 1); [lia|]; destruct (Z.eqb_spec number 2); [lia|discriminate]).
    rewrite !size_bytes_enc by auto. cbn [pbind ret].
    destruct (create_patch_spec (sort from1) from1 to1 (Hsa _ L3)) as (recs & A & B & C & D1 & E & F); try lia; auto.
    { intros ->. apply E0. rewrite <- L4. reflexivity. }
    unfold create_chunks. rewrite A. unfold or_raise at 1. cbn [obind pbind ret].
    pose proof (recs_len _ _ _ _ A D1 ltac:(lia)) as Hlen. change (2 ^ 40) with 1099511627776 in Hlen.
    set (pieces := (enc_size (zlen p) ++ enc_size number ++ p) :: flat_map rec_chunks recs).
    assert (Hbody : concat pieces = enc_size (zlen p) ++ enc_size number ++ p ++ enc_recs recs) by (unfold pieces; cbn [concat]; rewrite concat_recs, <- !app_assoc; reflexivity).
    assert (Hb : bytes_ok (concat pieces)) by (rewrite Hbody, !bytes_ok_app; split; [apply enc_size_bytes|]; split; [apply enc_size_bytes|]; split; [auto|eapply recs_bytes; eauto]).
    assert (Hne : concat pieces <> []) by (rewrite Hbody; intros N; apply app_eq_nil in N; destruct N as (N & _); unfold enc_size in N; destruct (_ <? 64); discriminate).
    destruct (py_compress_stream c hs pieces) as (stream & S1 & S2 & S3); auto.
    { rewrite Hbody, !zlen_app. pose proof (enc_size_short (zlen p)). pose proof (enc_size_short number). change (2 ^ 63) with P63. lia. }
    { intros Y. apply Hh; auto. }
    unfold or_raise. rewrite S1. cbn [obind pbind ret]. eexists. split; [reflexivity|].
    destruct (HDs _ _ S2 Hne) as (R & R1 & R2 & R3); [intros Y; apply (Hh Y)|].
    exists (Datatypes.S (2 * (length stream + length (concat pieces)) + 1)). intros fuel Hfu.
    rewrite (apply_header X format_readers hdiff fuel clamps from c D); [|auto|specialize (B30 _ HT); change (2 ^ 63) with P63; lia].
    destruct (Z.eqb_spec (zlen to) 0); [lia|]. unfold body_of_patch, create_data_format_readers.
    assert (Hh0 : holds R fuel (pr_open D stream) (concat pieces)) by (split; [exact R3|cbn [pr_file pr_open]; lia]).
    assert (E1 : concat pieces ++ [] = enc_size (zlen p) ++ enc_size number ++ p ++ enc_recs recs) by (rewrite app_nil_r; exact Hbody).
    destruct (pr_size_spec D R R1 fuel (zlen p) _ _ _ _ Hh0 E1 Sp) as [(out1 & r1 & G1 & G2 & G3 & G4)|(N & _)]; [|congruence].
    rewrite G4. cbn [pbind ret]. destruct (Z.ltb_spec 0 (zlen p)); [|lia].
    destruct (pr_size_spec D R R1 fuel number _ _ _ _ G3 G2 Sn) as [(out2 & r2 & I1 & I2 & I3 & I4)|(N & _)]; [|congruence].
    rewrite I4. cbn [pbind ret].
    destruct (pr_read D R R1 fuel _ _ _ _ _ I3 I2) as [(out3 & r3 & J1 & J2 & J3 & J4)|(N & _)]; [|congruence].
    rewrite J4. cbn [pbind ret]. rewrite L2. cbn [pbind ret].
    rewrite <- (app_nil_r (enc_recs recs)) in J2.
    destruct (loop_spec D R R1 fuel from1 (Some diff) true recs fuel (mkps r3 0 [] 0) out3 [] [] to1 0 (zlen to)) as [(out4 & s1 & K1 & (K2 & _) & K3 & K4)|(N & _)];
      cbn [ps_reader ps_from ps_out ps_dfdiff df_room]; auto; try lia; try congruence.
    + pose proof (rec_le recs) as Le. rewrite Forall_forall in *. intros r Hr. specialize (Le r Hr). destruct (C r Hr) as (_ & _ & Ca). change (2 ^ 30) with 1073741824 in *. change (2 ^ 63) with P63. lia.
    + destruct J3. lia.
    + rewrite K4. cbn [pbind ret]. apply app_eq_nil in K1. destruct K1 as (-> & _). unfold pr_eof. rewrite (R2 _ _ K2), K3. cbn [ps_out ps_dfdiff app].
      rewrite with_all by lia. rewrite L11. reflexivity.
Qed.
