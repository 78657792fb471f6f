(** The patch as a whole: what Python accepts, and how this relates to what C accepts
    (C78). *)

From Coq Require Import ZArith List Bool Lia ZifyBool ZifyNat ZifyN.
From Verif Require Import Prelude Lib Spec SeqSpec PySize PyCrle PyCreate PyApply PySpec SizeCodec PyReader PyApplyProofs PyDecomp PySeq SeqBound RefuseSpec BodySpec BodyProofs BodyPy LooseSpec LooseProofs.
Import ListNotations.
Open Scope Z_scope.

Lemma header_read : forall X F hdiff fuel clamps from patch c D, bytes_ok patch -> patch <> [] -> patch_type (hd 0 patch) = 0 -> announced_comp patch = comp_number c ->
  decompressor_of X (comp_number c) = Some D ->
  apply_patch X F hdiff fuel clamps from patch =
  match dec_size (tl patch) with
  | None => raise DetoolsError
  | Some (n, stream) => if n =? 0 then ret (n, []) else body_of_patch F fuel clamps from n D stream
  end.
Proof.
  intros X F hdiff fuel clamps from patch c D Hp Hne Ht Hc HD. destruct patch as [|b l]; [congruence|]. cbn [tl hd] in *. inv Hp.
  assert (Hu : unpack_header b = (0, comp_number c)).
  { unfold unpack_header. unfold announced_comp in Hc. cbn [hd] in Hc. rewrite Hc. f_equal. unfold patch_type in Ht. rewrite Z.shiftr_div_pow2 by lia. change (2 ^ 4) with 16.
    change 7 with (Z.ones 3). rewrite Z.land_ones by lia. exact Ht. }
  unfold apply_patch. rewrite Hu. cbn [Z.eqb]. unfold apply_patch_sequential, read_header_sequential. rewrite Hu, HD.
  change (negb (0 =? 0)) with false. cbn iota. unfold file_unpack_size. rewrite unpack_dec by auto. destruct (dec_size l) as [[n stream]|]; [|reflexivity].
  cbn [pbind ret]. destruct (n =? 0); reflexivity.
Qed.

Lemma body_exact : forall D F clamps from n body stream, decodes D body stream -> bytes_ok body -> n <> 0 ->
  (forall d l, dec_size body = Some (d, l) -> d <= 0) ->
  exists m, forall fuel, (m <= fuel)%nat ->
  match loose clamps from n body with
  | Some (to, []) => body_of_patch F fuel clamps from n D stream = ret (n, to)
  | _ => exists e, body_of_patch F fuel clamps from n D stream = raise e
  end.
Proof.
  intros D F clamps from n body stream (R & R1 & R2 & R3) Hb Hn Hdf. exists (2 * (length stream + length body) + 2)%nat. intros fuel Hf.
  unfold loose. destruct (Z.eqb_spec n 0); [lia|]. unfold body_of_patch, create_data_format_readers.
  assert (H0 : holds R fuel (pr_open D stream) body) by (split; [exact R3|cbn [pr_file pr_open]; lia]).
  destruct (dec_size body) as [[d l]|] eqn:D1.
  2: { rewrite (size_none D R R1 fuel body) by auto. cbn [pbind]. exists DetoolsError. reflexivity. }
  destruct (size_any D R R1 fuel _ _ _ _ H0 Hb D1) as (r1 & c1 & A1 & A2). rewrite A1. cbn [pbind ret].
  specialize (Hdf d l eq_refl). destruct (Z.ltb_spec 0 d); [lia|]. cbn [pbind ret].
  pose proof (dec_size_len _ _ _ D1) as L1.
  pose proof (records_loose D R R1 fuel (length l) fuel from clamps 0 n l (mkps r1 0 [] 0) 0 n ltac:(lia) ltac:(lia) ltac:(eapply size_rest; [exact Hb|exact D1]) A2 eq_refl ltac:(lia) ltac:(lia)) as G.
  destruct (loose_records (length l) clamps from 0 n l) as [[to rest]|].
  2: { destruct G as (e & G). rewrite G. cbn [pbind]. exists e. reflexivity. }
  destruct G as (r2 & p2 & q2 & A3 & A4 & _). rewrite A3. cbn [pbind ret]. cbn [PyApply.ps_reader PyApply.ps_out app]. unfold pr_eof. destruct rest as [|x rest].
  - rewrite (R2 _ _ A4). reflexivity.
  - specialize (R1 _ _ _ A4). destruct (d_eof D (pr_state r2)); [discriminate|]. exists DetoolsError. reflexivity.
Qed.

(** Any compression. *)
Lemma py_exact : forall X F hdiff clamps from patch body stream c n,
  bytes_ok patch -> patch_type (hd 0 patch) = 0 -> announced_comp patch = comp_number c ->
  dec_size (tl patch) = Some (n, stream) -> compressed c body stream -> bytes_ok body -> body <> [] ->
  (c = CompHeatshrink -> hs_reader_ok (x_heatshrink X)) -> (forall d l, dec_size body = Some (d, l) -> d <= 0) ->
  exists m, forall fuel, (m <= fuel)%nat ->
  match loose clamps from n body with
  | Some (to, []) => apply_patch X F hdiff fuel clamps from patch = ret (n, to)
  | _ => exists e, apply_patch X F hdiff fuel clamps from patch = raise e
  end.
Proof.
  intros X F hdiff clamps from patch body stream c n Hp Ht Hc Hd Hs Hb Hne Hh Hdf. destruct (comp_dec X c) as (D & HD & HDs).
  assert (Hp0 : patch <> []) by (intros ->; discriminate).
  destruct (Z.eq_dec n 0) as [->|Nz].
  - exists O. intros fuel _. rewrite (header_read X F hdiff fuel clamps from patch c D) by auto. rewrite Hd. reflexivity.
  - destruct (body_exact D F clamps from n body stream (HDs _ _ (comp_stream _ _ _ Hs) Hne Hh) Hb Nz Hdf) as (m & Hm). exists m. intros fuel Hf.
    rewrite (header_read X F hdiff fuel clamps from patch c D) by auto. rewrite Hd. destruct (Z.eqb_spec n 0); [lia|]. apply Hm. exact Hf.
Qed.

(** Uncompressed patches, whatever they contain. *)
Lemma py_exact_plain : forall X F hdiff clamps from patch,
  bytes_ok patch -> patch_type (hd 0 patch) = 0 -> announced_comp patch = 0 ->
  (forall n body d l, dec_size (tl patch) = Some (n, body) -> dec_size body = Some (d, l) -> d <= 0) ->
  exists m, forall fuel, (m <= fuel)%nat ->
  match loose_patch clamps from patch with
  | Some (n, to) => apply_patch X F hdiff fuel clamps from patch = ret (n, to)
  | None => exists e, apply_patch X F hdiff fuel clamps from patch = raise e
  end.
Proof.
  intros X F hdiff clamps from patch Hp Ht Hc Hdf. unfold loose_patch. destruct patch as [|b l].
  { exists O. intros fuel _. exists DetoolsError. reflexivity. }
  assert (HD : decompressor_of X (comp_number CompNone) = Some none_dec) by reflexivity.
  destruct (dec_size (tl (b :: l))) as [[n body]|] eqn:Hd.
  2: { exists O. intros fuel _. rewrite (header_read X F hdiff fuel clamps from (b :: l) CompNone none_dec) by (auto; discriminate). rewrite Hd. exists DetoolsError. reflexivity. }
  destruct (Z.eq_dec n 0) as [->|Nz].
  { exists O. intros fuel _. rewrite (header_read X F hdiff fuel clamps from (b :: l) CompNone none_dec) by (auto; discriminate). rewrite Hd. reflexivity. }
  assert (Hb : bytes_ok body) by (eapply size_rest; [|exact Hd]; inv Hp; auto).
  destruct (body_exact none_dec F clamps from n body body (none_decodes body) Hb Nz ltac:(intros; eapply Hdf; eauto)) as (m & Hm). exists m. intros fuel Hf.
  rewrite (header_read X F hdiff fuel clamps from (b :: l) CompNone none_dec) by (auto; discriminate). rewrite Hd. destruct (Z.eqb_spec n 0); [lia|].
  specialize (Hm fuel Hf). destruct (loose clamps from n body) as [[to [|x rest]]|]; exact Hm.
Qed.

(** ** The relation to what is described in the strict sense *)

Lemma loose_size : forall k clamps from pos left l to rest, loose_records k clamps from pos left l = Some (to, rest) -> zlen to = Z.max 0 left.
Proof.
  induction k as [|k IH]; intros clamps from pos left l to rest M; cbn [loose_records] in M; (destruct (Z.leb_spec left 0); [inv M; change (zlen (@nil Z)) with 0; lia|]); [discriminate|].
  destruct (dec_size l) as [[ds l1]|]; [|discriminate]. cbv zeta in M. set (d := Z.max ds 0) in *.
  destruct ((left <? d) || (zlen l1 <? d)) eqn:C1; [discriminate|].
  destruct (slice from pos d) as [old|] eqn:Sl; [|discriminate]. destruct (dec_size (zdrop d l1)) as [[es l2]|]; [|discriminate]. set (e := Z.max es 0) in *.
  destruct ((left - d <? e) || (zlen l2 <? e)) eqn:C2; [discriminate|]. destruct (dec_size (zdrop e l2)) as [[a l3]|]; [|discriminate].
  destruct ((pos + d + a <? 0) && negb clamps); [discriminate|].
  destruct (loose_records k clamps from _ _ l3) as [[to2 rest2]|] eqn:M2; [|discriminate]. apply IH in M2. inv M.
  rewrite !zlen_app, zlen_add_mod, !zlen_ztake by lia. unfold slice in Sl. destruct (Z.eqb_spec d 0) as [E|E].
  - inv Sl. change (zlen (@nil Z)) with 0. pose proof (zlen_nonneg l1). lia.
  - destruct ((0 <=? pos) && (pos + d <=? zlen from)) eqn:X; [|discriminate]. inv Sl. rewrite zlen_ztake, zlen_zdrop by lia. lia.
Qed.

(** Exactly the size announced is written. *)
Lemma loose_patch_size : forall clamps from patch n to, loose_patch clamps from patch = Some (n, to) -> zlen to = Z.max 0 n.
Proof.
  intros clamps from patch n to H. unfold loose_patch in H. destruct (dec_size (tl patch)) as [[n1 body]|]; [|discriminate].
  destruct (loose clamps from n1 body) as [[to1 [|x rest]]|] eqn:L; try discriminate. inv H. unfold loose in L. destruct (Z.eqb_spec n 0) as [E|E]; [inv L; reflexivity|].
  destruct (dec_size body) as [[d l]|]; [|discriminate]. eapply loose_size; eauto.
Qed.

Lemma strict_records : forall k clamps from pos left l to rest, 0 <= left -> records_mean k from pos left l = Some (to, rest) -> loose_records k clamps from pos left l = Some (to, rest).
Proof.
  induction k as [|k IH]; intros clamps from pos left l to rest Hl M; cbn [loose_records records_mean] in *;
    (destruct (Z.eqb_spec left 0); [destruct (Z.leb_spec left 0); [exact M|lia]|]); [discriminate|]. destruct (Z.leb_spec left 0); [lia|].
  destruct (dec_size l) as [[d l1]|]; [|discriminate].
  destruct ((d <? 0) || (left <? d) || (zlen l1 <? d)) eqn:C1; [discriminate|]. cbv zeta. replace (Z.max d 0) with d by lia.
  replace ((left <? d) || (zlen l1 <? d)) with false by lia.
  destruct (slice from pos d) as [old|]; [|discriminate]. destruct (dec_size (zdrop d l1)) as [[e l2]|]; [|discriminate].
  destruct ((e <? 0) || (left - d <? e) || (zlen l2 <? e)) eqn:C2; [discriminate|]. replace (Z.max e 0) with e by lia.
  replace ((left - d <? e) || (zlen l2 <? e)) with false by lia.
  destruct (dec_size (zdrop e l2)) as [[a l3]|]; [|discriminate]. destruct (Z.ltb_spec (pos + d + a) 0); [discriminate|]. cbn [andb].
  replace (Z.max (pos + d + a) 0) with (pos + d + a) by lia.
  destruct (records_mean k from (pos + d + a) (left - d - e) l3) as [[to2 rest2]|] eqn:M2; [|discriminate]. assert (0 <= left - d - e) by lia. rewrite (IH clamps from (pos + d + a) (left - d - e) l3 to2 rest2) by assumption. exact M.
Qed.

Lemma strict_loose : forall clamps from n body to rest, 0 < n -> described from n body = Some (to, rest) -> loose clamps from n body = Some (to, rest).
Proof.
  intros clamps from n body to rest Hn M. unfold described, loose in *. destruct (Z.eqb_spec n 0); [lia|]. destruct (dec_size body) as [[d l]|]; [|discriminate].
  destruct (0 <? d); [discriminate|]. apply strict_records; auto. lia.
Qed.

(** ** Examples *)

(** Negative sizes stand for no data; position -1 counts as 0 in a BytesIO. *)
Definition loose_example : list Z := [0; 2; 0; 67; 1; 42; 65; 1; 3; 66; 0].

Lemma ex_loose : bytes_ok loose_example /\ patch_type (hd 0 loose_example) = 0 /\ announced_comp loose_example = 0 /\
  loose_patch true [7] loose_example = Some (2, [42; 10]) /\ loose_patch false [7] loose_example = None /\
  described [7] 2 (tl (tl loose_example)) = None /\
  (forall n body d l, dec_size (tl loose_example) = Some (n, body) -> dec_size body = Some (d, l) -> d <= 0).
Proof.
  split; [repeat constructor; unfold byte_ok; lia|]. repeat (split; [vm_compute; reflexivity|]).
  intros n body d l H1 H2. vm_compute in H1. inv H1. vm_compute in H2. inv H2. lia.
Qed.
