(** In-place patches of any content in Python, as a whole (C79). *)

From Coq Require Import ZArith List Bool Lia ZifyBool ZifyNat ZifyN.
From Verif Require Import Prelude Lib Spec SeqSpec PySize PyCrle PyInPlace PyCreate PyApply PyApplyInPlace PySpec SizeCodec PyReader PyApplyProofs PyDecomp PySeq SeqBound RefuseSpec BodySpec BodyProofs BodyPy PyAnySpec LooseSpec LooseProofs IpLooseSpec IpLooseProofs.
Import ListNotations.
Open Scope Z_scope.

Lemma records_bytes : forall k old lo pos left l to rest, bytes_ok l -> segment_records k old lo pos left l = Means to rest -> bytes_ok rest.
Proof.
  induction k as [|k IH]; intros old lo pos left l to rest Hb M; cbn [segment_records] in M; (destruct (left <=? 0); [inv M; auto|]); [discriminate|].
  destruct (dec_size l) as [[ds l1]|] eqn:D1; [|discriminate]. cbv zeta in M. set (d := Z.max ds 0) in *. destruct (left <? d); [discriminate|].
  destruct ((0 <? d) && (pos <? lo)); [discriminate|]. destruct (zlen l1 <? d); [discriminate|]. destruct (slice old pos d) as [data|]; [|discriminate].
  destruct (dec_size (zdrop d l1)) as [[es l2]|] eqn:D2; [|discriminate]. set (e := Z.max es 0) in *. destruct ((left - d <? e) || (zlen l2 <? e)); [discriminate|].
  destruct (dec_size (zdrop e l2)) as [[a l3]|] eqn:D3; [|discriminate].
  destruct (segment_records k old lo (pos + d + a) (left - d - e) l3) as [to2 rest2| |] eqn:M2; [|discriminate|discriminate]. assert (rest2 = rest) by congruence. subst rest2.
  eapply IH; [|exact M2]. eapply size_rest; [|exact D3]. apply bytes_drop. eapply size_rest; [|exact D2]. apply bytes_drop. eapply size_rest; eauto.
Qed.

Section Reader.
Context (D : decompressor) (R : dstate D -> list Z -> list Z -> Prop) (HR : contract D R).
Context (fuel : nat).
Notation holds := (holds R fuel).

Lemma segments_loop : forall count i segment shift n old l (r : preader D) done, bytes_ok l -> holds r l -> 0 < segment -> 0 <= i ->
  (forall j, i <= j < i + Z.of_nat count -> j * segment < n) -> ((0 < count)%nat -> zlen done = i * segment) -> n <= zlen old ->
  match segments_mean count i segment shift n old l with
  | Means to rest => exists r1, apply_segments_loop count fuel i segment shift n (upto old done) r = ret (upto old (done ++ to), r1) /\ holds r1 rest
  | Bad => exists e, apply_segments_loop count fuel i segment shift n (upto old done) r = raise e
  | Stale => True
  end.
Proof.
  induction count as [|count IH]; intros i segment shift n old l r done Hb H Hs Hi Hc Hd Hn; cbn [segments_mean apply_segments_loop].
  { exists r. rewrite app_nil_r. auto. }
  specialize (Hd ltac:(lia)). pose proof (Hc i ltac:(lia)) as Hin.
  unfold apply_segment. destruct (dec_size l) as [[df l1]|] eqn:D1.
  2: { rewrite (size_none D R HR fuel l) by auto. cbn [pbind]. exists DetoolsError. reflexivity. }
  destruct (size_any D R HR fuel _ _ _ _ H Hb D1) as (r1 & c1 & A1 & A2). rewrite A1. cbn [pbind ret]. cbv zeta.
  destruct (0 <? df). { cbn [pbind raise]. exists OtherError. reflexivity. }
  set (size := Z.min segment (n - i * segment)) in *. assert (B1 : bytes_ok l1) by (eapply size_rest; eauto).
  pose proof (dec_size_len _ _ _ D1) as L1. assert (Hfu : (length l < fuel)%nat) by (destruct H; lia).
  pose proof (record_loop D R HR fuel (length l1) fuel old (i * segment) (i * segment + size) (Z.max (segment * (i + 1)) shift) size l1
    (mkps r1 (Z.max (segment * (i + 1)) shift) (upto old done) 0) done 0 size ltac:(lia) ltac:(lia) B1 A2 eq_refl ltac:(lia) eq_refl) as G.
  assert (Hf : fits D old (i * segment) (mkps r1 (Z.max (segment * (i + 1)) shift) (upto old done) 0) done) by (split; cbn [PyApply.ps_out PyApply.ps_dfdiff]; [reflexivity|lia]).
  specialize (G Hf eq_refl ltac:(lia)).
  destruct (segment_records (length l1) old (i * segment + size) (Z.max (segment * (i + 1)) shift) size l1) as [to l2| |] eqn:M1.
  - destruct G as (r2 & p2 & q2 & G1 & G2 & G3). rewrite G1. cbn [pbind ret]. cbn [PyApply.ps_out PyApply.ps_reader].
    assert (B2 : bytes_ok l2) by (eapply records_bytes; eauto).
    specialize (IH (i + 1) segment shift n old l2 r2 (done ++ to) B2 G2 Hs ltac:(lia)).
    assert (Hc2 : forall j, i + 1 <= j < i + 1 + Z.of_nat count -> j * segment < n) by (intros j Hj; apply Hc; lia). specialize (IH Hc2).
    assert (Hd2 : (0 < count)%nat -> zlen (done ++ to) = (i + 1) * segment).
    { intros Hcount. rewrite zlen_app, Hd, G3. pose proof (Hc2 (i + 1) ltac:(lia)). unfold size. lia. }
    specialize (IH Hd2 Hn). destruct (segments_mean count (i + 1) segment shift n old l2) as [to2 rest| |]; [|exact IH|exact I].
    destruct IH as (r3 & I1 & I2). exists r3. rewrite I1. split; [|exact I2]. rewrite app_assoc. reflexivity.
  - destruct G as (e & G). rewrite G. cbn [pbind raise]. exists e. reflexivity.
  - exact I.
Qed.

End Reader.

(** ** Header and moving *)

Lemma shift_moved : forall bytesio mem z, fitting z (zlen mem) -> shift_memory bytesio mem (is_memory z) (is_shift z) (is_from z) = ret (moved z mem).
Proof.
  intros bytesio mem [memory segment shift from to] (H1 & H2 & H3 & H4 & H5). cbn [is_memory is_shift is_from is_to is_segment] in *. unfold shift_memory, mem_read, seek_set.
  destruct (Z.ltb_spec (zlen mem) memory); [lia|]. destruct (Z.leb_spec 0 from); [|lia]. cbn [pbind ret]. destruct (Z.ltb_spec shift 0); [lia|]. cbn [pbind ret].
  assert (E : py_slice (file_read_at mem 0 from) 0 (memory - shift) = ztake (Z.min from (memory - shift)) mem).
  { unfold py_slice, file_read_at, py_index. rewrite zdrop_0. rewrite zlen_ztake by lia. change (0 <? 0) with false. cbv iota. destruct (Z.ltb_spec (memory - shift) 0); [lia|].
    replace (Z.min 0 (Z.min from (zlen mem))) with 0 by lia. rewrite zdrop_0, Z.sub_0_r. rewrite ztake_ztake by lia. f_equal. lia. }
  rewrite E. unfold moved. cbn [is_memory is_shift is_from is_to is_segment]. set (data := ztake (Z.min from (memory - shift)) mem). unfold ret. do 2 f_equal. unfold mem_write.
  destruct (Z.eqb_spec (zlen data) 0) as [Z0|Z0].
  - apply zlen_0_nil in Z0. rewrite Z0. change (zlen (@nil Z)) with 0. rewrite Z.add_0_r. cbn [app]. symmetry. apply ztake_zdrop.
  - replace (zrepeat 0 (shift - zlen mem)) with (@nil Z); [reflexivity|]. unfold zrepeat. replace (Z.to_nat (shift - zlen mem)) with O by lia. reflexivity.
Qed.

Lemma moved_len : forall mem z, fitting z (zlen mem) -> zlen (moved z mem) = zlen mem.
Proof.
  intros mem [memory segment shift from to] (H1 & H2 & H3 & H4 & H5). unfold moved. cbn [is_memory is_shift is_from is_to is_segment] in *.
  rewrite !zlen_app, zlen_zdrop, !zlen_ztake by (rewrite ?zlen_ztake by lia; lia). lia.
Qed.

Lemma header_bytes : forall patch z stream, bytes_ok patch -> in_place_header patch = Some (z, stream) ->
  bytes_ok stream /\ forall X D b, hd 0 patch = b -> decompressor_of X (Z.land b 15) = Some D -> Z.land (Z.shiftr b 4) 7 = 1 ->
  read_header_in_place X patch = ret (D, is_memory z, is_segment z, is_shift z, is_from z, is_to z, stream).
Proof.
  intros patch z stream Hp H. unfold in_place_header in H. destruct patch as [|b l]; [discriminate|]. cbn [tl hd] in *. inv Hp.
  destruct (dec_size l) as [[memory l1]|] eqn:D1; [|discriminate]. assert (B1 : bytes_ok l1) by (eapply size_rest; eauto).
  destruct (dec_size l1) as [[segment l2]|] eqn:D2; [|discriminate]. assert (B2 : bytes_ok l2) by (eapply size_rest; eauto).
  destruct (dec_size l2) as [[shift l3]|] eqn:D3; [|discriminate]. assert (B3 : bytes_ok l3) by (eapply size_rest; eauto).
  destruct (dec_size l3) as [[from l4]|] eqn:D4; [|discriminate]. assert (B4 : bytes_ok l4) by (eapply size_rest; eauto).
  destruct (dec_size l4) as [[to l5]|] eqn:D5; [|discriminate]. assert (B5 : bytes_ok l5) by (eapply size_rest; eauto). inv H. split; [exact B5|].
  intros X D b0 <- HD Ht. unfold read_header_in_place, unpack_header. rewrite Ht. change (negb (1 =? 1)) with false. cbv iota. rewrite HD. unfold file_unpack_size.
  rewrite (BodyPy.unpack_dec l), D1 by auto. cbn [pbind ret]. rewrite (BodyPy.unpack_dec l1), D2 by auto. cbn [pbind ret]. rewrite (BodyPy.unpack_dec l2), D3 by auto. cbn [pbind ret].
  rewrite (BodyPy.unpack_dec l3), D4 by auto. cbn [pbind ret]. rewrite (BodyPy.unpack_dec l4), D5 by auto. reflexivity.
Qed.

Lemma in_place_exact : forall X bytesio mem patch z stream body c,
  bytes_ok patch -> patch_type (hd 0 patch) = 1 -> announced_comp patch = comp_number c -> in_place_header patch = Some (z, stream) -> fitting z (zlen mem) ->
  compressed c body stream -> bytes_ok body -> body <> [] -> (c = CompHeatshrink -> hs_reader_ok (x_heatshrink X)) ->
  exists m, forall fuel, (m <= fuel)%nat ->
  match body_means z mem body with
  | Means to [] => apply_patch_in_place X fuel bytesio mem patch = ret (is_to z, to ++ zdrop (zlen to) (moved z mem))
  | Means _ _ | Bad => exists e, apply_patch_in_place X fuel bytesio mem patch = raise e
  | Stale => True
  end.
Proof.
  intros X bytesio mem patch z stream body c Hp Ht Hc Hh Hz Hs Hb Hne Hhs. destruct (comp_dec X c) as (D & HD & HDs).
  destruct (HDs _ _ (comp_stream _ _ _ Hs) Hne Hhs) as (R & R1 & R2 & R3).
  exists (2 * (length stream + length body) + 2)%nat. intros fuel Hf.
  destruct (header_bytes patch z stream Hp Hh) as [Hst Hread]. specialize (Hread X D (hd 0 patch) eq_refl).
  unfold announced_comp in Hc. rewrite Hc in Hread. specialize (Hread HD).
  assert (Hty : Z.land (Z.shiftr (hd 0 patch) 4) 7 = 1).
  { unfold patch_type in Ht. rewrite Z.shiftr_div_pow2 by lia. change (2 ^ 4) with 16. change 7 with (Z.ones 3). rewrite Z.land_ones by lia. exact Ht. }
  specialize (Hread Hty). unfold apply_patch_in_place. rewrite Hread. cbn [pbind ret]. pose proof (shift_moved bytesio mem z Hz) as Sh. pose proof (moved_len mem z Hz) as Lm.
  destruct Hz as (Z1 & Z2 & Z3 & Z4 & Z5). destruct (Z.ltb_spec 0 (is_to z)); [|lia]. rewrite Sh. cbn [pbind ret]. unfold range_length.
  destruct (Z.eqb_spec (is_segment z) 0); [lia|]. destruct (Z.ltb_spec (is_segment z) 0); [lia|]. cbn [pbind ret]. unfold body_means.
  set (count := Z.to_nat ((is_to z + is_segment z - 1) / is_segment z)).
  assert (Hop : holds R fuel (pr_open D stream) body) by (split; [exact R3|cbn [pr_file pr_open]; lia]).
  assert (Hcount : forall j, 0 <= j < 0 + Z.of_nat count -> j * is_segment z < is_to z).
  { intros j Hj. unfold count in Hj. pose proof (Z.mul_div_le (is_to z + is_segment z - 1) (is_segment z) Z1) as Q.
    assert (0 <= (is_to z + is_segment z - 1) / is_segment z) by (apply Z.div_pos; lia).
    assert ((j + 1) * is_segment z <= (is_to z + is_segment z - 1) / is_segment z * is_segment z) by (apply Z.mul_le_mono_nonneg_r; lia). lia. }
  pose proof (segments_loop D R R1 fuel count 0 (is_segment z) (is_shift z) (is_to z) (moved z mem) body (pr_open D stream) [] Hb Hop Z1 ltac:(lia) Hcount ltac:(intros _; reflexivity) ltac:(lia)) as G.
  change (upto (moved z mem) []) with (moved z mem) in G.
  destruct (segments_mean count 0 (is_segment z) (is_shift z) (is_to z) (moved z mem) body) as [to rest| |]; [|destruct G as (e & G); rewrite G; cbn [pbind]; exists e; reflexivity|exact I].
  destruct G as (r1 & G1 & G2 & _). rewrite G1. cbn [pbind ret app]. unfold pr_eof. destruct rest as [|x rest].
  - rewrite (R2 _ _ G2). reflexivity.
  - specialize (R1 _ _ _ G2). destruct (d_eof D (pr_state r1)); [discriminate|]. exists DetoolsError. reflexivity.
Qed.

(** Exactly the to size is described. *)
Lemma segment_size : forall k old lo pos left l to rest, segment_records k old lo pos left l = Means to rest -> zlen to = Z.max 0 left.
Proof.
  induction k as [|k IH]; intros old lo pos left l to rest M; cbn [segment_records] in M; (destruct (Z.leb_spec left 0); [inv M; change (zlen (@nil Z)) with 0; lia|]); [discriminate|].
  destruct (dec_size l) as [[ds l1]|] eqn:D1; [|discriminate]. cbv zeta in M. set (d := Z.max ds 0) in *. destruct (Z.ltb_spec left d); [discriminate|].
  destruct ((0 <? d) && (pos <? lo)); [discriminate|]. destruct (Z.ltb_spec (zlen l1) d); [discriminate|]. destruct (slice old pos d) as [data|] eqn:Sl; [|discriminate].
  destruct (dec_size (zdrop d l1)) as [[es l2]|] eqn:D2; [|discriminate]. set (e := Z.max es 0) in *. destruct ((left - d <? e) || (zlen l2 <? e)) eqn:C2; [discriminate|].
  destruct (dec_size (zdrop e l2)) as [[a l3]|] eqn:D3; [|discriminate].
  destruct (segment_records k old lo (pos + d + a) (left - d - e) l3) as [to2 rest2| |] eqn:M2; [|discriminate|discriminate]. apply IH in M2.
  assert (E : to = add_mod (ztake d l1) data ++ ztake e l2 ++ to2) by congruence. rewrite E. rewrite !zlen_app, zlen_add_mod, !zlen_ztake by lia. unfold slice in Sl.
  destruct (Z.eqb_spec d 0) as [Ez|Ez].
  - inv Sl. change (zlen (@nil Z)) with 0. pose proof (zlen_nonneg l1). lia.
  - destruct ((0 <=? pos) && (pos + d <=? zlen old)) eqn:X; [|discriminate]. inv Sl. rewrite zlen_ztake, zlen_zdrop by lia. lia.
Qed.

Lemma segments_size : forall count i segment shift n old l to rest, 0 < segment -> 0 <= i -> (Z.of_nat count = (n + segment - 1) / segment - i) -> i * segment <= n \/ count = O ->
  segments_mean count i segment shift n old l = Means to rest -> zlen to = Z.max 0 (n - i * segment).
Proof.
  induction count as [|count IH]; intros i segment shift n old l to rest Hs Hi Hc Hn M; cbn [segments_mean] in M.
  - inv M. change (zlen (@nil Z)) with 0. pose proof (Z.mul_succ_div_gt (n + segment - 1) segment Hs). replace ((n + segment - 1) / segment) with i in H by lia. lia.
  - destruct (dec_size l) as [[df l1]|]; [|discriminate]. destruct (0 <? df); [discriminate|]. cbv zeta in M. set (size := Z.min segment (n - i * segment)) in *.
    destruct (segment_records (length l1) old _ _ size l1) as [to1 l2| |] eqn:M1; [|discriminate|discriminate]. apply segment_size in M1.
    destruct (segments_mean count (i + 1) segment shift n old l2) as [to2 rest2| |] eqn:M2; [|discriminate|discriminate].
    assert (Hlt : i * segment < n).
    { pose proof (Z.mul_div_le (n + segment - 1) segment Hs). assert ((i + 1) * segment <= (n + segment - 1) / segment * segment) by (apply Z.mul_le_mono_nonneg_r; lia). lia. }
    assert (Hnext : (i + 1) * segment <= n \/ count = O).
    { destruct count as [|count]; [auto|left]. pose proof (Z.mul_div_le (n + segment - 1) segment Hs).
      assert ((i + 2) * segment <= (n + segment - 1) / segment * segment) by (apply Z.mul_le_mono_nonneg_r; lia). lia. }
    apply IH in M2; [|lia|lia|lia|exact Hnext]. assert (E : to = to1 ++ to2) by congruence. rewrite E, zlen_app. unfold size in M1. lia.
Qed.

Lemma body_size : forall z mem body to rest, fitting z (zlen mem) -> body_means z mem body = Means to rest -> zlen to = is_to z.
Proof.
  intros z mem body to rest (Z1 & Z2 & Z3 & Z4 & Z5) M. unfold body_means in M.
  assert (0 <= (is_to z + is_segment z - 1) / is_segment z) by (apply Z.div_pos; lia).
  apply segments_size in M; try lia.
Qed.

(** ** Examples *)

(** Two segments with a negative diff size, a negative zero and a record without data. *)
Definition loose_ip_mem : list Z := [1; 2; 3; 4; 0; 0; 0; 0; 99].
Definition loose_ip_body : list Z := [0; 67; 2; 7; 8; 0; 2; 1; 1; 64; 0; 0; 0; 0; 65; 1; 5; 0; 0].
Definition loose_ip_patch : list Z := [16; 8; 4; 2; 4; 5] ++ loose_ip_body.

Lemma ex_loose_ip : bytes_ok loose_ip_patch /\ patch_type (hd 0 loose_ip_patch) = 1 /\ announced_comp loose_ip_patch = comp_number CompNone /\
  in_place_header loose_ip_patch = Some (mksizes 8 4 2 4 5, loose_ip_body) /\ fitting (mksizes 8 4 2 4 5) (zlen loose_ip_mem) /\
  compressed CompNone loose_ip_body loose_ip_body /\
  moved (mksizes 8 4 2 4 5) loose_ip_mem = [1; 2; 1; 2; 3; 4; 0; 0; 99] /\
  body_means (mksizes 8 4 2 4 5) loose_ip_mem loose_ip_body = Means [7; 8; 4; 5; 5] [] /\
  forall X bytesio, apply_patch_in_place X 100 bytesio loose_ip_mem loose_ip_patch = ret (5, [7; 8; 4; 5; 5; 4; 0; 0; 99]).
Proof.
  split; [repeat constructor; unfold byte_ok; lia|]. repeat (split; [vm_compute; reflexivity|]).
  split; [unfold fitting; change (zlen loose_ip_mem) with 9; cbn; lia|]. split; [constructor|]. repeat (split; [vm_compute; reflexivity|]).
  intros X bytesio. vm_compute. reflexivity.
Qed.

(** The same patch with more after its last record, and one whose second segment reads
    the first. *)
Lemma ex_loose_ip_others : body_means (mksizes 8 4 2 4 5) loose_ip_mem (loose_ip_body ++ [0]) = Means [7; 8; 4; 5; 5] [0] /\
  body_means (mksizes 8 4 2 4 5) loose_ip_mem (ztake 18 loose_ip_body) = Bad /\
  body_means (mksizes 8 4 2 4 5) loose_ip_mem [0; 0; 4; 1; 2; 3; 4; 0; 0; 0; 0; 71; 1; 0; 0; 0] = Stale.
Proof. repeat split; vm_compute; reflexivity. Qed.
