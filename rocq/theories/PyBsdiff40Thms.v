(** BSDIFF40 patches: the round trip, and the applier on arbitrary contents. *)

From Coq Require Import ZArith List Bool Lia ZifyBool ZifyNat ZifyN.
From Verif Require Import Prelude Lib Spec PySize SizeCodec Bsdiff BsdiffSpec BsdiffProofs PyApply PySpec PyApplyProofs PySeq PyThms PyBsdiff40 PyBsdiff40Spec CreateProofs PyBsdiff40Proofs.
Import ListNotations.
Open Scope Z_scope.

Local Notation P63 := 9223372036854775808.

Lemma zlen_ctrl : forall recs, zlen (ctrl_of recs) = 24 * zlen recs.
Proof.
  induction recs as [|r recs IH]; [reflexivity|]. change (ctrl_of (r :: recs)) with ((off (zlen (r_diff r)) ++ off (zlen (r_extra r)) ++ off (r_adj r)) ++ ctrl_of recs).
  rewrite !zlen_app, !zlen_off, IH, zlen_cons. lia.
Qed.

Lemma ctrl_bytes : forall recs, bytes_ok (ctrl_of recs).
Proof.
  induction recs as [|r recs IH]; [constructor|]. change (ctrl_of (r :: recs)) with ((off (zlen (r_diff r)) ++ off (zlen (r_extra r)) ++ off (r_adj r)) ++ ctrl_of recs).
  rewrite !bytes_ok_app. unfold off. auto using bytes_le.
Qed.

Lemma zlen_diffs : forall recs, zlen (diff_of recs) + zlen (extra_of recs) = recs_size recs.
Proof.
  induction recs as [|r recs IH]; [reflexivity|]. rewrite recs_size_cons. change (diff_of (r :: recs)) with (r_diff r ++ diff_of recs). change (extra_of (r :: recs)) with (r_extra r ++ extra_of recs).
  rewrite !zlen_app. unfold rec_size. lia.
Qed.

Lemma data_bytes : forall F recs, Forall (rec_fits F) recs -> bytes_ok (diff_of recs) /\ bytes_ok (extra_of recs).
Proof.
  induction recs as [|r recs IH]; intros H; [split; constructor|]. inversion H as [|? ? Q Hr]; subst. destruct (IH Hr) as (A & B).
  change (diff_of (r :: recs)) with (r_diff r ++ diff_of recs). change (extra_of (r :: recs)) with (r_extra r ++ extra_of recs). rewrite !bytes_ok_app. unfold rec_fits in Q. tauto.
Qed.

Lemma records_count : forall sa from to recs, create_patch sa from to = Ret (Some (flat_map rec_chunks recs)) -> zlen recs <= 2 * zlen to + 1.
Proof.
  intros sa from to recs E. unfold create_patch in E. apply loop_chunks in E. cbn [length] in E.
  assert (X : length (flat_map rec_chunks recs) = (5 * length recs)%nat).
  { clear. induction recs; [reflexivity|]. cbn [flat_map]. rewrite app_length, IHrecs. cbn [length rec_chunks]. lia. }
  rewrite X in E. unfold zlen. lia.
Qed.

Lemma create_bsdiff40 : forall bz sa from to, (forall pieces, zlen (bz_compress bz pieces) <= 2 * zlen (concat pieces) + 1000) ->
  array_ok sa from -> bytes_ok to -> zlen from < 2 ^ 30 -> zlen to < 2 ^ 30 ->
  exists recs, create_patch_bsdiff bz sa from to = ret (bsdiff40 (zlen to) (bz_compress bz (ctrl_pieces recs)) (bz_compress bz (map r_diff recs)) (bz_compress bz (map r_extra recs))) /\
    apply_recs from 0 recs = Some to /\ recs_size recs = zlen to /\ (recs = [] \/ last_nonempty recs) /\ recs_fit recs /\
    zlen (bz_compress bz (ctrl_pieces recs)) < 2 ^ 63 /\ zlen (bz_compress bz (map r_diff recs)) < 2 ^ 63 /\
    bytes_ok (diff_of recs) /\ bytes_ok (extra_of recs).
Proof.
  intros bz sa from to Hz Hsa Hto HF HT. pose proof (zlen_nonneg to). pose proof (zlen_nonneg from).
  assert (G : exists recs, create_patch sa from to = Ret (Some (flat_map rec_chunks recs)) /\ (recs = [] \/ last_nonempty recs) /\ Forall (rec_fits from) recs /\ recs_size recs = zlen to /\ apply_recs from 0 recs = Some to).
  { destruct to as [|b to1] eqn:E; [exists []; cbn; auto 6|]. rewrite <- E in *. destruct (create_patch_spec sa from to Hsa HF HT Hto) as (recs & A1 & A2 & A3 & A4 & A5 & A6); [rewrite E; discriminate|].
    exists recs. auto 10. }
  destruct G as (recs & A1 & A2 & A3 & A4 & A5). exists recs.
  assert (Hfit : recs_fit recs).
  { unfold recs_fit. change (2 ^ 30) with 1073741824 in *. change (2 ^ 63) with P63. split; [lia|]. eapply Forall_impl; [|exact A3]. unfold rec_fits. cbn beta. intros r (_ & _ & R). lia. }
  destruct (data_bytes from recs A3) as (B1 & B2). pose proof (records_count _ _ _ _ A1) as Hn.
  pose proof (Hz (ctrl_pieces recs)) as Z1. pose proof (Hz (map r_diff recs)) as Z2. rewrite concat_ctrl, zlen_ctrl in Z1. rewrite concat_diffs in Z2. pose proof (zlen_diffs recs). pose proof (zlen_nonneg (extra_of recs)).
  assert (Hc : zlen (bz_compress bz (ctrl_pieces recs)) < P63) by (change (2 ^ 30) with 1073741824 in *; lia).
  assert (Hd : zlen (bz_compress bz (map r_diff recs)) < P63) by (change (2 ^ 30) with 1073741824 in *; lia).
  split; [|auto 10]. unfold create_patch_bsdiff. rewrite A1. cbn [obind].
  rewrite split_spec.
  2:{ destruct Hfit as (F1 & F2). pose proof (rec_le recs) as L. rewrite Forall_forall in *. intros x Hx. specialize (L x Hx). specialize (F2 x Hx). lia. }
  cbn [pbind ret]. pose proof (zlen_nonneg (bz_compress bz (ctrl_pieces recs))). pose proof (zlen_nonneg (bz_compress bz (map r_diff recs))).
  rewrite !offtout_off by (change (2 ^ 63) with P63; change (2 ^ 30) with 1073741824 in *; lia). reflexivity.
Qed.

Lemma bsdiff40_round_trip : forall bz clamps sa from to, bz_lossless bz -> (forall pieces, zlen (bz_compress bz pieces) <= 2 * zlen (concat pieces) + 1000) ->
  array_ok sa from -> bytes_ok to -> zlen from < 2 ^ 30 -> zlen to < 2 ^ 30 ->
  exists patch, create_patch_bsdiff bz sa from to = ret patch /\
    exists n, forall fuel, (n <= fuel)%nat -> apply_patch_bsdiff bz fuel clamps from patch = ret (zlen to, to).
Proof.
  intros bz clamps sa from to (R & HR & Hl) Hz Hsa Hto HF HT. destruct (create_bsdiff40 bz sa from to) as (recs & A1 & A2 & A3 & A4 & A5 & A6 & A7 & A8 & A9); auto.
  eexists. split; [exact A1|]. exists (Datatypes.S (length recs)). intros fuel Hf. rewrite <- A3. rewrite (bsdiff40_applies bz R HR clamps from to); auto.
  - rewrite <- (apply_size _ _ _ _ A2). reflexivity.
  - rewrite <- concat_ctrl. apply Hl. rewrite concat_ctrl. apply ctrl_bytes.
  - rewrite <- concat_diffs. apply Hl. rewrite concat_diffs. auto.
  - rewrite <- concat_extras. apply Hl. rewrite concat_extras. auto.
Qed.

(** ** Arbitrary contents *)

Section Any.
Variable bz : bz2.
Variable R : bz_state bz -> list Z -> Prop.
Hypothesis HR : bz_ok bz R.

Lemma bz_any : forall s out n, R s out -> 0 < n -> (bz_call bz s [] n = raise OtherError) \/ (out <> [] /\ exists s1, bz_call bz s [] n = ret (ztake n out, s1) /\ R s1 (zdrop n out)).
Proof using HR.
  intros s out n H Hn. destruct HR as (H1 & H2 & _). unfold bz_call. destruct out as [|b out].
  - left. rewrite (H2 s n H). reflexivity.
  - right. split; [discriminate|]. destruct (H1 s (b :: out) n H) as (s1 & A & B); [discriminate|auto|]. exists s1. rewrite A. auto.
Qed.

Lemma offtin_any : forall l, (exists x, offtin l = ret x) \/ offtin l = raise OtherError.
Proof. intros. unfold offtin. destruct (zlen l =? 8); eauto. Qed.

Lemma zlen_sum : forall a b, zlen a = zlen b -> zlen (sum_bytes a b) = zlen a.
Proof.
  induction a as [|x a IH]; intros [|y b] E; cbn [sum_bytes]; try reflexivity.
  - rewrite zlen_cons in E. pose proof (zlen_nonneg a). change (zlen (@nil Z)) with 0 in E. lia.
  - rewrite !zlen_cons in *. rewrite IH by lia. reflexivity.
Qed.

Lemma zlen_take_le : forall n (l : list Z), 0 <= n -> zlen (ztake n l) <= n.
Proof. intros n l Hn. rewrite zlen_ztake by lia. lia. Qed.

Lemma zlen_drop_le : forall n (l : list Z), 0 < n -> l <> [] -> (length (zdrop n l) < length l)%nat.
Proof. intros n l Hn Hl. assert (zlen (zdrop n l) < zlen l); [|unfold zlen in *; lia]. rewrite zlen_zdrop by lia. destruct l; [congruence|]. rewrite zlen_cons. pose proof (zlen_nonneg l). lia. Qed.

Lemma bsdiff_loop_any : forall clamps from k s o1 o2 o3 to_pos to_size, R (bs_ctrl s) o1 -> R (bs_diff s) o2 -> R (bs_extra s) o3 -> (length o1 < k)%nat -> zlen (bs_out s) <= to_pos ->
  to_pos <= Z.max 0 to_size ->
  (exists e, bsdiff_loop bz k clamps from to_pos to_size s = raise e) \/
  exists s1, bsdiff_loop bz k clamps from to_pos to_size s = ret s1 /\ zlen (bs_out s1) <= Z.max 0 to_size.
Proof using HR.
  intros clamps from. induction k; intros s o1 o2 o3 to_pos to_size H1 H2 H3 Hk Ho Ht; [lia|]. cbn [bsdiff_loop]. destruct (Z.ltb_spec to_pos to_size); [|right; exists s; split; [reflexivity|lia]].
  destruct (bz_any _ _ 8 H1 ltac:(lia)) as [->|(N1 & c1 & -> & A1)]; [left; eexists; reflexivity|]. cbn [pbind ret]. destruct (offtin_any (ztake 8 o1)) as [(dsz & ->)| ->]; cbn [pbind]; [|left; eexists; reflexivity]. cbn [pbind ret].
  destruct (bz_any _ _ 8 A1 ltac:(lia)) as [->|(N2 & c2 & -> & A2)]; [left; eexists; reflexivity|]. cbn [pbind ret]. destruct (offtin_any (ztake 8 (zdrop 8 o1))) as [(esz & ->)| ->]; [|left; eexists; reflexivity]. cbn [pbind ret].
  destruct (bz_any _ _ 8 A2 ltac:(lia)) as [->|(N3 & c3 & -> & A3)]; [left; eexists; reflexivity|]. cbn [pbind ret]. destruct (offtin_any (ztake 8 (zdrop 8 (zdrop 8 o1)))) as [(adj & ->)| ->]; [|left; eexists; reflexivity]. cbn [pbind ret].
  pose proof (zlen_drop_le 8 o1 ltac:(lia) N1) as L1. pose proof (zlen_drop_le 8 _ ltac:(lia) N2) as L2. pose proof (zlen_drop_le 8 _ ltac:(lia) N3) as L3.
  destruct (Z.ltb_spec to_size (to_pos + dsz)); [left; eexists; reflexivity|].
  assert (I1 : (exists e, bsdiff_diff bz from to_pos dsz (mkbs c3 (bs_diff s) (bs_extra s) (bs_from s) (bs_out s)) = raise e) \/
    exists s1 o4 tp, bsdiff_diff bz from to_pos dsz (mkbs c3 (bs_diff s) (bs_extra s) (bs_from s) (bs_out s)) = ret (tp, s1) /\ bs_ctrl s1 = c3 /\ bs_extra s1 = bs_extra s /\ R (bs_diff s1) o4 /\
      zlen (bs_out s1) <= tp /\ tp <= to_size).
  { unfold bsdiff_diff. destruct (Z.ltb_spec 0 dsz); [|right; exists (mkbs c3 (bs_diff s) (bs_extra s) (bs_from s) (bs_out s)), o2, to_pos; cbn; repeat split; auto; lia].
    cbn [bs_diff bs_ctrl bs_extra bs_from bs_out]. destruct (bz_any _ _ dsz H2 ltac:(lia)) as [->|(N4 & d1 & -> & A4)]; [left; eexists; reflexivity|]. cbn [pbind ret]. unfold add_bytes. destruct (Z.eqb_spec (zlen (ztake dsz o2)) (zlen (file_read_at from (bs_from s) dsz))) as [E|]; [|left; eexists; reflexivity].
    cbn [pbind ret]. right. eexists. exists (zdrop dsz o2). eexists. split; [reflexivity|]. cbn [bs_ctrl bs_extra bs_diff bs_out]. repeat split; auto. rewrite zlen_app, zlen_sum by auto. pose proof (zlen_take_le dsz o2). lia. }
  destruct I1 as [(e & ->)|(s1 & o4 & tp & -> & S1 & S2 & S3 & S4 & S5)]; [left; eexists; reflexivity|]. cbn [pbind ret]. destruct (Z.ltb_spec to_size (tp + esz)); [left; eexists; reflexivity|].
  assert (I2 : (exists e, bsdiff_extra bz tp esz s1 = raise e) \/ exists s2 o5 tp2, bsdiff_extra bz tp esz s1 = ret (tp2, s2) /\ bs_ctrl s2 = c3 /\ R (bs_diff s2) o4 /\ R (bs_extra s2) o5 /\ zlen (bs_out s2) <= tp2 /\ tp2 <= to_size).
  { unfold bsdiff_extra. rewrite <- S2 in H3. destruct (Z.ltb_spec 0 esz); [|right; exists s1, o3, tp; auto 10].
    destruct (bz_any _ _ esz H3 ltac:(lia)) as [->|(N4 & d1 & -> & A4)]; [left; eexists; reflexivity|]. cbn [pbind ret]. right. eexists. exists (zdrop esz o3). eexists. split; [reflexivity|]. cbn [bs_ctrl bs_extra bs_diff bs_out]. repeat split; auto.
    rewrite zlen_app. pose proof (zlen_take_le esz o3). lia. }
  destruct I2 as [(e & ->)|(s2 & o5 & tp2 & -> & T1 & T2 & T3 & T4 & T5)]; [left; eexists; reflexivity|]. cbn [pbind ret]. unfold seek_cur.
  assert (J : forall pos, (exists e, bsdiff_loop bz k clamps from tp2 to_size (mkbs (bs_ctrl s2) (bs_diff s2) (bs_extra s2) pos (bs_out s2)) = raise e) \/
    exists s3, bsdiff_loop bz k clamps from tp2 to_size (mkbs (bs_ctrl s2) (bs_diff s2) (bs_extra s2) pos (bs_out s2)) = ret s3 /\ zlen (bs_out s3) <= Z.max 0 to_size).
  { intros pos. eapply IHk; cbn [bs_ctrl bs_diff bs_extra bs_out]; [rewrite T1; exact A3|exact T2|exact T3|lia|exact T4|lia]. }
  destruct (_ <? 0); [destruct clamps|]; cbn [pbind ret]; [apply J|left; eexists; reflexivity|apply J].
Qed.

Lemma bsdiff40_any : forall clamps from n c d e ctrl diff extra, bz_stream bz R c ctrl -> bz_stream bz R d diff -> bz_stream bz R e extra ->
  zlen ctrl < 2 ^ 63 -> zlen diff < 2 ^ 63 -> - 2 ^ 63 < n < 2 ^ 63 ->
  exists m, forall fuel, (m <= fuel)%nat -> exists v, apply_patch_bsdiff bz fuel clamps from (bsdiff40 n ctrl diff extra) = Ret v /\
    forall n1 to, v = Val (n1, to) -> n1 = n /\ zlen to <= Z.max 0 n.
Proof using HR.
  intros clamps from n c d e ctrl diff extra (s1 & C1 & C2) (s2 & D1 & D2) (s3 & E1 & E2) Hc Hd Hn. exists (Datatypes.S (length c)). intros fuel Hf. unfold apply_patch_bsdiff. rewrite header_spec by auto. cbn [pbind ret].
  rewrite read_exact by reflexivity. unfold bz_call at 1. rewrite C1. cbn [pbind ret].
  rewrite read_exact by reflexivity. unfold bz_call at 1. rewrite D1. cbn [pbind ret]. unfold bz_call at 1. rewrite E1. cbn [pbind ret].
  destruct (bsdiff_loop_any clamps from fuel (mkbs s1 s2 s3 0 []) c d e 0 n) as [(x & ->)|(s & -> & L)]; auto; cbn [bs_out]; try (change (zlen (@nil Z)) with 0); try lia; cbn [pbind ret].
  - eexists. split; [reflexivity|]. discriminate.
  - repeat match goal with |- context [if negb ?b then _ else _] => destruct b; cbn [negb] end; eexists; (split; [reflexivity|]); try discriminate.
    intros n1 to E. injection E as <- <-. auto.
Qed.
End Any.
