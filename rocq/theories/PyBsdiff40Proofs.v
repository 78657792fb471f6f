(** BSDIFF40 patches: proofs. *)

From Coq Require Import ZArith List Bool Lia ZifyBool ZifyNat ZifyN.
From Verif Require Import Prelude Lib Spec PySize SizeCodec Bsdiff BsdiffSpec BsdiffProofs PyApply PySpec PyApplyProofs PySeq PyBsdiff40 PyBsdiff40Spec CreateProofs.
Import ListNotations.
Open Scope Z_scope.

Local Notation P63 := 9223372036854775808.

(** ** The header fields *)

Lemma pack_le_bytes : forall k v, pack_le k v = le_bytes k v.
Proof. induction k; intros; cbn [pack_le le_bytes]; [|rewrite IHk]; reflexivity. Qed.

Lemma unpack_pack : forall k v, 0 <= v < 256 ^ Z.of_nat k -> unpack_le (le_bytes k v) = v.
Proof.
  induction k; intros v Hv; cbn [le_bytes unpack_le]; [change (256 ^ Z.of_nat 0) with 1 in Hv; lia|].
  rewrite Nat2Z.inj_succ, Z.pow_succ_r in Hv by lia. rewrite IHk.
  - pose proof (Z.div_mod v 256 ltac:(lia)). lia.
  - split; [apply Z.div_pos; lia|]. apply Z.div_lt_upper_bound; lia.
Qed.

Lemma zlen_le_bytes : forall k v, zlen (le_bytes k v) = Z.of_nat k.
Proof. induction k; intros; cbn [le_bytes]; [reflexivity|]. rewrite zlen_cons, IHk. lia. Qed.

Lemma bytes_le : forall k v, bytes_ok (le_bytes k v).
Proof. induction k; intros; cbn [le_bytes]; constructor; [|apply IHk]. unfold byte_ok. pose proof (Z.mod_pos_bound v 256 ltac:(lia)). lia. Qed.

Lemma zlen_off : forall x, zlen (off x) = 8.
Proof. intros. unfold off. rewrite zlen_le_bytes. reflexivity. Qed.

Lemma low_bit : forall a i, 0 <= a < 2 ^ 63 -> 63 <= i -> Z.testbit a i = false.
Proof.
  intros a i Ha Hi. destruct (Z.eq_dec a 0) as [->|N]; [apply Z.bits_0|]. apply Z.bits_above_log2; [lia|].
  assert (Z.log2 a < 63) by (apply Z.log2_lt_pow2; lia). lia.
Qed.

Lemma top_bit : forall i, 0 <= i -> Z.testbit (Z.shiftl 1 63) i = (i =? 63).
Proof.
  intros i Hi. rewrite Z.shiftl_1_l. destruct (Z.eqb_spec i 63) as [->|N]; [reflexivity|]. apply Z.pow2_bits_false. lia.
Qed.

Lemma land_top : forall a, 0 <= a < 2 ^ 63 -> Z.land a (Z.shiftl 1 63) = 0.
Proof.
  intros a Ha. apply Z.bits_inj'. intros i Hi. rewrite Z.land_spec, Z.bits_0, top_bit by lia. destruct (Z.eqb_spec i 63) as [->|]; [|apply andb_false_r].
  rewrite low_bit by lia. reflexivity.
Qed.

Lemma lor_top : forall a, 0 <= a < 2 ^ 63 -> Z.lor a (Z.shiftl 1 63) = a + 2 ^ 63.
Proof. intros a Ha. rewrite <- Z.lxor_lor by (apply land_top; auto). rewrite <- Z.add_nocarry_lxor by (apply land_top; auto). rewrite Z.shiftl_1_l. reflexivity. Qed.

Lemma off_range : forall x, - 2 ^ 63 < x < 2 ^ 63 -> 0 <= Z.abs x + (if x <? 0 then 2 ^ 63 else 0) < 256 ^ Z.of_nat 8.
Proof. intros x Hx. change (256 ^ Z.of_nat 8) with (2 * P63). change (2 ^ 63) with P63 in *. destruct (Z.ltb_spec x 0); lia. Qed.

Lemma offtout_off : forall x, - 2 ^ 63 < x < 2 ^ 63 -> offtout x = ret (off x).
Proof.
  intros x Hx. unfold offtout, off. rewrite pack_le_bytes. pose proof (off_range x Hx) as H. change (256 ^ Z.of_nat 8) with (2 ^ 64) in H. destruct (Z.ltb_spec x 0).
  - rewrite lor_top by lia. replace (x * -1) with (Z.abs x) by lia. destruct (Z.ltb_spec (Z.abs x + 2 ^ 63) (2 ^ 64)); [reflexivity|lia].
  - rewrite Z.add_0_r in *. replace (Z.abs x) with x in * by lia. destruct (Z.ltb_spec x (2 ^ 64)); [reflexivity|lia].
Qed.

Lemma offtin_off : forall x, - 2 ^ 63 < x < 2 ^ 63 -> offtin (off x) = ret x.
Proof.
  intros x Hx. unfold offtin. rewrite zlen_off. change (8 =? 8) with true. cbv iota zeta. unfold off. rewrite unpack_pack by (apply off_range; auto). f_equal. f_equal.
  destruct (Z.ltb_spec x 0).
  - rewrite <- lor_top by lia. set (a := Z.abs x). assert (Ha : 0 <= a < 2 ^ 63) by lia.
    replace (Z.land (Z.lor a (Z.shiftl 1 63)) (Z.shiftl 1 63)) with (Z.shiftl 1 63).
    2:{ apply Z.bits_inj'. intros i Hi. rewrite Z.land_spec, Z.lor_spec, top_bit by lia. destruct (i =? 63); [rewrite orb_true_r|rewrite andb_false_r]; reflexivity. }
    change (Z.shiftl 1 63 =? 0) with false. cbv iota.
    replace (Z.land (Z.lor a (Z.shiftl 1 63)) (Z.lnot (Z.shiftl 1 63))) with a; [lia|].
    apply Z.bits_inj'. intros i Hi. rewrite Z.land_spec, Z.lor_spec, Z.lnot_spec, top_bit by lia. destruct (Z.eqb_spec i 63) as [->|]; cbn [negb].
    + rewrite andb_false_r. apply low_bit; lia.
    + rewrite orb_false_r, andb_true_r. reflexivity.
  - rewrite Z.add_0_r. replace (Z.abs x) with x by lia. rewrite land_top by lia. reflexivity.
Qed.

(** ** Applying *)

Section Apply.
Variable bz : bz2.
Variable R : bz_state bz -> list Z -> Prop.
Hypothesis HR : bz_ok bz R.

Lemma bz_take : forall s a rest, R s (a ++ rest) -> a <> [] -> exists s1, bz_call bz s [] (zlen a) = ret (a, s1) /\ R s1 rest.
Proof using HR.
  intros s a rest H Ha. destruct HR as (H1 & _). assert (0 < zlen a). { destruct a; [congruence|]. rewrite zlen_cons. pose proof (zlen_nonneg a). lia. }
  destruct (H1 s (a ++ rest) (zlen a) H) as (s1 & A & B); [destruct a; discriminate|auto|]. rewrite ztake_app_exact in A by reflexivity. rewrite zdrop_app_exact in B by reflexivity.
  exists s1. unfold bz_call. rewrite A. auto.
Qed.

Lemma bz_off : forall s x rest, R s (off x ++ rest) -> exists s1, bz_call bz s [] 8 = ret (off x, s1) /\ R s1 rest.
Proof using HR. intros s x rest H. pose proof (bz_take s (off x) rest H) as T. rewrite zlen_off in T. apply T. discriminate. Qed.

Lemma bsdiff_loop_spec : forall clamps from recs k s to to_pos to_size,
  R (bs_ctrl s) (ctrl_of recs) -> R (bs_diff s) (diff_of recs) -> R (bs_extra s) (extra_of recs) ->
  apply_recs from (bs_from s) recs = Some to -> to_pos + recs_size recs = to_size -> (recs = [] \/ last_nonempty recs) ->
  Forall (fun r => rec_size r < 2 ^ 63 /\ - 2 ^ 63 < r_adj r < 2 ^ 63) recs -> (length recs < k)%nat -> 0 <= bs_from s ->
  exists s1, bsdiff_loop bz k clamps from to_pos to_size s = ret s1 /\ R (bs_ctrl s1) [] /\ R (bs_diff s1) [] /\ R (bs_extra s1) [] /\ bs_out s1 = bs_out s ++ to.
Proof using HR.
  intros clamps from. induction recs as [|r recs IH]; intros k s to to_pos to_size H1 H2 H3 Ha Hs Hl Hr Hk Hp.
  - cbn [recs_size fold_right] in Hs. destruct k; [lia|]. cbn [bsdiff_loop]. destruct (Z.ltb_spec to_pos to_size); [lia|]. exists s. cbn in Ha. injection Ha as <-. rewrite app_nil_r. auto.
  - destruct Hl as [Hl|Hl]; [discriminate|]. inversion Hr as [|? ? (Q1 & Q2) Hr2]; subst.
    cbn [apply_recs] in Ha. destruct (slice from (bs_from s) (zlen (r_diff r))) as [f|] eqn:Es; [|discriminate].
    destruct (Z.ltb_spec (bs_from s + zlen (r_diff r) + r_adj r) 0); [discriminate|].
    destruct (apply_recs from (bs_from s + zlen (r_diff r) + r_adj r) recs) as [to2|] eqn:Ea; [|discriminate]. injection Ha as <-.
    rewrite recs_size_cons in *. pose proof (last_pos (r :: recs) Hl) as Hpos. rewrite recs_size_cons in Hpos. pose proof (recs_size_ge recs). unfold rec_size in *.
    pose proof (zlen_nonneg (r_diff r)). pose proof (zlen_nonneg (r_extra r)).
    destruct k; [lia|]. cbn [bsdiff_loop]. set (T := to_pos + (zlen (r_diff r) + zlen (r_extra r) + recs_size recs)) in *. destruct (Z.ltb_spec to_pos T); [|unfold T in *; lia].
    change (ctrl_of (r :: recs)) with ((off (zlen (r_diff r)) ++ off (zlen (r_extra r)) ++ off (r_adj r)) ++ ctrl_of recs) in H1. rewrite <- !app_assoc in H1.
    change (diff_of (r :: recs)) with (r_diff r ++ diff_of recs) in H2. change (extra_of (r :: recs)) with (r_extra r ++ extra_of recs) in H3.
    change (2 ^ 63) with P63 in *.
    destruct (bz_off _ _ _ H1) as (c1 & A1 & A2). rewrite A1. cbn [pbind ret]. rewrite offtin_off by (change (2 ^ 63) with P63; lia). cbn [pbind ret].
    destruct (bz_off _ _ _ A2) as (c2 & A3 & A4). rewrite A3. cbn [pbind ret]. rewrite offtin_off by (change (2 ^ 63) with P63; lia). cbn [pbind ret].
    destruct (bz_off _ _ _ A4) as (c3 & A5 & A6). rewrite A5. cbn [pbind ret]. rewrite offtin_off by (change (2 ^ 63) with P63; lia). cbn [pbind ret].
    destruct (Z.ltb_spec T (to_pos + zlen (r_diff r))); [unfold T in *; lia|].
    assert (Hf : zlen f = zlen (r_diff r) /\ (r_diff r <> [] -> f = file_read_at from (bs_from s) (zlen (r_diff r)))).
    { unfold slice in Es. destruct (Z.eqb_spec (zlen (r_diff r)) 0) as [Z0|Z0].
      - injection Es as <-. rewrite Z0. split; [reflexivity|]. intros N. apply zlen_0_nil in Z0. congruence.
      - destruct (Z.leb_spec 0 (bs_from s)); cbn [andb] in Es; [|discriminate]. destruct (Z.leb_spec (bs_from s + zlen (r_diff r)) (zlen from)); [|discriminate].
        injection Es as <-. split; [|reflexivity]. apply zlen_sub; lia. }
    destruct Hf as (Lf & Hf).
    (* diff *)
    assert (I1 : exists d, bsdiff_diff bz from to_pos (zlen (r_diff r)) (mkbs c3 (bs_diff s) (bs_extra s) (bs_from s) (bs_out s)) =
      ret (to_pos + zlen (r_diff r), mkbs c3 d (bs_extra s) (bs_from s + zlen (r_diff r)) (bs_out s ++ add_mod (r_diff r) f)) /\ R d (diff_of recs)).
    { unfold bsdiff_diff. destruct (r_diff r) as [|x l] eqn:Ed.
      - cbn [add_mod app] in *. change (zlen (@nil Z)) with 0. change (0 <? 0) with false. cbn iota. exists (bs_diff s). rewrite !Z.add_0_r, app_nil_r. auto.
      - rewrite <- Ed in *. assert (Hne : r_diff r <> []) by (rewrite Ed; discriminate). specialize (Hf Hne). subst f. clear Ed.
        destruct (Z.ltb_spec 0 (zlen (r_diff r))) as [_|B]; [|destruct (r_diff r); [congruence|rewrite zlen_cons in B; pose proof (zlen_nonneg l0); lia]].
        cbn [bs_diff bs_from bs_out bs_ctrl bs_extra]. destruct (bz_take _ _ _ H2 Hne) as (d & B1 & B2). rewrite B1. cbn [pbind ret]. rewrite add_bytes_ok by lia. cbn [pbind ret]. rewrite Lf. eauto. }
    destruct I1 as (d & -> & Hd). cbn [pbind ret]. destruct (Z.ltb_spec T (to_pos + zlen (r_diff r) + zlen (r_extra r))); [unfold T in *; lia|].
    (* extra *)
    assert (I2 : exists e, bsdiff_extra bz (to_pos + zlen (r_diff r)) (zlen (r_extra r)) (mkbs c3 d (bs_extra s) (bs_from s + zlen (r_diff r)) (bs_out s ++ add_mod (r_diff r) f)) =
      ret (to_pos + zlen (r_diff r) + zlen (r_extra r), mkbs c3 d e (bs_from s + zlen (r_diff r)) (bs_out s ++ add_mod (r_diff r) f ++ r_extra r)) /\ R e (extra_of recs)).
    { unfold bsdiff_extra. destruct (r_extra r) as [|x l] eqn:Ed.
      - cbn [app] in *. change (zlen (@nil Z)) with 0. change (0 <? 0) with false. cbn iota. exists (bs_extra s). rewrite !Z.add_0_r, app_nil_r. auto.
      - rewrite <- Ed in *. assert (Hne : r_extra r <> []) by (rewrite Ed; discriminate). clear Ed.
        destruct (Z.ltb_spec 0 (zlen (r_extra r))) as [_|B]; [|destruct (r_extra r); [congruence|rewrite zlen_cons in B; pose proof (zlen_nonneg l0); lia]].
        cbn [bs_diff bs_from bs_out bs_ctrl bs_extra]. destruct (bz_take _ _ _ H3 Hne) as (e & B1 & B2). rewrite B1. cbn [pbind ret]. rewrite <- app_assoc. eauto. }
    destruct I2 as (e & -> & He). cbn [pbind ret bs_diff bs_from bs_out bs_ctrl bs_extra]. unfold seek_cur. destruct (Z.ltb_spec (bs_from s + zlen (r_diff r) + r_adj r) 0); [lia|]. cbn [pbind ret].
    destruct (IH k (mkbs c3 d e (bs_from s + zlen (r_diff r) + r_adj r) (bs_out s ++ add_mod (r_diff r) f ++ r_extra r)) to2 (to_pos + zlen (r_diff r) + zlen (r_extra r)) T) as (s1 & B1 & B2 & B3 & B4 & B5); auto.
    + unfold T. lia.
    + destruct recs; [auto|]. right. destruct Hl as (rs & l & E1 & E2). destruct rs as [|r0 rs]; [discriminate|]. injection E1 as -> ->. exists rs, l. auto.
    + cbn [length] in Hk. lia.
    + exists s1. rewrite B5. cbn [bs_out]. rewrite <- !app_assoc. auto.
Qed.

Lemma read_exact : forall a b n, zlen a = n -> read_front n (a ++ b) = (a, b).
Proof.
  intros a b n <-. unfold read_front. pose proof (zlen_nonneg a). destruct (Z.ltb_spec (zlen a) 0); [lia|]. rewrite ztake_app_exact, zdrop_app_exact by reflexivity. reflexivity.
Qed.

Lemma header_spec : forall n ctrl diff extra, zlen ctrl < 2 ^ 63 -> zlen diff < 2 ^ 63 -> - 2 ^ 63 < n < 2 ^ 63 ->
  read_header_bsdiff (bsdiff40 n ctrl diff extra) = ret (zlen ctrl, zlen diff, n, ctrl ++ diff ++ extra).
Proof.
  intros n ctrl diff extra H1 H2 H3. change (2 ^ 63) with P63 in *. pose proof (zlen_nonneg ctrl). pose proof (zlen_nonneg diff). unfold read_header_bsdiff, bsdiff40.
  rewrite read_exact by reflexivity. change (list_eqb [66; 83; 68; 73; 70; 70; 52; 48] magic) with true. cbn [negb].
  rewrite read_exact by apply zlen_off. rewrite offtin_off by (change (2 ^ 63) with P63; lia). cbn [pbind ret].
  rewrite read_exact by apply zlen_off. rewrite offtin_off by (change (2 ^ 63) with P63; lia). cbn [pbind ret].
  rewrite read_exact by apply zlen_off. rewrite offtin_off by (change (2 ^ 63) with P63; lia). reflexivity.
Qed.

Lemma bsdiff40_applies : forall clamps from to recs ctrl diff extra fuel,
  bz_stream bz R (ctrl_of recs) ctrl -> bz_stream bz R (diff_of recs) diff -> bz_stream bz R (extra_of recs) extra ->
  zlen ctrl < 2 ^ 63 -> zlen diff < 2 ^ 63 -> recs = [] \/ last_nonempty recs -> recs_fit recs -> apply_recs from 0 recs = Some to -> (length recs < fuel)%nat ->
  apply_patch_bsdiff bz fuel clamps from (bsdiff40 (recs_size recs) ctrl diff extra) = ret (zlen to, to).
Proof using HR.
  intros clamps from to recs ctrl diff extra fuel (s1 & C1 & C2) (s2 & D1 & D2) (s3 & E1 & E2) Hc Hd Hl (F1 & F2) Ha Hf. unfold apply_patch_bsdiff.
  pose proof (recs_size_ge recs). rewrite header_spec; auto; [|change (2 ^ 63) with P63 in *; lia]. cbn [pbind ret].
  rewrite read_exact by reflexivity. unfold bz_call at 1. rewrite C1. cbn [pbind ret].
  rewrite read_exact by reflexivity. unfold bz_call at 1. rewrite D1. cbn [pbind ret]. unfold bz_call at 1. rewrite E1. cbn [pbind ret].
  destruct (bsdiff_loop_spec clamps from recs fuel (mkbs s1 s2 s3 0 []) to 0 (recs_size recs)) as (s & A1 & A2 & A3 & A4 & A5); auto.
  - pose proof (rec_le recs) as L. rewrite Forall_forall in *. intros x Hx. specialize (L x Hx). specialize (F2 x Hx). lia.
  - cbn [bs_from]. lia.
  - rewrite A1. cbn [pbind ret]. destruct HR as (_ & _ & H3). rewrite (proj2 (H3 _ _ A2) eq_refl), (proj2 (H3 _ _ A3) eq_refl), (proj2 (H3 _ _ A4) eq_refl). cbn [negb].
    rewrite A5. cbn [bs_out app]. rewrite (apply_size _ _ _ _ Ha). reflexivity.
Qed.

End Apply.

(** ** Creating *)

Definition ctrl_pieces (recs : list prec) : list (list Z) := flat_map (fun r => [off (zlen (r_diff r)); off (zlen (r_extra r)); off (r_adj r)]) recs.

Lemma concat_ctrl : forall recs, concat (ctrl_pieces recs) = ctrl_of recs.
Proof.
  induction recs as [|r recs IH]; [reflexivity|]. change (ctrl_pieces (r :: recs)) with ([off (zlen (r_diff r)); off (zlen (r_extra r)); off (r_adj r)] ++ ctrl_pieces recs).
  rewrite concat_app, IH. cbn [concat app]. rewrite app_nil_r. reflexivity.
Qed.

Lemma concat_diffs : forall recs, concat (map r_diff recs) = diff_of recs.
Proof. intros. symmetry. apply flat_map_concat_map. Qed.
Lemma concat_extras : forall recs, concat (map r_extra recs) = extra_of recs.
Proof. intros. symmetry. apply flat_map_concat_map. Qed.

Lemma control_spec : forall v, - 2 ^ 63 < v < 2 ^ 63 -> control (enc_size v) = ret (off v).
Proof. intros v Hv. unfold control, file_unpack_size. rewrite <- (app_nil_r (enc_size v)), py_unpack_enc by auto. cbn [pbind ret]. apply offtout_off. auto. Qed.

Lemma split_spec : forall recs, Forall (fun r => rec_size r < 2 ^ 63 /\ - 2 ^ 63 < r_adj r < 2 ^ 63) recs ->
  split_chunks (flat_map rec_chunks recs) = ret (ctrl_pieces recs, map r_diff recs, map r_extra recs).
Proof.
  induction recs as [|r recs IH]; intros H; [reflexivity|]. inversion H as [|? ? (Q1 & Q2) Hr]; subst. unfold rec_size in Q1. pose proof (zlen_nonneg (r_diff r)). pose proof (zlen_nonneg (r_extra r)).
  change (2 ^ 63) with P63 in *. cbn [flat_map rec_chunks app split_chunks]. rewrite !control_spec by (change (2 ^ 63) with P63; lia). cbn [pbind ret]. rewrite IH by auto. reflexivity.
Qed.
