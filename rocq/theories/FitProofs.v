(** What the reference does with any body that describes something. *)

From Coq Require Import ZArith List Bool Lia ZifyBool ZifyNat ZifyN.
From Verif Require Import Prelude Lib Heatshrink HsProofs CReader ReaderProofs SizeProofs CSeq Spec SeqSpec HsSpec SeqSim SeqRun SeqTerm SeqMeaning SeqApply
  SeqBound BodySpec BodyProofs FitSpec.
Import ListNotations.
Open Scope Z_scope.

Ltac Zify.zify_post_hook ::= Z.to_euclidean_division_equations.

Ltac fields :=
  cbv beta iota zeta delta [set_st set_left set_chunk set_patch_offset set_header set_reader
    set_to_size set_from_offset set_chunk_size set_to_offset a_patch_size a_state a_to_init
    a_compression a_patch_offset a_to_offset a_to_size a_from_offset a_chunk_size a_reader
    a_rsize a_csize a_left a_size] in *.

Section Fit.
Context {WBits : WordBits}.
Hypothesis Hword : 32 <= word_bits.

Notation once := (process_once file_env).

Definition overflows (o : outcome (Z * Z * size_st * reader * list Z)) : Prop :=
  exists z1 r1 i1, o = Ret (- E_CORRUPT_PATCH_OVERFLOW, 0, z1, r1, i1).

Lemma us_usize : forall l K z r i rE iE y rest, pulls r i l rE iE -> bytes_ok l ->
  rok r -> bytes_ok i -> zok z -> z_cons z = true -> (zneed z <= K)%nat -> dec_usize l = Some (y, rest) ->
  if zlen l - zlen rest <=? (27 - z_offset z) / 7 then
    exists z1 r1 i1, us K z r i = Ret (0, (if z_signed z then -1 else 1) * (z_value z + y * 2 ^ z_offset z), z1, r1, i1) /\
      z_cons z1 = false /\ (exists f, pulls r i f r1 i1) /\ pulls r1 i1 rest rE iE
  else overflows (us K z r i).
Proof.
  induction l as [|b l IH]; intros K z r i rE iE y rest P Hb Hr Hi Hz Hc HK D; [discriminate|]. inv Hb.
  destruct (Hz Hc) as (O1 & O2 & O3).
  destruct K as [|K]; [unfold zneed in HK; rewrite Hc in HK; lia|].
  apply pulls_cons_inv in P. destruct P as (r' & i' & P0 & P1).
  cbn [us]. rewrite P0. cbn [obind]. change (negb (0 =? 0)) with false. cbv iota.
  cbn [dec_usize] in D. rewrite zlen_cons.
  destruct (size_byte_spec z b Hz) as [(_ & X & X2)|(z1 & S & C1 & Z1 & N1 & _ & S1 & _)].
  { rewrite X2. cbn [obind]. rewrite X. change ((27 - 27) / 7) with 0.
    assert (zlen rest <= zlen l).
    { destruct (b <? 128); [inv D; lia|]. destruct (dec_usize l) as [[v' r0]|] eqn:D'; [|discriminate]. inv D.
      apply dec_usize_len in D'. unfold zlen. lia. }
    destruct (Z.leb_spec (1 + zlen l - zlen rest) 0); [lia|]. unfold overflows. eauto. }
  rewrite S. cbn [obind]. rewrite land_128_byte by auto. unfold byte_ok in H1.
  destruct (S1 Hc) as (T0 & T1 & T2 & T3).
  destruct (Z.ltb_spec b 128).
  - assert (b = y /\ l = rest) as [<- <-] by (split; congruence).
    destruct (Z.leb_spec (1 + zlen l - zlen l) ((27 - z_offset z) / 7)); [|lia].
    cbv zeta. rewrite T2, T3, Z.mod_small by lia. eexists (mksz _ _ _ _), r', i'. split; [|split; [reflexivity|split; [exists [b]; econstructor; [exact P0|constructor]|exact P1]]].
    replace ((if z_signed z then -1 else 1) * (z_value z + b * 2 ^ z_offset z)) with
      (if z_signed z then - (z_value z + b * 2 ^ z_offset z) else z_value z + b * 2 ^ z_offset z) by (destruct (z_signed z); lia).
    reflexivity.
  - destruct (dec_usize l) as [[y' r0]|] eqn:D'; [|discriminate].
    assert (y = b - 128 + 128 * y' /\ rest = r0) as [-> ->] by (split; congruence).
    destruct (pull1_spec Hword r i Hr Hi) as (res & out & r'' & i'' & E & Hr' & Hi' & _). rewrite P0 in E. injection E as E1 E2 E3 E4. subst res out r'' i''.
    assert (Hp : 2 ^ (z_offset z + 7) = 2 ^ z_offset z * 128) by (rewrite Z.pow_add_r by lia; reflexivity).
    specialize (IH K z1 r' i' rE iE y' r0 P1 H2 ltac:(apply Hr'; lia) Hi' Z1 C1 ltac:(lia) eq_refl).
    rewrite T1 in IH.
    replace (zlen l - zlen r0 <=? (27 - (z_offset z + 7)) / 7) with (1 + zlen l - zlen r0 <=? (27 - z_offset z) / 7) in IH by lia.
    destruct (1 + zlen l - zlen r0 <=? (27 - z_offset z) / 7); [|exact IH].
    destruct IH as (z2 & r1 & i1 & U & V & (f & G) & W). exists z2, r1, i1. split; [|split; [auto|split; [exists (b :: f); econstructor; eauto|auto]]].
    rewrite U, T2, T3. do 4 f_equal. rewrite Hp. f_equal. replace (b mod 128) with (b - 128) by lia. ring.
Qed.

Lemma us_field : forall l z r i rE iE v rest, pulls r i l rE iE -> bytes_ok l -> rok r -> bytes_ok i -> z_cons z = false ->
  dec_size l = Some (v, rest) ->
  if short l rest then
    exists z1 r1 i1, us 6 z r i = Ret (0, v, z1, r1, i1) /\ z_cons z1 = false /\ (exists f, pulls r i f r1 i1) /\ pulls r1 i1 rest rE iE
  else overflows (us 6 z r i).
Proof.
  intros l z r i rE iE v rest P Hb Hr Hi Hc D. destruct l as [|b l]; [discriminate|]. inv Hb.
  assert (Hz : zok z) by (intros X; congruence).
  apply pulls_cons_inv in P. destruct P as (r' & i' & P0 & P1).
  destruct five as (n5 & E5). change (us 6 z r i) with (us (S 5) z r i). rewrite <- E5. cbn [us]. rewrite P0. cbn [obind].
  change (negb (0 =? 0)) with false. cbv iota.
  destruct (size_byte_spec z b Hz) as [(X & _)|(z1 & S & C1 & Z1 & N1 & _ & _ & S1)]; [congruence|].
  rewrite S. cbn [obind]. rewrite land_128_byte by auto. destruct (S1 Hc) as (T1 & T2 & T3).
  unfold short. rewrite zlen_cons. cbn [dec_size] in D. unfold byte_ok in H1.
  destruct (Z.ltb_spec b 128).
  - assert (v = (if Z.testbit b 6 then - (b mod 64) else b mod 64) /\ rest = l) as [-> ->] by (split; congruence).
    destruct (Z.leb_spec (1 + zlen l - zlen l) 4); [|lia].
    cbv zeta. rewrite T2, T3. eexists (mksz _ _ _ _), r', i'. split; [reflexivity|]. split; [auto|]. split; [exists [b]; econstructor; [exact P0|constructor]|exact P1].
  - destruct (dec_usize l) as [[y r0]|] eqn:D'; [|discriminate].
    assert (v = (if Z.testbit b 6 then - (b mod 64 + 64 * y) else b mod 64 + 64 * y) /\ rest = r0) as [-> ->] by (split; congruence).
    destruct (pull1_spec Hword r i Hr Hi) as (res & out & r'' & i'' & E & Hr' & Hi' & _). rewrite P0 in E. injection E as E1 E2 E3 E4. subst res out r'' i''.
    assert (HK : (zneed z1 <= n5)%nat) by (subst n5; apply zneed_le; auto).
    pose proof (us_usize l n5 z1 r' i' rE iE y r0 P1 H2 ltac:(apply Hr'; lia) Hi' Z1 C1 HK D') as IH.
    rewrite T1 in IH. change ((27 - 6) / 7) with 3 in IH.
    replace (zlen l - zlen r0 <=? 3) with (1 + zlen l - zlen r0 <=? 4) in IH by lia.
    destruct (1 + zlen l - zlen r0 <=? 4); [|exact IH].
    destruct IH as (z2 & r1 & i1 & U & V & (f & G) & W). exists z2, r1, i1. split; [|split; [auto|split; [exists (b :: f); econstructor; eauto|auto]]].
    rewrite U, T2, T3. do 4 f_equal. f_equal. change (2 ^ 6) with 64. destruct (Z.testbit b 6); ring.
Qed.

(** ** The steps of a record *)

Definition dead (s : ap) (w : files) : Prop := forall sd wd, ~ refdone s w sd wd.

Lemma dead_steps : forall s w s1 w1, steps1 s w s1 w1 -> dead s1 w1 -> dead s w.
Proof. intros s w s1 w1 H D sd wd R. apply (D sd wd). eapply refdone_step; eauto. Qed.

Lemma dead_once : forall s w, a_state s <> SDone -> (forall s1 w1, once 1 s w <> Ret (0, s1, w1)) -> dead s w.
Proof. intros s w H N sd wd. apply refdone_stuck; auto. Qed.

Lemma fit_dfpatch : forall s w tsz r i l rE iE v rest, sat s SDfpatchSize 0 tsz 0 r i -> pulls r i l rE iE -> bytes_ok l ->
  dec_size l = Some (v, rest) -> v <= 0 ->
  if short l rest then
    exists s1 r1 i1, steps1 s w s1 w /\ sat s1 SDiffSize 0 tsz 0 r1 i1 /\ pulls r1 i1 rest rE iE
  else dead s w.
Proof.
  intros s w tsz r i l rE iE v rest (A1 & A2 & A3 & A4 & A5 & A6 & A7 & A8 & A9 & A10) P Hb D Hv.
  pose proof (us_field l (a_rsize s) r i rE iE v rest P Hb A8 A9 A7 D) as U.
  destruct (short l rest).
  - destruct U as (z1 & r1 & i1 & U & V & (f & G) & W). destruct (next_sat Hword _ _ _ _ _ G A8 A9 A10) as (B1 & B2 & B3).
    eexists _, r1, i1. split; [|split; [|exact W]].
    + apply steps1_one. unfold process_once, process_dfpatch_size. rewrite A1, A5, A6.
      unfold unpack_size. rewrite (us_unpack Hword) by auto. rewrite U. cbn [obind].
      change (negb (0 =? 0)) with false. cbv iota. destruct (Z.ltb_spec 0 v); [lia|]. cbn [obind].
      change (0 <? 0) with false. cbv iota. reflexivity.
    + destruct s. unfold sat. fields. auto 20.
  - destruct U as (z1 & r1 & i1 & U). apply dead_once; [congruence|]. intros s1 w1 E.
    unfold process_once, process_dfpatch_size in E. rewrite A1, A5, A6 in E.
    unfold unpack_size in E. rewrite (us_unpack Hword) in E by auto. rewrite U in E. cbn in E. discriminate.
Qed.

Lemma fit_size : forall s w st next toff tsz fo r i l rE iE v rest,
  st = SDiffSize /\ next = SDiffData \/ st = SExtraSize /\ next = SExtraData ->
  sat s st toff tsz fo r i -> pulls r i l rE iE -> bytes_ok l -> dec_size l = Some (v, rest) -> 0 <= v -> 0 <= toff ->
  toff + v <= tsz -> tsz < 2 ^ 27 ->
  if short l rest then
    exists s1 r1 i1, steps1 s w s1 w /\ sat s1 next toff tsz fo r1 i1 /\ a_chunk_size s1 = v /\ pulls r1 i1 rest rE iE
  else dead s w.
Proof.
  intros s w st next toff tsz fo r i l rE iE v rest Hst (A1 & A2 & A3 & A4 & A5 & A6 & A7 & A8 & A9 & A10) P Hb D Hv Ht1 Ht2 Ht3.
  pose proof (us_field l (a_rsize s) r i rE iE v rest P Hb A8 A9 A7 D) as U.
  pose proof (pow2_32_le word_bits Hword).
  destruct (short l rest).
  - destruct U as (z1 & r1 & i1 & U & V & (f & G) & W). destruct (next_sat Hword _ _ _ _ _ G A8 A9 A10) as (B1 & B2 & B3).
    exists (set_chunk_size (set_st (set_reader s (Some r1) z1 i1) next) v), r1, i1. split; [|split; [|split; [reflexivity|exact W]]].
    + apply steps1_one. assert (E : process_size s next = Ret (0, set_chunk_size (set_st (set_reader s (Some r1) z1 i1) next) v)).
      { unfold process_size. rewrite A5, A6. unfold common_process_size, unpack_size.
        rewrite (us_unpack Hword) by auto. rewrite U. cbn [obind]. change (negb (0 =? 0)) with false. cbv iota.
        rewrite A2, A3, (wrap_small v), (wrap_small (toff + v)) by lia.
        destruct (Z.ltb_spec tsz (toff + v)); [lia|]. cbn [obind]. change (negb (0 =? 0)) with false. cbv iota.
        rewrite wrap_small by lia. reflexivity. }
      unfold process_once. destruct Hst as [[-> ->]|[-> ->]]; rewrite A1, E; cbn [obind]; reflexivity.
    + destruct s. unfold sat. fields. auto 20.
  - destruct U as (z1 & r1 & i1 & U). apply dead_once; [destruct Hst as [[-> ->]|[-> ->]]; congruence|]. intros s1 w1 E.
    assert (X : exists s2, process_size s next = Ret (- E_CORRUPT_PATCH_OVERFLOW, s2)).
    { unfold process_size. rewrite A5, A6. unfold common_process_size, unpack_size.
      rewrite (us_unpack Hword) by auto. rewrite U. cbn. eauto. }
    destruct X as (s2 & X).
    unfold process_once in E. destruct Hst as [[-> ->]|[-> ->]]; rewrite A1, X in E; cbn in E; discriminate.
Qed.

Lemma fit_adj : forall s w toff tsz fo r i l rE iE v rest, sat s SAdjustment toff tsz fo r i -> pulls r i l rE iE -> bytes_ok l ->
  dec_size l = Some (v, rest) -> f_pos w = fo -> 0 <= fo + v ->
  if short l rest && (fo + v <=? INT_MAX) then
    exists s1 r1 i1, steps1 s w s1 (mkfiles (f_from w) (fo + v) (f_to w)) /\
      sat s1 (if toff =? tsz then SDone else SDiffSize) toff tsz (fo + v) r1 i1 /\ pulls r1 i1 rest rE iE
  else dead s w.
Proof.
  intros s w toff tsz fo r i l rE iE v rest (A1 & A2 & A3 & A4 & A5 & A6 & A7 & A8 & A9 & A10) P Hb D Hp F1.
  pose proof (us_field l (a_rsize s) r i rE iE v rest P Hb A8 A9 A7 D) as U.
  destruct (short l rest); cbn [andb].
  - destruct U as (z1 & r1 & i1 & U & V & (f & G) & W). destruct (next_sat Hword _ _ _ _ _ G A8 A9 A10) as (B1 & B2 & B3).
    assert (E : once 1 s w = letm fo1 := int_add fo v in
      Ret (0, set_st (set_from_offset (set_reader s (Some r1) z1 i1) fo1) (if toff =? tsz then SDone else SDiffSize), mkfiles (f_from w) (fo + v) (f_to w))).
    { unfold process_once, process_adjustment. rewrite A1, A5, A6.
      unfold unpack_size. rewrite (us_unpack Hword) by auto. rewrite U. cbn [obind].
      change (negb (0 =? 0)) with false. cbv iota. cbn [from_seek file_env]. unfold file_seek. rewrite Hp.
      destruct (Z.ltb_spec (fo + v) 0); [lia|]. change (negb (0 =? 0)) with false. cbv iota.
      change (a_from_offset (set_reader s (Some r1) z1 i1)) with (a_from_offset s). rewrite A4.
      destruct (int_add fo v); cbn [obind]; try reflexivity. rewrite <- A2, <- A3. reflexivity. }
    destruct (Z.leb_spec (fo + v) INT_MAX).
    + eexists _, r1, i1. split; [|split; [|exact W]].
      * apply steps1_one. rewrite E. unfold int_add.
        assert (in_int (fo + v) = true) as ->. { unfold in_int, INT_MIN, INT_MAX in *. lia. }
        cbn [obind]. reflexivity.
      * destruct s. unfold sat. fields. subst. auto 20.
    + apply dead_once; [congruence|]. intros s1 w1 X. rewrite E in X. unfold int_add in X.
      assert (in_int (fo + v) = false) as Y. { unfold in_int, INT_MIN, INT_MAX in *. lia. }
      rewrite Y in X. discriminate.
  - destruct U as (z1 & r1 & i1 & U). apply dead_once; [congruence|]. intros s1 w1 E.
    unfold process_once, process_adjustment in E. rewrite A1, A5, A6 in E.
    unfold unpack_size in E. rewrite (us_unpack Hword) in E by auto. rewrite U in E. cbn in E. discriminate.
Qed.

Lemma take_drop : forall n (l : list Z), l = ztake n l ++ zdrop n l.
Proof. intros. unfold ztake, zdrop. symmetry. apply firstn_skipn. Qed.

Lemma bytes_drop : forall n l, bytes_ok l -> bytes_ok (zdrop n l).
Proof. intros n l H. rewrite (take_drop n l) in H. apply Forall_app in H. tauto. Qed.

Lemma dec_usize_bytes : forall l v rest, bytes_ok l -> dec_usize l = Some (v, rest) -> bytes_ok rest.
Proof.
  induction l as [|b l IH]; intros v rest H D; [discriminate|]. inv H. cbn [dec_usize] in D.
  destruct (b <? 128); [inv D; auto|]. destruct (dec_usize l) as [[y r0]|]; [|discriminate]. inv D. eauto.
Qed.

Lemma dec_size_bytes : forall l v rest, bytes_ok l -> dec_size l = Some (v, rest) -> bytes_ok rest.
Proof.
  intros [|b l] v rest H D; [discriminate|]. inv H. cbn [dec_size] in D.
  destruct (b <? 128); [injection D as D1 D2; subst; auto|]. destruct (dec_usize l) as [[y r0]|] eqn:E; [|discriminate].
  injection D as D1 D2. subst. eapply dec_usize_bytes; eauto.
Qed.

Lemma slice_cases : forall from pos d old, slice from pos d = Some old ->
  (d = 0 \/ 0 <= pos /\ pos + d <= zlen from) /\ old = ztake d (zdrop pos from).
Proof.
  intros from pos d old E. unfold slice in E. destruct (Z.eqb_spec d 0); [inv E; auto|].
  destruct ((0 <=? pos) && (pos + d <=? zlen from)) eqn:X; inv E. split; [right; lia|auto].
Qed.

Lemma fit_recs : forall k from pos left l out rest s toff tsz r i rE iE to,
  records_mean k from pos left l = Some (out, rest) -> 0 < left ->
  sat s SDiffSize toff tsz pos r i -> pulls r i l rE iE -> bytes_ok l ->
  0 <= toff -> toff + left = tsz -> tsz < 2 ^ 27 -> 0 <= pos <= INT_MAX -> zlen from <= INT_MAX ->
  if records_fit k pos left l then
    exists sd wd r1, refdone s (mkfiles from pos to) sd wd /\ f_to wd = to ++ out /\
      a_reader sd = Some r1 /\ a_to_size sd = tsz /\ pulls r1 (a_left sd) rest rE iE
  else dead s (mkfiles from pos to).
Proof.
  induction k as [|k IH]; intros from pos left l out rest s toff tsz r i rE iE to M Hleft Hs P Hb Ht1 Ht2 Ht3 Hpos Hfrom.
  { cbn [records_mean] in M. destruct (Z.eqb_spec left 0); [lia|discriminate]. }
  cbn [records_mean records_fit] in *. destruct (Z.eqb_spec left 0); [lia|].
  destruct (dec_size l) as [[d l1]|] eqn:D1; [|discriminate].
  destruct ((d <? 0) || (left <? d) || (zlen l1 <? d)) eqn:C1; [discriminate|].
  destruct (slice from pos d) as [old|] eqn:Sl; [|discriminate].
  destruct (dec_size (zdrop d l1)) as [[e l2]|] eqn:D2; [|discriminate].
  destruct ((e <? 0) || (left - d <? e) || (zlen l2 <? e)) eqn:C2; [discriminate|].
  destruct (dec_size (zdrop e l2)) as [[a l3]|] eqn:D3; [|discriminate].
  destruct (Z.ltb_spec (pos + d + a) 0); [discriminate|].
  destruct (records_mean k from _ _ l3) as [[out1 rest1]|] eqn:M1; [|discriminate]. inv M.
  pose proof (dec_size_bytes _ _ _ Hb D1) as Hb1. pose proof (bytes_drop d _ Hb1) as Hb1'.
  pose proof (dec_size_bytes _ _ _ Hb1' D2) as Hb2. pose proof (bytes_drop e _ Hb2) as Hb2'.
  pose proof (dec_size_bytes _ _ _ Hb2' D3) as Hb3.
  assert (Q : zlen (ztake d l1) = d /\ zlen (ztake e l2) = e).
  { rewrite !zlen_ztake by lia. lia. }
  destruct Q as [Q1 Q2]. destruct (slice_cases _ _ _ _ Sl) as [Hsl Hold].
  set (w := mkfiles from pos to).
  pose proof (fit_size s w SDiffSize SDiffData toff (toff + left) pos r i l rE iE d l1 ltac:(auto) Hs P Hb D1 ltac:(lia) Ht1 ltac:(lia) Ht3) as F1.
  destruct (short l l1); cbn [andb]; [|exact F1].
  destruct F1 as (s1 & r1 & i1 & S1 & Hs1 & Hc1 & P1).
  rewrite (take_drop d l1) in P1. apply pulls_split in P1. destruct P1 as (r2 & i2 & P1 & P2).
  assert (Hok1 : data_ok SExtraSize w (zlen (ztake d l1))) by (rewrite Q1; exact Hsl).
  destruct (ref_data Hword s1 w SExtraSize toff (toff + left) pos r1 i1 (ztake d l1) r2 i2 SDiffData eq_refl Hs1 ltac:(lia) P1 Hok1 Ht1 ltac:(lia) Ht3 ltac:(lia) ltac:(intros _; lia))
    as (s2 & S2 & Hs2).
  cbv iota in Hs2. set (w2 := data_world SExtraSize w (ztake d l1)) in *. rewrite Q1 in Hs2.
  pose proof (fit_size s2 w2 SExtraSize SExtraData _ _ _ r2 i2 (zdrop d l1) rE iE e l2 ltac:(auto) Hs2 P2 Hb1' D2 ltac:(lia) ltac:(lia) ltac:(lia) Ht3) as F2.
  destruct (short (zdrop d l1) l2); cbn [andb].
  2:{ eapply dead_steps; [exact S1|]. eapply dead_steps; [exact S2|]. exact F2. }
  destruct F2 as (s3 & r3 & i3 & S3 & Hs3 & Hc3 & P3).
  rewrite (take_drop e l2) in P3. apply pulls_split in P3. destruct P3 as (r4 & i4 & P3 & P4).
  destruct (ref_data Hword s3 w2 SAdjustment _ _ _ r3 i3 (ztake e l2) r4 i4 SExtraData eq_refl Hs3 ltac:(lia) P3 I ltac:(lia) ltac:(lia) Ht3 ltac:(lia) ltac:(discriminate))
    as (s4 & S4 & Hs4).
  cbv iota in Hs4. set (w4 := data_world SAdjustment w2 (ztake e l2)) in *. rewrite Q2 in Hs4.
  assert (Hw4 : f_pos w4 = pos + d). { unfold w4, w2, w, data_world. cbn [f_pos]. rewrite Q1. reflexivity. }
  pose proof (fit_adj s4 w4 _ _ _ r4 i4 (zdrop e l2) rE iE a l3 Hs4 P4 Hb2' D3 Hw4 ltac:(lia)) as F3.
  assert (Sall : steps1 s w s4 w4) by eauto using steps1_trans.
  destruct (short (zdrop e l2) l3 && (pos + d + a <=? INT_MAX)) eqn:C3; cbn [andb].
  2:{ eapply dead_steps; [exact Sall|]. exact F3. }
  destruct F3 as (s5 & r5 & i5 & S5 & Hs5 & P5).
  assert (Sall2 : steps1 s w s5 (mkfiles (f_from w4) (pos + d + a) (f_to w4))) by eauto using steps1_trans.
  assert (Hto : f_to w4 = to ++ add_mod (ztake d l1) old ++ ztake e l2).
  { unfold w4, w2, w, data_world. cbn [f_to f_from f_pos]. rewrite Q1, Hold, <- app_assoc. reflexivity. }
  assert (Hfr : f_from w4 = from) by reflexivity. rewrite Hfr in Sall2.
  destruct (Z.eqb_spec (left - d - e) 0) as [E0|E0].
  - destruct (Z.eqb_spec (toff + d + e) (toff + left)); [|lia].
    assert (out1 = [] /\ rest = l3) as [-> ->].
    { rewrite E0 in M1. destruct k; cbn [records_mean] in M1; change (0 =? 0) with true in M1; cbv iota in M1; split; congruence. }
    assert (records_fit k (pos + d + a) (left - d - e) l3 = true) as ->.
    { rewrite E0. destruct k; reflexivity. }
    destruct Hs5 as (A1 & A2 & A3 & A4 & A5 & A6 & A7 & A8 & A9 & A10).
    exists s5, (mkfiles from (pos + d + a) (f_to w4)), r5. split; [split; auto|]. cbn [f_to].
    rewrite app_nil_r, A6. auto.
  - destruct (Z.eqb_spec (toff + d + e) (toff + left)); [lia|].
    pose proof (IH from (pos + d + a) (left - d - e) l3 out1 rest s5 (toff + d + e) (toff + left) r5 i5 rE iE (f_to w4) M1 ltac:(lia) Hs5 P5 Hb3 ltac:(lia) ltac:(lia) Ht3 ltac:(lia) Hfrom) as F4.
    destruct (records_fit k (pos + d + a) (left - d - e) l3).
    + destruct F4 as (sd & wd & r6 & G1 & G2 & G3 & G4 & G5). exists sd, wd, r6.
      split; [eapply refdone_steps; eauto|]. split; [|auto]. rewrite G2, Hto, <- !app_assoc. reflexivity.
    + eapply dead_steps; [exact Sall2|exact F4].
Qed.

(** ** The header *)

Lemma uhs_range : forall l z v z1 l1, bytes_ok l -> zok z -> unpack_header_size l z = Ret (0, v, z1, l1) -> 0 <= v < 2 ^ 27.
Proof.
  induction l as [|b l IH]; intros z v z1 l1 Hl Hz E; [discriminate|]. inv Hl. rewrite uhs_unfold in E.
  destruct (hdr_byte_spec z b Hz) as [(_ & _ & A)|(z2 & A & Hc & Hz1 & _ & Hv & _)]; rewrite A in E; cbn [obind] in E; [discriminate|].
  rewrite land_128_byte in E by auto. destruct (b <? 128); [|eapply IH; eauto].
  injection E as E1 E2 E3. lia.
Qed.

Lemma uhs_usize : forall l z y rest, bytes_ok l -> zok z -> z_cons z = true -> dec_usize l = Some (y, rest) ->
  if zlen l - zlen rest <=? (27 - z_offset z) / 7 then
    exists z1, unpack_header_size l z = Ret (0, z_value z + y * 2 ^ z_offset z, z1, rest) /\ z_cons z1 = false
  else exists z1 i1, unpack_header_size l z = Ret (- E_CORRUPT_PATCH_OVERFLOW, 0, z1, i1).
Proof.
  induction l as [|b l IH]; intros z y rest Hb Hz Hc D; [discriminate|]. inv Hb.
  destruct (Hz Hc) as (O1 & O2 & O3). rewrite uhs_unfold. cbn [dec_usize] in D. rewrite zlen_cons.
  destruct (hdr_byte_spec z b Hz) as [(_ & X & X2)|(z1 & S & C1 & Z1 & N1 & _ & S1 & _)].
  { rewrite X2. cbn [obind]. rewrite X. change ((27 - 27) / 7) with 0.
    assert (zlen rest <= zlen l).
    { destruct (b <? 128); [inv D; lia|]. destruct (dec_usize l) as [[v' r0]|] eqn:D'; [|discriminate]. inv D.
      apply dec_usize_len in D'. unfold zlen. lia. }
    destruct (Z.leb_spec (1 + zlen l - zlen rest) 0); [lia|]. eauto. }
  rewrite S. cbn [obind]. rewrite land_128_byte by auto. unfold byte_ok in H1.
  destruct (S1 Hc) as (T0 & T1 & T3).
  destruct (Z.ltb_spec b 128).
  - assert (b = y /\ l = rest) as [<- <-] by (split; congruence).
    destruct (Z.leb_spec (1 + zlen l - zlen l) ((27 - z_offset z) / 7)); [|lia].
    rewrite T3, Z.mod_small by lia. eexists (mksz _ _ _ _). split; reflexivity.
  - destruct (dec_usize l) as [[y' r0]|] eqn:D'; [|discriminate].
    assert (y = b - 128 + 128 * y' /\ rest = r0) as [-> ->] by (split; congruence).
    assert (Hp : 2 ^ (z_offset z + 7) = 2 ^ z_offset z * 128) by (rewrite Z.pow_add_r by lia; reflexivity).
    specialize (IH z1 y' r0 H2 Z1 C1 eq_refl).
    rewrite T1 in IH.
    replace (zlen l - zlen r0 <=? (27 - (z_offset z + 7)) / 7) with (1 + zlen l - zlen r0 <=? (27 - z_offset z) / 7) in IH by lia.
    destruct (1 + zlen l - zlen r0 <=? (27 - z_offset z) / 7); [|exact IH].
    destruct IH as (z2 & U & V). exists z2. split; [|auto].
    rewrite U, T3. do 4 f_equal. rewrite Hp. replace (b mod 128) with (b - 128) by lia. ring.
Qed.

Lemma after_dec : forall l y rest, dec_usize l = Some (y, rest) -> after_size l = rest.
Proof.
  induction l as [|b l IH]; intros y rest D; [discriminate|]. cbn [dec_usize after_size] in *.
  destruct (b <? 128); [congruence|]. destruct (dec_usize l) as [[v r0]|]; [|discriminate]. inv D. eauto.
Qed.

Lemma header_field : forall b0 l z n, bytes_ok l -> z_cons z = false -> announced_size (b0 :: l) = Some n ->
  if short l (after_size l) then
    exists z1, unpack_header_size l z = Ret (0, n, z1, after_size l) /\ z_cons z1 = false /\ 0 <= n < 2 ^ 27
  else exists z1 i1, unpack_header_size l z = Ret (- E_CORRUPT_PATCH_OVERFLOW, 0, z1, i1).
Proof.
  intros b0 l z n Hb Hc A. unfold announced_size in A. cbn [tl] in A. destruct l as [|b l]; [discriminate|]. inv Hb.
  assert (Hz : zok z) by (intros X; congruence). rewrite uhs_unfold. cbn [after_size]. unfold short. rewrite zlen_cons.
  destruct (hdr_byte_spec z b Hz) as [(X & _)|(z1 & S & C1 & Z1 & N1 & R1 & _ & S1)]; [congruence|].
  rewrite S. cbn [obind]. rewrite land_128_byte by auto. destruct (S1 Hc) as (T1 & T2). unfold byte_ok in H1.
  destruct (Z.ltb_spec b 128).
  - destruct (Z.leb_spec (1 + zlen l - zlen l) 4); [|lia]. inv A.
    rewrite T2. eexists (mksz _ _ _ _). split; [reflexivity|]. split; [reflexivity|lia].
  - destruct (dec_usize l) as [[y r0]|] eqn:D'; [|discriminate].
    assert (n = b mod 64 + 64 * y) as -> by congruence. rewrite (after_dec _ _ _ D').
    pose proof (uhs_usize l z1 y r0 H2 Z1 C1 D') as IH.
    rewrite T1 in IH. change ((27 - 6) / 7) with 3 in IH.
    replace (zlen l - zlen r0 <=? 3) with (1 + zlen l - zlen r0 <=? 4) in IH by lia.
    destruct (1 + zlen l - zlen r0 <=? 4); [|exact IH].
    destruct IH as (z2 & U & V). exists z2.
    assert (E : z_value z1 + y * 2 ^ z_offset z1 = b mod 64 + 64 * y).
    { rewrite T1, T2. change (2 ^ 6) with 64. ring. }
    rewrite T1 in E. split; [rewrite U, E; reflexivity|]. split; [auto|].
    rewrite <- E. exact (uhs_range l z1 _ z2 r0 H2 Z1 U).
Qed.

End Fit.
