(** Well formed sequential patches: what the 1 byte reference does with them. *)

From Coq Require Import ZArith List Bool Lia ZifyBool ZifyNat ZifyN.
From Verif Require Import Prelude Lib Heatshrink HsProofs CReader ReaderProofs SizeProofs CSeq Spec HsSpec SeqSim SeqRun.
Import ListNotations.
Open Scope Z_scope.

Ltac Zify.zify_post_hook ::= Z.to_euclidean_division_equations.

(** ** CRLE segments *)

Lemma usize_groups : forall k a v o f cons, 0 < a < 2 ^ (28 - o) -> 0 <= o <= 21 -> o mod 7 = 0 -> (28 - o) / 7 <= Z.of_nat k ->
  0 <= v < 2 ^ o ->
  exists u1, unpack_usize_loop (enc_groups k a ++ f) (mkuz cons v o) = Ret (0, v + a * 2 ^ o, u1, f).
Proof.
  induction k; intros a v o f cons Ha Ho Hm Hk Hv; [lia|].
  cbn [enc_groups]. destruct (Z.eqb_spec a 0); [lia|].
  assert (Hov : is_overflow o = false) by (unfold is_overflow; lia).
  destruct (Z.ltb_spec a 128).
  - cbn [app unpack_usize_loop u_offset u_value u_cons]. rewrite Hov.
    destruct (acc_bits_ok v a o) as [A B]; [lia|lia|]. rewrite A. cbn [obind].
    rewrite land_128_byte by (unfold byte_ok; lia). destruct (Z.ltb_spec a 128); [|lia].
    eexists. rewrite Z.mod_small by lia. reflexivity.
  - cbn [app unpack_usize_loop u_offset u_value u_cons]. rewrite Hov.
    destruct (acc_bits_ok v (a mod 128 + 128) o) as [A B]; [lia|lia|]. rewrite A. cbn [obind].
    rewrite land_128_byte by (unfold byte_ok; lia). destruct (Z.ltb_spec (a mod 128 + 128) 128); [lia|].
    replace ((a mod 128 + 128) mod 128) with (a mod 128) in * by lia.
    assert (Hp : 2 ^ (o + 7) = 2 ^ o * 128) by (rewrite Z.pow_add_r by lia; reflexivity).
    assert (Ho' : o + 7 <= 21).
    { destruct (Z.le_gt_cases (o + 7) 21); [auto|]. assert (o = 21) by lia. subst o. change (2 ^ (28 - 21)) with 128 in Ha. lia. }
    assert (Hq : 2 ^ (28 - o) = 2 ^ (28 - (o + 7)) * 128).
    { replace (28 - o) with (28 - (o + 7) + 7) by lia. rewrite Z.pow_add_r by lia. reflexivity. }
    destruct (IHk (a / 128) (v + a mod 128 * 2 ^ o) (o + 7) f cons) as (u1 & U); try lia.
    exists u1. rewrite U. do 4 f_equal. rewrite Hp.
    rewrite (Z.div_mod a 128) at 3 by lia. ring.
Qed.

Lemma usize_enc : forall a f u, 0 <= a < 2 ^ 28 -> u_cons u = false ->
  exists u1, unpack_usize (enc_usize a ++ f) u = Ret (0, a, u1, f).
Proof.
  intros a f u Ha Hu. unfold unpack_usize, enc_usize. rewrite Hu. destruct (Z.eqb_spec a 0) as [->|].
  - eexists. reflexivity.
  - destruct (usize_groups 10 a 0 0 f true) as (u1 & U); try lia.
    exists u1. rewrite U. do 4 f_equal. change (2 ^ 0) with 1. lia.
Qed.

Lemma crle_loop_go : forall f s left n s1 left1, crle_step s left n = Ret (2, [], s1, left1) ->
  crle_loop (S f) s left n = crle_loop f s1 left1 n.
Proof. intros f s left n s1 left1 E. cbn [crle_loop]. rewrite E. reflexivity. Qed.

Lemma crle_loop_stop : forall f s left n r o s1 left1, crle_step s left n = Ret (r, o, s1, left1) -> r <> 2 ->
  crle_loop (S f) s left n = Ret (r, o, s1, left1).
Proof. intros f s left n r o s1 left1 E Hr. cbn [crle_loop]. rewrite E. cbn [obind]. destruct (Z.eqb_spec r 2); [congruence|auto]. Qed.

Lemma crle_scat_start : forall n left, 1 <= n < 2 ^ 28 -> left <> [] ->
  crle_decompress CIdle (0 :: enc_usize n ++ left) 1 = crle_decompress (CScatData n) left 1.
Proof.
  intros n left Hn Hl. unfold crle_decompress.
  rewrite (crle_loop_go 4 CIdle _ 1 (CScatSize usize_init) (enc_usize n ++ left)) by reflexivity.
  destruct (usize_enc n left usize_init ltac:(lia) eq_refl) as (u1 & U).
  rewrite (crle_loop_go 3 _ _ 1 (CScatData n) left) by (cbn [crle_step]; rewrite U; reflexivity).
  destruct left as [|b l]; [congruence|].
  erewrite crle_loop_stop; [|reflexivity|discriminate]. erewrite crle_loop_stop; [|reflexivity|discriminate]. reflexivity.
Qed.

Lemma crle_rep_start : forall n v left, 1 <= n < 2 ^ 28 ->
  crle_decompress CIdle (1 :: enc_usize n ++ v :: left) 1 = crle_decompress (CRepRead n v) left 1.
Proof.
  intros n v left Hn. unfold crle_decompress.
  rewrite (crle_loop_go 4 CIdle _ 1 (CRepSize usize_init) (enc_usize n ++ v :: left)) by reflexivity.
  destruct (usize_enc n (v :: left) usize_init ltac:(lia) eq_refl) as (u1 & U).
  rewrite (crle_loop_go 3 _ _ 1 (CRepData n) (v :: left)) by (cbn [crle_step]; rewrite U; reflexivity).
  rewrite (crle_loop_go 2 _ _ 1 (CRepRead n v) left) by reflexivity.
  erewrite crle_loop_stop; [|reflexivity|discriminate]. erewrite crle_loop_stop; [|reflexivity|discriminate]. reflexivity.
Qed.

Lemma cpulls_app : forall s i o s1 i1, cpulls s i o s1 i1 -> forall o2 s2 i2,
  cpulls s1 i1 o2 s2 i2 -> cpulls s i (o ++ o2) s2 i2.
Proof. induction 1; intros; auto. cbn [app]. econstructor; eauto. Qed.

Lemma cpulls_first : forall s i s' i' o s1 i1, cpull s i = cpull s' i' -> o <> [] ->
  cpulls s' i' o s1 i1 -> cpulls s i o s1 i1.
Proof. intros s i s' i' o s1 i1 E Ho P. inv P; [congruence|]. econstructor; [rewrite E; eassumption|auto]. Qed.

Lemma segs_cpulls : forall segs f, Forall (fun s => 1 <= seg_len s < 2 ^ 28) segs ->
  cpulls CIdle (enc_segs segs ++ f) (segs_expand segs) CIdle f.
Proof.
  induction segs as [|s segs IH]; intros f H; [constructor|]. inv H.
  cbn [enc_segs segs_expand flat_map]. rewrite <- app_assoc. eapply cpulls_app; [|apply IH; auto].
  fold (enc_segs segs). set (f1 := enc_segs segs ++ f).
  destruct s as [d|n v]; cbn [enc_seg seg_expand seg_len] in *.
  - cbn [app]. rewrite <- app_assoc. apply (cpulls_first _ _ (CScatData (zlen d)) (d ++ f1)).
    + unfold cpull. apply crle_scat_start; auto. intros X. apply app_eq_nil in X. destruct X as [-> _].
      change (zlen (@nil Z)) with 0 in *. lia.
    + intros ->. change (zlen (@nil Z)) with 0 in *. lia.
    + pose proof (cpulls_scat d (zlen d) f1 ltac:(lia)) as P. rewrite Z.sub_diag in P. exact P.
  - cbn [app]. rewrite <- app_assoc. cbn [app]. apply (cpulls_first _ _ (CRepRead n v) f1).
    + unfold cpull. apply crle_rep_start; auto.
    + unfold zrepeat. intros X. apply (f_equal (@length Z)) in X. rewrite repeat_length in X. cbn in X. lia.
    + unfold zrepeat. pose proof (cpulls_rep (Z.to_nat n) n v f1 ltac:(lia)) as P.
      rewrite Z2Nat.id in P by lia. rewrite Z.sub_diag in P. exact P.
Qed.

Section Meaning.
Context {WBits : WordBits}.
Hypothesis Hword : 32 <= word_bits.

Lemma pulls_det : forall r i o r1 i1, pulls r i o r1 i1 -> forall o2 r2 i2, pulls r i o2 r2 i2 ->
  (exists o3, o2 = o ++ o3 /\ pulls r1 i1 o3 r2 i2) \/ (exists o3, o = o2 ++ o3 /\ pulls r2 i2 o3 r1 i1).
Proof.
  induction 1; intros o2 r3 i3 Q.
  - left. exists o2. auto.
  - inv Q.
    + right. exists (c :: o). split; [auto|]. econstructor; eauto.
    + rewrite H in H1. inv H1. destruct (IHpulls _ _ _ H2) as [(o4 & -> & A)|(o4 & -> & A)].
      * left. exists o4. auto.
      * right. exists o4. auto.
Qed.

Lemma pulls_split : forall o1 o2 r i r2 i2, pulls r i (o1 ++ o2) r2 i2 ->
  exists r1 i1, pulls r i o1 r1 i1 /\ pulls r1 i1 o2 r2 i2.
Proof.
  induction o1 as [|b o1 IH]; intros o2 r i r2 i2 P; cbn [app] in P; [exists r, i; split; [constructor|auto]|].
  inv P. destruct (IH _ _ _ _ _ H6) as (r3 & i3 & A & B). exists r3, i3. split; [econstructor; eauto|auto].
Qed.

Lemma nozero_end : forall r i o r1 i1 e r2 i2 x, pulls r i o r1 i1 -> pull r1 i1 = Ret (e, x, r2, i2) -> e <> 0 ->
  nozero r i.
Proof.
  intros r i o r1 i1 e r2 i2 x P E He o' r3 i3 r4 i4 Q X.
  destruct (pulls_det _ _ _ _ _ P _ _ _ Q) as [(o3 & _ & A)|(o3 & _ & A)].
  - inv A; [congruence|]. rewrite E in H. inv H. lia.
  - inv A; [rewrite E in X; inv X; lia|]. rewrite X in H. discriminate.
Qed.

(** ** Streams *)

Lemma reader_init_comp : forall ps c, exists r, reader_init ps (comp_number c) = Some r /\
  match c with
  | CompNone => r = RNone ps 0
  | CompCrle => r = RCrle CIdle
  | CompHeatshrink => r = RHs (mkhr (-1) (-1) false None)
  end.
Proof. intros ps []; cbn; eauto. Qed.

Lemma stream_pulls : forall c body stream r ps, compressed c body stream -> bytes_ok stream -> body <> [] ->
  reader_init ps (comp_number c) = Some r -> ps = zlen stream -> ps + 128 < 2 ^ word_bits ->
  exists r1, pulls r stream body r1 [] /\ nozero r stream /\ destroy r1 = Ret 0 /\
    match c with CompNone => exists n, r1 = RNone n n | CompCrle => r1 = RCrle CIdle | CompHeatshrink => True end.
Proof.
  intros c body stream r ps H Hb Hne Hr Hps Hw. destruct H; cbn in Hr; inv Hr.
  - exists (RNone (zlen body) (zlen body)). split; [|split; [|split; [|eauto]]].
    + pose proof (none_pulls Hword body (zlen body) 0 [] ltac:(lia) Hw ltac:(lia)) as P.
      rewrite app_nil_r in P. exact P.
    + apply nozero_none.
    + cbn. rewrite Z.eqb_refl. reflexivity.
  - exists (RCrle CIdle).
    pose proof (segs_cpulls segs [] H) as P. rewrite app_nil_r in P. apply cpulls_pulls in P.
    split; [auto|]. split; [|auto]. eapply nozero_end; [exact P|reflexivity|discriminate].
  - destruct (tokens_hpulls ts pad bytes H H0 H1 H2) as (d & P & Hd & F & _).
    exists (RHs (mkhr 8 7 true (Some d))). split; [|split; [|split; [|auto]]].
    + apply (hpulls_pulls 8 7) in P; [|lia]. inv P; [congruence|].
      econstructor; [|eassumption]. rewrite <- H4. reflexivity.
    + apply nozero_hs.
    + cbn. rewrite F. reflexivity.
Qed.

(** ** Size fields *)

Lemma pulls_cons_inv : forall r i b o r2 i2, pulls r i (b :: o) r2 i2 ->
  exists r1 i1, pull r i = Ret (0, [b], r1, i1) /\ pulls r1 i1 o r2 i2.
Proof. intros r i b o r2 i2 P. inv P. eauto. Qed.

Lemma us_groups : forall k a K z r i r1 i1, pulls r i (enc_groups k a) r1 i1 ->
  rok r -> bytes_ok i -> zok z -> z_cons z = true -> 0 < a < 2 ^ (27 - z_offset z) -> (zneed z <= K)%nat ->
  (27 - z_offset z) / 7 <= Z.of_nat k ->
  exists z1, us K z r i = Ret (0, (if z_signed z then -1 else 1) * (z_value z + a * 2 ^ z_offset z), z1, r1, i1) /\
    z_cons z1 = false.
Proof.
  induction k; intros a K z r i r1 i1 P Hr Hi Hz Hc Ha HK Hk.
  { destruct (Hz Hc) as (A & B & C). assert (z_offset z = 27) by lia. rewrite H in Ha. change (2 ^ (27 - 27)) with 1 in Ha. lia. }
  destruct (Hz Hc) as (O1 & O2 & O3).
  destruct K as [|K]; [unfold zneed in HK; rewrite Hc in HK; lia|].
  cbn [enc_groups] in P. destruct (Z.eqb_spec a 0); [lia|].
  destruct (Z.ltb_spec a 128).
  - apply pulls_cons_inv in P. destruct P as (r' & i' & P0 & P1). inv P1. cbn [us]. rewrite P0. cbn [obind]. change (negb (0 =? 0)) with false. cbv iota.
    destruct (size_byte_spec z a Hz) as [(_ & X & _)|(z1 & S & _ & _ & _ & _ & S1 & _)].
    { rewrite X in Ha. change (2 ^ (27 - 27)) with 1 in Ha. lia. }
    rewrite S. cbn [obind]. rewrite land_128_byte by (unfold byte_ok; lia). destruct (Z.ltb_spec a 128); [|lia].
    destruct (S1 Hc) as (_ & T1 & T2 & T3). cbv zeta.
    rewrite T2, T3, Z.mod_small by lia. eexists (mksz _ _ _ _). split; [|reflexivity].
    replace ((if z_signed z then -1 else 1) * (z_value z + a * 2 ^ z_offset z)) with
      (if z_signed z then - (z_value z + a * 2 ^ z_offset z) else z_value z + a * 2 ^ z_offset z) by (destruct (z_signed z); lia).
    reflexivity.
  - apply pulls_cons_inv in P. destruct P as (r' & i' & P0 & P1). cbn [us]. rewrite P0. cbn [obind]. change (negb (0 =? 0)) with false. cbv iota.
    destruct (size_byte_spec z (a mod 128 + 128) Hz) as [(_ & X & _)|(z1 & S & C1 & Z1 & N1 & _ & S1 & _)].
    { rewrite X in Ha. change (2 ^ (27 - 27)) with 1 in Ha. lia. }
    rewrite S. cbn [obind]. rewrite land_128_byte by (unfold byte_ok; lia).
    destruct (Z.ltb_spec (a mod 128 + 128) 128); [lia|].
    destruct (S1 Hc) as (T0 & T1 & T2 & T3).
    replace ((a mod 128 + 128) mod 128) with (a mod 128) in * by lia.
    destruct (pull1_spec Hword r i Hr Hi) as (res & out & r'' & i'' & E & Hr' & Hi' & _). rewrite P0 in E. injection E as E1 E2 E3 E4. subst res out r'' i''.
    assert (Hp : 2 ^ (z_offset z + 7) = 2 ^ z_offset z * 128) by (rewrite Z.pow_add_r by lia; reflexivity).
    assert (Hq : 2 ^ (27 - z_offset z) = 2 ^ (27 - (z_offset z + 7)) * 128).
    { replace (27 - z_offset z) with (27 - (z_offset z + 7) + 7) by lia. rewrite Z.pow_add_r by lia. reflexivity. }
    destruct (IHk (a / 128) K z1 r' i' r1 i1) as (z2 & U & V); auto; try lia.
    + apply Hr'. lia.
    + rewrite T1. lia.
    + exists z2. split; [|auto]. rewrite U, T1, T2, T3. do 4 f_equal. rewrite Hp.
      f_equal. rewrite (Z.div_mod a 128) at 3 by lia. ring.
Qed.

Lemma five : exists n, n = 5%nat.
Proof. eauto. Qed.

Lemma us_enc : forall v z r i r1 i1, pulls r i (enc_size v) r1 i1 -> rok r -> bytes_ok i -> z_cons z = false ->
  - 2 ^ 27 < v < 2 ^ 27 ->
  exists z1, us 6 z r i = Ret (0, v, z1, r1, i1) /\ z_cons z1 = false.
Proof.
  intros v z r i r1 i1 P Hr Hi Hc Hv. unfold enc_size in P. cbv zeta in P.
  assert (Hz : zok z) by (intros X; congruence).
  destruct (Z.ltb_spec (Z.abs v) 64).
  - apply pulls_cons_inv in P. destruct P as (r' & i' & P0 & P1). inv P1. destruct five as (n5 & E5). change (us 6 z r i) with (us (S 5) z r i). rewrite <- E5. cbn [us]. rewrite P0. cbn [obind]. change (negb (0 =? 0)) with false. cbv iota.
    destruct (size_byte_spec z ((if v <? 0 then 64 else 0) + Z.abs v) Hz) as [(X & _)|(z1 & S & _ & _ & _ & _ & _ & S1)]; [congruence|].
    rewrite S. cbn [obind]. rewrite land_128_byte by (unfold byte_ok; destruct (v <? 0); lia).
    destruct (Z.ltb_spec ((if v <? 0 then 64 else 0) + Z.abs v) 128); [|destruct (v <? 0); lia].
    destruct (S1 Hc) as (T1 & T2 & T3). cbv zeta.
    rewrite T2, T3. rewrite (testbit_small _ 6) by (change (2 ^ (6 + 1)) with 128; destruct (v <? 0); lia).
    change (2 ^ 6) with 64. eexists (mksz _ _ _ _). split; [|reflexivity].
    match goal with |- Ret (0, ?x, _, _, _) = _ => replace x with v; [reflexivity|] end.
    destruct (Z.ltb_spec v 0).
    + destruct (Z.leb_spec 64 (64 + Z.abs v)); lia.
    + destruct (Z.leb_spec 64 (0 + Z.abs v)); lia.
  - apply pulls_cons_inv in P. destruct P as (r' & i' & P0 & P1). destruct five as (n5 & E5). change (us 6 z r i) with (us (S 5) z r i). rewrite <- E5. cbn [us]. rewrite P0. cbn [obind]. change (negb (0 =? 0)) with false. cbv iota.
    set (b := 128 + (if v <? 0 then 64 else 0) + Z.abs v mod 64) in *.
    assert (Hb : 128 <= b < 256) by (unfold b; destruct (v <? 0); lia).
    destruct (size_byte_spec z b Hz) as [(X & _)|(z1 & S & C1 & Z1 & N1 & _ & _ & S1)]; [congruence|].
    rewrite S. cbn [obind]. rewrite land_128_byte by (unfold byte_ok; lia).
    destruct (Z.ltb_spec b 128); [lia|].
    destruct (S1 Hc) as (T1 & T2 & T3).
    destruct (pull1_spec Hword r i Hr Hi) as (res & out & r'' & i'' & E & Hr' & Hi' & _). rewrite P0 in E. injection E as E1 E2 E3 E4. subst res out r'' i''.
    destruct (us_groups 10 (Z.abs v / 64) n5 z1 r' i' r1 i1) as (z2 & U & V); auto.
    + apply Hr'. lia.
    + rewrite T1. change (2 ^ (27 - 6)) with 2097152. lia.
    + subst n5. pose proof (zneed_le z1 Z1). lia.
    + rewrite T1. change ((27 - 6) / 7) with 3. lia.
    + exists z2. split; [|auto]. rewrite U, T1, T2, T3. do 4 f_equal.
      assert (Hs : Z.testbit b 6 = (v <? 0)).
      { rewrite Z.testbit_eqb by lia. change (2 ^ 6) with 64. unfold b. destruct (v <? 0); lia. }
      rewrite Hs. change (2 ^ 6) with 64. unfold b. f_equal. clear - Hv. destruct (Z.ltb_spec v 0); lia.
Qed.

Lemma header_groups : forall k a z f, zok z -> z_cons z = true -> 0 < a < 2 ^ (27 - z_offset z) ->
  (27 - z_offset z) / 7 <= Z.of_nat k ->
  exists z1, unpack_header_size (enc_groups k a ++ f) z = Ret (0, z_value z + a * 2 ^ z_offset z, z1, f) /\
    z_cons z1 = false.
Proof.
  induction k; intros a z f Hz Hc Ha Hk.
  { destruct (Hz Hc) as (A & B & C). assert (z_offset z = 27) by lia. rewrite H in Ha. change (2 ^ (27 - 27)) with 1 in Ha. lia. }
  destruct (Hz Hc) as (O1 & O2 & O3).
  cbn [enc_groups]. destruct (Z.eqb_spec a 0); [lia|].
  destruct (Z.ltb_spec a 128).
  - cbn [app]. rewrite uhs_unfold.
    destruct (hdr_byte_spec z a Hz) as [(_ & X & _)|(z1 & S & _ & _ & _ & _ & S1 & _)].
    { rewrite X in Ha. change (2 ^ (27 - 27)) with 1 in Ha. lia. }
    rewrite S. cbn [obind]. rewrite land_128_byte by (unfold byte_ok; lia). destruct (Z.ltb_spec a 128); [|lia].
    destruct (S1 Hc) as (_ & T1 & T3).
    rewrite T3, Z.mod_small by lia. eexists (mksz _ _ _ _). split; reflexivity.
  - cbn [app]. rewrite uhs_unfold.
    destruct (hdr_byte_spec z (a mod 128 + 128) Hz) as [(_ & X & _)|(z1 & S & C1 & Z1 & N1 & _ & S1 & _)].
    { rewrite X in Ha. change (2 ^ (27 - 27)) with 1 in Ha. lia. }
    rewrite S. cbn [obind]. rewrite land_128_byte by (unfold byte_ok; lia).
    destruct (Z.ltb_spec (a mod 128 + 128) 128); [lia|].
    destruct (S1 Hc) as (T0 & T1 & T3).
    replace ((a mod 128 + 128) mod 128) with (a mod 128) in * by lia.
    assert (Hp : 2 ^ (z_offset z + 7) = 2 ^ z_offset z * 128) by (rewrite Z.pow_add_r by lia; reflexivity).
    assert (Hq : 2 ^ (27 - z_offset z) = 2 ^ (27 - (z_offset z + 7)) * 128).
    { replace (27 - z_offset z) with (27 - (z_offset z + 7) + 7) by lia. rewrite Z.pow_add_r by lia. reflexivity. }
    destruct (IHk (a / 128) z1 f) as (z2 & U & V); auto; try lia.
    + rewrite T1. lia.
    + exists z2. split; [|auto]. rewrite U, T1, T3. do 4 f_equal. rewrite Hp.
      rewrite (Z.div_mod a 128) at 3 by lia. ring.
Qed.

Lemma header_enc : forall v z f, 0 <= v < 2 ^ 27 -> z_cons z = false ->
  exists z1, unpack_header_size (enc_size v ++ f) z = Ret (0, v, z1, f) /\ z_cons z1 = false.
Proof.
  intros v z f Hv Hc. unfold enc_size. cbv zeta.
  assert (Hz : zok z) by (intros X; congruence).
  destruct (Z.ltb_spec v 0) as [|_]; [lia|]. rewrite Z.abs_eq by lia.
  destruct (Z.ltb_spec v 64).
  - cbn [app]. rewrite uhs_unfold.
    destruct (hdr_byte_spec z (0 + v) Hz) as [(X & _)|(z1 & S & _ & _ & _ & _ & _ & S1)]; [congruence|].
    rewrite S. cbn [obind]. rewrite land_128_byte by (unfold byte_ok; lia).
    destruct (Z.ltb_spec (0 + v) 128); [|lia].
    destruct (S1 Hc) as (T1 & T2).
    rewrite T2. replace ((0 + v) mod 64) with v by lia. eexists (mksz _ _ _ _). split; reflexivity.
  - cbn [app]. rewrite uhs_unfold. set (b := 128 + 0 + v mod 64) in *.
    assert (Hb : 128 <= b < 256) by (unfold b; lia).
    destruct (hdr_byte_spec z b Hz) as [(X & _)|(z1 & S & C1 & Z1 & N1 & _ & _ & S1)]; [congruence|].
    rewrite S. cbn [obind]. rewrite land_128_byte by (unfold byte_ok; lia).
    destruct (Z.ltb_spec b 128); [lia|].
    destruct (S1 Hc) as (T1 & T2).
    destruct (header_groups 10 (v / 64) z1 f) as (z2 & U & V); auto.
    + rewrite T1. change (2 ^ (27 - 6)) with 2097152. lia.
    + rewrite T1. change ((27 - 6) / 7) with 3. lia.
    + exists z2. split; [|auto]. rewrite U, T1, T2. do 4 f_equal. change (2 ^ 6) with 64. unfold b. lia.
Qed.


(** ** What one record does to the reference *)

Notation once := (process_once file_env).

Ltac fields :=
  cbv beta iota zeta delta [set_st set_left set_chunk set_patch_offset set_header set_reader
    set_to_size set_from_offset set_chunk_size set_to_offset a_patch_size a_state a_to_init
    a_compression a_patch_offset a_to_offset a_to_size a_from_offset a_chunk_size a_reader
    a_rsize a_csize a_left a_size] in *.

Definition sat (s : ap) (st : pstate) (toff tsz fo : Z) (r : reader) (i : list Z) : Prop :=
  a_state s = st /\ a_to_offset s = toff /\ a_to_size s = tsz /\ a_from_offset s = fo /\
  a_reader s = Some r /\ a_left s = i /\ z_cons (a_rsize s) = false /\ rok r /\ bytes_ok i /\ nozero r i.

Lemma next_sat : forall r i o r1 i1, pulls r i o r1 i1 -> rok r -> bytes_ok i -> nozero r i ->
  rok r1 /\ bytes_ok i1 /\ nozero r1 i1.
Proof.
  intros r i o r1 i1 P A B C. destruct (pulls_rok Hword _ _ _ _ _ P A B). split; [auto|]. split; [auto|].
  eapply nozero_pulls; eauto.
Qed.

Lemma ref_dfpatch : forall s w tsz r i r1 i1, sat s SDfpatchSize 0 tsz 0 r i -> pulls r i (enc_size 0) r1 i1 ->
  exists s1, steps1 s w s1 w /\ sat s1 SDiffSize 0 tsz 0 r1 i1.
Proof.
  intros s w tsz r i r1 i1 (A1 & A2 & A3 & A4 & A5 & A6 & A7 & A8 & A9 & A10) P.
  destruct (next_sat _ _ _ _ _ P A8 A9 A10) as (B1 & B2 & B3).
  destruct (us_enc 0 (a_rsize s) r i r1 i1 P A8 A9 A7 ltac:(lia)) as (z1 & U & V).
  eexists. split.
  - apply steps1_one. unfold process_once, process_dfpatch_size. rewrite A1, A5, A6.
    unfold unpack_size. rewrite (us_unpack Hword) by auto. rewrite U. cbn [obind].
    change (negb (0 =? 0)) with false. change (0 <? 0) with false. cbv iota. cbn [obind].
    change (0 <? 0) with false. cbv iota. reflexivity.
  - destruct s. unfold sat. fields. auto 20.
Qed.

Lemma ref_size : forall s w st next toff tsz fo r i v r1 i1,
  st = SDiffSize /\ next = SDiffData \/ st = SExtraSize /\ next = SExtraData ->
  sat s st toff tsz fo r i -> pulls r i (enc_size v) r1 i1 -> 0 <= v < 2 ^ 27 -> 0 <= toff ->
  toff + v <= tsz -> tsz < 2 ^ 27 ->
  exists s1, steps1 s w s1 w /\ sat s1 next toff tsz fo r1 i1 /\ a_chunk_size s1 = v.
Proof.
  intros s w st next toff tsz fo r i v r1 i1 Hst (A1 & A2 & A3 & A4 & A5 & A6 & A7 & A8 & A9 & A10) P Hv Ht1 Ht2 Ht3.
  destruct (next_sat _ _ _ _ _ P A8 A9 A10) as (B1 & B2 & B3).
  destruct (us_enc v (a_rsize s) r i r1 i1 P A8 A9 A7 ltac:(lia)) as (z1 & U & V).
  pose proof (pow2_32_le word_bits Hword).
  exists (set_chunk_size (set_st (set_reader s (Some r1) z1 i1) next) v). split.
  - apply steps1_one. assert (E : process_size s next = Ret (0, set_chunk_size (set_st (set_reader s (Some r1) z1 i1) next) v)).
    { unfold process_size. rewrite A5, A6. unfold common_process_size, unpack_size.
      rewrite (us_unpack Hword) by auto. rewrite U. cbn [obind]. change (negb (0 =? 0)) with false. cbv iota.
      rewrite A2, A3, (wrap_small v), (wrap_small (toff + v)) by lia.
      destruct (Z.ltb_spec tsz (toff + v)); [lia|]. cbn [obind]. change (negb (0 =? 0)) with false. cbv iota.
      rewrite wrap_small by lia. reflexivity. }
    unfold process_once. destruct Hst as [[-> ->]|[-> ->]]; rewrite A1, E; cbn [obind]; reflexivity.
  - destruct s. unfold sat. fields. auto 20.
Qed.

Lemma ref_data : forall s w next toff tsz fo r i out r1 i1 st,
  data_next st = Some next -> sat s st toff tsz fo r i -> a_chunk_size s = zlen out ->
  pulls r i out r1 i1 -> data_ok next w (zlen out) ->
  0 <= toff -> toff + zlen out <= tsz -> tsz < 2 ^ 27 -> 0 <= fo <= INT_MAX ->
  (next = SExtraSize -> fo + zlen out <= INT_MAX) ->
  exists s1, steps1 s w s1 (data_world next w out) /\
    sat s1 next (toff + zlen out) tsz (match next with SExtraSize => fo + zlen out | _ => fo end) r1 i1.
Proof.
  intros s w next toff tsz fo r i out r1 i1 st Hn (A1 & A2 & A3 & A4 & A5 & A6 & A7 & A8 & A9 & A10) Hc P Hok T1 T2 T3 F1 F2.
  destruct (next_sat _ _ _ _ _ P A8 A9 A10) as (B1 & B2 & B3).
  pose proof (pow2_32_le word_bits Hword). pose proof (zlen_nonneg out).
  rewrite <- A1 in Hn.
  assert (Hrg : ranges s). { unfold ranges, INT_MIN, INT_MAX in *. lia. }
  pose proof (ref_data_steps Hword next r i out r1 i1 P s w Hn Hrg A5 A6 ltac:(lia) Hok) as S1.
  set (s1 := data_state next s r1 i1 (zlen out)) in *.
  assert (C1 : a_chunk_size s1 = 0).
  { unfold s1, data_state. destruct s. fields. fields. rewrite Hc, Z.sub_diag. apply wrap_small. lia. }
  assert (C2 : a_state s1 = a_state s) by (destruct s; reflexivity).
  exists (set_st s1 next). split.
  - eapply steps1_trans; [exact S1|]. apply steps1_one.
    rewrite (once_data 1 s1 _ next) by (rewrite C2; auto).
    unfold process_data. cbv zeta. rewrite C1. reflexivity.
  - clear S1 C1 C2. unfold sat. unfold s1, data_state. clear s1. destruct s. fields.
    split; [auto|]. split; [subst; apply wrap_small; lia|]. split; [auto|]. split.
    + unfold data_fo. destruct next; auto. subst. apply to_int_small. specialize (F2 eq_refl). unfold INT_MIN, INT_MAX in *. lia.
    + auto 20.
Qed.

Lemma ref_adj : forall s w toff tsz fo r i v r1 i1, sat s SAdjustment toff tsz fo r i ->
  pulls r i (enc_size v) r1 i1 -> - 2 ^ 27 < v < 2 ^ 27 -> f_pos w = fo -> 0 <= fo + v -> fo + v <= INT_MAX ->
  exists s1, steps1 s w s1 (mkfiles (f_from w) (fo + v) (f_to w)) /\
    sat s1 (if toff =? tsz then SDone else SDiffSize) toff tsz (fo + v) r1 i1.
Proof.
  intros s w toff tsz fo r i v r1 i1 (A1 & A2 & A3 & A4 & A5 & A6 & A7 & A8 & A9 & A10) P Hv Hp F1 F2.
  destruct (next_sat _ _ _ _ _ P A8 A9 A10) as (B1 & B2 & B3).
  destruct (us_enc v (a_rsize s) r i r1 i1 P A8 A9 A7 ltac:(lia)) as (z1 & U & V).
  eexists. split.
  - apply steps1_one. unfold process_once, process_adjustment. rewrite A1, A5, A6.
    unfold unpack_size. rewrite (us_unpack Hword) by auto. rewrite U. cbn [obind].
    change (negb (0 =? 0)) with false. cbv iota. cbn [from_seek file_env]. unfold file_seek. rewrite Hp.
    destruct (Z.ltb_spec (fo + v) 0); [lia|]. change (negb (0 =? 0)) with false. cbv iota.
    change (a_from_offset (set_reader s (Some r1) z1 i1)) with (a_from_offset s). rewrite A4. unfold int_add.
    assert (in_int (fo + v) = true) as ->. { unfold in_int, INT_MIN, INT_MAX in *. lia. }
    cbn [obind]. change (0 <? 0) with false. cbv iota. reflexivity.
  - destruct s. unfold sat. fields. subst. auto 20.
Qed.

Lemma apply_recs_pos : forall recs from pos out, apply_recs from pos recs = Some out -> 0 <= pos ->
  zlen out = recs_size recs.
Proof.
  induction recs as [|rc recs IH]; intros from pos out E Hp; cbn [apply_recs] in E; [inv E; reflexivity|].
  destruct (slice from pos (zlen (r_diff rc))) eqn:Es; [|discriminate]. cbv zeta in E.
  destruct (Z.ltb_spec (pos + zlen (r_diff rc) + r_adj rc) 0); [discriminate|].
  destruct (apply_recs from _ recs) eqn:Er; [|discriminate]. inv E.
  apply IH in Er; [|lia]. unfold recs_size, rec_size in *. cbn [fold_right]. rewrite !zlen_app, Er.
  assert (zlen (add_mod (r_diff rc) l) = zlen (r_diff rc)).
  { assert (zlen l = zlen (r_diff rc)).
    { unfold slice in Es. pose proof (zlen_nonneg (r_diff rc)). destruct (Z.eqb_spec (zlen (r_diff rc)) 0); [inv Es; rewrite e; reflexivity|].
      destruct ((0 <=? pos) && (pos + zlen (r_diff rc) <=? zlen from)) eqn:X; inv Es.
      rewrite zlen_ztake, zlen_zdrop by lia. lia. }
    clear -H0. revert l H0. induction (r_diff rc) as [|x d IHd]; intros [|y l] H0; cbn [add_mod]; auto.
    rewrite !zlen_cons in *. rewrite IHd; lia. }
  rewrite H0. unfold rec_size. lia.
Qed.

Lemma recs_size_nonneg : forall recs, 0 <= recs_size recs.
Proof.
  induction recs; [cbn; lia|]. unfold recs_size in *. cbn [fold_right]. unfold rec_size at 1.
  pose proof (zlen_nonneg (r_diff a)). pose proof (zlen_nonneg (r_extra a)). lia.
Qed.

Lemma last_nonempty_tail : forall rc recs, last_nonempty (rc :: recs) ->
  recs = [] /\ 0 < rec_size rc \/ last_nonempty recs /\ 0 < recs_size recs.
Proof.
  intros rc recs (rs & r & E & H). destruct rs as [|x rs].
  - inv E. auto.
  - right. cbn [app] in E. inv E. split; [exists rs, r; auto|].
    clear -H. induction rs.
    + unfold recs_size. cbn [app fold_right]. lia.
    + unfold recs_size in *. cbn [app fold_right]. pose proof (zlen_nonneg (r_diff a)). pose proof (zlen_nonneg (r_extra a)).
      unfold rec_size at 1. lia.
Qed.

Lemma ref_recs : forall recs s from pos toff tsz r i r1 i1 to out,
  sat s SDiffSize toff tsz pos r i -> pulls r i (enc_recs recs) r1 i1 ->
  apply_recs from pos recs = Some out -> last_nonempty recs -> 0 <= toff -> toff + recs_size recs = tsz -> tsz < 2 ^ 27 ->
  Forall (fun r => - 2 ^ 27 < r_adj r < 2 ^ 27) recs -> Forall (fun p => p <= INT_MAX) (positions pos recs) -> 0 <= pos ->
  exists sd wd, refdone s (mkfiles from pos to) sd wd /\ f_to wd = to ++ out /\ f_from wd = from /\
    a_reader sd = Some r1 /\ a_to_size sd = tsz /\ a_left sd = i1.
Proof.
  induction recs as [|rc recs IH]; intros s from pos toff tsz r i r1 i1 to out Hs P Ha Hl Ht1 Ht2 Ht3 Hadj Hpos Hp.
  { destruct Hl as (rs & r0 & E & _). destruct rs; discriminate. }
  cbn [enc_recs flat_map] in P. fold (enc_recs recs) in P. unfold enc_rec in P. rewrite <- !app_assoc in P.
  apply pulls_split in P. destruct P as (ra & ia & P1 & P). apply pulls_split in P. destruct P as (rb & ib & P2 & P).
  apply pulls_split in P. destruct P as (rc1 & ic & P3 & P). apply pulls_split in P. destruct P as (rd & id & P4 & P).
  apply pulls_split in P. destruct P as (re & ie & P5 & P).
  inv Hadj. cbn [positions] in Hpos. cbv zeta in Hpos. inv Hpos. inv H4.
  cbn [apply_recs] in Ha. destruct (slice from pos (zlen (r_diff rc))) as [sl|] eqn:Es; [|discriminate]. cbv zeta in Ha.
  destruct (Z.ltb_spec (pos + zlen (r_diff rc) + r_adj rc) 0); [discriminate|].
  destruct (apply_recs from _ recs) as [rest|] eqn:Er; [|discriminate]. inv Ha.
  assert (Hsz : recs_size (rc :: recs) = zlen (r_diff rc) + zlen (r_extra rc) + recs_size recs) by reflexivity.
  pose proof (recs_size_nonneg recs). pose proof (zlen_nonneg (r_diff rc)). pose proof (zlen_nonneg (r_extra rc)).
  set (w := mkfiles from pos to).
  destruct (ref_size s w SDiffSize SDiffData toff (toff + recs_size (rc :: recs)) pos r i _ ra ia ltac:(auto) Hs P1 ltac:(lia) Ht1 ltac:(lia) Ht3)
    as (s1 & S1 & Hs1 & Hc1).
  assert (Hok1 : data_ok SExtraSize w (zlen (r_diff rc))).
  { cbn [data_ok w f_pos f_from]. unfold slice in Es. destruct (Z.eqb_spec (zlen (r_diff rc)) 0); [auto|].
    destruct ((0 <=? pos) && (pos + zlen (r_diff rc) <=? zlen from)) eqn:X; [|discriminate]. right. lia. }
  destruct (ref_data s1 w SExtraSize toff _ pos ra ia (r_diff rc) rb ib SDiffData eq_refl Hs1 Hc1 P2 Hok1 Ht1 ltac:(lia) Ht3 ltac:(lia) ltac:(auto))
    as (s2 & S2 & Hs2).
  cbv iota in Hs2. set (w2 := data_world SExtraSize w (r_diff rc)) in *.
  destruct (ref_size s2 w2 SExtraSize SExtraData _ _ _ _ _ _ rc1 ic ltac:(auto) Hs2 P3 ltac:(lia) ltac:(lia) ltac:(lia) Ht3)
    as (s3 & S3 & Hs3 & Hc3).
  destruct (ref_data s3 w2 SAdjustment _ _ _ _ _ (r_extra rc) rd id SExtraData eq_refl Hs3 Hc3 P4 I ltac:(lia) ltac:(lia) Ht3 ltac:(lia) ltac:(discriminate))
    as (s4 & S4 & Hs4).
  cbv iota in Hs4. set (w4 := data_world SAdjustment w2 (r_extra rc)) in *.
  destruct (ref_adj s4 w4 _ _ _ _ _ (r_adj rc) re ie Hs4 P5 H1 eq_refl ltac:(lia) H5) as (s5 & S5 & Hs5).
  assert (Sall : steps1 s w s5 (mkfiles (f_from w4) (pos + zlen (r_diff rc) + r_adj rc) (f_to w4))).
  { eauto using steps1_trans. }
  assert (Hsl : sl = ztake (zlen (r_diff rc)) (zdrop pos from)).
  { unfold slice in Es. destruct (Z.eqb_spec (zlen (r_diff rc)) 0) as [e|]; [inv Es; rewrite e; reflexivity|].
    destruct ((0 <=? pos) && (pos + zlen (r_diff rc) <=? zlen from)); inv Es; reflexivity. }
  assert (Hto : f_to w4 = to ++ add_mod (r_diff rc) sl ++ r_extra rc).
  { unfold w4, w2, w, data_world. cbn [f_to f_from f_pos]. rewrite Hsl, <- app_assoc. reflexivity. }
  destruct (last_nonempty_tail _ _ Hl) as [[-> Hrs]|[Hl' Hrs]].
  - inv P. cbn in Er. inv Er. rewrite app_nil_r.
    change (recs_size []) with 0 in *. 
    rewrite (proj2 (Z.eqb_eq _ _)) in Hs5 by lia.
    exists s5, (mkfiles (f_from w4) (pos + zlen (r_diff rc) + r_adj rc) (f_to w4)).
    destruct Hs5 as (A1 & A2 & A3 & A4 & A5 & A6 & A7 & A8 & A9 & A10).
    split; [split; auto|]. cbn [f_to f_from]. auto.
  - rewrite (proj2 (Z.eqb_neq _ _)) in Hs5 by lia.
    destruct (IH s5 from (pos + zlen (r_diff rc) + r_adj rc) _ _ _ _ r1 i1 (f_to w4) rest Hs5 P Er Hl' ltac:(lia) ltac:(lia) Ht3 H2 H6 ltac:(lia))
      as (sd & wd & D1 & D2 & D3 & D4 & D5 & D6).
    exists sd, wd. split; [eapply refdone_steps; eauto|]. split; [|auto].
    rewrite D2, Hto, <- !app_assoc. reflexivity.
Qed.

End Meaning.
