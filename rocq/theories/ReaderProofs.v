(** Proofs about the patch readers: decompressing in pieces, from chunks of any
    size, delivers the same bytes as pulling one byte at a time from the whole
    input. *)

From Coq Require Import ZArith List Bool Lia ZifyBool ZifyNat ZifyN.
From Verif Require Import Prelude Lib Heatshrink HsProofs CReader Spec.
Import ListNotations.
Open Scope Z_scope.

Ltac Zify.zify_post_hook ::= Z.to_euclidean_division_equations.

(** ** Micro steps of the heatshrink decoder with its input *)

Notation hinv87 := (hinv 8 7).

Lemma H8 : 1 <= 8 <= 15. Proof. lia. Qed.
Lemma H7 : 1 <= 7 <= 15. Proof. lia. Qed.

Inductive msteps : hsd -> list Z -> list Z -> hsd -> list Z -> Prop :=
| ms_refl : forall d i, msteps d i [] d i
| ms_silent : forall d d1 i o d2 i2,
    silent 8 7 d d1 -> msteps d1 i o d2 i2 -> msteps d i o d2 i2
| ms_sink : forall d b d1 i o d2 i2,
    starved 8 7 d -> hs_sink1 d b = Ret (Some d1) -> msteps d1 i o d2 i2 ->
    msteps d (b :: i) o d2 i2
| ms_emit : forall d c d1 i o d2 i2,
    emit1 8 7 d c d1 -> msteps d1 i o d2 i2 -> msteps d i (c :: o) d2 i2.

Lemma msteps_app : forall d i o d1 i1, msteps d i o d1 i1 ->
  forall o2 d2 i2, msteps d1 i1 o2 d2 i2 -> msteps d i (o ++ o2) d2 i2.
Proof.
  induction 1; intros o2 d3 i3 Hm; auto.
  - eapply ms_silent; eauto.
  - eapply ms_sink; eauto.
  - cbn [app]. eapply ms_emit; eauto.
Qed.

Lemma runs_msteps : forall n d o d1, runs 8 7 n d o d1 -> forall i, msteps d i o d1 i.
Proof.
  induction 1; intros i; try apply ms_refl.
  - eapply ms_silent; eauto.
  - eapply ms_emit; eauto.
Qed.

Lemma sink_inv : forall d b d1, hinv87 d -> starved 8 7 d -> byte_ok b ->
  hs_sink1 d b = Ret (Some d1) -> hinv87 d1.
Proof.
  intros d b d1 H Hs Hb E.
  destruct (hs_sink_starved 8 7 H8 H7 d b H Hs Hb) as (d2 & E2 & Hi & _). congruence.
Qed.

Lemma msteps_inv : forall d i o d1 i1, msteps d i o d1 i1 -> hinv87 d -> bytes_ok i ->
  hinv87 d1 /\ bytes_ok i1.
Proof.
  induction 1; intros Hi Hb; auto.
  - apply IHmsteps; auto. eapply silent_inv; eauto using H8, H7.
  - inv Hb. apply IHmsteps; auto. eapply sink_inv; eauto.
  - apply IHmsteps; auto. eapply emit1_inv in H; eauto using H8, H7. tauto.
Qed.

(** *** One byte *)

Definition hpull (d : hsd) (i : list Z) := hs_decompress_loop i d 1 [].

Lemma hs_loop_unfold : forall i d n out, hs_decompress_loop i d n out =
  letm (d1, o) := hs_poll HS_WINDOW HS_LOOKAHEAD (n - zlen out) d in
  let out1 := out ++ o in
  if n - zlen out1 =? 0 then Ret (0, out1, d1, i)
  else
    match i with
    | [] => if zlen out1 =? 0 then Ret (1, [], d1, []) else Ret (0, out1, d1, [])
    | b :: left' =>
        letm od := hs_sink1 d1 b in
        match od with
        | None => Ret (- E_HEATSHRINK_SINK, [], d1, left')
        | Some d2 => hs_decompress_loop left' d2 n out1
        end
    end.
Proof. destruct i; reflexivity. Qed.

Lemma poll_silent : forall n d d1, hinv87 d -> 0 <= n -> silent 8 7 d d1 ->
  hs_poll 8 7 n d = hs_poll 8 7 n d1.
Proof.
  intros n d d1 H Hn Hs.
  assert (H1 : hinv87 d1) by (eapply silent_inv; eauto using H8, H7).
  destruct (hs_poll_runs 8 7 H8 H7 n d1 H1 Hn) as (d2 & o & A & B).
  rewrite A. apply (hs_poll_iff 8 7 H8 H7); auto. eapply run_silent; eauto.
Qed.

Lemma poll_starved : forall n d, hinv87 d -> 0 <= n -> starved 8 7 d ->
  hs_poll 8 7 n d = Ret (d, []).
Proof.
  intros n d H Hn Hs. apply (hs_poll_iff 8 7 H8 H7); auto. apply run_starve; auto.
Qed.

Lemma hpull_silent : forall d d1 i, hinv87 d -> silent 8 7 d d1 -> hpull d i = hpull d1 i.
Proof.
  intros d d1 i H Hs. unfold hpull. rewrite !(hs_loop_unfold i).
  unfold HS_WINDOW, HS_LOOKAHEAD. change (1 - zlen []) with 1.
  rewrite (poll_silent 1 d d1) by (auto; lia). reflexivity.
Qed.

Lemma hpull_sink : forall d b d1 i, hinv87 d -> starved 8 7 d -> hs_sink1 d b = Ret (Some d1) ->
  hpull d (b :: i) = hpull d1 i.
Proof.
  intros d b d1 i H Hs Hk. unfold hpull at 1. rewrite hs_loop_unfold.
  unfold HS_WINDOW, HS_LOOKAHEAD. change (1 - zlen []) with 1.
  rewrite (poll_starved 1 d) by (auto; lia). cbn [obind app]. change (1 - zlen [] =? 0) with false.
  cbv iota zeta. rewrite Hk. reflexivity.
Qed.

Lemma hpull_quiet : forall d i d1 i1, hinv87 d -> bytes_ok i -> msteps d i [] d1 i1 ->
  hpull d i = hpull d1 i1.
Proof.
  intros d i d1 i1 H Hb Hm. remember [] as o eqn:Eo. revert H Hb Eo.
  induction Hm; intros Hi Hb Eo; try discriminate; auto.
  - rewrite (hpull_silent d d1) by auto. apply IHHm; auto.
    eapply silent_inv; eauto using H8, H7.
  - inv Hb. rewrite (hpull_sink d b d1) by auto. apply IHHm; auto. eapply sink_inv; eauto.
Qed.

Lemma hpull_emit : forall d c d1 i, hinv87 d -> emit1 8 7 d c d1 ->
  exists d2, hpull d i = Ret (0, [c], d2, i) /\ runs 8 7 0 d1 [] d2.
Proof.
  intros d c d1 i H He.
  destruct (emit1_inv 8 7 H8 H7 _ _ _ H He) as [H1 _].
  destruct (hs_poll_runs 8 7 H8 H7 0 d1 H1 ltac:(lia)) as (d2 & o & A & B).
  assert (o = []). { apply zlen_0_nil. pose proof (runs_len 8 7 _ _ _ _ B). pose proof (zlen_nonneg o). lia. }
  subst o. exists d2. split; [|auto].
  assert (P : hs_poll 8 7 1 d = Ret (d2, [c])).
  { apply (hs_poll_iff 8 7 H8 H7); [auto|lia|]. change 1 with (0 + 1).
    eapply run_emit; eauto. lia. }
  unfold hpull. rewrite hs_loop_unfold. unfold HS_WINDOW, HS_LOOKAHEAD. change (1 - zlen []) with 1.
  rewrite P. reflexivity.
Qed.

(** Determinism of micro steps. *)
Lemma msteps_strip : forall d i d1 i1, msteps d i [] d1 i1 -> hinv87 d -> bytes_ok i ->
  forall o d2 i2, msteps d i o d2 i2 ->
  msteps d1 i1 o d2 i2 \/ (o = [] /\ msteps d2 i2 [] d1 i1).
Proof.
  intros d i d1 i1 Hm. remember [] as oo eqn:Eo. revert Eo.
  induction Hm; intros Eo Hi Hb oo dd ii Hx; try discriminate; auto.
  - inv Hx.
    + right. split; [auto|]. eapply ms_silent; eauto.
    + assert (d3 = d1). { destruct H as (_ & A & _), H0 as (_ & B & _). congruence. }
      subst d3. apply IHHm; auto. eapply silent_inv; eauto using H8, H7.
    + exfalso. destruct H as (_ & A & B). rewrite (hs_step_starved 8 7 H8 H7) in A by auto.
      inv A. congruence.
    + exfalso. destruct H as (A & _), H0 as (B & _). contradiction.
  - inv Hb. inv Hx.
    + right. split; [auto|]. eapply ms_sink; eauto.
    + exfalso. destruct H1 as (_ & A & B). rewrite (hs_step_starved 8 7 H8 H7) in A by auto.
      inv A. congruence.
    + assert (d3 = d1) by congruence. subst d3. apply IHHm; auto. eapply sink_inv; eauto.
    + exfalso. destruct H1 as (A & B). rewrite (hs_step_starved 8 7 H8 H7) in B by auto. discriminate.
Qed.

(** Pulling bytes one at a time. *)
Inductive hpulls : hsd -> list Z -> list Z -> hsd -> list Z -> Prop :=
| hp_nil : forall d i, hpulls d i [] d i
| hp_cons : forall d i c d1 i1 o d2 i2, hpull d i = Ret (0, [c], d1, i1) ->
    hpulls d1 i1 o d2 i2 -> hpulls d i (c :: o) d2 i2.

(** First output of a trace. *)
Lemma msteps_first : forall d i c o d2 i2, msteps d i (c :: o) d2 i2 ->
  exists da ia db, msteps d i [] da ia /\ emit1 8 7 da c db /\ msteps db ia o d2 i2.
Proof.
  intros d i c o d2 i2 Hm. remember (c :: o) as oo eqn:Eo. revert Eo.
  induction Hm; intros Eo; try discriminate.
  - destruct (IHHm Eo) as (da & ia & db & A & B & C). exists da, ia, db.
    split; [eapply ms_silent; eauto|auto].
  - destruct (IHHm Eo) as (da & ia & db & A & B & C). exists da, ia, db.
    split; [eapply ms_sink; eauto|auto].
  - inv Eo. exists d, i, d1. split; [constructor|auto].
Qed.

Definition joined (d1 : hsd) (i1 : list Z) (d2 : hsd) (i2 : list Z) : Prop :=
  msteps d1 i1 [] d2 i2 \/ msteps d2 i2 [] d1 i1.

Lemma hpulls_of_msteps : forall o d i d2 i2, hinv87 d -> bytes_ok i ->
  msteps d i o d2 i2 ->
  exists d' i', hpulls d i o d' i' /\ joined d' i' d2 i2.
Proof.
  induction o as [|c o IH]; intros d i d2 i2 Hi Hb Hm.
  - exists d, i. split; [constructor|left; auto].
  - destruct (msteps_first _ _ _ _ _ _ Hm) as (da & ia & db & A & B & C).
    destruct (msteps_inv _ _ _ _ _ A Hi Hb) as [Hda Hia].
    destruct (hpull_emit da c db ia Hda B) as (d3 & P & R).
    assert (P' : hpull d i = Ret (0, [c], d3, ia)) by (rewrite (hpull_quiet d i da ia) by auto; auto).
    destruct (emit1_inv 8 7 H8 H7 _ _ _ Hda B) as [Hdb _].
    pose proof (runs_msteps _ _ _ _ R ia) as Q.
    destruct (msteps_inv _ _ _ _ _ Q Hdb Hia) as [Hd3 _].
    destruct (msteps_strip _ _ _ _ Q Hdb Hia _ _ _ C) as [D|[Eo D]].
    + destruct (IH d3 ia d2 i2 Hd3 Hia D) as (d' & i' & E & F).
      exists d', i'. split; [econstructor; eauto|auto].
    + subst o. exists d3, ia. split; [econstructor; [eauto|constructor]|]. right; auto.
Qed.

Lemma joined_hpull : forall d1 i1 d2 i2, hinv87 d1 -> bytes_ok i1 -> hinv87 d2 -> bytes_ok i2 ->
  joined d1 i1 d2 i2 -> hpull d1 i1 = hpull d2 i2.
Proof.
  intros d1 i1 d2 i2 A B C D [E|E]; [apply hpull_quiet; auto|symmetry; apply hpull_quiet; auto].
Qed.

(** *** The decompressor *)

(** It never fails on bytes (so the heatshrink SINK and POLL errors cannot
    happen), and everything it does is a sequence of micro steps. *)
Lemma hs_loop_msteps : forall i d n out, hinv87 d -> bytes_ok i -> zlen out < n ->
  exists res o d' i', hs_decompress_loop i d n out = Ret (res, o, d', i') /\
    hinv87 d' /\ bytes_ok i' /\
    (res = 1 /\ o = [] /\ out = [] /\ i' = [] /\ (forall f, msteps d (i ++ f) [] d' f) \/
     res = 0 /\ exists o1, o = out ++ o1 /\ o <> [] /\ zlen o <= n /\ bytes_ok o1 /\
       forall f, msteps d (i ++ f) o1 d' (i' ++ f)).
Proof.
  induction i as [|b i IH]; intros d n out Hi Hb Hn; rewrite hs_loop_unfold;
    unfold HS_WINDOW, HS_LOOKAHEAD;
    destruct (hs_poll_runs 8 7 H8 H7 (n - zlen out) d Hi ltac:(lia)) as (d1 & o & A & B);
    rewrite A; cbn [obind]; cbv zeta; rewrite zlen_app;
    pose proof (runs_len 8 7 _ _ _ _ B) as Hlo;
    destruct (runs_inv 8 7 H8 H7 _ _ _ _ B Hi) as [Hd1 Ho];
    pose proof (zlen_nonneg o) as Hnn; pose proof (zlen_nonneg out) as Hnn2.
  - destruct (Z.eqb_spec (n - (zlen out + zlen o)) 0) as [E|E].
    + exists 0, (out ++ o), d1, []. split; [reflexivity|]. split; [auto|]. split; [auto|].
      right. split; [reflexivity|]. exists o. split; [reflexivity|].
      split; [intros X; apply app_eq_nil in X; destruct X; subst; rewrite !zlen_nil in *; lia|].
      split; [rewrite zlen_app; lia|]. split; [auto|]. intros f. apply runs_msteps with (1 := B).
    + destruct (Z.eqb_spec (zlen out + zlen o) 0) as [E0|E0].
      * exists 1, [], d1, []. split; [reflexivity|]. split; [auto|]. split; [auto|]. left.
        assert (o = []) by (apply zlen_0_nil; lia). subst o.
        split; [auto|]. split; [auto|]. split; [apply zlen_0_nil; lia|]. split; [auto|].
        intros f. apply runs_msteps with (1 := B).
      * exists 0, (out ++ o), d1, []. split; [reflexivity|]. split; [auto|]. split; [auto|].
        right. split; [reflexivity|]. exists o. split; [reflexivity|].
        split; [intros X; apply app_eq_nil in X; destruct X; subst; rewrite !zlen_nil in *; lia|].
        split; [rewrite zlen_app; lia|]. split; [auto|]. intros f. apply runs_msteps with (1 := B).
  - inv Hb. destruct (Z.eqb_spec (n - (zlen out + zlen o)) 0) as [E|E].
    + exists 0, (out ++ o), d1, (b :: i). split; [reflexivity|]. split; [auto|]. split; [constructor; auto|].
      right. split; [reflexivity|]. exists o. split; [reflexivity|].
      split; [intros X; apply app_eq_nil in X; destruct X; subst; rewrite !zlen_nil in *; lia|].
      split; [rewrite zlen_app; lia|]. split; [auto|]. intros f. apply runs_msteps with (1 := B).
    + assert (Hst : starved 8 7 d1).
      { destruct (runs_end 8 7 _ _ _ _ B) as [S|[_ S]]; [auto|lia]. }
      destruct (hs_sink_starved 8 7 H8 H7 d1 b Hd1 Hst H1) as (d2 & Es & Hd2 & _).
      rewrite Es. cbn [obind].
      destruct (IH d2 n (out ++ o) Hd2 H2) as (res & o2 & d' & i' & Er & Hd' & Hi' & Hc).
      { rewrite zlen_app. lia. }
      exists res, o2, d', i'. split; [exact Er|]. split; [auto|]. split; [auto|].
      destruct Hc as [(E1 & E2 & E3 & E4 & Hm)|(E1 & o1 & E2 & E3 & E4 & E5 & Hm)].
      * left. apply app_eq_nil in E3. destruct E3; subst out o.
        repeat (split; [auto|]). intros f.
        apply (msteps_app _ _ [] _ _ (runs_msteps _ _ _ _ B ((b :: i) ++ f)) []).
        cbn [app]. eapply ms_sink; eauto.
      * right. split; [auto|]. exists (o ++ o1). rewrite app_assoc. split; [auto|].
        split; [auto|]. split; [auto|]. split; [apply bytes_ok_app; auto|]. intros f.
        eapply msteps_app; [apply runs_msteps with (1 := B)|].
        cbn [app]. eapply ms_sink; eauto.
Qed.

(** ** Unsigned sizes and CRLE *)

Lemma acc_bits_ok : forall v b off, 0 <= off <= 24 -> 0 <= v < 2 ^ off ->
  acc_bits v b off = Ret (v + b mod 128 * 2 ^ off) /\
  0 <= v + b mod 128 * 2 ^ off < 2 ^ (off + 7).
Proof.
  intros v b off Ho Hv. unfold acc_bits, int_shl. rewrite land_127.
  assert (0 < 2 ^ off) by (apply Z.pow_pos_nonneg; lia).
  assert (2 ^ (off + 7) = 2 ^ off * 128) by (rewrite Z.pow_add_r by lia; reflexivity).
  assert (2 ^ off <= 2 ^ 24) by (apply Z.pow_le_mono_r; lia).
  change (2 ^ 24) with 16777216 in *.
  pose proof (Z.mod_pos_bound b 128 ltac:(lia)).
  rewrite Z.shiftl_mul_pow2 by lia.
  assert (in_int (b mod 128 * 2 ^ off) = true) as ->.
  { unfold in_int, INT_MIN, INT_MAX. apply andb_true_intro. split; apply Z.leb_le; nia. }
  assert ((0 <=? off) && (off <? 32) = true) as -> by lia.
  cbn [andb obind]. rewrite <- Z.shiftl_mul_pow2 by lia. rewrite lor_add by lia.
  rewrite Z.shiftl_mul_pow2 by lia. split; [reflexivity|nia].
Qed.

Definition uok (u : usize_st) : Prop :=
  u_cons u = true -> 0 <= u_offset u /\ u_offset u mod 7 = 0 /\ 0 <= u_value u < 2 ^ u_offset u.

Lemma is_overflow_false : forall o, is_overflow o = false -> o <= 25.
Proof. unfold is_overflow; intros; lia. Qed.

(** Loop started in a consecutive state. *)
Lemma usize_loop_total : forall left u, uok u -> u_cons u = true ->
  exists res v u1 left1, unpack_usize_loop left u = Ret (res, v, u1, left1) /\
    uok u1 /\ u_cons u1 = true /\ (exists used, left = used ++ left1) /\
    (res = 1 /\ left1 = [] /\ (forall f, unpack_usize_loop (left ++ f) u = unpack_usize_loop f u1) \/
     (res = 0 /\ 0 <= v < 2 ^ 28 \/ res = - E_CORRUPT_PATCH_OVERFLOW) /\
     (forall f, unpack_usize_loop (left ++ f) u = Ret (res, v, u1, left1 ++ f))).
Proof.
  induction left as [|b left IH]; intros u Hu Hc.
  - exists 1, 0, u, []. split; [reflexivity|]. split; [auto|]. split; [auto|].
    split; [exists []; auto|]. left. auto.
  - cbn [unpack_usize_loop]. destruct (Hu Hc) as (Ho & Hm & Hv).
    destruct (is_overflow (u_offset u)) eqn:Eo.
    + exists (- E_CORRUPT_PATCH_OVERFLOW), 0, u, left. split; [reflexivity|].
      split; [auto|]. split; [auto|]. split; [exists [b]; auto|].
      right. split; [auto|]. intros f. cbn [app unpack_usize_loop]. rewrite Eo. reflexivity.
    + apply is_overflow_false in Eo as Eo'.
      destruct (acc_bits_ok (u_value u) b (u_offset u)) as [A B]; [lia|lia|].
      rewrite A. cbn [obind].
      set (u1 := mkuz (u_cons u) (u_value u + b mod 128 * 2 ^ u_offset u) (u_offset u + 7)).
      assert (Hu1 : uok u1). { intros _. cbn. split; [lia|]. split; [lia|exact B]. }
      destruct (Z.land b 128 =? 0) eqn:Eb.
      * exists 0, (u_value u + b mod 128 * 2 ^ u_offset u), u1, left. split; [reflexivity|].
        split; [auto|]. split; [auto|]. split; [exists [b]; auto|].
        right. split.
        { left. split; [auto|]. assert (2 ^ (u_offset u + 7) <= 2 ^ 28) by (apply Z.pow_le_mono_r; lia). lia. }
        intros f. cbn [app unpack_usize_loop]. rewrite Eo, A. cbn [obind]. rewrite Eb. reflexivity.
      * destruct (IH u1 Hu1 Hc) as (res & v & u2 & left1 & E1 & E2 & E3 & (used & E4) & E5).
        exists res, v, u2, left1. split; [exact E1|]. split; [auto|]. split; [auto|].
        split; [exists (b :: used); rewrite E4; auto|].
        destruct E5 as [(F1 & F2 & F3)|(F1 & F2)].
        -- left. split; [auto|]. split; [auto|]. intros f. cbn [app unpack_usize_loop].
           rewrite Eo, A. cbn [obind]. rewrite Eb. apply F3.
        -- right. split; [auto|]. intros f. cbn [app unpack_usize_loop].
           rewrite Eo, A. cbn [obind]. rewrite Eb. apply F2.
Qed.

Lemma usize_total : forall left u, uok u ->
  exists res v u1 left1, unpack_usize left u = Ret (res, v, u1, left1) /\
    uok u1 /\ (exists used, left = used ++ left1) /\
    (res = 1 /\ left1 = [] /\ (forall f, unpack_usize (left ++ f) u = unpack_usize f u1) \/
     (res = 0 /\ 0 <= v < 2 ^ 28 \/ res = - E_CORRUPT_PATCH_OVERFLOW) /\
     (forall f, unpack_usize (left ++ f) u = Ret (res, v, u1, left1 ++ f))).
Proof.
  intros left u Hu. unfold unpack_usize.
  set (u0 := if u_cons u then u else mkuz true 0 0).
  assert (Hu0 : uok u0 /\ u_cons u0 = true).
  { unfold u0. destruct (u_cons u) eqn:E; [auto|]. split; [|auto]. intros _. cbn. lia. }
  destruct Hu0 as [A B].
  destruct (usize_loop_total left u0 A B) as (res & v & u1 & left1 & E1 & E2 & E3 & E4 & E5).
  exists res, v, u1, left1. rewrite E3. repeat (split; [auto|]). auto.
Qed.

Definition cok (s : crle_st) : Prop :=
  match s with
  | CIdle => True
  | CScatSize u | CRepSize u => uok u
  | CScatData k | CRepData k => 0 <= k < 2 ^ 28
  | CRepRead k v => 0 <= k < 2 ^ 28 /\ byte_ok v
  end.

Definition rank (s : crle_st) : nat :=
  match s with
  | CIdle => 4 | CScatSize _ => 2 | CScatData _ => 1 | CRepSize _ => 3 | CRepData _ => 2
  | CRepRead _ _ => 1
  end.

(** One step on a chunk, related to the step on more input and to the step for
    another requested size. *)
Lemma crle_step_total : forall s left n, cok s -> bytes_ok left -> 1 <= n ->
  exists res out s1 left1, crle_step s left n = Ret (res, out, s1, left1) /\
    cok s1 /\ bytes_ok left1 /\ bytes_ok out /\ (exists used, left = used ++ left1) /\
    (res = 1 /\ out = [] /\ left1 = [] /\
       (forall f m, crle_step s (left ++ f) m = crle_step s1 f m) /\ (rank s1 <= rank s)%nat \/
     res = 2 /\ out = [] /\ (rank s1 < rank s)%nat /\
       (forall f m, crle_step s (left ++ f) m = Ret (2, [], s1, left1 ++ f)) \/
     res = 0 /\ zlen out <= n /\
       (out = [] -> forall f, exists s2 l2, crle_step s (left ++ f) 1 = Ret (0, [], s2, l2)) /\
       rank s = 1%nat \/
     res < 0 /\ (forall f m, crle_step s (left ++ f) m = Ret (res, out, s1, left1 ++ f))).
Proof.
  intros s left n Hs Hb Hn. destruct s; cbn [crle_step].
  - (* idle *)
    destruct left as [|k left].
    + do 4 eexists. split; [reflexivity|]. repeat (split; [auto; try constructor|]).
      { exists []; auto. } left. repeat split; auto.
    + inv Hb. destruct (Z.eqb_spec k 0) as [->|E0].
      { do 4 eexists. split; [reflexivity|]. split; [cbn; intros X; discriminate|]. split; [auto|].
        split; [constructor|]. split; [exists [0]; auto|]. right; left.
        split; [auto|]. split; [auto|]. split; [cbn; lia|]. reflexivity. }
      destruct (Z.eqb_spec k 1) as [->|E1].
      { do 4 eexists. split; [reflexivity|]. split; [cbn; intros X; discriminate|]. split; [auto|].
        split; [constructor|]. split; [exists [1]; auto|]. right; left.
        split; [auto|]. split; [auto|]. split; [cbn; lia|]. reflexivity. }
      do 4 eexists. split; [reflexivity|]. split; [auto|]. split; [auto|].
      split; [constructor|]. split; [exists [k]; auto|]. right; right; right.
      split; [unfold E_CORRUPT_PATCH_CRLE_KIND; lia|]. intros f m. cbn [app].
      destruct (Z.eqb_spec k 0); [lia|]. destruct (Z.eqb_spec k 1); [lia|]. reflexivity.
  - (* scattered size *)
    destruct (usize_total left u Hs) as (res & v & u1 & left1 & E & Hu & (used & Eu) & Hc).
    rewrite E. cbn [obind].
    assert (bytes_ok left1) by (rewrite Eu in Hb; apply bytes_ok_app in Hb; tauto).
    destruct Hc as [(-> & -> & F)|([(-> & Hv)| ->] & F)].
    + cbn [Z.eqb Pos.eqb]. do 4 eexists. split; [reflexivity|]. split; [auto|]. split; [constructor|].
      split; [constructor|]. split; [exists used; auto|]. left.
      repeat (split; [auto|]). intros f m. rewrite F. reflexivity. cbn; lia.
    + cbn [Z.eqb Pos.eqb]. do 4 eexists. split; [reflexivity|]. split; [auto|]. split; [auto|].
      split; [constructor|]. split; [exists used; auto|]. right; left.
      split; [auto|]. split; [auto|]. split; [cbn; lia|]. intros f m. rewrite F. reflexivity.
    + unfold E_CORRUPT_PATCH_OVERFLOW. cbn [Z.eqb Z.opp].
      do 4 eexists. split; [reflexivity|]. split; [auto|]. split; [auto|].
      split; [constructor|]. split; [exists used; auto|]. right; right; right.
      split; [lia|]. intros f m. rewrite F. reflexivity.
  - (* scattered data *)
    destruct left as [|b left].
    + do 4 eexists. split; [reflexivity|]. split; [auto|]. split; [constructor|].
      split; [constructor|]. split; [exists []; auto|]. left. repeat split; auto.
    + cbn in Hs.
      set (l := b :: left) in *. assert (Hl : 1 <= zlen l) by (unfold l; rewrite zlen_cons; pose proof (zlen_nonneg left); lia).
      set (m := Z.min (Z.min n bytes_left) (zlen l)). assert (Hm : 0 <= m <= bytes_left) by lia.
      do 4 eexists. split; [reflexivity|].
      split; [destruct (bytes_left - m =? 0); cbn; auto; lia|].
      split; [apply Forall_zdrop; auto|]. split; [apply Forall_ztake; auto|].
      split; [exists (ztake m l); symmetry; apply ztake_zdrop|]. right; right; left.
      split; [auto|]. split; [rewrite zlen_ztake by lia; lia|]. split; [|auto].
      intros Hnil f. assert (zlen (ztake m l) = 0) by (rewrite Hnil; reflexivity).
      rewrite zlen_ztake in H by lia. assert (bytes_left = 0) by lia. subst bytes_left.
      assert (Hm1 : Z.min (Z.min 1 0) (zlen (l ++ f)) = 0) by (rewrite zlen_app; pose proof (zlen_nonneg f); lia).
      unfold l in *. cbn [app] in *. rewrite Hm1. do 2 eexists. reflexivity.
  - (* repeated size *)
    destruct (usize_total left u Hs) as (res & v & u1 & left1 & E & Hu & (used & Eu) & Hc).
    rewrite E. cbn [obind].
    assert (bytes_ok left1) by (rewrite Eu in Hb; apply bytes_ok_app in Hb; tauto).
    destruct Hc as [(-> & -> & F)|([(-> & Hv)| ->] & F)].
    + cbn [Z.eqb Pos.eqb]. do 4 eexists. split; [reflexivity|]. split; [auto|]. split; [constructor|].
      split; [constructor|]. split; [exists used; auto|]. left.
      repeat (split; [auto|]). intros f m. rewrite F. reflexivity. cbn; lia.
    + cbn [Z.eqb Pos.eqb]. do 4 eexists. split; [reflexivity|]. split; [auto|]. split; [auto|].
      split; [constructor|]. split; [exists used; auto|]. right; left.
      split; [auto|]. split; [auto|]. split; [cbn; lia|]. intros f m. rewrite F. reflexivity.
    + unfold E_CORRUPT_PATCH_OVERFLOW. cbn [Z.eqb Z.opp].
      do 4 eexists. split; [reflexivity|]. split; [auto|]. split; [auto|].
      split; [constructor|]. split; [exists used; auto|]. right; right; right.
      split; [lia|]. intros f m. rewrite F. reflexivity.
  - (* repeated data *)
    destruct left as [|b left].
    + do 4 eexists. split; [reflexivity|]. split; [auto|]. split; [constructor|].
      split; [constructor|]. split; [exists []; auto|]. left. repeat split; auto.
    + inv Hb. do 4 eexists. split; [reflexivity|]. split; [cbn; auto|]. split; [auto|].
      split; [constructor|]. split; [exists [b]; auto|]. right; left.
      split; [auto|]. split; [auto|]. split; [cbn; lia|]. reflexivity.
  - (* repeated data read *)
    cbn in Hs. destruct Hs as [Hs Hv].
    set (m := Z.min n bytes_left). assert (Hm : 0 <= m <= bytes_left) by lia.
    do 4 eexists. split; [reflexivity|].
    split; [destruct (bytes_left - m =? 0); cbn; auto; split; auto; lia|].
    split; [auto|]. split; [apply Forall_zrepeat; auto|].
    split; [exists []; auto|]. right; right; left.
    split; [auto|]. split; [rewrite zlen_zrepeat by lia; lia|]. split; [|auto].
    intros Hnil f. assert (zlen (zrepeat value m) = 0) by (rewrite Hnil; reflexivity).
    rewrite zlen_zrepeat in H by lia. assert (bytes_left = 0) by lia. subst bytes_left.
    change (Z.min 1 0) with 0. do 2 eexists. reflexivity.
Qed.

(** The loop does not depend on its fuel. *)
Lemma crle_loop_fuel : forall k k' s left n, cok s -> bytes_ok left -> 1 <= n ->
  (rank s <= k)%nat -> (rank s <= k')%nat -> crle_loop k s left n = crle_loop k' s left n.
Proof.
  induction k; intros k' s left n Hs Hb Hn Hk Hk'.
  { destruct s; cbn in Hk; lia. }
  destruct k' as [|k']; [destruct s; cbn in Hk'; lia|].
  cbn [crle_loop].
  destruct (crle_step_total s left n Hs Hb Hn) as (res & out & s1 & left1 & E & Hs1 & Hb1 & Ho & _ & Hc).
  rewrite E. cbn [obind].
  destruct (Z.eqb_spec res 2); [|reflexivity].
  apply IHk; auto; destruct Hc as [(A & _)|[(A & _ & B & _)|[(A & _)|(A & _)]]]; lia.
Qed.

Definition cpull (s : crle_st) (i : list Z) := crle_decompress s i 1.

Lemma crle_loop_total : forall k s left n, cok s -> bytes_ok left -> 1 <= n -> (rank s <= k)%nat ->
  exists res out s1 left1, crle_loop k s left n = Ret (res, out, s1, left1) /\
    cok s1 /\ bytes_ok left1 /\ bytes_ok out /\ (exists used, left = used ++ left1) /\
    (res = 1 /\ out = [] /\ left1 = [] /\
       (forall f K, bytes_ok f -> (4 <= K)%nat -> crle_loop k s (left ++ f) 1 = crle_loop K s1 f 1) \/
     res = 0 /\ zlen out <= n /\
       (out = [] -> forall f, exists s2 l2, crle_loop k s (left ++ f) 1 = Ret (0, [], s2, l2)) \/
     res < 0 /\ (forall f, crle_loop k s (left ++ f) 1 = Ret (res, out, s1, left1 ++ f))).
Proof.
  induction k; intros s left n Hs Hb Hn Hk.
  { destruct s; cbn in Hk; lia. }
  cbn [crle_loop].
  destruct (crle_step_total s left n Hs Hb Hn) as (res & out & s1 & left1 & E & Hs1 & Hb1 & Ho & Hu & Hc).
  rewrite E. cbn [obind].
  destruct Hc as [(-> & -> & -> & F & G)|[(-> & -> & B & F)|[(-> & B & F & G)|(A & F)]]].
  - cbn [Z.eqb Pos.eqb]. do 4 eexists. split; [reflexivity|]. repeat (split; [auto|]).
    left. repeat (split; [auto|]). intros f K Hf HK. rewrite F.
    change (letm (r, out, s0, left0) := crle_step s1 f 1 in
            if r =? 2 then crle_loop k s0 left0 1 else Ret (r, out, s0, left0))
      with (crle_loop (S k) s1 f 1).
    apply crle_loop_fuel; auto; try lia. destruct s1; cbn in *; lia.
  - cbn [Z.eqb Pos.eqb].
    destruct (IHk s1 left1 n) as (res & out & s2 & left2 & E2 & Hs2 & Hb2 & Ho2 & (u2 & Hu2) & Hc2); auto; [lia|].
    destruct Hu as (u1 & Hu1).
    do 4 eexists. split; [exact E2|]. split; [auto|]. split; [auto|]. split; [auto|].
    split; [exists (u1 ++ u2); rewrite <- app_assoc; congruence|].
    destruct Hc2 as [(-> & -> & -> & F2)|[(-> & B2 & F2)|(A2 & F2)]].
    + left. repeat (split; [auto|]). intros f K Hf HK. rewrite F. cbn [obind Z.eqb Pos.eqb]. auto.
    + right; left. repeat (split; [auto|]). intros Hnil f. rewrite F. cbn [obind Z.eqb Pos.eqb]. auto.
    + right; right. split; [auto|]. intros f. rewrite F. cbn [obind Z.eqb Pos.eqb]. auto.
  - cbn [Z.eqb Pos.eqb]. do 4 eexists. split; [reflexivity|]. repeat (split; [auto|]).
    right; left. repeat (split; [auto|]). intros Hnil f. destruct (F Hnil f) as (s2 & l2 & F').
    rewrite F'. cbn [obind Z.eqb Pos.eqb]. eauto.
  - destruct (Z.eqb_spec res 2); [lia|]. do 4 eexists. split; [reflexivity|]. repeat (split; [auto|]).
    right; right. split; [auto|]. intros f. rewrite F. cbn [obind].
    destruct (Z.eqb_spec res 2); [lia|]. reflexivity.
Qed.

Inductive cpulls : crle_st -> list Z -> list Z -> crle_st -> list Z -> Prop :=
| cp_nil : forall s i, cpulls s i [] s i
| cp_cons : forall s i c s1 i1 o s2 i2, cpull s i = Ret (0, [c], s1, i1) ->
    cpulls s1 i1 o s2 i2 -> cpulls s i (c :: o) s2 i2.

Lemma cpulls_scat : forall l k f, 1 <= zlen l <= k ->
  cpulls (CScatData k) (l ++ f) l (if k - zlen l =? 0 then CIdle else CScatData (k - zlen l)) f.
Proof.
  induction l as [|b l IH]; intros k f Hk.
  { rewrite zlen_nil in Hk. lia. }
  rewrite zlen_cons in *. pose proof (zlen_nonneg l).
  assert (P : cpull (CScatData k) ((b :: l) ++ f) =
              Ret (0, [b], if k - 1 =? 0 then CIdle else CScatData (k - 1), l ++ f)).
  { unfold cpull, crle_decompress. cbn [app crle_loop crle_step].
    assert (Z.min (Z.min 1 k) (zlen (b :: l ++ f)) = 1) as ->
      by (rewrite zlen_cons; pose proof (zlen_nonneg (l ++ f)); lia).
    rewrite ztake_cons, zdrop_cons by lia. change (1 - 1) with 0. rewrite ztake_0, zdrop_0. reflexivity. }
  econstructor; [exact P|].
  destruct l as [|b' l].
  - change (zlen (@nil Z)) with 0. rewrite Z.add_0_r. cbn [app]. constructor.
  - destruct (Z.eqb_spec (k - 1) 0); [rewrite zlen_cons in *; pose proof (zlen_nonneg l); lia|].
    replace (k - (1 + zlen (b' :: l))) with (k - 1 - zlen (b' :: l)) by lia.
    apply IH. rewrite zlen_cons in *. pose proof (zlen_nonneg l). lia.
Qed.

Lemma cpulls_rep : forall m k v f, 1 <= Z.of_nat m <= k ->
  cpulls (CRepRead k v) f (repeat v m) (if k - Z.of_nat m =? 0 then CIdle else CRepRead (k - Z.of_nat m) v) f.
Proof.
  induction m as [|m IH]; intros k v f Hk; [lia|].
  assert (P : cpull (CRepRead k v) f =
              Ret (0, [v], if k - 1 =? 0 then CIdle else CRepRead (k - 1) v, f)).
  { unfold cpull, crle_decompress. cbn [crle_loop crle_step].
    assert (Z.min 1 k = 1) as -> by lia. reflexivity. }
  cbn [repeat]. econstructor; [exact P|].
  destruct m as [|m].
  - constructor.
  - destruct (Z.eqb_spec (k - 1) 0); [lia|].
    replace (k - Z.of_nat (S (S m))) with (k - 1 - Z.of_nat (S m)) by lia.
    apply IH. lia.
Qed.

Lemma crle_loop_pulls : forall k s left n out s1 left1, cok s -> bytes_ok left -> 1 <= n ->
  (rank s <= k)%nat -> crle_loop k s left n = Ret (0, out, s1, left1) -> out <> [] ->
  forall f, bytes_ok f -> cpulls s (left ++ f) out s1 (left1 ++ f).
Proof.
  induction k; intros s left n out s1 left1 Hs Hb Hn Hk Hl Hne f Hf.
  { destruct s; cbn in Hk; lia. }
  cbn [crle_loop] in Hl.
  destruct (crle_step_total s left n Hs Hb Hn) as (res & o & s2 & left2 & E & Hs2 & Hb2 & Ho & Hu & Hc).
  rewrite E in Hl. cbn [obind] in Hl.
  destruct Hc as [(-> & -> & -> & F & G)|[(-> & -> & B & F)|[(-> & B & F & G)|(A & F)]]].
  - cbn [Z.eqb Pos.eqb] in Hl. discriminate.
  - cbn [Z.eqb Pos.eqb] in Hl.
    assert (P : cpulls s2 (left2 ++ f) out s1 (left1 ++ f)) by (eapply IHk; eauto; lia).
    assert (Hq : cpull s (left ++ f) = cpull s2 (left2 ++ f)).
    { unfold cpull, crle_decompress. cbn [crle_loop]. rewrite F. cbn [obind Z.eqb Pos.eqb].
      apply (crle_loop_fuel 4 5); auto; try lia; [apply bytes_ok_app; auto| |];
        destruct s2; cbn in *; destruct s; cbn in *; lia. }
    inv P; [congruence|]. econstructor; [rewrite Hq; eassumption|auto].
  - cbn [Z.eqb Pos.eqb] in Hl. inv Hl.
    destruct s; cbn in G; try discriminate; cbn [crle_step] in E.
    + destruct left as [|b left]; [discriminate|].
      set (l := b :: left) in *.
      assert (Hl1 : 1 <= zlen l) by (unfold l; rewrite zlen_cons; pose proof (zlen_nonneg left); lia).
      assert (Hl : Ret (0, ztake (Z.min (Z.min n bytes_left) (zlen l)) l,
         if bytes_left - Z.min (Z.min n bytes_left) (zlen l) =? 0 then CIdle
         else CScatData (bytes_left - Z.min (Z.min n bytes_left) (zlen l)),
         zdrop (Z.min (Z.min n bytes_left) (zlen l)) l) = Ret (0, out, s1, left1)) by exact E.
      cbn in Hs. set (m := Z.min (Z.min n bytes_left) (zlen l)) in *.
      inv Hl.
      assert (Hm : zlen (ztake m l) = m) by (rewrite zlen_ztake by lia; lia).
      assert (1 <= m). { destruct (Z.eq_dec m 0) as [->|]; [exfalso; apply Hne; reflexivity|lia]. }
      rewrite <- (ztake_zdrop m l) at 1. rewrite <- app_assoc.
      pose proof (cpulls_scat (ztake m l) bytes_left (zdrop m l ++ f) ltac:(lia)) as P.
      rewrite Hm in P. exact P.
    + cbn in Hs. set (m := Z.min n bytes_left) in *. inv E.
      assert (1 <= m). { destruct (Z.eq_dec m 0) as [->|]; [exfalso; apply Hne; reflexivity|lia]. }
      unfold zrepeat.
      pose proof (cpulls_rep (Z.to_nat m) bytes_left value (left1 ++ f) ltac:(lia)) as P.
      rewrite Z2Nat.id in P by lia. exact P.
  - destruct (Z.eqb_spec res 2); [lia|]. inv Hl. lia.
Qed.

(** ** Patch readers *)

Section Readers.
Context {WBits : WordBits}.
Hypothesis Hword : 32 <= word_bits.

Definition rok (r : reader) : Prop :=
  match r with
  | RNone ps po => 0 <= po <= ps /\ ps + 128 < 2 ^ word_bits
  | RCrle s => cok s
  | RHs h =>
      hr_window h = -1 /\ hr_ptr h = false \/
      hr_window h <> -1 /\ hr_ptr h = true /\ exists d, hr_dec h = Some d /\ hinv87 d
  end.

Definition pull (r : reader) (i : list Z) := decompress r i 1.

Inductive pulls : reader -> list Z -> list Z -> reader -> list Z -> Prop :=
| p_nil : forall r i, pulls r i [] r i
| p_cons : forall r i c r1 i1 o r2 i2, pull r i = Ret (0, [c], r1, i1) ->
    pulls r1 i1 o r2 i2 -> pulls r i (c :: o) r2 i2.

Lemma pulls_app : forall r i o r1 i1, pulls r i o r1 i1 -> forall o2 r2 i2,
  pulls r1 i1 o2 r2 i2 -> pulls r i (o ++ o2) r2 i2.
Proof. induction 1; intros; auto. cbn [app]. econstructor; eauto. Qed.

(** The result of one decompress call on a chunk [c], compared with pulling
    single bytes from the chunk followed by anything. *)
Definition dspec (r : reader) (c : list Z) (n : Z) : Prop :=
  exists res out r' c', decompress r c n = Ret (res, out, r', c') /\
    (0 <= res -> rok r') /\ bytes_ok c' /\ bytes_ok out /\ (exists used, c = used ++ c') /\
    (res = 1 /\ out = [] /\ c' = [] /\ (forall f, bytes_ok f -> pull r (c ++ f) = pull r' f) \/
     res = 0 /\ zlen out <= n /\
       (out = [] -> forall f, bytes_ok f ->
          exists r1 i1, pull r (c ++ f) = Ret (0, [], r1, i1)) /\
       (out <> [] -> forall f, bytes_ok f -> exists r1 i1,
          pulls r (c ++ f) out r1 i1 /\ pull r1 i1 = pull r' (c' ++ f)) \/
     res < 0 /\ forall f o r1 i1, bytes_ok f -> pulls r (c ++ f) o r1 i1 -> zlen o < n).

Lemma cpulls_pulls : forall s i o s1 i1, cpulls s i o s1 i1 -> pulls (RCrle s) i o (RCrle s1) i1.
Proof.
  induction 1; [constructor|]. econstructor; [|eassumption].
  unfold pull, decompress. unfold cpull in H. rewrite H. reflexivity.
Qed.

Lemma pulls_one : forall r i o r1 i1, pulls r i o r1 i1 -> 1 <= zlen o ->
  exists b r2 i2, pull r i = Ret (0, [b], r2, i2).
Proof.
  intros r i o r1 i1 Hp Ho. inv Hp; [change (zlen (@nil Z)) with 0 in Ho; lia|]. eauto.
Qed.

Lemma dspec_crle : forall s c n, cok s -> bytes_ok c -> 1 <= n -> dspec (RCrle s) c n.
Proof.
  intros s c n Hs Hc Hn.
  assert (Hr : (rank s <= 5)%nat) by (destruct s; cbn; lia).
  destruct (crle_loop_total 5 s c n Hs Hc Hn Hr)
    as (res & out & s1 & c1 & E & Hs1 & Hc1 & Ho & Hu & Hcase).
  exists res, out, (RCrle s1), c1. unfold decompress, crle_decompress. rewrite E. cbn [obind].
  split; [reflexivity|]. split; [intros _; exact Hs1|]. split; [auto|]. split; [auto|]. split; [auto|].
  destruct Hcase as [(-> & -> & -> & F)|[(-> & B & F)|(A & F)]].
  - left. repeat (split; [auto|]). intros f Hf. unfold pull, decompress, crle_decompress.
    rewrite (F f 5%nat) by (auto; lia). reflexivity.
  - right; left. split; [auto|]. split; [auto|]. split.
    + intros Hnil f Hf. destruct (F Hnil f) as (s2 & l2 & F').
      exists (RCrle s2), l2. unfold pull, decompress, crle_decompress. rewrite F'. reflexivity.
    + intros Hne f Hf. exists (RCrle s1), (c1 ++ f). split; [|reflexivity].
      apply cpulls_pulls. eapply crle_loop_pulls; eauto.
  - right; right. split; [auto|]. intros f o r1 i1 Hf Hp.
    destruct (Z.lt_ge_cases (zlen o) n); [auto|exfalso].
    destruct (pulls_one _ _ _ _ _ Hp ltac:(lia)) as (b & r2 & i2 & P).
    unfold pull, decompress, crle_decompress in P. rewrite F in P. cbn [obind] in P.
    inv P. lia.
Qed.

Lemma hpulls_pulls : forall w l d i o d1 i1, w <> -1 -> hpulls d i o d1 i1 ->
  pulls (RHs (mkhr w l true (Some d))) i o (RHs (mkhr w l true (Some d1))) i1.
Proof.
  intros w l d i o d1 i1 Hw Hp. induction Hp; [constructor|].
  econstructor; [|eassumption]. unfold pull, decompress, hs_decompress.
  cbn [hr_window hr_ptr hr_dec hr_lookahead].
  destruct (Z.eqb_spec w (-1)); [lia|]. unfold hpull in H. rewrite H. reflexivity.
Qed.

Lemma dspec_hs_run : forall w l d c n, w <> -1 -> hinv87 d -> bytes_ok c -> 1 <= n ->
  dspec (RHs (mkhr w l true (Some d))) c n.
Proof.
  intros w l d c n Hw Hd Hc Hn.
  destruct (hs_loop_msteps c d n [] Hd Hc ltac:(change (zlen (@nil Z)) with 0; lia))
    as (res & o & d' & c' & E & Hd' & Hc' & Hcase).
  assert (Hdec : forall m cc, decompress (RHs (mkhr w l true (Some d))) cc m =
    letm (r, out, d1, left1) := hs_decompress_loop cc d m [] in
    Ret (r, out, RHs (mkhr w l true (Some d1)), left1)).
  { intros m cc. unfold decompress, hs_decompress. cbn [hr_window hr_ptr hr_dec hr_lookahead].
    destruct (Z.eqb_spec w (-1)); [lia|].
    destruct (hs_decompress_loop cc d m []) as [[[[? ?] ?] ?]| |]; reflexivity. }
  exists res, o, (RHs (mkhr w l true (Some d'))), c'. rewrite Hdec, E. cbn [obind].
  split; [reflexivity|]. split; [intros _; right; cbn; eauto|]. split; [auto|].
  assert (Hsuf : exists used, c = used ++ c').
  { (* micro steps only consume input from the front *)
    assert (Hgen : forall d i o d1 i1, msteps d i o d1 i1 -> exists used, i = used ++ i1).
    { clear. induction 1; auto.
      - exists []; auto.
      - destruct IHmsteps as (u & ->). exists (b :: u); auto. }
    destruct Hcase as [(_ & _ & _ & -> & Hm)|(_ & o1 & _ & _ & _ & _ & Hm)].
    - exists c. rewrite app_nil_r. auto.
    - specialize (Hm []). rewrite !app_nil_r in Hm. eapply Hgen; eauto. }
  destruct Hcase as [(-> & -> & _ & -> & Hm)|(-> & o1 & -> & Hne & Hlo & Hbo & Hm)].
  - split; [constructor|]. split; [auto|]. left. repeat (split; [auto|]). intros f Hf.
    unfold pull. rewrite Hdec.
    assert (hs_decompress_loop (c ++ f) d 1 [] = hs_decompress_loop f d' 1 []) as ->.
    { apply (hpull_quiet d (c ++ f) d' f); auto. apply bytes_ok_app; auto. }
    unfold decompress, hs_decompress. cbn [hr_window hr_ptr hr_dec hr_lookahead].
    destruct (Z.eqb_spec w (-1)); [lia|].
    destruct (hs_decompress_loop f d' 1 []) as [[[[? ?] ?] ?]| |]; reflexivity.
  - cbn [app] in *. split; [auto|]. split; [auto|]. right; left. split; [auto|]. split; [auto|].
    split; [intros; congruence|]. intros _ f Hf.
    assert (Hcf : bytes_ok (c ++ f)) by (apply bytes_ok_app; auto).
    destruct (hpulls_of_msteps o1 d (c ++ f) d' (c' ++ f) Hd Hcf (Hm f)) as (d1 & i1 & P & J).
    exists (RHs (mkhr w l true (Some d1))), i1. split; [apply hpulls_pulls; auto|].
    assert (Hinv1 : hinv87 d1 /\ bytes_ok i1).
    { clear -P Hd Hcf. induction P; auto.
      destruct (hs_loop_msteps i d 1 [] Hd Hcf ltac:(change (zlen (@nil Z)) with 0; lia))
        as (res & o' & d' & c' & E & Hd' & Hc' & _).
      unfold hpull in H. rewrite E in H. inv H. auto. }
    assert (Hinv2 : bytes_ok (c' ++ f)) by (apply bytes_ok_app; auto).
    pose proof (joined_hpull d1 i1 d' (c' ++ f) (proj1 Hinv1) (proj2 Hinv1) Hd' Hinv2 J) as Q.
    unfold pull, decompress, hs_decompress. cbn [hr_window hr_ptr hr_dec hr_lookahead].
    destruct (Z.eqb_spec w (-1)); [lia|]. unfold hpull in Q. rewrite Q. reflexivity.
Qed.

Lemma dspec_hs : forall h c n, rok (RHs h) -> bytes_ok c -> 1 <= n -> dspec (RHs h) c n.
Proof.
  intros h c n [[Hw Hp]|(Hw & Hp & d & Hd & Hi)] Hc Hn.
  - destruct h as [w l p dec]. cbn in Hw, Hp. subst w p.
    destruct c as [|b c].
    + exists 1, [], (RHs (mkhr (-1) l false dec)), []. split; [reflexivity|].
      split; [intros _; left; auto|]. split; [constructor|]. split; [constructor|].
      split; [exists []; auto|]. left. auto.
    + inv Hc.
      set (w := Z.land (Z.shiftr b 4) 15 + 4). set (la := Z.land b 15 + 3).
      destruct (negb (w =? HS_WINDOW) || negb (la =? HS_LOOKAHEAD)) eqn:Eh.
      * exists (- E_HEATSHRINK_HEADER), [], (RHs (mkhr w la false dec)), c.
        assert (Hd : forall m cc, decompress (RHs (mkhr (-1) l false dec)) (b :: cc) m =
           Ret (- E_HEATSHRINK_HEADER, [], RHs (mkhr w la false dec), cc)).
        { intros m cc. unfold decompress, hs_decompress. cbn [hr_window hr_ptr hr_dec hr_lookahead].
          cbn [Z.eqb Pos.eqb]. fold w la. rewrite Eh. reflexivity. }
        rewrite Hd. split; [reflexivity|]. split; [unfold E_HEATSHRINK_HEADER; lia|].
        split; [auto|]. split; [constructor|]. split; [exists [b]; auto|].
        right; right. split; [unfold E_HEATSHRINK_HEADER; lia|]. intros f o r1 i1 Hf Hpl.
        destruct (Z.lt_ge_cases (zlen o) n); [auto|exfalso].
        destruct (pulls_one _ _ _ _ _ Hpl ltac:(lia)) as (b' & r2 & i2 & P).
        unfold pull in P. cbn [app] in P. rewrite Hd in P. unfold E_HEATSHRINK_HEADER in P. inv P.
      * assert (Hw8 : w = 8 /\ la = 7) by (unfold HS_WINDOW, HS_LOOKAHEAD in Eh; lia).
        destruct Hw8 as [Ew Ela].
        assert (Hd : forall m cc, decompress (RHs (mkhr (-1) l false dec)) (b :: cc) m =
           decompress (RHs (mkhr w la true (Some (hs_reset w)))) cc m).
        { intros m cc. unfold decompress, hs_decompress. cbn [hr_window hr_ptr hr_dec hr_lookahead].
          change (-1 =? -1) with true. cbv iota. fold w la. rewrite Eh.
          destruct (Z.eqb_spec w (-1)); [lia|]. reflexivity. }
        assert (Hi : hinv87 (hs_reset w)) by (rewrite Ew; apply hs_reset_inv; lia).
        destruct (dspec_hs_run w la (hs_reset w) c n ltac:(lia) Hi H2 Hn)
          as (res & out & r' & c' & E & Hr & Hc' & Ho & (used & Hu) & Hcase).
        exists res, out, r', c'. rewrite Hd. split; [auto|]. split; [auto|]. split; [auto|].
        split; [auto|]. split; [exists (b :: used); rewrite Hu; auto|].
        assert (Hpl : forall cc, pull (RHs (mkhr (-1) l false dec)) (b :: cc) =
                      pull (RHs (mkhr w la true (Some (hs_reset w)))) cc) by (intros; apply Hd).
        destruct Hcase as [(A & B & C & D)|[(A & B & C & D)|(A & B)]].
        -- left. repeat (split; [auto|]). intros f Hf. cbn [app]. rewrite Hpl. auto.
        -- right; left. split; [auto|]. split; [auto|]. split.
           ++ intros Hnil f Hf. cbn [app]. rewrite Hpl. auto.
           ++ intros Hne f Hf. destruct (D Hne f Hf) as (r1 & i1 & P & Q).
              exists r1, i1. split; [|auto]. cbn [app].
              inv P; [congruence|]. econstructor; [rewrite Hpl; eassumption|auto].
        -- right; right. split; [auto|]. intros f o r1 i1 Hf P.
           destruct (Z.lt_ge_cases (zlen o) n); [auto|].
           inv P; [change (zlen (@nil Z)) with 0 in *; lia|].
           cbn [app] in *. rewrite Hpl in H0.
           eapply B; [exact Hf|econstructor; eauto].
  - destruct h as [w l p dec]. cbn in Hw, Hp, Hd. subst p dec.
    apply dspec_hs_run; auto.
Qed.

Lemma pulls_none : forall o ps po i r1 i1, 0 <= po <= ps -> ps + 128 < 2 ^ word_bits ->
  pulls (RNone ps po) i o r1 i1 -> po + zlen o <= ps.
Proof.
  induction o as [|c o IH]; intros ps po i r1 i1 Hpo Hps Hp.
  - change (zlen (@nil Z)) with 0. lia.
  - inv Hp. unfold pull, decompress, none_decompress in H3.
    rewrite wrap_small in H3 by lia.
    destruct (Z.ltb_spec ps (po + 1)); [inv H3; discriminate|].
    destruct i as [|b i]; [inv H3|].
    assert (Z.min 1 (zlen (b :: i)) = 1) as E1 by (rewrite zlen_cons; pose proof (zlen_nonneg i); lia).
    rewrite E1 in H3. rewrite wrap_small in H3 by lia. inv H3.
    match goal with Hx : pulls _ _ o _ _ |- _ => apply IH in Hx; [|lia|lia] end. rewrite zlen_cons. lia.
Qed.

Lemma none_pulls : forall l ps po f, 0 <= po -> ps + 128 < 2 ^ word_bits -> po + zlen l <= ps ->
  pulls (RNone ps po) (l ++ f) l (RNone ps (po + zlen l)) f.
Proof.
  induction l as [|b l IH]; intros ps po f Hpo Hps Hl.
  - change (zlen (@nil Z)) with 0. rewrite Z.add_0_r. constructor.
  - rewrite zlen_cons in *. pose proof (zlen_nonneg l). econstructor.
    + unfold pull, decompress, none_decompress. rewrite wrap_small by lia.
      destruct (Z.ltb_spec ps (po + 1)); [lia|]. cbn [app].
      assert (Z.min 1 (zlen (b :: l ++ f)) = 1) as -> by (rewrite zlen_cons; pose proof (zlen_nonneg (l ++ f)); lia).
      rewrite ztake_cons, zdrop_cons by lia. change (1 - 1) with 0. rewrite ztake_0, zdrop_0.
      rewrite wrap_small by lia. reflexivity.
    + replace (po + (1 + zlen l)) with (po + 1 + zlen l) by lia. apply IH; lia.
Qed.

Lemma dspec_none : forall ps po c n, rok (RNone ps po) -> bytes_ok c -> 1 <= n <= 128 ->
  dspec (RNone ps po) c n.
Proof.
  intros ps po c n [Hpo Hps] Hc Hn. unfold dspec. cbn [decompress]. unfold none_decompress at 1.
  rewrite wrap_small by lia. destruct (Z.ltb_spec ps (po + n)).
  - do 4 eexists. split; [reflexivity|]. unfold E_CORRUPT_PATCH. split; [lia|]. split; [auto|].
    split; [constructor|]. split; [exists []; auto|]. right; right. split; [lia|].
    intros f o r1 i1 Hf Hp. apply pulls_none in Hp; [lia|lia|lia].
  - destruct c as [|b c].
    + do 4 eexists. split; [reflexivity|]. split; [intros _; split; auto|]. split; [constructor|].
      split; [constructor|]. split; [exists []; auto|]. left. auto.
    + set (l := b :: c) in *. set (m := Z.min n (zlen l)).
      assert (Hm : 1 <= m <= n /\ m <= zlen l).
      { unfold m, l. rewrite zlen_cons. pose proof (zlen_nonneg c). lia. }
      exists 0, (ztake m l), (RNone ps (wrap (po + m))), (zdrop m l).
      split; [reflexivity|]. rewrite wrap_small by lia.
      split; [intros _; split; lia|]. split; [apply Forall_zdrop; auto|]. split; [apply Forall_ztake; auto|].
      split; [exists (ztake m l); symmetry; apply ztake_zdrop|].
      right; left. split; [auto|].
      assert (Hz : zlen (ztake m l) = m) by (rewrite zlen_ztake by lia; lia).
      split; [lia|]. split.
      * intros Hnil. rewrite Hnil in Hz. change (zlen (@nil Z)) with 0 in Hz. lia.
      * intros _ f Hf. exists (RNone ps (po + m)), (zdrop m l ++ f). split; [|reflexivity].
        rewrite <- (ztake_zdrop m l) at 1. rewrite <- app_assoc.
        pose proof (none_pulls (ztake m l) ps po (zdrop m l ++ f) ltac:(lia) Hps ltac:(lia)) as P.
        rewrite Hz in P. exact P.
Qed.

Theorem decompress_spec : forall r c n, rok r -> bytes_ok c -> 1 <= n <= 128 -> dspec r c n.
Proof.
  intros [ps po|s|h] c n Hr Hc Hn.
  - apply dspec_none; auto.
  - apply dspec_crle; auto; lia.
  - apply dspec_hs; auto; lia.
Qed.

Lemma hs_loop_exact : forall c d b d' c' f,
  hs_decompress_loop c d 1 [] = Ret (0, [b], d', c') ->
  hs_decompress_loop (c ++ f) d 1 [] = Ret (0, [b], d', c' ++ f).
Proof.
  induction c as [|x c IH]; intros d b d' c' f E; rewrite hs_loop_unfold in E;
    apply obind_ret in E; destruct E as ([d1 o] & P & E); cbv zeta in E; cbn [app] in E;
    destruct (Z.eqb_spec (1 - zlen o) 0) as [E1|E1].
  - inv E. cbn [app]. rewrite hs_loop_unfold, P. cbn [obind app]. cbv zeta.
    destruct (Z.eqb_spec (1 - zlen [b]) 0); [reflexivity|lia].
  - destruct (zlen o =? 0); [discriminate|]. inv E. change (zlen [b]) with 1 in E1. lia.
  - inv E. cbn [app]. rewrite hs_loop_unfold, P. cbn [obind app]. cbv zeta.
    destruct (Z.eqb_spec (1 - zlen [b]) 0); [reflexivity|lia].
  - cbn [app]. rewrite hs_loop_unfold, P. cbn [obind app]. cbv zeta.
    destruct (Z.eqb_spec (1 - zlen o) 0); [lia|].
    apply obind_ret in E. destruct E as (od & S & E). rewrite S. cbn [obind].
    destruct od as [d2|]; [|unfold E_HEATSHRINK_SINK in E; discriminate].
    destruct o as [|y o].
    + apply IH; auto.
    + exfalso. (* more than one byte from a poll for one *)
      assert (Hp : forall fuel d out D O, hs_poll_loop fuel HS_WINDOW HS_LOOKAHEAD 1 d out = Ret (D, O) -> zlen out <= 1 -> zlen O <= 1).
      { clear. induction fuel; intros d out D O H Hz; [discriminate|]. cbn [hs_poll_loop] in H.
        apply obind_ret in H. destruct H as ([d1 o1] & S & H).
        assert (zlen o1 <= 1).
        { clear -S Hz. unfold hs_step in S. destruct (h_state d).
          all: try (apply obind_ret in S; destruct S as (x & _ & S); inv S; auto; fail).
          - unfold st_yield_literal in S. destruct (Z.ltb_spec (zlen out) 1); [|inv S; auto].
            apply obind_ret in S. destruct S as ([ob dd] & _ & S). destruct ob; [|inv S; auto].
            destruct (zupd _ _ _); inv S. rewrite zlen_app. change (zlen [Z.land z 255]) with 1. lia.
          - unfold st_yield_backref in S. destruct (Z.ltb_spec 0 (1 - zlen out)); [|inv S; auto].
            apply obind_ret in S. destruct S as ([dd oo] & S & S').
            assert (forall k neg d out D O, backref_loop k HS_WINDOW neg d out = Ret (D, O) -> zlen O = zlen out + Z.of_nat k) as Hl.
            { clear. induction k; intros neg d out D O H; [inv H; lia|]. cbn [backref_loop] in H.
              destruct (znth _ _); [|discriminate]. destruct (zupd _ _ _); [|discriminate].
              apply IHk in H. rewrite zlen_app in H. change (zlen [z]) with 1 in H. lia. }
            apply Hl in S.
            assert (o1 = oo) by (destruct (_ =? 0); inv S'; auto). subst o1.
            destruct (Z.ltb_spec (h_output_count d) (1 - zlen out)); lia. }
        destruct (hstate_eqb (h_state d1) (h_state d)); [inv H; auto|]. eapply IHfuel; eauto. }
      apply Hp in P; [|change (zlen (@nil Z)) with 0; lia].
      rewrite zlen_cons in *. pose proof (zlen_nonneg o). lia.
Qed.

Lemma pull_exact : forall r c b r' c' f, rok r -> bytes_ok c -> bytes_ok f ->
  pull r c = Ret (0, [b], r', c') -> pull r (c ++ f) = Ret (0, [b], r', c' ++ f).
Proof.
  intros [ps po|s|h] c b r' c' f Hr Hc Hf E; unfold pull in *.
  - cbn [decompress] in *. unfold none_decompress in *.
    destruct (ps <? wrap (po + 1)); [inv E; discriminate|].
    destruct c as [|x c]; [inv E|]. cbn [app].
    assert (Z.min 1 (zlen (x :: c)) = 1) as E1 by (rewrite zlen_cons; pose proof (zlen_nonneg c); lia).
    assert (Z.min 1 (zlen (x :: c ++ f)) = 1) as -> by (rewrite zlen_cons; pose proof (zlen_nonneg (c ++ f)); lia).
    rewrite E1 in E. rewrite ztake_cons, zdrop_cons in * by lia. inv E. reflexivity.
  - cbn [decompress] in *. apply obind_ret in E. destruct E as ([[[res o] s1] c1] & E & E'). inv E'.
    assert (P : cpulls s (c ++ f) [b] s1 (c' ++ f)).
    { apply (crle_loop_pulls 5 s c 1 [b] s1 c'); auto; [lia|destruct s; cbn; lia|discriminate]. }
    inv P. match goal with Hx : cpulls _ _ [] _ _ |- _ => inv Hx end.
    unfold cpull in *. match goal with Hx : crle_decompress s (c ++ f) 1 = _ |- _ => rewrite Hx end. reflexivity.
  - cbn [decompress] in *. apply obind_ret in E. destruct E as ([[[res o] h1] c1] & E & E'). inv E'.
    assert (Hrun : forall w l d cc, w <> -1 ->
       hs_decompress (mkhr w l true (Some d)) cc 1 =
       letm (r, out, d1, left1) := hs_decompress_loop cc d 1 [] in
       Ret (r, out, mkhr w l true (Some d1), left1)).
    { intros w l d cc Hw. unfold hs_decompress. cbn [hr_window hr_ptr hr_dec hr_lookahead].
      destruct (Z.eqb_spec w (-1)); [lia|]. reflexivity. }
    destruct Hr as [[Hw Hp]|(Hw & Hp & d & Hd & Hi)].
    + destruct h as [w l p dec]. cbn in Hw, Hp. subst w p.
      destruct c as [|x c]; [inv E|]. inv Hc. cbn [app].
      unfold hs_decompress in *. cbn [hr_window hr_ptr hr_dec hr_lookahead] in *.
      cbn [Z.eqb Pos.eqb] in *.
      destruct (negb _ || negb _); [inv E; discriminate|].
      cbn [hr_window hr_ptr hr_dec hr_lookahead] in *.
      apply obind_ret in E. destruct E as ([[[res o] d1] c2] & E & E'). inv E'.
      rewrite (hs_loop_exact _ _ _ _ _ f E). reflexivity.
    + destruct h as [w l p dec]. cbn in Hw, Hp, Hd. subst p dec.
      rewrite Hrun in E by auto. rewrite Hrun by auto.
      apply obind_ret in E. destruct E as ([[[res o] d1] c2] & E & E'). inv E'.
      rewrite (hs_loop_exact _ _ _ _ _ f E). reflexivity.
Qed.

(** Exact description of a pull of one byte. *)
Definition pull1 (r : reader) (c : list Z) : Prop :=
  exists res out r' c', pull r c = Ret (res, out, r', c') /\
    (0 <= res -> rok r') /\ bytes_ok c' /\ bytes_ok out /\ (exists used, c = used ++ c') /\
    (res = 1 /\ out = [] /\ c' = [] /\ (forall f, bytes_ok f -> pull r (c ++ f) = pull r' f) \/
     res = 0 /\ out = [] /\ (forall f, bytes_ok f -> exists r1 i1, pull r (c ++ f) = Ret (0, [], r1, i1)) \/
     res = 0 /\ (exists b, out = [b] /\ byte_ok b /\
        forall f, bytes_ok f -> pull r (c ++ f) = Ret (0, [b], r', c' ++ f)) \/
     res < 0 /\ (forall f b r1 i1, bytes_ok f -> pull r (c ++ f) <> Ret (0, [b], r1, i1))).

Lemma pull1_spec : forall r c, rok r -> bytes_ok c -> pull1 r c.
Proof.
  intros r c Hr Hc.
  destruct (decompress_spec r c 1 Hr Hc ltac:(lia))
    as (res & out & r' & c' & E & Hr' & Hc' & Ho & Hu & Hcase).
  exists res, out, r', c'. split; [exact E|]. repeat (split; [auto|]).
  destruct Hcase as [(A & B & C & D)|[(A & B & C & D)|(A & B)]].
  - left. auto.
  - destruct out as [|b out].
    + right; left. split; [auto|]. split; [auto|]. apply C; auto.
    + right; right; left. split; [auto|]. rewrite zlen_cons in B. pose proof (zlen_nonneg out).
      assert (out = []) by (apply zlen_0_nil; lia). subst out res. inv Ho.
      exists b. split; [auto|]. split; [auto|]. intros f Hf. eapply pull_exact; eauto.
  - right; right; right. split; [auto|]. intros f b r1 i1 Hf P.
    assert (zlen [b] < 1).
    { eapply B; [exact Hf|]. econstructor; [exact P|constructor]. }
    change (zlen [b]) with 1 in *. lia.
Qed.

(** A decompressor that ran out of input for [n] bytes has none for one byte. *)
Lemma crle_starve_one : forall k s c n s1 c1,
  crle_loop k s c n = Ret (1, [], s1, c1) -> crle_loop k s c 1 = Ret (1, [], s1, c1).
Proof.
  induction k; intros s c n s1 c1 E; [discriminate|]. cbn [crle_loop] in *.
  apply obind_ret in E. destruct E as ([[[res out] s2] c2] & S & E).
  assert (Hi : res = 0 \/ crle_step s c 1 = crle_step s c n).
  { clear -S. destruct s; cbn [crle_step] in *; auto.
    - destruct c; auto. left. inv S. reflexivity.
    - left. inv S. reflexivity. }
  destruct Hi as [->|Hi]; [cbn in E; discriminate|].
  rewrite Hi, S. cbn [obind]. destruct (res =? 2); [eapply IHk; eauto|auto].
Qed.

Lemma hs_starve_one : forall c d n out d1 c1, hinv87 d -> bytes_ok c -> zlen out < n ->
  hs_decompress_loop c d n out = Ret (1, [], d1, c1) ->
  hs_decompress_loop c d 1 [] = Ret (1, [], d1, c1).
Proof.
  induction c as [|b c IH]; intros d n out d1 c1 Hd Hc Hn E; rewrite hs_loop_unfold in *;
    unfold HS_WINDOW, HS_LOOKAHEAD in *;
    destruct (hs_poll_runs 8 7 H8 H7 (n - zlen out) d Hd ltac:(lia)) as (d2 & o & A & B);
    rewrite A in E; cbn [obind] in E; cbv zeta in E;
    (destruct (Z.eqb_spec (n - zlen (out ++ o)) 0); [discriminate|]).
  - destruct (Z.eqb_spec (zlen (out ++ o)) 0); [|discriminate]. inv E.
    rewrite zlen_app in *. pose proof (zlen_nonneg out). pose proof (zlen_nonneg o).
    assert (o = []) by (apply zlen_0_nil; lia). subst o.
    assert (runs 8 7 1 d [] d1).
    { destruct (runs_split 8 7 _ _ _ _ B 1 (n - zlen out - 1) ltac:(lia) ltac:(lia) ltac:(lia)) as (dm & P & Q).
      assert (dm = d1); [|subst; auto].
      destruct (runs_end 8 7 _ _ _ _ P) as [S|[_ S]];
        [|unfold ztake in S; rewrite firstn_nil in S; change (zlen (@nil Z)) with 0 in S; lia].
      assert (Hdm : hinv87 dm) by (eapply (runs_inv 8 7 H8 H7); eauto).
      destruct (runs_det 8 7 H8 H7 _ _ _ _ Q Hdm [] dm) as [_ ->]; [|auto].
      apply run_starve; [lia|auto]. }
    assert (P1 : hs_poll 8 7 1 d = Ret (d1, [])) by (apply (hs_poll_iff 8 7 H8 H7); auto; lia).
    change (1 - zlen []) with 1. rewrite P1. reflexivity.
  - apply obind_ret in E. destruct E as (od & S & E).
    destruct od as [d3|]; [|unfold E_HEATSHRINK_SINK in E; discriminate].
    inv Hc. destruct (runs_inv 8 7 H8 H7 _ _ _ _ B Hd) as [Hd2 _].
    rewrite zlen_app in *. pose proof (runs_len 8 7 _ _ _ _ B).
    assert (St : starved 8 7 d2) by (destruct (runs_end 8 7 _ _ _ _ B) as [X|[_ X]]; [auto|lia]).
    assert (Hd3 : hinv87 d3) by (eapply sink_inv; eauto).
    pose proof (zlen_nonneg out). pose proof (zlen_nonneg o).
    destruct (hs_loop_msteps c d3 n (out ++ o) Hd3 H2 ltac:(rewrite zlen_app; lia))
      as (res & oo & dd & cc & E' & _ & _ & Hcase).
    rewrite E in E'. inv E'.
    destruct Hcase as [(_ & _ & Hnil & _)|(X & _)]; [|discriminate].
    apply app_eq_nil in Hnil. destruct Hnil; subst out o.
    assert (runs 8 7 1 d [] d2).
    { change (zlen (@nil Z)) with 0 in *.
      destruct (runs_split 8 7 _ _ _ _ B 1 (n - 0 - 1) ltac:(lia) ltac:(lia) ltac:(lia)) as (dm & P & Q).
      assert (dm = d2); [|subst; auto].
      destruct (runs_end 8 7 _ _ _ _ P) as [S'|[_ S']];
        [|unfold ztake in S'; rewrite firstn_nil in S'; change (zlen (@nil Z)) with 0 in S'; lia].
      assert (Hdm : hinv87 dm) by (eapply (runs_inv 8 7 H8 H7); eauto).
      destruct (runs_det 8 7 H8 H7 _ _ _ _ Q Hdm [] dm) as [_ ->]; [|auto].
      apply run_starve; [lia|auto]. }
    assert (P1 : hs_poll 8 7 1 d = Ret (d2, [])) by (apply (hs_poll_iff 8 7 H8 H7); auto; lia).
    change (1 - zlen []) with 1. rewrite P1. cbn [obind app]. cbv zeta.
    change (1 - zlen (@nil Z) =? 0) with false. cbv iota. rewrite S. cbn [obind].
    change (zlen (@nil Z)) with 0 in *.
    eapply (IH d3 n []); eauto.
Qed.

Lemma starve_one : forall r c n r1 c1, rok r -> bytes_ok c -> 1 <= n <= 128 ->
  decompress r c n = Ret (1, [], r1, c1) -> exists r2 c2, pull r c = Ret (1, [], r2, c2).
Proof.
  intros [ps po|s|h] c n r1 c1 Hr Hc Hn E; unfold pull.
  - cbn [decompress] in *. unfold none_decompress in *. destruct Hr as [A B].
    rewrite wrap_small in * by lia. destruct (Z.ltb_spec ps (po + n)); [discriminate|].
    destruct c; [|discriminate]. destruct (Z.ltb_spec ps (po + 1)); [lia|]. eauto.
  - cbn [decompress] in *. apply obind_ret in E. destruct E as ([[[res o] s2] c2] & E & E'). inv E'.
    unfold crle_decompress in *. rewrite (crle_starve_one _ _ _ _ _ _ E). cbn [obind]. eauto.
  - cbn [decompress] in *. apply obind_ret in E. destruct E as ([[[res o] h1] c2] & E & E'). inv E'.
    destruct Hr as [[Hw Hp]|(Hw & Hp & d & Hd & Hi)]; destruct h as [w l p dec]; cbn in Hw, Hp; subst p.
    + subst w. destruct c as [|x c]; [cbn; eauto|]. inv Hc.
      unfold hs_decompress in *. cbn [hr_window hr_ptr hr_dec hr_lookahead Z.eqb Pos.eqb] in *.
      destruct (negb _ || negb _) eqn:Eh; [discriminate|].
      cbn [hr_window hr_ptr hr_dec hr_lookahead] in *.
      apply obind_ret in E. destruct E as ([[[res o] d1] c3] & E & E'). inv E'.
      assert (Ew : Z.land (Z.shiftr x 4) 15 + 4 = 8) by (unfold HS_WINDOW, HS_LOOKAHEAD in Eh; lia).
      rewrite (hs_starve_one _ _ n [] _ _) with (4 := E); [cbn [obind]; eauto|rewrite Ew; apply hs_reset_inv; lia|auto|].
      change (zlen (@nil Z)) with 0. lia.
    + cbn in Hd. subst dec. unfold hs_decompress in *.
      cbn [hr_window hr_ptr hr_dec hr_lookahead] in *.
      destruct (Z.eqb_spec w (-1)); [lia|].
      apply obind_ret in E. destruct E as ([[[res o] d1] c3] & E & E'). inv E'.
      rewrite (hs_starve_one _ _ n [] _ _) with (4 := E); [cbn [obind]; eauto|auto|auto|].
      change (zlen (@nil Z)) with 0. lia.
Qed.

End Readers.
