(** Which patches the C functions accept (C74). *)

From Coq Require Import ZArith List Bool Lia ZifyBool ZifyNat ZifyN.
From Verif Require Import Prelude Lib Heatshrink HsProofs CReader ReaderProofs SizeProofs CSeq Spec SeqSpec HsSpec SeqSim SeqRun SeqTerm SeqMeaning SeqApply
  SeqBound RefuseSpec BodySpec BodyProofs BodyC BodyThms FitSpec FitProofs SeqExamples Refuted.
Import ListNotations.
Open Scope Z_scope.

Lemma type_bits : forall b, byte_ok b -> Z.land (Z.shiftr b 4) 7 = patch_type b.
Proof.
  intros b _. unfold patch_type. rewrite Z.shiftr_div_pow2 by lia. change 7 with (Z.ones 3). rewrite Z.land_ones by lia. reflexivity.
Qed.

Section Patch.
Context {WBits : WordBits}.
Hypothesis Hword : 32 <= word_bits.

Notation once := (process_once file_env).

Lemma stream_nozero : forall body stream, compressed CompCrle body stream -> nozero (RCrle CIdle) stream.
Proof.
  intros body stream H. inversion H as [|segs H0|]; subst.
  pose proof (segs_cpulls segs [] H0) as P. rewrite app_nil_r in P. apply cpulls_pulls in P.
  eapply (nozero_end); [exact P|reflexivity|discriminate].
Qed.

Lemma body_nozero : forall patch c body, bytes_ok patch -> announced_comp patch = comp_number c -> compressed c body (body_of patch) -> body_nz patch.
Proof.
  intros patch c body Hb Hc H b l z v z1 l1 -> Hk Hz U. inv Hb.
  apply uhs_after in U; [|auto|intros X; congruence]. subst l1.
  unfold announced_comp in Hc. cbn [hd] in Hc. rewrite Hk in Hc. destruct c; [discriminate| |discriminate].
  eapply stream_nozero. exact H.
Qed.

Lemma header_any : forall junk c b l w n r, byte_ok b -> bytes_ok l -> patch_type b = 0 -> Z.land b 15 = comp_number c ->
  announced_size (b :: l) = Some n -> zlen (b :: l) + 128 < 2 ^ word_bits ->
  reader_init (zlen (after_size l)) (comp_number c) = Some r ->
  if short l (after_size l) then
    0 <= n < 2 ^ 27 /\
    exists s1, steps1 (start junk (zlen (b :: l)) (b :: l)) w s1 w /\
      a_state s1 = (if 0 <? n then SDfpatchSize else SDone) /\ a_to_offset s1 = 0 /\ a_to_size s1 = n /\
      a_from_offset s1 = 0 /\ a_reader s1 = Some r /\ a_left s1 = after_size l /\ z_cons (a_rsize s1) = false
  else dead (start junk (zlen (b :: l)) (b :: l)) w.
Proof.
  intros junk c b l w n r Hb Hl Ht Hc Hn Hw Hr.
  pose proof (pow2_32_le word_bits Hword).
  set (patch := b :: l) in *.
  set (z0 := mksz false (z_value (a_size junk)) (z_offset (a_size junk)) (z_signed (a_size junk))).
  pose proof (header_field b l z0 n Hl eq_refl Hn) as U.
  set (s1 := set_header (start junk (zlen patch) patch) true (comp_number c) z0 l).
  assert (E1 : once 1 (start junk (zlen patch) patch) w = Ret (0, s1, w)).
  { unfold process_once, start. cbn [a_state set_chunk ap_init]. unfold process_init. cbn [a_to_init set_chunk ap_init].
    unfold process_init_fixed_header. cbn [a_left set_chunk]. unfold patch at 1.
    rewrite type_bits, Ht, Hc by auto. reflexivity. }
  destruct (short l (after_size l)).
  - destruct U as (z1 & U & V & R). split; [exact R|].
    set (s2 := set_header s1 true (comp_number c) z1 (after_size l)).
    set (s3 := set_reader s2 (Some r) (mksz false (z_value (a_rsize s2)) (z_offset (a_rsize s2)) (z_signed (a_rsize s2))) (after_size l)).
    set (s4 := set_st (set_to_size s3 (wrap n)) (if 0 <? n then SDfpatchSize else SDone)).
    assert (E2 : once 1 s1 w = Ret (0, s4, w)).
    { unfold process_once. change (a_state s1) with SInit. cbv iota. unfold process_init. change (a_to_init s1) with true. cbv iota.
      unfold process_init_to_size. change (a_left s1) with l. change (a_size s1) with z0.
      rewrite U. cbn [obind]. change (negb (0 =? 0)) with false. cbv iota.
      change (a_to_init s1) with true. change (a_compression s1) with (comp_number c).
      fold s2. change (a_compression s2) with (comp_number c).
      replace (wrap (a_patch_size s2 - chunk_offset s2)) with (zlen (after_size l)).
      2:{ change (a_patch_size s2) with (zlen patch). unfold chunk_offset. change (a_csize s2) with (zlen patch).
          change (a_left s2) with (after_size l).
          assert (zlen (after_size l) <= zlen l).
          { clear. induction l as [|x l IH]; cbn [after_size]; [lia|]. rewrite zlen_cons. destruct (x <? 128); lia. }
          pose proof (zlen_nonneg (after_size l)). unfold patch in *. rewrite zlen_cons in *. rewrite wrap_small; lia. }
      rewrite Hr. cbv zeta. fold s3.
      destruct (Z.ltb_spec n 0); [lia|]. cbn [obind]. change (0 <? 0) with false. cbv iota. reflexivity. }
    exists s4. split; [econstructor; [exact E1|]; econstructor; [exact E2|constructor]|].
    split; [reflexivity|]. split; [reflexivity|]. split; [apply wrap_small; lia|]. auto 10.
  - destruct U as (z1 & i1 & U). eapply dead_steps; [apply steps1_one; exact E1|].
    apply dead_once; [discriminate|]. intros s2 w2 X.
    unfold process_once in X. change (a_state s1) with SInit in X. cbv iota in X. unfold process_init in X.
    change (a_to_init s1) with true in X. cbv iota in X.
    unfold process_init_to_size in X. change (a_left s1) with l in X. change (a_size s1) with z0 in X.
    rewrite U in X. cbn in X. discriminate.
Qed.

Lemma fit_patch : forall junk c patch body from n to rest, bytes_ok patch -> zlen patch + 128 < 2 ^ word_bits ->
  patch_type (hd 0 patch) = 0 -> announced_comp patch = comp_number c -> compressed c body (body_of patch) -> bytes_ok body ->
  announced_size patch = Some n -> described from n body = Some (to, rest) -> zlen from < 2 ^ 31 ->
  if fits n patch body then
    rest = [] -> exists sd wd, refdone (start junk (zlen patch) patch) (mkfiles from 0 []) sd wd /\ fin_value sd = Ret n /\ 0 <= n /\ f_to wd = to
  else dead (start junk (zlen patch) patch) (mkfiles from 0 []).
Proof.
  intros junk c patch body from n to rest Hb Hw Ht Hc Hs Hbb Hn D Hf.
  destruct patch as [|b l]; [discriminate|]. inv Hb. unfold body_of in *. unfold fits. cbn [hd tl] in *. unfold announced_comp in Hc. cbn [hd] in Hc.
  pose proof (bytes_ok_after l H2) as Hbs. change (2 ^ 31) with 2147483648 in Hf.
  assert (Hw2 : zlen (after_size l) + 128 < 2 ^ word_bits).
  { assert (zlen (after_size l) <= zlen l).
    { clear. induction l as [|x l IH]; cbn [after_size]; [lia|]. rewrite zlen_cons. destruct (x <? 128); lia. }
    rewrite zlen_cons in Hw. lia. }
  destruct (reader_init_comp (zlen (after_size l)) c) as (r & Hr & Hrc).
  pose proof (header_any junk c b l (mkfiles from 0 []) n r H1 H2 Ht Hc Hn Hw Hr) as F1.
  change (body_of (b :: l)) with (after_size l). destruct (short l (after_size l)); cbn [andb]; [|exact F1].
  destruct F1 as (Hrange & s1 & S & A1 & A2 & A3 & A4 & A5 & A6 & A7).
  unfold described in D. destruct (Z.eqb_spec n 0) as [->|Hn0].
  - assert (to = [] /\ rest = body) as [-> ->] by (split; congruence). intros ->.
    exists s1, (mkfiles from 0 []). split; [split; auto|]. split; [|split; [lia|reflexivity]].
    unfold fin_value. rewrite A5, A3. destruct c; rewrite Hrc; try reflexivity.
    assert (after_size l = []) as -> by (inversion Hs; congruence). reflexivity.
  - destruct (dec_size body) as [[df l1]|] eqn:D1; [|discriminate].
    destruct (Z.ltb_spec 0 df); [discriminate|].
    assert (Hne : body <> []) by (intros ->; discriminate).
    destruct (stream_pulls Hword c body (after_size l) r (zlen (after_size l)) Hs Hbs Hne Hr eq_refl Hw2)
      as (rE & P & N & Dd & _).
    assert (Hrok : rok r) by (eapply rok_init; [exact Hr|apply zlen_nonneg|auto]).
    destruct (Z.ltb_spec 0 n); [|lia].
    assert (Hs1 : sat s1 SDfpatchSize 0 n 0 r (after_size l)) by (unfold sat; auto 20).
    pose proof (fit_dfpatch Hword s1 (mkfiles from 0 []) n r _ body rE [] df l1 Hs1 P Hbb D1 ltac:(lia)) as F2.
    destruct (short body l1); cbn [andb]; [|eapply dead_steps; eauto].
    destruct F2 as (s2 & r2 & i2 & S2 & Hs2 & P2).
    pose proof (fit_recs Hword (length l1) from 0 n l1 to rest s2 0 n r2 i2 rE [] [] D ltac:(lia) Hs2 P2
                  (dec_size_bytes _ _ _ Hbb D1) ltac:(lia) ltac:(lia) ltac:(lia) ltac:(unfold INT_MAX; lia) ltac:(unfold INT_MAX; lia)) as F3.
    destruct (records_fit (length l1) 0 n l1).
    + intros ->. destruct F3 as (sd & wd & r3 & R & T & G1 & G2 & G3). assert (r3 = rE) as -> by (inversion G3; congruence).
      exists sd, wd. split; [eapply refdone_steps; [exact S|]; eapply refdone_steps; eauto|].
      split; [|split; [lia|exact T]].
      unfold fin_value. rewrite G1, G2. unfold common_finalize. cbn. rewrite Dd. cbn. f_equal.
      apply to_int_small. unfold INT_MIN, INT_MAX. lia.
    + eapply dead_steps; [exact S|]. eapply dead_steps; [exact S2|]. exact F3.
Qed.

End Patch.

(** A patch that describes something within the limits is accepted. *)
Lemma accepts : forall (wb : WordBits), 32 <= word_bits ->
  forall junk from patch body c chunks n to,
  bytes_ok patch -> zlen patch + 128 < 2 ^ word_bits -> patch_type (hd 0 patch) = 0 ->
  announced_comp patch = comp_number c -> compressed c body (body_of patch) -> bytes_ok body -> zlen from < 2 ^ 31 ->
  concat chunks = patch -> (c = CompNone -> header_complete (hd [] chunks) = true) ->
  announced_size patch = Some n -> described from n body = Some (to, []) -> fits n patch body = true ->
  exists m, forall fuel, (m <= fuel)%nat ->
    exists s w, c_apply fuel junk (zlen patch) from chunks = Ret (n, s, w) /\ f_to w = to.
Proof.
  intros wb Hword junk from patch body c chunks n to Hb Hw Ht Hc Hs Hbb Hf Hch Hh Hn D F.
  pose proof (fit_patch Hword junk c patch body from n to [] Hb Hw Ht Hc Hs Hbb Hn D Hf) as X. rewrite F in X.
  assert (S : succeeds junk (zlen patch) from chunks n to).
  { apply succeeds_ref; rewrite ?Hch; auto; [|eapply body_nozero; eauto|lia].
    intros _ Y. left. apply Hh. rewrite Hc in Y. destruct c; [auto|discriminate..]. }
  destruct S as (m & s & w & E & _ & T). exists m. intros fuel Hm. exists s, w. split; [|auto].
  unfold c_apply in *. eapply feed_mono; [exact E|discriminate|auto].
Qed.

(** One outside of the limits is not. *)
Lemma too_large : forall (wb : WordBits), 32 <= word_bits ->
  forall fuel junk from patch body c chunks n to rest v s w,
  bytes_ok patch -> zlen patch + 128 < 2 ^ word_bits -> patch_type (hd 0 patch) = 0 ->
  announced_comp patch = comp_number c -> compressed c body (body_of patch) -> bytes_ok body -> zlen from < 2 ^ 31 ->
  concat chunks = patch -> (c = CompNone -> header_complete (hd [] chunks) = true) ->
  announced_size patch = Some n -> described from n body = Some (to, rest) -> fits n patch body = false ->
  c_apply fuel junk (zlen patch) from chunks = Ret (v, s, w) -> v < 0.
Proof.
  intros wb Hword fuel junk from patch body c chunks n to rest v s w Hb Hw Ht Hc Hs Hbb Hf Hch Hh Hn D F E.
  destruct (Z.lt_ge_cases v 0) as [|Hv]; [auto|exfalso].
  pose proof (fit_patch Hword junk c patch body from n to rest Hb Hw Ht Hc Hs Hbb Hn D Hf) as X. rewrite F in X.
  assert (S : succeeds junk (zlen patch) from chunks v (f_to w)) by (exists fuel, s, w; auto).
  apply succeeds_ref in S; rewrite ?Hch in *; auto; [|intros _ Y; left; apply Hh; rewrite Hc in Y; destruct c; [auto|discriminate..]|eapply body_nozero; eauto|lia].
  destruct S as (sd & wd & R & _). exact (X sd wd R).
Qed.

(** Exactly those, if the patch is not compressed. *)
Lemma accepts_iff : forall (wb : WordBits), 32 <= word_bits ->
  forall junk from patch chunks v to,
  bytes_ok patch -> zlen patch + 128 < 2 ^ word_bits -> zlen patch < 2 ^ 31 -> zlen from < 2 ^ 31 -> announced_comp patch = 0 ->
  concat chunks = patch -> header_complete (hd [] chunks) = true ->
  ((exists fuel s w, c_apply fuel junk (zlen patch) from chunks = Ret (v, s, w) /\ 0 <= v /\ f_to w = to) <->
   patch_type (hd 0 patch) = 0 /\ announced_size patch = Some v /\
   described from v (body_of patch) = Some (to, []) /\ fits v patch (body_of patch) = true).
Proof.
  intros wb Hword junk from patch chunks v to Hb Hw Hl Hf Hc Hch Hh.
  assert (Hbb : bytes_ok (body_of patch) /\ zlen (body_of patch) <= zlen patch).
  { unfold body_of. split; [apply bytes_ok_after; destruct patch; [constructor|inv Hb; auto]|].
    assert (G : forall l, zlen (after_size l) <= zlen l).
    { clear. induction l as [|x l IH]; cbn [after_size]; [lia|]. rewrite zlen_cons. destruct (x <? 128); lia. }
    specialize (G (tl patch)). destruct patch; cbn [tl] in *; rewrite ?zlen_cons; lia. }
  destruct Hbb as [Hbb Hbl]. split.
  - intros (fuel & s & w & E & Hv & T).
    assert (E2 : c_apply (fuel + 2) junk (zlen patch) from chunks = Ret (v, s, w)).
    { unfold c_apply in *. eapply feed_mono; [exact E|discriminate|lia]. }
    destruct (accepted wb Hword fuel junk from patch (body_of patch) CompNone chunks v s w Hb ltac:(lia) Hc (compressed_none _) Hbb ltac:(lia) Hch E Hv)
      as (A & rest & B & C). rewrite (C eq_refl), T in B.
    assert (Ht : patch_type (hd 0 patch) = 0).
    { subst patch. eapply accepted_type; [|exact E2|auto|]; [lia|]. intros N. rewrite N in A. discriminate. }
    split; [exact Ht|]. split; [exact A|]. split; [exact B|].
    destruct (fits v patch (body_of patch)) eqn:F; [reflexivity|exfalso].
    pose proof (too_large wb Hword fuel junk from patch (body_of patch) CompNone chunks v to [] v s w Hb Hw Ht Hc (compressed_none _) Hbb Hf Hch
                  ltac:(auto) A B F E). lia.
  - intros (Ht & A & B & F).
    destruct (accepts wb Hword junk from patch (body_of patch) CompNone chunks v to Hb Hw Ht Hc (compressed_none _) Hbb Hf Hch ltac:(auto) A B F) as (m & M).
    destruct (M m (le_n m)) as (s & w & E & T). exists m, s, w. split; [exact E|]. split; [|exact T].
    unfold announced_size in A. destruct patch as [|b0 [|b l]]; cbn [tl] in A; [discriminate..|]. inv Hb. inv H2.
    assert (GG : forall q y r, bytes_ok q -> dec_usize q = Some (y, r) -> 0 <= y).
    { clear. induction q as [|b q IH]; intros y r H D; [discriminate|]. inv H. cbn [dec_usize] in D. unfold byte_ok in *.
      destruct (Z.ltb_spec b 128); [injection D as D1 D2; lia|]. destruct (dec_usize q) as [[y' r']|]; [|discriminate].
      specialize (IH _ _ H3 eq_refl). assert (b - 128 + 128 * y' = y) by congruence. lia. }
    pose proof (Z.mod_pos_bound b 64 ltac:(lia)).
    destruct (b <? 128); [assert (b mod 64 = v) by congruence; lia|]. destruct (dec_usize l) as [[y r]|] eqn:Dl; [|discriminate].
    assert (b mod 64 + 64 * y = v) by congruence. specialize (GG _ _ _ H4 Dl). lia.
Qed.
