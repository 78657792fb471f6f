(** The heatshrink decoder decodes every LZSS token stream to its expansion. *)

From Coq Require Import ZArith List Bool Lia ZifyBool ZifyNat ZifyN.
From Verif Require Import Prelude Lib Heatshrink HsProofs CReader ReaderProofs Spec.
Import ListNotations.
Open Scope Z_scope.

Ltac Zify.zify_post_hook ::= Z.to_euclidean_division_equations.

Definition total_bits (d : hsd) (i : list Z) : list bool := dbits d ++ bytes_bits i.

(** The window holds the last 256 bytes of the history. *)
Definition hist_ok (d : hsd) (hist : list Z) : Prop :=
  forall k, 0 <= k < 256 ->
    znth (h_win d) ((h_head_index d - 1 - k) mod 256) = Some (nth (Z.to_nat k) hist 0).

Lemma need_le8 : forall s, need 8 7 s <= 8.
Proof. intros []; cbn; lia. Qed.

Lemma avail : forall d i, hinv87 d -> bytes_ok i -> h_state d <> YIELD_BACKREF ->
  need 8 7 (h_state d) <= zlen (total_bits d i) ->
  exists d1 i1, msteps d i [] d1 i1 /\ ~ starved 8 7 d1 /\ hinv87 d1 /\ bytes_ok i1 /\
    same_rest d d1 /\ total_bits d1 i1 = total_bits d i.
Proof.
  intros d i Hd Hi Hs Hn. destruct (starved_dec 8 7 d) as [S|S].
  - destruct i as [|b i].
    + exfalso. destruct S as [_ S]. unfold total_bits in Hn. cbn [bytes_bits flat_map] in Hn.
      rewrite app_nil_r in Hn. lia.
    + inv Hi. destruct (hs_sink_starved 8 7 H8 H7 d b Hd S H1) as (d1 & E & Hd1 & Hb & Hr & _).
      exists d1, i. split; [eapply ms_sink; [exact S|exact E|constructor]|].
      split; [|split; [auto|split; [auto|split; [auto|]]]].
      * intros [_ X]. destruct Hr as (_ & _ & _ & Hst & _). rewrite Hst, Hb, zlen_app in X.
        change (zlen (to_bits 8 b)) with 8 in X. pose proof (need_le8 (h_state d)).
        pose proof (zlen_nonneg (dbits d)). lia.
      * unfold total_bits. rewrite Hb. cbn [bytes_bits flat_map]. rewrite <- app_assoc. reflexivity.
  - exists d, i. split; [constructor|]. split; [auto|]. split; [auto|]. split; [auto|]. split; [apply same_rest_refl|auto].
Qed.

Lemma split_bits : forall (d : hsd) i x rest, total_bits d i = x ++ rest -> zlen x <= zlen (dbits d) ->
  ztake (zlen x) (dbits d) = x /\ zdrop (zlen x) (dbits d) ++ bytes_bits i = rest.
Proof.
  intros d i x rest E Hl. unfold total_bits in E.
  split.
  - rewrite <- (ztake_app_l (zlen x) (dbits d) (bytes_bits i)) by lia. rewrite E. apply ztake_app_exact; auto.
  - rewrite <- zdrop_app_l by lia. rewrite E. apply zdrop_app_exact; auto.
Qed.

Lemma step_bits : forall d i x rest, hinv87 d -> bytes_ok i -> ~ emitting d ->
  zlen x = need 8 7 (h_state d) -> total_bits d i = x ++ rest ->
  exists d1 i1, msteps d i [] d1 i1 /\ hinv87 d1 /\ bytes_ok i1 /\ total_bits d1 i1 = rest /\
    h_win d1 = h_win d /\ h_head_index d1 = h_head_index d /\
    (h_state d1, h_output_index d1, h_output_count d1) = silent_target 8 7 (h_state d) (bval x) d.
Proof.
  intros d i x rest Hd Hi He Hx Hb.
  assert (Hs : h_state d <> YIELD_BACKREF) by (intros X; apply He; right; auto).
  destruct (avail d i Hd Hi Hs) as (d1 & i1 & M & NS & Hd1 & Hi1 & R & T).
  { rewrite Hb, zlen_app. pose proof (zlen_nonneg rest). lia. }
  destruct R as (R1 & R2 & R3 & R4 & R5).
  assert (He1 : ~ emitting d1) by (unfold emitting in *; rewrite R4; auto).
  destruct (hs_step_silent 8 7 H8 H7 0 d1 [] Hd1 He1 NS) as (d2 & E & Hd2 & B & W & Hh & Tg & Ln & Ne).
  rewrite Hb in T. rewrite R4 in *.
  destruct (split_bits d1 i1 x rest T ltac:(lia)) as [S1 S2].
  rewrite <- Hx in *. rewrite S1 in Tg. 
  exists d2, i1. split.
  { change (@nil Z) with (@nil Z ++ []). eapply msteps_app; [exact M|]. eapply ms_silent; [|constructor].
    split; [auto|]. split; [auto|]. congruence. }
  split; [auto|]. split; [auto|]. split; [unfold total_bits; rewrite B; exact S2|].
  split; [congruence|]. split; [congruence|]. rewrite Tg. clear -R1 R2.
  destruct (h_state d); cbn [silent_target]; rewrite ?R1, ?R2; reflexivity.
Qed.

Lemma hist_push : forall d d1 hist c, zlen (h_win d) = 256 -> 0 <= h_head_index d < 65536 -> hist_ok d hist ->
  h_head_index d1 = (h_head_index d + 1) mod 65536 ->
  h_win d1 = upd (h_win d) (Z.to_nat (h_head_index d mod 2 ^ 8)) c ->
  hist_ok d1 (c :: hist).
Proof.
  intros d d1 hist c Hw Hr Hh H1 H2 k Hk. rewrite H1, H2. change (2 ^ 8) with 256.
  assert (E : ((h_head_index d + 1) mod 65536 - 1 - k) mod 256 = (h_head_index d - k) mod 256) by lia.
  rewrite E. destruct (Z.eq_dec k 0) as [->|].
  - rewrite Z.sub_0_r. rewrite znth_upd_same by lia. reflexivity.
  - rewrite znth_upd_diff by lia. replace (h_head_index d - k) with (h_head_index d - 1 - (k - 1)) by lia.
    rewrite Hh by lia. replace (Z.to_nat k) with (S (Z.to_nat (k - 1))) by lia. reflexivity.
Qed.

Lemma hinv_win : forall d, hinv87 d -> zlen (h_win d) = 256 /\ 0 <= h_head_index d < 65536.
Proof. intros d (_ & A & _ & B & _). split; auto. Qed.

Lemma step_literal : forall d i b rest hist, hinv87 d -> bytes_ok i -> h_state d = YIELD_LITERAL ->
  byte_ok b -> total_bits d i = to_bits 8 b ++ rest -> hist_ok d hist ->
  exists d1 i1, msteps d i [b] d1 i1 /\ hinv87 d1 /\ bytes_ok i1 /\ total_bits d1 i1 = rest /\
    h_state d1 = TAG_BIT /\ hist_ok d1 (b :: hist).
Proof.
  intros d i b rest hist Hd Hi Hs Hb Ht Hh.
  destruct (avail d i Hd Hi ltac:(congruence)) as (d1 & i1 & M & NS & Hd1 & Hi1 & R & T).
  { rewrite Hs, Ht, zlen_app. pose proof (zlen_nonneg rest). change (zlen (to_bits 8 b)) with 8. change (need 8 7 YIELD_LITERAL) with 8. lia. }
  destruct R as (R1 & R2 & R3 & R4 & R5). rewrite Hs in R4.
  destruct (hs_step_literal 8 7 H8 d1 Hd1 R4 NS) as (c & d2 & E & Hd2 & Hc & B & Ln & St & He & Hw).
  rewrite Ht in T.
  destruct (split_bits d1 i1 (to_bits 8 b) rest T ltac:(change (zlen (to_bits 8 b)) with 8; lia)) as [S1 S2].
  change (zlen (to_bits 8 b)) with 8 in *. rewrite S1, bval_to_bits in Hc.
  assert (c = b) by (rewrite Hc; unfold byte_ok in Hb; change (2 ^ Z.of_nat 8) with 256; apply Z.mod_small; lia).
  clear Hc. subst c.
  exists d2, i1. split.
  { change [b] with ([] ++ [b]). eapply msteps_app; [exact M|]. eapply ms_emit; [|constructor].
    split; [left; auto|]. apply (E 1 []). reflexivity. }
  split; [auto|]. split; [auto|]. split; [unfold total_bits; rewrite B; exact S2|]. split; [auto|].
  destruct (hinv_win d1 Hd1) as [W1 W2].
  eapply (hist_push d1); eauto. intros k Hk. rewrite R3, R5. apply Hh; auto.
Qed.

Lemma steps_backref : forall n d i dist hist, hinv87 d -> bytes_ok i -> h_state d = YIELD_BACKREF ->
  h_output_index d = dist -> h_output_count d = Z.of_nat n -> (1 <= n)%nat -> 1 <= dist <= 256 -> hist_ok d hist ->
  exists d1, msteps d i (fst (copy_back n dist hist)) d1 i /\ hinv87 d1 /\ dbits d1 = dbits d /\
    h_state d1 = TAG_BIT /\ hist_ok d1 (snd (copy_back n dist hist)).
Proof.
  induction n; intros d i dist hist Hd Hi Hs Ho Hc Hn Hdist Hh; [lia|].
  destruct (hs_step_backref1 8 7 H8 d Hd Hs) as (c & Ec & Hcb & E & Hd1).
  set (d1 := bdone (bstep 8 d c) (h_output_count d - 1)) in *.
  assert (c = nth (Z.to_nat (dist - 1)) hist 0).
  { specialize (Hh (dist - 1) ltac:(lia)). replace (h_head_index d - 1 - (dist - 1)) with (h_head_index d - h_output_index d) in Hh by lia.
    change (2 ^ 8) with 256 in Ec. congruence. }
  assert (Hh1 : hist_ok d1 (c :: hist)).
  { destruct (hinv_win d Hd). eapply (hist_push d); eauto. }
  assert (Hem : emit1 8 7 d c d1) by (split; [right; auto|auto]).
  cbn [copy_back]. rewrite <- H.
  destruct n as [|n].
  - cbn [copy_back fst snd]. exists d1. split; [eapply ms_emit; [exact Hem|constructor]|]. split; [auto|].
    split; [reflexivity|]. split; [|auto]. unfold d1, bdone. rewrite Hc. reflexivity.
  - destruct (IHn d1 i dist (c :: hist)) as (d2 & M & Hd2 & B & S2 & H2); auto.
    + unfold d1, bdone. cbn [set_state h_state]. destruct (Z.eqb_spec (h_output_count d - 1) 0); [lia|reflexivity].
    + unfold d1, bdone. cbn [set_state set_output_count h_output_count]. lia.
    + lia.
    + destruct (copy_back (S n) dist (c :: hist)) as [out hist']. cbn [fst snd] in *.
      exists d2. split; [eapply ms_emit; eauto|]. auto.
Qed.

Lemma copy_back_hist : forall n dist hist, snd (copy_back n dist hist) = rev (fst (copy_back n dist hist)) ++ hist.
Proof.
  induction n; intros dist hist; [reflexivity|]. cbn [copy_back]. specialize (IHn dist (nth (Z.to_nat (dist - 1)) hist 0 :: hist)).
  destruct (copy_back n dist _) as [out hist']. cbn [fst snd] in *. rewrite IHn. cbn [rev]. rewrite <- app_assoc. reflexivity.
Qed.

Lemma tokens_msteps : forall ts d i hist pad, hinv87 d -> bytes_ok i -> h_state d = TAG_BIT ->
  Forall (token_ok 8 7) ts -> total_bits d i = enc_tokens 8 7 ts ++ pad -> hist_ok d hist ->
  exists d1 i1, msteps d i (tokens_expand hist ts) d1 i1 /\ hinv87 d1 /\ bytes_ok i1 /\
    total_bits d1 i1 = pad /\ h_state d1 = TAG_BIT /\ hist_ok d1 (rev (tokens_expand hist ts) ++ hist).
Proof.
  induction ts as [|t ts IH]; intros d i hist pad Hd Hi Hs Ht Hb Hh.
  - exists d, i. split; [constructor|]. auto.
  - inv Ht. cbn [enc_tokens flat_map] in Hb. rewrite <- app_assoc in Hb.
    assert (Hne : ~ emitting d) by (intros [X|X]; congruence).
    destruct t as [b|dist c]; cbn [enc_token token_ok] in *.
    + cbn [app] in Hb.
      destruct (step_bits d i [true] (to_bits 8 b ++ enc_tokens 8 7 ts ++ pad) Hd Hi Hne)
        as (d1 & i1 & M & Hd1 & Hi1 & T & W & Hx & Tg); [rewrite Hs; reflexivity|exact Hb|].
      rewrite Hs in Tg. cbn in Tg. inv Tg.
      destruct (step_literal d1 i1 b (enc_tokens 8 7 ts ++ pad) hist Hd1 Hi1) as (d2 & i2 & M2 & Hd2 & Hi2 & T2 & S2 & H2'); auto.
      { intros k Hk. rewrite W, Hx. apply Hh; auto. }
      destruct (IH d2 i2 (b :: hist) pad) as (d3 & i3 & M3 & Hd3 & Hi3 & T3 & S3 & Hf); auto.
      exists d3, i3. cbn [tokens_expand]. split; [|split; [auto|]; split; [auto|]; split; [auto|]; split; [auto|];
        cbn [rev]; rewrite <- app_assoc; exact Hf].
      change (b :: tokens_expand (b :: hist) ts) with ([] ++ [b] ++ tokens_expand (b :: hist) ts).
      eapply msteps_app; [exact M|]. eapply msteps_app; [exact M2|exact M3].
    + cbn [app] in Hb. rewrite <- app_assoc in Hb. change (Z.to_nat 8) with 8%nat in Hb. change (Z.to_nat 7) with 7%nat in Hb.
      destruct (step_bits d i [false] (to_bits 8 (dist - 1) ++ to_bits 7 (c - 1) ++ enc_tokens 8 7 ts ++ pad) Hd Hi Hne)
        as (d1 & i1 & M & Hd1 & Hi1 & T & W & Hx & Tg); [rewrite Hs; reflexivity|exact Hb|].
      rewrite Hs in Tg. cbn in Tg. inv Tg.
      destruct (step_bits d1 i1 (to_bits 8 (dist - 1)) (to_bits 7 (c - 1) ++ enc_tokens 8 7 ts ++ pad) Hd1 Hi1)
        as (d2 & i2 & M2 & Hd2 & Hi2 & T2 & W2 & Hx2 & Tg2);
        [intros [X|X]; congruence|rewrite H0; reflexivity|exact T|].
      rewrite H0, bval_to_bits in Tg2. cbn [silent_target] in Tg2. change (8 <? 7) with false in Tg2. cbv iota in Tg2.
      injection Tg2 as G1 G2 G3.
      destruct (step_bits d2 i2 (to_bits 7 (c - 1)) (enc_tokens 8 7 ts ++ pad) Hd2 Hi2)
        as (d3 & i3 & M3 & Hd3 & Hi3 & T3 & W3 & Hx3 & Tg3);
        [intros [X|X]; congruence|rewrite G1; reflexivity|exact T2|].
      rewrite G1, bval_to_bits in Tg3. cbn [silent_target] in Tg3. injection Tg3 as K1 K2 K3.
      change (2 ^ Z.of_nat 8) with 256 in *. change (2 ^ Z.of_nat 7) with 128 in *.
      change (2 ^ 8) with 256 in *. change (2 ^ 7) with 128 in *.
      assert (Ho : h_output_index d3 = dist) by lia.
      assert (Hc : h_output_count d3 = Z.of_nat (Z.to_nat c)) by lia.
      destruct (steps_backref (Z.to_nat c) d3 i3 dist hist) as (d4 & M4 & Hd4 & B4 & S4 & Hh4); auto; try lia.
      { intros k Hk. rewrite W3, Hx3, W2, Hx2, W, Hx. apply Hh; auto. }
      destruct (IH d4 i3 (snd (copy_back (Z.to_nat c) dist hist)) pad) as (d5 & i5 & M5 & Hd5 & Hi5 & T5 & S5 & Hf); auto.
      { unfold total_bits in *. rewrite B4. exact T3. }
      pose proof (copy_back_hist (Z.to_nat c) dist hist) as Hcb.
      exists d5, i5. cbn [tokens_expand].
      destruct (copy_back (Z.to_nat c) dist hist) as [out hist']. cbn [fst snd] in *.
      split; [|split; [auto|]; split; [auto|]; split; [auto|]; split; [auto|]; rewrite rev_app_distr, <- app_assoc, <- Hcb; exact Hf].
      change (out ++ tokens_expand hist' ts) with ([] ++ [] ++ [] ++ out ++ tokens_expand hist' ts).
      eapply msteps_app; [exact M|]. eapply msteps_app; [exact M2|]. eapply msteps_app; [exact M3|].
      eapply msteps_app; [exact M4|exact M5].
Qed.

(** Less than 8 bits of padding decode to nothing and the decoder can be finished. *)

Definition padding (d : hsd) (i : list Z) : Prop :=
  zlen (total_bits d i) < 8 /\
  (h_state d = TAG_BIT \/ h_state d = YIELD_LITERAL \/ h_state d = BACKREF_INDEX_LSB).

Lemma padding_step : forall d i o d1 i1, msteps d i o d1 i1 -> hinv87 d -> bytes_ok i -> padding d i ->
  o = [] /\ padding d1 i1.
Proof.
  induction 1; intros Hd Hi [Hp Hs].
  - split; [auto|split; auto].
  - apply IHmsteps; auto; [eapply silent_inv; eauto using H8, H7|].
    destruct H as (He & E & Ne).
    destruct (starved_dec 8 7 d) as [S|S].
    { rewrite (hs_step_starved 8 7 H8 H7) in E by auto. inv E. congruence. }
    destruct (hs_step_silent 8 7 H8 H7 0 d [] Hd He S) as (d' & E' & Hd' & B & W & Hh & Tg & Ln & _).
    rewrite E in E'. inv E'. unfold total_bits in *. rewrite zlen_app in Hp.
    destruct Hs as [Hs|[Hs|Hs]]; rewrite Hs in *; cbn [need] in *.
    + split; [unfold total_bits; rewrite B, zlen_app, zlen_zdrop by lia; lia|].
      cbn [silent_target] in Tg. destruct (negb _); [inv Tg; auto|]. change (8 <? 8) with false in Tg. cbv iota in Tg. inv Tg; auto.
    + exfalso. apply He. left; auto.
    + exfalso. change (if 8 <? 8 then 8 else 8) with 8 in Ln.
      pose proof (zlen_nonneg (bytes_bits i)). lia.
  - exfalso. unfold total_bits in Hp. rewrite zlen_app, zlen_bytes_bits, zlen_cons in Hp.
    pose proof (zlen_nonneg i). pose proof (zlen_nonneg (dbits d)). lia.
  - exfalso. destruct H as [[E|E] E2].
    + destruct (starved_dec 8 7 d) as [S|S].
      { rewrite (hs_step_starved 8 7 H8 H7) in E2 by auto. discriminate. }
      destruct (hs_step_literal 8 7 H8 d Hd E S) as (c' & d' & _ & _ & _ & _ & Ln & _).
      unfold total_bits in Hp. rewrite zlen_app in Hp. pose proof (zlen_nonneg (bytes_bits i)). lia.
    + destruct Hs as [Hs|[Hs|Hs]]; congruence.
Qed.

Lemma padding_finish : forall d i, hinv87 d -> padding d i -> i = [] /\ hs_finish d = true.
Proof.
  intros d i Hd [Hp Hs]. unfold total_bits in Hp. rewrite zlen_app, zlen_bytes_bits in Hp.
  pose proof (zlen_nonneg (dbits d)). pose proof (zlen_nonneg i).
  split; [apply zlen_0_nil; lia|].
  assert (h_input_size d =? 0 = true) as Hz.
  { unfold dbits in Hp. rewrite zlen_app, zlen_bytes_bits in Hp.
    pose proof (zlen_nonneg (to_bits (cur_bits d) (h_current_byte d))).
    destruct Hd as ((D1 & D2 & D3 & D4 & _) & _). destruct D4 as [D4|D4]; [lia|].
    exfalso. assert (zlen (dinput d) = h_input_size d - h_input_index d).
    { unfold dinput. rewrite zlen_ztake, zlen_zdrop by lia. lia. }
    pose proof (zlen_nonneg (dinput d)). lia. }
  unfold hs_finish. rewrite Hz. destruct Hs as [->|[->| ->]]; reflexivity.
Qed.

Lemma quiet_to_tag : forall d i o d1 i1, msteps d i o d1 i1 -> hinv87 d -> bytes_ok i -> o = [] ->
  h_state d1 = TAG_BIT -> zlen (dbits d1) < 8 -> d = d1 /\ i = i1.
Proof.
  induction 1; intros Hd Hi Eo Hs Hl.
  - auto.
  - destruct IHmsteps as [-> ->]; auto; [eapply silent_inv; eauto using H8, H7|]. exfalso.
    destruct H as (He & E & Ne).
    destruct (starved_dec 8 7 d) as [S|S].
    { rewrite (hs_step_starved 8 7 H8 H7) in E by auto. inv E. congruence. }
    destruct (hs_step_silent 8 7 H8 H7 0 d [] Hd He S) as (d' & E' & Hd' & B & W & Hh & Tg & Ln & _).
    rewrite E in E'. inv E'. rewrite Hs in Tg.
    destruct (h_state d); cbn [silent_target] in Tg; try congruence.
    destruct (8 <? 7); congruence.
  - inv Hi. destruct IHmsteps as [-> ->]; auto; [eapply sink_inv; eauto|]. exfalso.
    destruct (hs_sink_starved 8 7 H8 H7 d b Hd H H4) as (d3 & E2 & _ & Hb & _).
    rewrite E2 in H0. inv H0. rewrite Hb, zlen_app in Hl. change (zlen (to_bits 8 b)) with 8 in Hl.
    pose proof (zlen_nonneg (dbits d)). lia.
  - discriminate.
Qed.

Lemma hist_reset : hist_ok (hs_reset 8) [].
Proof.
  intros k Hk. cbn [h_win hs_reset h_head_index].
  replace (nth (Z.to_nat k) [] 0) with 0 by (destruct (Z.to_nat k); reflexivity).
  assert (0 <= (0 - 1 - k) mod 256 < 256) by (apply Z.mod_pos_bound; lia).
  set (j := (0 - 1 - k) mod 256) in *. change (2 ^ 8) with 256.
  destruct (znth_range_some (zrepeat 0 256) j) as (x & E); [change (zlen (zrepeat 0 256)) with 256; lia|].
  rewrite E. f_equal.
  assert (F : Forall (fun y => y = 0) (zrepeat 0 256)) by (apply Forall_zrepeat; auto).
  exact (Forall_znth _ _ _ _ F E).
Qed.

Lemma tokens_hpulls : forall ts pad bytes, Forall (token_ok 8 7) ts -> bytes_ok bytes -> (length pad < 8)%nat ->
  bytes_bits bytes = enc_tokens 8 7 ts ++ pad ->
  exists d, hpulls (hs_reset 8) bytes (tokens_expand [] ts) d [] /\ hinv87 d /\ hs_finish d = true /\
    forall o d1 i1, ~ hpulls d [] (o) d1 i1 \/ o = [].
Proof.
  intros ts pad bytes Ht Hb Hp E.
  assert (Hr : hinv87 (hs_reset 8)) by (apply hs_reset_inv; lia).
  destruct (tokens_msteps ts (hs_reset 8) bytes [] pad) as (d2 & i2 & M & Hd2 & Hi2 & T & S & _); auto.
  { apply hist_reset. }
  assert (Hpd : padding d2 i2).
  { split; [rewrite T; unfold zlen; lia|auto]. }
  destruct (hpulls_of_msteps _ _ _ _ _ Hr Hb M) as (d' & i' & P & J).
  assert (Hd' : hinv87 d' /\ bytes_ok i' /\ padding d' i').
  { destruct J as [J|J].
    - assert (hinv87 d' /\ bytes_ok i') as [A B].
      { clear -P Hr Hb. induction P; [auto|].
        assert (hinv87 d1 /\ bytes_ok i1); [|tauto].
        unfold hpull in H. destruct (hs_loop_msteps i d 1 [] Hr Hb ltac:(reflexivity)) as (res & o' & d3 & i3 & E3 & A & B & _).
        rewrite H in E3. inv E3. auto. }
      destruct (quiet_to_tag _ _ _ _ _ J A B eq_refl S) as [-> ->]; [|auto].
      destruct Hpd as [X _]. unfold total_bits in X. rewrite zlen_app in X.
      pose proof (zlen_nonneg (bytes_bits i2)). lia.
    - destruct (msteps_inv _ _ _ _ _ J Hd2 Hi2). destruct (padding_step _ _ _ _ _ J Hd2 Hi2 Hpd). auto. }
  destruct Hd' as (A & B & C). destruct (padding_finish d' i' A C) as [-> F].
  exists d'. split; [auto|]. split; [auto|]. split; [auto|].
  intros o d1 i1. destruct o as [|c o]; [auto|left]. intros X. inv X.
  unfold hpull in H3. destruct (hs_loop_msteps [] d' 1 [] A B ltac:(reflexivity)) as (res & o' & d3 & i4 & E3 & A' & B' & K).
  rewrite H3 in E3. inv E3. destruct K as [(K & _)|(_ & o1 & Ko & _ & _ & _ & Km)]; [discriminate|].
  cbn [app] in Ko. subst o1. specialize (Km []). cbn [app] in Km.
  destruct (padding_step _ _ _ _ _ Km A B C). discriminate.
Qed.

(** ** A back reference that reaches beyond the data *)

Lemma expand_app : forall a b hist, tokens_expand hist (a ++ b) = tokens_expand hist a ++ tokens_expand (rev (tokens_expand hist a) ++ hist) b.
Proof.
  induction a as [|[x|d c] a IH]; intros b hist; cbn [app tokens_expand].
  - reflexivity.
  - rewrite IH. cbn [app rev]. rewrite <- app_assoc. reflexivity.
  - pose proof (copy_back_hist (Z.to_nat c) d hist) as H. destruct (copy_back (Z.to_nat c) d hist) as [out hist']. cbn [fst snd] in H. subst hist'.
    rewrite IH, <- app_assoc, rev_app_distr, <- app_assoc. reflexivity.
Qed.

(** Within a back reference. *)
Lemma steps_within : forall k n d i dist hist, hinv87 d -> bytes_ok i -> h_state d = YIELD_BACKREF ->
  h_output_index d = dist -> h_output_count d = Z.of_nat n -> (k < n)%nat -> 1 <= dist <= 256 -> hist_ok d hist ->
  exists d1, msteps d i (firstn k (fst (copy_back n dist hist))) d1 i /\ hinv87 d1 /\
    h_state d1 = YIELD_BACKREF /\ h_output_count d1 = Z.of_nat (n - k) /\
    forall (k1 : (k + 1 < n)%nat), exists d2 c, emit1 8 7 d1 c d2 /\ h_state d2 = YIELD_BACKREF /\
      firstn (S k) (fst (copy_back n dist hist)) = firstn k (fst (copy_back n dist hist)) ++ [c].
Proof.
  induction k; intros n d i dist hist Hd Hi Hs Ho Hc Hk Hdist Hh.
  - exists d. cbn [firstn]. split; [constructor|]. split; [auto|]. split; [auto|]. split; [rewrite Hc; f_equal; lia|]. intros Hk1.
    destruct (hs_step_backref1 8 7 H8 d Hd Hs) as (c & Ec & Hcb & E & Hd1).
    exists (bdone (bstep 8 d c) (h_output_count d - 1)), c. split; [split; [right; auto|auto]|].
    split. { unfold bdone. cbn [set_state h_state]. destruct (Z.eqb_spec (h_output_count d - 1) 0); [lia|reflexivity]. }
    destruct n; [lia|]. cbn [copy_back].
    assert (c = nth (Z.to_nat (dist - 1)) hist 0).
    { specialize (Hh (dist - 1) ltac:(lia)). replace (h_head_index d - 1 - (dist - 1)) with (h_head_index d - h_output_index d) in Hh by lia.
      change (2 ^ 8) with 256 in Ec. congruence. }
    rewrite <- H. destruct (copy_back n dist (c :: hist)). reflexivity.
  - destruct n; [lia|]. destruct (hs_step_backref1 8 7 H8 d Hd Hs) as (c & Ec & Hcb & E & Hd1).
    set (d1 := bdone (bstep 8 d c) (h_output_count d - 1)) in *.
    assert (c = nth (Z.to_nat (dist - 1)) hist 0).
    { specialize (Hh (dist - 1) ltac:(lia)). replace (h_head_index d - 1 - (dist - 1)) with (h_head_index d - h_output_index d) in Hh by lia.
      change (2 ^ 8) with 256 in Ec. congruence. }
    assert (Hh1 : hist_ok d1 (c :: hist)). { destruct (hinv_win d Hd). eapply (hist_push d); eauto. }
    assert (Hem : emit1 8 7 d c d1) by (split; [right; auto|auto]).
    destruct (IHk n d1 i dist (c :: hist)) as (d2 & M & Hd2 & S2 & C2 & F2); auto; try lia.
    + unfold d1, bdone. cbn [set_state h_state]. destruct (Z.eqb_spec (h_output_count d - 1) 0); [lia|reflexivity].
    + unfold d1, bdone. cbn [set_state set_output_count h_output_count]. lia.
    + exists d2. cbn [copy_back]. rewrite <- H. destruct (copy_back n dist (c :: hist)) as [out hist']. cbn [fst snd firstn] in *.
      split; [eapply ms_emit; eauto|]. split; [auto|]. split; [auto|]. split; [exact C2|].
      intros Hk1. destruct (F2 ltac:(lia)) as (d3 & c3 & A & B & C). exists d3, c3. split; [auto|]. split; [auto|].
      cbn [app]. f_equal. exact C.
Qed.

Lemma hpulls_snoc : forall d i o d1 i1, hpulls d i o d1 i1 -> forall c d2 i2, hpull d1 i1 = Ret (0, [c], d2, i2) -> hpulls d i (o ++ [c]) d2 i2.
Proof. induction 1; intros; cbn [app]; econstructor; eauto. constructor. Qed.

Lemma copy_back_len : forall n dist hist, length (fst (copy_back n dist hist)) = n.
Proof. induction n; intros dist hist; [reflexivity|]. cbn [copy_back]. specialize (IHn dist (nth (Z.to_nat (dist - 1)) hist 0 :: hist)). destruct (copy_back n dist _). cbn [fst length] in *. lia. Qed.

Lemma pending_hpulls : forall ts dist c more bytes body surplus, Forall (token_ok 8 7) (ts ++ [Ref dist c]) -> bytes_ok bytes ->
  bytes_bits bytes = enc_tokens 8 7 (ts ++ [Ref dist c]) ++ more ->
  tokens_expand [] (ts ++ [Ref dist c]) = body ++ surplus -> zlen (tokens_expand [] ts) < zlen body -> surplus <> [] ->
  exists d i, hpulls (hs_reset 8) bytes body d i /\ hs_finish d = false.
Proof.
  intros ts dist c more bytes body surplus Ht Hb E X L N.
  apply Forall_app in Ht. destruct Ht as [Ht Hr]. inv Hr. cbn [token_ok] in H1. clear H2. change (2 ^ 8) with 256 in H1. change (2 ^ 7) with 128 in H1.
  assert (Hr : hinv87 (hs_reset 8)) by (apply hs_reset_inv; lia).
  unfold enc_tokens in E. rewrite flat_map_app in E. cbn [flat_map enc_token app] in E. rewrite app_nil_r, <- !app_assoc in E. cbn [app] in E.
  change (Z.to_nat 8) with 8%nat in E. change (Z.to_nat 7) with 7%nat in E. rewrite <- ?app_assoc in E.
  destruct (tokens_msteps ts (hs_reset 8) bytes [] _ Hr Hb eq_refl Ht E hist_reset) as (d & i & M0 & Hd & Hi & T0 & Hs & Hh).
  assert (Hne : ~ emitting d) by (intros [Y|Y]; congruence).
  destruct (step_bits d i [false] (to_bits 8 (dist - 1) ++ to_bits 7 (c - 1) ++ more) Hd Hi Hne)
    as (d1 & i1 & M & Hd1 & Hi1 & T & W & Hx & Tg); [rewrite Hs; reflexivity|exact T0|].
  rewrite Hs in Tg. cbn in Tg. injection Tg as F1 F2 F3.
  destruct (step_bits d1 i1 (to_bits 8 (dist - 1)) (to_bits 7 (c - 1) ++ more) Hd1 Hi1)
    as (d2 & i2 & M2 & Hd2 & Hi2 & T2 & W2 & Hx2 & Tg2);
    [intros [Y|Y]; congruence|rewrite F1; reflexivity|exact T|].
  rewrite F1, bval_to_bits in Tg2. cbn [silent_target] in Tg2. change (8 <? 7) with false in Tg2. cbv iota in Tg2.
  injection Tg2 as G1 G2 G3.
  destruct (step_bits d2 i2 (to_bits 7 (c - 1)) more Hd2 Hi2)
    as (d3 & i3 & M3 & Hd3 & Hi3 & T3 & W3 & Hx3 & Tg3);
    [intros [Y|Y]; congruence|rewrite G1; reflexivity|exact T2|].
  rewrite G1, bval_to_bits in Tg3. cbn [silent_target] in Tg3. injection Tg3 as K1 K2 K3.
  change (2 ^ Z.of_nat 8) with 256 in *. change (2 ^ Z.of_nat 7) with 128 in *.
  change (2 ^ 8) with 256 in *. change (2 ^ 7) with 128 in *.
  assert (Ho : h_output_index d3 = dist) by lia.
  assert (Hc : h_output_count d3 = Z.of_nat (Z.to_nat c)) by lia.
  set (hist := rev (tokens_expand [] ts) ++ []) in *.
  set (out := fst (copy_back (Z.to_nat c) dist hist)).
  assert (Xo : tokens_expand [] (ts ++ [Ref dist c]) = tokens_expand [] ts ++ out).
  { rewrite expand_app. cbn [tokens_expand]. fold hist. unfold out. destruct (copy_back (Z.to_nat c) dist hist). cbn [fst]. rewrite app_nil_r. reflexivity. }
  rewrite Xo in X. assert (Lo : length out = Z.to_nat c) by apply copy_back_len.
  set (k := (length body - length (tokens_expand [] ts) - 1)%nat).
  assert (Hlen := f_equal (@length Z) X). rewrite !app_length in Hlen.
  assert (0 < length surplus)%nat by (destruct surplus; [congruence|cbn; lia]).
  unfold zlen in L.
  assert (Hk : (k + 1 < Z.to_nat c)%nat) by lia.
  destruct (steps_within k (Z.to_nat c) d3 i3 dist hist Hd3 Hi3 K1 Ho Hc ltac:(lia) ltac:(lia)) as (d4 & M4 & Hd4 & S4 & C4 & Fn).
  { intros j Hj. rewrite W3, Hx3, W2, Hx2, W, Hx. apply Hh; auto. }
  destruct (Fn Hk) as (d5 & x & Em & S5 & Fx). fold out in M4, Fx.
  assert (Body : body = (tokens_expand [] ts ++ firstn k out) ++ [x]).
  { rewrite <- app_assoc, <- Fx. apply (f_equal (firstn (length body))) in X. rewrite firstn_app in X.
    rewrite (firstn_all2 (tokens_expand [] ts)) in X by lia. replace (length body - length (tokens_expand [] ts))%nat with (S k) in X by lia.
    rewrite X, firstn_app, firstn_all, Nat.sub_diag, app_nil_r. reflexivity. }
  assert (Mall : msteps (hs_reset 8) bytes (tokens_expand [] ts ++ firstn k out) d4 i3).
  { eapply msteps_app; [exact M0|]. change (firstn k out) with ([] ++ [] ++ [] ++ firstn k out).
    eapply msteps_app; [exact M|]. eapply msteps_app; [exact M2|]. eapply msteps_app; [exact M3|exact M4]. }
  destruct (hpulls_of_msteps _ _ _ _ _ Hr Hb Mall) as (d' & i' & P & J).
  assert (hinv87 d' /\ bytes_ok i') as [A B].
  { clear -P Hr Hb. induction P; [auto|].
    assert (hinv87 d1 /\ bytes_ok i1); [|tauto].
    unfold hpull in H. destruct (hs_loop_msteps i d 1 [] Hr Hb ltac:(reflexivity)) as (res & o' & d3 & i3 & E3 & A & B & _).
    rewrite H in E3. inv E3. auto. }
  destruct (hpull_emit d4 x d5 i3 Hd4 Em) as (d6 & Hp & Rn).
  assert (d6 = d5).
  { clear - Rn S5. inv Rn; auto. destruct H as [H3 _]. exfalso. apply H3. right. auto. }
  rewrite H0 in Hp. exists d5, i3. split; [|unfold hs_finish; rewrite S5; reflexivity].
  rewrite Body. eapply hpulls_snoc; [exact P|]. rewrite (joined_hpull d' i' d4 i3) by auto. exact Hp.
Qed.
