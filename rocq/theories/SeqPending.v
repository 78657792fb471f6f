(** A heatshrink stream that goes on within a back reference. *)

From Coq Require Import ZArith List Bool Lia ZifyBool ZifyNat ZifyN.
From Verif Require Import Prelude Lib Heatshrink HsProofs HsSpec CReader ReaderProofs SizeProofs CSeq Spec SeqSim SeqRun SeqTerm SeqMeaning SeqApply SeqExt.
Import ListNotations.
Open Scope Z_scope.

Ltac Zify.zify_post_hook ::= Z.to_euclidean_division_equations.

Section Pending.
Context {WBits : WordBits}.
Hypothesis Hword : 32 <= word_bits.

Lemma pending_rejected : forall junk recs patch from to ts dist c more bytes surplus chunks,
  patch = header_byte TYPE_SEQUENTIAL CompHeatshrink :: enc_size (recs_size recs) ++ 68 :: bytes ->
  last_nonempty recs -> recs_in_limits recs -> apply_recs from 0 recs = Some to ->
  Forall (token_ok 8 7) (ts ++ [Ref dist c]) -> bytes_bits bytes = enc_tokens 8 7 (ts ++ [Ref dist c]) ++ more ->
  tokens_expand [] (ts ++ [Ref dist c]) = enc_body recs ++ surplus ->
  zlen (tokens_expand [] ts) < zlen (enc_body recs) -> surplus <> [] ->
  bytes_ok patch -> zlen patch + 128 < 2 ^ word_bits -> concat chunks = patch ->
  exists n, forall fuel, (n <= fuel)%nat -> exists s w,
    c_apply fuel junk (zlen patch) from chunks = Ret (- E_CORRUPT_PATCH, s, w) /\ f_to w = to.
Proof.
  intros junk recs patch from to ts dist c more bytes surplus chunks Hp Hl (L1 & L2 & L3) Ha Ht Hbits Hx Hlt Hne Hb Hw Hc. unfold size_limit in *.
  pose proof (apply_recs_pos _ _ _ _ Ha ltac:(lia)) as Hlen. pose proof (recs_size_nonneg recs).
  assert (Hrs : 0 < recs_size recs).
  { assert (Hl2 : last_nonempty (mkrec [] [] 0 :: recs)).
    { destruct Hl as (rs & rl & E & Hrl). exists (mkrec [] [] 0 :: rs), rl. rewrite E. auto. }
    destruct (last_nonempty_tail _ _ Hl2) as [[_ X]|[_ X]]; [discriminate X|auto]. }
  assert (Hbs : bytes_ok (68 :: bytes)). { rewrite Hp in Hb. inv Hb. apply Forall_app in H3. tauto. }
  assert (Hbb : bytes_ok bytes) by (inv Hbs; auto).
  set (r := RHs (mkhr (-1) (-1) false None)).
  destruct (header_steps Hword junk (zlen patch) CompHeatshrink (recs_size recs) (68 :: bytes) (mkfiles from 0 []) r Hbs ltac:(lia) (f_equal zlen Hp) Hw eq_refl)
    as (s1 & S & A1 & A2 & A3 & A4 & A5 & A6 & A7). rewrite <- Hp in S.
  destruct (Z.ltb_spec 0 (recs_size recs)); [|lia].
  destruct (pending_hpulls ts dist c more bytes (enc_body recs) surplus Ht Hbb Hbits Hx Hlt Hne) as (d & i & P & F).
  assert (P' : pulls r (68 :: bytes) (enc_body recs) (RHs (mkhr 8 7 true (Some d))) i).
  { apply (hpulls_pulls 8 7) in P; [|lia]. destruct (enc_body recs) as [|b0 o0] eqn:Eb; [exfalso; eapply enc_body_ne; eauto|]. inversion P; subst.
    econstructor; [|eassumption]. match goal with H : pull _ bytes = _ |- _ => rewrite <- H end. reflexivity. }
  unfold enc_body in P'. apply pulls_split in P'. destruct P' as (r2 & i2 & P1 & P2).
  assert (Hw2 : zlen (68 :: bytes) + 128 < 2 ^ word_bits).
  { rewrite Hp in Hw. rewrite (zlen_cons (header_byte TYPE_SEQUENTIAL CompHeatshrink)), zlen_app in Hw. pose proof (zlen_nonneg (enc_size (recs_size recs))). lia. }
  assert (Hrok : rok r) by (eapply rok_init; [exact (eq_refl : reader_init 0 4 = Some r)|lia|pose proof (zlen_nonneg patch); lia]).
  assert (Hs1 : sat s1 SDfpatchSize 0 (recs_size recs) 0 r (68 :: bytes)).
  { unfold sat. pose proof (nozero_hs (mkhr (-1) (-1) false None) (68 :: bytes)). auto 20. }
  destruct (ref_dfpatch Hword s1 (mkfiles from 0 []) _ _ _ _ _ Hs1 P1) as (s2 & S2 & Hs2).
  destruct (ref_recs Hword recs s2 from 0 0 (recs_size recs) r2 i2 _ i [] to Hs2 P2 Ha Hl ltac:(lia) ltac:(lia) ltac:(lia) L2 L3 ltac:(lia))
    as (sd & wd & R & D2 & D3 & D4 & D5 & D6).
  assert (R' : refdone (start junk (zlen patch) patch) (mkfiles from 0 []) sd wd).
  { eapply refdone_steps; [exact S|]. eapply refdone_steps; eauto. }
  assert (Fv : fin_value sd = Ret (- E_CORRUPT_PATCH)).
  { unfold fin_value. rewrite D4. unfold common_finalize. cbn [destroy hr_ptr hr_dec]. rewrite F. reflexivity. }
  assert (Hcb : bytes_ok (concat chunks)) by (rewrite Hc; auto).
  assert (Hz : announced_comp patch = 4) by (rewrite Hp; reflexivity).
  destruct (feed_term Hword file_env 128 chunks (ap_init junk (zlen patch)) (mkfiles from 0 []) ltac:(lia) (tinv_init junk _)
              (proj2 (bytes_ok_concat chunks) Hcb)) as (n & N).
  exists n. intros fuel Hf. specialize (N fuel Hf).
  destruct (apply_sim Hword junk (zlen patch) from chunks fuel Hcb) as [(sd1 & wd1 & s' & R1 & E)|(X & _)];
    try rewrite Hc; auto; try lia.
  - intros _ E. congruence.
  - intros b l z v1 z1 l1 E Hk. rewrite E in Hz. unfold announced_comp in Hz. cbn [hd] in Hz. congruence.
  - rewrite Hc in R1. destruct (refdone_det _ _ _ _ R1 _ _ R') as [-> ->]. rewrite Fv in E. cbn [obind] in E. eauto.
  - exfalso. rewrite Hc in X. eapply X; eauto.
Qed.

End Pending.
