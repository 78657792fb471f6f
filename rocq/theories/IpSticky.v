(** After process() has reported an error the in-place applier does nothing any more
    (C53). *)

From Coq Require Import ZArith List Bool Lia ZifyBool ZifyNat ZifyN.
From Verif Require Import Prelude Lib Heatshrink HsProofs CReader ReaderProofs SizeProofs CSeq Spec SeqSim SeqRun SeqTerm SeqSpec SeqInv
  CInPlace InPlaceSpec CodesSpec CodesSeq CodesIp IpCallbackSpec IpBoundSpec IpBound.
Import ListNotations.
Open Scope Z_scope.

Section Sticky.
Context {WBits : WordBits}.
Context {W : Type} (E : ip_env W).

Lemma idable_st : forall s x, idable s -> idable (iset_st s x).
Proof. intros s x H. exact H. Qed.

Lemma ionce_idable : forall s w res s1 w1, idable s -> ip_process_once E s w = Ret (res, s1, w1) -> idable s1.
Proof.
  intros s w res s1 w1 D H. unfold ip_process_once in H.
  apply obind_ret in H. destruct H as ([[r0 s0] w0] & A & H).
  assert (K : idable s0 -> idable s1).
  { intros D0. destruct (i_state s); inv H; try exact D0; destruct (_ <? 0); exact D0. }
  apply K. clear K H.
  assert (Ks : forall next store r s2, (forall x v, i_reader (store x v) = i_reader x) -> ip_init_size s next store = Ret (r, s2) -> idable s2).
  { intros next store r s2 Hst B. unfold ip_init_size in B. apply obind_ret in B. destruct B as ([[[r1 v] z1] l1] & B & C). cbv zeta in C.
    destruct (negb _); inv C; [exact D|]. intros x Hx. rewrite Hst in Hx. apply D. exact Hx. }
  assert (Kz : forall next r s2, ip_process_size s next = Ret (r, s2) -> idable s2).
  { intros next r s2 B. unfold ip_process_size, common_process_size in B. destruct (i_reader s) as [rd|] eqn:Er; [|discriminate].
    apply obind_ret in B. destruct B as ([[[[r1 v] z1] r2] l1] & B & C). cbv zeta in C.
    apply obind_ret in B. destruct B as ([[[[r1' v'] z1'] r2'] l1'] & B & F).
    apply unpack_dable in B; [|auto].
    assert (r2' = r2) by (destruct (negb _); [inv F; auto|]; destruct (_ <? _); inv F; auto). subst r2'.
    destruct (negb (r1 =? 0)); inv C; intros x Hx; cbn in Hx; inv Hx; auto. }
  assert (Kd : forall next r s2 w2, ip_process_data E s w next = Ret (r, s2, w2) -> idable s2).
  { intros next r s2 w2 B. unfold ip_process_data in B. cbv zeta in B. destruct (_ =? 0); [inv B; exact D|].
    destruct (i_reader s) as [rd|] eqn:Er; [|discriminate]. apply obind_ret in B. destruct B as ([[[r1 o] r2] l1] & B & C).
    apply decompress_dable in B; [|auto]. destruct (negb _); [inv C; intros x Hx; cbn in Hx; inv Hx; auto|].
    apply obind_ret in C. destruct C as ([[[io data] s3] w3] & C & F).
    assert (Hs2 : idable s3).
    { destruct next; try (inv C; intros x Hx; cbn in Hx; inv Hx; auto; fail).
      destruct (ip_mem_read E _ w _ (zlen o)) as [[rr fr] w4]. destruct (negb _); [inv C; intros x Hx; cbn in Hx; inv Hx; auto|].
      apply obind_ret in C. destruct C as (fo & _ & C). apply obind_ret in C. destruct C as (dd & _ & C). inv C. intros x Hx; cbn in Hx; inv Hx; auto. }
    destruct io; [inv F; auto|]. destruct (ip_mem_write E _ w3 _ data). destruct (negb _); inv F; exact Hs2. }
  destruct (i_state s) eqn:Es; try (apply obind_ret in A; destruct A as ([r2 s2] & A & A2); inv A2; eauto; fail); eauto.
  - unfold ip_process_init in A. destruct (i_init s); try (apply obind_ret in A; destruct A as ([r2 s2] & A & A2); inv A2; eapply Ks; [|exact A]; reflexivity).
    + apply obind_ret in A. destruct A as ([r2 s2] & A & A2). inv A2. unfold ip_init_fixed_header in A. destruct (i_left s); [inv A; exact D|]. cbv zeta in A. destruct (negb _); inv A; exact D.
    + unfold ip_init_to_size in A. apply obind_ret in A. destruct A as ([[[r1 v] z1] l1] & A & C). cbv zeta in C.
      destruct (negb _); [inv C; exact D|].
      destruct (reader_init _ _) as [r|] eqn:Er; [|inv C; exact D]. apply reader_init_dable in Er.
      destruct (v <? 0); [inv C; intros x Hx; cbn in Hx; inv Hx; exact Er|].
      destruct (0 <? v); [|inv C; intros x Hx; cbn in Hx; inv Hx; exact Er].
      apply obind_ret in C. destruct C as ([[r2 st] w2] & _ & C). destruct (negb _); inv C; intros x Hx; cbn in Hx; inv Hx; exact Er.
  - unfold ip_process_dfpatch_size in A. destruct (i_reader s) as [r|] eqn:Er; [|discriminate].
    apply obind_ret in A. destruct A as ([[[[r1 v] z1] r2] l1] & A & C). cbv zeta in C.
    apply unpack_dable in A; [|auto].
    destruct (negb _); [inv C; intros x Hx; cbn in Hx; inv Hx; auto|].
    destruct (0 <? v); [inv C; intros x Hx; cbn in Hx; inv Hx; auto|]. destruct (ip_mem_erase E _ w _ _). inv C. intros x Hx; cbn in Hx; inv Hx; auto.
  - unfold ip_process_adjustment in A. destruct (i_reader s) as [r|] eqn:Er; [|discriminate].
    apply obind_ret in A. destruct A as ([[[[r1 v] z1] r2] l1] & A & C). cbv zeta in C. apply unpack_dable in A; [|auto].
    destruct (negb _); [inv C; intros x Hx; cbn in Hx; inv Hx; auto|].
    destruct (_ =? _); [destruct (all_steps_completed E w); inv C; intros x Hx; cbn in Hx; inv Hx; auto|].
    destruct (_ =? _); [apply obind_ret in C; destruct C as ([[r3 st] w2] & _ & C); inv C; intros x Hx; cbn in Hx; inv Hx; auto|].
    apply obind_ret in C. destruct C as (fo & _ & C). inv C. intros x Hx; cbn in Hx; inv Hx; auto.
  - inv A. exact D.
  - inv A. exact D.
Qed.

Lemma icall_idable : forall fuel s w c r s1 w1, idable s ->
  match c with
  | CallProcess piece => ip_process E fuel s w piece
  | CallFinalize => ip_finalize E fuel s w
  end = Ret (r, s1, w1) -> idable s1.
Proof.
  assert (L : forall fuel res s w res1 s1 w1, idable s -> ip_process_loop E fuel res s w = Ret (res1, s1, w1) -> idable s1).
  { induction fuel; intros res s w res1 s1 w1 Hs X; cbn [ip_process_loop] in X.
    - destruct (i_left s); [inv X; auto|]. destruct (res <? 0); inv X; auto.
    - destruct (i_left s); [inv X; auto|]. destruct (res <? 0); [inv X; auto|].
      apply obind_ret in X. destruct X as ([[r2 s2] w2] & A & X). eapply IHfuel; [|exact X]. eapply ionce_idable; eauto. }
  assert (F : forall fuel s w res1 s1 w1, idable s -> ip_finalize_loop E fuel s w = Ret (res1, s1, w1) -> idable s1).
  { induction fuel; intros s w res1 s1 w1 Hs X; cbn [ip_finalize_loop] in X; [discriminate|].
    apply obind_ret in X. destruct X as ([[r2 s2] w2] & A & X). apply ionce_idable in A; [|auto].
    destruct (r2 =? 0); [eapply IHfuel; [|exact X]; auto|]. inv X. auto. }
  intros fuel s w c r s1 w1 Hd X. destruct c.
  - unfold ip_process in X. apply obind_ret in X. destruct X as ([[r2 s2] w2] & A & X). inv X. eapply L; [|exact A]. exact Hd.
  - unfold ip_finalize in X. apply obind_ret in X. destruct X as ([[r2 s2] w2] & A & X).
    apply obind_ret in X. destruct X as (v & _ & X). inv X. eapply F; [|exact A]. exact Hd.
Qed.

Lemma irun_idable : forall calls fuel s w rs s1 w1, idable s -> ip_run_calls E fuel s w calls = Ret (rs, s1, w1) -> idable s1.
Proof.
  induction calls as [|c cs IH]; intros fuel s w rs s1 w1 Hd X; cbn [ip_run_calls] in X; [inv X; auto|].
  apply obind_ret in X. destruct X as ([[r2 s2] w2] & A & X). apply icall_idable in A; [|auto].
  apply obind_ret in X. destruct X as ([[r3 s3] w3] & B & X). inv X. eapply IH; eauto.
Qed.

Lemma ifailed_process : forall fuel s w piece, (1 <= fuel)%nat -> i_state s = SFailed ->
  exists r s1, ip_process E fuel s w piece = Ret (r, s1, w) /\ i_state s1 = SFailed /\ i_reader s1 = i_reader s /\
    after_failure (CallProcess piece) r.
Proof.
  intros fuel s w piece Hf Hs. destruct fuel as [|fuel]; [lia|]. unfold ip_process. cbn [ip_process_loop].
  destruct piece as [|b l]; cbn [i_left iset_chunk].
  - cbn [obind]. do 2 eexists. split; [reflexivity|]. split; [exact Hs|]. split; reflexivity.
  - change (0 <? 0) with false. cbv iota. unfold ip_process_once. cbn [i_state iset_chunk]. rewrite Hs.
    cbn [obind]. change (- E_ALREADY_FAILED <? 0) with true. cbv iota.
    destruct fuel; cbn [ip_process_loop i_left iset_st iset_chunk]; cbn [obind];
      (do 2 eexists; split; [reflexivity|]; split; [reflexivity|]; split; [reflexivity|]; cbn; codes; lia).
Qed.

Lemma ifailed_finalize : forall fuel s w, (1 <= fuel)%nat -> i_state s = SFailed -> idable s ->
  exists r s1, ip_finalize E fuel s w = Ret (r, s1, w) /\ i_state s1 = SFailed /\ i_reader s1 = i_reader s /\ r < 0.
Proof.
  intros fuel s w Hf Hs Hd. destruct fuel as [|fuel]; [lia|]. unfold ip_finalize. cbn [ip_finalize_loop].
  unfold ip_process_once. cbn [i_state iset_chunk]. rewrite Hs.
  cbn [obind]. change (- E_ALREADY_FAILED <? 0) with true. cbv iota. change (- E_ALREADY_FAILED =? 0) with false. cbv iota.
  cbn [obind]. change (i_reader (iset_st (iset_chunk s []) SFailed)) with (i_reader s).
  assert (X : common_finalize (- E_ALREADY_FAILED) (i_reader s) (i_to_size (iset_st (iset_chunk s []) SFailed)) = Ret (- E_ALREADY_FAILED)).
  { unfold common_finalize. change (- E_ALREADY_FAILED =? 1) with false. cbv iota zeta.
    change (- E_ALREADY_FAILED =? - E_ALREADY_DONE) with false. cbv iota.
    destruct (i_reader s) as [r|] eqn:Er; [|reflexivity].
    assert (D : exists d, destroy r = Ret d).
    { specialize (Hd r Er). destruct r as [ps po|c|h]; cbn in *; eauto. destruct (hr_ptr h); [|eauto].
      destruct (hr_dec h); [eauto|]. exfalso. apply Hd; auto. }
    destruct D as (d & ->). reflexivity. }
  rewrite X. cbn [obind]. do 2 eexists. split; [reflexivity|]. split; [reflexivity|]. split; [reflexivity|]. codes. lia.
Qed.

Lemma irun_failed : forall calls fuel s w, (1 <= fuel)%nat -> i_state s = SFailed -> idable s ->
  exists rs s1, ip_run_calls E fuel s w calls = Ret (rs, s1, w) /\ Forall2 after_failure calls rs.
Proof.
  induction calls as [|c cs IH]; intros fuel s w Hf Hs Hd; cbn [ip_run_calls].
  - do 2 eexists. split; [reflexivity|constructor].
  - destruct c.
    + destruct (ifailed_process fuel s w piece Hf Hs) as (r & s1 & A & B & C & D). rewrite A. cbn [obind].
      destruct (IH fuel s1 w Hf B) as (rs & s2 & F & G); [intros x Hx; apply Hd; congruence|].
      rewrite F. cbn [obind]. do 2 eexists. split; [reflexivity|]. constructor; auto.
    + destruct (ifailed_finalize fuel s w Hf Hs Hd) as (r & s1 & A & B & C & D). rewrite A. cbn [obind].
      destruct (IH fuel s1 w Hf B) as (rs & s2 & F & G); [intros x Hx; apply Hd; congruence|].
      rewrite F. cbn [obind]. do 2 eexists. split; [reflexivity|]. constructor; auto.
Qed.

(** A step that returns an error leaves the failed state, unless it was done. *)
Lemma ionce_failed : forall s w res s1 w1, ip_process_once E s w = Ret (res, s1, w1) -> res < 0 ->
  i_state s1 = SFailed \/ res = - E_ALREADY_DONE.
Proof.
  intros s w res s1 w1 H Hr. unfold ip_process_once in H. apply obind_ret in H. destruct H as ([[r0 s0] w0] & A & H).
  destruct (i_state s) eqn:Es; inv H; try (left; destruct (Z.ltb_spec res 0); [reflexivity|lia]). inv A. auto.
Qed.

Lemma iloop_failed : forall fuel res s w res1 s1 w1, (res < 0 -> i_state s = SFailed \/ res = - E_ALREADY_DONE) ->
  ip_process_loop E fuel res s w = Ret (res1, s1, w1) -> res1 < 0 -> i_state s1 = SFailed \/ res1 = - E_ALREADY_DONE.
Proof.
  induction fuel; intros res s w res1 s1 w1 Hs X Hr; cbn [ip_process_loop] in X.
  - destruct (i_left s); [inv X; auto|]. destruct (res <? 0); inv X; auto.
  - destruct (i_left s); [inv X; auto|]. destruct (res <? 0); [inv X; auto|].
    apply obind_ret in X. destruct X as ([[r2 s2] w2] & A & X).
    eapply IHfuel; [|exact X|exact Hr]. intros Y. eapply ionce_failed; eauto.
Qed.

Theorem ip_failure_sticky : forall fuel junk ps w0 before rs s w piece res s1 w1,
  ip_run_calls E fuel (ip_init junk ps) w0 before = Ret (rs, s, w) ->
  ip_process E fuel s w piece = Ret (res, s1, w1) -> res < 0 ->
  forall fuel' after, (1 <= fuel')%nat ->
    exists rs' s2, ip_run_calls E fuel' s1 w1 after = Ret (rs', s2, w1) /\ Forall2 after_failure after rs'.
Proof.
  intros fuel junk ps w0 before rs s w piece res s1 w1 R P Hr fuel' after Hf.
  apply irun_failed; [exact Hf| |].
  - unfold ip_process in P. apply obind_ret in P. destruct P as ([[r2 s2] w2] & A & P).
    destruct (Z.eqb_spec r2 1); cbn [orb] in P; [inv P; lia|].
    destruct (Z.eqb_spec r2 (- E_ALREADY_DONE)); [inv P; lia|]. inv P.
    apply iloop_failed in A; [|lia|lia]. tauto.
  - apply (icall_idable fuel s w (CallProcess piece) res s1 w1); [|exact P].
    eapply irun_idable; [|exact R]. intros x Hx. discriminate.
Qed.

End Sticky.
