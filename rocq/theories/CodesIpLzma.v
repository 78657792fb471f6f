(** Results of the in-place applier of a library built with LZMA: no failing
    callback is masked, with any decoder. *)

From Coq Require Import ZArith List Bool Lia ZifyBool ZifyNat ZifyN.
From Verif Require Import Prelude Lib Heatshrink CReader ReaderProofs SizeProofs CSeq CLzma CSeqLzma Spec SeqSim SeqRun SeqTerm SeqSpec SeqInv CInPlace CIpLzma CodesSpec CodesSeq CodesIp CodesLzma
  InPlaceSpec InPlaceExamples Refuted LzmaExamples IpLzmaSpec IpLzmaExamples CodesExamples.
Import ListNotations.
Open Scope Z_scope.

Section Ip.
Context {WBits : WordBits}.
Context {D : Type} (L : lzma_lib D).
Context {W : Type} (E : ip_env W).
Variable Z0 : W -> Prop.
Variable P : Z -> Prop.
Hypothesis HG : callbacks_good E Z0 P.

(** What one step does. *)
Definition ystep (w : W) (res : Z) (w1 : W) : Prop :=
  res <= 1 /\ (Z0 w -> Z0 w1 \/ (res < 0 /\ res <> - E_ALREADY_DONE)).

Lemma ystep_quiet : forall w res, res <= 1 -> ystep w res w.
Proof. intros w res A. split; auto. Qed.

Lemma ystep_good : forall w res w1, good Z0 P w res w1 -> ystep w res w1.
Proof.
  intros w res w1 (A & B). pose proof (cb_neg _ _ _ HG _ A) as (C & F). split; [lia|]. intros Y.
  destruct (Z.eq_dec res 0); [left; auto|right; split; [lia|exact F]].
Qed.

Lemma yinit_step : forall y w res y1 w1, i_state (y_ip y) = SInit -> y_init L E y w = Ret (res, y1, w1) -> ystep w res w1.
Proof.
  intros y w res y1 w1 Es U. unfold y_init in U.
  assert (K : i_init (y_ip y) = ITo \/ obind (ip_process_init E (y_ip y) w) (fun '(res, s1, w1) => Ret (res, mkxip s1 (y_reader y), w1)) = Ret (res, y1, w1)) by (destruct (i_init (y_ip y)); auto).
  destruct K as [K|K].
  - rewrite K in U. clear K. unfold y_init_to_size in U. cbv zeta in U. apply obind_ret in U. destruct U as ([[[r v] z1] l1] & A & U).
    apply uhs_code in A. destruct (negb _); [inv U; apply ystep_quiet; unfold code_ok in A; lia|].
    destruct (xreader_init L _ _) as [e [r0|]] eqn:Ei.
    + destruct (_ <? 0); [inv U; apply ystep_quiet; codes; lia|]. destruct (0 <? v); [|inv U; apply ystep_quiet; lia].
      apply obind_ret in U. destruct U as ([[r2 st2] w2] & B & U). unfold shift_memory in B. destruct (_ =? 0); [discriminate|]. cbv zeta in B. apply (shift_good _ _ _ HG) in B.
      destruct (Z.eqb_spec r2 0) as [-> |N]; cbn [negb] in U; inv U; apply ystep_good; exact B.
    + inv U. apply ystep_quiet. unfold xreader_init in Ei. destruct (_ =? 1); [destruct (lz_start L); inv Ei; unfold E_LZMA_INIT; lia|].
      destruct (reader_init _ _); inv Ei. codes. lia.
  - clear U. apply obind_ret in K. destruct K as ([[r s2] w2] & A & U). inv U. apply (init_istep _ _ _ HG _ _ _ _ _ Es) in A. destruct A as (A & B & _).
    split.
    + destruct A as [A|A]; [unfold code_ok in A; lia|]. apply (cb_neg _ _ _ HG) in A. lia.
    + intros Y. destruct (B Y) as [B1|[(B1 & B2)| ->]]; [auto| |right; codes; lia]. apply (cb_neg _ _ _ HG) in B2. right. lia.
Qed.

Lemma ydfp_step : forall y w res y1 w1, y_dfpatch_size L E y w = Ret (res, y1, w1) -> ystep w res w1.
Proof.
  intros y w res y1 w1 U. unfold y_dfpatch_size in U. destruct (y_reader y); [|discriminate]. cbv zeta in U.
  apply obind_ret in U. destruct U as ([[[[r1 v] z1] r2] l1] & A & U). apply xunpack_le in A.
  destruct (negb _); [inv U; apply ystep_quiet; auto|]. destruct (0 <? v); [inv U; apply ystep_quiet; codes; lia|].
  destruct (ip_mem_erase _ _ _ _ _) as [r4 w4] eqn:B. inv U. apply ystep_good. exact (erase_good _ _ _ HG _ _ _ _ _ _ B).
Qed.

Lemma ysize_le : forall y next res y1, y_size L y next = Ret (res, y1) -> res <= 1.
Proof.
  intros y next res y1 U. unfold y_size in U. destruct (y_reader y); [|discriminate]. cbv zeta in U.
  apply obind_ret in U. destruct U as ([[[[r1 v] z1] r2] l1] & A & C). unfold xcommon_process_size in A.
  apply obind_ret in A. destruct A as ([[[[r3 v3] z3] r4] l3] & A & F). apply xunpack_le in A.
  assert (r1 <= 1) by (destruct (negb _); [inv F; auto|]; destruct (_ <? _); inv F; codes; lia).
  clear F. destruct (negb _); inv C; lia.
Qed.

Lemma ydata_step : forall y w next res y1 w1, y_data L E y w next = Ret (res, y1, w1) -> ystep w res w1.
Proof.
  intros y w next res y1 w1 U. unfold y_data in U. cbv zeta in U. destruct (_ =? 0); [inv U; apply ystep_quiet; lia|].
  destruct (y_reader y); [|discriminate]. apply obind_ret in U. destruct U as ([[[r1 o] r2] l1] & A & C). apply xdec_le in A.
  destruct (negb _); [inv C; apply ystep_quiet; auto|].
  apply obind_ret in C. destruct C as ([[[io data] s2] w2] & C & F).
  assert (K : io = false -> Z0 w -> Z0 w2).
  { intros ->. assert (D0 : next = SExtraSize \/ Ret (false, o, iset_size_left (y_ip y) (i_rsize (y_ip y)) l1, w) = Ret (false, data, s2, w2)) by (destruct next; auto).
    destruct D0 as [-> |D0]; [|inv D0; auto].
    destruct (ip_mem_read _ _ _ _ _) as [[rr from] w3] eqn:R. apply (read_good _ _ _ HG) in R. destruct (Z.eqb_spec rr 0); cbn [negb] in C; [|discriminate].
    apply obind_ret in C. destruct C as (fo & _ & C). apply obind_ret in C. destruct C as (d & _ & C). inv C. intros Y. apply R; auto. }
  destruct io; [inv F; split; [codes; lia|intros _; right; codes; lia]|]. specialize (K eq_refl).
  destruct (ip_mem_write _ _ _ _ _) as [rw w3] eqn:R. apply (write_good _ _ _ HG) in R.
  destruct (Z.eqb_spec rw 0); cbn [negb] in F; inv F; [|split; [codes; lia|intros _; right; codes; lia]].
  split; [lia|]. intros Y. left. apply R; auto.
Qed.

Lemma yadjust_step : forall y w res y1 w1, y_adjustment L E y w = Ret (res, y1, w1) -> ystep w res w1.
Proof.
  intros y w res y1 w1 U. unfold y_adjustment in U. destruct (y_reader y); [|discriminate]. cbv zeta in U.
  apply obind_ret in U. destruct U as ([[[[r1 v] z1] r2] l1] & A & C). apply xunpack_le in A.
  destruct (negb _); [inv C; apply ystep_quiet; auto|]. destruct (_ =? _).
  - destruct (all_steps_completed E w) as [r5 w5] eqn:B. inv C. apply ystep_good. exact (steps_good _ _ _ HG _ _ _ B).
  - destruct (_ =? _).
    + apply obind_ret in C. destruct C as ([[r5 st] w5] & B & C). inv C. apply ystep_good. exact (next_good _ _ _ HG _ _ _ _ _ B).
    + apply obind_ret in C. destruct C as (fo & _ & C). inv C. apply ystep_quiet. lia.
Qed.

Lemma yonce_note : forall y w res y1 w1, iclean Z0 (y_ip y) w -> y_once L E y w = Ret (res, y1, w1) ->
  res <= 1 /\ iclean Z0 (y_ip y1) w1 /\ itold Z0 res w1.
Proof.
  intros y w res y1 w1 C U. unfold y_once in U. apply obind_ret in U. destruct U as ([[r0 y0] w0] & A & U).
  destruct C as [C|C].
  - assert (K : ystep w r0 w0).
    { destruct (i_state (y_ip y)) eqn:Es.
      - eapply yinit_step; eauto.
      - eapply ydfp_step; eauto.
      - apply obind_ret in A. destruct A as ([r2 s2] & A & A2). inv A2. apply ystep_quiet. eapply ysize_le; eauto.
      - eapply ydata_step; eauto.
      - apply obind_ret in A. destruct A as ([r2 s2] & A & A2). inv A2. apply ystep_quiet. eapply ysize_le; eauto.
      - eapply ydata_step; eauto.
      - eapply yadjust_step; eauto.
      - inv A. apply ystep_quiet. codes. lia.
      - inv A. apply ystep_quiet. codes. lia. }
    destruct K as (Kle & K). specialize (K C).
    assert (X : iclean Z0 (y_ip y1) w1 /\ w1 = w0 /\ res = r0).
    { destruct (i_state (y_ip y)) eqn:Es; inv U; (split; [|auto]);
        try (inv A; left; exact C);
        (destruct K as [K|(K & _)]; [left; exact K|right; apply Z.ltb_lt in K; rewrite K; reflexivity]). }
    destruct X as (X & -> & ->). split; [exact Kle|]. split; [exact X|]. unfold itold. tauto.
  - rewrite C in A, U. inv A. inv U. split; [codes; lia|]. split; [right; reflexivity|]. right. codes. lia.
Qed.

Lemma yloop_note : forall fuel res y w v y1 w1, iclean Z0 (y_ip y) w -> itold Z0 res w -> res <= 1 ->
  y_process_loop L E fuel res y w = Ret (v, y1, w1) -> v <= 1 /\ itold Z0 v w1.
Proof.
  induction fuel; intros res y w v y1 w1 C T R U; cbn [y_process_loop] in U.
  - destruct (i_left _); [inv U; auto|]. destruct (res <? 0); [inv U; auto|discriminate].
  - destruct (i_left _); [inv U; auto|]. destruct (res <? 0); [inv U; auto|].
    apply obind_ret in U. destruct U as ([[r2 y2] w2] & A & U).
    destruct (yonce_note _ _ _ _ _ C A) as (X1 & X2 & X3). exact (IHfuel _ _ _ _ _ _ X2 X3 X1 U).
Qed.

Lemma yprocess_note : forall fuel y w p v y1 w1, Z0 w -> y_process L E fuel y w p = Ret (v, y1, w1) -> v <= 0 /\ (0 <= v -> Z0 w1).
Proof.
  intros fuel y w p v y1 w1 C U. unfold y_process in U. apply obind_ret in U. destruct U as ([[r2 y2] w2] & A & U).
  inv U. apply yloop_note in A; [|left; exact C|left; exact C|lia]. destruct A as (Q & A). split.
  - destruct (Z.eqb_spec r2 1); cbn [orb]; [lia|]. destruct (_ =? _); lia.
  - intros V. destruct A as [A|(A & B)]; [exact A|]. assert (X : (r2 =? 1) || (r2 =? -11) = false) by (unfold E_ALREADY_DONE in B; lia). rewrite X in V. lia.
Qed.

Lemma yfinloop_note : forall fuel y w v y1 w1, iclean Z0 (y_ip y) w -> y_finalize_loop L E fuel y w = Ret (v, y1, w1) -> itold Z0 v w1.
Proof.
  induction fuel; intros y w v y1 w1 C U; cbn [y_finalize_loop] in U; [discriminate|].
  apply obind_ret in U. destruct U as ([[r2 y2] w2] & A & U).
  destruct (yonce_note _ _ _ _ _ C A) as (X1 & X2 & X3). destruct (r2 =? 0); [exact (IHfuel _ _ _ _ _ X2 U)|]. inv U. auto.
Qed.

Lemma ycommon_told : forall res (r : option (xreader (D := D))) ts v r1, x_common_finalize res r ts = Ret (v, r1) ->
  res < 0 -> res <> - E_ALREADY_DONE -> v < 0.
Proof.
  intros res r ts v r1 U T N. unfold x_common_finalize in U. cbv zeta in U.
  destruct (Z.eqb_spec res 1); [lia|]. destruct (Z.eqb_spec res (- E_ALREADY_DONE)); [congruence|].
  apply obind_ret in U. destruct U as ([res3 r3] & A & U). inv U.
  assert (res3 = res). { destruct r; [|inv A; reflexivity]. apply obind_ret in A. destruct A as ([d rr] & _ & A). destruct (Z.eqb_spec res 0); [lia|]. inv A. reflexivity. }
  subst res3. destruct (Z.eqb_spec res 0); lia.
Qed.

Lemma yfinalize_note : forall fuel y w v y1 w1, Z0 w -> y_finalize L E fuel y w = Ret (v, y1, w1) -> 0 <= v -> Z0 w1.
Proof.
  intros fuel y w v y1 w1 C U V. unfold y_finalize in U. apply obind_ret in U. destruct U as ([[r2 y2] w2] & A & U).
  apply obind_ret in U. destruct U as ([r rd] & F & U). inv U. apply yfinloop_note in A; [|left; exact C].
  destruct A as [A|(A & B)]; [exact A|]. pose proof (ycommon_told _ _ _ _ _ F A B). lia.
Qed.

Lemma yfeed_note : forall chunks fuel y w v y1 w1, Z0 w -> y_feed L E fuel y w chunks = Ret (v, y1, w1) -> 0 <= v -> Z0 w1.
Proof.
  induction chunks; intros fuel y w v y1 w1 C U V; cbn [y_feed] in U.
  - exact (yfinalize_note _ _ _ _ _ _ C U V).
  - apply obind_ret in U. destruct U as ([[r2 y2] w2] & A & U).
    destruct (yprocess_note _ _ _ _ _ _ _ C A) as (Q & R). destruct (Z.eqb_spec r2 0) as [->|Hr].
    + exact (IHchunks _ _ _ _ _ _ (R (Z.le_refl 0)) U V).
    + apply obind_ret in U. destruct U as ([[r3 y3] w3] & F & U). inv U. lia.
Qed.

Lemma ycallbacks_note : forall patch_read ps, (forall w n r buf w1, patch_read w n = (r, buf, w1) -> Z0 w -> r = 0 -> Z0 w1) ->
  forall fuel po y w v y1 w1, Z0 w -> y_callbacks_loop L E fuel patch_read ps po y w = Ret (v, y1, w1) -> 0 <= v -> Z0 w1.
Proof.
  intros pr ps Hp. induction fuel; intros po y w v y1 w1 C U V; cbn [y_callbacks_loop] in U; (destruct (negb _); [exact (yfinalize_note _ _ _ _ _ _ C U V)|]); [discriminate|].
  cbv zeta in U. destruct (pr w _) as [[rr buf] w2] eqn:R. destruct (Z.eqb_spec rr 0) as [-> |Hr]; cbn [negb] in U.
  - pose proof (Hp _ _ _ _ _ R C eq_refl) as C2. destruct (negb _); [discriminate|]. apply obind_ret in U. destruct U as ([[r2 y2] w3] & A & U).
    destruct (yprocess_note _ _ _ _ _ _ _ C2 A) as (Q & S). destruct (Z.eqb_spec r2 0) as [->|Hr].
    + exact (IHfuel _ _ _ _ _ _ (S (Z.le_refl 0)) U V).
    + apply obind_ret in U. destruct U as ([[r3 y3] w4] & F & U). inv U. lia.
  - apply obind_ret in U. destruct U as ([[r3 y3] w3] & F & U). inv U. codes. lia.
Qed.
End Ip.

Section Results.
Context {WBits : WordBits}.
Context {D : Type} (L : lzma_lib D).
Context {W : Type} (E : ip_env W).

Theorem ip_lzma_masked : mem_codes (fun r => r <= 0 /\ r <> -11) E ->
  forall fuel junk ps w chunks v y1 w1 log,
  y_apply L (ip_noting E) fuel junk ps (w, []) chunks = Ret (v, y1, (w1, log)) -> 0 <= v -> all_zero log.
Proof.
  intros M fuel junk ps w chunks v y1 w1 log U V. pose proof (noting_hyps E _ M ltac:(auto)) as N.
  refine (yfeed_note L (ip_noting E) (fun x => all_zero (snd x)) (fun r => r <= 0 /\ r <> -11) N _ _ _ _ _ _ _ _ U V). constructor.
Qed.

Theorem ip_lzma_callbacks_masked : mem_codes (fun r => r <= 0 /\ r <> -11) E ->
  forall fuel junk patch_read ps w v y1 w1 log,
  y_apply_patch_in_place_callbacks L (ip_noting E) fuel junk (noted patch_read) ps (w, []) = Ret (v, y1, (w1, log)) -> 0 <= v -> all_zero log.
Proof.
  intros M fuel junk patch_read ps w v y1 w1 log U V. pose proof (noting_hyps E _ M ltac:(auto)) as N.
  refine (ycallbacks_note L (ip_noting E) (fun x => all_zero (snd x)) (fun r => r <= 0 /\ r <> -11) N _ _ _ _ _ _ _ _ _ _ _ U V); [|constructor].
  intros (x, l) n r buf x1 R X ->. unfold noted in R. cbn [fst snd] in *. destruct (patch_read x n) as [[? ?] ?]. inv R. apply zero_app; auto.
Qed.
End Results.

(** A device that is updated, and one whose memory cannot be erased. *)
Lemma ip_lzma_fine_run : exists y d log,
  @y_apply w64 toy toy_lib _ (ip_noting flash_env) 400 junk_ip 0 (new_device ip_mem, []) [ztake 9 ip_lzma; zdrop 9 ip_lzma] = Ret (zlen ip_to, y, (d, log)) /\
  holds (d_mem d) ip_to /\ 0 < zlen log.
Proof. do 3 eexists. split; [vm_compute; reflexivity|]. split; vm_compute; reflexivity. Qed.

Lemma ip_lzma_worn_run : exists y d log,
  @y_apply w64 toy toy_lib _ (ip_noting (worn_flash 0 (-1000))) 400 junk_ip 0 (new_device ip_mem, []) [ztake 9 ip_lzma; zdrop 9 ip_lzma] = Ret (-1000, y, (d, log)) /\
  ~ all_zero log.
Proof.
  do 3 eexists. split; [vm_compute; reflexivity|].
  intros A. unfold all_zero in A. rewrite Forall_forall in A. specialize (A (-1000) ltac:(cbn; tauto)). discriminate A.
Qed.

Lemma ip_lzma_worn_codes : mem_codes (fun r => r <= 0 /\ r <> -11) (worn_flash 0 (-1000)).
Proof. apply (worn_codes 0 (-1000) (fun r => r <= 0 /\ r <> -11)); lia. Qed.
