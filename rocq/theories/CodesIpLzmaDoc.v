(** Results of the in-place applier of a library built with LZMA: every result is
    documented if the codes of the memory callbacks are, with any decoder. *)

From Coq Require Import ZArith List Bool Lia ZifyBool ZifyNat ZifyN.
From Verif Require Import Prelude Lib Heatshrink CReader ReaderProofs SizeProofs CSeq CLzma CSeqLzma Spec SeqSim SeqRun SeqTerm SeqSpec SeqInv CInPlace CIpLzma CodesSpec CodesSeq CodesIp CodesLzmaDoc
  SeqExamples InPlaceSpec InPlaceExamples Refuted LzmaExamples IpLzmaSpec IpLzmaExamples CodesExamples.
Import ListNotations.
Open Scope Z_scope.

Section Doc.
Context {WBits : WordBits}.
Hypothesis Hword : 32 <= word_bits.
Context {D : Type} (L : lzma_lib D).
Context {W : Type} (E : ip_env W).
Let T (w : W) : Prop := True.
Let P (r : Z) : Prop := -27 <= r <= 0 /\ r <> -11.
Hypothesis HG : callbacks_good E T P.

Definition zcode (res : Z) : Prop := -27 <= res <= 1 /\ res <> -11.

Lemma zcode_ok : forall res, code_ok res -> zcode res.
Proof using. intros res A. unfold code_ok in A. unfold zcode. codes. lia. Qed.

Lemma zcode_cb : forall res, cb P res -> zcode res.
Proof using. intros res [->|[->|[->|A]]]; unfold zcode; [lia|codes; lia|codes; lia|]. unfold P in A. lia. Qed.

(** What one step does. *)
Definition zstep (y : xip D) (res : Z) (y1 : xip D) : Prop :=
  zcode res /\ (isized (y_ip y) -> res < 0 \/ isized (y_ip y1)).

Lemma zinit_step : forall y w res y1 w1, i_state (y_ip y) = SInit -> y_init L E y w = Ret (res, y1, w1) -> zstep y res y1.
Proof using HG Hword.
  intros y w res y1 w1 Es U. unfold y_init in U.
  assert (K : i_init (y_ip y) = ITo \/ obind (ip_process_init E (y_ip y) w) (fun '(res, s1, w1) => Ret (res, mkxip s1 (y_reader y), w1)) = Ret (res, y1, w1)) by (destruct (i_init (y_ip y)); auto).
  destruct K as [K|K].
  - rewrite K in U. unfold y_init_to_size in U. cbv zeta in U. apply obind_ret in U. destruct U as ([[[r v] z1] l1] & A & U).
    pose proof (uhs_code _ _ _ _ _ _ A) as Hc.
    assert (Hz : isized (y_ip y) -> zok (i_size (y_ip y))) by (unfold isized; rewrite Es, K; intros Q; apply Q; discriminate).
    destruct (Z.eqb_spec r 0) as [-> |N]; cbn [negb] in U.
    + assert (Hv : isized (y_ip y) -> 0 <= wrap v < 2 ^ 27).
      { intros Hs. destruct (uhs_app (i_left (y_ip y)) _ [] (Hz Hs)) as [(z2 & P1 & Q & _)|[(v' & z2 & l2 & used & P1 & Q & _)|(z2 & l2 & P1 & _)]]; rewrite P1 in A; inv A.
        rewrite wrap_small; [lia|]. assert (2 ^ 27 < 2 ^ word_bits) by (apply Z.pow_lt_mono_r; lia). lia. }
      destruct (xreader_init L _ _) as [e [r0|]] eqn:Er.
      * destruct (v <? 0); [inv U; split; [unfold zcode; codes; lia|intros; left; codes; lia]|]. destruct (0 <? v).
        -- apply obind_ret in U. destruct U as ([[r2 st2] w2] & B & U). unfold shift_memory in B. destruct (_ =? 0); [discriminate|]. cbv zeta in B. apply (shift_good _ _ _ HG) in B.
           destruct B as (B & _). pose proof (zcode_cb _ B). pose proof (cb_neg _ _ _ HG _ B).
           destruct (Z.eqb_spec r2 0) as [-> |N]; cbn [negb] in U; inv U; (split; [assumption|]); intros Hs; [right; unfold isized; cbn; auto|left; lia].
        -- inv U. split; [unfold zcode; lia|]. intros Hs. right. unfold isized. cbn. auto.
      * inv U. assert (zcode res /\ res < 0) as (? & ?).
        { unfold zcode. unfold xreader_init in Er. destruct (_ =? 1); [destruct (lz_start L); inv Er; xcodes|]. destruct (reader_init _ _); inv Er. xcodes. }
        split; auto.
    + inv U. split; [apply zcode_ok; auto|]. intros Hs.
      destruct (uhs_app (i_left (y_ip y)) _ [] (Hz Hs)) as [(z2 & P1 & Q & _)|[(v' & z2 & l2 & used & P1 & Q & _)|(z2 & l2 & P1 & _)]]; rewrite P1 in A; inv A; [|congruence|left; codes; lia].
      right. unfold isized. cbn. rewrite Es. auto.
  - clear U. apply obind_ret in K. destruct K as ([[r s2] w2] & A & U). inv U. apply (init_istep _ _ _ HG _ _ _ _ _ Es) in A. destruct A as (A & _ & B).
    split; [destruct A; [apply zcode_ok|apply zcode_cb]; auto|]. intros Hs. exact (B Hword Hs).
Qed.

Lemma zdfp_step : forall y w res y1 w1, i_state (y_ip y) = SDfpatchSize -> y_dfpatch_size L E y w = Ret (res, y1, w1) -> zstep y res y1.
Proof using HG.
  intros y w res y1 w1 Es U. unfold y_dfpatch_size in U. destruct (y_reader y); [|discriminate]. cbv zeta in U.
  apply obind_ret in U. destruct U as ([[[[r1 v] z1] r2] l1] & A & U). apply xunpack_code in A.
  destruct (negb _); [inv U; split; [apply zcode_ok; auto|intros; right; apply (isized_same (y_ip y)); auto]|].
  destruct (0 <? v); [inv U; split; [unfold zcode; codes; lia|intros; left; codes; lia]|].
  destruct (ip_mem_erase _ _ _ _ _) as [r4 w4] eqn:B. inv U. apply (erase_good _ _ _ HG) in B. split; [apply zcode_cb; apply B|]. intros Hs. right.
  apply (isized_st (y_ip y)); cbn; try rewrite Es; try discriminate; auto.
Qed.

Lemma zsize_step : forall y next res y1, i_state (y_ip y) <> SInit -> i_state (y_ip y) <> SFailed -> next <> SInit ->
  y_size L y next = Ret (res, y1) -> zstep y res y1.
Proof using.
  intros y next res y1 N1 N2 N3 U. unfold y_size in U. destruct (y_reader y); [|discriminate]. cbv zeta in U.
  apply obind_ret in U. destruct U as ([[[[r1 v] z1] r2] l1] & A & C). unfold xcommon_process_size in A.
  apply obind_ret in A. destruct A as ([[[[r3 v3] z3] r4] l3] & A & F). apply xunpack_code in A.
  assert (code_ok r1) by (destruct (negb _); [inv F; auto|]; destruct (_ <? _); inv F; xcodes).
  clear F. destruct (negb _); inv C; (split; [first [apply zcode_ok; assumption|unfold zcode; lia]|]); intros Hs; right; apply (isized_st (y_ip y)); cbn; auto.
Qed.

Lemma zdata_step : forall y w next res y1 w1, i_state (y_ip y) <> SInit -> i_state (y_ip y) <> SFailed -> next <> SInit ->
  y_data L E y w next = Ret (res, y1, w1) -> zstep y res y1.
Proof using.
  intros y w next res y1 w1 N1 N2 N3 U. unfold y_data in U. cbv zeta in U.
  destruct (_ =? 0); [inv U; split; [unfold zcode; lia|intros; right; apply (isized_st (y_ip y)); auto]|].
  destruct (y_reader y); [|discriminate]. apply obind_ret in U. destruct U as ([[[r1 o] r2] l1] & A & C). apply xdec_code in A.
  destruct (negb _); [inv C; split; [apply zcode_ok; auto|intros; right; apply (isized_same (y_ip y)); auto]|].
  apply obind_ret in C. destruct C as ([[[io data] s2] w2] & C & F).
  assert (K : i_state s2 = i_state (y_ip y) /\ i_init s2 = i_init (y_ip y) /\ i_size s2 = i_size (y_ip y) /\ i_to_size s2 = i_to_size (y_ip y)).
  { assert (D0 : next = SExtraSize \/ Ret (false, o, iset_size_left (y_ip y) (i_rsize (y_ip y)) l1, w) = Ret (io, data, s2, w2)) by (destruct next; auto).
    destruct D0 as [-> |D0]; [|inv D0; auto]. destruct (ip_mem_read _ _ _ _ _) as [[rr from] w3]. destruct (negb _); [inv C; auto|].
    apply obind_ret in C. destruct C as (fo & _ & C). apply obind_ret in C. destruct C as (d & _ & C). inv C. auto. }
  destruct K as (K1 & K2 & K3 & K4). destruct io; [inv F; split; [unfold zcode; codes; lia|intros; left; codes; lia]|].
  destruct (ip_mem_write _ _ _ _ _). destruct (negb _); inv F; (split; [unfold zcode; codes; lia|]); intros; [left; codes; lia|right; apply (isized_same (y_ip y)); auto].
Qed.

Lemma zadjust_step : forall y w res y1 w1, i_state (y_ip y) = SAdjustment -> y_adjustment L E y w = Ret (res, y1, w1) -> zstep y res y1.
Proof using HG.
  intros y w res y1 w1 Es U. unfold y_adjustment in U. destruct (y_reader y); [|discriminate]. cbv zeta in U.
  apply obind_ret in U. destruct U as ([[[[r1 v] z1] r2] l1] & A & U). apply xunpack_code in A.
  destruct (negb _); [inv U; split; [apply zcode_ok; auto|intros; right; apply (isized_same (y_ip y)); auto]|].
  assert (S : forall s2, i_state s2 <> SInit -> i_to_size s2 = i_to_size (y_ip y) -> isized (y_ip y) -> isized s2) by (intros s2 B1 B2 B3; apply (isized_st (y_ip y)); try rewrite Es; try discriminate; auto).
  destruct (_ =? _).
  - destruct (all_steps_completed E w) as [r5 w5] eqn:B. apply (steps_good _ _ _ HG) in B. inv U. split; [apply zcode_cb; apply B|]. intros; right; apply S; cbn; [discriminate|auto|auto].
  - destruct (_ =? _).
    + apply obind_ret in U. destruct U as ([[r5 st5] w5] & B & U). apply (next_good _ _ _ HG) in B. inv U. split; [apply zcode_cb; apply B|]. intros; right; apply S; cbn; [discriminate|auto|auto].
    + apply obind_ret in U. destruct U as (fo & _ & U). inv U. split; [unfold zcode; lia|]. intros; right; apply S; cbn; [discriminate|auto|auto].
Qed.

Lemma zonce_doc : forall y w res y1 w1, isized (y_ip y) -> y_once L E y w = Ret (res, y1, w1) ->
  isized (y_ip y1) /\ -27 <= res <= 1 /\ (res = - E_ALREADY_DONE -> i_state (y_ip y1) = SDone).
Proof using HG Hword.
  intros y w res y1 w1 Hs U. unfold y_once in U. apply obind_ret in U. destruct U as ([[r0 y0] w0] & A & U).
  assert (K : i_state (y_ip y) <> SDone -> zstep y r0 y0 -> isized (y_ip y1) /\ -27 <= res <= 1 /\ (res = - E_ALREADY_DONE -> i_state (y_ip y1) = SDone)).
  { intros Hd ((K0 & K1) & K2). specialize (K2 Hs).
    assert (V : Ret (r0, if r0 <? 0 then mkxip (iset_st (y_ip y0) SFailed) (y_reader y0) else y0, w0) = Ret (res, y1, w1)) by (destruct (i_state (y_ip y)); try exact U; congruence).
    inv V. split; [destruct (Z.ltb_spec res 0); [exact I|destruct K2; [lia|auto]]|]. split; [lia|]. unfold E_ALREADY_DONE. intros X. lia. }
  destruct (i_state (y_ip y)) eqn:Es.
  - apply K; [discriminate|]. eapply zinit_step; eauto.
  - apply K; [discriminate|]. eapply zdfp_step; eauto.
  - apply K; [discriminate|]. apply obind_ret in A. destruct A as ([r2 s2] & A & A2). inv A2. eapply zsize_step; [| | |exact A]; try rewrite Es; discriminate.
  - apply K; [discriminate|]. eapply zdata_step; [| | |exact A]; try rewrite Es; discriminate.
  - apply K; [discriminate|]. apply obind_ret in A. destruct A as ([r2 s2] & A & A2). inv A2. eapply zsize_step; [| | |exact A]; try rewrite Es; discriminate.
  - apply K; [discriminate|]. eapply zdata_step; [| | |exact A]; try rewrite Es; discriminate.
  - apply K; [discriminate|]. eapply zadjust_step; eauto.
  - inv A. inv U. split; [auto|]. split; [codes; lia|auto].
  - apply K; [discriminate|]. inv A. split; [unfold zcode; codes; lia|intros; left; codes; lia].
Qed.

Lemma zloop_doc : forall fuel res y w v y1 w1, isized (y_ip y) -> -27 <= res <= 1 ->
  y_process_loop L E fuel res y w = Ret (v, y1, w1) -> -27 <= v <= 1 /\ isized (y_ip y1).
Proof using HG Hword.
  induction fuel; intros res y w v y1 w1 C R U; cbn [y_process_loop] in U.
  - destruct (i_left _); [inv U; auto|]. destruct (res <? 0); [inv U; auto|discriminate].
  - destruct (i_left _); [inv U; auto|]. destruct (res <? 0); [inv U; auto|].
    apply obind_ret in U. destruct U as ([[r2 y2] w2] & A & U). apply zonce_doc in A; [|auto]. destruct A as (A1 & A2 & _). exact (IHfuel _ _ _ _ _ _ A1 A2 U).
Qed.

Lemma zprocess_doc : forall fuel y w p v y1 w1, isized (y_ip y) -> y_process L E fuel y w p = Ret (v, y1, w1) -> -27 <= v <= 0 /\ isized (y_ip y1).
Proof using HG Hword.
  intros fuel y w p v y1 w1 Hs U. unfold y_process in U. apply obind_ret in U. destruct U as ([[r2 y2] w2] & A & U).
  inv U. apply zloop_doc in A; [|apply (isized_same (y_ip y)); auto|lia]. destruct A as (A1 & A2). split; [|auto].
  destruct (Z.eqb_spec r2 1); cbn [orb]; [lia|]. destruct (_ =? _); lia.
Qed.

Lemma zfinloop_doc : forall fuel y w v y1 w1, isized (y_ip y) -> y_finalize_loop L E fuel y w = Ret (v, y1, w1) ->
  isized (y_ip y1) /\ -27 <= v <= 1 /\ v <> 0 /\ (v = - E_ALREADY_DONE -> i_state (y_ip y1) = SDone).
Proof using HG Hword.
  induction fuel; intros y w v y1 w1 C U; cbn [y_finalize_loop] in U; [discriminate|].
  apply obind_ret in U. destruct U as ([[r2 y2] w2] & A & U). apply zonce_doc in A; [|auto]. destruct A as (A1 & A2 & A3).
  destruct (Z.eqb_spec r2 0); [exact (IHfuel _ _ _ _ _ A1 U)|]. inv U. auto.
Qed.

Lemma zfinalize_doc : forall fuel y w v y1 w1, isized (y_ip y) -> y_finalize L E fuel y w = Ret (v, y1, w1) -> documented v.
Proof using HG Hword.
  intros fuel y w v y1 w1 Hs U. unfold y_finalize in U. apply obind_ret in U. destruct U as ([[r2 y2] w2] & A & U).
  apply obind_ret in U. destruct U as ([r rd] & F & U). inv U. apply zfinloop_doc in A; [|apply (isized_same (y_ip y)); auto].
  destruct A as (A1 & A2 & A3 & A4). eapply xcommon_doc; [| | |exact F]; auto. intros X. apply A4 in X. unfold isized in A1. rewrite X in A1. auto.
Qed.

Lemma zfeed_doc : forall chunks fuel y w v y1 w1, isized (y_ip y) -> y_feed L E fuel y w chunks = Ret (v, y1, w1) -> documented v.
Proof using HG Hword.
  induction chunks; intros fuel y w v y1 w1 Hs U; cbn [y_feed] in U; [eapply zfinalize_doc; eauto|].
  apply obind_ret in U. destruct U as ([[r2 y2] w2] & A & U). destruct (zprocess_doc _ _ _ _ _ _ _ Hs A) as (Q1 & Q2).
  destruct (Z.eqb_spec r2 0); [exact (IHchunks _ _ _ _ _ _ Q2 U)|]. apply obind_ret in U. destruct U as ([[r3 y3] w3] & F & U). inv U. right. lia.
Qed.

Lemma zcallbacks_doc : forall patch_read ps fuel po y w v y1 w1, isized (y_ip y) ->
  y_callbacks_loop L E fuel patch_read ps po y w = Ret (v, y1, w1) -> documented v.
Proof using HG Hword.
  induction fuel; intros po y w v y1 w1 Hs U; cbn [y_callbacks_loop] in U; (destruct (negb _); [eapply zfinalize_doc; eauto|]); [discriminate|].
  cbv zeta in U. destruct (patch_read w _) as [[rr buf] w2]. destruct (negb _).
  - apply obind_ret in U. destruct U as ([[r3 y3] w3] & F & U). inv U. right. codes. lia.
  - destruct (negb _); [discriminate|]. apply obind_ret in U. destruct U as ([[r2 y2] w3] & A & U). destruct (zprocess_doc _ _ _ _ _ _ _ Hs A) as (Q1 & Q2).
    destruct (Z.eqb_spec r2 0); [exact (IHfuel _ _ _ _ _ _ Q2 U)|]. apply obind_ret in U. destruct U as ([[r3 y3] w4] & F & U). inv U. right. lia.
Qed.
End Doc.

Theorem ip_lzma_results : forall (wb : WordBits) (D : Type) (L : lzma_lib D) (W : Type) (E : ip_env W), 32 <= word_bits ->
  mem_codes (fun r => -27 <= r <= 0 /\ r <> -11) E ->
  forall fuel junk ps w chunks v y1 w1, y_apply L E fuel junk ps w chunks = Ret (v, y1, w1) -> documented v.
Proof.
  intros wb D L W E Hw M fuel junk ps w chunks v y1 w1 U.
  assert (N : callbacks_good E (fun _ => True) (fun r => -27 <= r <= 0 /\ r <> -11)) by (apply plain_hyps; [exact M|]; intros r Hr; change (- E_ALREADY_DONE) with (-11); lia).
  refine (zfeed_doc Hw L E N _ _ _ _ _ _ _ _ U). apply isized_init.
Qed.

Theorem ip_lzma_callbacks_results : forall (wb : WordBits) (D : Type) (L : lzma_lib D) (W : Type) (E : ip_env W), 32 <= word_bits ->
  mem_codes (fun r => -27 <= r <= 0 /\ r <> -11) E ->
  forall fuel junk patch_read ps w v y1 w1, y_apply_patch_in_place_callbacks L E fuel junk patch_read ps w = Ret (v, y1, w1) -> documented v.
Proof.
  intros wb D L W E Hw M fuel junk patch_read ps w v y1 w1 U.
  assert (N : callbacks_good E (fun _ => True) (fun r => -27 <= r <= 0 /\ r <> -11)) by (apply plain_hyps; [exact M|]; intros r Hr; change (- E_ALREADY_DONE) with (-11); lia).
  refine (zcallbacks_doc Hw L E N _ _ _ _ _ _ _ _ _ _ U). apply isized_init.
Qed.

(** A stream that cannot be decoded, and one for which there is no memory. *)
Lemma lzma_bad_runs :
  (exists x w, @x_feed w64 toy toy_lib _ file_env 200 (xap_init ex_junk 4) (mkfiles ex_from 0 []) [[1; 7; 9; 9]] = Ret (-7, x, w)) /\
  (exists x w, @x_feed w64 toy (toy_poor 0) _ file_env 200 (xap_init ex_junk (zlen ex_lzma)) (mkfiles ex_from 0 []) [ex_lzma] = Ret (-8, x, w)).
Proof. split; do 2 eexists; vm_compute; reflexivity. Qed.

(** A device that fails with a documented code, which comes out. *)
Lemma ip_lzma_worn_doc :
  mem_codes (fun r => -27 <= r <= 0 /\ r <> -11) (worn_flash 0 (-15)) /\
  exists y d, @y_apply w64 toy toy_lib _ (worn_flash 0 (-15)) 400 junk_ip 0 (new_device ip_mem) [ztake 9 ip_lzma; zdrop 9 ip_lzma] = Ret (-15, y, d).
Proof.
  split; [apply (worn_codes 0 (-15) (fun r => -27 <= r <= 0 /\ r <> -11)); lia|]. do 2 eexists. vm_compute. reflexivity.
Qed.
