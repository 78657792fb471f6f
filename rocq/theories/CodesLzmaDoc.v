(** Results of the sequential applier of a library built with LZMA: every result is
    documented, with any decoder. *)

From Coq Require Import ZArith List Bool Lia ZifyBool ZifyNat ZifyN.
From Verif Require Import Prelude Lib Heatshrink CReader ReaderProofs SizeProofs CSeq CLzma CSeqLzma Spec SeqSim SeqRun SeqTerm SeqSpec SeqInv CodesSpec CodesSeq.
Import ListNotations.
Open Scope Z_scope.

Ltac xcodes := unfold code_ok, E_OUT_OF_MEMORY, E_LZMA_DECODE, E_LZMA_INIT in *; codes; lia.

Section Doc.
Context {WBits : WordBits}.
Hypothesis Hword : 32 <= word_bits.
Context {D : Type} (L : lzma_lib D).
Context {W : Type} (E : seq_env W).

Lemma lzma_loop_code : forall K r l n res o r1 l1, lzma_loop L K r l n = Ret (res, o, r1, l1) -> code_ok res.
Proof using.
  induction K; intros r l n res o r1 l1 U; cbn [lzma_loop] in U; [discriminate|].
  apply obind_ret in U. destruct U as ([ra rd] & A & U).
  assert (code_ok ra).
  { destruct (held (l_in r)); [inv A; xcodes|]. apply obind_ret in A. destruct A as ([rb re] & A & C).
    assert (code_ok rb).
    { unfold prepare_output_buffer in A. destruct (h_alloc _ _) as [[b|] h]; [|inv A; xcodes].
      destruct (_ <? _); [discriminate|]. apply obind_ret in A. destruct A as (h2 & _ & A). inv A. xcodes. }
    destruct (negb _); [inv C; auto|]. unfold run_decoder in C. destruct (lz_code _ _ _ _) as [[[ret k] out] d].
    destruct (_ || _); [discriminate|]. destruct ret; inv C; xcodes. }
  destruct (negb _); [inv U; auto|]. destruct (get_decompressed_data _ _) as [[out r2]|]; [inv U; xcodes|].
  apply obind_ret in U. destruct U as ([[rb re] l2] & A2 & U).
  assert (code_ok rb).
  { unfold prepare_input_buffer in A2. destruct l; [inv A2; xcodes|]. destruct (h_alloc _ _) as [[b|] h]; [|inv A2; xcodes].
    destruct (_ <? _); [discriminate|]. apply obind_ret in A2. destruct A2 as (h2 & _ & A2). inv A2. xcodes. }
  destruct (negb _); [inv U; auto|]. eauto.
Qed.

Lemma xdec_code : forall r l n res o r1 l1, xdecompress L r l n = Ret (res, o, r1, l1) -> code_ok res.
Proof using.
  intros r l n res o r1 l1 U. destruct r; cbn [xdecompress] in U; [| |discriminate];
    apply obind_ret in U; destruct U as ([[[ra oa] rb] la] & A & U); inv U.
  - apply decompress_code in A. exact A.
  - unfold lzma_decompress in A. destruct (get_decompressed_data _ _) as [[out r2]|]; [inv A; xcodes|]. eapply lzma_loop_code; eauto.
Qed.

Lemma xunpack_code : forall K z r l b n res v z1 r1 l1, xunpack_size_loop L K z r l b n = Ret (res, v, z1, r1, l1) -> code_ok res.
Proof using.
  induction K; intros z r l b n res v z1 r1 l1 U; cbn [xunpack_size_loop] in U; [discriminate|].
  apply obind_ret in U. destruct U as ([[[ra oa] rb] la] & A & U). apply xdec_code in A.
  destruct (negb _); [inv U; auto|]. cbv zeta in U. destruct (match oa with [] => b | b0 :: _ => Some b0 end); [|discriminate].
  apply obind_ret in U. destruct U as (oz & _ & U). destruct oz; [|inv U; xcodes].
  destruct (_ =? 0); [inv U; xcodes|]. eauto.
Qed.

(** What one step does. *)
Definition xstep (x : xap D) (res : Z) (x1 : xap D) : Prop :=
  code_ok res /\ (sized (x_ap x) -> res < 0 \/ sized (x_ap x1)).

Lemma xinit_step : forall x res x1, a_state (x_ap x) = SInit -> x_init L x = Ret (res, x1) -> xstep x res x1.
Proof using Hword.
  intros x res x1 Es U. unfold x_init in U. destruct (a_to_init (x_ap x)) eqn:Ei.
  - unfold x_init_to_size in U. cbv zeta in U. apply obind_ret in U. destruct U as ([[[r v] z1] l1] & A & U).
    pose proof (uhs_code _ _ _ _ _ _ A) as Hc.
    assert (Hz : sized (x_ap x) -> zok (a_size (x_ap x))) by (unfold sized; rewrite Es; auto).
    destruct (Z.eqb_spec r 0) as [-> |N]; cbn [negb] in U.
    + destruct (xreader_init L _ _) as [e [r0|]] eqn:Er.
      * destruct (Z.ltb_spec v 0); inv U; [split; [xcodes|intros; left; codes; lia]|]. split; [xcodes|]. intros Hs. right.
        destruct (uhs_app (a_left (x_ap x)) _ [] (Hz Hs)) as [(z2 & P1 & Q & _)|[(v' & z2 & l2 & used & P1 & Q & _)|(z2 & l2 & P1 & _)]]; rewrite P1 in A; inv A.
        unfold sized. cbn [x_ap set_st set_to_size a_state a_to_size].
        assert (wrap v = v) as ->. { apply wrap_small. assert (2 ^ 27 < 2 ^ word_bits) by (apply Z.pow_lt_mono_r; lia). lia. }
        destruct (0 <? v); lia.
      * inv U. assert (code_ok res /\ res < 0) as (? & ?).
        { unfold xreader_init in Er. destruct (_ =? 1); [destruct (lz_start L); inv Er; split; xcodes|]. destruct (reader_init _ _); inv Er. split; xcodes. }
        split; auto.
    + inv U. split; [auto|]. intros Hs.
      destruct (uhs_app (a_left (x_ap x)) _ [] (Hz Hs)) as [(z2 & P1 & Q & _)|[(v' & z2 & l2 & used & P1 & Q & _)|(z2 & l2 & P1 & _)]]; rewrite P1 in A; inv A; [|congruence|left; codes; lia].
      right. unfold sized. cbn. rewrite Es. auto.
  - apply obind_ret in U. destruct U as ([r s] & A & U). inv U. unfold process_init_fixed_header in A.
    destruct (a_left _); [inv A; split; [xcodes|intros; left; codes; lia]|]. cbv zeta in A. destruct (negb _); inv A; (split; [xcodes|]); intros; [left; codes; lia|].
    right. unfold sized. cbn. rewrite Es. intros _ X. discriminate X.
Qed.

Lemma xdfp_step : forall x res x1, a_state (x_ap x) = SDfpatchSize -> x_dfpatch_size L x = Ret (res, x1) -> xstep x res x1.
Proof using.
  intros x res x1 Es U. unfold x_dfpatch_size in U. destruct (x_reader x); [|discriminate]. cbv zeta in U.
  apply obind_ret in U. destruct U as ([[[[r1 v] z1] r2] l1] & A & C). apply xunpack_code in A.
  destruct (negb _); [inv C; split; [auto|intros; right; apply (sized_same (x_ap x)); auto]|].
  destruct (0 <? v); inv C; (split; [xcodes|]); intros Hs; [left; codes; lia|]. right.
  apply (sized_same (set_st (x_ap x) SDiffSize)); auto. apply sized_st; try rewrite Es; try discriminate; auto.
Qed.

Lemma xsize_step : forall x next res x1, a_state (x_ap x) <> SInit -> a_state (x_ap x) <> SFailed -> next <> SInit ->
  x_size L x next = Ret (res, x1) -> xstep x res x1.
Proof using.
  intros x next res x1 N1 N2 N3 U. unfold x_size in U. destruct (x_reader x); [|discriminate]. cbv zeta in U.
  apply obind_ret in U. destruct U as ([[[[r1 v] z1] r2] l1] & A & C). unfold xcommon_process_size in A.
  apply obind_ret in A. destruct A as ([[[[r3 v3] z3] r4] l3] & A & F). apply xunpack_code in A.
  assert (code_ok r1) by (destruct (negb _); [inv F; auto|]; destruct (_ <? _); inv F; xcodes).
  clear F. destruct (negb _); inv C; (split; [first [assumption|xcodes]|]); intros Hs; right; [apply (sized_same (x_ap x)); auto|].
  apply (sized_same (set_st (x_ap x) next)); auto. apply sized_st; auto.
Qed.

Lemma xdata_step : forall x w next res x1 w1, a_state (x_ap x) <> SInit -> a_state (x_ap x) <> SFailed -> next <> SInit ->
  x_data L E x w next = Ret (res, x1, w1) -> xstep x res x1.
Proof using.
  intros x w next res x1 w1 N1 N2 N3 U. unfold x_data in U. cbv zeta in U. destruct (_ =? 0); [inv U; split; [xcodes|intros; right; apply sized_st; auto]|].
  destruct (x_reader x); [|discriminate]. apply obind_ret in U. destruct U as ([[[r1 o] r2] l1] & A & C). apply xdec_code in A.
  destruct (negb _); [inv C; split; [auto|intros; right; apply (sized_same (x_ap x)); auto]|].
  apply obind_ret in C. destruct C as ([[[io data] s2] w2] & C & F).
  assert (K : a_state s2 = a_state (x_ap x) /\ a_to_init s2 = a_to_init (x_ap x) /\ a_size s2 = a_size (x_ap x) /\ a_to_size s2 = a_to_size (x_ap x)).
  { assert (D0 : next = SExtraSize \/ Ret (false, o, set_size_left (x_ap x) (a_rsize (x_ap x)) l1, w) = Ret (io, data, s2, w2)) by (destruct next; auto).
    destruct D0 as [-> |D0]; [|inv D0; auto]. destruct (from_read E w (zlen o)) as [[rr from] w3]. destruct (negb _); [inv C; auto|].
    apply obind_ret in C. destruct C as (d & _ & C). inv C. auto. }
  destruct K as (K1 & K2 & K3 & K4). destruct io; [inv F; split; [xcodes|intros; left; codes; lia]|].
  destruct (to_write E w2 data). destruct (negb _); inv F; (split; [xcodes|]); intros; [left; codes; lia|right; apply (sized_same (x_ap x)); auto].
Qed.

Lemma xadjust_step : forall x w res x1 w1, a_state (x_ap x) = SAdjustment -> x_adjustment L E x w = Ret (res, x1, w1) -> xstep x res x1.
Proof using.
  intros x w res x1 w1 Es U. unfold x_adjustment in U. destruct (x_reader x); [|discriminate]. cbv zeta in U.
  apply obind_ret in U. destruct U as ([[[[r1 v] z1] r2] l1] & A & C). apply xunpack_code in A.
  destruct (negb _); [inv C; split; [auto|intros; right; apply (sized_same (x_ap x)); auto]|].
  destruct (from_seek E w v). destruct (negb _); [inv C; split; [xcodes|intros; left; codes; lia]|].
  apply obind_ret in C. destruct C as (fo & _ & C). inv C. split; [xcodes|]. intros Hs. right.
  eapply (sized_same (set_st (x_ap x) _)); [reflexivity|reflexivity|reflexivity|reflexivity|].
  apply sized_st; try rewrite Es; try discriminate; auto. destruct (_ =? _); discriminate.
Qed.

Lemma xonce_doc : forall x w res x1 w1, sized (x_ap x) -> x_once L E x w = Ret (res, x1, w1) ->
  sized (x_ap x1) /\ -27 <= res <= 1 /\ (res = - E_ALREADY_DONE -> a_state (x_ap x1) = SDone).
Proof using Hword.
  intros x w res x1 w1 Hs U. unfold x_once in U. apply obind_ret in U. destruct U as ([[r0 x0] w0] & A & U).
  assert (K : a_state (x_ap x) <> SDone -> xstep x r0 x0 -> sized (x_ap x1) /\ -27 <= res <= 1 /\ (res = - E_ALREADY_DONE -> a_state (x_ap x1) = SDone)).
  { intros Hd (K1 & K2). specialize (K2 Hs).
    assert (V : Ret (r0, if r0 <? 0 then mkxap (set_st (x_ap x0) SFailed) (x_reader x0) else x0, w0) = Ret (res, x1, w1)) by (destruct (a_state (x_ap x)); try exact U; congruence).
    inv V. split; [destruct (Z.ltb_spec res 0); [exact I|destruct K2; [lia|auto]]|]. split; [unfold code_ok in K1; lia|]. intros ->. xcodes. }
  destruct (a_state (x_ap x)) eqn:Es.
  - apply K; [discriminate|]. apply obind_ret in A. destruct A as ([r2 s2] & A & A2). inv A2. eapply xinit_step; eauto.
  - apply K; [discriminate|]. apply obind_ret in A. destruct A as ([r2 s2] & A & A2). inv A2. eapply xdfp_step; eauto.
  - apply K; [discriminate|]. apply obind_ret in A. destruct A as ([r2 s2] & A & A2). inv A2. eapply xsize_step; [| | |exact A]; try rewrite Es; discriminate.
  - apply K; [discriminate|]. eapply xdata_step; [| | |exact A]; try rewrite Es; discriminate.
  - apply K; [discriminate|]. apply obind_ret in A. destruct A as ([r2 s2] & A & A2). inv A2. eapply xsize_step; [| | |exact A]; try rewrite Es; discriminate.
  - apply K; [discriminate|]. eapply xdata_step; [| | |exact A]; try rewrite Es; discriminate.
  - apply K; [discriminate|]. eapply xadjust_step; eauto.
  - inv A. inv U. split; [auto|]. split; [codes; lia|auto].
  - apply K; [discriminate|]. inv A. split; [xcodes|intros; left; codes; lia].
Qed.

Lemma xloop_doc : forall fuel res x w v x1 w1, sized (x_ap x) -> -27 <= res <= 1 ->
  x_process_loop L E fuel res x w = Ret (v, x1, w1) -> -27 <= v <= 1 /\ sized (x_ap x1).
Proof using Hword.
  induction fuel; intros res x w v x1 w1 C R U; cbn [x_process_loop] in U.
  - destruct (a_left _); [inv U; auto|]. destruct (res <? 0); [inv U; auto|discriminate].
  - destruct (a_left _); [inv U; auto|]. destruct (res <? 0); [inv U; auto|].
    apply obind_ret in U. destruct U as ([[r2 x2] w2] & A & U). apply xonce_doc in A; [|auto]. destruct A as (A1 & A2 & _). exact (IHfuel _ _ _ _ _ _ A1 A2 U).
Qed.

Lemma xprocess_doc : forall fuel x w p v x1 w1, sized (x_ap x) -> x_process L E fuel x w p = Ret (v, x1, w1) -> -27 <= v <= 0 /\ sized (x_ap x1).
Proof using Hword.
  intros fuel x w p v x1 w1 Hs U. unfold x_process in U. cbv zeta in U. apply obind_ret in U. destruct U as ([[r2 x2] w2] & A & U).
  inv U. apply xloop_doc in A; [|apply (sized_same (x_ap x)); auto|lia]. destruct A as (A1 & A2). split; [|auto].
  destruct (Z.eqb_spec r2 1); cbn [orb]; [lia|]. destruct (_ =? _); lia.
Qed.

Lemma xfinloop_doc : forall fuel x w v x1 w1, sized (x_ap x) -> x_finalize_loop L E fuel x w = Ret (v, x1, w1) ->
  sized (x_ap x1) /\ -27 <= v <= 1 /\ v <> 0 /\ (v = - E_ALREADY_DONE -> a_state (x_ap x1) = SDone).
Proof using Hword.
  induction fuel; intros x w v x1 w1 C U; cbn [x_finalize_loop] in U; [discriminate|].
  apply obind_ret in U. destruct U as ([[r2 x2] w2] & A & U). apply xonce_doc in A; [|auto]. destruct A as (A1 & A2 & A3).
  destruct (Z.eqb_spec r2 0); [exact (IHfuel _ _ _ _ _ A1 U)|]. inv U. auto.
Qed.

Lemma xcommon_doc : forall res (r : option (xreader (D := D))) ts v r1, -27 <= res <= 1 -> res <> 0 -> (res = - E_ALREADY_DONE -> 0 <= ts < 2 ^ 27) ->
  x_common_finalize res r ts = Ret (v, r1) -> documented v.
Proof using.
  intros res r ts v r1 R N T U. unfold x_common_finalize in U. cbv zeta in U. apply obind_ret in U. destruct U as ([res3 r3] & A & U). inv U.
  assert (Dd : forall rd d, destroy rd = Ret d -> d = 0 \/ d = -9).
  { intros [ps po|c|h] d G; cbn [destroy] in G; [destruct (po =? ps); inv G; codes; lia|inv G; auto|].
    destruct (hr_ptr h); [|inv G; auto]. destruct (hr_dec h); [|discriminate]. destruct (hs_finish _); inv G; codes; lia. }
  assert (Dx : forall (rd : xreader (D := D)) d r2, xdestroy rd = Ret (d, r2) -> d = 0 \/ d = -9).
  { intros [rd|rd|h] d r2 G; cbn [xdestroy] in G; [| |discriminate]; apply obind_ret in G.
    - destruct G as (d0 & G & G2). inv G2. eauto.
    - destruct G as ([d0 h] & G & G2). inv G2. unfold lzma_destroy in G. apply obind_ret in G. destruct G as (h1 & _ & G). apply obind_ret in G. destruct G as (h2 & _ & G).
      destruct (_ && _); inv G; codes; lia. }
  assert (K : -27 <= res3 <= -1 \/ res3 = 0 /\ res = - E_ALREADY_DONE).
  { revert A. destruct (Z.eqb_spec res 1) as [-> |N1]; [change (- E_NOT_ENOUGH_PATCH_DATA =? - E_ALREADY_DONE) with false; cbv iota; change (- E_NOT_ENOUGH_PATCH_DATA =? 0) with false; cbv iota|].
    - intros A. left. destruct r; [apply obind_ret in A; destruct A as ([d rr] & _ & A)|]; inv A; codes; lia.
    - destruct (Z.eqb_spec res (- E_ALREADY_DONE)) as [-> |N2].
      + intros A. destruct r; [apply obind_ret in A; destruct A as ([d rr] & D1 & A); apply Dx in D1; cbn in A|]; inv A; [|auto]. destruct D1 as [-> | ->]; [auto|left; lia].
      + destruct (Z.eqb_spec res 0); [congruence|]. intros A. left. destruct r; [apply obind_ret in A; destruct A as ([d rr] & _ & A)|]; inv A; lia. }
  unfold documented. destruct K as [K|(-> & ->)].
  - destruct (Z.eqb_spec res3 0); lia.
  - left. cbn [Z.eqb]. specialize (T eq_refl). unfold to_int. change (2 ^ 27) with 134217728 in T. rewrite Z.mod_small; lia.
Qed.

Lemma xfinalize_doc : forall fuel x w v x1 w1, sized (x_ap x) -> x_finalize L E fuel x w = Ret (v, x1, w1) -> documented v.
Proof using Hword.
  intros fuel x w v x1 w1 Hs U. unfold x_finalize in U. cbv zeta in U. apply obind_ret in U. destruct U as ([[r2 x2] w2] & A & U).
  apply obind_ret in U. destruct U as ([r rd] & F & U). inv U. apply xfinloop_doc in A; [|apply (sized_same (x_ap x)); auto].
  destruct A as (A1 & A2 & A3 & A4). eapply xcommon_doc; [| | |exact F]; auto. intros X. apply A4 in X. unfold sized in A1. rewrite X in A1. auto.
Qed.

Lemma xfeed_doc : forall chunks fuel x w v x1 w1, sized (x_ap x) -> x_feed L E fuel x w chunks = Ret (v, x1, w1) -> documented v.
Proof using Hword.
  induction chunks; intros fuel x w v x1 w1 Hs U; cbn [x_feed] in U; [eapply xfinalize_doc; eauto|].
  apply obind_ret in U. destruct U as ([[r2 x2] w2] & A & U). destruct (xprocess_doc _ _ _ _ _ _ _ Hs A) as (Q1 & Q2).
  destruct (Z.eqb_spec r2 0); [exact (IHchunks _ _ _ _ _ _ Q2 U)|]. apply obind_ret in U. destruct U as ([[r3 x3] w3] & F & U). inv U. right. lia.
Qed.

Lemma xcallbacks_doc : forall patch_read ps fuel po x w v x1 w1, sized (x_ap x) ->
  x_callbacks_loop L E fuel patch_read ps po x w = Ret (v, x1, w1) -> documented v.
Proof using Hword.
  induction fuel; intros po x w v x1 w1 Hs U; cbn [x_callbacks_loop] in U; (destruct (negb _); [eapply xfinalize_doc; eauto|]); [discriminate|].
  cbv zeta in U. destruct (patch_read w _) as [[rr buf] w2]. destruct (negb _).
  - apply obind_ret in U. destruct U as ([[r3 x3] w3] & F & U). inv U. right. codes. lia.
  - destruct (negb _); [discriminate|]. apply obind_ret in U. destruct U as ([[r2 x2] w3] & A & U). destruct (xprocess_doc _ _ _ _ _ _ _ Hs A) as (Q1 & Q2).
    destruct (Z.eqb_spec r2 0); [exact (IHfuel _ _ _ _ _ _ Q2 U)|]. apply obind_ret in U. destruct U as ([[r3 x3] w4] & F & U). inv U. right. lia.
Qed.

Theorem lzma_results : forall fuel junk ps w chunks v x1 w1,
  x_feed L E fuel (xap_init junk ps) w chunks = Ret (v, x1, w1) -> documented v.
Proof using Hword. intros fuel junk ps w chunks v x1 w1 U. refine (xfeed_doc _ _ _ _ _ _ _ _ U). apply sized_init. Qed.

Theorem lzma_callbacks_results : forall fuel junk patch_read ps w v x1 w1,
  x_apply_patch_callbacks L E fuel junk patch_read ps w = Ret (v, x1, w1) -> documented v.
Proof using Hword. intros fuel junk pr ps w v x1 w1 U. refine (xcallbacks_doc _ _ _ _ _ _ _ _ _ _ U). apply sized_init. Qed.
End Doc.
