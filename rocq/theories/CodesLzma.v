(** Results of the sequential applier of a library built with LZMA: no failing
    callback is masked, with any decoder. *)

From Coq Require Import ZArith List Bool Lia ZifyBool ZifyNat ZifyN.
From Verif Require Import Prelude Lib Heatshrink CReader ReaderProofs SizeProofs CSeq CLzma CSeqLzma Spec SeqSim SeqRun SeqTerm SeqSpec SeqInv CodesSpec CodesSeq SeqExamples LzmaExamples LzmaReads Refuted.
Import ListNotations.
Open Scope Z_scope.

Section Note.
Context `{WordBits}.
Context {D : Type} (L : lzma_lib D).
Context {W : Type} (E : seq_env W).

Lemma lzma_loop_le : forall K r l n res o r1 l1, lzma_loop L K r l n = Ret (res, o, r1, l1) -> res <= 1.
Proof.
  induction K; intros r l n res o r1 l1 U; cbn [lzma_loop] in U; [discriminate|].
  apply obind_ret in U. destruct U as ([ra rd] & A & U).
  assert (ra <= 0).
  { destruct (held (l_in r)); [inv A; lia|]. apply obind_ret in A. destruct A as ([rb re] & A & C).
    assert (rb <= 0).
    { unfold prepare_output_buffer in A. destruct (h_alloc _ _) as [[b|] h]; [|inv A; unfold E_OUT_OF_MEMORY; lia].
      destruct (_ <? _); [discriminate|]. apply obind_ret in A. destruct A as (h2 & _ & A). inv A. lia. }
    destruct (negb _); [inv C; auto|]. unfold run_decoder in C. destruct (lz_code _ _ _ _) as [[[ret k] out] d].
    destruct (_ || _); [discriminate|]. destruct ret; inv C; unfold E_LZMA_DECODE; lia. }
  destruct (negb _); [inv U; lia|]. destruct (get_decompressed_data _ _) as [[out r2]|]; [inv U; lia|].
  apply obind_ret in U. destruct U as ([[rb re] l2] & A2 & U).
  assert (rb <= 1).
  { unfold prepare_input_buffer in A2. destruct l; [inv A2; lia|]. destruct (h_alloc _ _) as [[b|] h]; [|inv A2; unfold E_OUT_OF_MEMORY; lia].
    destruct (_ <? _); [discriminate|]. apply obind_ret in A2. destruct A2 as (h2 & _ & A2). inv A2. lia. }
  destruct (negb _); [inv U; lia|]. eauto.
Qed.

Lemma xdec_le : forall r l n res o r1 l1, xdecompress L r l n = Ret (res, o, r1, l1) -> res <= 1.
Proof.
  intros r l n res o r1 l1 U. destruct r; cbn [xdecompress] in U; [| |discriminate];
    apply obind_ret in U; destruct U as ([[[ra oa] rb] la] & A & U); inv U.
  - apply decompress_code in A. unfold code_ok in A. lia.
  - unfold lzma_decompress in A. destruct (get_decompressed_data _ _) as [[out r2]|]; [inv A; lia|]. eapply lzma_loop_le; eauto.
Qed.

Lemma xunpack_le : forall K z r l b n res v z1 r1 l1, xunpack_size_loop L K z r l b n = Ret (res, v, z1, r1, l1) -> res <= 1.
Proof.
  induction K; intros z r l b n res v z1 r1 l1 U; cbn [xunpack_size_loop] in U; [discriminate|].
  apply obind_ret in U. destruct U as ([[[ra oa] rb] la] & A & U). apply xdec_le in A.
  destruct (negb _); [inv U; auto|]. cbv zeta in U. destruct (match oa with [] => b | b0 :: _ => Some b0 end); [|discriminate].
  apply obind_ret in U. destruct U as (oz & _ & U). destruct oz; [|inv U; codes; lia].
  destruct (_ =? 0); [inv U; lia|]. eauto.
Qed.

Lemma xdata_note : forall x w log next res x1 w1 log1, all_zero log ->
  x_data L (noting E) x (w, log) next = Ret (res, x1, (w1, log1)) -> res <= 1 /\ (all_zero log1 \/ res = - E_IO_FAILED).
Proof.
  intros x w log next res x1 w1 log1 Z0 U. unfold x_data in U. cbv zeta in U. destruct (_ =? 0); [inv U; split; [lia|auto]|].
  destruct (x_reader x); [|discriminate]. apply obind_ret in U. destruct U as ([[[r1 o] r2] l1] & A & C). apply xdec_le in A.
  destruct (negb _); [inv C; auto|].
  apply obind_ret in C. destruct C as ([[[io data] s2] [w2 log2]] & C & F).
  assert (K : io = false -> all_zero log2).
  { intros ->. assert (D0 : next = SExtraSize \/ Ret (false, o, set_size_left (x_ap x) (a_rsize (x_ap x)) l1, (w, log)) = Ret (false, data, s2, (w2, log2))) by (destruct next; auto).
    destruct D0 as [-> |D0]; [|inv D0; auto]. cbn [noting from_read fst snd] in C.
    destruct (from_read E w (zlen o)) as [[rr from] w3]. destruct (Z.eqb_spec rr 0); cbn [negb] in C; [|discriminate].
    apply obind_ret in C. destruct C as (d & _ & C). inv C. apply zero_app; auto. }
  destruct io; [inv F; codes; split; [lia|auto]|]. specialize (K eq_refl). cbn [noting to_write fst snd] in F.
  destruct (to_write E w2 data) as [rw w3]. destruct (Z.eqb_spec rw 0); cbn [negb] in F; inv F; [|codes; split; [lia|auto]]. split; [lia|]. left. apply zero_app; auto.
Qed.

Lemma xadjust_note : forall x w log res x1 w1 log1, all_zero log ->
  x_adjustment L (noting E) x (w, log) = Ret (res, x1, (w1, log1)) -> res <= 1 /\ (all_zero log1 \/ res = - E_IO_FAILED).
Proof.
  intros x w log res x1 w1 log1 Z0 U. unfold x_adjustment in U. destruct (x_reader x); [|discriminate].
  apply obind_ret in U. destruct U as ([[[[r1 v] z1] r2] l1] & A & C). cbv zeta in C. apply xunpack_le in A.
  destruct (negb _); [inv C; auto|]. cbn [noting from_seek fst snd] in C. destruct (from_seek E w v) as [rs w3].
  destruct (Z.eqb_spec rs 0); cbn [negb] in C; [|inv C; codes; split; [lia|auto]]. apply obind_ret in C. destruct C as (fo & _ & C). inv C. split; [lia|]. left. apply zero_app; auto.
Qed.

Lemma xinit_le : forall x res x1, x_init L x = Ret (res, x1) -> res <= 1.
Proof.
  intros x res x1 U. unfold x_init in U. destruct (a_to_init _).
  - unfold x_init_to_size in U. cbv zeta in U. apply obind_ret in U. destruct U as ([[[r v] z1] l1] & A & U).
    apply uhs_code in A. destruct (negb _); [inv U; unfold code_ok in A; lia|].
    destruct (xreader_init L _ _) as [e [r0|]] eqn:Ei.
    + destruct (_ <? 0); inv U; unfold E_CORRUPT_PATCH; lia.
    + inv U. unfold xreader_init in Ei. destruct (_ =? 1); [destruct (lz_start L); inv Ei; unfold E_LZMA_INIT; lia|].
      destruct (reader_init _ _); inv Ei. codes. lia.
  - apply obind_ret in U. destruct U as ([r s] & A & U). inv U. unfold process_init_fixed_header in A.
    destruct (a_left _); [inv A; unfold E_SHORT_HEADER; lia|]. cbv zeta in A. destruct (negb _); inv A; codes; lia.
Qed.

Lemma xsize_le : forall x next res x1, x_size L x next = Ret (res, x1) -> res <= 1.
Proof.
  intros x next res x1 U. unfold x_size in U. destruct (x_reader x); [|discriminate]. cbv zeta in U.
  apply obind_ret in U. destruct U as ([[[[r1 v] z1] r2] l1] & A & C). unfold xcommon_process_size in A.
  apply obind_ret in A. destruct A as ([[[[r3 v3] z3] r4] l3] & A & F). apply xunpack_le in A.
  assert (r1 <= 1) by (destruct (negb _); [inv F; auto|]; destruct (_ <? _); inv F; codes; lia).
  clear F. destruct (negb _); inv C; lia.
Qed.

Lemma xdfp_le : forall x res x1, x_dfpatch_size L x = Ret (res, x1) -> res <= 1.
Proof.
  intros x res x1 U. unfold x_dfpatch_size in U. destruct (x_reader x); [|discriminate]. cbv zeta in U.
  apply obind_ret in U. destruct U as ([[[[r1 v] z1] r2] l1] & A & C). apply xunpack_le in A.
  destruct (negb _); [inv C; auto|]. destruct (_ <? _); inv C; codes; lia.
Qed.

Lemma xonce_note : forall x w log res x1 w1 log1, clean (x_ap x) log ->
  x_once L (noting E) x (w, log) = Ret (res, x1, (w1, log1)) -> res <= 1 /\ clean (x_ap x1) log1 /\ told res log1.
Proof.
  intros x w log res x1 w1 log1 C U. unfold x_once in U. apply obind_ret in U. destruct U as ([[r0 x0] [w0 log0]] & A & U).
  destruct C as [C|C].
  - assert (K : r0 <= 1 /\ (all_zero log0 \/ r0 = - E_IO_FAILED)).
    { destruct (a_state (x_ap x)).
      - apply obind_ret in A. destruct A as ([r2 s2] & A & A2). inv A2. apply xinit_le in A. auto.
      - apply obind_ret in A. destruct A as ([r2 s2] & A & A2). inv A2. apply xdfp_le in A. auto.
      - apply obind_ret in A. destruct A as ([r2 s2] & A & A2). inv A2. apply xsize_le in A. auto.
      - eapply xdata_note; eauto.
      - apply obind_ret in A. destruct A as ([r2 s2] & A & A2). inv A2. apply xsize_le in A. auto.
      - eapply xdata_note; eauto.
      - eapply xadjust_note; eauto.
      - inv A. codes. split; [lia|auto].
      - inv A. codes. split; [lia|auto]. }
    destruct K as (Kle & K).
    assert (X : clean (x_ap x1) log1 /\ log1 = log0 /\ res = r0).
    { destruct (a_state (x_ap x)) eqn:Es; inv U; (split; [|auto]); destruct K as [K| ->]; try (left; exact K); try (right; reflexivity).
      inv A. }
    destruct X as (X & -> & ->). split; [exact Kle|]. split; [exact X|]. unfold told. tauto.
  - rewrite C in A, U. inv A. inv U. split; [codes; lia|]. split; [right; reflexivity|]. unfold told. auto.
Qed.

Lemma xloop_note : forall fuel res x w log v x1 w1 log1, clean (x_ap x) log -> told res log -> res <= 1 ->
  x_process_loop L (noting E) fuel res x (w, log) = Ret (v, x1, (w1, log1)) -> v <= 1 /\ clean (x_ap x1) log1 /\ told v log1.
Proof.
  induction fuel; intros res x w log v x1 w1 log1 C T R U; cbn [x_process_loop] in U.
  - destruct (a_left _); [inv U; auto|]. destruct (res <? 0); [inv U; auto|discriminate].
  - destruct (a_left _); [inv U; auto|]. destruct (res <? 0); [inv U; auto|].
    apply obind_ret in U. destruct U as ([[r2 x2] [w2 log2]] & A & U).
    destruct (xonce_note _ _ _ _ _ _ _ C A) as (X1 & X2 & X3). exact (IHfuel _ _ _ _ _ _ _ _ X2 X3 X1 U).
Qed.

Lemma xprocess_note : forall fuel x w log p v x1 w1 log1, all_zero log ->
  x_process L (noting E) fuel x (w, log) p = Ret (v, x1, (w1, log1)) -> v <= 0 /\ (0 <= v -> all_zero log1).
Proof.
  intros fuel x w log p v x1 w1 log1 C U. unfold x_process in U. cbv zeta in U. apply obind_ret in U. destruct U as ([[r2 x2] [w2 log2]] & A & U).
  inv U. apply xloop_note in A; [|left; exact C|left; exact C|lia]. destruct A as (Q & _ & A). split.
  - destruct (Z.eqb_spec r2 1); cbn [orb]; [lia|]. destruct (_ =? _); lia.
  - intros V. destruct A as [A|A]; [exact A|]. codes. destruct A as [-> | ->]; cbn in V; lia.
Qed.

Lemma xfinloop_note : forall fuel x w log v x1 w1 log1, clean (x_ap x) log ->
  x_finalize_loop L (noting E) fuel x (w, log) = Ret (v, x1, (w1, log1)) -> told v log1.
Proof.
  induction fuel; intros x w log v x1 w1 log1 C U; cbn [x_finalize_loop] in U; [discriminate|].
  apply obind_ret in U. destruct U as ([[r2 x2] [w2 log2]] & A & U).
  destruct (xonce_note _ _ _ _ _ _ _ C A) as (X1 & X2 & X3). destruct (r2 =? 0); [exact (IHfuel _ _ _ _ _ _ _ X2 U)|]. inv U. auto.
Qed.

Lemma xcommon_told : forall res (r : option (xreader (D := D))) ts v r1, x_common_finalize res r ts = Ret (v, r1) ->
  res = - E_IO_FAILED \/ res = - E_ALREADY_FAILED -> v < 0.
Proof.
  intros res r ts v r1 U T. unfold x_common_finalize in U. cbv zeta in U. codes.
  apply obind_ret in U. destruct U as ([res3 r3] & A & U). inv U.
  assert (res3 = res). { destruct T as [-> | ->]; cbn in A; destruct r; try (inv A; reflexivity); apply obind_ret in A; destruct A as ([d rr] & _ & A); inv A; reflexivity. }
  subst res3. destruct T as [-> | ->]; cbn; lia.
Qed.

Lemma xfinalize_note : forall fuel x w log v x1 w1 log1, all_zero log ->
  x_finalize L (noting E) fuel x (w, log) = Ret (v, x1, (w1, log1)) -> 0 <= v -> all_zero log1.
Proof.
  intros fuel x w log v x1 w1 log1 C U V. unfold x_finalize in U. cbv zeta in U. apply obind_ret in U. destruct U as ([[r2 x2] [w2 log2]] & A & U).
  apply obind_ret in U. destruct U as ([r rd] & F & U). inv U. apply xfinloop_note in A; [|left; exact C].
  destruct A as [A|A]; [exact A|]. apply (xcommon_told _ _ _ _ _ F) in A. lia.
Qed.

Lemma xfeed_note : forall chunks fuel x w log v x1 w1 log1, all_zero log ->
  x_feed L (noting E) fuel x (w, log) chunks = Ret (v, x1, (w1, log1)) -> 0 <= v -> all_zero log1.
Proof.
  induction chunks; intros fuel x w log v x1 w1 log1 C U V; cbn [x_feed] in U.
  - exact (xfinalize_note _ _ _ _ _ _ _ _ C U V).
  - apply obind_ret in U. destruct U as ([[r2 x2] [w2 log2]] & A & U).
    destruct (xprocess_note _ _ _ _ _ _ _ _ _ C A) as (Q & P). destruct (Z.eqb_spec r2 0) as [->|Hr].
    + exact (IHchunks _ _ _ _ _ _ _ _ (P (Z.le_refl 0)) U V).
    + apply obind_ret in U. destruct U as ([[r3 x3] [w3 log3]] & F & U). inv U. lia.
Qed.

Lemma xcallbacks_note : forall patch_read ps fuel po x w log v x1 w1 log1, all_zero log ->
  x_callbacks_loop L (noting E) fuel (noted patch_read) ps po x (w, log) = Ret (v, x1, (w1, log1)) -> 0 <= v -> all_zero log1.
Proof.
  induction fuel; intros po x w log v x1 w1 log1 C U V; cbn [x_callbacks_loop] in U; (destruct (negb _); [exact (xfinalize_note _ _ _ _ _ _ _ _ C U V)|]); [discriminate|].
  cbv zeta in U. unfold noted at 1 in U. cbn [fst snd] in U. destruct (patch_read w _) as [[rr buf] w2]. destruct (Z.eqb_spec rr 0) as [-> |Hr]; cbn [negb] in U.
  - destruct (negb _); [discriminate|]. apply obind_ret in U. destruct U as ([[r2 x2] [w3 log3]] & A & U).
    destruct (xprocess_note _ _ _ _ _ _ _ _ _ (zero_app _ C) A) as (Q & P). destruct (Z.eqb_spec r2 0) as [->|Hr].
    + exact (IHfuel _ _ _ _ _ _ _ _ (P (Z.le_refl 0)) U V).
    + apply obind_ret in U. destruct U as ([[r3 x3] [w4 log4]] & F & U). inv U. lia.
  - apply obind_ret in U. destruct U as ([[r3 x3] [w3 log3]] & F & U). inv U. codes. lia.
Qed.

Theorem lzma_masked : forall fuel junk ps w chunks v x1 w1 log,
  x_feed L (noting E) fuel (xap_init junk ps) (w, []) chunks = Ret (v, x1, (w1, log)) -> 0 <= v -> all_zero log.
Proof. intros fuel junk ps w chunks v x1 w1 log U V. exact (xfeed_note _ _ _ _ _ _ _ _ _ (Forall_nil _) U V). Qed.

Theorem lzma_callbacks_masked : forall fuel junk patch_read ps w v x1 w1 log,
  x_apply_patch_callbacks L (noting E) fuel junk (noted patch_read) ps (w, []) = Ret (v, x1, (w1, log)) -> 0 <= v -> all_zero log.
Proof. intros fuel junk pr ps w v x1 w1 log U V. exact (xcallbacks_note _ _ _ _ _ _ _ _ _ _ _ (Forall_nil _) U V). Qed.

End Note.

(** A run that succeeds, and one whose second read of the patch fails. *)
Lemma lzma_fine_run : exists x w log,
  @x_feed w64 toy toy_lib _ (noting file_env) 200 (xap_init ex_junk (zlen ex_lzma)) (mkfiles ex_from 0 [], []) [ex_lzma] = Ret (7, x, (w, log)) /\
  f_to w = ex_to /\ 0 < zlen log.
Proof. do 3 eexists. split; [vm_compute; reflexivity|]. split; reflexivity. Qed.

Lemma lzma_read_fails : exists x w log,
  @x_apply_patch_callbacks w64 toy toy_lib _ (noting file_env) 200 ex_junk (noted ex_lzma_read) 600 (mkfiles ex_from 0 [], []) = Ret (-10, x, (w, log)) /\
  f_to w = ex_to /\ ~ all_zero log.
Proof.
  do 3 eexists. split; [vm_compute; reflexivity|]. split; [reflexivity|].
  intros A. unfold all_zero in A. rewrite Forall_forall in A. specialize (A 5 ltac:(cbn; tauto)). discriminate A.
Qed.
