(** detools_apply_patch_in_place_callbacks() in a library with LZMA: the same as
    feeding the patch in pieces of 512 bytes; more fuel does not change results. *)

From Coq Require Import ZArith List Bool Lia ZifyBool ZifyNat ZifyN.
From Verif Require Import Prelude Lib Heatshrink CReader CSeq CInPlace Spec CallbackSpec CallbackProofs IpCallbackSpec IpCallback CLzma CSeqLzma LzmaSpec CIpLzma.
Import ListNotations.
Open Scope Z_scope.

Section Hom.
Context {WBits : WordBits}.
Context {D : Type} (L : lzma_lib D).
Context {W X : Type} (E : ip_env W) (x : X).
Local Notation iout3 := (iout3 x).

Lemma yinit_hom : forall s w, y_init L (ip_env_with E X) s (w, x) = iout3 (y_init L E s w).
Proof.
  intros. unfold y_init. rewrite iinit_hom. destruct (i_init (y_ip s)).
  1-5: destruct (ip_process_init E (y_ip s) w) as [[[? ?] ?]| |]; reflexivity.
  unfold y_init_to_size. cbv zeta. destruct (unpack_header_size _ _) as [[[[res v] z1] l1]| |]; cbn [obind]; [|reflexivity|reflexivity].
  destruct (negb _); [reflexivity|]. destruct (xreader_init _ _ _) as [e [r|]]; [|reflexivity]. destruct (v <? 0); [reflexivity|]. destruct (0 <? v); [|reflexivity].
  rewrite shift_hom. destruct (shift_memory _ _ _ _ _ _ _) as [[[r0 st] w1]| |]; cbn [obind IpCallback.iout3]; [|reflexivity|reflexivity]. destruct (negb _); reflexivity.
Qed.

Lemma ydf_hom : forall s w, y_dfpatch_size L (ip_env_with E X) s (w, x) = iout3 (y_dfpatch_size L E s w).
Proof.
  intros. unfold y_dfpatch_size. destruct (y_reader s) as [r|]; [|reflexivity]. cbv zeta.
  destruct (xunpack_size _ _ _ _) as [[[[[res v] z1] r1] l1]| |]; cbn [obind]; [|reflexivity|reflexivity]. destruct (negb _); [reflexivity|]. destruct (0 <? v); [reflexivity|].
  rewrite erase_hom. destruct (ip_mem_erase _ _ _ _ _) as [? ?]. reflexivity.
Qed.

Lemma ydata_hom : forall s w next, y_data L (ip_env_with E X) s (w, x) next = iout3 (y_data L E s w next).
Proof.
  intros. unfold y_data. cbv zeta. destruct (_ =? 0); [reflexivity|]. destruct (y_reader s) as [r|]; [|reflexivity].
  destruct (xdecompress L r _ _) as [[[[res out] r1] l1]| |]; cbn [obind]; [|reflexivity|reflexivity].
  destruct (negb (res =? 0)); [reflexivity|].
  destruct next; cbn [obind];
    try (rewrite write_hom; destruct (ip_mem_write _ _ _ _ _) as [rw w3]; destruct (negb (rw =? 0)); reflexivity).
  rewrite read_hom. destruct (ip_mem_read _ _ _ _ _) as [[rr from] w1]. destruct (negb (rr =? 0)); [reflexivity|].
  destruct (int_add _ _); cbn [obind]; [|reflexivity|reflexivity].
  destruct (add_data out from); cbn [obind]; [|reflexivity|reflexivity].
  rewrite write_hom. destruct (ip_mem_write _ _ _ _ _) as [rw w3]. destruct (negb (rw =? 0)); reflexivity.
Qed.

Lemma yadj_hom : forall s w, y_adjustment L (ip_env_with E X) s (w, x) = iout3 (y_adjustment L E s w).
Proof.
  intros. unfold y_adjustment. destruct (y_reader s) as [r|]; [|reflexivity]. cbv zeta.
  destruct (xunpack_size _ _ _ _) as [[[[[res v] z1] r1] l1]| |]; cbn [obind]; [|reflexivity|reflexivity]. destruct (negb (res =? 0)); [reflexivity|].
  destruct (i_to_pos _ =? _).
  { rewrite completed_all_hom. destruct (all_steps_completed E w) as [? ?]. reflexivity. }
  destruct (g_to_pos _ =? _).
  { rewrite next_hom. destruct (next_step E _ w) as [[[? ?] ?]| |]; reflexivity. }
  destruct (int_add _ _); reflexivity.
Qed.

Lemma yonce_hom : forall s w, y_once L (ip_env_with E X) s (w, x) = iout3 (y_once L E s w).
Proof.
  intros. unfold y_once. destruct (i_state (y_ip s)); try reflexivity.
  - rewrite yinit_hom. destruct (y_init L E s w) as [[[r s1] w1]| |]; reflexivity.
  - rewrite ydf_hom. destruct (y_dfpatch_size L E s w) as [[[r s1] w1]| |]; reflexivity.
  - destruct (y_size L s SDiffData) as [[r s1]| |]; reflexivity.
  - rewrite ydata_hom. destruct (y_data L E s w SExtraSize) as [[[r s1] w1]| |]; reflexivity.
  - destruct (y_size L s SExtraData) as [[r s1]| |]; reflexivity.
  - rewrite ydata_hom. destruct (y_data L E s w SAdjustment) as [[[r s1] w1]| |]; reflexivity.
  - rewrite yadj_hom. destruct (y_adjustment L E s w) as [[[r s1] w1]| |]; reflexivity.
Qed.

Lemma yloop_hom : forall f res s w, y_process_loop L (ip_env_with E X) f res s (w, x) = iout3 (y_process_loop L E f res s w).
Proof.
  induction f; intros; cbn [y_process_loop]; destruct (i_left (y_ip s)); try reflexivity; destruct (res <? 0); try reflexivity.
  rewrite yonce_hom. destruct (y_once L E s w) as [[[r s1] w1]| |]; cbn [obind IpCallback.iout3]; [apply IHf|reflexivity|reflexivity].
Qed.

Lemma yprocess_hom : forall f s w c, y_process L (ip_env_with E X) f s (w, x) c = iout3 (y_process L E f s w c).
Proof. intros. unfold y_process. cbv zeta. rewrite yloop_hom. destruct (y_process_loop _ _ _ _ _ _) as [[[r s1] w1]| |]; reflexivity. Qed.

Lemma yfinloop_hom : forall f s w, y_finalize_loop L (ip_env_with E X) f s (w, x) = iout3 (y_finalize_loop L E f s w).
Proof.
  induction f; intros; cbn [y_finalize_loop]; [reflexivity|]. rewrite yonce_hom.
  destruct (y_once L E s w) as [[[r s1] w1]| |]; cbn [obind IpCallback.iout3]; [|reflexivity|reflexivity]. destruct (r =? 0); [apply IHf|reflexivity].
Qed.

Lemma yfinalize_hom : forall f s w, y_finalize L (ip_env_with E X) f s (w, x) = iout3 (y_finalize L E f s w).
Proof.
  intros. unfold y_finalize. rewrite yfinloop_hom. destruct (y_finalize_loop _ _ _ _ _) as [[[r s1] w1]| |]; cbn [obind IpCallback.iout3]; [|reflexivity|reflexivity].
  destruct (x_common_finalize _ _ _) as [[? ?]| |]; reflexivity.
Qed.
End Hom.

Section Callbacks.
Context {WBits : WordBits}.
Context {D : Type} (L : lzma_lib D).
Context {W : Type} (E : ip_env W).

Lemma yloop_mono : forall f res s w x, y_process_loop L E f res s w = x -> x <> OutOfFuel ->
  forall f', (f <= f')%nat -> y_process_loop L E f' res s w = x.
Proof.
  induction f; intros res s w x Ex Hx f' Hf.
  - cbn in Ex. destruct f'; cbn [y_process_loop]; destruct (i_left (y_ip s)); auto; destruct (res <? 0); auto; congruence.
  - destruct f' as [|f']; [lia|]. cbn [y_process_loop] in *. destruct (i_left (y_ip s)); auto. destruct (res <? 0); auto.
    destruct (y_once L E s w) as [[[r1 s1] w1]| |]; cbn [obind] in *; auto. apply IHf; auto. lia.
Qed.

Lemma yfinloop_mono : forall f s w x, y_finalize_loop L E f s w = x -> x <> OutOfFuel ->
  forall f', (f <= f')%nat -> y_finalize_loop L E f' s w = x.
Proof.
  induction f; intros s w x Ex Hx f' Hf.
  - cbn in Ex. congruence.
  - destruct f' as [|f']; [lia|]. cbn [y_finalize_loop] in *.
    destruct (y_once L E s w) as [[[r1 s1] w1]| |]; cbn [obind] in *; auto.
    destruct (r1 =? 0); auto. apply IHf; auto. lia.
Qed.

Lemma yprocess_mono : forall f s w c x, y_process L E f s w c = x -> x <> OutOfFuel ->
  forall f', (f <= f')%nat -> y_process L E f' s w c = x.
Proof.
  intros f s w c x Ex Hx f' Hf. unfold y_process in *. cbv zeta in *.
  destruct (y_process_loop L E f 0 _ w) eqn:P; [| |cbn in Ex; congruence];
    (rewrite (yloop_mono _ _ _ _ _ P) by (auto; discriminate); exact Ex).
Qed.

Lemma yfinalize_mono : forall f s w x, y_finalize L E f s w = x -> x <> OutOfFuel ->
  forall f', (f <= f')%nat -> y_finalize L E f' s w = x.
Proof.
  intros f s w x Ex Hx f' Hf. unfold y_finalize in *.
  destruct (y_finalize_loop L E f _ w) eqn:P; [| |cbn in Ex; congruence];
    (rewrite (yfinloop_mono _ _ _ _ P) by (auto; discriminate); exact Ex).
Qed.

Lemma yfeed_mono : forall chunks f s w x, y_feed L E f s w chunks = x -> x <> OutOfFuel ->
  forall f', (f <= f')%nat -> y_feed L E f' s w chunks = x.
Proof.
  induction chunks as [|c cs IH]; intros f s w x Ex Hx f' Hf; cbn [y_feed] in *; [eapply yfinalize_mono; eauto|].
  destruct (y_process L E f s w c) as [[[r s1] w1]| |] eqn:P; [| |cbn in Ex; congruence];
    (rewrite (yprocess_mono _ _ _ _ _ P) by (auto; discriminate)); cbn [obind] in *; [|exact Ex].
  destruct (r =? 0); [eapply IH; eauto|].
  destruct (y_finalize L E f s1 w1) as [[[r2 s2] w2]| |] eqn:Q; [| |cbn in Ex; congruence];
    (rewrite (yfinalize_mono _ _ _ _ Q) by (auto; discriminate); exact Ex).
Qed.

Lemma ycallbacks_feed : forall patch k n po s w v s1 w1, 0 <= po <= zlen patch -> zlen patch - po <= 512 * Z.of_nat k ->
  y_feed L E n s w (pieces k (zdrop po patch)) = Ret (v, s1, w1) ->
  exists pos, forall fuel, (n + k <= fuel)%nat ->
    y_callbacks_loop L (ip_env_with E Z) fuel (patch_file patch) (zlen patch) po s (w, po) = Ret (v, s1, (w1, pos)).
Proof.
  intros patch. induction k; intros n po s w v s1 w1 Hpo Hk F.
  - assert (po = zlen patch) by lia. subst po. cbn [pieces y_feed] in F. exists (zlen patch). intros fuel Hf.
    destruct fuel; cbn [y_callbacks_loop]; destruct (Z.ltb_spec (zlen patch) (zlen patch)); try lia; cbn [negb]; rewrite yfinalize_hom;
      rewrite (yfinalize_mono _ _ _ _ F) by (try discriminate; lia); reflexivity.
  - destruct (Z.eq_dec po (zlen patch)) as [->|Hne].
    + rewrite zdrop_all in F by lia. cbn [pieces y_feed] in F. exists (zlen patch). intros fuel Hf.
      destruct fuel; [lia|]; cbn [y_callbacks_loop]; destruct (Z.ltb_spec (zlen patch) (zlen patch)); try lia; cbn [negb]; rewrite yfinalize_hom;
        rewrite (yfinalize_mono _ _ _ _ F) by (try discriminate; lia); reflexivity.
    + set (m := Z.min (zlen patch - po) 512). assert (Hm : ztake 512 (zdrop po patch) = ztake m (zdrop po patch)).
      { assert (zlen (zdrop po patch) = zlen patch - po) by (rewrite zlen_zdrop; lia). unfold m. destruct (Z.min_spec (zlen patch - po) 512) as [(A & ->)|(A & ->)]; [|reflexivity].
        rewrite !ztake_all by lia. reflexivity. }
      assert (Hd : zdrop 512 (zdrop po patch) = zdrop (po + m) patch).
      { rewrite zdrop_zdrop by lia. unfold m. destruct (Z.min_spec (zlen patch - po) 512) as [(A & ->)|(A & ->)].
        - rewrite !zdrop_all by lia. reflexivity.
        - f_equal. lia. }
      assert (Hp : pieces (S k) (zdrop po patch) = ztake m (zdrop po patch) :: pieces k (zdrop (po + m) patch)).
      { rewrite <- Hd, <- Hm. cbn [pieces]. destruct (zdrop po patch) eqn:Z0; [|reflexivity].
        exfalso. assert (zlen (zdrop po patch) = 0) by (rewrite Z0; reflexivity). rewrite zlen_zdrop in * by lia. lia. }
      rewrite Hp in F. cbn [y_feed] in F.
      destruct (y_process L E n s w (ztake m (zdrop po patch))) as [[[res s2] w2]| |] eqn:P; cbn [obind] in F; [|discriminate|discriminate].
      assert (Step : forall fuel, (n + S k <= fuel)%nat -> y_callbacks_loop L (ip_env_with E Z) fuel (patch_file patch) (zlen patch) po s (w, po) =
        if res =? 0 then y_callbacks_loop L (ip_env_with E Z) (pred fuel) (patch_file patch) (zlen patch) (po + m) s2 (w2, po + m)
        else letm (r2, s3, w3) := y_finalize L (ip_env_with E Z) fuel s2 (w2, po + m) in Ret (res, s3, w3)).
      { intros fuel Hf. destruct fuel as [|f]; [lia|]. cbn [y_callbacks_loop pred]. destruct (Z.ltb_spec po (zlen patch)); [|lia]. cbn [negb]. cbv zeta. fold m.
        unfold patch_file at 1. destruct (Z.leb_spec (po + m) (zlen patch)); [|lia]. change (negb (0 =? 0)) with false. cbv iota.
        replace (zlen (ztake m (zdrop po patch))) with m by (rewrite zlen_ztake, zlen_zdrop by lia; lia). rewrite Z.eqb_refl. cbn [negb].
        rewrite yprocess_hom. rewrite (yprocess_mono _ _ _ _ _ P) by (try discriminate; lia). reflexivity. }
      destruct (Z.eqb_spec res 0) as [->|Hr].
      * destruct (IHk n (po + m) s2 w2 v s1 w1) as (pos & G); [lia|lia|exact F|]. exists pos. intros fuel Hf. rewrite Step by exact Hf.
        apply G. lia.
      * destruct (y_finalize L E n s2 w2) as [[[r2 s3] w3]| |] eqn:Fi; cbn [obind] in F; [|discriminate|discriminate]. injection F as <- <- <-.
        exists (po + m). intros fuel Hf. rewrite Step by exact Hf.
        rewrite yfinalize_hom. rewrite (yfinalize_mono _ _ _ _ Fi) by (try discriminate; lia). reflexivity.
Qed.

End Callbacks.
