(** detools_apply_patch_callbacks() in a library with LZMA: the same as feeding the
    patch in pieces of 512 bytes. *)

From Coq Require Import ZArith List Bool Lia ZifyBool ZifyNat ZifyN.
From Verif Require Import Prelude Lib Heatshrink CReader CSeq Spec CallbackSpec CallbackProofs CLzma CSeqLzma LzmaSpec.
Import ListNotations.
Open Scope Z_scope.

Section Hom.
Context {WBits : WordBits}.
Context {D : Type} (L : lzma_lib D).
Context {W X : Type} (E : seq_env W) (x : X).

Definition xout (o : outcome (Z * xap D * W)) : outcome (Z * xap D * (W * X)) :=
  letm (r, s, w) := o in Ret (r, s, (w, x)).

Lemma xdata_hom : forall s w next, x_data L (env_with E X) s (w, x) next = xout (x_data L E s w next).
Proof.
  intros. unfold x_data. cbv zeta. destruct (_ =? 0); [reflexivity|]. destruct (x_reader s) as [r|]; [|reflexivity].
  destruct (xdecompress L r _ _) as [[[[res out] r1] l1]| |]; cbn [obind]; [|reflexivity|reflexivity].
  destruct (negb (res =? 0)); [reflexivity|].
  destruct next; cbn [obind env_with from_read to_write fst snd];
    try (destruct (to_write E w out) as [rw w3]; destruct (negb (rw =? 0)); reflexivity).
  destruct (from_read E w (zlen out)) as [[rr from] w1]. destruct (negb (rr =? 0)); [reflexivity|].
  destruct (add_data out from); cbn [obind]; [|reflexivity|reflexivity]. cbn [env_with to_write fst snd].
  destruct (to_write E w1 _) as [rw w3]. destruct (negb (rw =? 0)); reflexivity.
Qed.

Lemma xadjustment_hom : forall s w, x_adjustment L (env_with E X) s (w, x) = xout (x_adjustment L E s w).
Proof.
  intros. unfold x_adjustment. destruct (x_reader s) as [r|]; [|reflexivity]. cbv zeta.
  destruct (xunpack_size _ _ _ _) as [[[[[res v] z1] r1] l1]| |]; cbn [obind]; [|reflexivity|reflexivity]. destruct (negb (res =? 0)); [reflexivity|].
  cbn [env_with from_seek fst snd]. destruct (from_seek E w v) as [rs w1]. destruct (negb (rs =? 0)); [reflexivity|].
  destruct (int_add _ _); reflexivity.
Qed.

Lemma xonce_hom : forall s w, x_once L (env_with E X) s (w, x) = xout (x_once L E s w).
Proof.
  intros. unfold x_once. destruct (a_state (x_ap s)); try reflexivity.
  - destruct (x_init L s) as [[r s1]| |]; reflexivity.
  - destruct (x_dfpatch_size L s) as [[r s1]| |]; reflexivity.
  - destruct (x_size L s SDiffData) as [[r s1]| |]; reflexivity.
  - rewrite xdata_hom. destruct (x_data L E s w SExtraSize) as [[[r s1] w1]| |]; reflexivity.
  - destruct (x_size L s SExtraData) as [[r s1]| |]; reflexivity.
  - rewrite xdata_hom. destruct (x_data L E s w SAdjustment) as [[[r s1] w1]| |]; reflexivity.
  - rewrite xadjustment_hom. destruct (x_adjustment L E s w) as [[[r s1] w1]| |]; reflexivity.
Qed.

Lemma xloop_hom : forall f res s w, x_process_loop L (env_with E X) f res s (w, x) = xout (x_process_loop L E f res s w).
Proof.
  induction f; intros; cbn [x_process_loop]; destruct (a_left (x_ap s)); try reflexivity; destruct (res <? 0); try reflexivity.
  rewrite xonce_hom. destruct (x_once L E s w) as [[[r s1] w1]| |]; cbn [obind xout]; [apply IHf|reflexivity|reflexivity].
Qed.

Lemma xprocess_hom : forall f s w c, x_process L (env_with E X) f s (w, x) c = xout (x_process L E f s w c).
Proof. intros. unfold x_process. cbv zeta. rewrite xloop_hom. destruct (x_process_loop _ _ _ _ _ _) as [[[r s1] w1]| |]; reflexivity. Qed.

Lemma xfinloop_hom : forall f s w, x_finalize_loop L (env_with E X) f s (w, x) = xout (x_finalize_loop L E f s w).
Proof.
  induction f; intros; cbn [x_finalize_loop]; [reflexivity|]. rewrite xonce_hom.
  destruct (x_once L E s w) as [[[r s1] w1]| |]; cbn [obind xout]; [|reflexivity|reflexivity]. destruct (r =? 0); [apply IHf|reflexivity].
Qed.

Lemma xfinalize_hom : forall f s w, x_finalize L (env_with E X) f s (w, x) = xout (x_finalize L E f s w).
Proof.
  intros. unfold x_finalize. rewrite xfinloop_hom. destruct (x_finalize_loop _ _ _ _ _) as [[[r s1] w1]| |]; cbn [obind xout]; [|reflexivity|reflexivity].
  destruct (x_common_finalize _ _ _) as [[? ?]| |]; reflexivity.
Qed.
End Hom.

Section Callbacks.
Context {WBits : WordBits}.
Context {D : Type} (L : lzma_lib D).
Context {W : Type} (E : seq_env W).

Lemma xloop_mono : forall f res s w x, x_process_loop L E f res s w = x -> x <> OutOfFuel ->
  forall f', (f <= f')%nat -> x_process_loop L E f' res s w = x.
Proof.
  induction f; intros res s w x Ex Hx f' Hf.
  - cbn in Ex. destruct f'; cbn [x_process_loop]; destruct (a_left (x_ap s)); auto; destruct (res <? 0); auto; congruence.
  - destruct f' as [|f']; [lia|]. cbn [x_process_loop] in *. destruct (a_left (x_ap s)); auto. destruct (res <? 0); auto.
    destruct (x_once L E s w) as [[[r1 s1] w1]| |]; cbn [obind] in *; auto. apply IHf; auto. lia.
Qed.

Lemma xfinloop_mono : forall f s w x, x_finalize_loop L E f s w = x -> x <> OutOfFuel ->
  forall f', (f <= f')%nat -> x_finalize_loop L E f' s w = x.
Proof.
  induction f; intros s w x Ex Hx f' Hf.
  - cbn in Ex. congruence.
  - destruct f' as [|f']; [lia|]. cbn [x_finalize_loop] in *.
    destruct (x_once L E s w) as [[[r1 s1] w1]| |]; cbn [obind] in *; auto.
    destruct (r1 =? 0); auto. apply IHf; auto. lia.
Qed.

Lemma xprocess_mono : forall f s w c x, x_process L E f s w c = x -> x <> OutOfFuel ->
  forall f', (f <= f')%nat -> x_process L E f' s w c = x.
Proof.
  intros f s w c x Ex Hx f' Hf. unfold x_process in *. cbv zeta in *.
  destruct (x_process_loop L E f 0 _ w) eqn:P; [| |cbn in Ex; congruence];
    (rewrite (xloop_mono _ _ _ _ _ P) by (auto; discriminate); exact Ex).
Qed.

Lemma xfinalize_mono : forall f s w x, x_finalize L E f s w = x -> x <> OutOfFuel ->
  forall f', (f <= f')%nat -> x_finalize L E f' s w = x.
Proof.
  intros f s w x Ex Hx f' Hf. unfold x_finalize in *.
  destruct (x_finalize_loop L E f _ w) eqn:P; [| |cbn in Ex; congruence];
    (rewrite (xfinloop_mono _ _ _ _ P) by (auto; discriminate); exact Ex).
Qed.

Lemma xcallbacks_feed : forall patch k n po s w v s1 w1, 0 <= po <= zlen patch -> zlen patch - po <= 512 * Z.of_nat k ->
  x_feed L E n s w (pieces k (zdrop po patch)) = Ret (v, s1, w1) ->
  exists pos, forall fuel, (n + k <= fuel)%nat ->
    x_callbacks_loop L (env_with E Z) fuel (patch_file patch) (zlen patch) po s (w, po) = Ret (v, s1, (w1, pos)).
Proof.
  intros patch. induction k; intros n po s w v s1 w1 Hpo Hk F.
  - assert (po = zlen patch) by lia. subst po. cbn [pieces x_feed] in F. exists (zlen patch). intros fuel Hf.
    destruct fuel; cbn [x_callbacks_loop]; destruct (Z.ltb_spec (zlen patch) (zlen patch)); try lia; cbn [negb]; rewrite xfinalize_hom;
      rewrite (xfinalize_mono _ _ _ _ F) by (try discriminate; lia); reflexivity.
  - destruct (Z.eq_dec po (zlen patch)) as [->|Hne].
    + rewrite zdrop_all in F by lia. cbn [pieces x_feed] in F. exists (zlen patch). intros fuel Hf.
      destruct fuel; [lia|]; cbn [x_callbacks_loop]; destruct (Z.ltb_spec (zlen patch) (zlen patch)); try lia; cbn [negb]; rewrite xfinalize_hom;
        rewrite (xfinalize_mono _ _ _ _ F) by (try discriminate; lia); reflexivity.
    + set (m := Z.min (zlen patch - po) 512). assert (Hm : ztake 512 (zdrop po patch) = ztake m (zdrop po patch)).
      { assert (zlen (zdrop po patch) = zlen patch - po) by (rewrite zlen_zdrop; lia). unfold m. destruct (Z.min_spec (zlen patch - po) 512) as [(A & ->)|(A & ->)]; [|reflexivity].
        rewrite !ztake_all by lia. reflexivity. }
      assert (Hd : zdrop 512 (zdrop po patch) = zdrop (po + m) patch).
      { rewrite zdrop_zdrop by lia. unfold m. destruct (Z.min_spec (zlen patch - po) 512) as [(A & ->)|(A & ->)].
        - rewrite !zdrop_all by lia. reflexivity.
        - f_equal. lia. }
      assert (Hp : pieces (S k) (zdrop po patch) = ztake m (zdrop po patch) :: pieces k (zdrop (po + m) patch)).
      { rewrite <- Hd, <- Hm. cbn [pieces]. destruct (zdrop po patch) eqn:Z0; [|reflexivity].
        exfalso. assert (zlen (zdrop po patch) = 0) by (rewrite Z0; reflexivity). rewrite zlen_zdrop in * by lia. lia. }
      rewrite Hp in F. cbn [x_feed] in F.
      destruct (x_process L E n s w (ztake m (zdrop po patch))) as [[[res s2] w2]| |] eqn:P; cbn [obind] in F; [|discriminate|discriminate].
      assert (Step : forall fuel, (n + S k <= fuel)%nat -> x_callbacks_loop L (env_with E Z) fuel (patch_file patch) (zlen patch) po s (w, po) =
        if res =? 0 then x_callbacks_loop L (env_with E Z) (pred fuel) (patch_file patch) (zlen patch) (po + m) s2 (w2, po + m)
        else letm (r2, s3, w3) := x_finalize L (env_with E Z) fuel s2 (w2, po + m) in Ret (res, s3, w3)).
      { intros fuel Hf. destruct fuel as [|f]; [lia|]. cbn [x_callbacks_loop pred]. destruct (Z.ltb_spec po (zlen patch)); [|lia]. cbn [negb]. cbv zeta. fold m.
        unfold patch_file at 1. destruct (Z.leb_spec (po + m) (zlen patch)); [|lia]. change (negb (0 =? 0)) with false. cbv iota.
        replace (zlen (ztake m (zdrop po patch))) with m by (rewrite zlen_ztake, zlen_zdrop by lia; lia). rewrite Z.eqb_refl. cbn [negb].
        rewrite xprocess_hom. rewrite (xprocess_mono _ _ _ _ _ P) by (try discriminate; lia). reflexivity. }
      destruct (Z.eqb_spec res 0) as [->|Hr].
      * destruct (IHk n (po + m) s2 w2 v s1 w1) as (pos & G); [lia|lia|exact F|]. exists pos. intros fuel Hf. rewrite Step by exact Hf.
        apply G. lia.
      * destruct (x_finalize L E n s2 w2) as [[[r2 s3] w3]| |] eqn:Fi; cbn [obind] in F; [|discriminate|discriminate]. injection F as <- <- <-.
        exists (po + m). intros fuel Hf. rewrite Step by exact Hf.
        rewrite xfinalize_hom. rewrite (xfinalize_mono _ _ _ _ Fi) by (try discriminate; lia). reflexivity.
Qed.

End Callbacks.
