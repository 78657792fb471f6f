(** The in-place callback API is the same as feeding the patch in pieces of 512
    bytes. *)

From Coq Require Import ZArith List Bool Lia ZifyBool ZifyNat ZifyN.
From Verif Require Import Prelude Lib Heatshrink CReader CSeq CInPlace CallbackSpec CallbackProofs IpCallbackSpec.
Import ListNotations.
Open Scope Z_scope.

Section Hom.
Context `{WordBits}.
Context {W X : Type} (E : ip_env W) (x : X).

Definition iout3 {A : Type} (o : outcome (Z * A * W)) : outcome (Z * A * (W * X)) :=
  letm (r, s, w) := o in Ret (r, s, (w, x)).

Lemma completed_hom : forall step w, is_step_completed (ip_env_with E X) step (w, x) =
  let '(r, b, w1) := is_step_completed E step w in (r, b, (w1, x)).
Proof.
  intros. unfold is_step_completed. cbn [ip_env_with step_get]. destruct (step_get E) as [f|]; [|reflexivity]. cbn [fst snd].
  destruct (f w) as [[r n] w1]. destruct (negb _); reflexivity.
Qed.

Lemma read_hom : forall step w a n, ip_mem_read (ip_env_with E X) step (w, x) a n = let '(r, b, w1) := ip_mem_read E step w a n in (r, b, (w1, x)).
Proof.
  intros. unfold ip_mem_read. rewrite completed_hom. destruct (is_step_completed E step w) as [[r b] w1]. destruct (negb _); [reflexivity|].
  destruct b; [reflexivity|]. cbn [ip_env_with mem_read fst snd]. destruct (mem_read E w1 a n) as [[? ?] ?]. reflexivity.
Qed.

Lemma write_hom : forall step w a d, ip_mem_write (ip_env_with E X) step (w, x) a d = let '(r, w1) := ip_mem_write E step w a d in (r, (w1, x)).
Proof.
  intros. unfold ip_mem_write. rewrite completed_hom. destruct (is_step_completed E step w) as [[r b] w1]. destruct (negb _); [reflexivity|].
  destruct b; [reflexivity|]. cbn [ip_env_with mem_write fst snd]. destruct (mem_write E w1 a d) as [? ?]. reflexivity.
Qed.

Lemma erase_hom : forall step w a d, ip_mem_erase (ip_env_with E X) step (w, x) a d = let '(r, w1) := ip_mem_erase E step w a d in (r, (w1, x)).
Proof.
  intros. unfold ip_mem_erase. rewrite completed_hom. destruct (is_step_completed E step w) as [[r b] w1]. destruct (negb _); [reflexivity|].
  destruct b; [reflexivity|]. cbn [ip_env_with mem_erase fst snd]. destruct (mem_erase E w1 a d) as [? ?]. reflexivity.
Qed.

Lemma next_hom : forall step w, next_step (ip_env_with E X) step (w, x) = iout3 (next_step E step w).
Proof.
  intros. unfold next_step. rewrite completed_hom. cbn [ip_env_with step_set]. destruct (step_set E) as [f|]; [|destruct (int_add _ _); reflexivity].
  destruct (is_step_completed E step w) as [[r b] w1]. destruct (negb _); [reflexivity|].
  destruct b; [destruct (int_add _ _); reflexivity|]. cbn [fst snd]. destruct (f w1 step) as [? ?]. destruct (int_add _ _); reflexivity.
Qed.

Lemma completed_all_hom : forall w, all_steps_completed (ip_env_with E X) (w, x) = let '(r, w1) := all_steps_completed E w in (r, (w1, x)).
Proof.
  intros. unfold all_steps_completed. cbn [ip_env_with step_set]. destruct (step_set E) as [f|]; [|reflexivity]. cbn [fst snd]. destruct (f w 0); reflexivity.
Qed.

Lemma copy_hom : forall f step w rd wr sg off, copy_loop (ip_env_with E X) f step (w, x) rd wr sg off =
  letm (r, w1) := copy_loop E f step w rd wr sg off in Ret (r, (w1, x)).
Proof.
  induction f; intros; cbn [copy_loop]; destruct (negb (off <? sg)); try reflexivity.
  cbv zeta. rewrite read_hom. destruct (ip_mem_read E step w _ _) as [[r b] w1]. destruct (negb _); [reflexivity|]. destruct (negb _); [reflexivity|].
  rewrite write_hom. destruct (ip_mem_write E step w1 _ _) as [r1 w2]. destruct (negb _); [reflexivity|]. apply IHf.
Qed.

Lemma shift_loop_hom : forall n step w rd wr sg, shift_loop (ip_env_with E X) n step (w, x) rd wr sg = iout3 (shift_loop E n step w rd wr sg).
Proof.
  induction n; intros; cbn [shift_loop]; [reflexivity|]. rewrite erase_hom. destruct (ip_mem_erase E step w _ _) as [r w1]. destruct (negb _); [reflexivity|].
  rewrite copy_hom. destruct (copy_loop _ _ _ _ _ _ _ _) as [[r1 w2]| |]; cbn [obind]; [|reflexivity|reflexivity]. destruct (negb _); [reflexivity|].
  rewrite next_hom. destruct (next_step E step w2) as [[[r2 st] w3]| |]; cbn [obind iout3]; [|reflexivity|reflexivity]. destruct (negb _); [reflexivity|]. apply IHn.
Qed.

Lemma shift_hom : forall step w m f sg sh, shift_memory (ip_env_with E X) step (w, x) m f sg sh = iout3 (shift_memory E step w m f sg sh).
Proof. intros. unfold shift_memory. destruct (sg =? 0); [reflexivity|]. apply shift_loop_hom. Qed.

Lemma iinit_hom : forall s w, ip_process_init (ip_env_with E X) s (w, x) = iout3 (ip_process_init E s w).
Proof.
  intros. unfold ip_process_init. destruct (i_init s).
  1-5: match goal with |- obind ?m _ = _ => destruct m as [[? ?]| |]; reflexivity end.
  unfold ip_init_to_size. destruct (unpack_header_size _ _) as [[[[res v] z1] l1]| |]; cbn [obind]; [|reflexivity|reflexivity]. cbv zeta.
  destruct (negb _); [reflexivity|]. destruct (reader_init _ _); [|reflexivity]. destruct (v <? 0); [reflexivity|]. destruct (0 <? v); [|reflexivity].
  rewrite shift_hom. destruct (shift_memory _ _ _ _ _ _ _) as [[[r0 st] w1]| |]; cbn [obind iout3]; [|reflexivity|reflexivity]. destruct (negb _); reflexivity.
Qed.

Lemma idf_hom : forall s w, ip_process_dfpatch_size (ip_env_with E X) s (w, x) = iout3 (ip_process_dfpatch_size E s w).
Proof.
  intros. unfold ip_process_dfpatch_size. destruct (i_reader s) as [r|]; [|reflexivity].
  destruct (unpack_size _ _ _) as [[[[[res v] z1] r1] l1]| |]; cbn [obind]; [|reflexivity|reflexivity]. cbv zeta. destruct (negb _); [reflexivity|]. destruct (0 <? v); [reflexivity|].
  rewrite erase_hom. destruct (ip_mem_erase _ _ _ _ _) as [? ?]. reflexivity.
Qed.

Lemma idata_hom : forall s w next, ip_process_data (ip_env_with E X) s (w, x) next = iout3 (ip_process_data E s w next).
Proof.
  intros. unfold ip_process_data. cbv zeta. destruct (_ =? 0); [reflexivity|]. destruct (i_reader s) as [r|]; [|reflexivity].
  destruct (decompress r _ _) as [[[[res out] r1] l1]| |]; cbn [obind]; [|reflexivity|reflexivity].
  destruct (negb (res =? 0)); [reflexivity|].
  destruct next; cbn [obind];
    try (rewrite write_hom; destruct (ip_mem_write _ _ _ _ _) as [rw w3]; destruct (negb (rw =? 0)); reflexivity).
  rewrite read_hom. destruct (ip_mem_read _ _ _ _ _) as [[rr from] w1]. destruct (negb (rr =? 0)); [reflexivity|].
  destruct (int_add _ _); cbn [obind]; [|reflexivity|reflexivity].
  destruct (add_data out from); cbn [obind]; [|reflexivity|reflexivity].
  rewrite write_hom. destruct (ip_mem_write _ _ _ _ _) as [rw w3]. destruct (negb (rw =? 0)); reflexivity.
Qed.

Lemma iadj_hom : forall s w, ip_process_adjustment (ip_env_with E X) s (w, x) = iout3 (ip_process_adjustment E s w).
Proof.
  intros. unfold ip_process_adjustment. destruct (i_reader s) as [r|]; [|reflexivity].
  destruct (unpack_size _ _ _) as [[[[[res v] z1] r1] l1]| |]; cbn [obind]; [|reflexivity|reflexivity]. destruct (negb (res =? 0)); [reflexivity|].
  cbv zeta. destruct (_ =? _).
  { rewrite completed_all_hom. destruct (all_steps_completed E w) as [? ?]. reflexivity. }
  destruct (_ =? _).
  { rewrite next_hom. destruct (next_step E _ w) as [[[? ?] ?]| |]; reflexivity. }
  destruct (int_add _ _); reflexivity.
Qed.

Lemma ionce_hom : forall s w, ip_process_once (ip_env_with E X) s (w, x) = iout3 (ip_process_once E s w).
Proof.
  intros. unfold ip_process_once. destruct (i_state s); try reflexivity.
  - rewrite iinit_hom. destruct (ip_process_init E s w) as [[[r s1] w1]| |]; reflexivity.
  - rewrite idf_hom. destruct (ip_process_dfpatch_size E s w) as [[[r s1] w1]| |]; reflexivity.
  - destruct (ip_process_size s SDiffData) as [[r s1]| |]; reflexivity.
  - rewrite idata_hom. destruct (ip_process_data E s w SExtraSize) as [[[r s1] w1]| |]; reflexivity.
  - destruct (ip_process_size s SExtraData) as [[r s1]| |]; reflexivity.
  - rewrite idata_hom. destruct (ip_process_data E s w SAdjustment) as [[[r s1] w1]| |]; reflexivity.
  - rewrite iadj_hom. destruct (ip_process_adjustment E s w) as [[[r s1] w1]| |]; reflexivity.
Qed.

Lemma iloop_hom : forall f res s w, ip_process_loop (ip_env_with E X) f res s (w, x) = iout3 (ip_process_loop E f res s w).
Proof.
  induction f; intros; cbn [ip_process_loop]; destruct (i_left s); try reflexivity; destruct (res <? 0); try reflexivity.
  rewrite ionce_hom. destruct (ip_process_once E s w) as [[[r s1] w1]| |]; cbn [obind iout3]; [apply IHf|reflexivity|reflexivity].
Qed.

Lemma iprocess_hom : forall f s w c, ip_process (ip_env_with E X) f s (w, x) c = iout3 (ip_process E f s w c).
Proof. intros. unfold ip_process. rewrite iloop_hom. destruct (ip_process_loop _ _ _ _ _) as [[[r s1] w1]| |]; reflexivity. Qed.

Lemma ifinloop_hom : forall f s w, ip_finalize_loop (ip_env_with E X) f s (w, x) = iout3 (ip_finalize_loop E f s w).
Proof.
  induction f; intros; cbn [ip_finalize_loop]; [reflexivity|]. rewrite ionce_hom.
  destruct (ip_process_once E s w) as [[[r s1] w1]| |]; cbn [obind iout3]; [|reflexivity|reflexivity]. destruct (r =? 0); [apply IHf|reflexivity].
Qed.

Lemma ifinalize_hom : forall f s w, ip_finalize (ip_env_with E X) f s (w, x) = iout3 (ip_finalize E f s w).
Proof.
  intros. unfold ip_finalize. rewrite ifinloop_hom. destruct (ip_finalize_loop _ _ _ _) as [[[r s1] w1]| |]; cbn [obind iout3]; [|reflexivity|reflexivity].
  destruct (common_finalize _ _ _); reflexivity.
Qed.
End Hom.

Section Mono.
Context `{WordBits}.
Context {W : Type} (E : ip_env W).

Lemma iloop_mono : forall f res s w x, ip_process_loop E f res s w = x -> x <> OutOfFuel ->
  forall f', (f <= f')%nat -> ip_process_loop E f' res s w = x.
Proof.
  induction f; intros res s w x Ex Hx f' Hf.
  - cbn in Ex. destruct f'; cbn [ip_process_loop]; destruct (i_left s); auto; destruct (res <? 0); auto; congruence.
  - destruct f' as [|f']; [lia|]. cbn [ip_process_loop] in *. destruct (i_left s); auto. destruct (res <? 0); auto.
    destruct (ip_process_once E s w) as [[[r1 s1] w1]| |]; cbn [obind] in *; auto. apply IHf; auto. lia.
Qed.

Lemma ifinloop_mono : forall f s w x, ip_finalize_loop E f s w = x -> x <> OutOfFuel ->
  forall f', (f <= f')%nat -> ip_finalize_loop E f' s w = x.
Proof.
  induction f; intros s w x Ex Hx f' Hf.
  - cbn in Ex. congruence.
  - destruct f' as [|f']; [lia|]. cbn [ip_finalize_loop] in *.
    destruct (ip_process_once E s w) as [[[r1 s1] w1]| |]; cbn [obind] in *; auto.
    destruct (r1 =? 0); auto. apply IHf; auto. lia.
Qed.

Lemma iprocess_mono : forall f s w c x, ip_process E f s w c = x -> x <> OutOfFuel ->
  forall f', (f <= f')%nat -> ip_process E f' s w c = x.
Proof.
  intros f s w c x Ex Hx f' Hf. unfold ip_process in *. cbv zeta in *.
  destruct (ip_process_loop E f 0 _ w) eqn:P; [| |cbn in Ex; congruence];
    (rewrite (iloop_mono _ _ _ _ _ P) by (auto; discriminate); exact Ex).
Qed.

Lemma ifinalize_mono : forall f s w x, ip_finalize E f s w = x -> x <> OutOfFuel ->
  forall f', (f <= f')%nat -> ip_finalize E f' s w = x.
Proof.
  intros f s w x Ex Hx f' Hf. unfold ip_finalize in *. cbv zeta in *.
  destruct (ip_finalize_loop E f _ w) eqn:P; [| |cbn in Ex; congruence];
    (rewrite (ifinloop_mono _ _ _ _ P) by (auto; discriminate); exact Ex).
Qed.

Lemma icallbacks_feed : forall patch k n po s w v s1 w1, 0 <= po <= zlen patch -> zlen patch - po <= 512 * Z.of_nat k ->
  ip_feed E n s w (pieces k (zdrop po patch)) = Ret (v, s1, w1) ->
  exists pos, forall fuel, (n + k <= fuel)%nat ->
    ip_callbacks_loop (ip_env_with E Z) fuel (patch_file patch) (zlen patch) po s (w, po) = Ret (v, s1, (w1, pos)).
Proof.
  intros patch. induction k; intros n po s w v s1 w1 Hpo Hk F.
  - assert (po = zlen patch) by lia. subst po. cbn [pieces ip_feed] in F. exists (zlen patch). intros fuel Hf.
    destruct fuel; cbn [ip_callbacks_loop]; destruct (Z.ltb_spec (zlen patch) (zlen patch)); try lia; cbn [negb]; rewrite ifinalize_hom;
      rewrite (ifinalize_mono _ _ _ _ F) by (try discriminate; lia); reflexivity.
  - destruct (Z.eq_dec po (zlen patch)) as [->|Hne].
    + rewrite zdrop_all in F by lia. cbn [pieces ip_feed] in F. exists (zlen patch). intros fuel Hf.
      destruct fuel; [lia|]; cbn [ip_callbacks_loop]; destruct (Z.ltb_spec (zlen patch) (zlen patch)); try lia; cbn [negb]; rewrite ifinalize_hom;
        rewrite (ifinalize_mono _ _ _ _ F) by (try discriminate; lia); reflexivity.
    + set (m := Z.min (zlen patch - po) 512). assert (Hm : ztake 512 (zdrop po patch) = ztake m (zdrop po patch)).
      { assert (zlen (zdrop po patch) = zlen patch - po) by (rewrite zlen_zdrop; lia). unfold m. destruct (Z.min_spec (zlen patch - po) 512) as [(A & ->)|(A & ->)]; [|reflexivity].
        rewrite !ztake_all by lia. reflexivity. }
      assert (Hd : zdrop 512 (zdrop po patch) = zdrop (po + m) patch).
      { rewrite zdrop_zdrop by lia. unfold m. destruct (Z.min_spec (zlen patch - po) 512) as [(A & ->)|(A & ->)].
        - rewrite !zdrop_all by lia. reflexivity.
        - f_equal. lia. }
      assert (Hp : pieces (S k) (zdrop po patch) = ztake m (zdrop po patch) :: pieces k (zdrop (po + m) patch)).
      { rewrite <- Hd, <- Hm. cbn [pieces]. destruct (zdrop po patch) eqn:Z0; [|reflexivity].
        exfalso. assert (zlen (zdrop po patch) = 0) by (rewrite Z0; reflexivity). rewrite zlen_zdrop in * by lia. lia. }
      rewrite Hp in F. cbn [ip_feed] in F.
      destruct (ip_process E n s w (ztake m (zdrop po patch))) as [[[res s2] w2]| |] eqn:P; cbn [obind] in F; [|discriminate|discriminate].
      assert (Step : forall fuel, (n + S k <= fuel)%nat -> ip_callbacks_loop (ip_env_with E Z) fuel (patch_file patch) (zlen patch) po s (w, po) =
        if res =? 0 then ip_callbacks_loop (ip_env_with E Z) (pred fuel) (patch_file patch) (zlen patch) (po + m) s2 (w2, po + m)
        else letm (r2, s3, w3) := ip_finalize (ip_env_with E Z) fuel s2 (w2, po + m) in Ret (res, s3, w3)).
      { intros fuel Hf. destruct fuel as [|f]; [lia|]. cbn [ip_callbacks_loop pred]. destruct (Z.ltb_spec po (zlen patch)); [|lia]. cbn [negb]. cbv zeta. fold m.
        unfold patch_file at 1. destruct (Z.leb_spec (po + m) (zlen patch)); [|lia]. change (negb (0 =? 0)) with false. cbv iota.
        replace (zlen (ztake m (zdrop po patch))) with m by (rewrite zlen_ztake, zlen_zdrop by lia; lia). rewrite Z.eqb_refl. cbn [negb].
        rewrite iprocess_hom. rewrite (iprocess_mono _ _ _ _ _ P) by (try discriminate; lia). reflexivity. }
      destruct (Z.eqb_spec res 0) as [->|Hr].
      * destruct (IHk n (po + m) s2 w2 v s1 w1) as (pos & G); [lia|lia|exact F|]. exists pos. intros fuel Hf. rewrite Step by exact Hf.
        apply G. lia.
      * destruct (ip_finalize E n s2 w2) as [[[r2 s3] w3]| |] eqn:Fi; cbn [obind] in F; [|discriminate|discriminate]. injection F as <- <- <-.
        exists (po + m). intros fuel Hf. rewrite Step by exact Hf.
        rewrite ifinalize_hom. rewrite (ifinalize_mono _ _ _ _ Fi) by (try discriminate; lia). reflexivity.
Qed.
End Mono.

Section Codes.
Context `{WordBits}.
Context {W : Type} (E : ip_env W).
Hypothesis HE : codes_ok E.

Ltac codes := unfold E_CORRUPT_PATCH, E_CORRUPT_PATCH_OVERFLOW, E_BAD_COMPRESSION, E_NOT_IMPLEMENTED, E_IO_FAILED, E_ALREADY_DONE, E_ALREADY_FAILED, E_BAD_PATCH_TYPE,
  E_STEP_SET_FAILED, E_STEP_GET_FAILED, E_SHORT_HEADER in *.

Lemma icompleted_le : forall step w r b w1, is_step_completed E step w = (r, b, w1) -> r <= 0.
Proof.
  intros step w r b w1 U. unfold is_step_completed in U. destruct (step_get E) as [f|]; [|injection U as <- _ _; lia].
  destruct (f w) as [[r0 n] w2]. destruct (negb _); injection U as <- _ _; codes; lia.
Qed.

Lemma iread_le : forall step w a n r b w1, ip_mem_read E step w a n = (r, b, w1) -> r <= 0.
Proof.
  intros step w a n r b w1 U. unfold ip_mem_read in U. destruct (is_step_completed E step w) as [[r0 b0] w0] eqn:C. apply icompleted_le in C.
  destruct (negb _); [injection U as <- _ _; lia|]. destruct b0; [injection U as <- _ _; lia|]. destruct HE as (A & _). specialize (A w0 a n). rewrite U in A. exact A.
Qed.

Lemma iwrite_le : forall step w a n r w1, ip_mem_write E step w a n = (r, w1) -> r <= 0.
Proof.
  intros step w a n r w1 U. unfold ip_mem_write in U. destruct (is_step_completed E step w) as [[r0 b0] w0] eqn:C. apply icompleted_le in C.
  destruct (negb _); [injection U as <- _; lia|]. destruct b0; [injection U as <- _; lia|]. destruct HE as (_ & A & _). specialize (A w0 a n). rewrite U in A. exact A.
Qed.

Lemma ierase_le : forall step w a n r w1, ip_mem_erase E step w a n = (r, w1) -> r <= 0.
Proof.
  intros step w a n r w1 U. unfold ip_mem_erase in U. destruct (is_step_completed E step w) as [[r0 b0] w0] eqn:C. apply icompleted_le in C.
  destruct (negb _); [injection U as <- _; lia|]. destruct b0; [injection U as <- _; lia|]. destruct HE as (_ & _ & A). specialize (A w0 a n). rewrite U in A. exact A.
Qed.

Lemma inext_le : forall step w r st w1, next_step E step w = Ret (r, st, w1) -> r <= 0.
Proof.
  intros step w r st w1 U. unfold next_step in U. destruct (step_set E) as [f|].
  - destruct (is_step_completed E step w) as [[r0 b0] w0] eqn:C. apply icompleted_le in C. destruct (negb _); [injection U as <- _ _; lia|].
    destruct b0.
    + destruct (int_add _ _); cbn [obind] in U; try discriminate. injection U as <- _ _; lia.
    + destruct (f w0 step) as [r2 w2]. destruct (int_add _ _); cbn [obind] in U; try discriminate. injection U as <- _ _. destruct (Z.eqb_spec r2 0); cbn [negb]; codes; lia.
  - destruct (int_add _ _); cbn [obind] in U; try discriminate. injection U as <- _ _; lia.
Qed.

Lemma icopy_le : forall f step w rd wr sg off r w1, copy_loop E f step w rd wr sg off = Ret (r, w1) -> r <= 0.
Proof.
  induction f; intros step w rd wr sg off r w1 U; cbn [copy_loop] in U; destruct (negb (off <? sg)); try discriminate; try (injection U as <- _; lia).
  cbv zeta in U. destruct (ip_mem_read E step w _ _) as [[r0 b] w0] eqn:A. apply iread_le in A. destruct (negb _); [injection U as <- _; lia|]. destruct (negb _); [discriminate|].
  destruct (ip_mem_write E step w0 _ _) as [r2 w2] eqn:B. apply iwrite_le in B. destruct (negb _); [injection U as <- _; lia|]. eauto.
Qed.

Lemma ishift_le : forall n step w rd wr sg r st w1, shift_loop E n step w rd wr sg = Ret (r, st, w1) -> r <= 0.
Proof.
  induction n; intros step w rd wr sg r st w1 U; cbn [shift_loop] in U; [injection U as <- _ _; lia|].
  destruct (ip_mem_erase E step w _ _) as [r0 w0] eqn:A. apply ierase_le in A. destruct (negb _); [injection U as <- _ _; lia|].
  destruct (copy_loop _ _ _ _ _ _ _ _) as [[r2 w2]| |] eqn:B; cbn [obind] in U; try discriminate. apply icopy_le in B. destruct (negb _); [injection U as <- _ _; lia|].
  destruct (next_step E step w2) as [[[r3 st3] w3]| |] eqn:C; cbn [obind] in U; try discriminate. apply inext_le in C. destruct (negb _); [injection U as <- _ _; lia|]. eauto.
Qed.

Lemma ionce_le : forall s w res s1 w1, ip_process_once E s w = Ret (res, s1, w1) -> res <= 1.
Proof.
  intros s w res s1 w1 U. unfold ip_process_once in U.
  match type of U with obind ?m _ = _ => destruct m as [[[r0 s0] w0]| |] eqn:M; cbn [obind] in U; try discriminate end.
  assert (r0 = res) by (destruct (i_state s); injection U; auto). subst r0. clear U.
  assert (D : forall next, ip_process_data E s w next = Ret (res, s0, w0) -> res <= 1).
  { intros next U. unfold ip_process_data in U. cbv zeta in U. destruct (_ =? 0); [injection U as <- _ _; lia|]. destruct (i_reader s) as [r|]; [|discriminate].
    destruct (decompress _ _ _) as [[[[r1 o] r2] l2]| |] eqn:Y; cbn [obind] in U; try discriminate. apply dec_le in Y.
    destruct (negb (r1 =? 0)); [injection U as <- _ _; lia|].
    match type of U with obind ?m _ = _ => destruct m as [[[[io d] s3] w3]| |]; cbn [obind] in U; try discriminate end.
    destruct io; [injection U as <- _ _; codes; lia|]. destruct (ip_mem_write _ _ _ _ _) as [rw w4]. destruct (negb _); injection U as <- _ _; codes; lia. }
  assert (S : forall next, (letm (r, s1) := ip_process_size s next in Ret (r, s1, w)) = Ret (res, s0, w0) -> res <= 1).
  { intros next U. unfold ip_process_size in U. destruct (i_reader s) as [r|]; [|discriminate]. unfold common_process_size, unpack_size in U.
    destruct (unpack_size_loop _ _ _ _ _ _) as [[[[[r1 v] z1] r2] l2]| |] eqn:Y; cbn [obind] in U; try discriminate. apply unpack_le in Y.
    destruct (Z.eqb_spec r1 0) as [->|Hr]; cbn [negb] in U.
    - destruct (_ <? _); cbn [obind negb Z.eqb] in U; [|change (0 =? 0) with true in U; cbn [negb obind] in U; injection U as <- _ _; lia].
      change (- E_CORRUPT_PATCH =? 0) with false in U. cbn [negb obind] in U. injection U as <- _ _. codes; lia.
    - cbn [obind] in U. destruct (Z.eqb_spec r1 0); [lia|]. cbn [negb obind] in U. injection U as <- _ _. lia. }
  assert (I : forall next st, (letm (r, s1) := ip_init_size s next st in Ret (r, s1, w)) = Ret (res, s0, w0) -> res <= 1).
  { intros next st U. unfold ip_init_size in U. destruct (unpack_header_size _ _) as [[[[r v] z1] l1]| |] eqn:Y; cbn [obind] in U; try discriminate. apply header_le in Y.
    destruct (negb _); cbn [obind] in U; injection U as <- _ _; lia. }
  destruct (i_state s); eauto; try (injection M as <- _ _; codes; lia).
  - unfold ip_process_init in M. destruct (i_init s); eauto.
    + unfold ip_init_fixed_header in M. destruct (i_left s); cbn [obind] in M; [injection M as <- _ _; codes; lia|]. cbv zeta in M.
      destruct (negb _); cbn [obind] in M; injection M as <- _ _; codes; lia.
    + unfold ip_init_to_size in M. destruct (unpack_header_size _ _) as [[[[r v] z1] l1]| |] eqn:Y; cbn [obind] in M; try discriminate. apply header_le in Y.
      cbv zeta in M. destruct (negb _); [injection M as <- _ _; lia|]. destruct (reader_init _ _); [|injection M as <- _ _; codes; lia].
      destruct (v <? 0); [injection M as <- _ _; codes; lia|]. destruct (0 <? v); [|injection M as <- _ _; lia].
      unfold shift_memory in M. destruct (_ =? 0); [discriminate|]. destruct (shift_loop _ _ _ _ _ _ _) as [[[r2 st2] w2]| |] eqn:Z0; cbn [obind] in M; try discriminate.
      apply ishift_le in Z0. destruct (negb _); injection M as <- _ _; lia.
  - unfold ip_process_dfpatch_size, unpack_size in M. destruct (i_reader s) as [r|]; [|discriminate].
    destruct (unpack_size_loop _ _ _ _ _ _) as [[[[[r1 v] z1] r2] l2]| |] eqn:Y; cbn [obind] in M; try discriminate. apply unpack_le in Y. cbv zeta in M.
    destruct (negb _); [injection M as <- _ _; lia|]. destruct (0 <? v); [injection M as <- _ _; codes; lia|].
    destruct (ip_mem_erase _ _ _ _ _) as [r4 w4] eqn:Z0. apply ierase_le in Z0. injection M as <- _ _; lia.
  - unfold ip_process_adjustment, unpack_size in M. destruct (i_reader s) as [r|]; [|discriminate].
    destruct (unpack_size_loop _ _ _ _ _ _) as [[[[[r1 v] z1] r2] l2]| |] eqn:Y; cbn [obind] in M; try discriminate. apply unpack_le in Y. cbv zeta in M.
    destruct (negb _); [injection M as <- _ _; lia|]. destruct (_ =? _).
    { unfold all_steps_completed in M. destruct (step_set E) as [f|]; [|injection M as <- _ _; lia]. destruct (f w 0) as [r5 w5]. injection M as <- _ _. destruct (Z.eqb_spec r5 0); cbn [negb]; codes; lia. }
    destruct (_ =? _).
    { destruct (next_step E _ w) as [[[r5 ?] ?]| |] eqn:Z0; cbn [obind] in M; try discriminate. apply inext_le in Z0. injection M as <- _ _; lia. }
    destruct (int_add _ _); cbn [obind] in M; try discriminate. injection M as <- _ _; lia.
Qed.

Lemma iloop_le : forall f res s w r s1 w1, res <= 1 -> ip_process_loop E f res s w = Ret (r, s1, w1) -> r <= 1.
Proof.
  induction f; intros res s w r s1 w1 Hr U; cbn [ip_process_loop] in U; (destruct (i_left s); [injection U as <- _ _; lia|]);
    (destruct (res <? 0); [injection U as <- _ _; lia|]); [discriminate|].
  destruct (ip_process_once E s w) as [[[r2 s2] w2]| |] eqn:Y; cbn [obind] in U; try discriminate. apply ionce_le in Y. eauto.
Qed.

Lemma iprocess_le : forall f s w c r s1 w1, ip_process E f s w c = Ret (r, s1, w1) -> r <= 0.
Proof.
  intros f s w c r s1 w1 U. unfold ip_process in U. destruct (ip_process_loop _ _ _ _ _) as [[[r2 s2] w2]| |] eqn:Y; cbn [obind] in U; try discriminate.
  apply iloop_le in Y; [|lia]. injection U as <- _ _. destruct (Z.eqb_spec r2 1); cbn [orb]; [lia|]. destruct (_ =? _); lia.
Qed.

Lemma irequests : forall fuel patch_read ps po s w log v s1 w1 log1, 0 <= po <= ps ->
  ip_callbacks_loop (ip_env_with E (list Z)) fuel (recorded patch_read) ps po s (w, log) = Ret (v, s1, (w1, log1)) ->
  exists more, log1 = log ++ more /\ Forall (fun n => 1 <= n <= 512) more /\ po + sum more <= ps /\
    (0 <= v -> po + sum more = ps) /\
    exists f r s0 w0, ip_finalize E f s0 w0 = Ret (r, s1, w1).
Proof.
  induction fuel; intros patch_read ps po s w log v s1 w1 log1 Hpo C; cbn [ip_callbacks_loop] in C.
  - destruct (Z.ltb_spec po ps); cbn [negb] in C; [discriminate|]. rewrite ifinalize_hom in C. unfold iout3 in C.
    discriminate C.
  - destruct (Z.ltb_spec po ps); cbn [negb] in C.
    2:{ rewrite ifinalize_hom in C. unfold iout3 in C.
      destruct (ip_finalize E (S fuel) s w) as [[[r s2] w2]| |] eqn:F; cbn [obind] in C; try discriminate. injection C as <- <- <- <-.
      exists []. rewrite app_nil_r. cbn [sum fold_right]. split; [auto|]. split; [constructor|]. split; [lia|]. split; [lia|]. eauto 10. }
    cbv zeta in C. set (m := Z.min (ps - po) 512) in *. unfold recorded at 1 in C. cbn [fst snd] in C.
    destruct (patch_read w m) as [[rr buf] w2]. destruct (negb (rr =? 0)).
    { rewrite ifinalize_hom in C. unfold iout3 in C.
      destruct (ip_finalize E (S fuel) s w2) as [[[r s2] w3]| |] eqn:F; cbn [obind] in C; try discriminate. injection C as <- <- <- <-.
      exists [m]. cbn [sum fold_right]. unfold E_IO_FAILED, m. split; [auto|]. split; [repeat constructor; lia|]. split; [lia|]. split; [unfold E_IO_FAILED; lia|]. eauto 10. }
    destruct (negb (zlen buf =? m)); [discriminate|]. rewrite iprocess_hom in C. unfold iout3 at 1 in C.
    destruct (ip_process E (S fuel) s w2 buf) as [[[res s2] w3]| |] eqn:P; cbn [obind] in C; try discriminate.
    destruct (Z.eqb_spec res 0) as [->|Hr].
    + apply IHfuel in C; [|lia]. destruct C as (more & A & B & D & F & G). exists (m :: more).
      cbn [sum fold_right]. fold (sum more). unfold m in *. split; [rewrite A, <- app_assoc; reflexivity|]. split; [constructor; [lia|auto]|]. split; [lia|]. split; [intros V; specialize (F V); lia|exact G].
    + rewrite ifinalize_hom in C. unfold iout3 in C.
      destruct (ip_finalize E (S fuel) s2 w3) as [[[r s3] w4]| |] eqn:F; cbn [obind] in C; try discriminate. injection C as <- <- <- <-.
      exists [m]. cbn [sum fold_right]. unfold E_IO_FAILED, m. split; [auto|]. split; [repeat constructor; lia|]. split; [lia|].
      apply iprocess_le in P. split; [lia|eauto 10].
Qed.
End Codes.
