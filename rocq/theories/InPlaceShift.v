(** Moving the from data up. *)

From Coq Require Import ZArith List Bool Lia ZifyBool ZifyNat ZifyN.
From Verif Require Import Prelude Lib CReader CInPlace Spec InPlaceSpec InPlaceMem InPlaceWorld.
Import ListNotations.
Open Scope Z_scope.

Section Shift.
Context `{WBits : WordBits}.
Hypothesis Hword : 32 <= word_bits.
Variables memory segment shift : Z.
Variables from to : list Z.
Variable mem0 : list (option Z).
Context {ST : strictness mem0}.

Hypothesis Hsizes : sizes_ok memory segment shift (zlen from) (zlen to).
Hypothesis Hlen : memory <= zlen mem0.
Hypothesis Hto : 0 < zlen to.
Variable c0 : Z.
Variable unl : bool.

Notation NS := (NS memory segment shift from).
Notation MS := (MS segment to).
Notation base := (base memory segment shift from to).
Notation size := (size memory segment shift from to).
Notation content := (content memory segment shift from to).
Notation canon := (canon memory segment shift from to mem0).
Notation world := (world memory segment shift from to mem0 c0 unl).
Notation off := (off memory segment shift from to mem0 unl).

Ltac steps := destruct (steps_bounds memory segment shift from to Hsizes Hto) as (SB1 & SB2 & SB3 & SB4 & SB5 & SB6 & SB7 & SB8).
Ltac szs := destruct (sizes memory segment shift from to Hsizes) as (m & h & SZ1 & SZ2 & SZ3 & SZ4 & SZ5 & SZ6 & SZ7 & SZ8).

Lemma small_wrap : forall x, 0 <= x < 2 ^ 30 -> wrap x = x.
Proof. intros x H. apply wrap_small. pose proof (pow2_32_le word_bits Hword). lia. Qed.

Lemma copy_loop_spec : forall fuel w j o, (1 <= j <= NS) -> 0 <= o <= segment -> segment - o <= Z.of_nat fuel ->
  world w j (Some (ztake o (content j (canon (j - 1))))) ->
  (exists w1, copy_loop (flash_env_of strict) fuel j w ((NS - j) * segment) (base j) segment o = Ret (0, w1) /\
     world w1 j (Some (content j (canon (j - 1))))) \/
  (exists w1, copy_loop (flash_env_of strict) fuel j w ((NS - j) * segment) (base j) segment o = Ret (-1, w1) /\ off w1).
Proof.
  steps. szs.
  induction fuel as [|fuel IH]; intros w j o Hj Ho Hf W; destruct (area_shift memory segment shift from to j ltac:(lia)) as [E1 E2];
    pose proof (zlen_canon memory segment shift from to mem0 Hsizes Hlen Hto (j - 1) ltac:(lia)) as Zc;
    pose proof (zlen_content memory segment shift from to Hsizes Hto j (canon (j - 1)) ltac:(lia) ltac:(lia)) as Zl; cbn [copy_loop].
  - destruct (Z.ltb_spec o segment); [lia|]. cbn [negb]. left. exists w. split; [auto|].
    rewrite ztake_all in W by lia. auto.
  - destruct (Z.ltb_spec o segment); cbn [negb].
    2:{ left. exists w. split; [auto|]. rewrite ztake_all in W by lia. auto. }
    set (n := Z.min 128 (segment - o)).
    assert (Hn : 0 < n /\ o + n <= segment) by (unfold n; lia).
    assert (R1 : 0 <= (NS - j) * segment) by (apply Z.mul_nonneg_nonneg; lia).
    assert (R2 : (NS - j) * segment + segment <= NS * segment).
    { replace ((NS - j) * segment + segment) with ((NS - j + 1) * segment) by lia. apply Z.mul_le_mono_nonneg_r; lia. }
    rewrite (small_wrap ((NS - j) * segment + o)) by lia.
    destruct (op_read memory segment shift from to mem0 Hsizes Hlen Hto c0 unl w j _ ((NS - j) * segment + o) n W)
      as [(buf & w1 & Q1 & Q2 & Q3 & Q4 & Q5)|(w1 & Q1 & Q2)]; try lia.
    2:{ rewrite Q1. change (negb (-1 =? 0)) with true. cbv iota. right. eauto. }
    rewrite Q1. change (negb (0 =? 0)) with false. cbv iota. destruct (Z.eqb_spec (zlen buf) n); [|lia]. cbn [negb].
    rewrite small_wrap by lia.
    assert (Zo : zlen (ztake o (content j (canon (j - 1)))) = o) by (rewrite zlen_ztake; lia).
    replace (base j + o) with (base j + zlen (ztake o (content j (canon (j - 1))))) by lia.
    assert (Zn : zlen (ztake n (zdrop o (content j (canon (j - 1))))) = n) by (rewrite zlen_slice; lia).
    destruct (op_write memory segment shift from to mem0 Hsizes Hlen Hto c0 unl w1 j _ buf (ztake n (zdrop o (content j (canon (j - 1))))) Q3)
      as [(w2 & P1 & P2 & P3)|(w2 & P1 & P2)]; [lia| |lia| |].
    + intros L. rewrite Q5 by lia. unfold content. destruct (Z.leb_spec j NS); [|lia].
      apply znth_ext; [rewrite zlen_map, !zlen_slice; try lia; rewrite zlen_map, zlen_slice; lia|].
      intros k Hk. rewrite zlen_map, zlen_slice in Hk by lia.
      rewrite znth_slice by lia. rewrite !znth_map, !znth_slice by lia. f_equal. f_equal. lia.
    + rewrite P1. change (negb (0 =? 0)) with false. cbv iota.
      apply IH; try lia. rewrite ztake_add by lia. auto.
    + rewrite P1. change (negb (-1 =? 0)) with true. cbv iota. right. eauto.
Qed.

Lemma shift_loop_spec : forall n w j read write, j = NS - Z.of_nat n + 1 -> 1 <= j ->
  (n <> O -> read = (NS - j) * segment /\ write = base j) -> world w j None ->
  (exists w1, shift_loop (flash_env_of strict) n j w read write segment = Ret (0, NS + 1, w1) /\ world w1 (NS + 1) None) \/
  (exists e j1 w1, shift_loop (flash_env_of strict) n j w read write segment = Ret (e, j1, w1) /\ e < 0 /\ e <> - E_ALREADY_DONE /\ off w1).
Proof.
  steps. szs.
  induction n as [|n IH]; intros w j read write Hj Hj1 Hrw W; cbn [shift_loop].
  - left. exists w. replace (NS + 1) with j by lia. auto.
  - destruct (Hrw ltac:(discriminate)) as [-> ->].
    destruct (area_shift memory segment shift from to j ltac:(lia)) as [E1 E2].
    destruct (op_erase memory segment shift from to mem0 Hsizes Hlen Hto c0 unl w j _ W) as [(w1 & P1 & P2)|(w1 & P1 & P2)]; rewrite E2 in P1; rewrite P1.
    2:{ change (negb (-1 =? 0)) with true. cbv iota. right. exists (-1), j, w1. split; [auto|]. split; [lia|]. split; [discriminate|auto]. }
    change (negb (0 =? 0)) with false. cbv iota.
    destruct (copy_loop_spec (Z.to_nat segment) w1 j 0 ltac:(lia) ltac:(lia) ltac:(lia)) as [(w2 & Q1 & Q2)|(w2 & Q1 & Q2)]; [rewrite ztake_0; auto| |];
      rewrite Q1; cbn [obind].
    2:{ change (negb (-1 =? 0)) with true. cbv iota. right. exists (-1), j, w2. split; [auto|]. split; [lia|]. split; [discriminate|auto]. }
    change (negb (0 =? 0)) with false. cbv iota.
    destruct (op_next memory segment shift from to mem0 Hsizes Hlen Hto c0 unl w2 j _ Q2 ltac:(lia) ltac:(auto)) as [(w3 & T1 & T2)|(w3 & T1 & T2)];
      rewrite T1; cbn [obind].
    2:{ change (negb (- E_STEP_SET_FAILED =? 0)) with true. cbv iota. right. do 3 eexists. split; [reflexivity|]. unfold E_STEP_SET_FAILED, E_ALREADY_DONE. split; [lia|]. split; [lia|auto]. }
    change (negb (0 =? 0)) with false. cbv iota.
    apply IH; [lia|lia| |auto].
    intros Hn. destruct (area_shift memory segment shift from to (j + 1) ltac:(lia)) as [E3 E4].
    assert ((NS - (j + 1)) * segment = (NS - j) * segment - segment) by lia.
    assert (0 <= (NS - (j + 1)) * segment) by nia.
    assert ((NS - j) * segment <= NS * segment) by nia.
    rewrite !small_wrap by lia. rewrite E1, E3. lia.
Qed.

Lemma shift_memory_spec : forall w, world w 1 None ->
  (exists w1, shift_memory (flash_env_of strict) 1 w memory (zlen from) segment shift = Ret (0, NS + 1, w1) /\ world w1 (NS + 1) None) \/
  (exists e j1 w1, shift_memory (flash_env_of strict) 1 w memory (zlen from) segment shift = Ret (e, j1, w1) /\ e < 0 /\ e <> - E_ALREADY_DONE /\ off w1).
Proof.
  intros w W. steps. szs. unfold shift_memory. destruct (Z.eqb_spec segment 0); [lia|].
  rewrite (small_wrap (memory - shift)) by lia.
  rewrite (small_wrap (Z.min (zlen from) (memory - shift) + segment)) by lia.
  rewrite (small_wrap (Z.min (zlen from) (memory - shift) + segment - 1)) by lia.
  change ((Z.min (zlen from) (memory - shift) + segment - 1) / segment) with NS.
  apply shift_loop_spec; [lia|lia| |auto].
  intros H. destruct (area_shift memory segment shift from to 1 ltac:(lia)) as [E1 E2].
  assert (0 <= (NS - 1) * segment) by (apply Z.mul_nonneg_nonneg; lia).
  assert (NS <= NS * segment) by (rewrite <- (Z.mul_1_r NS) at 1; apply Z.mul_le_mono_nonneg_l; lia).
  rewrite (small_wrap (NS - 1)) by lia. rewrite (small_wrap ((NS - 1) * segment)) by lia.
  rewrite small_wrap by lia. rewrite E1. lia.
Qed.

End Shift.
