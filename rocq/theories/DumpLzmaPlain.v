(** A library with LZMA dumps and restores patches of the other compressions as one
    without (C81). *)

From Coq Require Import ZArith List Bool Lia ZifyBool ZifyNat ZifyN.
From Verif Require Import Prelude Lib Heatshrink CReader CSeq Spec SeqSpec CLzma CSeqLzma CDumpLzma LzmaSpec LzmaSafe LzmaPlain DumpSpec DumpLzmaSpec.
Import ListNotations.
Open Scope Z_scope.

Section Plain.
Context {WBits : WordBits} {D : Type} (L : lzma_lib D) {W : Type} (E : seq_env W) (before : W -> W) (after : Z -> W -> W).
Context (patch : list Z) (Hlen : zlen patch < 2 ^ word_bits) (Hp : announced_comp patch <> 1).

(** Without the piece that was processed last, which the next call overwrites. *)
Definition bare (x : xap D) : xap D := mkxap (set_chunk (x_ap x) []) (x_reader x).

Definition rel (x : xap D) : Prop :=
  0 <= a_patch_offset (x_ap x) <= zlen patch /\ pinv (zdrop (a_patch_offset (x_ap x)) patch) (bare x).

Lemma once_offset : forall x w r x1 w1, x_once L E x w = Ret (r, x1, w1) -> a_patch_offset (x_ap x1) = a_patch_offset (x_ap x).
Proof.
  intros x w r x1 w1 U. unfold x_once in U. apply obind_ret in U. destruct U as ([[r0 x0] w0] & A & U).
  assert (G : a_patch_offset (x_ap x0) = a_patch_offset (x_ap x)).
  { assert (SZ : forall next r0 x0, x_size L x next = Ret (r0, x0) -> a_patch_offset (x_ap x0) = a_patch_offset (x_ap x)).
    { intros next r2 x2 B. unfold x_size in B. destruct (x_reader x); [|discriminate]. apply obind_ret in B. destruct B as ([[[[res v] z1] r1] l1] & _ & B).
      destruct (negb (res =? 0)); injection B as <- <-; reflexivity. }
    assert (DT : forall next, x_data L E x w next = Ret (r0, x0, w0) -> a_patch_offset (x_ap x0) = a_patch_offset (x_ap x)).
    { intros next B. unfold x_data in B. destruct (Z.min 128 (a_chunk_size (x_ap x)) =? 0); [injection B as <- <- <-; reflexivity|]. destruct (x_reader x); [|discriminate].
      apply obind_ret in B. destruct B as ([[[res out] r1] l1] & _ & B). destruct (negb (res =? 0)); [injection B as <- <- <-; reflexivity|]. cbv zeta in B.
      apply obind_ret in B. destruct B as ([[[io data] s2] w2] & C & B).
      assert (C1 : a_patch_offset s2 = a_patch_offset (x_ap x)).
      { destruct next; try (injection C as <- <- <- <-; reflexivity). destruct (from_read E w (zlen out)) as [[rr from] w3]. destruct (negb (rr =? 0)); [injection C as <- <- <- <-; reflexivity|].
        apply obind_ret in C. destruct C as (d & _ & C). injection C as <- <- <- <-. reflexivity. }
      destruct io; [injection B as <- <- <-; exact C1|]. destruct (to_write E w2 data) as [rw w3]. destruct (negb (rw =? 0)); injection B as <- <- <-; exact C1. }
    destruct (a_state (x_ap x)).
    - apply obind_ret in A. destruct A as ([r2 x2] & B & A). injection A as <- <- <-. unfold x_init in B. destruct (a_to_init (x_ap x)).
      + unfold x_init_to_size in B. cbv zeta in B. apply obind_ret in B. destruct B as ([[[res v] z1] l1] & _ & B). destruct (negb (res =? 0)); [injection B as <- <-; reflexivity|].
        destruct (xreader_init L _ _) as [e [rr|]]; [destruct (v <? 0)|]; injection B as <- <-; reflexivity.
      + apply obind_ret in B. destruct B as ([r3 s3] & X & B). injection B as <- <-. unfold process_init_fixed_header in X. destruct (a_left (x_ap x)); [injection X as <- <-; reflexivity|]. cbv zeta in X. destruct (negb _); injection X as <- <-; reflexivity.
    - apply obind_ret in A. destruct A as ([r2 x2] & B & A). injection A as <- <- <-. unfold x_dfpatch_size in B. destruct (x_reader x); [|discriminate]. apply obind_ret in B. destruct B as ([[[[res v] z1] r1] l1] & _ & B).
      destruct (negb (res =? 0)); [injection B as <- <-; reflexivity|]. destruct (0 <? v); injection B as <- <-; reflexivity.
    - apply obind_ret in A. destruct A as ([r2 x2] & B & A). injection A as <- <- <-. apply (SZ SDiffData _ _ B).
    - apply (DT SExtraSize A).
    - apply obind_ret in A. destruct A as ([r2 x2] & B & A). injection A as <- <- <-. apply (SZ SExtraData _ _ B).
    - apply (DT SAdjustment A).
    - unfold x_adjustment in A. destruct (x_reader x); [|discriminate]. apply obind_ret in A. destruct A as ([[[[res v] z1] r1] l1] & _ & B).
      destruct (negb (res =? 0)); [injection B as <- <- <-; reflexivity|]. destruct (from_seek E w v) as [rs w3]. destruct (negb (rs =? 0)); [injection B as <- <- <-; reflexivity|].
      apply obind_ret in B. destruct B as (fo & _ & B). injection B as <- <- <-. reflexivity.
    - injection A as <- <- <-. reflexivity.
    - injection A as <- <- <-. reflexivity. }
  destruct (a_state (x_ap x)); injection U as <- <- <-; auto; destruct (r0 <? 0); exact G.
Qed.

Lemma loop_offset : forall fuel res x w r x1 w1, x_process_loop L E fuel res x w = Ret (r, x1, w1) -> a_patch_offset (x_ap x1) = a_patch_offset (x_ap x).
Proof.
  induction fuel; intros res x w r x1 w1 U; cbn [x_process_loop] in U; destruct (a_left (x_ap x)); try (injection U as <- <- <-; reflexivity).
  - destruct (res <? 0); [injection U as <- <- <-; reflexivity|discriminate].
  - destruct (res <? 0); [injection U as <- <- <-; reflexivity|]. apply obind_ret in U. destruct U as ([[r2 x2] w2] & A & U). apply once_offset in A. apply IHfuel in U. congruence.
Qed.

Lemma process_rel : forall fuel x w n, rel x ->
  psim rel pl (x_process L E fuel x w (piece_at patch (a_patch_offset (x_ap x)) n)) (process E fuel 128 (pl x) w (piece_at patch (a_patch_offset (x_ap x)) n)).
Proof.
  intros fuel x w n (Ho & Hi). set (off := a_patch_offset (x_ap x)) in *. set (c := piece_at patch off n).
  set (rest := zdrop (off + zlen c) patch).
  assert (Hc : zdrop off patch = c ++ rest /\ off + zlen c <= zlen patch /\ 0 <= zlen c).
  { unfold rest, c, piece_at. pose proof (zlen_nonneg (ztake n (zdrop off patch))). destruct (Z.le_gt_cases n 0) as [Hn|Hn].
    - assert (ztake n (zdrop off patch) = []) as -> by (unfold ztake; replace (Z.to_nat n) with O by lia; reflexivity). change (zlen (@nil Z)) with 0. rewrite Z.add_0_r. cbn [app]. split; [reflexivity|lia].
    - rewrite zlen_ztake, zlen_zdrop by lia. split; [|lia]. rewrite <- (ztake_zdrop n (zdrop off patch)) at 1. f_equal. rewrite zdrop_zdrop by lia.
      destruct (Z.le_gt_cases n (zlen patch - off)); [f_equal; lia|]. rewrite !zdrop_all by lia. reflexivity. }
  destruct Hc as (Hc & Hcl & Hc0). rewrite Hc in Hi. unfold x_process, process. cbv zeta.
  set (x0 := mkxap (set_chunk (set_patch_offset (x_ap x) (wrap (a_patch_offset (x_ap x) + zlen c))) c) (x_reader x)).
  assert (Hi' : pinv rest x0) by (apply (pinv_chunk rest c (bare x)); auto).
  eapply psim_bind; [exact (loop_plain L E fuel _ 0 _ w Hi')|]. intros v x1 w1 A B. pose proof (loop_offset _ _ _ _ _ _ _ A) as O. apply loop_ends in A; [|lia]. cbn [psim]. split; [reflexivity|]. split; [reflexivity|]. split; [reflexivity|].
  change (a_patch_offset (x_ap x0)) with (wrap (off + zlen c)) in O. unfold rel. rewrite O. unfold wrap. rewrite Z.mod_small by lia. split; [lia|]. fold rest.
  destruct B as [B1 B2]. split; [exact B1|]. cbn. destruct (a_state (x_ap x1)); auto. destruct A as [A|A]; [|congruence]. rewrite A in B2. exact B2.
Qed.

Lemma restore_rel : forall x w junk size, rel x ->
  psim rel pl (x_restore E (xap_init junk size) x w) (restore E (ap_init junk size) (pl x) w).
Proof.
  intros x w junk size (Ho & Hr & Hs). cbn [bare x_reader x_ap] in Hr, Hs. change (a_state (set_chunk (x_ap x) [])) with (a_state (x_ap x)) in Hs.
  assert (Hz : forall s r, a_state s <> SInit -> a_patch_offset s = a_patch_offset (x_ap x) -> match r with None | Some (XPlain _) => True | _ => False end -> rel (mkxap s r)).
  { intros s r A B C. split; cbn [x_ap]; [rewrite B; exact Ho|]. split; [exact C|]. cbn. destruct (a_state s); auto. congruence. }
  assert (Hd : dump_ok (pl x) = dump_ok (x_ap x)) by reflexivity.
  assert (Hy : forall s : ap, plain (x_restore_reader (x_reader x)) = restore_reader (plain (x_reader x)) /\ match x_restore_reader (x_reader x) with None | Some (XPlain _) => True | _ => False end).
  { intros _. destruct (x_reader x) as [[r|r|h]|]; try contradiction; [|split; [reflexivity|exact I]]. cbn [x_restore_reader plain]. destruct r; cbn; auto. }
  destruct (Hy (x_ap x)) as (Y1 & Y2). unfold x_restore, restore. rewrite Hd. change (a_state (pl x)) with (a_state (x_ap x)). destruct (a_state (x_ap x)) eqn:Es.
  { cbn [obind psim]. split; [reflexivity|]. split; [reflexivity|]. split; [reflexivity|]. split; [cbn; pose proof (zlen_nonneg patch); lia|]. split; [exact I|]. cbn. right. exact Hp. }
  all: cbv zeta; cbn [a_from_offset]; change (a_from_offset (pl x)) with (a_from_offset (x_ap x));
    match goal with |- context [from_seek ?e ?y ?o] => destruct (from_seek e y o) as [rs w1] end;
    (destruct (negb (rs =? 0)); cbn [obind];
     [change (- E_IO_FAILED =? - E_IO_FAILED) with true; cbv iota; cbn [psim]; (split; [reflexivity|]); (split; [reflexivity|]); (split; [reflexivity|]); apply Hz; [cbn; discriminate|reflexivity|exact I]|
      assert (Q : ((if dump_ok (x_ap x) then 0 else - E_NOT_IMPLEMENTED) =? - E_IO_FAILED) = false) by (destruct (dump_ok (x_ap x)); reflexivity); rewrite Q; cbn [psim];
      (split; [reflexivity|]); (split; [reflexivity|]); (split; [unfold pl; cbn [x_ap x_reader]; rewrite Y1; reflexivity|]); apply Hz; [cbn; discriminate|reflexivity|exact Y2]]).
Qed.

Lemma finalize_rel : forall fuel x w, rel x -> psim (fun _ => True) pl (x_finalize L E fuel x w) (finalize E fuel 128 (pl x) w).
Proof. intros fuel x w (_ & H). exact (finalize_plain L E fuel _ (bare x) w H (or_introl eq_refl)). Qed.

Lemma steps_rel : forall steps fuel x w, rel x -> x_run_steps E before after L fuel patch x w steps = run_steps E before after fuel patch (pl x) w steps.
Proof.
  assert (K : forall (I : xap D -> Prop) (o1 : outcome (Z * xap D * W)) (o2 : outcome (Z * ap * W)) (k1 : Z * xap D * W -> outcome (list Z * W)) (k2 : Z * ap * W -> outcome (list Z * W)),
    psim I pl o1 o2 -> (forall v x w, I x -> k1 (v, x, w) = k2 (v, pl x, w)) -> obind o1 k1 = obind o2 k2).
  { intros I o1 o2 k1 k2 H G. destruct o1 as [[[v x] w]| |], o2 as [[[v' s] w']| |]; cbn in H; try contradiction; try reflexivity. destruct H as (-> & -> & -> & H). cbn [obind]. apply G. exact H. }
  induction steps as [|[n|junk size] steps IH]; intros fuel x w H; cbn [x_run_steps run_steps].
  - eapply K; [apply finalize_rel; exact H|]. reflexivity.
  - eapply K; [apply process_rel; exact H|]. intros v x1 w1 H1. cbv beta iota. rewrite IH by exact H1. reflexivity.
  - eapply K; [apply restore_rel; exact H|]. intros v x1 w1 H1. cbv beta iota. rewrite IH by exact H1. reflexivity.
Qed.

Lemma steps_same : forall fuel junk ps w steps,
  x_run_steps E before after L fuel patch (xap_init junk ps) w steps = run_steps E before after fuel patch (ap_init junk ps) w steps.
Proof.
  intros fuel junk ps w steps. apply (steps_rel steps fuel (xap_init junk ps) w). split; [cbn; pose proof (zlen_nonneg patch); lia|]. split; [exact I|]. cbn. right. exact Hp.
Qed.

End Plain.
