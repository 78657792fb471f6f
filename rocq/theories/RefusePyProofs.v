(** Proofs about patches the Python functions refuse because of their first byte. *)

From Coq Require Import ZArith List Bool Lia ZifyBool.
From Verif Require Import Prelude PyApply PyApplyInPlace PyInfo PyHdiff PyInfoHdiff Lib Spec PySize PyCreate SizeCodec PyReader PyApplyProofs HdiffSpec HdiffProofs RefuseSpec RefusePySpec.
Import ListNotations.
Open Scope Z_scope.

Lemma header_parts : forall b, unpack_header b = (patch_type b, patch_comp b).
Proof.
  intro b. unfold unpack_header, patch_type, patch_comp. f_equal.
  - change 7 with (Z.ones 3). rewrite Z.land_ones, Z.shiftr_div_pow2 by lia. reflexivity.
  - change 15 with (Z.ones 4). rewrite Z.land_ones by lia. reflexivity.
Qed.

Lemma no_decompressor : forall X c, ~ (0 <= c <= 6) -> decompressor_of X c = None.
Proof.
  intros X c H. unfold decompressor_of.
  destruct (c =? 0) eqn:E0; [lia|]. destruct (c =? 2) eqn:E2; [lia|]. destruct (c =? 4) eqn:E4; [lia|].
  destruct ((c =? 1) || (c =? 3) || (c =? 5) || (c =? 6)) eqn:E; [lia|reflexivity].
Qed.

Lemma sequential_strange : forall X patch, strange [0] patch -> read_header_sequential X patch = raise DetoolsError.
Proof.
  intros X [|b rest] H; [reflexivity|]. cbn [strange In] in H. unfold read_header_sequential. rewrite header_parts.
  destruct (patch_type b =? 0) eqn:E; [|reflexivity]. cbn [negb].
  rewrite no_decompressor; [reflexivity|]. intro C. destruct H as [H|H]; [apply H; left; lia|exact (H C)].
Qed.

Lemma in_place_strange : forall X patch, strange [1] patch -> read_header_in_place X patch = raise DetoolsError.
Proof.
  intros X [|b rest] H; [reflexivity|]. cbn [strange In] in H. unfold read_header_in_place. rewrite header_parts.
  destruct (patch_type b =? 1) eqn:E; [|reflexivity]. cbn [negb].
  rewrite no_decompressor; [reflexivity|]. intro C. destruct H as [H|H]; [apply H; left; lia|exact (H C)].
Qed.

Lemma hdiff_strange : forall X patch, strange [2] patch -> read_header_hdiffpatch X patch = raise DetoolsError.
Proof.
  intros X [|b rest] H; [reflexivity|]. cbn [strange In] in H. unfold read_header_hdiffpatch. rewrite header_parts.
  destruct (patch_type b =? 2) eqn:E; [|reflexivity]. cbn [negb].
  rewrite no_decompressor; [reflexivity|]. intro C. destruct H as [H|H]; [apply H; left; lia|exact (H C)].
Qed.

Lemma apply_any_refuses : forall X F L M fuel clamps from patch, strange [0; 2] patch ->
  apply_patch_any X F L M fuel clamps from patch = Ret (HRaise DetoolsError).
Proof.
  intros X F L M fuel clamps from [|b rest] H; [reflexivity|]. cbn [strange In] in H. unfold apply_patch_any. rewrite header_parts.
  destruct (patch_type b =? 0) eqn:E.
  - unfold apply_patch_sequential. rewrite sequential_strange; [reflexivity|]. cbn [strange In]. right. intro C.
    destruct H as [H|H]; [apply H; left; lia|exact (H C)].
  - destruct (patch_type b =? 2) eqn:E2; [|reflexivity].
    unfold apply_patch_hdiffpatch. rewrite hdiff_strange; [reflexivity|]. cbn [strange In]. right. intro C.
    destruct H as [H|H]; [apply H; right; left; lia|exact (H C)].
Qed.

Lemma apply_in_place_refuses : forall X fuel bytesio mem patch, strange [1] patch ->
  apply_patch_in_place X fuel bytesio mem patch = raise DetoolsError.
Proof. intros X fuel bytesio mem patch H. unfold apply_patch_in_place. rewrite in_place_strange by exact H. reflexivity. Qed.

Lemma info_refuses : forall X DI fuel patch, strange [0; 1; 2] patch -> patch_info_any X DI fuel patch = raise DetoolsError.
Proof.
  intros X DI fuel [|b rest] H; [reflexivity|]. cbn [strange In] in H. unfold patch_info_any, patch_info. rewrite header_parts.
  destruct (patch_type b =? 0) eqn:E0; [|destruct (patch_type b =? 1) eqn:E1; [|destruct (patch_type b =? 2) eqn:E2; [|reflexivity]]].
  - unfold patch_info_sequential. rewrite sequential_strange; [reflexivity|]. right. intro C. destruct H as [H|H]; [apply H; lia|exact (H C)].
  - unfold patch_info_in_place. rewrite in_place_strange; [reflexivity|]. right. intro C. destruct H as [H|H]; [apply H; lia|exact (H C)].
  - unfold patch_info_hdiffpatch. rewrite hdiff_strange; [reflexivity|]. right. intro C. destruct H as [H|H]; [apply H; lia|exact (H C)].
Qed.

(** ** patch_info() of hdiffpatch patches *)

Lemma pack_fits : forall n l, 0 <= n -> py_pack_size n = Ret (Some l) -> n < 2 ^ 63 /\ l = enc_size n.
Proof.
  intros n l Hn H. assert (L : n < 2 ^ 63).
  { unfold py_pack_size in H. destruct (n <? 2 ^ 63) eqn:E; [apply Z.ltb_lt; exact E|]. rewrite andb_false_r in H. discriminate H. }
  split; [exact L|]. rewrite pack_enc in H by (change (2 ^ 63) with 9223372036854775808 in *; lia). congruence.
Qed.

Lemma hdiff_file_info : forall X DI C n patch file fuel, decompressor_of X (cm_number C) <> None -> 0 <= n ->
  hdiff_patch_file C n patch = Ret (HVal file) -> patch_info_any X DI fuel file = ret (InfoHdiff (zlen file, cm_number C, n)).
Proof.
  intros X DI C n patch file fuel HD Hn. destruct (decompressor_of X (cm_number C)) as [D|] eqn:ED; [clear HD|congruence].
  unfold hdiff_patch_file.
  destruct (py_pack_size n) as [[size|]| |] eqn:E1; cbn [of_step hbind]; try discriminate.
  destruct (py_pack_size (zlen patch)) as [[psize|]| |] eqn:E2; cbn [of_step hbind]; try discriminate.
  destruct (cm_compress C [patch]) as [stream|]; cbn [of_step hbind]; try discriminate.
  intros E. injection E as <-. pose proof (zlen_nonneg patch).
  apply pack_fits in E1; [|exact Hn]. apply pack_fits in E2; [|assumption]. destruct E1 as (L1 & ->), E2 as (L2 & ->).
  unfold patch_info_any, patch_info. pose proof (number_range _ _ _ ED). rewrite header_fields by lia. cbn [Z.eqb].
  unfold patch_info_hdiffpatch, read_header_hdiffpatch. cbn [hd]. rewrite header_fields by lia. rewrite ED. change (negb (2 =? 2)) with false. cbn iota.
  unfold file_unpack_size. change (2 ^ 63) with 9223372036854775808 in *.
  rewrite py_unpack_enc by (change (2 ^ 63) with 9223372036854775808; lia). cbn [pbind ret].
  rewrite py_unpack_enc by (change (2 ^ 63) with 9223372036854775808; lia). reflexivity.
Qed.

Lemma hdiff_created_info : forall X DI L C bsdiff ffrom fto a score block use_mmap file fuel, decompressor_of X (cm_number C) <> None ->
  create_patch L C bsdiff ffrom fto a THdiffpatch score block use_mmap = Ret (HVal file) ->
  patch_info_any X DI fuel file = ret (InfoHdiff (zlen file, cm_number C, zlen (pf_content fto))).
Proof.
  intros X DI L C bsdiff ffrom fto a score block use_mmap file fuel HD H. pose proof (zlen_nonneg (pf_content fto)).
  destruct a; cbn [create_patch] in H; try discriminate H.
  - unfold create_hdiffpatch in H. destruct (create_generic _ _ _ _ _ _ _) as [[patch| |]| |]; cbn [hbind] in H; try discriminate H.
    eapply hdiff_file_info; eauto.
  - unfold create_match_blocks in H. cbn [type_number] in H. destruct (create_generic _ _ _ _ _ _ _) as [[patch| |]| |]; cbn [hbind] in H; try discriminate H.
    eapply hdiff_file_info; eauto.
Qed.
