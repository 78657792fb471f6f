(** patch_info() of patches with the compressions of other packages. *)

From Coq Require Import ZArith List Bool Lia ZifyBool ZifyNat ZifyN.
From Verif Require Import Prelude Lib Spec PySize Bsdiff BsdiffSpec PyCreate SizeCodec PyApply PySpec PyReader PySeq PyApplyInPlace PyInfo PyInfoSpec PyInfoProofs PyInfoThms.
From Verif Require Import PyThms SeqApply PyOther PyOtherSpec PyOtherProofs PyOtherExamples CreateExamples PyExamples PyInfoExamples.
Import ListNotations.
Open Scope Z_scope.

Lemma other_info_header : forall X DI HI fuel number n file, other_number number -> - 2 ^ 63 < n < 2 ^ 63 ->
  let patch := py_pack_header 0 number :: enc_size n ++ file in
  patch_info X DI HI fuel patch =
  if n =? 0 then ret (InfoSequential (mksi (zlen patch) number 0 None (mkinner 0 [] [] [] 0)))
  else info_body DI fuel (zlen patch) number n (x_other X number) file.
Proof.
  intros X DI HI fuel number n file Ho Hn patch. unfold patch_info, patch. rewrite other_header by (auto; lia). cbn [Z.eqb]. unfold patch_info_sequential, read_header_sequential. cbn [hd]. rewrite other_header by (auto; lia). rewrite other_dec by auto.
  change (negb (0 =? 0)) with false. cbn iota. unfold file_unpack_size. rewrite py_unpack_enc by exact Hn. cbn [pbind ret snd]. destruct (n =? 0); reflexivity.
Qed.

Lemma info_other : forall X DI HI number compress sa from to, other_number number -> pair_ok compress (x_other X number) ->
  array_ok sa from -> bytes_ok to -> zlen from < 2 ^ 30 -> zlen to < 2 ^ 30 ->
  exists patch recs, create_sequential_with number compress sa from to = Ret (Some patch) /\ apply_recs from 0 recs = Some to /\ recs_size recs = zlen to /\
    exists n, forall fuel, (n <= fuel)%nat ->
    patch_info X DI HI fuel patch = ret (InfoSequential (mksi (zlen patch) number 0 None
      (mkinner (recs_size recs) (diff_sizes recs) (extra_sizes recs) (adjustments recs) (zlen (size_fields recs))))).
Proof.
  intros X DI HI number compress sa from to Ho Hp Hsa Hto HF HT.
  destruct (create_other number compress sa from to Hsa Hto HF HT) as [(-> & E)|(recs & pieces & Hne & A & B & C & D & E & G)].
  - eexists. exists []. split; [exact E|]. split; [reflexivity|]. split; [reflexivity|]. exists O. intros fuel _.
    rewrite <- (app_nil_r (enc_size 0)). rewrite other_info_header by (auto; change (2 ^ 63) with 9223372036854775808; lia). reflexivity.
  - destruct (Hp pieces D) as (stream & S1 & S2); [rewrite E; apply enc_body_ne|]. rewrite S1 in G. eexists. exists recs. split; [exact G|]. split; [exact C|]. split; [symmetry; eapply apply_size; eauto|].
    rewrite E in S2. destruct S2 as (R & R1 & R2 & R3). exists (Datatypes.S (2 * (length stream + length (enc_body recs)) + 1)). intros fuel Hf. pose proof (last_pos_size _ B). pose proof A as (Hz & Hadj).
    rewrite other_info_header; auto; [|change (2 ^ 63) with 9223372036854775808 in *; lia]. destruct (Z.eqb_spec (recs_size recs) 0); [lia|].
    set (size := zlen _). destruct (info_body_spec _ R R1 DI fuel size number recs stream (enc_body recs) [] []) as [(r & out1 & B1 & B2 & B3)|(B1 & _)]; auto; [|congruence].
    rewrite B3. apply app_eq_nil in B1. destruct B1 as (-> & _). unfold pr_eof. rewrite (R2 _ _ B2). reflexivity.
Qed.

Lemma ex_info_other : exists patch i, create_sequential_with 5 (zstd_compress plain_lib) ex_sa ex_from ex_to = Ret (Some patch) /\
  patch_info plain_ext ex_di ex_hi 200 patch = ret (InfoSequential i) /\ si_compression i = 5 /\ ii_to_size (si_inner i) = 28 /\
  ii_diffs (si_inner i) = [0; 12; 15] /\ ii_extras (si_inner i) = [0; 1; 0] /\ ii_adjustments (si_inner i) = [3; -15; -5].
Proof. do 2 eexists. split; [vm_compute; reflexivity|]. split; [vm_compute; reflexivity|]. repeat (split; [reflexivity|]). reflexivity. Qed.
