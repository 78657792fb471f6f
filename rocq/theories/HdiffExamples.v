(** A library that meets what is asked of HDiffPatch, and cases for the theorems. *)

From Coq Require Import ZArith List Bool Lia ZifyBool ZifyNat ZifyN.
From Verif Require Import Prelude Lib Spec PySize PyCrle Bsdiff BsdiffSpec BsdiffProofs PyCreate SizeCodec CrleProofs CodecExamples SeqApply CreateProofs SeqTrunc
  PyDecomp PyApply PySpec PyReader PyApplyProofs PySeq PyThms PyOtherSpec PyExamples PyHdiff HdiffSpec HdiffProofs HdiffThms.
Import ListNotations.
Open Scope Z_scope.

(** The sizes and then the to data; or one record without diff data. *)
Definition toy_diff (from to : list Z) (n type : Z) : option (list Z) :=
  if (zlen from <? 2 ^ 60) && (zlen to <? 2 ^ 60) then
    if type =? 2 then Some (enc_size (zlen from) ++ enc_size (zlen to) ++ to)
    else Some (match to with [] => [] | _ => enc_recs [mkrec [] to 0] end)
  else None.

Definition toy_split (patch : list Z) : option (Z * Z * list Z) :=
  match py_unpack_size patch with
  | None => None
  | Some (old, rest) => match py_unpack_size rest with None => None | Some (new, data) => Some (old, new, data) end
  end.

Definition toy_hdiff : hdiff_lib :=
  mkhl toy_diff toy_diff
    (fun patch => match toy_split patch with None => None | Some (old, new, _) => Some (old, new) end)
    (fun from patch cache => match toy_split patch with None => None | Some (old, new, data) => if zlen data =? new then Some data else None end).

Lemma enc_size_len : forall v, - 2 ^ 63 < v < 2 ^ 63 -> 1 <= zlen (enc_size v) <= 11.
Proof.
  intros v Hv. unfold enc_size. destruct (_ <? 64); [cbn; lia|]. rewrite zlen_cons.
  assert (G : forall k a, 0 <= zlen (enc_groups k a) <= Z.of_nat k).
  { induction k; intros a; cbn [enc_groups]; [cbn; lia|]. specialize (IHk (a / 128)). destruct (a =? 0); [cbn; lia|]. destruct (a <? 128); rewrite zlen_cons; [change (zlen (@nil Z)) with 0|]; lia. }
  specialize (G 10%nat (Z.abs v / 64)). lia.
Qed.

Lemma toy_diff_ok : forall from to n patch, bytes_ok from -> bytes_ok to -> toy_diff from to n 2 = Some patch -> lib_patch_for toy_hdiff from to patch.
Proof.
  intros from to n patch Hf Ht. unfold toy_diff. change (2 ^ 60) with 1152921504606846976. pose proof (zlen_nonneg from). pose proof (zlen_nonneg to).
  destruct (Z.ltb_spec (zlen from) 1152921504606846976); [|intros X; discriminate X]. destruct (Z.ltb_spec (zlen to) 1152921504606846976); [|intros X; discriminate X].
  cbn [andb Z.eqb Pos.eqb]. intros E. injection E as <-.
  assert (Hs : toy_split (enc_size (zlen from) ++ enc_size (zlen to) ++ to) = Some (zlen from, zlen to, to)).
  { unfold toy_split. rewrite py_unpack_enc by (change (2 ^ 63) with 9223372036854775808; lia). rewrite py_unpack_enc by (change (2 ^ 63) with 9223372036854775808; lia). reflexivity. }
  pose proof (enc_size_len (zlen from) ltac:(change (2 ^ 63) with 9223372036854775808; lia)). pose proof (enc_size_len (zlen to) ltac:(change (2 ^ 63) with 9223372036854775808; lia)).
  unfold lib_patch_for. split.
  { intros X. apply (f_equal zlen) in X. rewrite !zlen_app in X. change (zlen (@nil Z)) with 0 in X. lia. }
  split; [rewrite !bytes_ok_app; repeat split; auto using enc_size_bytes|]. split; [rewrite !zlen_app; change (2 ^ 63) with 9223372036854775808; lia|].
  cbn [toy_hdiff hl_info hl_patch]. rewrite Hs. split; [reflexivity|]. intros cache _. rewrite Z.eqb_refl. reflexivity.
Qed.

Lemma toy_ok : lib_ok toy_hdiff.
Proof. intros from to n patch Hf Ht [E|E]; eapply toy_diff_ok; eauto. Qed.

Lemma toy_sequential : forall from to n patch, bytes_ok from -> bytes_ok to -> toy_diff from to n 0 = Some patch ->
  bytes_ok patch /\ zlen patch < 2 ^ 62 /\
  exists recs, patch = enc_recs recs /\ apply_recs from 0 recs = Some to /\ recs_fit recs /\ (to = [] \/ last_nonempty recs).
Proof.
  intros from to n patch Hf Ht. unfold toy_diff. change (2 ^ 60) with 1152921504606846976. pose proof (zlen_nonneg from). pose proof (zlen_nonneg to).
  destruct (Z.ltb_spec (zlen from) 1152921504606846976); [|intros X; discriminate X]. destruct (Z.ltb_spec (zlen to) 1152921504606846976); [|intros X; discriminate X].
  cbn [andb Z.eqb]. destruct to as [|b to].
  - intros E. injection E as <-. split; [constructor|]. split; [reflexivity|]. exists []. split; [reflexivity|]. split; [reflexivity|]. split; [split; [reflexivity|constructor]|auto].
  - assert (Hne : 0 < zlen (b :: to)) by (pose proof (zlen_nonneg to); rewrite zlen_cons; lia). set (t := b :: to) in *. clearbody t. intros E.
    assert (E1 : enc_recs [mkrec [] t 0] = enc_size 0 ++ enc_size (zlen t) ++ t ++ enc_size 0).
    { cbn [enc_recs flat_map]. unfold enc_rec. cbn [r_diff r_extra r_adj]. rewrite app_nil_r. reflexivity. }
    assert (E2 : patch = enc_recs [mkrec [] t 0]) by congruence. subst patch. clear E. pose proof (enc_size_len (zlen t) ltac:(change (2 ^ 63) with 9223372036854775808; lia)).
    split; [rewrite E1, !bytes_ok_app; repeat split; auto using enc_size_bytes|].
    split; [rewrite E1, !zlen_app; change (zlen (enc_size 0)) with 1; change (2 ^ 62) with 4611686018427387904; lia|].
    exists [mkrec [] t 0]. split; [reflexivity|].
    split; [cbn; rewrite app_nil_r; reflexivity|]. split.
    + split; [unfold recs_size, rec_size; cbn [fold_right r_diff r_extra]; change (zlen (@nil Z)) with 0; change (2 ^ 63) with 9223372036854775808; lia|].
      constructor; [cbn; lia|constructor].
    + right. exists [], (mkrec [] t 0). split; [reflexivity|]. unfold rec_size. cbn [r_diff r_extra]. change (zlen (@nil Z)) with 0. lia.
Qed.

Lemma toy_sequential_ok : lib_sequential_ok toy_hdiff.
Proof. intros from to n patch Hf Ht [E|E]; eapply toy_sequential; eauto. Qed.

(** Memory that is there at the third attempt. *)
Definition toy_memory : hdiff_memory := mkhm (fun _ => true) (fun k _ => (2 <=? k)%nat).

Lemma toy_memory_ok : forall n, memory_ok toy_memory n.
Proof. intros n. split; [reflexivity|]. exists 2%nat. intros s. reflexivity. Qed.

Definition hd_from : py_file := mkpf [10; 20; 30] true.
Definition hd_to : py_file := mkpf [11; 21; 31; 41] true.

Definition never (t : type_name) : hpy (list Z) := Ret (HRaise DetoolsError).
