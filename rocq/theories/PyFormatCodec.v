(** The blocks of a data format patch are read back as they were written, and the
    blocks created by encode are good. *)

From Coq Require Import ZArith List Bool Lia ZifyBool ZifyNat ZifyN.
From Verif Require Import Prelude Lib Spec PySize SizeCodec CodecExamples PyApply PyFormat PyFormatSpec PyFormatFiles PyFormatBlocks.
Import ListNotations.
Open Scope Z_scope.

Local Notation P63 := 9223372036854775808.

Definition small (v : Z) : Prop := - P63 < v < P63.

Lemma size_bytes_enc : forall v, small v -> size_bytes v = ret (enc_size v).
Proof. intros v H. unfold size_bytes. rewrite (proj1 (py_size_codec_enc v [] H)). reflexivity. Qed.

Lemma file_size_enc : forall v rest, small v -> file_unpack_size (enc_size v ++ rest) = ret (v, rest).
Proof. intros v rest H. unfold file_unpack_size. rewrite (py_unpack_enc v rest H). reflexivity. Qed.

Lemma sizes_bytes_enc : forall vs, Forall small vs -> sizes_bytes vs = ret (flat_map enc_size vs).
Proof.
  induction 1 as [|v vs H _ IH]; [reflexivity|]. cbn [sizes_bytes flat_map]. rewrite size_bytes_enc, IH by auto. reflexivity.
Qed.

Lemma unpack_values_enc : forall vs rest, Forall small vs -> unpack_values (length vs) (flat_map enc_size vs ++ rest) = ret (vs, rest).
Proof.
  intros vs rest. induction 1 as [|v vs H _ IH]; [reflexivity|]. cbn [unpack_values flat_map length]. rewrite <- app_assoc, file_size_enc by auto.
  cbn [pbind ret]. unfold ret in IH. rewrite IH. reflexivity.
Qed.

(** ** Blocks *)

Definition block_ok (b : block) : Prop := match b with (i, t, vs) => small i /\ small t /\ zlen vs < P63 /\ Forall small vs end.
Definition header_of (b : block) : Z * Z * Z := match b with (i, t, vs) => (i, t, zlen vs) end.
Definition header_bytes (bs : blocks) : list Z :=
  flat_map enc_size (zlen bs :: flat_map (fun b => match b with (f, t, vs) => [f; t; zlen vs] end) bs).
Definition data_bytes (bs : blocks) : list Z := flat_map enc_size (flat_map (fun b => match b with (_, _, vs) => vs end) bs).
Definition blocks_ok (bs : blocks) : Prop := Forall block_ok bs /\ zlen bs < P63.

Lemma good_block : forall pack size fd F T b, good pack size fd F T b -> block_ok b.
Proof. intros pack size fd F T ((i, t), vs) (A & B & C & D & _). unfold block_ok, small. split; [lia|]. split; [lia|]. split; [lia|exact D]. Qed.

Lemma to_bytes_enc : forall bs, blocks_ok bs -> blocks_to_bytes bs = ret (header_bytes bs, data_bytes bs).
Proof.
  intros bs (H & L). unfold blocks_to_bytes, header_bytes, data_bytes. rewrite !sizes_bytes_enc; [reflexivity| |].
  - clear L. induction H as [|((i, t), vs) bs (A & B & C & D) _ IH]; [constructor|]. cbn [flat_map]. apply Forall_app. auto.
  - constructor; [pose proof (zlen_nonneg bs); unfold small; lia|]. clear L. induction H as [|((i, t), vs) bs (A & B & C & D) _ IH]; [constructor|]. cbn [flat_map].
    apply Forall_app. split; [|auto]. repeat constructor; try apply A; try apply B; pose proof (zlen_nonneg vs); lia.
Qed.

Lemma unpack_headers_enc : forall bs rest, Forall block_ok bs ->
  unpack_headers (length bs) (flat_map enc_size (flat_map (fun b : block => match b with (f, t, vs) => [f; t; zlen vs] end) bs) ++ rest) = ret (map header_of bs, rest).
Proof.
  intros bs rest. induction 1 as [|((i, t), vs) bs (A & B & C & D) _ IH]; [reflexivity|]. cbn [unpack_headers flat_map length map header_of]. cbn [app flat_map].
  rewrite <- !app_assoc. rewrite file_size_enc by auto. cbn [pbind ret]. rewrite file_size_enc by auto. cbn [pbind ret].
  rewrite file_size_enc by (pose proof (zlen_nonneg vs); unfold small; lia). cbn [pbind ret]. unfold ret in IH. rewrite IH. reflexivity.
Qed.

Lemma unpack_header_enc : forall bs rest, blocks_ok bs -> unpack_blocks_header (header_bytes bs ++ rest) = ret (map header_of bs, rest).
Proof.
  intros bs rest (H & L). unfold unpack_blocks_header, header_bytes. cbn [flat_map]. rewrite <- app_assoc.
  rewrite file_size_enc by (pose proof (zlen_nonneg bs); unfold small; lia). cbn [pbind ret]. unfold zlen at 1. rewrite Nat2Z.id. apply unpack_headers_enc. auto.
Qed.

Lemma from_fpatch_enc : forall bs rest, Forall block_ok bs -> blocks_from_fpatch (map header_of bs) (data_bytes bs ++ rest) = ret (bs, rest).
Proof.
  intros bs rest. unfold data_bytes. induction 1 as [|((i, t), vs) bs (A & B & C & D) _ IH]; [reflexivity|].
  cbn [map header_of blocks_from_fpatch flat_map]. unfold zlen at 1. rewrite Nat2Z.id, flat_map_app, <- app_assoc, unpack_values_enc by auto.
  cbn [pbind ret]. unfold ret in IH. rewrite IH. reflexivity.
Qed.

Lemma kind_headers_enc : forall bss rest, Forall blocks_ok bss ->
  unpack_kind_headers (length bss) (flat_map header_bytes bss ++ rest) = ret (map (map header_of) bss, rest).
Proof.
  intros bss rest. induction 1 as [|bs bss H _ IH]; [reflexivity|]. cbn [unpack_kind_headers flat_map length map].
  rewrite <- app_assoc, unpack_header_enc by auto. cbn [pbind ret]. unfold ret in IH. rewrite IH. reflexivity.
Qed.

Lemma kind_blocks_enc : forall bss rest, Forall blocks_ok bss ->
  unpack_kind_blocks (map (map header_of) bss) (flat_map data_bytes bss ++ rest) = ret (bss, rest).
Proof.
  intros bss rest. induction 1 as [|bs bss H _ IH]; [reflexivity|]. cbn [unpack_kind_blocks flat_map map].
  rewrite <- app_assoc, from_fpatch_enc by apply H. cbn [pbind ret]. unfold ret in IH. rewrite IH. reflexivity.
Qed.

(** ** Addresses *)

Definition enc_usize (v : Z) : list Z := enc_size (to_signed v).

Lemma signed_small : forall v, address v -> small (to_signed v).
Proof.
  intros v (A & B). unfold small, to_signed. change (2 ^ 64) with 18446744073709551616 in *. change (2 ^ 63) with P63 in *. destruct (Z.ltb_spec v P63); lia.
Qed.

Lemma usize_bytes_enc : forall v, address v -> usize_bytes v = ret (enc_usize v).
Proof.
  intros v H. pose proof (signed_small v H) as S1. destruct H as (A & B). unfold usize_bytes, py_pack_usize.
  replace ((0 <=? v) && (v <? 2 ^ 64)) with true by lia. rewrite (proj1 (py_size_codec_enc (to_signed v) [] S1)). reflexivity.
Qed.

Lemma usize_enc : forall v rest, address v -> file_unpack_usize (enc_usize v ++ rest) = ret (v, rest).
Proof.
  intros v rest H. pose proof (signed_small v H) as S1. unfold file_unpack_usize, enc_usize. rewrite file_size_enc by auto. cbn [pbind ret].
  change (- 2 ^ 63) with (- P63). change (2 ^ 63) with P63. unfold small in S1. replace ((- P63 <=? to_signed v) && (to_signed v <? P63)) with true by lia.
  destruct H as (A & B). do 3 f_equal. unfold to_unsigned, to_signed in *. change (2 ^ 64) with 18446744073709551616 in *. change (2 ^ 63) with P63 in *.
  destruct (Z.ltb_spec v P63); match goal with |- context [if ?b then _ else _] => destruct b eqn:?; lia end.
Qed.

Lemma usizes_bytes_enc : forall vs, Forall address vs -> usizes_bytes vs = ret (flat_map enc_usize vs).
Proof. induction 1 as [|v vs H _ IH]; [reflexivity|]. cbn [usizes_bytes flat_map]. rewrite usize_bytes_enc, IH by auto. reflexivity. Qed.

Lemma usizes_enc : forall vs rest, Forall address vs -> unpack_usizes (length vs) (flat_map enc_usize vs ++ rest) = ret (vs, rest).
Proof.
  intros vs rest. induction 1 as [|v vs H _ IH]; [reflexivity|]. cbn [unpack_usizes flat_map length]. rewrite <- app_assoc, usize_enc by auto.
  cbn [pbind ret]. unfold ret in IH. rewrite IH. reflexivity.
Qed.

Lemma encs_bytes : forall vs, bytes_ok (flat_map enc_size vs).
Proof. induction vs; [constructor|]. cbn [flat_map]. apply Forall_app. split; [apply enc_size_bytes|auto]. Qed.

Lemma usizes_ok : forall vs, bytes_ok (flat_map enc_usize vs).
Proof. induction vs; [constructor|]. cbn [flat_map]. apply Forall_app. split; [apply enc_size_bytes|auto]. Qed.

Lemma flat_bytes : forall {A} (f : A -> list Z) l, (forall a, bytes_ok (f a)) -> bytes_ok (flat_map f l).
Proof. intros A f l H. induction l; [constructor|]. cbn [flat_map]. apply Forall_app. split; [apply H|exact IHl]. Qed.

(** ** Creation *)

Lemma create_block_spec : forall M pack size fd td F T ffrom fto, matcher_ok M -> 0 <= size -> zlen F < P63 -> zlen T < P63 -> zlen fd < P63 ->
  Forall (fun x => in_file size F (fst x)) fd -> dict_ok pack size T td ->
  Forall (fun x => Forall (fun y => - P63 < snd x - snd y < P63) td) fd -> zlen ffrom = zlen F -> zlen fto = zlen T ->
  exists bs f1 t1, create_patch_block M size fd td ffrom fto = ret (header_bytes bs, data_bytes bs, f1, t1) /\ Forall (good pack size fd F T) bs /\ blocks_ok bs /\
    filled (flat_map (from_fields size fd) bs) (zeros F) ffrom f1 /\ filled (flat_map (to_fields size fd) bs) (zeros T) fto t1.
Proof.
  intros M pack size fd td F T ffrom fto HM Hs HF HT Hfd Hin Htd Hd LF LT.
  assert (Em : exists bs f1 t1, (dop (header, data) := blocks_to_bytes [] in ret (header, data, ffrom, fto)) = ret (header_bytes bs, data_bytes bs, f1, t1) /\
    Forall (good pack size fd F T) bs /\ blocks_ok bs /\
    filled (flat_map (from_fields size fd) bs) (zeros F) ffrom f1 /\ filled (flat_map (to_fields size fd) bs) (zeros T) fto t1).
  { exists [], ffrom, fto. assert (B : blocks_ok []) by (split; [constructor|reflexivity]). rewrite to_bytes_enc by auto.
    split; [reflexivity|]. split; [constructor|]. split; [auto|]. split; apply filled_nil. }
  unfold create_patch_block. destruct fd as [|fx fd']; [exact Em|]. destruct td as [|tx td']; [exact Em|]. clear Em. set (fd := fx :: fd') in *. set (td := tx :: td') in *.
  destruct (HM (offsets (map fst fd)) (offsets (map fst td))) as (M1 & M2).
  destruct (patch_loop_spec pack size fd td F T Hs HF HT Hfd Hin Htd Hd _ ffrom fto M1 ltac:(discriminate) ltac:(discriminate) LF LT) as (bs & f1 & t1 & A & B & C & D & E).
  assert (K : blocks_ok bs).
  { split; [|change (2 ^ 63) with P63 in M2; lia]. eapply Forall_impl; [|exact B]. intros b. apply good_block. }
  exists bs, f1, t1. rewrite A. cbn [pbind ret]. rewrite to_bytes_enc by auto. split; [reflexivity|]. auto.
Qed.
