(** Creating a sequential patch and applying it with the Python functions. *)

From Coq Require Import ZArith List Bool Lia ZifyBool ZifyNat ZifyN.
From Verif Require Import Prelude Lib Heatshrink CReader CSeq Spec PySize PyCrle Bsdiff BsdiffSpec BsdiffProofs PyCreate
  SizeCodec CrleProofs CodecExamples SeqApply SeqSpec SeqTerm SeqMain CreateProofs PyApply PySpec PyApplyProofs PySeq.
Import ListNotations.
Open Scope Z_scope.

(** ** The number of chunks *)

Lemma append_chunks : forall room data size l, append_buffer room data size = Ret (Some l) -> length l = 2%nat.
Proof.
  intros room data size l E. unfold append_buffer in E. destruct (room <? zlen data); [discriminate|]. destruct (c_pack_size size); try discriminate. cbn [obind] in E.
  destruct (size <? 0); [discriminate|]. injection E as <-. reflexivity.
Qed.

Ltac ostep E := match type of E with obind ?m _ = _ => let X := fresh "X" in destruct m eqn:X; try discriminate E; cbn [obind] in E end.

Lemma record_chunks : forall room from to scan pos w chunks w1, write_record room from to scan pos w = Ret (Some (chunks, w1)) -> length chunks = 5%nat.
Proof.
  intros room from to scan pos w chunks w1 E. unfold write_record in E. cbv zeta in E. do 5 ostep E. ostep E. destruct a4 as [ds lb]. do 2 ostep E. destruct a5 as [c1|]; [|discriminate]. do 5 ostep E.
  destruct a9 as [c2|]; [|discriminate]. do 5 ostep E. injection E as <- <-. apply append_chunks in X6. apply append_chunks in X11. rewrite !app_length, X6, X11. reflexivity.
Qed.

Lemma loop_chunks : forall fuel room sa from to scan len pos w acc l, create_loop fuel room sa from to scan len pos w acc = Ret (Some l) ->
  (length l <= length acc + 5 * fuel)%nat.
Proof.
  induction fuel; intros room sa from to scan len pos w acc l E; cbn [create_loop] in E; destruct (scan <? zlen to); try discriminate; try (injection E as <-; lia).
  ostep E. ostep E. destruct a0 as [[[s2 l2] p2] sc]. destruct (negb (l2 =? sc) || (s2 =? zlen to)).
  - ostep E. destruct a0 as [[chunks w1]|]; [|discriminate]. apply record_chunks in X1. apply IHfuel in E. rewrite app_length, X1 in E. lia.
  - apply IHfuel in E. lia.
Qed.

Lemma enc_recs_len : forall recs, zlen (enc_recs recs) <= 33 * Z.of_nat (length recs) + recs_size recs.
Proof.
  induction recs as [|r recs IH]; [reflexivity|]. change (enc_recs (r :: recs)) with (enc_rec r ++ enc_recs recs). rewrite recs_size_cons. unfold enc_rec. rewrite !zlen_app. cbn [length]. rewrite Nat2Z.inj_succ.
  pose proof (enc_size_short (zlen (r_diff r))). pose proof (enc_size_short (zlen (r_extra r))). pose proof (enc_size_short (r_adj r)). lia.
Qed.

Lemma created_len : forall sa from to recs, create_patch sa from to = Ret (Some (flat_map rec_chunks recs)) -> recs_size recs = zlen to -> zlen to < 2 ^ 30 ->
  zlen (enc_body recs) < 2 ^ 63.
Proof.
  intros sa from to recs E Hs HT. unfold create_patch in E. apply loop_chunks in E. cbn [length] in E.
  assert (X : length (flat_map rec_chunks recs) = (5 * length recs)%nat).
  { clear. induction recs; [reflexivity|]. cbn [flat_map]. rewrite app_length, IHrecs. cbn [length rec_chunks]. lia. }
  rewrite X in E. pose proof (enc_recs_len recs). unfold enc_body. rewrite zlen_app. pose proof (enc_size_short 0). rewrite Hs in *. unfold zlen in HT.
  change (2 ^ 63) with 9223372036854775808. change (2 ^ 30) with 1073741824 in *. unfold zlen in H at 2. lia.
Qed.

(** ** What the compressors produce *)

Lemma compressed_py : forall c body stream, compressed c body stream -> py_stream c body stream.
Proof.
  intros c body stream E. inversion E as [b|segs Hs|ts pad bytes A B C D]; subst.
  - constructor.
  - constructor. eapply Forall_impl; [|exact Hs]. cbv beta. intros s. change (2 ^ 28) with 268435456. change (2 ^ 63) with 9223372036854775808. lia.
  - apply (py_heatshrink 8 7 ts pad); auto; lia.
Qed.

Lemma seq_py_patch : forall c recs patch, seq_patch c recs patch -> py_patch c recs patch.
Proof. intros c recs patch [E|(A & stream & B & C)]; [left; auto|right]. split; auto. exists stream. split; auto. apply compressed_py. auto. Qed.

Lemma py_compress_stream : forall c hs pieces, concat pieces <> [] -> bytes_ok (concat pieces) -> zlen (concat pieces) < 2 ^ 63 ->
  (c = CompHeatshrink -> py_stream CompHeatshrink (concat pieces) (hs pieces)) ->
  exists stream, py_compress c hs pieces = Ret (Some stream) /\ py_stream c (concat pieces) stream /\ bytes_ok stream.
Proof.
  intros c hs pieces Hne Hb Hc Hh. destruct c; cbn [py_compress].
  - exists (concat pieces). split; [reflexivity|]. split; [constructor|auto].
  - destruct (crle_compress_segs pieces Hc) as (segs & A & B & C & D). specialize (C Hne). exists (enc_segs segs). rewrite A. cbn [obind]. split; [reflexivity|].
    split.
    + rewrite <- B. constructor. apply segs_len_le in D. rewrite B in D. rewrite Forall_forall in *. intros s Hs. specialize (C s Hs). specialize (D s Hs). lia.
    + apply segs_bytes; [rewrite B; exact Hb|]. eapply Forall_impl; [|exact C]. cbn beta. intros; lia.
  - specialize (Hh eq_refl). exists (hs pieces). split; [reflexivity|]. split; [auto|].
    inversion Hh as [| |wb lb ts pad bytes A B C D E F G H I]; subst. constructor; [unfold byte_ok; lia|auto].
Qed.

Lemma create_py : forall c hs sa from to, array_ok sa from -> bytes_ok to -> zlen from < 2 ^ 30 -> zlen to < 2 ^ 30 ->
  (c = CompHeatshrink -> forall pieces, bytes_ok (concat pieces) -> py_stream CompHeatshrink (concat pieces) (hs pieces)) ->
  exists recs patch, create_sequential c hs sa from to = Ret (Some patch) /\ bytes_ok patch /\ py_patch c recs patch /\ recs_fit recs /\
    apply_recs from 0 recs = Some to.
Proof.
  intros c hs sa from to Hsa Hto HF HT Hh. change (2 ^ 30) with 1073741824 in *. pose proof (zlen_nonneg to). pose proof (zlen_nonneg from).
  unfold create_sequential. rewrite (proj1 (py_size_codec_enc (zlen to) [] ltac:(change (2 ^ 63) with 9223372036854775808; lia))). cbn [obind].
  assert (Hhd : py_pack_header 0 (comp_number c) = header_byte TYPE_SEQUENTIAL c) by (destruct c; reflexivity).
  assert (Hhb : byte_ok (header_byte TYPE_SEQUENTIAL c)) by (unfold byte_ok; destruct c; vm_compute; split; first [discriminate|reflexivity]).
  unfold create_sequential_data. destruct (Z.eqb_spec (zlen to) 0) as [E0|E0].
  - apply zlen_0_nil in E0. subst to. cbn [obind]. exists [], (header_byte TYPE_SEQUENTIAL c :: enc_size 0). rewrite Hhd. change (zlen (@nil Z)) with 0. rewrite app_nil_r.
    split; [reflexivity|]. split; [constructor; [auto|apply enc_size_bytes]|]. split; [left; auto|]. split; [|reflexivity]. split; [reflexivity|constructor].
  - rewrite (proj1 (py_size_codec_enc 0 [] ltac:(change (2 ^ 63) with 9223372036854775808; lia))). cbn [obind].
    destruct (create_patch_spec sa from to Hsa HF HT Hto) as (recs & A & B & C & D & E & F); [intros ->; apply E0; reflexivity|].
    pose proof (created_len sa from to recs A D HT) as Hlen.
    unfold create_chunks in *. rewrite A in *. cbn [obind] in *.
    assert (Hbody : concat (enc_size 0 :: flat_map rec_chunks recs) = enc_body recs) by (cbn [concat]; rewrite concat_recs; reflexivity).
    assert (Hb : bytes_ok (enc_body recs)) by (unfold enc_body; rewrite bytes_ok_app; split; [apply enc_size_bytes|eapply recs_bytes; eauto]).
    destruct (py_compress_stream c hs (enc_size 0 :: flat_map rec_chunks recs)) as (stream & S1 & S2 & S3); rewrite ?Hbody; auto.
    + apply enc_body_ne.
    + intros X. rewrite <- Hbody. apply Hh; auto. rewrite Hbody. exact Hb.
    + rewrite S1. cbn [obind]. exists recs. eexists. split; [reflexivity|]. rewrite Hhd. rewrite Hbody in S2.
      split; [constructor; [auto|]; rewrite bytes_ok_app; split; [apply enc_size_bytes|auto]|].
      split; [right; split; [auto|]; exists stream; rewrite D; auto|]. split; [|auto].
      unfold recs_fit. rewrite D. change (2 ^ 63) with 9223372036854775808. split; [lia|]. eapply Forall_impl; [|exact C]. unfold rec_fits. cbv beta. intros r (_ & _ & R). lia.
Qed.

(** ** End results *)

Lemma py_round_trip : forall X F hdiff clamps c hs sa from to, array_ok sa from -> bytes_ok to -> zlen from < 2 ^ 30 -> zlen to < 2 ^ 30 ->
  (c = CompHeatshrink -> hs_reader_ok (x_heatshrink X) /\ forall pieces, bytes_ok (concat pieces) -> py_stream CompHeatshrink (concat pieces) (hs pieces)) ->
  exists patch, create_sequential c hs sa from to = Ret (Some patch) /\
    exists n, forall fuel, (n <= fuel)%nat -> apply_patch X F hdiff fuel clamps from patch = ret (zlen to, to).
Proof.
  intros X F hdiff clamps c hs sa from to Hsa Hto HF HT Hh. destruct (create_py c hs sa from to) as (recs & patch & A & B & C & D & E); auto; [intros Y; apply (Hh Y)|].
  exists patch. split; [auto|]. apply (py_applies X F hdiff clamps c recs); auto. intros Y; apply (Hh Y).
Qed.

Lemma py_c_agree : forall (wb : WordBits), 32 <= word_bits -> forall X F hdiff clamps junk c recs patch from to chunks,
  seq_patch c recs patch -> recs_in_limits recs -> apply_recs from 0 recs = Some to -> bytes_ok patch -> zlen patch + 128 < 2 ^ word_bits ->
  concat chunks = patch -> (c = CompNone -> header_complete (hd [] chunks) = true) -> (c = CompHeatshrink -> hs_reader_ok (x_heatshrink X)) ->
  exists n, forall fuel, (n <= fuel)%nat ->
    exists s w, c_apply fuel junk (zlen patch) from chunks = Ret (zlen to, s, w) /\ f_to w = to /\
      apply_patch X F hdiff fuel clamps from patch = ret (zlen to, to).
Proof.
  intros wb Hwb X F hdiff clamps junk c recs patch from to chunks P L A B Z E Hc Hh.
  destruct (apply_meaning Hwb junk c recs patch from to chunks P L A B Z E Hc) as (n1 & H1).
  destruct (py_applies X F hdiff clamps c recs patch from to) as (n2 & H2); auto using seq_py_patch.
  - destruct L as (L1 & L2 & L3). unfold size_limit in *. change (2 ^ 27) with 134217728 in *. split; [change (2 ^ 63) with 9223372036854775808; lia|].
    eapply Forall_impl; [|exact L2]. cbv beta. intros r. change (2 ^ 63) with 9223372036854775808. lia.
  - exists (n1 + n2)%nat. intros fuel Hf. destruct (H1 fuel ltac:(lia)) as (s & w & S1 & S2). exists s, w. split; [auto|]. split; [auto|]. apply H2. lia.
Qed.

Lemma py_truncated : forall X F hdiff clamps c hs sa from to, c = CompNone \/ c = CompCrle -> array_ok sa from -> bytes_ok to -> zlen from < 2 ^ 30 -> zlen to < 2 ^ 30 ->
  exists patch, create_sequential c hs sa from to = Ret (Some patch) /\
    forall k, 0 <= k < zlen patch -> exists n, forall fuel, (n <= fuel)%nat -> apply_patch X F hdiff fuel clamps from (ztake k patch) = raise DetoolsError.
Proof.
  intros X F hdiff clamps c hs sa from to Hc Hsa Hto HF HT. destruct (create_py c hs sa from to) as (recs & patch & A & B & C & D & E); auto; [intros ->; destruct Hc; discriminate|].
  exists patch. split; [auto|]. intros k Hk. apply (py_rejects_cut X F hdiff clamps c recs patch from to (ztake k patch) (zdrop k patch)); auto; [apply ztake_zdrop|].
  intros Y. apply (f_equal zlen) in Y. rewrite zlen_zdrop in Y by lia. change (zlen (@nil Z)) with 0 in Y. lia.
Qed.

Lemma py_overlong : forall X F hdiff clamps c hs sa from to, c = CompNone \/ c = CompCrle -> array_ok sa from -> bytes_ok to -> zlen from < 2 ^ 30 -> zlen to < 2 ^ 30 -> to <> [] ->
  exists patch, create_sequential c hs sa from to = Ret (Some patch) /\
    forall tl, bytes_ok tl -> tl <> [] -> (c = CompCrle -> ~ crle_void tl) ->
    exists n, forall fuel, (n <= fuel)%nat -> apply_patch X F hdiff fuel clamps from (patch ++ tl) = raise DetoolsError.
Proof.
  intros X F hdiff clamps c hs sa from to Hc Hsa Hto HF HT Hne. destruct (create_py c hs sa from to) as (recs & patch & A & B & C & D & E); auto; [intros ->; destruct Hc; discriminate|].
  exists patch. split; [auto|]. intros tl Ht Hn Hv. apply (py_rejects_over X F hdiff clamps c recs patch from to tl); auto.
  - intros ->. cbn in E. congruence.
  - apply bytes_ok_app; auto.
Qed.
