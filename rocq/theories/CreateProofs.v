(** Created sequential patches are well-formed patches that mean the to data. *)

From Coq Require Import ZArith List Bool Lia ZifyBool ZifyNat ZifyN.
From Verif Require Import Prelude Lib Heatshrink CReader CSeq Spec PySize PyCrle Bsdiff BsdiffSpec BsdiffProofs PyCreate
  SizeCodec CrleProofs CodecExamples SeqApply SeqTerm CallbackSpec CallbackProofs.
Import ListNotations.
Open Scope Z_scope.
Ltac Zify.zify_post_hook ::= Z.to_euclidean_division_equations.

Lemma concat_recs : forall recs, concat (flat_map rec_chunks recs) = enc_recs recs.
Proof.
  induction recs; cbn [flat_map enc_recs]; [reflexivity|]. rewrite concat_app, concat_rec_chunks, IHrecs. reflexivity.
Qed.

Lemma recs_bytes : forall F recs, Forall (rec_fits F) recs -> bytes_ok (enc_recs recs).
Proof.
  induction 1 as [|r recs Hr _ IH]; [constructor|]. unfold enc_recs. cbn [flat_map]. apply bytes_ok_app. split; [|exact IH].
  destruct Hr as (A & B & _). unfold enc_rec. rewrite !bytes_ok_app. auto 10 using enc_size_bytes.
Qed.

(** What the compressors produce. *)
Lemma py_compress_spec : forall c hs pieces, concat pieces <> [] -> bytes_ok (concat pieces) ->
  (c = CompCrle -> zlen (concat pieces) < 2 ^ 28) ->
  (c = CompHeatshrink -> compressed CompHeatshrink (concat pieces) (hs pieces)) ->
  exists stream, py_compress c hs pieces = Ret (Some stream) /\ compressed c (concat pieces) stream /\ bytes_ok stream.
Proof.
  intros c hs pieces Hne Hb Hc Hh. destruct c; cbn [py_compress].
  - exists (concat pieces). split; [reflexivity|]. split; [constructor|auto].
  - destruct (crle_compressed pieces Hne (Hc eq_refl)) as (stream & A & B). exists stream. rewrite A. cbn [obind]. split; [reflexivity|]. split; [auto|].
    inversion B as [|segs Hs E0 E1 E2|]. subst stream. rewrite <- E1 in Hb. apply segs_bytes; [exact Hb|]. eapply Forall_impl; [|exact Hs]. cbn beta. intros; lia.
  - specialize (Hh eq_refl). exists (hs pieces). split; [reflexivity|]. split; [auto|]. inversion Hh; subst. constructor; [unfold byte_ok; lia|auto].
Qed.

Lemma create_seq : forall c hs sa from to, array_ok sa from -> bytes_ok to -> zlen from < 2 ^ 30 -> zlen to < 2 ^ 30 ->
  (c = CompCrle -> forall chunks, create_patch sa from to = Ret (Some chunks) -> 1 + zlen (concat chunks) < 2 ^ 28) ->
  (c = CompHeatshrink -> forall pieces, bytes_ok (concat pieces) -> compressed CompHeatshrink (concat pieces) (hs pieces)) ->
  exists recs patch, create_sequential c hs sa from to = Ret (Some patch) /\ bytes_ok patch /\ seq_patch c recs patch /\
    recs_size recs = zlen to /\ Forall (rec_fits from) recs /\ Forall (fun p => 0 <= p <= zlen from) (positions 0 recs) /\ apply_recs from 0 recs = Some to.
Proof.
  intros c hs sa from to Hsa Hto HF HT Hc Hh. change (2 ^ 30) with 1073741824 in *. pose proof (zlen_nonneg to). pose proof (zlen_nonneg from).
  unfold create_sequential. rewrite (proj1 (py_size_codec_enc (zlen to) [] ltac:(change (2 ^ 63) with 9223372036854775808; lia))). cbn [obind].
  assert (Hhd : py_pack_header 0 (comp_number c) = header_byte TYPE_SEQUENTIAL c) by (destruct c; reflexivity).
  assert (Hhb : byte_ok (header_byte TYPE_SEQUENTIAL c)) by (unfold byte_ok; destruct c; vm_compute; split; first [discriminate|reflexivity]).
  unfold create_sequential_data. destruct (Z.eqb_spec (zlen to) 0) as [E0|E0].
  - apply zlen_0_nil in E0. subst to. cbn [obind]. exists [], (header_byte TYPE_SEQUENTIAL c :: enc_size 0). rewrite Hhd. change (zlen (@nil Z)) with 0. rewrite app_nil_r.
    split; [reflexivity|]. split; [constructor; [auto|apply enc_size_bytes]|]. split; [left; auto|]. split; [reflexivity|]. split; [constructor|].
    split; [|reflexivity]. constructor.
  - rewrite (proj1 (py_size_codec_enc 0 [] ltac:(change (2 ^ 63) with 9223372036854775808; lia))). cbn [obind].
    destruct (create_patch_spec sa from to Hsa HF HT Hto) as (recs & A & B & C & D & E & F); [intros ->; apply E0; reflexivity|].
    unfold create_chunks in *. rewrite A in *. cbn [obind] in *.
    assert (Hbody : concat (enc_size 0 :: flat_map rec_chunks recs) = enc_body recs) by (cbn [concat]; rewrite concat_recs; reflexivity).
    assert (Hb : bytes_ok (enc_body recs)) by (unfold enc_body; rewrite bytes_ok_app; split; [apply enc_size_bytes|eapply recs_bytes; eauto]).
    destruct (py_compress_spec c hs (enc_size 0 :: flat_map rec_chunks recs)) as (stream & S1 & S2 & S3); rewrite ?Hbody; auto.
    + apply enc_body_ne.
    + intros X. specialize (Hc X _ eq_refl). rewrite concat_recs in Hc. unfold enc_body. rewrite zlen_app. exact Hc.
    + intros X. rewrite <- Hbody. apply Hh; auto. rewrite Hbody. exact Hb.
    + rewrite S1. cbn [obind]. exists recs. eexists. split; [reflexivity|]. rewrite Hhd. rewrite Hbody in S2.
      split; [constructor; [auto|]; rewrite bytes_ok_app; split; [apply enc_size_bytes|auto]|].
      split; [right; split; [auto|]; exists stream; rewrite D; auto|]. auto.
Qed.

(** ** The header is in the first 512 bytes *)

Lemma enc_groups_short : forall k a, zlen (enc_groups k a) <= Z.of_nat k.
Proof.
  induction k; intros; cbn [enc_groups]; [change (zlen (@nil Z)) with 0; lia|]. destruct (_ =? 0); [change (zlen (@nil Z)) with 0; lia|].
  destruct (_ <? _); rewrite zlen_cons; [change (zlen (@nil Z)) with 0; lia|]. specialize (IHk (a / 128)). lia.
Qed.

Lemma enc_groups_ends : forall k a, 0 < a < 128 ^ Z.of_nat k -> existsb (fun b => b <? 128) (enc_groups k a) = true.
Proof.
  induction k; intros a Ha. { change (128 ^ Z.of_nat 0) with 1 in Ha. lia. }
  cbn [enc_groups]. destruct (Z.eqb_spec a 0); [lia|]. destruct (Z.ltb_spec a 128); cbn [existsb].
  - apply orb_true_iff. left. lia.
  - apply orb_true_iff. right. apply IHk. replace (Z.of_nat (S k)) with (Z.of_nat k + 1) in Ha by lia. rewrite Z.pow_add_r in Ha by lia.
    change (128 ^ 1) with 128 in Ha. split; [|apply Z.div_lt_upper_bound; lia]. apply Z.div_str_pos. lia.
Qed.

Lemma enc_size_ends : forall v, - 2 ^ 63 < v < 2 ^ 63 -> existsb (fun b => b <? 128) (enc_size v) = true.
Proof.
  intros v Hv. change (2 ^ 63) with 9223372036854775808 in Hv. unfold enc_size. cbv zeta. destruct (Z.ltb_spec (Z.abs v) 64); cbn [existsb].
  - apply orb_true_iff. left. destruct (v <? 0); lia.
  - apply orb_true_iff. right. apply enc_groups_ends. change (128 ^ Z.of_nat 10) with 1180591620717411303424. lia.
Qed.

Lemma enc_size_short : forall v, zlen (enc_size v) <= 11.
Proof.
  intros. unfold enc_size. cbv zeta. destruct (_ <? _); rewrite zlen_cons; [change (zlen (@nil Z)) with 0; lia|].
  pose proof (enc_groups_short 10 (Z.abs v / 64)). lia.
Qed.

Lemma header_in_first : forall b v rest n, - 2 ^ 63 < v < 2 ^ 63 -> 12 <= n -> header_complete (ztake n (b :: enc_size v ++ rest)) = true.
Proof.
  intros. rewrite ztake_cons by lia. cbn [header_complete]. pose proof (enc_size_short v).
  rewrite ztake_app_r by lia. rewrite existsb_app. rewrite enc_size_ends by auto. reflexivity.
Qed.

(** ** Creating and applying (C01) *)

Lemma create_apply : forall `{WordBits}, 32 <= word_bits -> forall junk c hs sa from to, array_ok sa from -> bytes_ok to -> zlen from < 2 ^ 27 -> zlen to < 2 ^ 27 ->
  (c = CompCrle -> forall chunks, create_patch sa from to = Ret (Some chunks) -> 1 + zlen (concat chunks) < 2 ^ 28) ->
  (c = CompHeatshrink -> forall pieces, bytes_ok (concat pieces) -> compressed CompHeatshrink (concat pieces) (hs pieces)) ->
  exists patch, create_sequential c hs sa from to = Ret (Some patch) /\
    (zlen patch + 128 < 2 ^ word_bits ->
     exists n, forall fuel, (n <= fuel)%nat ->
       exists s w pos, apply_patch_callbacks (env_with file_env Z) fuel junk (patch_file patch) (zlen patch) (mkfiles from 0 [], 0) = Ret (zlen to, s, (w, pos)) /\ f_to w = to).
Proof.
  intros wb Hword junk c hs sa from to Hsa Hto HF HT Hc Hh. change (2 ^ 27) with 134217728 in *.
  destruct (create_seq c hs sa from to Hsa Hto ltac:(change (2 ^ 30) with 1073741824; lia) ltac:(change (2 ^ 30) with 1073741824; lia) Hc Hh)
    as (recs & patch & A & B & C & D & E & F & G).
  exists patch. split; [exact A|]. intros Hw.
  pose proof (zlen_nonneg patch). pose proof (zlen_nonneg to). pose proof (zlen_nonneg from).
  set (k := Z.to_nat (zlen patch)).
  assert (Hk : concat (pieces k patch) = patch) by (apply pieces_concat; unfold k; lia).
  destruct (apply_meaning Hword junk c recs patch from to (pieces k patch) C) as (n & N); auto.
  - unfold recs_in_limits, size_limit. change (2 ^ 27) with 134217728. split; [lia|]. split.
    + eapply Forall_impl; [|exact E]. unfold rec_fits. cbn beta. intros r (_ & _ & R). lia.
    + eapply Forall_impl; [|exact F]. cbn beta. unfold INT_MAX. intros p P. lia.
  - intros _. assert (Hp : exists rest, patch = header_byte TYPE_SEQUENTIAL c :: enc_size (zlen to) ++ rest).
    { destruct C as [(-> & ->)|(_ & stream & _ & ->)]; [|rewrite D; eauto]. exists []. rewrite app_nil_r. rewrite <- D. reflexivity. }
    destruct Hp as (rest & Hp). destruct k eqn:Ek; [subst k; rewrite Hp, zlen_cons in *; pose proof (zlen_nonneg (enc_size (zlen to) ++ rest)); lia|].
    rewrite Hp. cbn [pieces hd]. apply header_in_first; [change (2 ^ 63) with 9223372036854775808; lia|lia].
  - destruct (N n (le_n n)) as (s & w & Q & T). unfold c_apply in Q. rewrite <- (zdrop_0 patch) in Q at 2.
    destruct (callbacks_feed file_env patch k n 0 (ap_init junk (zlen patch)) (mkfiles from 0 []) (zlen to) s w) as (pos & P); [lia|unfold k; lia|exact Q|].
    exists (n + k)%nat. intros fuel Hf. exists s, w, pos. split; [|exact T]. unfold apply_patch_callbacks. apply P. exact Hf.
Qed.

(** ** Forms used by the property theorems *)

Lemma create_correct : forall sa from to, array_ok sa from -> bytes_ok to -> zlen from < 2 ^ 30 -> zlen to < 2 ^ 30 -> to <> [] ->
  exists chunks recs, create_patch sa from to = Ret (Some chunks) /\ concat chunks = enc_recs recs /\
    apply_recs from 0 recs = Some to /\ recs_size recs = zlen to /\ last_nonempty recs /\
    Forall (fun p => 0 <= p <= zlen from) (positions 0 recs).
Proof.
  intros sa from to Hsa Hto HF HT Hne. destruct (create_patch_spec sa from to Hsa HF HT Hto Hne) as (recs & A & B & C & D & E & F).
  exists (flat_map rec_chunks recs), recs. rewrite concat_recs. auto 10.
Qed.

Lemma create_safe : forall sa from to, array_ok sa from -> bytes_ok to -> zlen from < 2 ^ 30 -> zlen to < 2 ^ 30 ->
  exists chunks, create_patch sa from to = Ret (Some chunks).
Proof.
  intros sa from to Hsa Hto HF HT. destruct to as [|b to].
  - exists []. reflexivity.
  - destruct (create_correct sa from (b :: to)) as (chunks & _ & A & _); auto; [discriminate|]. eauto.
Qed.

Lemma search_true : forall sa from to t, array_ok sa from -> zlen from < 2 ^ 30 -> zlen to < 2 ^ 30 -> 0 <= t <= zlen to ->
  exists len pos, search (length sa) sa from (zlen from) to t (zlen to - t) 0 (zlen from) = Ret (len, pos) /\
    0 <= pos <= zlen from /\ In pos sa /\ len = lcp (zdrop pos from) (zdrop t to).
Proof.
  intros sa from to t Hsa HF HT Ht. pose proof (zlen_nonneg from). apply search_spec; auto; try lia. destruct Hsa as (L & _). unfold zlen in *. lia.
Qed.

Lemma callbacks_requests : forall `{WordBits} W (E : seq_env W) patch_read fuel junk ps w v s1 w1 log, 0 <= ps ->
  apply_patch_callbacks (env_with E (list Z)) fuel junk (recorded patch_read) ps (w, []) = Ret (v, s1, (w1, log)) ->
  Forall (fun n => 1 <= n <= 512) log /\ sum log <= ps /\ (0 <= v -> sum log = ps) /\
  exists f r s0 w0, finalize E f 128 s0 w0 = Ret (r, s1, w1).
Proof.
  intros wb W E patch_read fuel junk ps w v s1 w1 log Hps C. apply requests in C; [|lia]. destruct C as (more & -> & A & B & D & F). cbn [app]. auto.
Qed.

Lemma pieces_small : forall k l, Forall (fun p => zlen p <= 512) (pieces k l).
Proof.
  induction k; intros; cbn [pieces]; [constructor|]. destruct l; [constructor|]. constructor; [|apply IHk]. rewrite zlen_ztake by lia. lia.
Qed.

Lemma callbacks_in_order : forall `{WordBits} W (E : seq_env W) junk patch w,
  exists pieces, concat pieces = patch /\ Forall (fun p => zlen p <= 512) pieces /\
  forall n v s1 w1, feed E n 128 (ap_init junk (zlen patch)) w pieces = Ret (v, s1, w1) ->
  exists m pos, forall fuel, (m <= fuel)%nat ->
    apply_patch_callbacks (env_with E Z) fuel junk (patch_file patch) (zlen patch) (w, 0) = Ret (v, s1, (w1, pos)).
Proof.
  intros wb W E junk patch w. pose proof (zlen_nonneg patch). set (k := Z.to_nat (zlen patch)). exists (pieces k patch). split; [apply pieces_concat; unfold k; lia|]. split; [apply pieces_small|].
  intros n v s1 w1 F. rewrite <- (zdrop_0 patch) in F at 2.
  destruct (callbacks_feed E patch k n 0 (ap_init junk (zlen patch)) w v s1 w1) as (pos & P); [lia|unfold k; lia|exact F|].
  exists (n + k)%nat, pos. exact P.
Qed.
