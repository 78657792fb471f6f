(** Instances used by the examples in PropCodec.v, and the last steps of the proofs
    of C13, C16 and C17. *)

From Coq Require Import ZArith List Bool Lia ZifyBool ZifyNat ZifyN.
From Verif Require Import Prelude Lib Heatshrink CReader Spec PySize PyCrle ReaderSpec ReaderDrive SizeCodec CrleProofs.
Import ListNotations.
Open Scope Z_scope.

Lemma py_size_codec_enc : forall v rest, - 2 ^ 63 < v < 2 ^ 63 ->
  py_pack_size v = Ret (Some (enc_size v)) /\ py_unpack_size (enc_size v ++ rest) = Some (v, rest).
Proof.
  intros v rest Hv. split; [|apply py_unpack_enc; auto].
  unfold py_pack_size. destruct (Z.leb_spec (- 2 ^ 63) v); [|lia]. destruct (Z.ltb_spec v (2 ^ 63)); [|lia].
  cbn [andb]. rewrite pack_size_enc by auto. reflexivity.
Qed.

Lemma segs_bytes : forall segs, bytes_ok (segs_expand segs) -> Forall (fun s => 1 <= seg_len s) segs -> bytes_ok (enc_segs segs).
Proof.
  unfold bytes_ok. induction segs as [|s segs IH]; intros H L; [constructor|]. unfold segs_expand, enc_segs in *. cbn [flat_map] in *.
  apply Forall_app in H. destruct H as (H1 & H2). inversion L as [|? ? L1 L2]; subst. apply Forall_app. split; [|auto].
  assert (E : forall n, 0 <= n -> Forall byte_ok (enc_usize n)).
  { intros n Hn. unfold enc_usize. destruct (n =? 0); [repeat constructor; unfold byte_ok; lia|]. apply enc_groups_bytes. lia. }
  destruct s as [d|n b]; cbn [enc_seg seg_expand seg_len] in *; constructor; try (unfold byte_ok; lia); apply Forall_app; split.
  - apply E. apply zlen_nonneg.
  - exact H1.
  - apply E. lia.
  - rewrite zrepeat_cons in H1 by lia. inversion H1; subst. constructor; auto.
Qed.

Section Word.
Context {WBits : WordBits}.

Lemma c_decodes_python : forall pieces, bytes_ok (concat pieces) -> concat pieces <> [] -> zlen (concat pieces) < 2 ^ 28 ->
  exists stream, crle_compress_all ccomp_init pieces [] = Ret (Ok stream) /\
    forall r, reader_init (zlen stream) 2 = Some r ->
    (forall es ns, Forall event_ok es -> Forall (fun n => 1 <= n) ns -> arrived es = stream ->
       zlen (concat pieces) <= zlen ns -> drive r [] [] (es ++ map Ask ns) = Ret (0, concat pieces)) /\
    (forall es more, Forall event_ok es -> arrived es ++ more = stream ->
       exists out rest, drive r [] [] es = Ret (0, out) /\ concat pieces = out ++ rest).
Proof.
  intros pieces Hb Hne L. destruct (crle_compress_segs pieces) as (segs & A & B & C & D).
  { change (2 ^ 63) with 9223372036854775808. change (2 ^ 28) with 268435456 in L. lia. }
  specialize (C Hne). exists (enc_segs segs). split; [exact A|].
  assert (Hc : compressed CompCrle (concat pieces) (enc_segs segs)).
  { rewrite <- B. constructor. apply segs_len_le in D. rewrite B in D. rewrite Forall_forall in *. intros s Hs. specialize (C s Hs). specialize (D s Hs). lia. }
  assert (Hs : bytes_ok (enc_segs segs)) by (apply segs_bytes; [rewrite B; auto|auto]).
  intros r Hr. split.
  - intros es ns H1 H2 H3 H4. eapply (reader_exact CompCrle); eauto. discriminate.
  - intros es more H1 H2. eapply (reader_prefix CompCrle); eauto. discriminate.
Qed.

Lemma lzss_exact : forall ts pad bytes r, Forall (token_ok 8 7) ts -> bytes_ok bytes -> (length pad < 8)%nat ->
  bytes_bits bytes = enc_tokens 8 7 ts ++ pad -> reader_init (1 + zlen bytes) 4 = Some r ->
  (forall es ns, Forall event_ok es -> Forall (fun n => 1 <= n) ns -> arrived es = 68 :: bytes ->
     zlen (tokens_expand [] ts) <= zlen ns -> drive r [] [] (es ++ map Ask ns) = Ret (0, tokens_expand [] ts)) /\
  (forall es more, Forall event_ok es -> arrived es ++ more = 68 :: bytes ->
     exists out rest, drive r [] [] es = Ret (0, out) /\ tokens_expand [] ts = out ++ rest).
Proof.
  intros ts pad bytes r H1 H2 H3 H4 Hr. assert (Hc : compressed CompHeatshrink (tokens_expand [] ts) (68 :: bytes)) by (econstructor; eauto).
  assert (Hs : bytes_ok (68 :: bytes)) by (constructor; [unfold byte_ok; lia|auto]). rewrite <- (zlen_cons 68 bytes) in Hr. split.
  - intros es ns G1 G2 G3 G4. eapply (reader_exact CompHeatshrink); eauto. discriminate.
  - intros es more G1 G2. eapply (reader_prefix CompHeatshrink); eauto. discriminate.
Qed.
End Word.

Lemma ex_c16 : exists r, reader_init 10 2 = Some r /\
  @drive (64 : WordBits) r [] [] [Arrive [0; 2; 1]; Ask 5; Arrive [2; 1]; Ask 3; Arrive [7; 7]; Ask 2; Ask 1; Arrive [0; 1; 3]; Ask 100; Ask 1]
    = Ret (0, [1; 2; 7; 7; 7; 7; 7; 7; 7; 3]).
Proof. eexists. split; [reflexivity|]. vm_compute. reflexivity. Qed.

Definition ex_tokens : list token := [Lit 65; Lit 66; Ref 2 4; Ref 20 2; Lit 67].

(** Bytes of a bit string, padded with zeros. *)
Fixpoint pack_bits (k : nat) (l : list bool) : list Z :=
  match k with
  | O => []
  | S k => fold_left (fun a b => 2 * a + b2z b) (firstn 8 (l ++ repeat false 8)) 0 :: pack_bits k (skipn 8 l)
  end.

Lemma ex_c17 : exists ts pad bytes r,
  Forall (token_ok 8 7) ts /\ bytes_ok bytes /\ (length pad < 8)%nat /\
  bytes_bits bytes = enc_tokens 8 7 ts ++ pad /\ reader_init (1 + zlen bytes) 4 = Some r /\
  tokens_expand [] ts = [65; 66; 65; 66; 65; 66; 0; 0; 67].
Proof.
  exists ex_tokens, (repeat false 5), (pack_bits 8 (enc_tokens 8 7 ex_tokens)). eexists.
  split; [|split; [|split; [|split; [|split; [reflexivity|]]]]]; try (vm_compute; reflexivity).
  - repeat constructor; vm_compute; congruence.
  - vm_compute. repeat constructor; discriminate.
  - vm_compute. lia.
Qed.

Lemma ex_c18 : Forall hs_call_ok [HsSink 10; HsPoll 3; HsSink 255; HsSink 0; HsPoll 100; HsPoll 0] /\
  exists outs, hs_calls 11 4 (hs_reset 11) [HsSink 10; HsPoll 3; HsSink 255; HsSink 0; HsPoll 100; HsPoll 0] = Ret outs.
Proof. split; [repeat constructor; vm_compute; congruence|]. eexists. vm_compute. reflexivity. Qed.

Lemma ex_c18_reader : exists r, reader_init 9 4 = Some r /\
  Forall event_ok [Arrive [68; 200]; Ask 7; Arrive [9; 0; 255]; Ask 1; Ask 300].
Proof. eexists. split; [reflexivity|]. repeat constructor; vm_compute; congruence. Qed.
