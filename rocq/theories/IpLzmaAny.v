(** In-place patches with LZMA and any body: what holds of the uncompressed patch. *)

From Coq Require Import ZArith List Bool Lia ZifyBool ZifyNat ZifyN.
From Verif Require Import Prelude Lib Heatshrink CReader CSeq CInPlace Spec SizeCodec CallbackSpec CallbackProofs IpCallbackSpec IpCallback SeqSpec InPlaceSpec
  IpBoundSpec IpBound SeqTrunc CodesSpec IpTerm CLzma CSeqLzma LzmaSpec LzmaProofs CIpLzma IpLzmaSpec IpLzmaCallback IpLzmaApply.
Import ListNotations.
Open Scope Z_scope.

Section Any.
Context {WBits : WordBits}.
Hypothesis Hword : 32 <= word_bits.
Context {D : Type} (L : lzma_lib D).
Hypothesis Hmem : enough_memory L.
Hypothesis Hstart : lz_start L <> None.
Context {W : Type} (E : ip_env W).
Hypothesis Hcodes : mem_codes (fun r => r <= 0 /\ r <> -11) E.
Variables memory segment shift from_size to_size : Z.
Variables body stream : list Z.
Hypothesis H1 : 0 <= memory < size_limit.
Hypothesis H2 : 0 <= segment < size_limit.
Hypothesis H3 : 0 <= shift < size_limit.
Hypothesis H4 : 0 <= from_size < size_limit.
Hypothesis H5 : 0 <= to_size < size_limit.
Hypothesis Hstream : 0 < to_size -> lzma_stream L body stream.
Hypothesis Hbytes : bytes_ok body.

Let patch := lzma_in_place memory segment shift from_size to_size stream.
Let plain := plain_in_place memory segment shift from_size to_size body.
Let a := mkann memory segment shift from_size to_size body.
Hypothesis Hps : zlen patch < 2 ^ word_bits.
Hypothesis Hbl : zlen body + 200 < 2 ^ word_bits.

Lemma codes_of_mem : forall (X : Type) (F : ip_env X), mem_codes (fun r => r <= 0 /\ r <> -11) F -> codes_ok F.
Proof.
  intros X F (A & B & C). split; [|split]; intros.
  - specialize (A w a0 n). lia.
  - specialize (B w a0 data). lia.
  - specialize (C w a0 n). lia.
Qed.

Lemma any_plain_bytes : bytes_ok plain.
Proof.
  unfold plain, plain_in_place, in_place_header. apply Forall_app. split; [|exact Hbytes]. constructor; [unfold byte_ok; cbn; lia|].
  repeat (apply Forall_app; split); apply enc_size_bytes.
Qed.

Lemma plain_announces : announces plain = Some a.
Proof.
  unfold plain, plain_in_place, in_place_header, announces. cbn [app tl]. rewrite <- !app_assoc. unfold size_limit in *.
  rewrite !dec_magnitude_enc by lia. reflexivity.
Qed.

Lemma plain_comp : announced_comp plain = comp_number CompNone.
Proof. reflexivity. Qed.

Lemma apply_calls : forall (X : Type) (F : ip_env X) fuel junk ps w, 
  match ip_run_calls F fuel (ip_init junk ps) w [CallProcess plain; CallFinalize] with
  | Ret (_, s, w1) => exists v, ip_apply F fuel junk ps w [plain] = Ret (v, s, w1)
  | Undef => ip_apply F fuel junk ps w [plain] = Undef
  | OutOfFuel => ip_apply F fuel junk ps w [plain] = OutOfFuel
  end.
Proof.
  intros X F fuel junk ps w. unfold ip_apply. cbn [ip_run_calls ip_feed].
  destruct (ip_process F fuel (ip_init junk ps) w plain) as [[[r s] w1]| |]; cbn [obind]; try reflexivity.
  destruct (ip_finalize F fuel s w1) as [[[r2 s2] w2]| |]; cbn [obind]; destruct (r =? 0); try reflexivity; eauto.
Qed.

Lemma watching_mem_codes : mem_codes (fun r => r <= 0 /\ r <> -11) (watching E).
Proof.
  destruct Hcodes as (A & B & C). split; [|split]; cbn [watching mem_read mem_write mem_erase]; intros.
  - specialize (A (fst w) a0 n). destruct (mem_read E (fst w) a0 n) as [[r b] w1]. exact A.
  - specialize (B (fst w) a0 data). destruct (mem_write E (fst w) a0 data) as [r w1]. exact B.
  - specialize (C (fst w) a0 n). destruct (mem_erase E (fst w) a0 n) as [r w1]. exact C.
Qed.

(** It returns, without undefined behaviour or a leak. *)
Theorem lzma_ip_any_returns : reads_all E -> (0 < to_size -> 0 < segment) -> zlen body + moved (body_fields a body) < 2 ^ 30 ->
  forall junk ps w chunks, concat chunks = patch ->
  exists n v y w1, nothing_allocated (y_reader y) /\ forall fuel, (n <= fuel)%nat -> y_apply L E fuel junk ps w chunks = Ret (v, y, w1).
Proof.
  intros Hr Hseg Hmv junk ps w chunks Hc.
  destruct (lzma_ip_as_plain Hword L Hmem W E Hcodes Hstart memory segment shift from_size to_size body stream H1 H2 H3 H4 H5 Hstream Hps Hbl junk ps w chunks Hc) as (n1 & N1).
  destruct (ip_terminates Hword E junk (zlen plain) [plain] w) as (n2 & N2); [constructor; [exact any_plain_bytes|constructor]|].
  set (n := Nat.max n1 n2). specialize (N1 n ltac:(lia)). specialize (N2 n ltac:(lia)). fold plain in N1.
  assert (Hu : ip_apply E n junk (zlen plain) w [plain] <> Undef).
  { intros X. pose proof (apply_calls W E n junk (zlen plain) w) as Y.
    assert (Z0 : ip_run_calls E n (ip_init junk (zlen plain)) w [CallProcess plain; CallFinalize] <> Undef).
    { eapply (ip_no_undef WBits Hword W E junk (zlen plain) CompNone body plain a []); eauto.
      - apply codes_of_mem. exact Hcodes.
      - apply any_plain_bytes.
      - apply plain_announces.
      - constructor.
      - change ((plain ++ []) ++ [] = plain). rewrite !app_nil_r. reflexivity. }
    destruct (ip_run_calls E n (ip_init junk (zlen plain)) w [CallProcess plain; CallFinalize]) as [[[rs s] w1]| |]; [destruct Y as (v & Y)| |]; congruence. }
  destruct (ip_apply E n junk (zlen plain) w [plain]) as [[[v s] w1]| |]; try congruence.
  destruct (y_apply L E n junk ps w chunks) as [[[v' y] w1']| |] eqn:Ey; try contradiction. destruct N1 as (A & -> & B).
  exists n, v', y, w1. split; [exact B|]. intros fuel Hf. unfold y_apply in *. eapply yfeed_mono; eauto. discriminate.
Qed.

Theorem lzma_ip_any_callbacks_return : reads_all E -> (0 < to_size -> 0 < segment) -> zlen body + moved (body_fields a body) < 2 ^ 30 ->
  forall junk w, exists n v y w1, nothing_allocated (y_reader y) /\ forall fuel, (n <= fuel)%nat ->
    y_apply_patch_in_place_callbacks L (ip_env_with E Z) fuel junk (patch_file patch) (zlen patch) (w, 0) = Ret (v, y, w1).
Proof.
  intros Hr Hseg Hmv junk w. pose proof (zlen_nonneg patch). set (k := Z.to_nat (zlen patch)). assert (Hk : zlen patch <= 512 * Z.of_nat k) by lia.
  destruct (lzma_ip_any_returns Hr Hseg Hmv junk (zlen patch) w (pieces k patch) (pieces_concat k patch Hk)) as (n & v & y & w1 & A & B).
  specialize (B n (le_n _)). unfold y_apply in B. rewrite <- (zdrop_0 patch) in B at 2.
  destruct (ycallbacks_feed L E patch k n 0 _ _ _ _ _ ltac:(lia) ltac:(lia) B) as (pos & G).
  exists (n + k)%nat, v, y, (w1, pos). split; [exact A|]. exact G.
Qed.

(** Never an effect outside the memory. *)
Theorem lzma_ip_any_within : consistent a -> Forall size_nonneg (body_fields a body) ->
  forall fuel junk ps w chunks v y w1 log, concat chunks = patch ->
  y_apply L (watching E) fuel junk ps (w, []) chunks = Ret (v, y, (w1, log)) ->
  Forall (changes_within memory) log.
Proof.
  intros Hcs Hnn fuel junk ps w chunks v y w1 log Hc Hy.
  destruct (lzma_ip_as_plain Hword L Hmem _ (watching E) watching_mem_codes Hstart memory segment shift from_size to_size body stream H1 H2 H3 H4 H5 Hstream Hps Hbl junk ps (w, []) chunks Hc) as (n1 & N1).
  specialize (N1 (fuel + n1)%nat ltac:(lia)). fold plain in N1.
  assert (Hy' : y_apply L (watching E) (fuel + n1) junk ps (w, []) chunks = Ret (v, y, (w1, log))).
  { unfold y_apply in *. eapply yfeed_mono; eauto; [discriminate|lia]. }
  rewrite Hy' in N1. pose proof (apply_calls _ (watching E) (fuel + n1) junk (zlen plain) (w, [])) as Y.
  destruct (ip_run_calls (watching E) (fuel + n1) (ip_init junk (zlen plain)) (w, []) [CallProcess plain; CallFinalize]) as [[[rs s] [w2 log2]]| |] eqn:Ec;
    [destruct Y as (v2 & Y)| |]; rewrite Y in N1; try contradiction. destruct N1 as (_ & X & _). injection X as -> ->.
  eapply (ip_changes_within WBits Hword W E junk (zlen plain) CompNone body plain a []); eauto.
  - apply codes_of_mem. exact Hcodes.
  - apply any_plain_bytes.
  - apply plain_announces.
  - constructor.
  - change ((plain ++ []) ++ [] = plain). rewrite !app_nil_r. reflexivity.
Qed.

End Any.
