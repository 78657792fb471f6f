(** The theorems about LZMA patches, put together. *)

From Coq Require Import ZArith List Bool Lia ZifyBool ZifyNat ZifyN.
From Verif Require Import Prelude Lib Heatshrink HsProofs CReader ReaderProofs SizeProofs CSeq Spec SeqSim SeqRun SeqTerm SeqMeaning SeqApply SeqSpec SeqInv SeqCount CallbackSpec CallbackProofs PySize SizeCodec CrleProofs CodecExamples CreateProofs CLzma CSeqLzma LzmaSpec LzmaProofs LzmaSim LzmaSafe LzmaTerm LzmaCallback.
Import ListNotations.
Open Scope Z_scope.

Section Apply.
Context {WBits : WordBits}.
Hypothesis Hword : 32 <= word_bits.
Context {D : Type} (L : lzma_lib D).

Theorem lzma_as_uncompressed : forall (W : Type) (E : seq_env W), enough_memory L ->
  forall recs patch plain, lzma_patch L recs patch -> seq_patch CompNone recs plain -> recs_in_limits recs ->
  zlen patch < 2 ^ word_bits -> zlen plain + 128 < 2 ^ word_bits ->
  forall junk junk' ps w chunks, concat chunks = patch ->
  exists n, forall fuel, (n <= fuel)%nat ->
    (letm (v, x, w1) := x_feed L E fuel (xap_init junk ps) w chunks in Ret (v, w1)) =
    (letm (v, s, w1) := feed E fuel 128 (ap_init junk' (zlen plain)) w [plain] in Ret (v, w1)) /\
    forall v x w1, x_feed L E fuel (xap_init junk ps) w chunks = Ret (v, x, w1) -> nothing_allocated (x_reader x).
Proof.
  intros W E Hm recs patch plain Hp Hn Hr Hl Hnl junk junk' ps w chunks Hc.
  assert (X : exists stream, (recs = [] \/ last_nonempty recs) /\ (exists d, lz_start L = Some d) /\
     ((recs = [] /\ stream = []) \/ lzma_stream L (enc_body recs) stream) /\ patch = lpatch recs stream /\ plain = npatch recs).
  { unfold lpatch, npatch, body. destruct Hp as [(-> & -> & Hd)|(Hla & stream & Hs & ->)].
    - exists []. destruct (lz_start L) as [d|]; [|congruence]. split; [auto|]. split; [eauto|]. split; [auto|]. split; [reflexivity|].
      destruct Hn as [[_ ->]|((rs & r & X & _) & _)]; [reflexivity|]. destruct rs; discriminate.
    - exists stream. split; [auto|]. split; [destruct Hs as (d & Hd & _); eauto|]. split; [auto|]. split; [reflexivity|].
      destruct Hla as (rs & r & Hla & _). destruct Hn as [[-> _]|(_ & st & Hst & ->)]; [destruct rs; discriminate|].
      inversion Hst. subst. destruct (rs ++ [r]) eqn:Er; [destruct rs; discriminate|]. reflexivity. }
  destruct X as (stream & X1 & X2 & X3 & -> & ->).
  destruct (as_plain Hword L Hm E recs stream Hr X1 X2 X3 Hl Hnl junk junk' ps w chunks Hc) as (n & N). exists n. intros fuel Hf. specialize (N fuel Hf).
  unfold nproj in N. destruct (feed _ _ _ _ _ _) as [[[v s] w1]| |]; destruct (x_feed _ _ _ _ _ _) as [[[v' x'] w1']| |]; cbn in N |- *; try contradiction; try (split; [reflexivity|intros; discriminate]).
  destruct N as (-> & -> & N). split; [reflexivity|]. intros v1 x1 w2 Eq. inv Eq. exact N.
Qed.

Theorem lzma_meaning : enough_memory L ->
  forall recs patch from to, lzma_patch L recs patch -> recs_in_limits recs -> apply_recs from 0 recs = Some to ->
  bytes_ok (enc_body recs) -> zlen patch < 2 ^ word_bits -> zlen (enc_body recs) + 160 < 2 ^ word_bits ->
  forall junk ps chunks, concat chunks = patch ->
  exists n, forall fuel, (n <= fuel)%nat ->
    exists x w, x_apply L fuel junk ps from chunks = Ret (zlen to, x, w) /\ f_to w = to /\ nothing_allocated (x_reader x).
Proof.
  intros Hm recs patch from to Hp Hr Ha Hb Hl Hnl junk ps chunks Hc.
  assert (Hlast : recs = [] \/ last_nonempty recs) by (destruct Hp as [(-> & _)|(X & _)]; auto).
  set (plain := header_byte TYPE_SEQUENTIAL CompNone :: match recs with [] => enc_size 0 | _ => enc_size (recs_size recs) ++ enc_body recs end).
  assert (Hs : seq_patch CompNone recs plain).
  { unfold plain. destruct Hlast as [->|Hla]; [left; split; reflexivity|]. right. split; [exact Hla|]. exists (enc_body recs). split; [constructor|].
    destruct Hla as (rs & r & -> & _). destruct (rs ++ [r]) eqn:Er; [destruct rs; discriminate|reflexivity]. }
  assert (Hsz : - 2 ^ 63 < recs_size recs < 2 ^ 63) by (pose proof (recs_size_nonneg recs); unfold recs_in_limits, size_limit in Hr; lia).
  pose proof (enc_size_short (recs_size recs)) as H11. pose proof (enc_size_short 0) as H0.
  assert (Hpl : zlen plain + 128 < 2 ^ word_bits).
  { unfold plain. rewrite zlen_cons. pose proof (zlen_nonneg (enc_body recs)). destruct recs; [lia|]. rewrite zlen_app. lia. }
  assert (Hbp : bytes_ok plain).
  { unfold plain. constructor; [vm_compute; intuition congruence|]. destruct recs; [apply enc_size_bytes|]. rewrite bytes_ok_app. split; [apply enc_size_bytes|exact Hb]. }
  assert (Hh : header_complete (hd [] [plain]) = true).
  { cbn [hd]. unfold plain. pose proof (header_in_first (header_byte TYPE_SEQUENTIAL CompNone) (recs_size recs)) as X. destruct recs as [|r recs].
    - reflexivity.
    - specialize (X (enc_body (r :: recs)) (zlen plain + 128) Hsz ltac:(pose proof (zlen_nonneg plain); lia)).
      rewrite ztake_all in X; [exact X|]. unfold plain. lia. }
  destruct (lzma_as_uncompressed files file_env Hm recs patch plain Hp Hs Hr Hl Hpl junk junk ps (mkfiles from 0 []) chunks Hc) as (n1 & N1).
  destruct (apply_meaning Hword junk CompNone recs plain from to [plain] Hs Hr Ha Hbp Hpl) as (n2 & N2); [exact (app_nil_r plain)|auto|].
  exists (Nat.max n1 n2). intros fuel Hf. destruct (N1 fuel ltac:(lia)) as [Q1 Q2]. destruct (N2 fuel ltac:(lia)) as (s & w & Q3 & Q4).
  unfold c_apply in Q3. rewrite Q3 in Q1. cbn [obind] in Q1. unfold x_apply. destruct (x_feed _ _ _ _ _ _) as [[[v x] w1]| |] eqn:Ex; cbn [obind] in Q1; try discriminate.
  inv Q1. exists x, w. splits; auto. eapply Q2; eauto.
Qed.

Theorem lzma_meaning_callbacks : enough_memory L ->
  forall recs patch from to, lzma_patch L recs patch -> recs_in_limits recs -> apply_recs from 0 recs = Some to ->
  bytes_ok (enc_body recs) -> zlen patch < 2 ^ word_bits -> zlen (enc_body recs) + 160 < 2 ^ word_bits ->
  forall junk, exists n, forall fuel, (n <= fuel)%nat ->
    exists x w pos, x_apply_patch_callbacks L (env_with file_env Z) fuel junk (patch_file patch) (zlen patch) (mkfiles from 0 [], 0) = Ret (zlen to, x, (w, pos)) /\
      f_to w = to /\ nothing_allocated (x_reader x).
Proof.
  intros Hm recs patch from to Hp Hr Ha Hb Hl Hnl junk. pose proof (zlen_nonneg patch).
  set (k := Z.to_nat (zlen patch)). assert (Hk : zlen patch <= 512 * Z.of_nat k) by lia.
  destruct (lzma_meaning Hm recs patch from to Hp Hr Ha Hb Hl Hnl junk (zlen patch) (pieces k patch) (pieces_concat k patch Hk)) as (n & N).
  destruct (N n (le_n _)) as (x & w & N1 & N2 & N3). unfold x_apply in N1.
  destruct (xcallbacks_feed L file_env patch k n 0 _ _ _ _ _ ltac:(lia) ltac:(lia) N1) as (pos & G).
  exists (n + k)%nat. intros fuel Hf. exists x, w, pos. unfold x_apply_patch_callbacks. rewrite G by auto. auto.
Qed.

Theorem lzma_no_ub : forall (W : Type) (E : seq_env W) (pos : W -> Z), lib_ok L -> honest E pos ->
  forall fuel junk ps w chunks, pos w = 0 -> announced_comp (concat chunks) = 1 -> zlen (concat chunks) < 2 ^ word_bits ->
  x_feed L E fuel (xap_init junk ps) w chunks <> Undef /\
  forall v x w1, x_feed L E fuel (xap_init junk ps) w chunks = Ret (v, x, w1) -> nothing_allocated (x_reader x).
Proof.
  intros W E pos Hlib Hon fuel junk ps w chunks Hpos Ha Hl.
  assert (K : x_feed L E fuel (xap_init junk ps) w chunks = OutOfFuel \/
     exists v x1 w1, x_feed L E fuel (xap_init junk ps) w chunks = Ret (v, x1, w1) /\ nothing_allocated (x_reader x1)).
  { assert (Z1 : x_feed L E fuel (xap_init junk ps) w chunks = x_feed L E fuel (xap_init (set_chunk junk []) ps) w chunks) by (destruct chunks; reflexivity).
    rewrite Z1. eapply xfeed_safe; eauto. unfold xinv. cbn. change (zlen (@nil Z)) with 0. splits; auto. }
  destruct K as [K|(v & x1 & w1 & K & N)]; rewrite K; (split; [discriminate|]); intros v' x' w' Eq; inv Eq. exact N.
Qed.

Theorem lzma_terminates : forall (W : Type) (E : seq_env W), lib_ok L -> bounded_output L ->
  forall junk ps w chunks, announced_comp (concat chunks) = 1 -> zlen (concat chunks) < 2 ^ word_bits ->
  exists n, forall fuel, (n <= fuel)%nat -> x_feed L E fuel (xap_init junk ps) w chunks <> OutOfFuel.
Proof.
  intros W E Hlib (most & store & B1 & B2 & B3) junk ps w chunks Ha Hl.
  destruct (xfeed_term Hword L Hlib most store B1 B2 B3 E chunks (xap_init (set_chunk junk []) ps) w) as (n & o & N & No).
  - unfold xti. cbn. change (zlen (@nil Z)) with 0. splits; auto.
  - left; reflexivity.
  - exists n. intros fuel Hf. assert (Z1 : x_feed L E fuel (xap_init junk ps) w chunks = x_feed L E fuel (xap_init (set_chunk junk []) ps) w chunks) by (destruct chunks; reflexivity).
    rewrite Z1, N; auto.
Qed.
End Apply.
