(** In-place patches with LZMA are applied with their meaning, with power losses, and
    whatever the body is they do what the uncompressed patch does. *)

From Coq Require Import ZArith List Bool Lia ZifyBool ZifyNat ZifyN.
From Verif Require Import Prelude Lib Heatshrink CReader CSeq CInPlace Spec SizeCodec CreateProofs CallbackSpec CallbackProofs IpCallbackSpec IpCallback InPlaceSpec InPlaceFinal InPlaceThms
  CodesSpec CodesIp IpTerm CLzma CSeqLzma LzmaSpec LzmaProofs CIpLzma IpLzmaSpec IpLzmaCallback IpLzmaSim.
Import ListNotations.
Open Scope Z_scope.

Lemma flash_mem_codes : mem_codes (fun r => r <= 0 /\ r <> -11) flash_env.
Proof.
  split; [|split]; cbn [flash_env mem_read mem_write mem_erase]; intros.
  - unfold flash_read. destruct (d_off w); [cbn; lia|]. destruct (negb _); [cbn; lia|]. destruct (power_lost_now w); cbn; lia.
  - unfold flash_write. destruct (d_off w); [cbn; lia|]. destruct (negb _); [cbn; lia|]. destruct (power_lost_now w); cbn; lia.
  - unfold flash_erase. destruct (d_off w); [cbn; lia|]. destruct (negb _); [cbn; lia|]. destruct (power_lost_now w); cbn; lia.
Qed.

Section Any.
Context {WBits : WordBits}.
Hypothesis Hword : 32 <= word_bits.
Context {D : Type} (L : lzma_lib D).
Hypothesis Hmem : enough_memory L.

Definition plain_in_place (memory segment shift from_size to_size : Z) (body : list Z) : list Z :=
  in_place_header CompNone memory segment shift from_size to_size ++ body.

Lemma plain_npatch : forall memory segment shift from_size to_size body,
  npatch memory segment shift from_size to_size body = plain_in_place memory segment shift from_size to_size body.
Proof. intros. unfold npatch, plain_in_place, in_place_header. cbn [app]. rewrite <- !app_assoc. reflexivity. Qed.

Lemma plain_short : forall memory segment shift from_size to_size body,
  zlen (plain_in_place memory segment shift from_size to_size body) <= zlen body + 56.
Proof. intros. unfold plain_in_place. rewrite zlen_app. pose proof (in_place_header_short CompNone memory segment shift from_size to_size). lia. Qed.

(** Whatever the body is: the effects are those of the uncompressed patch. *)
Lemma lzma_ip_as_plain : forall (W : Type) (E : ip_env W), mem_codes (fun r => r <= 0 /\ r <> -11) E -> lz_start L <> None ->
  forall memory segment shift from_size to_size body stream,
  0 <= memory < size_limit -> 0 <= segment < size_limit -> 0 <= shift < size_limit -> 0 <= from_size < size_limit -> 0 <= to_size < size_limit ->
  (0 < to_size -> lzma_stream L body stream) ->
  let patch := lzma_in_place memory segment shift from_size to_size stream in
  let plain := plain_in_place memory segment shift from_size to_size body in
  zlen patch < 2 ^ word_bits -> zlen body + 200 < 2 ^ word_bits ->
  forall junk ps w chunks, concat chunks = patch ->
  exists n, forall fuel, (n <= fuel)%nat ->
    match ip_apply E fuel junk (zlen plain) w [plain], y_apply L E fuel junk ps w chunks with
    | Ret (v, _, w1), Ret (v', y, w1') => (v' = v \/ v = - E_CORRUPT_PATCH) /\ w1' = w1 /\ nothing_allocated (y_reader y)
    | Undef, Undef => True
    | OutOfFuel, OutOfFuel => True
    | _, _ => False
    end.
Proof.
  intros W E HE Hst memory segment shift from_size to_size body stream H1 H2 H3 H4 H5 Hs patch plain Hp Hn junk ps w chunks Hc.
  unfold size_limit in *.
  assert (Hst' : exists d, lz_start L = Some d) by (destruct (lz_start L); [eauto|congruence]).
  assert (Hnl : zlen (npatch memory segment shift from_size to_size body) + 128 < 2 ^ word_bits).
  { rewrite plain_npatch. pose proof (plain_short memory segment shift from_size to_size body). lia. }
  destruct (as_plain Hword L Hmem Hst' E HE memory segment shift from_size to_size body stream H1 H2 H3 H4 H5 Hs Hp Hnl junk ps w chunks Hc) as (n & N).
  exists n. intros fuel Hf. specialize (N fuel Hf). rewrite plain_npatch in N. fold plain in N. unfold ip_apply, y_apply.
  destruct (ip_feed E fuel (ip_init junk (zlen plain)) w [plain]) as [[[v s] w1]| |]; cbn [nproj obind same] in N; exact N.
Qed.

End Any.

Section Update.
Context {WBits : WordBits}.
Hypothesis Hword : 32 <= word_bits.
Context {D : Type} (L : lzma_lib D).
Hypothesis Hmem : enough_memory L.
Variables memory segment shift : Z.
Variables from to : list Z.
Variable mem : list (option Z).
Variable segs : list (list prec).
Variable patch : list Z.
Hypothesis Hsizes : sizes_ok memory segment shift (zlen from) (zlen to).
Hypothesis Hpatch : lzma_in_place_patch L memory segment shift (zlen from) (zlen to) segs patch.
Hypothesis Happly : apply_segments memory segment shift from 0 segs = Some to.
Hypothesis Hlimits : segments_in_limits segment shift 0 segs.
Hypothesis Hbytes : bytes_ok (enc_segments segs).
Hypothesis Hps : zlen patch < 2 ^ word_bits.
Hypothesis Hbody : zlen (enc_segments segs) + 200 < 2 ^ word_bits.
Hypothesis Hlen : memory <= zlen mem.
Hypothesis Hfrom : holds mem from.

Let plain := plain_in_place memory segment shift (zlen from) (zlen to) (enc_segments segs).

Lemma plain_update : in_place_update CompNone memory segment shift from to plain.
Proof.
  exists segs. split; [|auto]. destruct Hpatch as (A & stream & B & C). split; [exact A|]. exists (enc_segments segs). split; [reflexivity|].
  destruct segs as [|s ss]; [left; auto|]. right. split; [discriminate|]. constructor.
Qed.

Lemma plain_bytes : bytes_ok plain.
Proof.
  unfold plain, plain_in_place, in_place_header. apply Forall_app. split; [|exact Hbytes]. constructor; [unfold byte_ok; cbn; lia|].
  repeat (apply Forall_app; split); apply enc_size_bytes.
Qed.

Lemma plain_fits : zlen plain + 128 < 2 ^ word_bits.
Proof. unfold plain. pose proof (plain_short memory segment shift (zlen from) (zlen to) (enc_segments segs)). lia. Qed.

Lemma plain_division : division CompNone memory segment shift (zlen from) (zlen to) plain [plain].
Proof.
  split; [cbn [concat]; apply app_nil_r|]. intros _. cbn [hd]. unfold plain, plain_in_place. rewrite zlen_app. pose proof (zlen_nonneg (enc_segments segs)). lia.
Qed.

(** One attempt on the device. *)
Lemma attempt_as_plain : forall junk ps d pieces, concat pieces = patch ->
  exists n, forall fuel, (n <= fuel)%nat ->
    match ip_apply flash_env fuel junk (zlen plain) d [plain], y_apply L flash_env fuel junk ps d pieces with
    | Ret (v, _, d1), Ret (v', y, d1') => (v' = v \/ v = - E_CORRUPT_PATCH) /\ d1' = d1 /\ nothing_allocated (y_reader y)
    | Undef, Undef => True
    | OutOfFuel, OutOfFuel => True
    | _, _ => False
    end.
Proof.
  intros junk ps d pieces Hc. destruct Hpatch as (A & stream & -> & C). destruct Hsizes as (S1 & S2 & S3 & S4 & S5 & S6 & S7).
  pose proof (zlen_nonneg from). 
  assert (Hst : lz_start L <> None). { destruct C as [[_ C]|[_ (d0 & C & _)]]; congruence. }
  assert (Hstr : 0 < zlen to -> lzma_stream L (enc_segments segs) stream).
  { intros Hto. destruct C as [[C _]|[_ C]]; [|exact C]. rewrite C in A. cbn in A. lia. }
  apply (lzma_ip_as_plain Hword L Hmem dev flash_env flash_mem_codes Hst memory segment shift (zlen from) (zlen to) (enc_segments segs) stream); auto; lia.
Qed.

Lemma interrupted_as_plain : forall d d', lzma_interrupted L patch d d' ->
  interrupted (zlen plain) (division CompNone memory segment shift (zlen from) (zlen to) plain) d d'.
Proof.
  induction 1 as [d|d power torn ts fuel junk ps pieces r y d1 d2 Hc A R N I IH]; [constructor|].
  destruct (attempt_as_plain junk ps (power_up d power torn ts) pieces Hc) as (n & Hn).
  specialize (Hn (fuel + n)%nat ltac:(lia)).
  assert (A' : y_apply L flash_env (fuel + n) junk ps (power_up d power torn ts) pieces = Ret (r, y, d1)).
  { unfold y_apply in *. eapply yfeed_mono; eauto; [discriminate|lia]. }
  rewrite A' in Hn. destruct (ip_apply flash_env (fuel + n) junk (zlen plain) (power_up d power torn ts) [plain]) as [[[v s] d3]| |] eqn:Ep; try contradiction.
  destruct Hn as (V & <- & _). eapply interrupted_once_more; [exact plain_division|exact Ep| |exact N|exact IH].
  destruct V as [<-|V]; [exact R|rewrite V; reflexivity].
Qed.

(** An attempt whose uncompressed counterpart is known. *)
Lemma lzma_attempt : forall (P : Z -> dev -> Prop) junk ps d pieces, concat pieces = patch ->
  (exists n, forall fuel, (n <= fuel)%nat -> exists r s d1, ip_apply flash_env fuel junk (zlen plain) d [plain] = Ret (r, s, d1) /\ P r d1) ->
  exists n, forall fuel, (n <= fuel)%nat -> exists r' r y d1, y_apply L flash_env fuel junk ps d pieces = Ret (r', y, d1) /\
    (r' = r \/ r = - E_CORRUPT_PATCH) /\ P r d1 /\ nothing_allocated (y_reader y).
Proof.
  intros P junk ps d pieces Hc (n1 & N1). destruct (attempt_as_plain junk ps d pieces Hc) as (n2 & N2). exists (Nat.max n1 n2). intros fuel Hf.
  destruct (N1 fuel ltac:(lia)) as (r & s & d1 & A & B). specialize (N2 fuel ltac:(lia)). rewrite A in N2.
  destruct (y_apply L flash_env fuel junk ps d pieces) as [[[r' y] d1']| |]; try contradiction. destruct N2 as (C1 & -> & C3). exists r', r, y, d1. auto.
Qed.

Lemma not_corrupt : forall r, r = zlen to -> r <> - E_CORRUPT_PATCH.
Proof. intros r ->. pose proof (zlen_nonneg to). unfold E_CORRUPT_PATCH. lia. Qed.

Theorem lzma_ip_meaning : forall pieces junk ps, concat pieces = patch ->
  exists n, forall fuel, (n <= fuel)%nat ->
  exists y d, y_apply L flash_env fuel junk ps (new_device mem) pieces = Ret (zlen to, y, d) /\
    holds (d_mem d) to /\ d_step d = 0 /\ nothing_allocated (y_reader y).
Proof.
  intros pieces junk ps Hc.
  destruct (in_place_applied Hword memory segment shift from to mem CompNone plain Hsizes plain_update plain_bytes plain_fits Hlen Hfrom [plain] junk plain_division) as (n1 & N1).
  destruct (lzma_attempt (fun r d => r = zlen to /\ holds (d_mem d) to /\ d_step d = 0) junk ps (new_device mem) pieces Hc) as (n & N).
  { exists n1. intros fuel Hf. destruct (N1 fuel Hf) as (s & d & A & B). eauto 10. }
  exists n. intros fuel Hf. destruct (N fuel Hf) as (r' & r & y & d1 & A & B & (C1 & C2 & C3) & F). exists y, d1.
  destruct B as [->|B]; [|exfalso; eapply not_corrupt; eauto]. subst r. auto.
Qed.

Theorem lzma_ip_meaning_callbacks : forall junk, exists n, forall fuel, (n <= fuel)%nat ->
  exists y d pos, y_apply_patch_in_place_callbacks L (ip_env_with flash_env Z) fuel junk (patch_file patch) (zlen patch) (new_device mem, 0) = Ret (zlen to, y, (d, pos)) /\
    holds (d_mem d) to /\ d_step d = 0 /\ nothing_allocated (y_reader y).
Proof.
  intros junk. pose proof (zlen_nonneg patch). set (k := Z.to_nat (zlen patch)). assert (Hk : zlen patch <= 512 * Z.of_nat k) by lia.
  destruct (lzma_ip_meaning (pieces k patch) junk (zlen patch) (pieces_concat k patch Hk)) as (n & N).
  destruct (N n (le_n _)) as (y & d & N1 & N2). unfold y_apply in N1. rewrite <- (zdrop_0 patch) in N1 at 2.
  destruct (ycallbacks_feed L flash_env patch k n 0 _ _ _ _ _ ltac:(lia) ltac:(lia) N1) as (pos & G).
  exists (n + k)%nat. intros fuel Hf. exists y, d, pos. unfold y_apply_patch_in_place_callbacks. rewrite G by auto. auto.
Qed.

Theorem lzma_ip_resumed : forall d pieces junk ps torn torn_step,
  lzma_interrupted L patch (new_device mem) d -> concat pieces = patch ->
  exists n, forall fuel, (n <= fuel)%nat ->
  exists y d1, y_apply L flash_env fuel junk ps (power_up d None torn torn_step) pieces = Ret (zlen to, y, d1) /\
    holds (d_mem d1) to /\ d_step d1 = 0 /\ nothing_allocated (y_reader y) /\
    forall fuel2 junk2 ps2 pieces2 r2 y2 d2, concat pieces2 = patch ->
      y_apply L flash_env fuel2 junk2 ps2 (new_device mem) pieces2 = Ret (r2, y2, d2) ->
      d_mem d1 = d_mem d2.
Proof.
  intros d pieces junk ps torn ts I Hc. apply interrupted_as_plain in I.
  destruct (in_place_resumed Hword memory segment shift from to mem CompNone plain Hsizes plain_update plain_bytes plain_fits Hlen Hfrom d [plain] junk torn ts I plain_division) as (n1 & N1).
  destruct (lzma_attempt (fun r d1 => r = zlen to /\ holds (d_mem d1) to /\ d_step d1 = 0 /\
    forall fuel2 junk2 pieces2 r2 s2 d2, division CompNone memory segment shift (zlen from) (zlen to) plain pieces2 ->
      ip_apply flash_env fuel2 junk2 (zlen plain) (new_device mem) pieces2 = Ret (r2, s2, d2) -> d_mem d1 = d_mem d2) junk ps (power_up d None torn ts) pieces Hc) as (n & N).
  { exists n1. intros fuel Hf. destruct (N1 fuel Hf) as (s & d1 & A & B). eauto 10. }
  exists n. intros fuel Hf. destruct (N fuel Hf) as (r' & r & y & d1 & A & B & (C1 & C2 & C3 & C4) & F). exists y, d1.
  destruct B as [->|B]; [|exfalso; eapply not_corrupt; eauto]. subst r. splits; auto.
  intros fuel2 junk2 ps2 pieces2 r2 y2 d2 Hc2 A2. destruct (attempt_as_plain junk2 ps2 (new_device mem) pieces2 Hc2) as (n2 & N2).
  specialize (N2 (fuel2 + n2)%nat ltac:(lia)).
  assert (A2' : y_apply L flash_env (fuel2 + n2) junk2 ps2 (new_device mem) pieces2 = Ret (r2, y2, d2)).
  { unfold y_apply in *. eapply yfeed_mono; eauto; [discriminate|lia]. }
  rewrite A2' in N2. destruct (ip_apply flash_env (fuel2 + n2) junk2 (zlen plain) (new_device mem) [plain]) as [[[v s] d3]| |] eqn:Ep; try contradiction.
  destruct N2 as (_ & -> & _). eapply C4; [exact plain_division|exact Ep].
Qed.

Theorem lzma_ip_safe : forall d pieces junk ps power torn torn_step,
  lzma_interrupted L patch (new_device mem) d -> concat pieces = patch ->
  exists n, forall fuel, (n <= fuel)%nat ->
  exists r y d1, y_apply L flash_env fuel junk ps (power_up d power torn torn_step) pieces = Ret (r, y, d1) /\
    d_bad d1 = false /\ Forall (event_in_memory memory) (d_log d1) /\
    (forall k, memory <= k -> znth (d_mem d1) k = znth mem k) /\ nothing_allocated (y_reader y).
Proof.
  intros d pieces junk ps power torn ts I Hc. apply interrupted_as_plain in I.
  destruct (in_place_safe Hword memory segment shift from to mem CompNone plain Hsizes plain_update plain_bytes plain_fits Hlen Hfrom d [plain] junk power torn ts I plain_division) as (n1 & N1).
  destruct (lzma_attempt (fun r d1 => d_bad d1 = false /\ Forall (event_in_memory memory) (d_log d1) /\
    (forall k, memory <= k -> znth (d_mem d1) k = znth mem k)) junk ps (power_up d power torn ts) pieces Hc) as (n & N).
  { exists n1. exact N1. }
  exists n. intros fuel Hf. destruct (N fuel Hf) as (r' & r & y & d1 & A & B & (C1 & C2 & C3) & F). exists r', y, d1. auto.
Qed.

Theorem lzma_ip_steps : forall d pieces junk ps torn torn_step, to <> [] ->
  lzma_interrupted L patch (new_device mem) d -> concat pieces = patch ->
  exists n, forall fuel, (n <= fuel)%nat ->
  exists y d1, y_apply L flash_env fuel junk ps (power_up d None torn torn_step) pieces = Ret (zlen to, y, d1) /\
    let last := total_steps memory segment shift (zlen from) (zlen to) in
    exists before ops, d_log d1 = before ++ ops ++ [EStep 0] /\
      steps_log memory segment shift (zlen from) (zlen to) (d_step d) (last - 1) before /\
      Forall (event_of_step memory segment shift (zlen from) (zlen to) last) ops.
Proof.
  intros d pieces junk ps torn ts Hne I Hc. apply interrupted_as_plain in I.
  destruct (in_place_steps Hword memory segment shift from to mem CompNone plain Hsizes plain_update plain_bytes plain_fits Hlen Hfrom d [plain] junk torn ts Hne I plain_division) as (n1 & N1).
  cbv zeta in *.
  destruct (lzma_attempt (fun r d1 => r = zlen to /\ exists before ops, d_log d1 = before ++ ops ++ [EStep 0] /\
      steps_log memory segment shift (zlen from) (zlen to) (d_step d) (total_steps memory segment shift (zlen from) (zlen to) - 1) before /\
      Forall (event_of_step memory segment shift (zlen from) (zlen to) (total_steps memory segment shift (zlen from) (zlen to))) ops) junk ps (power_up d None torn ts) pieces Hc) as (n & N).
  { exists n1. intros fuel Hf. destruct (N1 fuel Hf) as (s & d1 & A & B). eauto 10. }
  exists n. intros fuel Hf. destruct (N fuel Hf) as (r' & r & y & d1 & A & B & (C1 & C2) & F). exists y, d1.
  destruct B as [->|B]; [|exfalso; eapply not_corrupt; eauto]. subst r. auto.
Qed.

End Update.
