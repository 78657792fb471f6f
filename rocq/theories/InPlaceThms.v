(** In-place: creation followed by application, and the callback API. *)

From Coq Require Import ZArith List Bool Lia ZifyBool ZifyNat ZifyN.
From Verif Require Import Prelude Lib Heatshrink CReader CSeq CInPlace Spec PySize PyCrle Bsdiff BsdiffSpec PyCreate
  CreateProofs CallbackSpec CallbackProofs IpCallbackSpec IpCallback InPlaceSpec InPlaceFinal PyInPlace InPlaceCreate.
Import ListNotations.
Open Scope Z_scope.

Lemma ip_callbacks_requests : forall `{WordBits} W (E : ip_env W) patch_read fuel junk ps w v s1 w1 log, codes_ok E -> 0 <= ps ->
  apply_patch_in_place_callbacks (ip_env_with E (list Z)) fuel junk (recorded patch_read) ps (w, []) = Ret (v, s1, (w1, log)) ->
  Forall (fun n => 1 <= n <= 512) log /\ sum log <= ps /\ (0 <= v -> sum log = ps) /\
  exists f r s0 w0, ip_finalize E f s0 w0 = Ret (r, s1, w1).
Proof.
  intros wb W E patch_read fuel junk ps w v s1 w1 log HE Hps C. apply irequests in C; [|auto|lia]. destruct C as (more & -> & A & B & D & F). cbn [app]. auto.
Qed.

Lemma ip_callbacks_in_order : forall `{WordBits} W (E : ip_env W) junk patch w,
  exists pieces, concat pieces = patch /\ Forall (fun p => zlen p <= 512) pieces /\
  forall n v s1 w1, ip_apply E n junk (zlen patch) w pieces = Ret (v, s1, w1) ->
  exists m pos, forall fuel, (m <= fuel)%nat ->
    apply_patch_in_place_callbacks (ip_env_with E Z) fuel junk (patch_file patch) (zlen patch) (w, 0) = Ret (v, s1, (w1, pos)).
Proof.
  intros wb W E junk patch w. pose proof (zlen_nonneg patch). set (k := Z.to_nat (zlen patch)). exists (pieces k patch). split; [apply pieces_concat; unfold k; lia|]. split; [apply pieces_small|].
  intros n v s1 w1 F. unfold ip_apply in F. rewrite <- (zdrop_0 patch) in F at 2.
  destruct (icallbacks_feed E patch k n 0 (ip_init junk (zlen patch)) w v s1 w1) as (pos & P); [lia|unfold k; lia|exact F|].
  exists (n + k)%nat, pos. exact P.
Qed.

Lemma in_place_header_short : forall c a b d e f, zlen (in_place_header c a b d e f) <= 56.
Proof.
  intros. unfold in_place_header. rewrite zlen_cons, !zlen_app. pose proof (enc_size_short a). pose proof (enc_size_short b). pose proof (enc_size_short d).
  pose proof (enc_size_short e). pose proof (enc_size_short f). lia.
Qed.

Lemma in_place_round_trip : forall (wb : WordBits), 32 <= word_bits ->
  forall c hs sa memory segment minimum_shift from to,
  (forall l, array_ok (sa l) l) -> bytes_ok to ->
  0 < segment -> (segment | memory) -> (segment | minimum_of segment minimum_shift) ->
  segment <= minimum_of segment minimum_shift <= memory ->
  memory < 2 ^ 27 -> zlen from < 2 ^ 27 -> zlen to <= memory ->
  let shift := calc_shift memory segment (minimum_of segment minimum_shift) (zlen from) in
  (c = CompCrle -> forall body,
     create_in_place_segments sa segment shift (kept memory shift from) to (Z.to_nat (py_div_ceil (zlen to) segment)) 0 = Ret (Some body) ->
     zlen body < 2 ^ 28) ->
  (c = CompHeatshrink -> forall pieces, bytes_ok (concat pieces) -> compressed CompHeatshrink (concat pieces) (hs pieces)) ->
  exists patch, create_in_place c hs sa memory segment minimum_shift from to = Ret (Some patch) /\
    (zlen patch + 128 < 2 ^ word_bits ->
     forall mem junk, memory <= zlen mem -> holds mem from ->
     (forall pieces, division c memory segment shift (zlen from) (zlen to) patch pieces ->
      exists n, forall fuel, (n <= fuel)%nat ->
      exists s d, ip_apply flash_env fuel junk (zlen patch) (new_device mem) pieces = Ret (zlen to, s, d) /\ holds (d_mem d) to) /\
     (exists n, forall fuel, (n <= fuel)%nat ->
      exists s d pos, apply_patch_in_place_callbacks (ip_env_with flash_env Z) fuel junk (patch_file patch) (zlen patch) (new_device mem, 0)
        = Ret (zlen to, s, (d, pos)) /\ holds (d_mem d) to)).
Proof.
  intros wb Hword c hs sa memory segment minimum_shift from to Hsa Hto G1 G2 G3 G4 G5 G6 G7 shift Hc Hh.
  destruct (create_in_place_spec c hs sa memory segment minimum_shift from to Hsa Hto G1 G2 G3 G4 G5 G6 G7 Hc Hh) as (patch & shift' & A & B & C & D & E).
  subst shift'. fold shift in D, E. exists patch. split; [exact A|]. intros Hps mem junk Hm Hf.
  assert (P : forall pieces, division c memory segment shift (zlen from) (zlen to) patch pieces ->
      exists n, forall fuel, (n <= fuel)%nat ->
      exists s d, ip_apply flash_env fuel junk (zlen patch) (new_device mem) pieces = Ret (zlen to, s, d) /\ holds (d_mem d) to).
  { intros pieces Hd. destruct (in_place_applied Hword memory segment shift from to mem c patch D E B Hps Hm Hf pieces junk Hd) as (n & N).
    exists n. intros fuel Hfu. destruct (N fuel Hfu) as (s & d & X & Y & _). eauto. }
  split; [exact P|].
  pose proof (zlen_nonneg patch). set (k := Z.to_nat (zlen patch)).
  destruct (P (pieces k patch)) as (n & N).
  { split; [apply pieces_concat; unfold k; lia|]. intros _. destruct E as (segs & (_ & stream & Ep & _) & _).
    assert (Hh0 : 0 < zlen (in_place_header c memory segment shift (zlen from) (zlen to))).
    { unfold in_place_header. rewrite zlen_cons. match goal with |- 0 < 1 + zlen ?l => pose proof (zlen_nonneg l) end. lia. }
    pose proof (in_place_header_short c memory segment shift (zlen from) (zlen to)). pose proof (zlen_nonneg stream).
    assert (Hl : zlen (in_place_header c memory segment shift (zlen from) (zlen to)) <= zlen patch) by (rewrite Ep, zlen_app; lia).
    destruct k eqn:Ek; [unfold k in Ek; lia|]. cbn [pieces]. destruct patch as [|b patch']; [change (zlen (@nil Z)) with 0 in *; lia|]. cbn [hd].
    rewrite zlen_ztake by lia. lia. }
  destruct (N n (le_n n)) as (s & d & Q & T). unfold ip_apply in Q. rewrite <- (zdrop_0 patch) in Q at 2.
  destruct (icallbacks_feed flash_env patch k n 0 (ip_init junk (zlen patch)) (new_device mem) (zlen to) s d) as (pos & R); [lia|unfold k; lia|exact Q|].
  exists (n + k)%nat. intros fuel Hfu. exists s, d, pos. split; [apply R; exact Hfu|exact T].
Qed.
