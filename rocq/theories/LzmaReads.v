(** LZMA patches delivered by any patch_read callback. *)

From Coq Require Import ZArith List Bool Lia ZifyBool ZifyNat ZifyN.
From Verif Require Import Prelude Lib Heatshrink HsProofs CReader ReaderProofs SizeProofs CSeq Spec SeqSim SeqRun SeqTerm SeqMeaning SeqApply SeqSpec SeqInv SeqCount CallbackSpec CallbackProofs CLzma CSeqLzma LzmaSpec LzmaProofs LzmaSafe LzmaTerm LzmaCallback SeqExamples Refuted LzmaExamples.
Import ListNotations.
Open Scope Z_scope.

(** What is still to come, as long as it is not known. *)
Definition zeros (n : Z) : list Z := zrepeat 0 n.

Lemma zeros_len : forall n, 0 <= n -> zlen (zeros n) = n.
Proof. intros. apply zlen_zrepeat. auto. Qed.

Lemma zeros_comp : forall n, 0 <= n -> zeros n = [] \/ announced_comp (zeros n) = 1 -> n = 0.
Proof.
  intros n Hn H. destruct (Z.eq_dec n 0); [auto|]. exfalso. unfold zeros, zrepeat in H. destruct (Z.to_nat n) eqn:K; [lia|]. cbn [repeat] in H.
  destruct H as [H|H]; discriminate.
Qed.

Section Reads.
Context {WBits : WordBits}.
Hypothesis Hword : 32 <= word_bits.
Context {D : Type} (L : lzma_lib D).
Hypothesis Hlib : lib_ok L.
Context {W : Type} (E : seq_env W) (pos : W -> Z).
Hypothesis Hon : honest E pos.
Variable patch_read : W -> Z -> Z * list Z * W.
Hypothesis Hread : forall w n rr buf w1, 0 < n <= 512 -> patch_read w n = (rr, buf, w1) -> pos w1 = pos w /\ (rr = 0 -> zlen buf = n).

Lemma xinv_known : forall n f (x : xap D) w w', 0 <= n -> zlen f = n -> pos w' = pos w -> a_left (x_ap x) = [] \/ final (x_ap x) -> xinv pos (zeros n) x w -> xinv pos f x w'.
Proof.
  intros n f x w w' Hn Hf Hp Hl Hi. unfold xinv in *. rewrite Hp. unfold final in Hl.
  destruct (a_state (x_ap x)); auto; (destruct Hl as [Hl|[Hl|Hl]]; [|discriminate|discriminate]); rewrite Hl in *; unfold lsrc in *; rewrite ?zeros_len, Hf in * by lia; auto.
  destruct Hi as (A & B & C & F & G). splits; auto. destruct (a_to_init (x_ap x)); auto. cbn [app] in *. apply zeros_comp in G; [|lia]. left. apply zlen_0_nil. lia.
Qed.

Definition cb_ok (o : outcome (Z * xap D * W)) : Prop :=
  o = OutOfFuel \/ exists v x1 w1, o = Ret (v, x1, w1) /\ nothing_allocated (x_reader x1).

(** One round, given the rest. *)
Lemma callbacks_round : forall fuel ps po x w, 0 <= po < ps -> a_left (x_ap x) = [] \/ final (x_ap x) ->
  (forall po' x' w', po < po' <= ps -> xinv pos (zeros (ps - po')) x' w' -> a_left (x_ap x') = [] \/ final (x_ap x') ->
     cb_ok (x_callbacks_loop L E fuel patch_read ps po' x' w')) ->
  let n := Z.min (ps - po) 512 in
  (forall rr buf w1, patch_read w n = (rr, buf, w1) -> exists f, xinv pos f x w1 /\ (rr = 0 -> f = buf ++ zeros (ps - (po + n)))) ->
  cb_ok (x_callbacks_loop L E (S fuel) patch_read ps po x w).
Proof.
  intros fuel ps po x w Hp Hl IH n Hn. cbn [x_callbacks_loop]. destruct (Z.ltb_spec po ps); [|lia]. cbn [negb]. cbv zeta. fold n.
  destruct (patch_read w n) as [[rr buf] w1] eqn:R. assert (Hnn : 0 < n <= 512) by (subst n; lia). destruct (Hread _ _ _ _ _ Hnn R) as [R1 R2]. destruct (Hn _ _ _ eq_refl) as (f & Hf & Hb).
  destruct (Z.eqb_spec rr 0); cbn [negb].
  2:{ destruct (xfinalize_safe Hword L Hlib E pos Hon (S fuel) _ x w1 Hf Hl) as [A|(v & x1 & w2 & A & B)]; rewrite A; cbn [obind]; [left; auto|].
      right. do 3 eexists. split; [reflexivity|]. exact B. }
  rewrite R2 by auto. rewrite Z.eqb_refl. cbn [negb]. unfold x_process. cbv zeta. rewrite (Hb e) in Hf.
  match goal with |- context [x_process_loop L E _ 0 ?y w1] => assert (Hi' : xinv pos (zeros (ps - (po + n))) y w1) end.
  { apply xinv_chunk with (c := buf) (x := x); auto. }
  destruct (xloop_safe Hword L Hlib E pos Hon (S fuel) _ 0 _ w1 Hi') as [A|(r1 & x1 & w2 & A & B & C)]; [lia| |]; rewrite A; cbn [obind]; [left; auto|].
  destruct (_ =? 0).
  - apply IH; auto. lia.
  - destruct (xfinalize_safe Hword L Hlib E pos Hon (S fuel) _ x1 w2 B C) as [F|(v & x2 & w3 & F & G)]; rewrite F; cbn [obind]; [left; auto|]. right. do 3 eexists. split; [reflexivity|]. exact G.
Qed.

Lemma callbacks_safe : forall fuel ps po x w, 0 <= po <= ps -> xinv pos (zeros (ps - po)) x w -> a_left (x_ap x) = [] \/ final (x_ap x) ->
  cb_ok (x_callbacks_loop L E fuel patch_read ps po x w).
Proof.
  assert (Last : forall fuel ps x w, xinv pos (zeros (ps - ps)) x w -> a_left (x_ap x) = [] \/ final (x_ap x) ->
    cb_ok (x_callbacks_loop L E fuel patch_read ps ps x w)).
  { intros fuel ps x w Hi Hl. replace (x_callbacks_loop L E fuel patch_read ps ps x w) with (x_finalize L E fuel x w).
    - eapply xfinalize_safe; eauto.
    - destruct fuel; cbn [x_callbacks_loop]; (destruct (Z.ltb_spec ps ps); [lia|reflexivity]). }
  induction fuel; intros ps po x w Hp Hi Hl; (destruct (Z.eq_dec po ps) as [->|]; [apply Last; auto|]).
  - cbn [x_callbacks_loop]. destruct (Z.ltb_spec po ps); [left; reflexivity|lia].
  - apply callbacks_round; auto; [lia|intros; apply IHfuel; auto; lia|]. cbv zeta. intros rr buf w1 R. assert (Hnn : 0 < Z.min (ps - po) 512 <= 512) by lia. destruct (Hread _ _ _ _ _ Hnn R) as [R1 R2].
    destruct (Z.eq_dec rr 0).
    + exists (buf ++ zeros (ps - (po + Z.min (ps - po) 512))). split; [|auto]. apply (xinv_known (ps - po) _ x w); auto; try lia. rewrite zlen_app, zeros_len, R2 by (auto; lia). lia.
    + exists (zeros (ps - po)). split; [|lia]. apply (xinv_known (ps - po) _ x w); auto; try lia. apply zeros_len. lia.
Qed.

(** Any patch_read: no undefined behaviour and nothing left allocated. *)
Theorem lzma_reads_safe : forall fuel junk ps w, pos w = 0 -> 0 < ps < 2 ^ word_bits ->
  (forall buf w1, patch_read w (Z.min ps 512) = (0, buf, w1) -> announced_comp buf = 1) ->
  x_apply_patch_callbacks L E fuel junk patch_read ps w <> Undef /\
  forall v x w1, x_apply_patch_callbacks L E fuel junk patch_read ps w = Ret (v, x, w1) -> nothing_allocated (x_reader x).
Proof.
  intros fuel junk ps w Hw Hps Ha.
  assert (K : cb_ok (x_apply_patch_callbacks L E fuel junk patch_read ps w)).
  2:{ destruct K as [K|(v & x & w1 & K & N)]; rewrite K; (split; [discriminate|]); intros v' x' w' Q; [discriminate|]. injection Q as <- <- <-. exact N. }
  assert (Z1 : x_apply_patch_callbacks L E fuel junk patch_read ps w = x_callbacks_loop L E fuel patch_read ps 0 (xap_init (set_chunk junk []) ps) w).
  { unfold x_apply_patch_callbacks. destruct fuel; cbn [x_callbacks_loop]; (destruct (Z.ltb_spec 0 ps); [|lia]); reflexivity. }
  rewrite Z1. destruct fuel; [cbn [x_callbacks_loop]; destruct (Z.ltb_spec 0 ps); [left; reflexivity|lia]|].
  apply callbacks_round; [lia|left; reflexivity|intros; apply callbacks_safe; auto; lia|]. cbv zeta. rewrite Z.sub_0_r. intros rr buf w1 R.
  assert (Hnn : 0 < Z.min ps 512 <= 512) by lia. destruct (Hread _ _ _ _ _ Hnn R) as [R1 R2].
  destruct (Z.eq_dec rr 0) as [->|].
  - exists (buf ++ zeros (ps - (0 + Z.min ps 512))). split; [|auto]. unfold xinv. cbn [xap_init ap_init set_chunk x_ap x_reader a_state a_from_offset a_left a_to_init].
    change (zlen (@nil Z)) with 0. rewrite R1, zlen_app, R2, zeros_len by lia. splits; auto; [lia|]. right. specialize (Ha _ _ R). cbn [app].
    destruct buf; [specialize (R2 eq_refl); change (zlen (@nil Z)) with 0 in R2; lia|exact Ha].
  - exists []. split; [|intros; lia]. unfold xinv. cbn. rewrite R1. change (zlen (@nil Z)) with 0. splits; auto. lia.
Qed.

End Reads.

Section Ends.
Context {WBits : WordBits}.
Hypothesis Hword : 32 <= word_bits.
Context {D : Type} (L : lzma_lib D).
Hypothesis Hlib : lib_ok L.
Variable most : Z.
Variable store : D -> Z.
Hypothesis Hmost : 0 <= most.
Hypothesis Hstore : forall d, 0 <= store d.
Hypothesis Hcode : forall d input n ret k out d', input <> [] -> 0 < n -> lz_code L d input n = (ret, k, out, d') ->
    zlen out + store d' <= store d + most * k.
Context {W : Type} (E : seq_env W).
Variable patch_read : W -> Z -> Z * list Z * W.

Lemma xti_known : forall n f (x : xap D), 0 <= n -> zlen f = n -> a_left (x_ap x) = [] \/ final (x_ap x) -> xti (zeros n) x -> xti f x.
Proof.
  intros n f x Hn Hf Hl Hi. unfold xti in *. unfold final in Hl.
  destruct (a_state (x_ap x)); auto; (destruct Hl as [Hl|[Hl|Hl]]; [|discriminate|discriminate]); rewrite Hl in *; unfold lsrc in *; rewrite ?zeros_len, Hf in * by lia; auto.
  destruct Hi as (A & F & G). splits; auto. destruct (a_to_init (x_ap x)); auto. cbn [app] in *. apply zeros_comp in G; [|lia]. left. apply zlen_0_nil. lia.
Qed.

Definition cb_ends (f : nat -> outcome (Z * xap D * W)) : Prop :=
  exists n o, (forall fuel, (n <= fuel)%nat -> f fuel = o) /\ o <> OutOfFuel.

Lemma ends_round : forall ps po x w, 0 <= po < ps -> a_left (x_ap x) = [] \/ final (x_ap x) ->
  let n := Z.min (ps - po) 512 in
  (forall x' w', xti (zeros (ps - (po + n))) x' -> a_left (x_ap x') = [] \/ final (x_ap x') ->
     cb_ends (fun fuel => x_callbacks_loop L E fuel patch_read ps (po + n) x' w')) ->
  (forall rr buf w1, patch_read w n = (rr, buf, w1) -> exists f, xti f x /\ (rr = 0 -> zlen buf = n -> f = buf ++ zeros (ps - (po + n)))) ->
  cb_ends (fun fuel => x_callbacks_loop L E fuel patch_read ps po x w).
Proof.
  intros ps po x w Hp Hl n IH Hn. destruct (patch_read w n) as [[rr buf] w1] eqn:R. destruct (Hn _ _ _ eq_refl) as (f & Hf & Hb).
  assert (Un : forall fuel, x_callbacks_loop L E (S fuel) patch_read ps po x w =
    if negb (rr =? 0) then letm (r2, x2, w2) := x_finalize L E (S fuel) x w1 in Ret (- E_IO_FAILED, x2, w2)
    else if negb (zlen buf =? n) then Undef
    else letm (res, x1, w2) := x_process L E (S fuel) x w1 buf in
         if res =? 0 then x_callbacks_loop L E fuel patch_read ps (po + n) x1 w2
         else letm (r2, x2, w3) := x_finalize L E (S fuel) x1 w2 in Ret (res, x2, w3)).
  { intros fuel. cbn [x_callbacks_loop]. destruct (Z.ltb_spec po ps); [|lia]. cbn [negb]. cbv zeta. fold n. rewrite R. reflexivity. }
  destruct (Z.eqb_spec rr 0); cbn [negb] in Un.
  2:{ destruct (xfinalize_term Hword L Hlib most store Hmost Hstore Hcode E f x w1 Hf Hl) as (n1 & o & N & No).
      exists (S n1), (letm (r2, x2, w2) := o in Ret (- E_IO_FAILED, x2, w2)). split.
      - intros fuel Hfu. destruct fuel; [lia|]. rewrite Un, N by lia. reflexivity.
      - destruct o as [[[? ?] ?]| |]; cbn [obind]; [discriminate|discriminate|congruence]. }
  destruct (Z.eqb_spec (zlen buf) n) as [Hz|]; cbn [negb] in Un.
  2:{ exists 1%nat, Undef. split; [|discriminate]. intros fuel Hfu. destruct fuel; [lia|]. apply Un. }
  rewrite (Hb e Hz) in Hf. unfold x_process in Un. cbv zeta in Un.
  set (y := mkxap (set_chunk (set_patch_offset (x_ap x) (wrap (a_patch_offset (x_ap x) + zlen buf))) buf) (x_reader x)) in *.
  assert (Hi' : xti (zeros (ps - (po + n))) y) by (apply (xti_chunk L most store Hcode) with (c := buf); auto). pose proof (tm_nonneg L most store Hmost Hstore Hcode y) as Hy.
  destruct (xloop_term Hword L Hlib most store Hmost Hstore Hcode E (Z.to_nat (tm L most store y + 1)) _ 0 y w1 ltac:(lia) Hi') as (n1 & o1 & H1 & [-> | (r1 & x1 & w2 & -> & B & C)]);
    [lia|lia|intros X; discriminate| |].
  { exists (S n1), Undef. split; [|discriminate]. intros fuel Hfu. destruct fuel; [lia|]. rewrite Un, H1 by lia. reflexivity. }
  destruct ((if (r1 =? 1) || (r1 =? - E_ALREADY_DONE) then 0 else r1) =? 0) eqn:Eq.
  - destruct (IH x1 w2 B C) as (n2 & o2 & H2 & N2). exists (S (max n1 n2)), o2. split; [|exact N2]. intros fuel Hfu. destruct fuel; [lia|]. rewrite Un, H1 by lia. cbn [obind]. rewrite Eq. apply H2. lia.
  - destruct (xfinalize_term Hword L Hlib most store Hmost Hstore Hcode E _ x1 w2 B C) as (n2 & o2 & H2 & N2).
    exists (S (max n1 n2)), (letm (r2, x2, w3) := o2 in Ret ((if (r1 =? 1) || (r1 =? - E_ALREADY_DONE) then 0 else r1), x2, w3)). split.
    + intros fuel Hfu. destruct fuel; [lia|]. rewrite Un, H1 by lia. cbn [obind]. rewrite Eq, H2 by lia. reflexivity.
    + destruct o2 as [[[? ?] ?]| |]; cbn [obind]; [discriminate|discriminate|congruence].
Qed.

Lemma callbacks_end : forall k ps po x w, 0 <= po <= ps -> ps - po <= Z.of_nat k -> xti (zeros (ps - po)) x -> a_left (x_ap x) = [] \/ final (x_ap x) ->
  cb_ends (fun fuel => x_callbacks_loop L E fuel patch_read ps po x w).
Proof.
  induction k; intros ps po x w Hp Hk Hi Hl; (destruct (Z.eq_dec po ps) as [->|];
    [destruct (xfinalize_term Hword L Hlib most store Hmost Hstore Hcode E _ x w Hi Hl) as (n1 & o & N & No); exists n1, o; split; [|exact No];
     intros fuel Hf; rewrite <- (N fuel Hf); destruct fuel; cbn [x_callbacks_loop]; (destruct (Z.ltb_spec ps ps); [lia|reflexivity])|]).
  - lia.
  - apply ends_round; auto; [lia|intros; apply IHk; auto; lia|]. intros rr buf w1 R.
    destruct (Z.eq_dec (zlen buf) (Z.min (ps - po) 512)) as [Q|Q].
    + exists (buf ++ zeros (ps - (po + Z.min (ps - po) 512))). split; [|auto]. apply (xti_known (ps - po)); auto; try lia. rewrite zlen_app, zeros_len, Q by lia. lia.
    + exists (zeros (ps - po)). split; [exact Hi|]. intros; contradiction.
Qed.

Theorem lzma_reads_end : forall junk ps w, 0 < ps < 2 ^ word_bits ->
  (forall buf w1, patch_read w (Z.min ps 512) = (0, buf, w1) -> announced_comp buf = 1) ->
  cb_ends (fun fuel => x_apply_patch_callbacks L E fuel junk patch_read ps w).
Proof.
  intros junk ps w Hps Ha.
  assert (K : cb_ends (fun fuel => x_callbacks_loop L E fuel patch_read ps 0 (xap_init (set_chunk junk []) ps) w)).
  2:{ destruct K as (n & o & N & No). exists n, o. split; [|exact No]. intros fuel Hf. rewrite <- (N fuel Hf).
      unfold x_apply_patch_callbacks. destruct fuel; cbn [x_callbacks_loop]; (destruct (Z.ltb_spec 0 ps); [|lia]); reflexivity. }
  apply ends_round; [lia|left; reflexivity| |].
  - intros x' w' Hi Hl. apply (callbacks_end (Z.to_nat ps)); auto; lia.
  - rewrite Z.sub_0_r. intros rr buf w1 R.
    destruct (Z.eq_dec rr 0) as [->|]; [destruct (Z.eq_dec (zlen buf) (Z.min ps 512)) as [Q|Q]|].
    + exists (buf ++ zeros (ps - (0 + Z.min ps 512))). split; [|auto]. unfold xti. cbn [xap_init ap_init set_chunk x_ap x_reader a_state a_left a_to_init].
      change (zlen (@nil Z)) with 0. rewrite zlen_app, Q, zeros_len by lia. splits; auto; [lia|]. right. specialize (Ha _ _ R). cbn [app].
      destruct buf; [change (zlen (@nil Z)) with 0 in Q; lia|exact Ha].
    + exists []. split; [|intros; contradiction]. unfold xti. cbn. change (zlen (@nil Z)) with 0. splits; auto. lia.
    + exists []. split; [|intros; lia]. unfold xti. cbn. change (zlen (@nil Z)) with 0. splits; auto. lia.
Qed.

End Ends.

(** With [bounded_output] as one hypothesis. *)
Theorem lzma_reads_terminate : forall (wb : WordBits), 32 <= word_bits ->
  forall (D : Type) (L : lzma_lib D) (W : Type) (E : seq_env W), lib_ok L -> bounded_output L ->
  forall (patch_read : W -> Z -> Z * list Z * W) junk ps w, 0 < ps < 2 ^ word_bits ->
  (forall buf w1, patch_read w (Z.min ps 512) = (0, buf, w1) -> announced_comp buf = 1) ->
  exists n, forall fuel, (n <= fuel)%nat -> x_apply_patch_callbacks L E fuel junk patch_read ps w <> OutOfFuel.
Proof.
  intros wb Hw D L W E Hl (most & store & H1 & H2 & H3) pr junk ps w Hp Ha.
  destruct (lzma_reads_end Hw L Hl most store H1 H2 H3 E pr junk ps w Hp Ha) as (n & o & A & B). exists n. intros fuel Hf. rewrite A by auto. exact B.
Qed.

(** A patch_read that fails at the end. *)
Definition ex_lzma_read (w : files) (n : Z) : Z * list Z * files :=
  if n =? 512 then (0, ex_lzma ++ zrepeat 0 (512 - zlen ex_lzma), w) else (5, [], w).

Lemma ex_lzma_read_ok : forall w n rr buf w1, 0 < n <= 512 -> ex_lzma_read w n = (rr, buf, w1) -> f_pos w1 = f_pos w /\ (rr = 0 -> zlen buf = n).
Proof. intros w n rr buf w1 _ H. unfold ex_lzma_read in H. destruct (Z.eqb_spec n 512); injection H as <- <- <-; (split; [reflexivity|]); intros; [subst; reflexivity|discriminate]. Qed.

Lemma ex_lzma_read_run : exists x w, @x_apply_patch_callbacks w64 toy toy_lib files file_env 200 ex_junk ex_lzma_read 600 (mkfiles ex_from 0 []) = Ret (- E_IO_FAILED, x, w) /\ f_to w = ex_to.
Proof. do 2 eexists. split; [vm_compute; reflexivity|reflexivity]. Qed.
