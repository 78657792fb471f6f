(** A truncated LZMA patch that is accepted nevertheless has the effect of the whole
    patch: what is missing was not needed. *)

From Coq Require Import ZArith List Bool Lia ZifyBool ZifyNat ZifyN.
From Verif Require Import Prelude Lib Heatshrink HsProofs CReader ReaderProofs SizeProofs CSeq Spec SeqSim SeqRun SeqSpec CLzma CSeqLzma LzmaSpec LzmaProofs LzmaCallback LzmaApply.
Import ListNotations.
Open Scope Z_scope.

Section Trunc.
Context {WBits : WordBits}.
Context {D : Type} (L : lzma_lib D).

Definition code (res : Z) : Prop := res <= 1 /\ res <> - E_ALREADY_DONE.

Ltac codes := unfold code, E_ALREADY_DONE, E_LZMA_DECODE, E_LZMA_INIT, E_OUT_OF_MEMORY, E_CORRUPT_PATCH, E_CORRUPT_PATCH_OVERFLOW, E_SHORT_HEADER, E_BAD_PATCH_TYPE, E_NOT_IMPLEMENTED, E_IO_FAILED in *; lia.

Lemma loop_le : forall K left r n res out r1 l1, lzma_loop L K r left n = Ret (res, out, r1, l1) ->
  code res /\ (res = 0 -> left = [] -> l1 = [] /\ forall m, lzma_loop L K r m n = Ret (0, out, r1, m)).
Proof.
  induction K; intros left r n res out r1 l1 H; cbn [lzma_loop] in *; [discriminate|].
  apply obind_ret in H. destruct H as ([re r2] & A & H). rewrite A. cbn [obind].
  assert (Hre : re <= 0 /\ code re).
  { destruct (held (l_in r)); [inv A; codes|]. apply obind_ret in A. destruct A as ([re3 r3] & A & B). destruct (Z.eqb_spec re3 0) as [->|Hne3]; cbn [negb] in B.
    - unfold run_decoder in B. destruct (lz_code _ _ _ _) as [[[ret k] o] d]. destruct (_ || _); [discriminate|]. destruct ret; inv B; codes.
    - inv B. unfold prepare_output_buffer in A. destruct (h_alloc _ _) as [[b|] h1]; [|inv A; codes].
      destruct (_ <? _); [discriminate|]. apply obind_ret in A. destruct A as (h2 & _ & A). inv A. codes. }
  destruct (Z.eqb_spec re 0) as [->|Hne]; cbn [negb] in H |- *.
  - destruct (get_decompressed_data r2 n) as [[o r3]|]; [inv H; split; [codes|]; auto|]. apply obind_ret in H. destruct H as ([[re3 r3] l3] & I1 & H).
    unfold prepare_input_buffer in I1. destruct left as [|y left].
    + inv I1. change (negb (1 =? 0)) with true in H. cbv iota in H. inv H. split; [codes|]. intros X; discriminate.
    + destruct (h_alloc _ _) as [[b|] h1]; [|inv I1; change (negb (- E_OUT_OF_MEMORY =? 0)) with true in H; cbv iota in H; inv H; split; [codes|intros X; discriminate]].
      destruct (_ <? _); [discriminate|]. apply obind_ret in I1. destruct I1 as (h2 & _ & I1). inv I1. change (negb (0 =? 0)) with false in H. cbv iota in H.
      apply IHK in H. split; [codes|]. intros _ X; discriminate.
  - inv H. split; [codes|]. codes.
Qed.

Lemma dec_le : forall r left n res out r1 l1, lzma_decompress L r left n = Ret (res, out, r1, l1) ->
  code res /\ (res = 0 -> left = [] -> l1 = [] /\ forall m, lzma_decompress L r m n = Ret (0, out, r1, m)).
Proof.
  intros r left n res out r1 l1 H. unfold lzma_decompress in *. destruct (get_decompressed_data r n) as [[o r2]|]; [inv H; split; [codes|]; auto|].
  eapply loop_le; eauto.
Qed.

Lemma unpack_le : forall K z r left byte n res v z1 x1 l1, xunpack_size_loop L K z (XLzma r) left byte n = Ret (res, v, z1, x1, l1) ->
  code res /\ (exists r1, x1 = XLzma r1) /\ (res = 0 -> left = [] -> l1 = [] /\ forall m, xunpack_size_loop L K z (XLzma r) m byte n = Ret (0, v, z1, x1, m)).
Proof.
  induction K; intros z r left byte n res v z1 x1 l1 H; cbn [xunpack_size_loop xdecompress] in *; [discriminate|].
  apply obind_ret in H. destruct H as ([[[re out] x2] l2] & A & H). apply obind_ret in A. destruct A as ([[[re' out'] r2] l2'] & A & B). inv B.
  assert (Q := A). apply dec_le in Q. destruct Q as [Q1 Q2].
  destruct (Z.eqb_spec re 0) as [->|Hne]; cbn [negb] in H.
  2:{ inv H. split; [codes|]. split; [eauto|]. lia. }
  destruct (match out with [] => byte | b :: _ => Some b end) as [b|] eqn:Eb; [|discriminate].
  apply obind_ret in H. destruct H as ([z2|] & S1 & H).
  2:{ inv H. split; [codes|]. split; [eauto|]. intros X; discriminate. }
  destruct (Z.land b 128 =? 0) eqn:El.
  - inv H. split; [codes|]. split; [eauto|]. intros _ ->. destruct (Q2 eq_refl eq_refl) as [-> Q3]. split; [reflexivity|]. intros m. rewrite Q3. cbn [obind]. change (negb (0 =? 0)) with false. cbv iota zeta.
    rewrite Eb, S1. cbn [obind]. rewrite El. reflexivity.
  - assert (H' := H). apply IHK in H. destruct H as (H1 & H2 & H3). split; [exact H1|]. split; [exact H2|]. intros X ->. destruct (Q2 eq_refl eq_refl) as [-> Q3]. destruct (H3 X eq_refl) as [H4 H5]. split; [exact H4|].
    intros m. rewrite Q3. cbn [obind]. change (negb (0 =? 0)) with false. cbv iota zeta. rewrite Eb, S1. cbn [obind]. rewrite El. apply H5.
Qed.

Context {W : Type} (E : seq_env W).

(** The reader is an LZMA reader as soon as there is one. *)
Definition linv (f : list Z) (x : xap D) : Prop :=
  match a_state (x_ap x) with
  | SInit => if a_to_init (x_ap x) then a_compression (x_ap x) = 1 else a_left (x_ap x) ++ f = [] \/ announced_comp (a_left (x_ap x) ++ f) = 1
  | SFailed => True
  | _ => exists r, x_reader x = Some (XLzma r)
  end.

(** The same with more to read. *)
Definition more (o : Z) (m : list Z) (x : xap D) : xap D := mkxap (set_chunk (set_patch_offset (x_ap x) o) m) (x_reader x).

Definition onward (f : list Z) (x : xap D) (a : outcome (Z * xap D * W)) (a' : Z -> list Z -> outcome (Z * xap D * W)) : Prop :=
  forall res x1 w1, a = Ret (res, x1, w1) -> code res /\ (0 <= res -> linv f x1) /\
    (res = 0 -> a_left (x_ap x) = [] -> a_left (x_ap x1) = [] /\ a_state (x_ap x) <> SInit /\ forall o m, a' o m = Ret (0, more o m x1, w1)).

Lemma header_code : forall left z res v z1 l1, unpack_header_size left z = Ret (res, v, z1, l1) -> code res.
Proof.
  induction left as [|b left IH]; intros z res v z1 l1 H; cbn [unpack_header_size] in H; [inv H; codes|].
  apply obind_ret in H. destruct H as ([z2|] & _ & H); [|inv H; codes]. destruct (_ =? 0); [inv H; codes|]. eauto.
Qed.

Lemma xinit_le : forall f x w, a_state (x_ap x) = SInit -> linv f x ->
  onward f x (letm (r, x1) := x_init L x in Ret (r, x1, w)) (fun _ _ => Undef).
Proof.
  intros f x w Es Hi res x1 w1 H. apply obind_ret in H. destruct H as ([r x2] & A & H). inv H. unfold linv in Hi. rewrite Es in Hi. unfold x_init in A.
  destruct (a_to_init (x_ap x)) eqn:Et.
  - unfold x_init_to_size in A. cbv zeta in A. apply obind_ret in A. destruct A as ([[[re v] z1] l1] & U & A).
    assert (Hre : code re) by (eapply header_code; eauto).
    destruct (Z.eqb_spec re 0) as [->|Hne]; cbn [negb] in A.
    2:{ inv A. split; [exact Hre|]. split; [|lia]. intros Hr. unfold linv. cbn. rewrite Es, Et. exact Hi. }
    cbn [a_compression set_header] in A. rewrite Hi in A. unfold xreader_init in A. change (1 =? 1) with true in A. cbv iota in A.
    assert (Hl : a_left (x_ap x) <> []) by (intros X; rewrite X in U; cbn in U; discriminate).
    destruct (lz_start L) as [d|]; [|inv A; split; [codes|]; split; [codes|discriminate]].
    destruct (v <? 0); inv A.
    + split; [codes|]. split; [codes|discriminate].
    + split; [codes|]. split; [|congruence]. intros _. unfold linv. cbn. destruct (0 <? v); eauto.
  - apply obind_ret in A. destruct A as ([re s] & A & B). inv B. unfold process_init_fixed_header in A. destruct (a_left (x_ap x)) as [|b l] eqn:El.
    { inv A. split; [codes|]. split; [codes|discriminate]. }
    cbv zeta in A. destruct (negb _); inv A; [split; [codes|]; split; [codes|discriminate]|].
    split; [codes|]. split; [|congruence]. intros _. unfold linv. cbn. rewrite Es. destruct Hi as [Hi|Hi]; [discriminate|exact Hi].
Qed.

Lemma xdfpatch_le : forall f x w, a_state (x_ap x) = SDfpatchSize -> linv f x ->
  onward f x (letm (r, x1) := x_dfpatch_size L x in Ret (r, x1, w)) (fun o m => letm (r, x1) := x_dfpatch_size L (more o m x) in Ret (r, x1, w)).
Proof.
  intros f x w Es Hi res x1 w1 H. apply obind_ret in H. destruct H as ([r x2] & A & H). inv H. unfold linv in Hi. rewrite Es in Hi. destruct Hi as (r0 & Hr).
  unfold x_dfpatch_size in *. cbn [more x_ap x_reader]. rewrite Hr in *. cbv zeta in *. apply obind_ret in A. destruct A as ([[[[re v] z1] x3] l1] & U & A).
  unfold xunpack_size in *. assert (Q := U). apply unpack_le in Q. destruct Q as (Q1 & (r1 & ->) & Q3).
  destruct (Z.eqb_spec re 0) as [->|Hne]; cbn [negb] in A.
  2:{ inv A. split; [exact Q1|]. split; [|lia]. intros _. unfold linv. cbn. rewrite Es. eauto. }
  destruct (0 <? v) eqn:Ev; inv A.
  - split; [codes|]. split; [codes|discriminate].
  - split; [codes|]. split; [intros _; unfold linv; cbn; eauto|]. intros _ Hl. destruct (Q3 eq_refl Hl) as [-> Q4]. split; [reflexivity|]. split; [rewrite Es; discriminate|].
    intros o m. cbn [a_rsize a_left set_chunk set_patch_offset]. rewrite Q4. cbn [obind]. change (negb (0 =? 0)) with false. cbv iota. rewrite Ev. reflexivity.
Qed.

Lemma xsize_le : forall f x w next, (a_state (x_ap x) = SDiffSize /\ next = SDiffData) \/ (a_state (x_ap x) = SExtraSize /\ next = SExtraData) -> linv f x ->
  onward f x (letm (r, x1) := x_size L x next in Ret (r, x1, w)) (fun o m => letm (r, x1) := x_size L (more o m x) next in Ret (r, x1, w)).
Proof.
  intros f x w next Es Hi res x1 w1 H. apply obind_ret in H. destruct H as ([r x2] & A & H). inv H. unfold linv in Hi.
  assert (Hr : exists r, x_reader x = Some (XLzma r)) by (destruct Es as [[Es _]|[Es _]]; rewrite Es in Hi; exact Hi). clear Hi. destruct Hr as (r0 & Hr).
  unfold x_size, xcommon_process_size in *. cbn [more x_ap x_reader]. rewrite Hr in *. cbv zeta in *. apply obind_ret in A. destruct A as ([[[[re v] z1] x3] l1] & U & A).
  apply obind_ret in U. destruct U as ([[[[re' v'] z1'] x3'] l1'] & U & U2).
  unfold xunpack_size in *. assert (Q := U). apply unpack_le in Q. destruct Q as (Q1 & (r1 & ->) & Q3).
  destruct (Z.eqb_spec re' 0) as [->|Hne]; cbn [negb] in U2.
  2:{ inv U2. destruct (Z.eqb_spec re 0); [congruence|]. cbn [negb] in A. inv A. split; [exact Q1|]. split; [|lia]. intros _. unfold linv. cbn. destruct Es as [[Es _]|[Es _]]; rewrite Es; eauto. }
  destruct (_ <? _) eqn:Ev; inv U2; cbn [negb] in A.
  - change (negb (- E_CORRUPT_PATCH =? 0)) with true in A. cbv iota in A. inv A. split; [codes|]. split; [codes|discriminate].
  - change (negb (0 =? 0)) with false in A. cbv iota in A. inv A. split; [codes|]. split; [intros _; unfold linv; cbn; destruct Es as [[_ ->]|[_ ->]]; eauto|].
    intros _ Hl. destruct (Q3 eq_refl Hl) as [-> Q4]. split; [reflexivity|]. split; [destruct Es as [[Es _]|[Es _]]; rewrite Es; discriminate|].
    intros o m. cbn [a_rsize a_left a_to_offset a_to_size set_chunk set_patch_offset]. rewrite Q4. cbn [obind]. change (negb (0 =? 0)) with false. cbv iota. rewrite Ev. reflexivity.
Qed.

Lemma xadj_le : forall f x w, a_state (x_ap x) = SAdjustment -> linv f x ->
  onward f x (x_adjustment L E x w) (fun o m => x_adjustment L E (more o m x) w).
Proof.
  intros f x w Es Hi res x1 w1 A. unfold linv in Hi. rewrite Es in Hi. destruct Hi as (r0 & Hr).
  unfold x_adjustment in *. cbn [more x_ap x_reader]. rewrite Hr in *. cbv zeta in *. apply obind_ret in A. destruct A as ([[[[re v] z1] x3] l1] & U & A).
  unfold xunpack_size in *. assert (Q := U). apply unpack_le in Q. destruct Q as (Q1 & (r1 & ->) & Q3).
  destruct (Z.eqb_spec re 0) as [->|Hne]; cbn [negb] in A.
  2:{ inv A. split; [exact Q1|]. split; [|lia]. intros _. unfold linv. cbn. rewrite Es. eauto. }
  destruct (from_seek E w v) as [rs w2] eqn:Ek. destruct (negb (rs =? 0)) eqn:En.
  - inv A. split; [codes|]. split; [codes|discriminate].
  - apply obind_ret in A. destruct A as (fo & Fo & A). inv A. split; [codes|]. split; [intros _; unfold linv; cbn; destruct (a_to_offset (x_ap x) =? a_to_size (x_ap x)); eauto|].
    intros _ Hl. destruct (Q3 eq_refl Hl) as [-> Q4]. split; [reflexivity|]. split; [rewrite Es; discriminate|].
    intros o m. cbn [a_rsize a_left set_chunk set_patch_offset]. rewrite Q4. cbn [obind]. change (negb (0 =? 0)) with false. cbv iota. rewrite Ek, En.
    change (a_from_offset (set_size_left (set_chunk (set_patch_offset (x_ap x) o) m) z1 m)) with (a_from_offset (set_size_left (x_ap x) z1 [])). rewrite Fo. reflexivity.
Qed.

Lemma xdata_le : forall f x w next, (a_state (x_ap x) = SDiffData /\ next = SExtraSize) \/ (a_state (x_ap x) = SExtraData /\ next = SAdjustment) -> linv f x ->
  onward f x (x_data L E x w next) (fun o m => x_data L E (more o m x) w next).
Proof.
  intros f x w next Es Hi res x1 w1 A. unfold linv in Hi.
  assert (Hr : exists r, x_reader x = Some (XLzma r)) by (destruct Es as [[Es _]|[Es _]]; rewrite Es in Hi; exact Hi). clear Hi. destruct Hr as (r0 & Hr).
  assert (Hns : a_state (x_ap x) <> SInit) by (destruct Es as [[Es _]|[Es _]]; rewrite Es; discriminate).
  unfold x_data in *. cbn [more x_ap x_reader]. rewrite Hr in *. cbv zeta in *. cbn [a_chunk_size a_left a_rsize set_chunk set_patch_offset].
  destruct (_ =? 0).
  { inv A. split; [codes|]. split; [intros _; unfold linv; cbn; destruct Es as [[_ ->]|[_ ->]]; eauto|]. intros _ Hl. split; [exact Hl|]. split; [exact Hns|]. intros o m. reflexivity. }
  apply obind_ret in A. destruct A as ([[[re out] x2] l2] & U & A). cbn [xdecompress] in *. apply obind_ret in U. destruct U as ([[[re' out'] r2] l2'] & U & B). inv B.
  assert (Q := U). apply dec_le in Q. destruct Q as [Q1 Q2].
  destruct (Z.eqb_spec re 0) as [->|Hne]; cbn [negb] in A.
  2:{ inv A. split; [exact Q1|]. split; [|lia]. intros _. unfold linv. cbn. destruct Es as [[Es _]|[Es _]]; rewrite Es; eauto. }
  apply obind_ret in A. destruct A as ([[[io data] s2] w2] & F & A).
  assert (Hs2 : io = false -> (l2 = [] -> a_left s2 = []) /\ a_state s2 = a_state (x_ap x)).
  { intros ->. destruct next; try (injection F as <- <- <-; auto; fail). destruct (from_read E w (zlen out)) as [[rr from] w3]. destruct (negb _); [discriminate|].
    apply obind_ret in F. destruct F as (dd & _ & F). injection F as <- <- <-. auto. }
  destruct io.
  { inv A. split; [codes|]. split; [codes|discriminate]. }
  destruct (Hs2 eq_refl) as [Hs3 Hs4].
  destruct (to_write E w2 data) as [rw w3] eqn:Ew. destruct (negb (rw =? 0)) eqn:En.
  { inv A. split; [codes|]. split; [codes|discriminate]. }
  inv A. split; [codes|]. split; [intros _; unfold linv; cbn; rewrite Hs4; destruct Es as [[Es _]|[Es _]]; rewrite Es; eauto|].
  intros _ Hl. destruct (Q2 eq_refl Hl) as [-> Q4]. split; [cbn; auto|]. split; [exact Hns|]. intros o m. rewrite Q4. cbn [obind]. change (negb (0 =? 0)) with false. cbv iota.
  destruct next; try (injection F as <- <- <-; cbn [obind]; rewrite Ew, En; reflexivity).
  destruct (from_read E w (zlen out)) as [[rr from] w4]. destruct (negb (rr =? 0)); [discriminate|].
  apply obind_ret in F. destruct F as (dd & Ad & F). injection F as <- <- <-. rewrite Ad. cbn [obind]. rewrite Ew, En. reflexivity.
Qed.

Lemma xonce_le : forall f x w, linv f x -> forall res x1 w1, x_once L E x w = Ret (res, x1, w1) ->
  res <= 1 /\ linv f x1 /\ (res < 0 -> a_state (x_ap x1) = SDone \/ a_state (x_ap x1) = SFailed) /\
  (res = 0 -> a_left (x_ap x) = [] -> a_left (x_ap x1) = [] /\ a_state (x_ap x) <> SInit /\ forall o m, x_once L E (more o m x) w = Ret (0, more o m x1, w1)) /\
  (res = - E_ALREADY_DONE -> a_state (x_ap x) = SDone /\ x1 = x /\ w1 = w).
Proof.
  intros f x w Hi res x1 w1 H. unfold x_once in H.
  assert (K : forall a a', a_state (x_ap x) <> SDone ->
     (letm (res, x1, w1) := a in
       match a_state (x_ap x) with SDone => Ret (res, x1, w1) | _ => Ret (res, if res <? 0 then mkxap (set_st (x_ap x1) SFailed) (x_reader x1) else x1, w1) end) = Ret (res, x1, w1) ->
     onward f x a a' -> (a_state (x_ap x) <> SInit -> forall o m, x_once L E (more o m x) w = letm (res, x1, w1) := a' o m in
       match a_state (x_ap x) with SDone => Ret (res, x1, w1) | _ => Ret (res, if res <? 0 then mkxap (set_st (x_ap x1) SFailed) (x_reader x1) else x1, w1) end) ->
     res <= 1 /\ linv f x1 /\ (res < 0 -> a_state (x_ap x1) = SDone \/ a_state (x_ap x1) = SFailed) /\
     (res = 0 -> a_left (x_ap x) = [] -> a_left (x_ap x1) = [] /\ a_state (x_ap x) <> SInit /\ forall o m, x_once L E (more o m x) w = Ret (0, more o m x1, w1)) /\
     (res = - E_ALREADY_DONE -> a_state (x_ap x) = SDone /\ x1 = x /\ w1 = w)).
  { intros a a' Hnd A On Ha. apply obind_ret in A. destruct A as ([[r2 x2] w2] & A & B). subst a. destruct (On _ _ _ eq_refl) as ([C1 C1'] & C2 & C3).
    assert (B' : r2 = res /\ (if r2 <? 0 then mkxap (set_st (x_ap x2) SFailed) (x_reader x2) else x2) = x1 /\ w2 = w1) by (destruct (a_state (x_ap x)); try congruence; inv B; auto).
    destruct B' as (-> & B1 & ->). split; [exact C1|]. destruct (Z.ltb_spec res 0).
    - subst x1. split; [exact I|]. split; [right; reflexivity|]. split; [lia|]. intros X; congruence.
    - subst x2. split; [auto|]. split; [lia|]. split; [|intros X; congruence]. intros -> Hl. destruct (C3 eq_refl Hl) as (D1 & D2 & D3). split; [exact D1|]. split; [exact D2|].
      intros o m. rewrite Ha, D3 by auto. cbn [obind]. change (0 <? 0) with false. cbv iota. destruct (a_state (x_ap x)); reflexivity. }
  destruct (a_state (x_ap x)) eqn:Es.
  - eapply K; [discriminate|exact H|apply xinit_le; auto|congruence].
  - eapply K; [discriminate|exact H|apply xdfpatch_le; auto|]. intros _ o m. unfold x_once. cbn [more x_ap a_state set_chunk set_patch_offset]. rewrite Es. reflexivity.
  - eapply K; [discriminate|exact H|apply xsize_le; auto|]. intros _ o m. unfold x_once. cbn [more x_ap a_state set_chunk set_patch_offset]. rewrite Es. reflexivity.
  - eapply K; [discriminate|exact H|apply xdata_le; auto|]. intros _ o m. unfold x_once. cbn [more x_ap a_state set_chunk set_patch_offset]. rewrite Es. reflexivity.
  - eapply K; [discriminate|exact H|apply xsize_le; auto|]. intros _ o m. unfold x_once. cbn [more x_ap a_state set_chunk set_patch_offset]. rewrite Es. reflexivity.
  - eapply K; [discriminate|exact H|apply xdata_le; auto|]. intros _ o m. unfold x_once. cbn [more x_ap a_state set_chunk set_patch_offset]. rewrite Es. reflexivity.
  - eapply K; [discriminate|exact H|apply xadj_le; auto|]. intros _ o m. unfold x_once. cbn [more x_ap a_state set_chunk set_patch_offset]. rewrite Es. reflexivity.
  - clear K. cbn [obind] in H. inv H. unfold E_ALREADY_DONE. split; [lia|]. split; [exact Hi|]. split; [auto|]. split; [lia|]. auto.
  - clear K. cbn [obind] in H. inv H. unfold E_ALREADY_FAILED, E_ALREADY_DONE. split; [lia|]. split; [exact I|]. split; [auto|]. split; [lia|]. lia.
Qed.

(** finalize() on [x] against process() of [m] on it. *)
Lemma fin_more : forall fuel f x w x1 w1, linv f x -> a_left (x_ap x) = [] -> x_finalize_loop L E fuel x w = Ret (- E_ALREADY_DONE, x1, w1) ->
  a_state (x_ap x1) = SDone /\ forall o m, m <> [] -> x_process_loop L E fuel 0 (more o m x) w = Ret (- E_ALREADY_DONE, more o m x1, w1).
Proof.
  induction fuel; intros f x w x1 w1 Hi Hl H; cbn [x_finalize_loop x_process_loop] in *; [discriminate|].
  apply obind_ret in H. destruct H as ([[r2 x2] w2] & A & H). destruct (xonce_le f x w Hi _ _ _ A) as (C1 & C2 & C3 & C4 & C5).
  destruct (Z.eqb_spec r2 0) as [->|Hne].
  - destruct (C4 eq_refl Hl) as (D1 & D2 & D3). destruct (IHfuel f x2 w2 x1 w1 C2 D1 H) as [F1 F2]. split; [exact F1|]. intros o m Hm.
    cbn [more x_ap a_left set_chunk]. destruct m as [|b m]; [congruence|]. change (0 <? 0) with false. cbv iota. fold (more o (b :: m) x). rewrite D3. cbn [obind]. apply F2. discriminate.
  - inv H. destruct (C5 eq_refl) as (D1 & -> & ->). split; [exact D1|]. intros o m Hm. cbn [more x_ap a_left set_chunk]. destruct m as [|b m]; [congruence|]. change (0 <? 0) with false. cbv iota.
    fold (more o (b :: m) x). unfold x_once. cbn [more x_ap a_state set_chunk set_patch_offset]. rewrite D1. cbn [obind]. destruct fuel; reflexivity.
Qed.

Lemma finalize_done : forall fuel f x w v x1 w1, linv f x -> a_left (x_ap x) = [] \/ a_state (x_ap x) = SDone \/ a_state (x_ap x) = SFailed ->
  x_finalize L E fuel x w = Ret (v, x1, w1) -> 0 <= v ->
  forall m, m <> [] -> exists n, forall fuel', (n <= fuel')%nat -> exists x2, x_feed L E fuel' x w [m] = Ret (v, x2, w1).
Proof.
  intros fuel f x w v x1 w1 Hi Hl H Hv m Hm. assert (H0 := H). unfold x_finalize in H. apply obind_ret in H. destruct H as ([[res x2] w2] & A & H).
  apply obind_ret in H. destruct H as ([r rd] & B & H). inv H.
  set (y := mkxap (set_chunk (x_ap x) []) (x_reader x)) in *.
  assert (Hy : linv f y).
  { revert Hi Hl. unfold linv, y. cbn. destruct (a_state (x_ap x)); auto. destruct (a_to_init _); auto. intros Hi [Hl|[Hl|Hl]]; try discriminate. rewrite Hl in Hi. exact Hi. }
  assert (Hres : res = - E_ALREADY_DONE).
  { unfold x_common_finalize in B. cbv zeta in B.
    assert (Hle : res <= 1 /\ res <> 0).
    { revert A. generalize y Hy w. clear. induction fuel; intros y Hy w A; cbn [x_finalize_loop] in A; [discriminate|]. apply obind_ret in A. destruct A as ([[r2 x3] w3] & A & H).
      destruct (xonce_le f y w Hy _ _ _ A) as (C1 & C2 & _). destruct (Z.eqb_spec r2 0); [eapply IHfuel; eauto|inv H; auto]. }
    destruct (Z.eqb_spec res 1) as [->|]; [|destruct (Z.eqb_spec res (- E_ALREADY_DONE)); [assumption|]].
    - exfalso. change (- E_NOT_ENOUGH_PATCH_DATA =? - E_ALREADY_DONE) with false in B. cbv iota in B. change (- E_NOT_ENOUGH_PATCH_DATA =? 0) with false in B.
      destruct (x_reader x2) as [r|]; [apply obind_ret in B; destruct B as ([r4 r5] & B1 & B); apply obind_ret in B1; destruct B1 as ([d r6] & _ & B1); inv B1; inv B|inv B]; unfold E_NOT_ENOUGH_PATCH_DATA in Hv; lia.
    - exfalso. destruct (Z.eqb_spec res 0); [lia|].
      destruct (x_reader x2) as [r|]; [apply obind_ret in B; destruct B as ([r4 r5] & B1 & B); apply obind_ret in B1; destruct B1 as ([d r6] & _ & B1); inv B1|];
        cbn [obind] in B; destruct (Z.eqb_spec r4 0) || destruct (Z.eqb_spec res 0); try congruence; inv B; lia. }
  subst res. destruct (fin_more fuel f y w x2 w1 Hy eq_refl A) as [F1 F2].
  exists (S fuel). intros fuel' Hf. cbn [x_feed]. unfold x_process. cbv zeta.
  destruct m as [|b m]; [congruence|].
  { set (o := wrap (a_patch_offset (x_ap x) + zlen (b :: m))).
    change (mkxap (set_chunk (set_patch_offset (x_ap x) o) (b :: m)) (x_reader x)) with (more o (b :: m) y).
    rewrite (xloop_mono L E fuel _ _ _ _ (F2 o (b :: m) ltac:(discriminate))) by (try discriminate; lia). cbn [obind]. change ((- E_ALREADY_DONE =? 1) || (- E_ALREADY_DONE =? - E_ALREADY_DONE)) with true. cbv iota. change (0 =? 0) with true. cbv iota.
    unfold x_finalize. destruct fuel' as [|k]; [lia|]. cbn [x_finalize_loop]. unfold x_once at 1. cbn [more x_ap x_reader a_state set_chunk set_patch_offset]. rewrite F1. cbn [obind]. change (- E_ALREADY_DONE =? 0) with false. cbv iota. cbn [obind x_ap x_reader].
    cbn [a_to_size set_chunk set_patch_offset]. rewrite B. cbn [obind]. eexists. reflexivity. }
Qed.

Lemma linv_chunk : forall f c x s', linv (c ++ f) x -> a_left (x_ap x) = [] \/ a_state (x_ap x) = SDone \/ a_state (x_ap x) = SFailed ->
  a_state s' = a_state (x_ap x) -> a_to_init s' = a_to_init (x_ap x) -> a_compression s' = a_compression (x_ap x) -> a_left s' = c ->
  linv f (mkxap s' (x_reader x)).
Proof.
  intros f c x s' Hj Hl H1 H2 H3 H4. unfold linv in *. cbn [x_ap x_reader]. rewrite H1, H2, H3, H4.
  destruct (a_state (x_ap x)); auto. destruct Hl as [Hl|[Hl|Hl]]; try discriminate. rewrite Hl in Hj. exact Hj.
Qed.

Lemma loop_linv : forall fuel f res x w r1 x1 w1, linv f x -> res <= 1 -> (res < 0 -> a_state (x_ap x) = SDone \/ a_state (x_ap x) = SFailed) ->
  x_process_loop L E fuel res x w = Ret (r1, x1, w1) -> linv f x1 /\ r1 <= 1 /\ (a_left (x_ap x1) = [] \/ a_state (x_ap x1) = SDone \/ a_state (x_ap x1) = SFailed).
Proof.
  induction fuel; intros f res x w r1 x1 w1 Hi Hr Hf H; cbn [x_process_loop] in H; destruct (a_left (x_ap x)) eqn:El; try (injection H as <- <- <-; auto; fail).
  - destruct (Z.ltb_spec res 0); [injection H as <- <- <-; auto|discriminate].
  - destruct (Z.ltb_spec res 0); [injection H as <- <- <-; auto|]. apply obind_ret in H. destruct H as ([[r2 x2] w2] & A & H).
    destruct (xonce_le f x w Hi _ _ _ A) as (C1 & C2 & C3 & _). eapply IHfuel; eauto.
Qed.

Lemma feed_mono : forall cs f s w x, x_feed L E f s w cs = x -> x <> OutOfFuel -> forall f', (f <= f')%nat -> x_feed L E f' s w cs = x.
Proof.
  induction cs as [|c cs IH]; intros f s w x Ex Hx f' Hf; cbn [x_feed] in *; [eapply xfinalize_mono; eauto|].
  destruct (x_process L E f s w c) as [[[r s1] w1]| |] eqn:P; cbn [obind] in Ex; [| |congruence]; rewrite (xprocess_mono L E _ _ _ _ _ P) by (auto; discriminate); cbn [obind]; [|exact Ex].
  destruct (r =? 0); [eapply IH; eauto|].
  destruct (x_finalize L E f s1 w1) as [[[r2 s2] w2]| |] eqn:F; cbn [obind] in Ex; [| |congruence]; rewrite (xfinalize_mono L E _ _ _ _ F) by (auto; discriminate); exact Ex.
Qed.

Lemma feed_more : forall cs fuel x w v x1 w1 m, linv (concat cs ++ m) x -> a_left (x_ap x) = [] \/ a_state (x_ap x) = SDone \/ a_state (x_ap x) = SFailed ->
  x_feed L E fuel x w cs = Ret (v, x1, w1) -> 0 <= v -> m <> [] ->
  exists n, forall fuel', (n <= fuel')%nat -> exists x2, x_feed L E fuel' x w (cs ++ [m]) = Ret (v, x2, w1).
Proof.
  induction cs as [|c cs IH]; intros fuel x w v x1 w1 m Hi Hl H Hv Hm.
  - cbn [x_feed app] in *. eapply finalize_done; eauto.
  - cbn [x_feed app concat] in *. rewrite <- app_assoc in Hi. apply obind_ret in H. destruct H as ([[r x2] w2] & P & H).
    assert (Q := P). unfold x_process in Q. cbv zeta in Q. apply obind_ret in Q. destruct Q as ([[r3 x3] w3] & Q & Q2).
    assert (Hi' : linv (concat cs ++ m) (mkxap (set_chunk (set_patch_offset (x_ap x) (wrap (a_patch_offset (x_ap x) + zlen c))) c) (x_reader x))) by (apply linv_chunk with (c := c); auto).
    apply (loop_linv _ (concat cs ++ m)) in Q; [|exact Hi'|lia|lia]. destruct Q as (Q3 & Q4 & Q5).
    assert (Q6 : r = 0 \/ r < 0) by (inv Q2; change (-11) with (- E_ALREADY_DONE); destruct (Z.eqb_spec r3 1); cbn [orb]; [auto|]; destruct (Z.eqb_spec r3 (- E_ALREADY_DONE)); [auto|]; lia).
    assert (Q7 : x3 = x2 /\ w3 = w2) by (inv Q2; auto). destruct Q7 as [-> ->].
    destruct (Z.eqb_spec r 0) as [E0|E0].
    + destruct (IH _ _ _ _ _ _ m Q3 Q5 H Hv Hm) as (n & N). exists (Nat.max n fuel). intros fuel' Hf. rewrite (xprocess_mono L E _ _ _ _ _ P) by (try discriminate; lia). cbn [obind].
      destruct (Z.eqb_spec r 0); [|congruence]. apply N. lia.
    + exfalso. apply obind_ret in H. destruct H as ([[r4 x4] w4] & _ & H). inv H. lia.
Qed.

Theorem accepted_prefix : forall fuel junk ps w cs v x1 w1 m, announced_comp (concat cs ++ m) = 1 ->
  x_feed L E fuel (xap_init junk ps) w cs = Ret (v, x1, w1) -> 0 <= v -> m <> [] ->
  exists n, forall fuel', (n <= fuel')%nat -> exists x2, x_feed L E fuel' (xap_init junk ps) w (cs ++ [m]) = Ret (v, x2, w1).
Proof.
  intros fuel junk ps w cs v x1 w1 m Ha H Hv Hm.
  assert (Z1 : forall k cs, x_feed L E k (xap_init junk ps) w cs = x_feed L E k (xap_init (set_chunk junk []) ps) w cs) by (intros k l; destruct l; reflexivity).
  rewrite Z1 in H. destruct (feed_more cs fuel (xap_init (set_chunk junk []) ps) w v x1 w1 m) as (n & N); auto.
  - unfold linv. cbn. auto.
  - exists n. intros fuel' Hf. rewrite Z1. auto.
Qed.
End Trunc.

Theorem lzma_truncated : forall {WBits : WordBits}, 32 <= word_bits -> forall {D : Type} (L : lzma_lib D), enough_memory L ->
  forall recs patch from to, lzma_patch L recs patch -> recs_in_limits recs -> apply_recs from 0 recs = Some to ->
  bytes_ok (enc_body recs) -> zlen patch < 2 ^ word_bits -> zlen (enc_body recs) + 160 < 2 ^ word_bits ->
  forall fuel junk ps chunks rest v x w, concat chunks ++ rest = patch ->
  x_apply L fuel junk ps from chunks = Ret (v, x, w) -> 0 <= v -> v = zlen to /\ f_to w = to.
Proof.
  intros WBits Hword D L Hm recs patch from to Hp Hr Ha Hb Hl Hnl fuel junk ps chunks rest v x w Hc H Hv.
  assert (H1 : exists n, forall fuel', (n <= fuel')%nat -> exists x2, x_apply L fuel' junk ps from (match rest with [] => chunks | _ => chunks ++ [rest] end) = Ret (v, x2, w)).
  { destruct rest as [|b rest].
    - exists fuel. intros fuel' Hf. exists x. unfold x_apply in *. eapply feed_mono; eauto. discriminate.
    - unfold x_apply in *. eapply accepted_prefix; eauto; [|discriminate]. rewrite Hc. destruct Hp as [(_ & -> & _)|(_ & st & _ & ->)]; reflexivity. }
  destruct H1 as (n1 & N1).
  assert (Hc2 : concat (match rest with [] => chunks | _ => chunks ++ [rest] end) = patch).
  { destruct rest; [rewrite app_nil_r in Hc; exact Hc|]. rewrite concat_app. cbn [concat]. rewrite app_nil_r. exact Hc. }
  destruct (lzma_meaning Hword L Hm recs patch from to Hp Hr Ha Hb Hl Hnl junk ps _ Hc2) as (n2 & N2).
  destruct (N1 (Nat.max n1 n2) ltac:(lia)) as (x2 & A1). destruct (N2 (Nat.max n1 n2) ltac:(lia)) as (x3 & w3 & A2 & A3 & _). rewrite A1 in A2. inv A2. auto.
Qed.
