(** Invariants of the sequential applier with arbitrary callbacks. *)

From Coq Require Import ZArith List Bool Lia ZifyBool ZifyNat ZifyN.
From Verif Require Import Prelude Lib Heatshrink HsProofs CReader ReaderProofs SizeProofs CSeq Spec SeqSim SeqRun SeqTerm SeqApply SeqSpec.
Import ListNotations.
Open Scope Z_scope.

Ltac Zify.zify_post_hook ::= Z.to_euclidean_division_equations.

Section Inv.
Context {WBits : WordBits}.
Hypothesis Hword : 32 <= word_bits.

(** ** Result codes *)

Definition code_ok (res : Z) : Prop := res = 0 \/ res = 1 \/ -27 <= res < 0 /\ res <> - E_ALREADY_DONE.

Ltac code := unfold code_ok, E_ALREADY_DONE, E_CORRUPT_PATCH, E_CORRUPT_PATCH_OVERFLOW, E_CORRUPT_PATCH_CRLE_KIND,
  E_HEATSHRINK_SINK, E_HEATSHRINK_POLL, E_HEATSHRINK_HEADER, E_SHORT_HEADER, E_BAD_PATCH_TYPE, E_BAD_COMPRESSION,
  E_NOT_IMPLEMENTED, E_IO_FAILED, E_ALREADY_FAILED in *; lia.

Lemma usize_code : forall l u res v u1 l1, unpack_usize_loop l u = Ret (res, v, u1, l1) -> code_ok res.
Proof.
  induction l; intros u res v u1 l1 E; cbn [unpack_usize_loop] in E; [inv E; code|].
  destruct (is_overflow _); [inv E; code|]. apply obind_ret in E. destruct E as (x & A & E).
  destruct (_ =? 0); [inv E; code|eauto].
Qed.

Lemma crle_step_code : forall s l n res o s1 l1, crle_step s l n = Ret (res, o, s1, l1) -> code_ok res \/ res = 2.
Proof.
  intros s l n res o s1 l1 E. unfold crle_step in E.
  repeat match goal with
  | E : match ?x with _ => _ end = Ret _ |- _ => destruct x eqn:?
  | E : obind _ _ = Ret _ |- _ => apply obind_ret in E; destruct E as ([[[? ?] ?] ?] & ? & E)
  | E : (let _ := _ in _) = Ret _ |- _ => cbv zeta in E
  | E : Ret _ = Ret _ |- _ => inv E
  | E : Undef = Ret _ |- _ => discriminate E
  | E : OutOfFuel = Ret _ |- _ => discriminate E
  end; try (left; code); try (right; reflexivity); try (left; eapply usize_code; unfold unpack_usize in *; eassumption).
Qed.

Lemma crle_loop_code : forall k s l n res o s1 l1, crle_loop k s l n = Ret (res, o, s1, l1) -> code_ok res.
Proof.
  induction k; intros s l n res o s1 l1 E; cbn [crle_loop] in E; [discriminate|].
  apply obind_ret in E. destruct E as ([[[r1 o1] s2] l2] & A & E). apply crle_step_code in A.
  destruct (Z.eqb_spec r1 2); [eauto|]. inv E. destruct A; [auto|congruence].
Qed.

Lemma hs_loop_code : forall l d n out res o d1 l1, hs_decompress_loop l d n out = Ret (res, o, d1, l1) -> code_ok res.
Proof.
  induction l; intros d n out res o d1 l1 E; rewrite hs_loop_unfold in E;
    apply obind_ret in E; destruct E as ([d2 o1] & A & E); cbv zeta in E;
    (destruct (_ =? 0); [inv E; code|]).
  - destruct (_ =? 0); inv E; code.
  - apply obind_ret in E. destruct E as (od & B & E). destruct od; [eauto|inv E; code].
Qed.

Lemma decompress_code : forall r l n res o r1 l1, decompress r l n = Ret (res, o, r1, l1) -> code_ok res.
Proof.
  intros [ps po|s|h] l n res o r1 l1 E; cbn [decompress] in E.
  - unfold none_decompress in E. destruct (_ <? _); [inv E; code|]. destruct l; inv E; code.
  - apply obind_ret in E. destruct E as ([[[a b] c] d] & A & E). inv E. eapply crle_loop_code; exact A.
  - apply obind_ret in E. destruct E as ([[[a b] c] d] & A & E). inv E. unfold hs_decompress in A.
    assert (B : forall h l, (if hr_ptr h then match hr_dec h with
        | Some d => letm (res, out, d1, left1) := hs_decompress_loop l d n [] in
            Ret (res, out, mkhr (hr_window h) (hr_lookahead h) true (Some d1), left1)
        | None => Undef end else Ret (- E_HEATSHRINK_POLL, [], h, l)) = Ret (res, o, c, l1) -> code_ok res).
    { intros h0 l0 B. destruct (hr_ptr h0); [|inv B; code]. destruct (hr_dec h0); [|discriminate].
      apply obind_ret in B. destruct B as ([[[a' b'] c'] d'] & B & E). inv E. eapply hs_loop_code; eauto. }
    destruct (hr_window h =? -1); [|eapply B; exact A].
    destruct l; [inv A; code|]. destruct (negb _ || negb _); [inv A; code|].
    exact (B (mkhr (Z.land (Z.shiftr z 4) 15 + 4) (Z.land z 15 + 3) true (Some (hs_reset (Z.land (Z.shiftr z 4) 15 + 4)))) l A).
Qed.

Lemma unpack_code : forall K z r l b n res v z1 r1 l1, unpack_size_loop K z r l b n = Ret (res, v, z1, r1, l1) -> code_ok res.
Proof.
  induction K; intros z r l b n res v z1 r1 l1 E; cbn [unpack_size_loop] in E; [discriminate|].
  apply obind_ret in E. destruct E as ([[[r0 o0] r2] l2] & A & E). apply decompress_code in A.
  destruct (Z.eqb_spec r0 0); cbn [negb] in E; [|inv E; auto].
  destruct (match o0 with [] => b | x :: _ => Some x end); [|discriminate].
  apply obind_ret in E. destruct E as ([z2|] & B & E); [|inv E; code].
  destruct (_ =? 0); [inv E; code|eauto].
Qed.

Lemma uhs_code : forall l z res v z1 l1, unpack_header_size l z = Ret (res, v, z1, l1) -> code_ok res.
Proof.
  induction l; intros z res v z1 l1 E; [inv E; code|]. rewrite uhs_unfold in E.
  apply obind_ret in E. destruct E as ([z2|] & B & E); [|inv E; code].
  destruct (_ =? 0); [inv E; code|eauto].
Qed.

Context {W : Type} (E : seq_env W).

Lemma once_code : forall B s w res s1 w1, process_once E B s w = Ret (res, s1, w1) ->
  (a_state s = SDone /\ res = - E_ALREADY_DONE /\ s1 = s /\ w1 = w) \/
  (a_state s = SFailed /\ res = - E_ALREADY_FAILED /\ s1 = set_st s SFailed /\ w1 = w) \/
  (a_state s <> SDone /\ a_state s <> SFailed /\ code_ok res /\ (res < 0 -> a_state s1 = SFailed)).
Proof.
  intros B s w res s1 w1 H. unfold process_once in H.
  apply obind_ret in H. destruct H as ([[r0 s0] w0] & A & H).
  assert (K : a_state s <> SDone -> a_state s <> SFailed -> code_ok r0 -> 
     Ret (r0, if r0 <? 0 then set_st s0 SFailed else s0, w0) = Ret (res, s1, w1) ->
     a_state s <> SDone /\ a_state s <> SFailed /\ code_ok res /\ (res < 0 -> a_state s1 = SFailed)).
  { intros K1 K2 K3 K4. inv K4. do 3 (split; [auto|]). intros X. assert (res <? 0 = true) as -> by lia. reflexivity. }
  destruct (a_state s) eqn:Es; try (right; right; apply K; [discriminate|discriminate| |exact H]);
    try (apply obind_ret in A; destruct A as ([r2 s2] & A & A2); inv A2).
  - unfold process_init in A. destruct (a_to_init s).
    + unfold process_init_to_size in A. apply obind_ret in A. destruct A as ([[[r1 v] z1] l1] & A & C). cbv zeta in C.
      destruct (Z.eqb_spec r1 0); cbn [negb] in C.
      * destruct (reader_init _ _); [|inv C; code]. destruct (v <? 0); inv C; code.
      * inv C. eapply uhs_code; eauto.
    + unfold process_init_fixed_header in A. destruct (a_left s); [inv A; code|]. cbv zeta in A. destruct (negb _); inv A; code.
  - unfold process_dfpatch_size in A. destruct (a_reader s); [|discriminate].
    apply obind_ret in A. destruct A as ([[[[r1 v] z1] r2] l1] & A & C). cbv zeta in C.
    destruct (negb _); [inv C; eapply unpack_code; eauto|]. destruct (0 <? v); inv C; code.
  - unfold process_size, common_process_size in A. destruct (a_reader s); [|discriminate].
    apply obind_ret in A. destruct A as ([[[[r1 v] z1] r2] l1] & A & C). cbv zeta in C.
    apply obind_ret in A. destruct A as ([[[[r1' v'] z1'] r2'] l1'] & A & D).
    apply unpack_code in A. destruct (Z.eqb_spec r1' 0); cbn [negb] in D.
    + destruct (_ <? _); inv D; destruct (negb _) eqn:?; inv C; code.
    + inv D. destruct (negb _) eqn:?; inv C; [auto|code].
  - unfold process_data in A. cbv zeta in A. destruct (_ =? 0); [inv A; code|].
    destruct (a_reader s); [|discriminate]. apply obind_ret in A. destruct A as ([[[r1 o] r2] l1] & A & C).
    apply decompress_code in A. destruct (Z.eqb_spec r1 0); cbn [negb] in C; [|inv C; auto].
    apply obind_ret in C. destruct C as ([[[io data] s2] w2] & C & D). destruct io; [inv D; code|].
    destruct (to_write E w2 data). destruct (negb _); inv D; code.
  - unfold process_size, common_process_size in A. destruct (a_reader s); [|discriminate].
    apply obind_ret in A. destruct A as ([[[[r1 v] z1] r2] l1] & A & C). cbv zeta in C.
    apply obind_ret in A. destruct A as ([[[[r1' v'] z1'] r2'] l1'] & A & D).
    apply unpack_code in A. destruct (Z.eqb_spec r1' 0); cbn [negb] in D.
    + destruct (_ <? _); inv D; destruct (negb _) eqn:?; inv C; code.
    + inv D. destruct (negb _) eqn:?; inv C; [auto|code].
  - unfold process_data in A. cbv zeta in A. destruct (_ =? 0); [inv A; code|].
    destruct (a_reader s); [|discriminate]. apply obind_ret in A. destruct A as ([[[r1 o] r2] l1] & A & C).
    apply decompress_code in A. destruct (Z.eqb_spec r1 0); cbn [negb] in C; [|inv C; auto].
    cbn [obind] in C. destruct (to_write E w o). destruct (negb _); inv C; code.
  - unfold process_adjustment in A. destruct (a_reader s); [|discriminate].
    apply obind_ret in A. destruct A as ([[[[r1 v] z1] r2] l1] & A & C). cbv zeta in C.
    destruct (negb _); [inv C; eapply unpack_code; eauto|]. destruct (from_seek E w v). destruct (negb _); [inv C; code|].
    apply obind_ret in C. destruct C as (fo & _ & C). inv C. code.
  - inv A. inv H. auto.
  - inv A. inv H. right; left. auto.
Qed.


(** ** Failure is final *)

Definition dable (r : reader) : Prop :=
  match r with RHs h => hr_ptr h = true -> hr_dec h <> None | _ => True end.

Lemma decompress_dable : forall r l n res o r1 l1, dable r -> decompress r l n = Ret (res, o, r1, l1) -> dable r1.
Proof.
  intros [ps po|s|h] l n res o r1 l1 D X; cbn [decompress] in X.
  - unfold none_decompress in X. destruct (_ <? _); [inv X; exact I|]. destruct l; inv X; exact I.
  - apply obind_ret in X. destruct X as ([[[a b] c] d] & A & X). inv X. exact I.
  - apply obind_ret in X. destruct X as ([[[a b] c] d] & A & X). inv X. unfold hs_decompress in A. cbn [dable] in *.
    destruct (hr_window h =? -1).
    + destruct l; [inv A; auto|]. destruct (negb _ || negb _); [inv A; auto|]. cbn [hr_ptr hr_dec] in A.
      apply obind_ret in A. destruct A as ([[[a' b'] c'] d'] & A & X). inv X. cbn. discriminate.
    + destruct (hr_ptr h) eqn:Ep; [|inv A; congruence]. destruct (hr_dec h); [|discriminate].
      apply obind_ret in A. destruct A as ([[[a' b'] c'] d'] & A & X). inv X. cbn. discriminate.
Qed.

Lemma unpack_dable : forall K z r l b n res v z1 r1 l1, dable r ->
  unpack_size_loop K z r l b n = Ret (res, v, z1, r1, l1) -> dable r1.
Proof.
  induction K; intros z r l b n res v z1 r1 l1 D X; cbn [unpack_size_loop] in X; [discriminate|].
  apply obind_ret in X. destruct X as ([[[r0 o0] r2] l2] & A & X). apply decompress_dable in A; [|auto].
  destruct (negb _); [inv X; auto|]. destruct (match o0 with [] => b | x :: _ => Some x end); [|discriminate].
  apply obind_ret in X. destruct X as ([z2|] & B & X); [|inv X; auto]. destruct (_ =? 0); [inv X; auto|eauto].
Qed.

Definition dinv (s : ap) : Prop := forall r, a_reader s = Some r -> dable r.

Lemma once_dinv : forall B s w res s1 w1, dinv s -> process_once E B s w = Ret (res, s1, w1) -> dinv s1.
Proof.
  intros B s w res s1 w1 D H. unfold process_once in H.
  apply obind_ret in H. destruct H as ([[r0 s0] w0] & A & H).
  assert (K : dinv s0 -> dinv s1).
  { intros D0. destruct (a_state s); inv H; try exact D0; destruct (_ <? 0); exact D0. }
  apply K. clear K H.
  destruct (a_state s) eqn:Es;
    try (apply obind_ret in A; destruct A as ([r2 s2] & A & A2); inv A2).
  - unfold process_init in A. destruct (a_to_init s).
    + unfold process_init_to_size in A. apply obind_ret in A. destruct A as ([[[r1 v] z1] l1] & A & C). cbv zeta in C.
      destruct (negb _); [inv C; exact D|].
      destruct (reader_init _ _) as [r|] eqn:Er; [|inv C; exact D].
      assert (Dr : dable r).
      { unfold reader_init in Er. destruct (_ =? 0); [inv Er; exact I|]. destruct (_ =? 2); [inv Er; exact I|].
        destruct (_ =? 4); inv Er. cbn. discriminate. }
      destruct (v <? 0); inv C; intros x Hx; cbn in Hx; inv Hx; exact Dr.
    + unfold process_init_fixed_header in A. destruct (a_left s); [inv A; exact D|]. cbv zeta in A. destruct (negb _); inv A; exact D.
  - unfold process_dfpatch_size in A. destruct (a_reader s) as [r|] eqn:Er; [|discriminate].
    apply obind_ret in A. destruct A as ([[[[r1 v] z1] r2] l1] & A & C). cbv zeta in C.
    apply unpack_dable in A; [|auto].
    destruct (negb _); [inv C; intros x Hx; cbn in Hx; inv Hx; auto|].
    destruct (0 <? v); inv C; intros x Hx; cbn in Hx; inv Hx; auto.
  - unfold process_size, common_process_size in A. destruct (a_reader s) as [r|] eqn:Er; [|discriminate].
    apply obind_ret in A. destruct A as ([[[[r1 v] z1] r2] l1] & A & C). cbv zeta in C.
    apply obind_ret in A. destruct A as ([[[[r1' v'] z1'] r2'] l1'] & A & F).
    apply unpack_dable in A; [|auto].
    assert (r2' = r2) by (destruct (negb _); [inv F; auto|]; destruct (_ <? _); inv F; auto). subst r2'.
    destruct (negb (r1 =? 0)); inv C; intros x Hx; cbn in Hx; inv Hx; auto.
  - unfold process_data in A. cbv zeta in A. destruct (_ =? 0); [inv A; exact D|].
    destruct (a_reader s) as [r|] eqn:Er; [|discriminate]. apply obind_ret in A. destruct A as ([[[r1 o] r2] l1] & A & C).
    apply decompress_dable in A; [|auto]. destruct (negb _); [inv C; intros x Hx; cbn in Hx; inv Hx; auto|].
    apply obind_ret in C. destruct C as ([[[io data] s2] w2] & C & F).
    assert (Hs2 : dinv s2).
    { destruct (from_read E w (zlen o)) as [[rr fr] w3]. destruct (negb _); [inv C; intros x Hx; cbn in Hx; inv Hx; auto|].
      apply obind_ret in C. destruct C as (dd & _ & C). inv C. intros x Hx; cbn in Hx; inv Hx; auto. }
    destruct io; [inv F; auto|]. destruct (to_write E w2 data). destruct (negb _); inv F; exact Hs2.
  - unfold process_size, common_process_size in A. destruct (a_reader s) as [r|] eqn:Er; [|discriminate].
    apply obind_ret in A. destruct A as ([[[[r1 v] z1] r2] l1] & A & C). cbv zeta in C.
    apply obind_ret in A. destruct A as ([[[[r1' v'] z1'] r2'] l1'] & A & F).
    apply unpack_dable in A; [|auto].
    assert (r2' = r2) by (destruct (negb _); [inv F; auto|]; destruct (_ <? _); inv F; auto). subst r2'.
    destruct (negb (r1 =? 0)); inv C; intros x Hx; cbn in Hx; inv Hx; auto.
  - unfold process_data in A. cbv zeta in A. destruct (_ =? 0); [inv A; exact D|].
    destruct (a_reader s) as [r|] eqn:Er; [|discriminate]. apply obind_ret in A. destruct A as ([[[r1 o] r2] l1] & A & C).
    apply decompress_dable in A; [|auto]. destruct (negb _); [inv C; intros x Hx; cbn in Hx; inv Hx; auto|].
    cbn [obind] in C. destruct (to_write E w o). destruct (negb _); inv C; intros x Hx; cbn in Hx; inv Hx; auto.
  - unfold process_adjustment in A. destruct (a_reader s) as [r|] eqn:Er; [|discriminate].
    apply obind_ret in A. destruct A as ([[[[r1 v] z1] r2] l1] & A & C). cbv zeta in C. apply unpack_dable in A; [|auto].
    destruct (negb _); [inv C; intros x Hx; cbn in Hx; inv Hx; auto|].
    destruct (from_seek E w v). destruct (negb _); [inv C; intros x Hx; cbn in Hx; inv Hx; auto|].
    apply obind_ret in C. destruct C as (fo & _ & C). inv C. intros x Hx; cbn in Hx; inv Hx; auto.
  - inv A. exact D.
  - inv A. exact D.
Qed.

(** Something that holds in every state and is not affected by the chunk. *)
Lemma loop_inv : forall (P : ap -> W -> Prop),
  (forall s w res s1 w1, P s w -> process_once E 128 s w = Ret (res, s1, w1) -> P s1 w1) ->
  forall fuel res s w res1 s1 w1, P s w -> process_loop E fuel 128 res s w = Ret (res1, s1, w1) -> P s1 w1.
Proof.
  intros P HP. induction fuel; intros res s w res1 s1 w1 Hs X; cbn [process_loop] in X.
  - destruct (a_left s); [inv X; auto|]. destruct (res <? 0); inv X; auto.
  - destruct (a_left s); [inv X; auto|]. destruct (res <? 0); [inv X; auto|].
    apply obind_ret in X. destruct X as ([[r2 s2] w2] & A & X). eapply IHfuel; [|exact X]. eapply HP; eauto.
Qed.

Lemma finloop_inv : forall (P : ap -> W -> Prop),
  (forall s w res s1 w1, P s w -> process_once E 128 s w = Ret (res, s1, w1) -> P s1 w1) ->
  forall fuel s w res1 s1 w1, P s w -> finalize_loop E fuel 128 s w = Ret (res1, s1, w1) -> P s1 w1.
Proof.
  intros P HP. induction fuel; intros s w res1 s1 w1 Hs X; cbn [finalize_loop] in X; [discriminate|].
  apply obind_ret in X. destruct X as ([[r2 s2] w2] & A & X).
  destruct (r2 =? 0); [eapply IHfuel; [|exact X]; eapply HP; eauto|]. inv X. eapply HP; eauto.
Qed.

Lemma loop_failed : forall fuel res s w res1 s1 w1, (res < 0 -> res <> - E_ALREADY_DONE -> a_state s = SFailed) ->
  process_loop E fuel 128 res s w = Ret (res1, s1, w1) -> res <= 1 -> 
  res1 <= 1 /\ (res1 < 0 -> res1 <> - E_ALREADY_DONE -> a_state s1 = SFailed).
Proof.
  induction fuel; intros res s w res1 s1 w1 Hs X Hr; cbn [process_loop] in X.
  - destruct (a_left s); [inv X; auto|]. destruct (res <? 0); inv X; auto.
  - destruct (a_left s); [inv X; auto|]. destruct (res <? 0); [inv X; auto|].
    apply obind_ret in X. destruct X as ([[r2 s2] w2] & A & X).
    apply once_code in A.
    eapply IHfuel; [|exact X|]; destruct A as [(A1 & A2 & A3 & A4)|[(A1 & A2 & A3 & A4)|(A1 & A2 & A3 & A4)]]; subst; try tauto;
      try code.
Qed.

Lemma process_failed : forall fuel s w piece res s1 w1, process E fuel 128 s w piece = Ret (res, s1, w1) -> res <> 0 ->
  res < 0 /\ a_state s1 = SFailed.
Proof.
  intros fuel s w piece res s1 w1 X Hr. unfold process in X. cbv zeta in X.
  apply obind_ret in X. destruct X as ([[r2 s2] w2] & A & X). apply loop_failed in A; [|lia|lia].
  destruct (Z.eqb_spec r2 1); cbn [orb] in X; [inv X; lia|].
  destruct (Z.eqb_spec r2 (- E_ALREADY_DONE)); [inv X; lia|]. inv X. split; [lia|]. apply A; [lia|auto].
Qed.

Lemma failed_process : forall fuel s w piece, (1 <= fuel)%nat -> a_state s = SFailed ->
  exists r s1, process E fuel 128 s w piece = Ret (r, s1, w) /\ a_state s1 = SFailed /\ a_reader s1 = a_reader s /\
    after_failure (CallProcess piece) r.
Proof.
  intros fuel s w piece Hf Hs. destruct fuel as [|fuel]; [lia|]. unfold process. cbv zeta. cbn [process_loop].
  destruct piece as [|b l]; cbn [a_left set_chunk].
  - cbn [obind]. do 2 eexists. split; [reflexivity|]. split; [exact Hs|]. split; reflexivity.
  - change (0 <? 0) with false. cbv iota. unfold process_once. cbn [a_state set_chunk set_patch_offset]. rewrite Hs.
    cbn [obind]. change (- E_ALREADY_FAILED <? 0) with true. cbv iota.
    destruct fuel; cbn [process_loop a_left set_st set_chunk]; cbn [obind];
      (do 2 eexists; split; [reflexivity|]; split; [reflexivity|]; split; [reflexivity|]; cbn; code).
Qed.

Lemma failed_finalize : forall fuel s w, (1 <= fuel)%nat -> a_state s = SFailed -> dinv s ->
  exists r s1, finalize E fuel 128 s w = Ret (r, s1, w) /\ a_state s1 = SFailed /\ a_reader s1 = a_reader s /\ r < 0.
Proof.
  intros fuel s w Hf Hs Hd. destruct fuel as [|fuel]; [lia|]. unfold finalize. cbv zeta. cbn [finalize_loop].
  unfold process_once. cbn [a_state set_chunk]. rewrite Hs.
  cbn [obind]. change (- E_ALREADY_FAILED <? 0) with true. cbv iota. change (- E_ALREADY_FAILED =? 0) with false. cbv iota.
  cbn [obind]. change (a_reader (set_st (set_chunk s []) SFailed)) with (a_reader s).
  assert (X : common_finalize (- E_ALREADY_FAILED) (a_reader s) (a_to_size (set_st (set_chunk s []) SFailed)) = Ret (- E_ALREADY_FAILED)).
  { unfold common_finalize. change (- E_ALREADY_FAILED =? 1) with false. cbv iota zeta.
    change (- E_ALREADY_FAILED =? - E_ALREADY_DONE) with false. cbv iota.
    destruct (a_reader s) as [r|] eqn:Er; [|reflexivity].
    assert (D : exists d, destroy r = Ret d).
    { specialize (Hd r Er). destruct r as [ps po|c|h]; cbn in *; eauto. destruct (hr_ptr h); [|eauto].
      destruct (hr_dec h); [eauto|]. exfalso. apply Hd; auto. }
    destruct D as (d & ->). reflexivity. }
  rewrite X. cbn [obind]. do 2 eexists. split; [reflexivity|]. split; [reflexivity|]. split; [reflexivity|]. code.
Qed.

Lemma dinv_process : forall fuel s w c r s1 w1, dinv s ->
  match c with
  | CallProcess piece => process E fuel 128 s w piece
  | CallFinalize => finalize E fuel 128 s w
  end = Ret (r, s1, w1) -> dinv s1.
Proof.
  intros fuel s w c r s1 w1 Hd X.
  assert (K : forall s w res s1 w1, dinv s -> process_once E 128 s w = Ret (res, s1, w1) -> dinv s1) by (intros; eapply once_dinv; eauto).
  destruct c.
  - unfold process in X. cbv zeta in X. apply obind_ret in X. destruct X as ([[r2 s2] w2] & A & X). inv X.
    eapply (loop_inv (fun s _ => dinv s)); [exact K| |exact A]. exact Hd.
  - unfold finalize in X. cbv zeta in X. apply obind_ret in X. destruct X as ([[r2 s2] w2] & A & X).
    apply obind_ret in X. destruct X as (v & _ & X). inv X.
    eapply (finloop_inv (fun s _ => dinv s)); [exact K| |exact A]. exact Hd.
Qed.

Lemma run_dinv : forall calls fuel s w rs s1 w1, dinv s -> run_calls E fuel s w calls = Ret (rs, s1, w1) -> dinv s1.
Proof.
  induction calls as [|c cs IH]; intros fuel s w rs s1 w1 Hd X; cbn [run_calls] in X; [inv X; auto|].
  apply obind_ret in X. destruct X as ([[r2 s2] w2] & A & X). apply dinv_process in A; [|auto].
  apply obind_ret in X. destruct X as ([[r3 s3] w3] & B & X). inv X. eapply IH; eauto.
Qed.

Lemma run_failed : forall calls fuel s w, (1 <= fuel)%nat -> a_state s = SFailed -> dinv s ->
  exists rs s1, run_calls E fuel s w calls = Ret (rs, s1, w) /\ Forall2 after_failure calls rs.
Proof.
  induction calls as [|c cs IH]; intros fuel s w Hf Hs Hd; cbn [run_calls].
  - do 2 eexists. split; [reflexivity|constructor].
  - destruct c.
    + destruct (failed_process fuel s w piece Hf Hs) as (r & s1 & A & B & C & D). rewrite A. cbn [obind].
      destruct (IH fuel s1 w Hf B) as (rs & s2 & F & G); [intros x Hx; apply Hd; congruence|].
      rewrite F. cbn [obind]. do 2 eexists. split; [reflexivity|]. constructor; auto.
    + destruct (failed_finalize fuel s w Hf Hs Hd) as (r & s1 & A & B & C & D). rewrite A. cbn [obind].
      destruct (IH fuel s1 w Hf B) as (rs & s2 & F & G); [intros x Hx; apply Hd; congruence|].
      rewrite F. cbn [obind]. do 2 eexists. split; [reflexivity|]. constructor; auto.
Qed.

Lemma failure_sticky : forall fuel junk ps w0 before rs s w piece res s1 w1,
  run_calls E fuel (ap_init junk ps) w0 before = Ret (rs, s, w) ->
  process E fuel 128 s w piece = Ret (res, s1, w1) -> res <> 0 ->
  res < 0 /\ forall fuel' after, (1 <= fuel')%nat ->
    exists rs' s2, run_calls E fuel' s1 w1 after = Ret (rs', s2, w1) /\ Forall2 after_failure after rs'.
Proof.
  intros fuel junk ps w0 before rs s w piece res s1 w1 R P Hr.
  destruct (process_failed _ _ _ _ _ _ _ P Hr) as [A B]. split; [auto|]. intros fuel' after Hf.
  apply run_failed; auto.
  apply (dinv_process fuel s w (CallProcess piece) res s1 w1); [|exact P].
  eapply run_dinv; [|exact R]. intros x Hx. discriminate.
Qed.

End Inv.
