(** How much a successful run has written (C05). *)

From Coq Require Import ZArith List Bool Lia ZifyBool ZifyNat ZifyN.
From Verif Require Import Prelude Lib Heatshrink HsProofs CReader ReaderProofs SizeProofs CSeq Spec SeqSim SeqRun SeqTerm SeqApply SeqSpec SeqInv.
Import ListNotations.
Open Scope Z_scope.

Ltac Zify.zify_post_hook ::= Z.to_euclidean_division_equations.

Ltac code := unfold code_ok, E_NOT_IMPLEMENTED, E_BAD_PATCH_TYPE, E_BAD_COMPRESSION, E_CORRUPT_PATCH, E_IO_FAILED, E_ALREADY_DONE, E_SHORT_HEADER, E_NOT_ENOUGH_PATCH_DATA, E_ALREADY_FAILED, E_CORRUPT_PATCH_OVERFLOW in *; lia.

Section Count.
Context {WBits : WordBits}.
Hypothesis Hword : 32 <= word_bits.
Context {W : Type} (E : seq_env W).

Notation CE := (counting E).

Lemma add_data_len : forall a b d, add_data a b = Ret d -> zlen d = zlen a.
Proof.
  induction a; intros b d X; destruct b; cbn [add_data] in X; inv X; auto.
  apply obind_ret in H0. destruct H0 as (r & A & B). inv B. rewrite !zlen_cons. f_equal. eauto.
Qed.


Lemma uhs_value : forall l z v z1 l1, bytes_ok l -> zok z -> z_cons z = true ->
  unpack_header_size l z = Ret (0, v, z1, l1) ->
  exists y, dec_usize l = Some (y, l1) /\ v = z_value z + y * 2 ^ z_offset z.
Proof.
  induction l as [|b l IH]; intros z v z1 l1 Hl Hz Hc X; [discriminate|]. inv Hl. rewrite uhs_unfold in X.
  destruct (hdr_byte_spec z b Hz) as [(_ & _ & A)|(z2 & A & A1 & A2 & _ & A3 & A4 & _)]; rewrite A in X; cbn [obind] in X; [discriminate|].
  destruct (A4 Hc) as (B1 & B2 & B3). rewrite land_128_byte in X by auto. cbn [dec_usize]. unfold byte_ok in H1.
  assert (Hzo : 0 <= z_offset z). { pose proof (Hz Hc). lia. }
  destruct (Z.ltb_spec b 128).
  - inv X. exists b. split; [auto|]. rewrite B3, Z.mod_small by lia. reflexivity.
  - destruct (IH _ _ _ _ H2 A2 A1 X) as (y & Y1 & Y2). rewrite Y1. exists (b - 128 + 128 * y). split; [auto|].
    rewrite Y2, B3, B2, Z.pow_add_r by lia. change (2 ^ 7) with 128. replace (b mod 128) with (b - 128) by lia. ring.
Qed.

Lemma uhs_announced : forall b l z v z1 l1, bytes_ok l -> z_cons z = false ->
  unpack_header_size l z = Ret (0, v, z1, l1) -> announced_size (b :: l) = Some v.
Proof.
  intros b l z v z1 l1 Hl Hc X. unfold announced_size. cbn [tl]. destruct l as [|c l]; [discriminate|]. inv Hl. rewrite uhs_unfold in X.
  destruct (hdr_byte_spec z c ltac:(intros Y; congruence)) as [(A & _)|(z2 & A & A1 & A2 & _ & A3 & _ & A4)]; [congruence|].
  rewrite A in X. cbn [obind] in X. destruct (A4 Hc) as (B1 & B2). rewrite land_128_byte in X by auto.
  destruct (Z.ltb_spec c 128); [inv X; congruence|].
  destruct (uhs_value _ _ _ _ _ H2 A2 A1 X) as (y & Y1 & Y2). rewrite Y1, Y2, B1, B2. f_equal. change (2 ^ 6) with 64. lia.
Qed.

(** What the header says, given what is still to come. *)
Definition hinv (patch f : list Z) (s : ap) : Prop :=
  match a_state s with
  | SInit =>
      if a_to_init s then
        zok (a_size s) /\ forall v z1 l1, unpack_header_size (a_left s ++ f) (a_size s) = Ret (0, v, z1, l1) ->
          announced_size patch = Some v
      else a_left s ++ f = patch
  | SFailed => True
  | _ => announced_size patch = Some (a_to_size s)
  end.

Definition cinv (s : ap) (n : Z) : Prop :=
  match a_state s with
  | SInit => a_to_offset s = 0 /\ n = 0
  | SFailed => True
  | SDone => a_to_offset s = wrap n /\ a_to_offset s = a_to_size s /\ 0 <= a_to_size s < 2 ^ 27
  | _ => a_to_offset s = wrap n /\ 0 <= a_to_size s < 2 ^ 27
  end.

Lemma wrap_add_l : forall a b, wrap (wrap a + b) = wrap (a + b).
Proof. intros. unfold wrap. apply Z.add_mod_idemp_l. pose proof (pow2_32_le word_bits Hword). lia. Qed.

Lemma once_count : forall patch f s w n res s1 w1 n1, bytes_ok patch -> hinv patch f s -> cinv s n ->
  process_once CE 128 s (w, n) = Ret (res, s1, (w1, n1)) -> hinv patch f s1 /\ cinv s1 n1.
Proof.
  intros patch f s w n res s1 w1 n1 Hb Hh Hc H.
  pose proof (pow2_32_le word_bits Hword).
  assert (Hneg : res < 0 -> a_state s <> SDone -> hinv patch f s1 /\ cinv s1 n1).
  { intros Hr Hnd. apply once_code in H. destruct H as [(A & _)|[(A & _ & B & _)|(_ & _ & _ & A)]]; [tauto| |].
    - subst s1. unfold hinv, cinv. cbn. auto.
    - specialize (A Hr). unfold hinv, cinv. rewrite A. auto. }
  destruct (Z.ltb_spec res 0) as [Hr|Hr].
  { destruct (a_state s) eqn:Es; try (apply Hneg; [auto|discriminate]).
    apply once_code in H. destruct H as [(A & _ & B & C)|[(A & _)|(A & _)]]; try congruence. inv C.
    split; auto. }
  clear Hneg. unfold process_once in H.
  apply obind_ret in H. destruct H as ([[r0 s0] [w0 n0]] & A & H).
  assert (K : r0 = res /\ s0 = s1 /\ (w0, n0) = (w1, n1)).
  { destruct (a_state s); inv H; auto; destruct (Z.ltb_spec res 0); try lia; auto. }
  clear H. destruct K as (-> & -> & K). injection K as -> ->.
  destruct (a_state s) eqn:Es; try (apply obind_ret in A; destruct A as ([r2 s2] & A & A2); inv A2).
  - unfold hinv, cinv in Hh, Hc. rewrite Es in Hh, Hc. destruct Hc as [C1 C2]. subst n1.
    unfold process_init in A. destruct (a_to_init s) eqn:Et.
    + destruct Hh as [Hz Hh]. unfold process_init_to_size in A.
      destruct (uhs_app (a_left s) (a_size s) f Hz)
        as [(z1 & P & Q & R)|[(v & z1 & l1 & used & P & Q & R & S)|(z1 & l1 & P & R)]]; rewrite P in A; cbn [obind] in A; cbv zeta in A.
      * inv A. unfold hinv, cinv. cbn. rewrite Es, Et. split; [|auto]. split; [auto|]. rewrite <- R. exact Hh.
      * change (negb (0 =? 0)) with false in A. cbv iota in A. destruct (reader_init _ _); [|inv A; unfold E_BAD_COMPRESSION in Hr; lia].
        destruct (Z.ltb_spec v 0); [lia|]. inv A.
        unfold hinv, cinv. specialize (Hh _ _ _ S). cbn -[Z.pow wrap Z.ltb Z.lt Z.le]. rewrite !(wrap_small v) by lia.
        destruct (Z.ltb_spec 0 v).
        -- split; [auto|]. rewrite C1. split; [rewrite wrap_small by lia; auto|lia].
        -- split; [auto|]. rewrite C1. split; [rewrite wrap_small by lia; auto|]. lia.
      * inv A. unfold E_CORRUPT_PATCH_OVERFLOW in Hr. lia.
    + unfold process_init_fixed_header in A. destruct (a_left s) as [|b l] eqn:El; [inv A; unfold E_SHORT_HEADER in Hr; lia|].
      cbv zeta in A. destruct (negb _); inv A; [unfold E_BAD_PATCH_TYPE in Hr; lia|].
      unfold hinv, cinv. cbn. rewrite Es. split; [|auto]. split; [intros X; discriminate|].
      intros v z1 l1 X. cbn [app] in Hb. inv Hb. eapply uhs_announced; [| |exact X]; [auto|reflexivity].
  - unfold hinv, cinv in Hh, Hc. rewrite Es in Hh, Hc.
    unfold process_dfpatch_size in A. destruct (a_reader s) as [r|] eqn:Er; [|discriminate].
    apply obind_ret in A. destruct A as ([[[[r1 v] z1] r2] l1] & A & C). cbv zeta in C.
    destruct (negb _); [inv C; unfold hinv, cinv; cbn; rewrite Es; auto|].
    destruct (0 <? v); inv C; [unfold E_NOT_IMPLEMENTED in Hr; lia|]. unfold hinv, cinv; cbn; auto.
  - unfold hinv, cinv in Hh, Hc. rewrite Es in Hh, Hc.
    unfold process_size in A. destruct (a_reader s) as [r|] eqn:Er; [|discriminate].
    apply obind_ret in A. destruct A as ([[[[r1 v] z1] r2] l1] & A & C). cbv zeta in C.
    destruct (negb (r1 =? 0)); inv C; unfold hinv, cinv; cbn; rewrite ?Es; auto.
  - unfold hinv, cinv in Hh, Hc. rewrite Es in Hh, Hc.
    unfold process_data in A. cbv zeta in A. destruct (_ =? 0); [inv A; unfold hinv, cinv; cbn; auto|].
    destruct (a_reader s) as [r|] eqn:Er; [|discriminate]. apply obind_ret in A. destruct A as ([[[r1 o] r2] l1] & A & C).
    destruct (negb _); [inv C; unfold hinv, cinv; cbn; rewrite Es; auto|].
    apply obind_ret in C. destruct C as ([[[io data] s2] [w2 n2]] & C & F).
    cbn [from_read counting fst snd] in C. destruct (from_read E w (zlen o)) as [[rr fr] w3].
    destruct (negb _); [inv C; cbv iota in F; inv F; unfold E_IO_FAILED in Hr; lia|].
    apply obind_ret in C. destruct C as (dd & C1 & C). inv C. apply add_data_len in C1. cbv iota in F.
    cbn [to_write counting fst snd] in F. destruct (to_write E w2 data) as [rw w4].
    destruct (negb _); inv F; [unfold E_IO_FAILED in Hr; lia|]. unfold hinv, cinv. cbn. rewrite Es. split; [auto|].
    split; [|tauto]. destruct Hc as [-> _]. rewrite C1, wrap_add_l. reflexivity.
  - unfold hinv, cinv in Hh, Hc. rewrite Es in Hh, Hc.
    unfold process_size in A. destruct (a_reader s) as [r|] eqn:Er; [|discriminate].
    apply obind_ret in A. destruct A as ([[[[r1 v] z1] r2] l1] & A & C). cbv zeta in C.
    destruct (negb (r1 =? 0)); inv C; unfold hinv, cinv; cbn; rewrite ?Es; auto.
  - unfold hinv, cinv in Hh, Hc. rewrite Es in Hh, Hc.
    unfold process_data in A. cbv zeta in A. destruct (_ =? 0); [inv A; unfold hinv, cinv; cbn; auto|].
    destruct (a_reader s) as [r|] eqn:Er; [|discriminate]. apply obind_ret in A. destruct A as ([[[r1 o] r2] l1] & A & C).
    destruct (negb _); [inv C; unfold hinv, cinv; cbn; rewrite Es; auto|].
    cbn [obind] in C.
    cbn [to_write counting fst snd] in C. destruct (to_write E w o) as [rw w4].
    destruct (negb _); inv C; [unfold E_IO_FAILED in Hr; lia|]. unfold hinv, cinv. cbn. rewrite Es. split; [auto|].
    split; [|tauto]. destruct Hc as [-> _]. rewrite wrap_add_l. reflexivity.
  - unfold hinv, cinv in Hh, Hc. rewrite Es in Hh, Hc.
    unfold process_adjustment in A. destruct (a_reader s) as [r|] eqn:Er; [|discriminate].
    apply obind_ret in A. destruct A as ([[[[r1 v] z1] r2] l1] & A & C). cbv zeta in C.
    destruct (negb _); [inv C; unfold hinv, cinv; cbn; rewrite Es; auto|].
    cbn [from_seek counting fst snd] in C. destruct (from_seek E w v) as [rs w3].
    destruct (negb _); [inv C; unfold E_IO_FAILED in Hr; lia|].
    apply obind_ret in C. destruct C as (fo & _ & C). inv C. unfold hinv, cinv. cbn.
    destruct (Z.eqb_spec (a_to_offset s) (a_to_size s)); tauto.
  - inv A. unfold E_ALREADY_DONE in Hr. lia.
  - inv A. unfold E_ALREADY_FAILED in Hr. lia.
Qed.


Lemma loop_left : forall fuel res s w n res1 s1 w1 n1,
  process_loop CE fuel 128 res s (w, n) = Ret (res1, s1, (w1, n1)) -> 0 <= res1 -> a_left s1 = [].
Proof.
  induction fuel; intros res s w n res1 s1 w1 n1 X Hr; cbn [process_loop] in X.
  - destruct (a_left s) eqn:El; [inv X; auto|]. destruct (Z.ltb_spec res 0); inv X; lia.
  - destruct (a_left s) eqn:El; [inv X; auto|]. destruct (Z.ltb_spec res 0); [inv X; lia|].
    apply obind_ret in X. destruct X as ([[r2 s2] [w2 n2]] & A & X). eapply IHfuel; eauto.
Qed.

Lemma loop_done : forall fuel res s w res1 s1 w1, (res = - E_ALREADY_DONE -> a_state s = SDone) ->
  process_loop CE fuel 128 res s w = Ret (res1, s1, w1) -> res1 = - E_ALREADY_DONE -> a_state s1 = SDone.
Proof.
  induction fuel; intros res s w res1 s1 w1 Hs X Hr; cbn [process_loop] in X.
  - destruct (a_left s) eqn:El; [inv X; auto|]. destruct (Z.ltb_spec res 0); inv X; auto.
  - destruct (a_left s) eqn:El; [inv X; auto|]. destruct (Z.ltb_spec res 0); [inv X; auto|].
    apply obind_ret in X. destruct X as ([[r2 s2] w2] & A & X). eapply IHfuel; [|exact X|auto].
    intros Hr2. apply once_code in A. destruct A as [(A & B & C & D)|[(A & B & C & D)|(A & B & C & D)]]; try congruence; code.
Qed.

Lemma finloop_done : forall fuel s w res1 s1 w1,
  finalize_loop CE fuel 128 s w = Ret (res1, s1, w1) -> res1 = - E_ALREADY_DONE -> a_state s1 = SDone.
Proof.
  induction fuel; intros s w res1 s1 w1 X Hr; cbn [finalize_loop] in X; [discriminate|].
  apply obind_ret in X. destruct X as ([[r2 s2] w2] & A & X). destruct (Z.eqb_spec r2 0); [eauto|]. inv X.
  apply once_code in A. destruct A as [(A & B & C & D)|[(A & B & C & D)|(A & B & C & D)]]; try congruence; code.
Qed.

Lemma finloop_le : forall fuel s w res1 s1 w1, finalize_loop CE fuel 128 s w = Ret (res1, s1, w1) -> res1 <> 0 /\ res1 <= 1.
Proof.
  induction fuel; intros s w res1 s1 w1 X; cbn [finalize_loop] in X; [discriminate|].
  apply obind_ret in X. destruct X as ([[r2 s2] w2] & A & X). destruct (Z.eqb_spec r2 0); [eauto|]. inv X.
  split; [auto|]. apply once_code in A. destruct A as [(A & B & C & D)|[(A & B & C & D)|(A & B & C & D)]]; subst; code.
Qed.

Lemma feed_count : forall patch chunks fuel s w n v s1 w1 n1, bytes_ok patch ->
  hinv patch (concat chunks) (set_chunk s []) -> cinv s n ->
  feed CE fuel 128 s (w, n) chunks = Ret (v, s1, (w1, n1)) -> 0 <= v ->
  announced_size patch = Some v /\ wrap n1 = v.
Proof.
  intros patch. induction chunks as [|c cs IH]; intros fuel s w n v s1 w1 n1 Hb Hh Hc X Hv; cbn [feed] in X.
  - unfold finalize in X. cbv zeta in X. apply obind_ret in X. destruct X as ([[r2 s2] [w2 n2]] & A & X).
    apply obind_ret in X. destruct X as (r3 & B & X). inv X.
    pose proof (finloop_le _ _ _ _ _ _ A) as L.
    assert (K : hinv patch [] s1 /\ cinv s1 n1).
    { change (hinv patch [] s1 /\ cinv s1 (snd (w1, n1))).
      eapply (finloop_inv CE (fun s wn => hinv patch [] s /\ cinv s (snd wn))); [|split; [exact Hh|change (cinv s (snd (w, n))) in Hc; destruct s; exact Hc]|exact A].
      intros s' [w' n'] res' s2 [w2 n2] [P1 P2] Q. eapply once_count; eauto. }
    destruct K as [K1 K2].
    assert (r2 = - E_ALREADY_DONE).
    { unfold common_finalize in B. destruct (Z.eqb_spec r2 (- E_ALREADY_DONE)); [auto|exfalso].
      set (res1 := if r2 =? 1 then - E_NOT_ENOUGH_PATCH_DATA else r2) in B. cbv zeta in B.
      assert (R1 : res1 < 0 /\ res1 <> - E_ALREADY_DONE) by (unfold res1; destruct (Z.eqb_spec r2 1); code).
      destruct (Z.eqb_spec res1 (- E_ALREADY_DONE)); [lia|].
      destruct (a_reader s1); [|cbn [obind] in B; destruct (Z.eqb_spec res1 0); inv B; lia].
      apply obind_ret in B. destruct B as (y & B1 & B2). apply obind_ret in B1. destruct B1 as (d & B0 & B1).
      destruct (Z.eqb_spec res1 0); [lia|]. inv B1. destruct (Z.eqb_spec res1 0); inv B2; lia. }
    subst r2. pose proof (finloop_done _ _ _ _ _ _ A eq_refl) as D. unfold hinv in K1. unfold cinv in K2. rewrite D in K1, K2.
    assert (E1 : to_int (a_to_size s1) = a_to_size s1).
    { unfold to_int. change (2 ^ 27) with 134217728 in K2. change (2 ^ 32) with 4294967296. change (2 ^ 31) with 2147483648. rewrite Z.mod_small by lia.
      destruct (Z.leb_spec 2147483648 (a_to_size s1)); try lia. }
    assert (v = a_to_size s1).
    { unfold common_finalize in B. change (- E_ALREADY_DONE =? 1) with false in B. cbv iota zeta in B. rewrite Z.eqb_refl in B.
      change (0 =? 0) with true in B. cbv iota in B. destruct (a_reader s1) as [r|]; [|cbn [obind] in B; inv B; lia].
      apply obind_ret in B. destruct B as (y & B1 & B2). apply obind_ret in B1. destruct B1 as (d & B0 & B1). inv B1.
      destruct (Z.eqb_spec y 0); inv B2; [lia|]. exfalso.
      destruct r as [ps po|cr|h]; cbn in B0.
      - destruct (po =? ps); inv B0; code.
      - inv B0. lia.
      - destruct (hr_ptr h); [|inv B0; lia]. destruct (hr_dec h); [|discriminate]. destruct (hs_finish _); inv B0; code. }
    subst v. split; [auto|]. lia.
  - cbn [concat] in Hh. apply obind_ret in X. destruct X as ([[res s2] [w2 n2]] & A & X).
    destruct (Z.eqb_spec res 0) as [->|Hres].
    + unfold process in A. cbv zeta in A. apply obind_ret in A. destruct A as ([[r3 s3] [w3 n3]] & A & A2).
      assert (K : hinv patch (concat cs) s3 /\ cinv s3 n3).
      { change (hinv patch (concat cs) s3 /\ cinv s3 (snd (w3, n3))).
        eapply (loop_inv CE (fun s wn => hinv patch (concat cs) s /\ cinv s (snd wn))); [|split|exact A].
        - intros s' [w' n'] res' s4 [w4 n4] [P1 P2] Q. eapply once_count; eauto.
        - clear - Hh. destruct s. unfold hinv in *. cbn in *. exact Hh.
        - clear - Hc. destruct s. unfold cinv in *. cbn in *. exact Hc. }
      injection A2 as A3 A4 A5 A6. subst s3 w3 n3. destruct K as [K1 K2].
      eapply IH; [auto| |exact K2|exact X|auto].
      assert (Z3 : a_left s2 = [] \/ a_state s2 = SDone).
      { destruct (Z.eqb_spec r3 1); cbn [orb] in A3; [left; eapply loop_left; [exact A|lia]|].
        destruct (Z.eqb_spec r3 (- E_ALREADY_DONE)); [right; eapply loop_done; [|exact A|auto]; code|].
        left; unfold E_ALREADY_DONE in *; destruct (Z.eqb_spec r3 (-11)); [lia|]; eapply loop_left; [exact A|lia]. }
      clear - K1 Z3. destruct s2. unfold hinv in *. cbn in *. destruct Z3 as [->| ->]; auto.
    + apply process_failed in A; [|auto]. apply obind_ret in X. destruct X as ([[r4 s4] w4] & _ & X). inv X. lia.
Qed.

Lemma success_announced : forall fuel junk ps w chunks v s1 w1 n1, bytes_ok (concat chunks) ->
  feed CE fuel 128 (ap_init junk ps) (w, 0) chunks = Ret (v, s1, (w1, n1)) -> 0 <= v ->
  announced_size (concat chunks) = Some v /\ n1 mod 2 ^ word_bits = v.
Proof.
  intros fuel junk ps w chunks v s1 w1 n1 Hb X Hv. eapply feed_count; [exact Hb| | |exact X|exact Hv].
  - unfold hinv. cbn. reflexivity.
  - unfold cinv. cbn. auto.
Qed.

End Count.
