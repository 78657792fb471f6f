(** Results of the sequential applier: no failing callback is masked, and every
    result is documented. *)

From Coq Require Import ZArith List Bool Lia ZifyBool ZifyNat ZifyN.
From Verif Require Import Prelude Lib Heatshrink CReader ReaderProofs SizeProofs CSeq Spec SeqSim SeqRun SeqTerm SeqSpec SeqInv CodesSpec.
Import ListNotations.
Open Scope Z_scope.

Lemma zero_app : forall l, all_zero l -> all_zero (l ++ [0]).
Proof. intros l H. apply Forall_app. split; [exact H|]. constructor; auto. Qed.

Ltac codes := unfold E_CORRUPT_PATCH, E_CORRUPT_PATCH_OVERFLOW, E_CORRUPT_PATCH_CRLE_KIND, E_HEATSHRINK_SINK, E_HEATSHRINK_POLL,
  E_HEATSHRINK_HEADER, E_BAD_COMPRESSION, E_NOT_IMPLEMENTED, E_IO_FAILED, E_ALREADY_DONE, E_ALREADY_FAILED, E_BAD_PATCH_TYPE,
  E_NOT_ENOUGH_PATCH_DATA, E_SHORT_HEADER, E_STEP_SET_FAILED, E_STEP_GET_FAILED in *.

Section Note.
Context `{WordBits}.
Context {W : Type} (E : seq_env W).

(** The log holds only zeros, or the error is still there. *)
Definition clean (s : ap) (log : list Z) : Prop := all_zero log \/ a_state s = SFailed.
Definition told (res : Z) (log : list Z) : Prop := all_zero log \/ res = - E_IO_FAILED \/ res = - E_ALREADY_FAILED.

Lemma data_note : forall B s w log next res s1 w1 log1, all_zero log ->
  process_data (noting E) B s (w, log) next = Ret (res, s1, (w1, log1)) -> all_zero log1 \/ res = - E_IO_FAILED.
Proof.
  intros B s w log next res s1 w1 log1 Z0 U. unfold process_data in U. cbv zeta in U. destruct (_ =? 0); [inv U; auto|].
  destruct (a_reader s); [|discriminate]. apply obind_ret in U. destruct U as ([[[r1 o] r2] l1] & A & C).
  destruct (negb _); [inv C; auto|].
  apply obind_ret in C. destruct C as ([[[io data] s2] [w2 log2]] & C & D).
  assert (K : io = false -> all_zero log2).
  { intros ->. assert (D0 : next = SExtraSize \/ Ret (false, o, set_reader s (Some r2) (a_rsize s) l1, (w, log)) = Ret (false, data, s2, (w2, log2))) by (destruct next; auto).
    destruct D0 as [-> |D0]; [|inv D0; auto]. cbn [noting from_read fst snd] in C.
    destruct (from_read E w (zlen o)) as [[rr from] w3]. destruct (Z.eqb_spec rr 0); cbn [negb] in C; [|discriminate].
    apply obind_ret in C. destruct C as (d & _ & C). inv C. apply zero_app; auto. }
  destruct io; [inv D; auto|]. specialize (K eq_refl). cbn [noting to_write fst snd] in D.
  destruct (to_write E w2 data) as [rw w3]. destruct (Z.eqb_spec rw 0); cbn [negb] in D; inv D; [|auto]. left. apply zero_app; auto.
Qed.

Lemma adjust_note : forall s w log res s1 w1 log1, all_zero log ->
  process_adjustment (noting E) s (w, log) = Ret (res, s1, (w1, log1)) -> all_zero log1 \/ res = - E_IO_FAILED.
Proof.
  intros s w log res s1 w1 log1 Z0 U. unfold process_adjustment in U. destruct (a_reader s); [|discriminate].
  apply obind_ret in U. destruct U as ([[[[r1 v] z1] r2] l1] & A & C). cbv zeta in C.
  destruct (negb _); [inv C; auto|]. cbn [noting from_seek fst snd] in C. destruct (from_seek E w v) as [rs w3].
  destruct (Z.eqb_spec rs 0); cbn [negb] in C; [|inv C; auto]. apply obind_ret in C. destruct C as (fo & _ & C). inv C. left. apply zero_app; auto.
Qed.

Lemma once_note : forall B s w log res s1 w1 log1, clean s log ->
  process_once (noting E) B s (w, log) = Ret (res, s1, (w1, log1)) -> clean s1 log1 /\ told res log1.
Proof.
  intros B s w log res s1 w1 log1 C U. unfold process_once in U. apply obind_ret in U. destruct U as ([[r0 s0] [w0 log0]] & A & U).
  destruct C as [C|C].
  - assert (K : all_zero log0 \/ r0 = - E_IO_FAILED).
    { destruct (a_state s); try solve [apply obind_ret in A; destruct A as ([r2 s2] & A & A2); inv A2; auto];
        try solve [eapply data_note; eauto]; try solve [eapply adjust_note; eauto]; inv A; auto. }
    assert (clean s1 log1 /\ log1 = log0 /\ res = r0).
    { destruct (a_state s) eqn:Es; inv U; (split; [|auto]); destruct K as [K| ->]; try (left; exact K); try (right; reflexivity).
      inv A. }
    destruct H0 as (X & -> & ->). split; [exact X|]. unfold told. tauto.
  - rewrite C in A, U. inv A. inv U. split; [right; reflexivity|]. unfold told. auto.
Qed.

Lemma loop_note : forall fuel B res s w log v s1 w1 log1, clean s log -> told res log ->
  process_loop (noting E) fuel B res s (w, log) = Ret (v, s1, (w1, log1)) -> clean s1 log1 /\ told v log1.
Proof.
  induction fuel; intros B res s w log v s1 w1 log1 C T U; cbn [process_loop] in U.
  - destruct (a_left s); [inv U; auto|]. destruct (res <? 0); [inv U; auto|discriminate].
  - destruct (a_left s); [inv U; auto|]. destruct (res <? 0); [inv U; auto|].
    apply obind_ret in U. destruct U as ([[r2 s2] [w2 log2]] & A & U).
    destruct (once_note _ _ _ _ _ _ _ _ C A). eapply IHfuel; eauto.
Qed.

Lemma process_note : forall fuel B s w log p v s1 w1 log1, clean s log ->
  process (noting E) fuel B s (w, log) p = Ret (v, s1, (w1, log1)) -> clean s1 log1 /\ (clean s [] -> True).
Proof.
  intros fuel B s w log p v s1 w1 log1 C U. unfold process in U. cbv zeta in U. apply obind_ret in U. destruct U as ([[r2 s2] [w2 log2]] & A & U).
  inv U. split; [|auto]. revert A. destruct fuel; cbn [process_loop].
  - cbn [set_chunk a_left]. destruct p; [|discriminate]. intros A. inv A. destruct C; [left|right]; auto.
  - cbn [set_chunk a_left]. destruct p; [intros A; inv A; destruct C; [left|right]; auto|]. change (0 <? 0) with false. cbv iota. intros A.
    apply obind_ret in A. destruct A as ([[r3 s3] [w3 log3]] & A & D).
    eapply once_note in A; [|destruct C; [left; eauto|right; eauto]]. destruct A. eapply loop_note in D; eauto. tauto.
Qed.

Lemma finloop_note : forall fuel B s w log v s1 w1 log1, clean s log ->
  finalize_loop (noting E) fuel B s (w, log) = Ret (v, s1, (w1, log1)) -> clean s1 log1 /\ told v log1.
Proof.
  induction fuel; intros B s w log v s1 w1 log1 C U; cbn [finalize_loop] in U; [discriminate|].
  apply obind_ret in U. destruct U as ([[r2 s2] [w2 log2]] & A & U).
  destruct (once_note _ _ _ _ _ _ _ _ C A). destruct (r2 =? 0); [eauto|]. inv U. auto.
Qed.

Lemma common_told : forall res r ts v, common_finalize res r ts = Ret v -> res = - E_IO_FAILED \/ res = - E_ALREADY_FAILED -> v < 0.
Proof.
  intros res r ts v U T. unfold common_finalize in U. cbv zeta in U. codes.
  apply obind_ret in U. destruct U as (res3 & A & U). inv U.
  assert (res3 = res). { destruct T as [-> | ->]; cbn in A; destruct r; try (inv A; reflexivity); apply obind_ret in A; destruct A as (d & _ & A); inv A; reflexivity. }
  subst res3. destruct T as [-> | ->]; cbn; lia.
Qed.

Lemma finalize_note : forall fuel B s w log v s1 w1 log1, clean s log ->
  finalize (noting E) fuel B s (w, log) = Ret (v, s1, (w1, log1)) -> 0 <= v -> all_zero log1.
Proof.
  intros fuel B s w log v s1 w1 log1 C U V. unfold finalize in U. cbv zeta in U. apply obind_ret in U. destruct U as ([[r2 s2] [w2 log2]] & A & U).
  apply obind_ret in U. destruct U as (r & D & U). inv U. apply finloop_note in A; [|destruct C; [left|right]; auto].
  destruct A as (_ & [A|A]); [exact A|]. apply (common_told _ _ _ _ D) in A. lia.
Qed.

Lemma process_result : forall fuel B s w log p v s1 w1 log1, all_zero log ->
  process (noting E) fuel B s (w, log) p = Ret (v, s1, (w1, log1)) -> 0 <= v -> all_zero log1.
Proof.
  intros fuel B s w log p v s1 w1 log1 C U V. unfold process in U. cbv zeta in U. apply obind_ret in U. destruct U as ([[r2 s2] [w2 log2]] & A & U).
  inv U. apply loop_note in A; [|left; exact C|left; exact C]. destruct A as (_ & [A|A]); [exact A|].
  codes. destruct A as [-> | ->]; cbn in V; lia.
Qed.

Lemma once_doc : forall B s w res s1 w1, process_once E B s w = Ret (res, s1, w1) -> -27 <= res <= 1.
Proof.
  intros B s w res s1 w1 U. apply once_code in U. unfold code_ok in U. codes. lia.
Qed.

Lemma loop_doc : forall fuel B res s w v s1 w1, -27 <= res <= 1 -> process_loop E fuel B res s w = Ret (v, s1, w1) -> -27 <= v <= 1.
Proof.
  induction fuel; intros B res s w v s1 w1 C U; cbn [process_loop] in U.
  - destruct (a_left s); [inv U; auto|]. destruct (res <? 0); [inv U; auto|discriminate].
  - destruct (a_left s); [inv U; auto|]. destruct (res <? 0); [inv U; auto|].
    apply obind_ret in U. destruct U as ([[r2 s2] w2] & A & U). apply once_doc in A. eauto.
Qed.

Lemma process_doc : forall fuel B s w p v s1 w1, process E fuel B s w p = Ret (v, s1, w1) -> -27 <= v <= 0.
Proof.
  intros fuel B s w p v s1 w1 U. unfold process in U. cbv zeta in U. apply obind_ret in U. destruct U as ([[r2 s2] w2] & A & U).
  inv U. apply loop_doc in A; [|lia]. destruct (Z.eqb_spec r2 1); cbn [orb]; [lia|]. destruct (_ =? _); lia.
Qed.

End Note.

Section Doc.
Context {WBits : WordBits}.
Hypothesis Hword : 32 <= word_bits.
Context {W : Type} (E : seq_env W).

(** The size is known to be small once the header has been read. *)
Definition sized (s : ap) : Prop :=
  match a_state s with
  | SInit => a_to_init s = true -> zok (a_size s)
  | SFailed => True
  | _ => 0 <= a_to_size s < 2 ^ 27
  end.

Lemma sized_same : forall s s1, a_state s1 = a_state s -> a_to_init s1 = a_to_init s -> a_size s1 = a_size s -> a_to_size s1 = a_to_size s -> sized s -> sized s1.
Proof using. intros s s1 A B C D. unfold sized. rewrite A, B, C, D. auto. Qed.

Lemma sized_st : forall s st, a_state s <> SInit -> a_state s <> SFailed -> st <> SInit -> sized s -> sized (set_st s st).
Proof using. intros s st A B C D. unfold sized in *. cbn [set_st a_state a_to_size]. destruct st; try congruence; auto; destruct (a_state s); try congruence; auto. Qed.

Lemma init_sized : forall s res s1, a_state s = SInit -> sized s -> process_init s = Ret (res, s1) -> res < 0 \/ sized s1.
Proof using Hword.
  intros s res s1 Es Hs U. unfold sized in Hs. rewrite Es in Hs. unfold process_init in U. destruct (a_to_init s) eqn:Ei.
  - specialize (Hs eq_refl). unfold process_init_to_size in U.
    destruct (uhs_app (a_left s) (a_size s) [] Hs) as [(z1 & P & Q & _)|[(v & z1 & l1 & used & P & Q & _)|(z1 & l1 & P & _)]]; rewrite P in U; cbn [obind] in U.
    + change (negb (1 =? 0)) with true in U. cbv iota in U. inv U. right. unfold sized. cbn [set_header a_state a_to_init a_size]. rewrite Es. auto.
    + change (negb (0 =? 0)) with false in U. cbv iota zeta in U. destruct (reader_init _ _); [|inv U; left; codes; lia].
      destruct (Z.ltb_spec v 0); [lia|]. inv U. right. unfold sized.
      cbn [set_st set_to_size set_reader set_header a_state a_to_size].
      assert (wrap v = v). { apply wrap_small. assert (2 ^ 27 < 2 ^ word_bits) by (apply Z.pow_lt_mono_r; lia). lia. }
      destruct (0 <? v); lia.
    + codes. cbn in U. inv U. left. lia.
  - unfold process_init_fixed_header in U. destruct (a_left s); [inv U; left; codes; lia|]. cbv zeta in U. destruct (negb _); inv U; [left; codes; lia|].
    right. unfold sized. cbn [set_header a_state a_to_init a_size]. rewrite Es. intros _ X. discriminate X.
Qed.

Lemma data_sized : forall B s w next res s1 w1, a_state s <> SInit -> a_state s <> SFailed -> next <> SInit -> sized s ->
  process_data E B s w next = Ret (res, s1, w1) -> sized s1.
Proof using.
  intros B s w next res s1 w1 A1 A2 A3 Hs U. unfold process_data in U. cbv zeta in U. destruct (_ =? 0); [inv U; apply sized_st; auto|].
  destruct (a_reader s); [|discriminate]. apply obind_ret in U. destruct U as ([[[r1 o] r2] l1] & A & C).
  destruct (negb _); [inv C; apply (sized_same s); auto|].
  apply obind_ret in C. destruct C as ([[[io data] s2] w2] & C & D).
  assert (K : a_state s2 = a_state s /\ a_to_init s2 = a_to_init s /\ a_size s2 = a_size s /\ a_to_size s2 = a_to_size s).
  { assert (D0 : next = SExtraSize \/ Ret (false, o, set_reader s (Some r2) (a_rsize s) l1, w) = Ret (io, data, s2, w2)) by (destruct next; auto).
    destruct D0 as [-> |D0]; [|inv D0; auto]. destruct (from_read E w (zlen o)) as [[rr from] w3]. destruct (negb _); [inv C; auto|].
    apply obind_ret in C. destruct C as (d & _ & C). inv C. auto. }
  destruct K as (K1 & K2 & K3 & K4). destruct io; [inv D; apply (sized_same s); auto|].
  destruct (to_write E w2 data). destruct (negb _); inv D; apply (sized_same s); auto.
Qed.

Lemma once_sized : forall B s w res s1 w1, sized s -> process_once E B s w = Ret (res, s1, w1) -> sized s1.
Proof using Hword.
  intros B s w res s1 w1 Hs U. unfold process_once in U. apply obind_ret in U. destruct U as ([[r0 s0] w0] & A & U).
  assert (K : a_state s <> SDone -> r0 < 0 \/ sized s0 -> sized s1).
  { intros Hd K. assert (V : Ret (r0, if r0 <? 0 then set_st s0 SFailed else s0, w0) = Ret (res, s1, w1)) by (destruct (a_state s); try exact U; congruence).
    inv V. destruct (Z.ltb_spec res 0); [exact I|]. destruct K; [lia|auto]. }
  destruct (a_state s) eqn:Es.
  - apply K; [discriminate|]. apply obind_ret in A. destruct A as ([r2 s2] & A & A2). inv A2. eapply init_sized; eauto.
  - apply K; [discriminate|]. right. apply obind_ret in A. destruct A as ([r2 s2] & A & A2). inv A2.
    unfold process_dfpatch_size in A. destruct (a_reader s); [|discriminate].
    apply obind_ret in A. destruct A as ([[[[r1 v] z1] r2] l1] & A & C). cbv zeta in C.
    assert (X : sized (set_reader s (Some r2) z1 l1)) by (apply (sized_same s); auto).
    destruct (negb _); [inv C; auto|]. destruct (0 <? v); inv C; [auto|]. apply sized_st; cbn [set_reader a_state]; try rewrite Es; try discriminate; auto.
  - apply K; [discriminate|]. right. apply obind_ret in A. destruct A as ([r2 s2] & A & A2). inv A2.
    unfold process_size in A. destruct (a_reader s); [|discriminate].
    apply obind_ret in A. destruct A as ([[[[r1 v] z1] r2] l1] & A & C). cbv zeta in C.
    destruct (negb _); inv C; [apply (sized_same s); auto|]. apply (sized_same (set_st s SDiffData)); auto. apply sized_st; try rewrite Es; try discriminate; auto.
  - apply K; [discriminate|]. right. eapply data_sized; [| | | |exact A]; try rewrite Es; try discriminate; auto.
  - apply K; [discriminate|]. right. apply obind_ret in A. destruct A as ([r2 s2] & A & A2). inv A2.
    unfold process_size in A. destruct (a_reader s); [|discriminate].
    apply obind_ret in A. destruct A as ([[[[r1 v] z1] r2] l1] & A & C). cbv zeta in C.
    destruct (negb _); inv C; [apply (sized_same s); auto|]. apply (sized_same (set_st s SExtraData)); auto. apply sized_st; try rewrite Es; try discriminate; auto.
  - apply K; [discriminate|]. right. eapply data_sized; [| | | |exact A]; try rewrite Es; try discriminate; auto.
  - apply K; [discriminate|]. right. unfold process_adjustment in A. destruct (a_reader s); [|discriminate].
    apply obind_ret in A. destruct A as ([[[[r1 v] z1] r2] l1] & A & C). cbv zeta in C.
    destruct (negb _); [inv C; apply (sized_same s); auto|]. destruct (from_seek E w v). destruct (negb _); [inv C; apply (sized_same s); auto|].
    apply obind_ret in C. destruct C as (fo & _ & C). inv C.
    eapply (sized_same (set_st s _)); [reflexivity|reflexivity|reflexivity|reflexivity|].
    apply sized_st; try rewrite Es; try discriminate; auto. destruct (_ =? _); discriminate.
  - inv A. inv U. auto.
  - apply K; [discriminate|]. left. inv A. codes. lia.
Qed.

Lemma loop_sized : forall fuel B res s w v s1 w1, sized s -> process_loop E fuel B res s w = Ret (v, s1, w1) -> sized s1.
Proof using Hword.
  induction fuel; intros B res s w v s1 w1 C U; cbn [process_loop] in U.
  - destruct (a_left s); [inv U; auto|]. destruct (res <? 0); [inv U; auto|discriminate].
  - destruct (a_left s); [inv U; auto|]. destruct (res <? 0); [inv U; auto|].
    apply obind_ret in U. destruct U as ([[r2 s2] w2] & A & U). apply once_sized in A; eauto.
Qed.

Lemma process_sized : forall fuel B s w p v s1 w1, sized s -> process E fuel B s w p = Ret (v, s1, w1) -> sized s1.
Proof using Hword.
  intros fuel B s w p v s1 w1 Hs U. unfold process in U. cbv zeta in U. apply obind_ret in U. destruct U as ([[r2 s2] w2] & A & U).
  inv U. eapply loop_sized; [|exact A]. apply (sized_same s); auto.
Qed.

Lemma finloop_sized : forall fuel B s w v s1 w1, sized s -> finalize_loop E fuel B s w = Ret (v, s1, w1) ->
  sized s1 /\ -27 <= v <= 1 /\ v <> 0 /\ (v = - E_ALREADY_DONE -> a_state s1 = SDone).
Proof using Hword.
  induction fuel; intros B s w v s1 w1 C U; cbn [finalize_loop] in U; [discriminate|].
  apply obind_ret in U. destruct U as ([[r2 s2] w2] & A & U). pose proof (once_sized _ _ _ _ _ _ C A) as Hs.
  destruct (Z.eqb_spec r2 0); [eauto|]. inv U. split; [auto|]. pose proof (once_doc _ _ _ _ _ _ _ A). split; [lia|]. split; [auto|].
  intros ->. apply once_code in A. destruct A as [(A & _ & -> & _)|[(_ & A & _)|(_ & _ & A & _)]]; [auto|discriminate|]. unfold code_ok in A. codes. lia.
Qed.

Lemma common_doc : forall res r ts v, -27 <= res <= 1 -> res <> 0 -> (res = - E_ALREADY_DONE -> 0 <= ts < 2 ^ 27) ->
  common_finalize res r ts = Ret v -> documented v.
Proof using.
  intros res r ts v R N T U. unfold common_finalize in U. cbv zeta in U. apply obind_ret in U. destruct U as (res3 & A & U). inv U.
  assert (D : forall rd d, destroy rd = Ret d -> d = 0 \/ d = -9).
  { intros [ps po|c|h] d D; cbn [destroy] in D; [destruct (po =? ps); inv D; codes; lia|inv D; auto|].
    destruct (hr_ptr h); [|inv D; auto]. destruct (hr_dec h); [|discriminate]. destruct (hs_finish _); inv D; codes; lia. }
  assert (K : -27 <= res3 <= -1 \/ res3 = 0 /\ res = - E_ALREADY_DONE).
  { revert A. destruct (Z.eqb_spec res 1) as [-> |N1]; [change (- E_NOT_ENOUGH_PATCH_DATA =? - E_ALREADY_DONE) with false; cbv iota; change (- E_NOT_ENOUGH_PATCH_DATA =? 0) with false; cbv iota|].
    - intros A. left. destruct r; [apply obind_ret in A; destruct A as (d & _ & A)|]; inv A; codes; lia.
    - destruct (Z.eqb_spec res (- E_ALREADY_DONE)) as [-> |N2].
      + intros A. destruct r; [apply obind_ret in A; destruct A as (d & D1 & A); apply D in D1; cbn in A|]; inv A; [|auto]. destruct D1 as [-> | ->]; [auto|left; lia].
      + destruct (Z.eqb_spec res 0); [congruence|]. intros A. left. destruct r; [apply obind_ret in A; destruct A as (d & _ & A)|]; inv A; lia. }
  unfold documented. destruct K as [K|(-> & ->)].
  - destruct (Z.eqb_spec res3 0); lia.
  - left. cbn [Z.eqb]. specialize (T eq_refl). unfold to_int. change (2 ^ 27) with 134217728 in T. rewrite Z.mod_small; lia.
Qed.

Lemma finalize_doc : forall fuel B s w v s1 w1, sized s -> finalize E fuel B s w = Ret (v, s1, w1) -> documented v.
Proof using Hword.
  intros fuel B s w v s1 w1 Hs U. unfold finalize in U. cbv zeta in U. apply obind_ret in U. destruct U as ([[r2 s2] w2] & A & U).
  apply obind_ret in U. destruct U as (r & D & U). inv U. apply finloop_sized in A; [|apply (sized_same s); auto].
  destruct A as (A1 & A2 & A3 & A4). eapply common_doc; [| | |exact D]; auto. intros X. apply A4 in X. unfold sized in A1. rewrite X in A1. auto.
Qed.

Lemma feed_doc : forall chunks fuel B s w v s1 w1, sized s -> feed E fuel B s w chunks = Ret (v, s1, w1) -> documented v.
Proof using Hword.
  induction chunks; intros fuel B s w v s1 w1 Hs U; cbn [feed] in U; [eapply finalize_doc; eauto|].
  apply obind_ret in U. destruct U as ([[r2 s2] w2] & A & U). pose proof (process_doc _ _ _ _ _ _ _ _ _ A). pose proof (process_sized _ _ _ _ _ _ _ _ Hs A).
  destruct (Z.eqb_spec r2 0); [eauto|]. apply obind_ret in U. destruct U as ([[r3 s3] w3] & D & U). inv U. right. lia.
Qed.

Lemma calls_doc : forall calls fuel s w rs s1 w1, sized s -> run_calls E fuel s w calls = Ret (rs, s1, w1) -> Forall documented rs.
Proof using Hword.
  induction calls as [|c calls IH]; intros fuel s w rs s1 w1 Hs U; cbn [run_calls] in U; [inv U; constructor|].
  apply obind_ret in U. destruct U as ([[r2 s2] w2] & A & U). apply obind_ret in U. destruct U as ([[r3 s3] w3] & D & U). inv U.
  assert (K : documented r2 /\ sized s2).
  { destruct c.
    - split; [|eapply process_sized; eauto]. apply process_doc in A. unfold documented. lia.
    - split; [eapply finalize_doc; eauto|]. unfold finalize in A. cbv zeta in A. apply obind_ret in A. destruct A as ([[r4 s4] w4] & A & U).
      apply obind_ret in U. destruct U as (r & _ & U). inv U. eapply finloop_sized in A; [apply A|]. apply (sized_same s); auto. }
  destruct K. constructor; eauto.
Qed.

Lemma sized_init : forall junk ps, sized (ap_init junk ps).
Proof using. intros junk ps. unfold sized. cbn. discriminate. Qed.

Lemma callbacks_loop_doc : forall fuel patch_read ps po s w v s1 w1, sized s -> callbacks_loop E fuel patch_read ps po s w = Ret (v, s1, w1) -> documented v.
Proof using Hword.
  induction fuel; intros patch_read ps po s w v s1 w1 Hs U; cbn [callbacks_loop] in U; (destruct (negb _); [eapply finalize_doc; eauto|]); [discriminate|].
  cbv zeta in U. destruct (patch_read w _) as [[rr buf] w2]. destruct (negb _).
  - apply obind_ret in U. destruct U as ([[r3 s3] w3] & D & U). inv U. right. codes. lia.
  - destruct (negb _); [discriminate|]. apply obind_ret in U. destruct U as ([[r2 s2] w3] & A & U). pose proof (process_doc _ _ _ _ _ _ _ _ _ A). pose proof (process_sized _ _ _ _ _ _ _ _ Hs A).
    destruct (Z.eqb_spec r2 0); [eauto|]. apply obind_ret in U. destruct U as ([[r3 s3] w4] & D & U). inv U. right. lia.
Qed.

Theorem seq_results : forall fuel junk ps w calls rs s1 w1, run_calls E fuel (ap_init junk ps) w calls = Ret (rs, s1, w1) -> Forall documented rs.
Proof using Hword. intros. eapply calls_doc; eauto. apply sized_init. Qed.

Theorem seq_callbacks_results : forall fuel junk patch_read ps w v s1 w1, apply_patch_callbacks E fuel junk patch_read ps w = Ret (v, s1, w1) -> documented v.
Proof using Hword. intros. eapply callbacks_loop_doc; eauto. apply sized_init. Qed.

End Doc.

Section Masked.
Context `{WordBits}.
Context {W : Type} (E : seq_env W).

Lemma feed_note : forall chunks fuel B s w log v s1 w1 log1, all_zero log ->
  feed (noting E) fuel B s (w, log) chunks = Ret (v, s1, (w1, log1)) -> 0 <= v -> all_zero log1.
Proof.
  induction chunks; intros fuel B s w log v s1 w1 log1 C U V; cbn [feed] in U.
  - eapply finalize_note; eauto. left; auto.
  - apply obind_ret in U. destruct U as ([[r2 s2] [w2 log2]] & A & U).
    pose proof (process_result _ _ _ _ _ _ _ _ _ _ _ C A) as P. pose proof (process_doc _ _ _ _ _ _ _ _ _ A). destruct (Z.eqb_spec r2 0) as [->|Hr].
    + eapply IHchunks; [apply P; lia|exact U|exact V].
    + apply obind_ret in U. destruct U as ([[r3 s3] [w3 log3]] & D & U). inv U. lia.
Qed.

Lemma callbacks_note : forall patch_read ps fuel po s w log v s1 w1 log1, all_zero log ->
  callbacks_loop (noting E) fuel (noted patch_read) ps po s (w, log) = Ret (v, s1, (w1, log1)) -> 0 <= v -> all_zero log1.
Proof.
  induction fuel; intros po s w log v s1 w1 log1 C U V; cbn [callbacks_loop] in U; (destruct (negb _); [eapply finalize_note; eauto; left; auto|]); [discriminate|].
  cbv zeta in U. unfold noted at 1 in U. cbn [fst snd] in U. destruct (patch_read w _) as [[rr buf] w2]. destruct (Z.eqb_spec rr 0) as [-> |Hr]; cbn [negb] in U.
  - destruct (negb _); [discriminate|]. apply obind_ret in U. destruct U as ([[r2 s2] [w3 log3]] & A & U).
    pose proof (process_result _ _ _ _ _ _ _ _ _ _ _ (zero_app _ C) A) as P. pose proof (process_doc _ _ _ _ _ _ _ _ _ A). destruct (Z.eqb_spec r2 0) as [->|Hr].
    + eapply IHfuel; [apply P; lia|exact U|exact V].
    + apply obind_ret in U. destruct U as ([[r3 s3] [w4 log4]] & D & U). inv U. lia.
  - apply obind_ret in U. destruct U as ([[r3 s3] [w3 log3]] & D & U). inv U. codes. lia.
Qed.

(** Over any sequence of calls: as soon as a callback fails, process() and finalize()
    report errors. *)
Theorem seq_masked : forall fuel junk ps w chunks v s1 w1 log,
  feed (noting E) fuel 128 (ap_init junk ps) (w, []) chunks = Ret (v, s1, (w1, log)) -> 0 <= v -> all_zero log.
Proof. intros. eapply feed_note; eauto. constructor. Qed.

Theorem seq_callbacks_masked : forall fuel junk patch_read ps w v s1 w1 log,
  apply_patch_callbacks (noting E) fuel junk (noted patch_read) ps (w, []) = Ret (v, s1, (w1, log)) -> 0 <= v -> all_zero log.
Proof. intros. eapply callbacks_note; eauto. constructor. Qed.

End Masked.
