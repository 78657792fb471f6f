(** Results of the in-place applier: no failing callback is masked, and every result
    is documented, if the codes of the memory callbacks are. *)

From Coq Require Import ZArith List Bool Lia ZifyBool ZifyNat ZifyN.
From Verif Require Import Prelude Lib Heatshrink CReader ReaderProofs SizeProofs CSeq Spec SeqSim SeqRun SeqTerm SeqSpec SeqInv CInPlace CodesSpec CodesSeq.
Import ListNotations.
Open Scope Z_scope.

Section Ip.
Context {WBits : WordBits}.
Context {W : Type} (E : ip_env W).

(** [Z0] holds of the world until a callback fails; [P] are the codes of the memory
    callbacks. *)
Variable Z0 : W -> Prop.
Variable P : Z -> Prop.

Definition callbacks_good : Prop :=
  (forall r, P r -> r <= 0 /\ r <> - E_ALREADY_DONE) /\
  (forall w a n r b w1, mem_read E w a n = (r, b, w1) -> P r /\ (Z0 w -> r = 0 -> Z0 w1)) /\
  (forall w a d r w1, mem_write E w a d = (r, w1) -> P r /\ (Z0 w -> r = 0 -> Z0 w1)) /\
  (forall w a n r w1, mem_erase E w a n = (r, w1) -> P r /\ (Z0 w -> r = 0 -> Z0 w1)) /\
  (forall f w n r w1, step_set E = Some f -> f w n = (r, w1) -> Z0 w -> r = 0 -> Z0 w1) /\
  (forall f w n r w1, step_get E = Some f -> f w = (r, n, w1) -> Z0 w -> r = 0 -> Z0 w1).
Hypothesis HG : callbacks_good.

Lemma HP : forall r, P r -> r <= 0 /\ r <> - E_ALREADY_DONE.
Proof. apply HG. Qed.
Lemma Hread : forall w a n r b w1, mem_read E w a n = (r, b, w1) -> P r /\ (Z0 w -> r = 0 -> Z0 w1).
Proof. apply HG. Qed.
Lemma Hwrite : forall w a d r w1, mem_write E w a d = (r, w1) -> P r /\ (Z0 w -> r = 0 -> Z0 w1).
Proof. apply HG. Qed.
Lemma Herase : forall w a n r w1, mem_erase E w a n = (r, w1) -> P r /\ (Z0 w -> r = 0 -> Z0 w1).
Proof. apply HG. Qed.
Lemma Hset : forall f w n r w1, step_set E = Some f -> f w n = (r, w1) -> Z0 w -> r = 0 -> Z0 w1.
Proof. apply HG. Qed.
Lemma Hget : forall f w n r w1, step_get E = Some f -> f w = (r, n, w1) -> Z0 w -> r = 0 -> Z0 w1.
Proof. apply HG. Qed.

(** A code that comes from a callback. *)
Definition cb (r : Z) : Prop := r = 0 \/ r = - E_STEP_SET_FAILED \/ r = - E_STEP_GET_FAILED \/ P r.
Definition good (w : W) (r : Z) (w1 : W) : Prop := cb r /\ (Z0 w -> r = 0 -> Z0 w1).

Lemma cb_neg : forall r, cb r -> r <= 0 /\ r <> - E_ALREADY_DONE.
Proof. intros r [->|[->|[->|H]]]; [codes; lia|codes; lia|codes; lia|apply HP; auto]. Qed.

Lemma completed_good : forall step w r b w1, is_step_completed E step w = (r, b, w1) -> good w r w1.
Proof.
  intros step w r b w1 U. unfold is_step_completed in U. destruct (step_get E) as [f|] eqn:Ef; [|inv U; split; [left; auto|auto]].
  destruct (f w) as [[r0 n] w2] eqn:F. destruct (Z.eqb_spec r0 0) as [-> |N]; cbn [negb] in U; inv U.
  - split; [left; auto|]. intros. eapply Hget; eauto.
  - split; [right; right; left; auto|]. codes. lia.
Qed.

Lemma good_trans : forall w r w1 r2 w2, good w r w1 -> r = 0 -> good w1 r2 w2 -> good w r2 w2.
Proof. intros w r w1 r2 w2 (A & B) -> (C & D). split; auto. Qed.

Lemma read_good : forall step w a n r b w1, ip_mem_read E step w a n = (r, b, w1) -> good w r w1.
Proof.
  intros step w a n r b w1 U. unfold ip_mem_read in U. destruct (is_step_completed E step w) as [[r0 b0] w0] eqn:C. apply completed_good in C.
  destruct (Z.eqb_spec r0 0) as [-> |N]; cbn [negb] in U; [|inv U; auto]. destruct b0; [inv U; auto|].
  apply Hread in U. eapply good_trans; eauto. split; [right; right; right|]; apply U.
Qed.

Lemma write_good : forall step w a d r w1, ip_mem_write E step w a d = (r, w1) -> good w r w1.
Proof.
  intros step w a n r w1 U. unfold ip_mem_write in U. destruct (is_step_completed E step w) as [[r0 b0] w0] eqn:C. apply completed_good in C.
  destruct (Z.eqb_spec r0 0) as [-> |N]; cbn [negb] in U; [|inv U; auto]. destruct b0; [inv U; auto|].
  apply Hwrite in U. eapply good_trans; eauto. split; [right; right; right|]; apply U.
Qed.

Lemma erase_good : forall step w a n r w1, ip_mem_erase E step w a n = (r, w1) -> good w r w1.
Proof.
  intros step w a n r w1 U. unfold ip_mem_erase in U. destruct (is_step_completed E step w) as [[r0 b0] w0] eqn:C. apply completed_good in C.
  destruct (Z.eqb_spec r0 0) as [-> |N]; cbn [negb] in U; [|inv U; auto]. destruct b0; [inv U; auto|].
  apply Herase in U. eapply good_trans; eauto. split; [right; right; right|]; apply U.
Qed.

Lemma good_refl : forall w, good w 0 w.
Proof. intros w. split; [left|]; auto. Qed.

Lemma set_good : forall f w n r w1, step_set E = Some f -> f w n = (r, w1) -> good w (if negb (r =? 0) then - E_STEP_SET_FAILED else r) w1.
Proof.
  intros f w n r w1 Ef U. destruct (Z.eqb_spec r 0) as [-> |N]; cbn [negb].
  - split; [left; auto|]. intros. eapply Hset; eauto.
  - split; [right; left; auto|]. codes. lia.
Qed.

Lemma next_good : forall step w r st w1, next_step E step w = Ret (r, st, w1) -> good w r w1.
Proof.
  intros step w r st w1 U. unfold next_step in U. destruct (step_set E) as [f|] eqn:Ef.
  - destruct (is_step_completed E step w) as [[r0 b0] w0] eqn:C. apply completed_good in C. destruct (Z.eqb_spec r0 0) as [-> |N]; cbn [negb] in U; [|inv U; auto].
    destruct b0.
    + apply obind_ret in U. destruct U as (? & _ & U). inv U. auto.
    + destruct (f w0 step) as [r2 w2] eqn:F. apply obind_ret in U. destruct U as (? & _ & U). inv U. eapply good_trans; eauto. eapply set_good; eauto.
  - apply obind_ret in U. destruct U as (? & _ & U). inv U. apply good_refl.
Qed.

Lemma steps_good : forall w r w1, all_steps_completed E w = (r, w1) -> good w r w1.
Proof.
  intros w r w1 U. unfold all_steps_completed in U. destruct (step_set E) as [f|] eqn:Ef; [|inv U; apply good_refl].
  destruct (f w 0) as [r5 w5] eqn:F. inv U. eapply set_good; eauto.
Qed.

Lemma copy_good : forall f step w rd wr sg off r w1, copy_loop E f step w rd wr sg off = Ret (r, w1) -> good w r w1.
Proof.
  induction f; intros step w rd wr sg off r w1 U; cbn [copy_loop] in U; destruct (negb (off <? sg)); try discriminate; try (inv U; apply good_refl).
  cbv zeta in U. destruct (ip_mem_read E step w _ _) as [[r0 b] w0] eqn:A. apply read_good in A. destruct (Z.eqb_spec r0 0) as [-> |N]; cbn [negb] in U; [|inv U; auto].
  destruct (negb _); [discriminate|].
  destruct (ip_mem_write E step w0 _ _) as [r2 w2] eqn:B. apply write_good in B. destruct (Z.eqb_spec r2 0) as [-> |N]; cbn [negb] in U; [|inv U; eapply good_trans; eauto].
  apply IHf in U. eapply good_trans; [exact A|auto|]. eapply good_trans; [exact B|auto|]. exact U.
Qed.

Lemma shift_good : forall n step w rd wr sg r st w1, shift_loop E n step w rd wr sg = Ret (r, st, w1) -> good w r w1.
Proof.
  induction n; intros step w rd wr sg r st w1 U; cbn [shift_loop] in U; [inv U; apply good_refl|].
  destruct (ip_mem_erase E step w _ _) as [r0 w0] eqn:A. apply erase_good in A. destruct (Z.eqb_spec r0 0) as [-> |N]; cbn [negb] in U; [|inv U; auto].
  apply obind_ret in U. destruct U as ([r2 w2] & B & U). apply copy_good in B. pose proof (good_trans _ _ _ _ _ A eq_refl B) as G.
  destruct (Z.eqb_spec r2 0) as [-> |N]; cbn [negb] in U; [|inv U; auto].
  apply obind_ret in U. destruct U as ([[r3 st3] w3] & C & U). apply next_good in C. pose proof (good_trans _ _ _ _ _ G eq_refl C) as G2.
  destruct (Z.eqb_spec r3 0) as [-> |N]; cbn [negb] in U; [|inv U; auto]. apply IHn in U. eapply good_trans; eauto.
Qed.

(** The size is known to be small once the header has been read. *)
Definition isized (s : ip) : Prop :=
  match i_state s with
  | SInit => i_init s <> IFixed -> zok (i_size s)
  | SFailed => True
  | _ => 0 <= i_to_size s < 2 ^ 27
  end.

(** What one step does. *)
Definition istep (s : ip) (w : W) (res : Z) (s1 : ip) (w1 : W) : Prop :=
  (code_ok res \/ cb res) /\ (Z0 w -> Z0 w1 \/ (res <> 0 /\ cb res) \/ res = - E_IO_FAILED) /\
  (32 <= word_bits -> isized s -> res < 0 \/ isized s1).

Lemma code0 : code_ok 0.
Proof. left. reflexivity. Qed.
Hint Resolve code0 : core.

Lemma isized_same : forall s s1, i_state s1 = i_state s -> i_init s1 = i_init s -> i_size s1 = i_size s -> i_to_size s1 = i_to_size s -> isized s -> isized s1.
Proof. intros s s1 A B C D. unfold isized. rewrite A, B, C, D. auto. Qed.

Lemma isized_st : forall s s1, i_state s <> SInit -> i_state s <> SFailed -> i_state s1 <> SInit -> i_to_size s1 = i_to_size s -> isized s -> isized s1.
Proof. intros s s1 A B C D. unfold isized. rewrite D. destruct (i_state s1); try congruence; auto; destruct (i_state s); try congruence; auto. Qed.

Lemma istep_quiet : forall s w res s1, code_ok res -> (32 <= word_bits -> isized s -> res < 0 \/ isized s1) -> istep s w res s1 w.
Proof. intros s w res s1 A B. split; [auto|]. split; [auto|auto]. Qed.

Lemma istep_good : forall s w res s1 w1, good w res w1 -> (isized s -> isized s1) -> istep s w res s1 w1.
Proof.
  intros s w res s1 w1 (A & B) C. split; [auto|]. split; [|auto]. intros Y. destruct (Z.eq_dec res 0); [left; auto|right; left; auto].
Qed.

Lemma init_size_istep : forall s w next store res s1, i_state s = SInit -> i_init s <> IFixed ->
  (forall t v, i_state (store t v) = i_state t /\ i_size (store t v) = i_size t) ->
  ip_init_size s next store = Ret (res, s1) -> istep s w res s1 w.
Proof.
  intros s w next store res s1 Es Ei Hst U. unfold ip_init_size in U. apply obind_ret in U. destruct U as ([[[r v] z1] l1] & A & U).
  pose proof (uhs_code _ _ _ _ _ _ A) as Hc.
  destruct (Z.eqb_spec r 0) as [-> |N]; cbn [negb] in U; inv U; apply istep_quiet; auto.
  - intros _ _. right. unfold isized. destruct (Hst (iset_header s next (i_compression s) (z_first z1) l1) (wrap v)) as (S1 & S2). rewrite S1, S2. cbn. rewrite Es. intros _ X. discriminate X.
  - intros Hw Hs. unfold isized in Hs. rewrite Es in Hs. specialize (Hs Ei).
    destruct (uhs_app (i_left s) (i_size s) [] Hs) as [(z2 & P1 & Q & _)|[(v' & z2 & l2 & used & P1 & Q & _)|(z2 & l2 & P1 & _)]]; rewrite P1 in A; inv A; [|congruence|left; codes; lia].
    right. unfold isized. cbn. rewrite Es. auto.
Qed.

Lemma to_size_istep : forall s w res s1 w1, i_state s = SInit -> i_init s <> IFixed ->
  ip_init_to_size E s w = Ret (res, s1, w1) -> istep s w res s1 w1.
Proof.
  intros s w res s1 w1 Es Ei U. unfold ip_init_to_size in U. apply obind_ret in U. destruct U as ([[[r v] z1] l1] & A & U). cbv zeta in U.
  pose proof (uhs_code _ _ _ _ _ _ A) as Hc.
  assert (Hz : isized s -> zok (i_size s)) by (unfold isized; rewrite Es; auto).
  destruct (Z.eqb_spec r 0) as [-> |N]; cbn [negb] in U.
  2:{ inv U. apply istep_quiet; [auto|]. intros Hw Hs. destruct (uhs_app (i_left s) (i_size s) [] (Hz Hs)) as [(z2 & P1 & Q & _)|[(v' & z2 & l2 & used & P1 & Q & _)|(z2 & l2 & P1 & _)]]; rewrite P1 in A; inv A; [|congruence|left; codes; lia].
      right. unfold isized. cbn. rewrite Es. auto. }
  assert (Hv : 32 <= word_bits -> isized s -> 0 <= wrap v < 2 ^ 27).
  { intros Hw Hs. destruct (uhs_app (i_left s) (i_size s) [] (Hz Hs)) as [(z2 & P1 & Q & _)|[(v' & z2 & l2 & used & P1 & Q & _)|(z2 & l2 & P1 & _)]]; rewrite P1 in A; inv A.
    rewrite wrap_small; [lia|]. assert (2 ^ 27 < 2 ^ word_bits) by (apply Z.pow_lt_mono_r; lia). lia. }
  destruct (reader_init _ _); [|inv U; apply istep_quiet; [unfold code_ok; codes; lia|intros; left; codes; lia]].
  destruct (v <? 0); [inv U; apply istep_quiet; [unfold code_ok; codes; lia|intros; left; codes; lia]|].
  destruct (0 <? v).
  - apply obind_ret in U. destruct U as ([[r2 st2] w2] & B & U). unfold shift_memory in B. destruct (_ =? 0); [discriminate|]. cbv zeta in B. apply shift_good in B.
    destruct (Z.eqb_spec r2 0) as [-> |N]; cbn [negb] in U; inv U.
    + destruct B as (B1 & B2). split; [auto|]. split; [intros; left; auto|]. intros Hw Hs. right. unfold isized. cbn. auto.
    + pose proof (cb_neg _ (proj1 B)). split; [right; apply B|]. split; [intros; right; left; split; [auto|apply B]|]. intros. left. lia.
  - inv U. apply istep_quiet; [auto|]. intros Hw Hs. right. unfold isized. cbn. auto.
Qed.

Lemma init_istep : forall s w res s1 w1, i_state s = SInit -> ip_process_init E s w = Ret (res, s1, w1) -> istep s w res s1 w1.
Proof.
  intros s w res s1 w1 Es U. unfold ip_process_init in U. destruct (i_init s) eqn:Ei.
  - apply obind_ret in U. destruct U as ([r2 s2] & A & U). inv U. unfold ip_init_fixed_header in A.
    destruct (i_left s); [inv A; apply istep_quiet; [unfold code_ok; codes; lia|intros; left; codes; lia]|]. cbv zeta in A.
    destruct (negb _); inv A; (apply istep_quiet; [unfold code_ok; codes; lia|]); [intros; left; codes; lia|]. intros _ _. right. unfold isized. cbn. rewrite Es. intros _ X. discriminate X.
  - apply obind_ret in U. destruct U as ([r2 s2] & A & U). inv U. eapply init_size_istep; eauto; [congruence|]. intros; cbn; auto.
  - apply obind_ret in U. destruct U as ([r2 s2] & A & U). inv U. eapply init_size_istep; eauto; [congruence|]. intros; cbn; auto.
  - apply obind_ret in U. destruct U as ([r2 s2] & A & U). inv U. eapply init_size_istep; eauto; [congruence|]. intros; cbn; auto.
  - apply obind_ret in U. destruct U as ([r2 s2] & A & U). inv U. eapply init_size_istep; eauto; [congruence|]. intros; cbn; auto.
  - eapply to_size_istep; eauto. congruence.
Qed.

Lemma dfpatch_istep : forall s w res s1 w1, i_state s = SDfpatchSize -> ip_process_dfpatch_size E s w = Ret (res, s1, w1) -> istep s w res s1 w1.
Proof.
  intros s w res s1 w1 Es U. unfold ip_process_dfpatch_size in U. destruct (i_reader s) as [r|]; [|discriminate].
  apply obind_ret in U. destruct U as ([[[[r1 v] z1] r2] l1] & A & U). unfold unpack_size in A. apply unpack_code in A. cbv zeta in U.
  assert (X : isized s -> isized (iset_reader s (Some r2) z1 l1)) by (apply isized_same; auto).
  destruct (negb _); [inv U; apply istep_quiet; auto|]. destruct (0 <? v); [inv U; apply istep_quiet; auto; unfold code_ok; codes; lia|].
  destruct (ip_mem_erase _ _ _ _ _) as [r4 w4] eqn:B. inv U. apply erase_good in B. apply istep_good; [exact B|].
  apply isized_st; cbn; try rewrite Es; try discriminate; auto.
Qed.

Lemma size_istep : forall s w next res s1, i_state s <> SInit -> i_state s <> SFailed -> next <> SInit ->
  ip_process_size s next = Ret (res, s1) -> istep s w res s1 w.
Proof.
  intros s w next res s1 A1 A2 A3 U. unfold ip_process_size in U. destruct (i_reader s) as [r|]; [|discriminate].
  apply obind_ret in U. destruct U as ([[[[r1 v] z1] r2] l1] & A & U). cbv zeta in U.
  assert (C : code_ok r1).
  { unfold common_process_size in A. apply obind_ret in A. destruct A as ([[[[r1' v'] z1'] r2'] l1'] & A & D). unfold unpack_size in A. apply unpack_code in A.
    destruct (negb _); [inv D; auto|]. destruct (_ <? _); inv D; unfold code_ok; codes; lia. }
  destruct (negb _); inv U; apply istep_quiet; auto; intros _ Hs; right; apply (isized_st s); cbn; auto.
Qed.

Lemma data_istep : forall s w next res s1 w1, i_state s <> SInit -> i_state s <> SFailed -> next <> SInit ->
  ip_process_data E s w next = Ret (res, s1, w1) -> istep s w res s1 w1.
Proof.
  intros s w next res s1 w1 A1 A2 A3 U. unfold ip_process_data in U. cbv zeta in U.
  destruct (_ =? 0); [inv U; apply istep_quiet; auto; intros _ Hs; right; apply (isized_st s); auto|].
  destruct (i_reader s) as [r|]; [|discriminate]. apply obind_ret in U. destruct U as ([[[r1 o] r2] l1] & A & U). apply decompress_code in A.
  destruct (negb _); [inv U; apply istep_quiet; auto; intros _ Hs; right; apply (isized_same s); auto|].
  apply obind_ret in U. destruct U as ([[[io data] s2] w2] & C & D).
  assert (K : (i_state s2 = i_state s /\ i_init s2 = i_init s /\ i_size s2 = i_size s /\ i_to_size s2 = i_to_size s) /\ (io = false -> Z0 w -> Z0 w2)).
  { assert (D0 : next = SExtraSize \/ Ret (false, o, iset_reader s (Some r2) (i_rsize s) l1, w) = Ret (io, data, s2, w2)) by (destruct next; auto).
    destruct D0 as [-> |D0]; [|inv D0; auto]. destruct (ip_mem_read E _ w _ (zlen o)) as [[rr from] w3] eqn:R. apply read_good in R. destruct R as (R1 & R2).
    destruct (Z.eqb_spec rr 0); cbn [negb] in C; [|inv C; split; [auto|discriminate]].
    apply obind_ret in C. destruct C as (fo & _ & C). apply obind_ret in C. destruct C as (d & _ & C). inv C. split; [auto|]. auto. }
  destruct K as ((K1 & K2 & K3 & K4) & K5).
  destruct io; [inv D; split; [left; unfold code_ok; codes; lia|]; split; [auto|intros; left; codes; lia]|]. specialize (K5 eq_refl).
  destruct (ip_mem_write E _ w2 _ data) as [rw w3] eqn:R. apply write_good in R. destruct R as (R1 & R2).
  destruct (Z.eqb_spec rw 0); cbn [negb] in D; inv D.
  - split; [auto|]. split; [auto|]. intros _ Hs. right. apply (isized_same s); auto.
  - split; [left; unfold code_ok; codes; lia|]. split; [auto|]. intros. left. codes; lia.
Qed.

Lemma adjust_istep : forall s w res s1 w1, i_state s = SAdjustment -> ip_process_adjustment E s w = Ret (res, s1, w1) -> istep s w res s1 w1.
Proof.
  intros s w res s1 w1 Es U. unfold ip_process_adjustment in U. destruct (i_reader s) as [r|]; [|discriminate].
  apply obind_ret in U. destruct U as ([[[[r1 v] z1] r2] l1] & A & U). unfold unpack_size in A. apply unpack_code in A. cbv zeta in U.
  destruct (negb _); [inv U; apply istep_quiet; auto; intros _ Hs; right; apply (isized_same s); auto|].
  assert (S : forall s2, i_state s2 <> SInit -> i_to_size s2 = i_to_size s -> isized s -> isized s2) by (intros s2 B1 B2 B3; apply (isized_st s); try rewrite Es; try discriminate; auto).
  destruct (_ =? _).
  - destruct (all_steps_completed E w) as [r5 w5] eqn:B. apply steps_good in B. inv U. apply istep_good; [auto|]. apply S; cbn; [discriminate|auto].
  - destruct (_ =? _).
    + apply obind_ret in U. destruct U as ([[r5 st5] w5] & B & U). apply next_good in B. inv U. apply istep_good; [auto|]. apply S; cbn; [discriminate|auto].
    + apply obind_ret in U. destruct U as (fo & _ & U). inv U. apply istep_quiet; auto. intros _ Hs. right. revert Hs. apply S; cbn; [discriminate|auto].
Qed.

Lemma ionce_istep : forall s w res s1 w1, ip_process_once E s w = Ret (res, s1, w1) ->
  (i_state s = SDone /\ res = - E_ALREADY_DONE /\ s1 = s /\ w1 = w) \/
  (i_state s = SFailed /\ res = - E_ALREADY_FAILED /\ i_state s1 = SFailed /\ w1 = w) \/
  (i_state s <> SDone /\ i_state s <> SFailed /\ (code_ok res \/ cb res) /\ (res < 0 -> i_state s1 = SFailed) /\
   (Z0 w -> Z0 w1 \/ (res <> 0 /\ cb res) \/ res = - E_IO_FAILED) /\
   (32 <= word_bits -> isized s -> isized s1)).
Proof.
  intros s w res s1 w1 U. unfold ip_process_once in U. apply obind_ret in U. destruct U as ([[r0 s0] w0] & A & U).
  destruct (i_state s) eqn:Es; [| | | | | | |inv A; inv U; auto|inv A; inv U; right; left; auto]; right; right.
  all: split; [discriminate|]; split; [discriminate|].
  all: assert (K : istep s w r0 s0 w0).
  all: try (eapply init_istep; eauto; fail).
  all: try (eapply dfpatch_istep; eauto; fail).
  all: try (eapply adjust_istep; eauto; fail).
  all: try (apply obind_ret in A; destruct A as ([r2 s2] & A & A2); inv A2; eapply size_istep; [| | |exact A]; try rewrite Es; discriminate).
  all: try (eapply data_istep; [| | |exact A]; try rewrite Es; discriminate).
  all: inv U; destruct K as (K1 & K2 & K3); split; [exact K1|]; split; [intros X; destruct (Z.ltb_spec res 0); [reflexivity|lia]|]; split; [exact K2|].
  all: intros Hw Hs; destruct (Z.ltb_spec res 0); [exact I|]; destruct (K3 Hw Hs); [lia|auto].
Qed.

(** A failed callback has been noticed. *)
Definition iclean (s : ip) (w : W) : Prop := Z0 w \/ i_state s = SFailed.
Definition itold (res : Z) (w : W) : Prop := Z0 w \/ (res < 0 /\ res <> - E_ALREADY_DONE).

Lemma ionce_note : forall s w res s1 w1, iclean s w -> ip_process_once E s w = Ret (res, s1, w1) -> iclean s1 w1 /\ itold res w1.
Proof.
  intros s w res s1 w1 C U. apply ionce_istep in U. unfold iclean, itold in *.
  destruct U as [(A & B & -> & ->)|[(A & B & D & ->)|(A & B & D & F & G & _)]].
  - destruct C; [tauto|congruence].
  - split; [auto|]. codes. lia.
  - destruct C as [C|C]; [|congruence]. specialize (G C). destruct G as [G|[(G1 & G)| ->]]; [auto| |].
    + apply cb_neg in G. split; [right; apply F; lia|right; lia].
    + split; [right; apply F; codes; lia|]. codes. lia.
Qed.

Lemma iloop_note : forall fuel res s w v s1 w1, iclean s w -> itold res w -> ip_process_loop E fuel res s w = Ret (v, s1, w1) -> iclean s1 w1 /\ itold v w1.
Proof.
  induction fuel; intros res s w v s1 w1 C T U; cbn [ip_process_loop] in U.
  - destruct (i_left s); [inv U; auto|]. destruct (res <? 0); [inv U; auto|discriminate].
  - destruct (i_left s); [inv U; auto|]. destruct (res <? 0); [inv U; auto|].
    apply obind_ret in U. destruct U as ([[r2 s2] w2] & A & U).
    destruct (ionce_note _ _ _ _ _ C A). eapply IHfuel; eauto.
Qed.

Lemma ifinloop_note : forall fuel s w v s1 w1, iclean s w -> ip_finalize_loop E fuel s w = Ret (v, s1, w1) -> iclean s1 w1 /\ itold v w1.
Proof.
  induction fuel; intros s w v s1 w1 C U; cbn [ip_finalize_loop] in U; [discriminate|].
  apply obind_ret in U. destruct U as ([[r2 s2] w2] & A & U).
  destruct (ionce_note _ _ _ _ _ C A). destruct (r2 =? 0); [eauto|]. inv U. auto.
Qed.

Lemma icommon_told : forall res r ts v, common_finalize res r ts = Ret v -> res < 0 -> res <> - E_ALREADY_DONE -> v < 0.
Proof.
  intros res r ts v U T N. unfold common_finalize in U. cbv zeta in U.
  destruct (Z.eqb_spec res 1); [lia|]. destruct (Z.eqb_spec res (- E_ALREADY_DONE)); [congruence|]. destruct (Z.eqb_spec res 0); [lia|].
  apply obind_ret in U. destruct U as (res3 & A & U). inv U.
  assert (res3 = res) by (destruct r; [apply obind_ret in A; destruct A as (d & _ & A)|]; inv A; reflexivity). subst res3. destruct (Z.eqb_spec res 0); lia.
Qed.

Lemma ifinalize_note : forall fuel s w v s1 w1, iclean s w -> ip_finalize E fuel s w = Ret (v, s1, w1) -> 0 <= v -> Z0 w1.
Proof.
  intros fuel s w v s1 w1 C U V. unfold ip_finalize in U. apply obind_ret in U. destruct U as ([[r2 s2] w2] & A & U).
  apply obind_ret in U. destruct U as (r & D & U). inv U. apply ifinloop_note in A; [|exact C].
  destruct A as (_ & [A|(A1 & A2)]); [exact A|]. apply (icommon_told _ _ _ _ D) in A1; [lia|auto].
Qed.

(** Codes of one step and of process(). *)
Lemma ionce_code : forall s w res s1 w1, ip_process_once E s w = Ret (res, s1, w1) -> res <= 1.
Proof.
  intros s w res s1 w1 U. apply ionce_istep in U. destruct U as [(_ & -> & _)|[(_ & -> & _)|(_ & _ & [A|A] & _)]]; [codes; lia|codes; lia|unfold code_ok in A; lia|].
  apply cb_neg in A. lia.
Qed.

Lemma iprocess_result : forall fuel s w p v s1 w1, Z0 w -> ip_process E fuel s w p = Ret (v, s1, w1) -> v <= 0 /\ (0 <= v -> Z0 w1).
Proof.
  intros fuel s w p v s1 w1 C U. unfold ip_process in U. apply obind_ret in U. destruct U as ([[r2 s2] w2] & A & U).
  assert (L : forall fuel res s w v s1 w1, res <= 1 -> ip_process_loop E fuel res s w = Ret (v, s1, w1) -> v <= 1).
  { clear - HG. induction fuel; intros res s w v s1 w1 C U; cbn [ip_process_loop] in U.
    - destruct (i_left s); [inv U; auto|]. destruct (res <? 0); [inv U; auto|discriminate].
    - destruct (i_left s); [inv U; auto|]. destruct (res <? 0); [inv U; auto|].
      apply obind_ret in U. destruct U as ([[r2 s2] w2] & A & U). apply ionce_code in A. eauto. }
  assert (Hr : r2 <= 1) by (eapply L; [|exact A]; lia). inv U.
  apply iloop_note in A; [|left; exact C|left; exact C]. split.
  - destruct (Z.eqb_spec r2 1); cbn [orb]; [lia|]. destruct (_ =? _); lia.
  - destruct A as (_ & [A|(A1 & A2)]); [auto|]. destruct (Z.eqb_spec r2 1); cbn [orb]; [lia|]. change (- E_ALREADY_DONE) with (-11) in *. destruct (Z.eqb_spec r2 (-11)); [congruence|]. intros X. lia.
Qed.

Lemma ifeed_note : forall chunks fuel s w v s1 w1, Z0 w -> ip_feed E fuel s w chunks = Ret (v, s1, w1) -> 0 <= v -> Z0 w1.
Proof.
  induction chunks; intros fuel s w v s1 w1 C U V; cbn [ip_feed] in U; [eapply ifinalize_note; eauto; left; auto|].
  apply obind_ret in U. destruct U as ([[r2 s2] w2] & A & U). destruct (iprocess_result _ _ _ _ _ _ _ C A) as (P1 & P2).
  destruct (Z.eqb_spec r2 0) as [->|Hr].
  - eapply IHchunks; [apply P2; lia|exact U|exact V].
  - apply obind_ret in U. destruct U as ([[r3 s3] w3] & D & U). inv U. lia.
Qed.

Lemma icallbacks_note : forall patch_read ps, (forall w n r buf w1, patch_read w n = (r, buf, w1) -> Z0 w -> r = 0 -> Z0 w1) ->
  forall fuel po s w v s1 w1, Z0 w -> ip_callbacks_loop E fuel patch_read ps po s w = Ret (v, s1, w1) -> 0 <= v -> Z0 w1.
Proof.
  intros patch_read ps Hp. induction fuel; intros po s w v s1 w1 C U V; cbn [ip_callbacks_loop] in U; (destruct (negb _); [eapply ifinalize_note; eauto; left; auto|]); [discriminate|].
  cbv zeta in U. destruct (patch_read w _) as [[rr buf] w2] eqn:R. destruct (Z.eqb_spec rr 0) as [-> |Hr]; cbn [negb] in U.
  - pose proof (Hp _ _ _ _ _ R C eq_refl) as C2. destruct (negb _); [discriminate|]. apply obind_ret in U. destruct U as ([[r2 s2] w3] & A & U).
    destruct (iprocess_result _ _ _ _ _ _ _ C2 A) as (P1 & P2). destruct (Z.eqb_spec r2 0) as [->|Hr].
    + eapply IHfuel; [apply P2; lia|exact U|exact V].
    + apply obind_ret in U. destruct U as ([[r3 s3] w4] & D & U). inv U. lia.
  - apply obind_ret in U. destruct U as ([[r3 s3] w3] & D & U). inv U. codes. lia.
Qed.

(** ** Documented results *)

Hypothesis Hword : 32 <= word_bits.
Hypothesis HD : forall r, P r -> -27 <= r.

Lemma cb_doc : forall r, cb r -> -27 <= r <= 0 /\ r <> - E_ALREADY_DONE.
Proof. intros r C. pose proof (cb_neg _ C). destruct C as [->|[->|[->|C]]]; [codes; lia|codes; lia|codes; lia|]. apply HD in C. lia. Qed.

Lemma ionce_doc : forall s w res s1 w1, isized s -> ip_process_once E s w = Ret (res, s1, w1) ->
  -27 <= res <= 1 /\ isized s1 /\ (res = - E_ALREADY_DONE -> i_state s1 = SDone).
Proof.
  intros s w res s1 w1 Hs U. apply ionce_istep in U. destruct U as [(A & -> & -> & ->)|[(A & -> & B & ->)|(_ & _ & A & B & _ & C)]].
  - split; [codes; lia|]. auto.
  - split; [codes; lia|]. split; [unfold isized; rewrite B; auto|]. discriminate.
  - assert (-27 <= res <= 1 /\ res <> - E_ALREADY_DONE) by (destruct A as [A|A]; [unfold code_ok in A; codes; lia|apply cb_doc in A; lia]).
    split; [lia|]. split; [auto|]. lia.
Qed.

Lemma iloop_doc : forall fuel res s w v s1 w1, isized s -> -27 <= res <= 1 -> ip_process_loop E fuel res s w = Ret (v, s1, w1) -> -27 <= v <= 1 /\ isized s1.
Proof.
  induction fuel; intros res s w v s1 w1 C T U; cbn [ip_process_loop] in U.
  - destruct (i_left s); [inv U; auto|]. destruct (res <? 0); [inv U; auto|discriminate].
  - destruct (i_left s); [inv U; auto|]. destruct (res <? 0); [inv U; auto|].
    apply obind_ret in U. destruct U as ([[r2 s2] w2] & A & U).
    destruct (ionce_doc _ _ _ _ _ C A) as (A1 & A2 & _). eapply IHfuel; eauto.
Qed.

Lemma iprocess_doc : forall fuel s w p v s1 w1, isized s -> ip_process E fuel s w p = Ret (v, s1, w1) -> -27 <= v <= 0 /\ isized s1.
Proof.
  intros fuel s w p v s1 w1 C U. unfold ip_process in U. apply obind_ret in U. destruct U as ([[r2 s2] w2] & A & U).
  apply iloop_doc in A; [|apply (isized_same s); auto|lia]. inv U. split; [|apply A].
  destruct (Z.eqb_spec r2 1); cbn [orb]; [lia|]. destruct (_ =? _); lia.
Qed.

Lemma ifinloop_doc : forall fuel s w v s1 w1, isized s -> ip_finalize_loop E fuel s w = Ret (v, s1, w1) ->
  isized s1 /\ -27 <= v <= 1 /\ v <> 0 /\ (v = - E_ALREADY_DONE -> i_state s1 = SDone).
Proof.
  induction fuel; intros s w v s1 w1 C U; cbn [ip_finalize_loop] in U; [discriminate|].
  apply obind_ret in U. destruct U as ([[r2 s2] w2] & A & U).
  destruct (ionce_doc _ _ _ _ _ C A) as (A1 & A2 & A3). destruct (Z.eqb_spec r2 0); [eauto|]. inv U. auto.
Qed.

Lemma ifinalize_doc : forall fuel s w v s1 w1, isized s -> ip_finalize E fuel s w = Ret (v, s1, w1) -> documented v /\ isized s1.
Proof.
  intros fuel s w v s1 w1 Hs U. unfold ip_finalize in U. apply obind_ret in U. destruct U as ([[r2 s2] w2] & A & U).
  apply obind_ret in U. destruct U as (r & D & U). inv U. apply ifinloop_doc in A; [|apply (isized_same s); auto].
  destruct A as (A1 & A2 & A3 & A4). split; [|auto]. eapply common_doc; [| | |exact D]; auto. intros X. apply A4 in X. unfold isized in A1. rewrite X in A1. auto.
Qed.

Lemma ifeed_doc : forall chunks fuel s w v s1 w1, isized s -> ip_feed E fuel s w chunks = Ret (v, s1, w1) -> documented v.
Proof.
  induction chunks; intros fuel s w v s1 w1 C U; cbn [ip_feed] in U; [eapply ifinalize_doc; eauto|].
  apply obind_ret in U. destruct U as ([[r2 s2] w2] & A & U). destruct (iprocess_doc _ _ _ _ _ _ _ C A) as (P1 & P2).
  destruct (Z.eqb_spec r2 0) as [->|Hr]; [eauto|]. apply obind_ret in U. destruct U as ([[r3 s3] w3] & D & U). inv U. right. lia.
Qed.

Lemma icallbacks_doc : forall patch_read ps fuel po s w v s1 w1, isized s -> ip_callbacks_loop E fuel patch_read ps po s w = Ret (v, s1, w1) -> documented v.
Proof.
  intros patch_read ps. induction fuel; intros po s w v s1 w1 C U; cbn [ip_callbacks_loop] in U; (destruct (negb _); [eapply ifinalize_doc; eauto|]); [discriminate|].
  cbv zeta in U. destruct (patch_read w _) as [[rr buf] w2]. destruct (negb _).
  - apply obind_ret in U. destruct U as ([[r3 s3] w3] & D & U). inv U. right. codes. lia.
  - destruct (negb _); [discriminate|]. apply obind_ret in U. destruct U as ([[r2 s2] w3] & A & U).
    destruct (iprocess_doc _ _ _ _ _ _ _ C A) as (P1 & P2). destruct (Z.eqb_spec r2 0) as [->|Hr]; [eauto|].
    apply obind_ret in U. destruct U as ([[r3 s3] w4] & D & U). inv U. right. lia.
Qed.

End Ip.

Section Results.
Context {WBits : WordBits}.
Context {W : Type} (E : ip_env W).

Lemma isized_init : forall junk ps, isized (ip_init junk ps).
Proof. intros junk ps. unfold isized. cbn. congruence. Qed.

Lemma noting_hyps : forall P, mem_codes P E ->
  (forall r, P r -> r <= 0 /\ r <> - E_ALREADY_DONE) -> callbacks_good (ip_noting E) (fun x => all_zero (snd x)) P.
Proof.
  intros P (M1 & M2 & M3) HP0. split; [exact HP0|]. repeat apply conj.
  - intros (w, l) a n r b w1 U. cbn [ip_noting mem_read fst snd] in U. specialize (M1 w a n). destruct (mem_read E w a n) as [[r0 b0] w0]. inv U. split; [exact M1|]. cbn [snd]. intros X ->. apply zero_app; auto.
  - intros (w, l) a n r w1 U. cbn [ip_noting mem_write fst snd] in U. specialize (M2 w a n). destruct (mem_write E w a n) as [r0 w0]. inv U. split; [exact M2|]. cbn [snd]. intros X ->. apply zero_app; auto.
  - intros (w, l) a n r w1 U. cbn [ip_noting mem_erase fst snd] in U. specialize (M3 w a n). destruct (mem_erase E w a n) as [r0 w0]. inv U. split; [exact M3|]. cbn [snd]. intros X ->. apply zero_app; auto.
  - intros f (w, l) n r w1 F U X ->. cbn [ip_noting step_set] in F. destruct (step_set E) as [g|]; [|discriminate]. inv F. cbn [fst snd] in *. destruct (g w n). inv U. apply zero_app; auto.
  - intros f (w, l) n r w1 F U X ->. cbn [ip_noting step_get] in F. destruct (step_get E) as [g|]; [|discriminate]. inv F. cbn [fst snd] in *. destruct (g w) as [[? ?] ?]. inv U. apply zero_app; auto.
Qed.

Theorem ip_masked : mem_codes (fun r => r <= 0 /\ r <> -11) E ->
  forall fuel junk ps w chunks v s1 w1 log,
  ip_apply (ip_noting E) fuel junk ps (w, []) chunks = Ret (v, s1, (w1, log)) -> 0 <= v -> all_zero log.
Proof.
  intros M fuel junk ps w chunks v s1 w1 log U V. pose proof (noting_hyps _ M ltac:(auto)) as N.
  refine (ifeed_note (ip_noting E) (fun x => all_zero (snd x)) (fun r => r <= 0 /\ r <> -11) N _ _ _ _ _ _ _ _ U V); constructor.
Qed.

Theorem ip_callbacks_masked : mem_codes (fun r => r <= 0 /\ r <> -11) E ->
  forall fuel junk patch_read ps w v s1 w1 log,
  apply_patch_in_place_callbacks (ip_noting E) fuel junk (noted patch_read) ps (w, []) = Ret (v, s1, (w1, log)) -> 0 <= v -> all_zero log.
Proof.
  intros M fuel junk patch_read ps w v s1 w1 log U V. pose proof (noting_hyps _ M ltac:(auto)) as N.
  refine (icallbacks_note (ip_noting E) (fun x => all_zero (snd x)) (fun r => r <= 0 /\ r <> -11) N _ _ _ _ _ _ _ _ _ _ _ U V); [|constructor].
  intros (x, l) n r buf x1 R X ->. unfold noted in R. cbn [fst snd] in *. destruct (patch_read x n) as [[? ?] ?]. inv R. apply zero_app; auto.
Qed.

Hypothesis Hword : 32 <= word_bits.

Lemma plain_hyps : forall P : Z -> Prop, mem_codes P E -> (forall r, P r -> r <= 0 /\ r <> - E_ALREADY_DONE) -> callbacks_good E (fun _ => True) P.
Proof.
  intros P (M1 & M2 & M3) HP0. split; [exact HP0|]. repeat apply conj; auto.
  - intros w a n r b w1 U. specialize (M1 w a n). rewrite U in M1. auto.
  - intros w a n r w1 U. specialize (M2 w a n). rewrite U in M2. auto.
  - intros w a n r w1 U. specialize (M3 w a n). rewrite U in M3. auto.
Qed.

Theorem ip_results : mem_codes (fun r => -27 <= r <= 0 /\ r <> -11) E ->
  forall fuel junk ps w chunks v s1 w1, ip_apply E fuel junk ps w chunks = Ret (v, s1, w1) -> documented v.
Proof.
  intros M fuel junk ps w chunks v s1 w1 U. assert (N : callbacks_good E (fun _ => True) (fun r => -27 <= r <= 0 /\ r <> -11)) by (apply plain_hyps; [exact M|]; intros r Hr; change (- E_ALREADY_DONE) with (-11); lia).
  refine (ifeed_doc E (fun _ => True) (fun r => -27 <= r <= 0 /\ r <> -11) N Hword _ _ _ _ _ _ _ _ _ U); auto using isized_init.
  intros r Hr. lia.
Qed.

Theorem ip_callbacks_results : mem_codes (fun r => -27 <= r <= 0 /\ r <> -11) E ->
  forall fuel junk patch_read ps w v s1 w1, apply_patch_in_place_callbacks E fuel junk patch_read ps w = Ret (v, s1, w1) -> documented v.
Proof.
  intros M fuel junk patch_read ps w v s1 w1 U. assert (N : callbacks_good E (fun _ => True) (fun r => -27 <= r <= 0 /\ r <> -11)) by (apply plain_hyps; [exact M|]; intros r Hr; change (- E_ALREADY_DONE) with (-11); lia).
  refine (icallbacks_doc E (fun _ => True) (fun r => -27 <= r <= 0 /\ r <> -11) N Hword _ _ _ _ _ _ _ _ _ _ _ U); auto using isized_init.
  intros r Hr. lia.
Qed.

End Results.
