(** Two sets of callbacks that give the same answers lead to the same results. *)

From Coq Require Import ZArith List Bool Lia ZifyBool ZifyNat ZifyN.
From Verif Require Import Prelude Lib Heatshrink CReader CSeq.
Import ListNotations.
Open Scope Z_scope.

Section Sim.
Context `{WordBits}.
Context {W1 W2 : Type} (E1 : seq_env W1) (E2 : seq_env W2).

(** Worlds before and after a callback has failed. *)
Variables R Q : W1 -> W2 -> Prop.
Hypothesis RQ : forall a b, R a b -> Q a b.
Hypothesis Hread : forall a b n r buf a1, R a b -> 0 <= n -> from_read E1 a n = (r, buf, a1) ->
  exists buf2 b1, from_read E2 b n = (r, buf2, b1) /\ (r = 0 -> buf2 = buf /\ R a1 b1) /\ (r <> 0 -> Q a1 b1).
Hypothesis Hseek : forall a b off r a1, R a b -> from_seek E1 a off = (r, a1) ->
  exists r2 b1, from_seek E2 b off = (r2, b1) /\ (r = 0 -> r2 = 0 /\ R a1 b1) /\ (r <> 0 -> r2 <> 0 /\ Q a1 b1).
Hypothesis Hwrite : forall a b data r a1, R a b -> to_write E1 a data = (r, a1) ->
  exists r2 b1, to_write E2 b data = (r2, b1) /\ (r = 0 -> r2 = 0 /\ R a1 b1) /\ (r <> 0 -> r2 <> 0 /\ Q a1 b1).

(** The worlds belonging to a state. *)
Definition joined (s : ap) (a : W1) (b : W2) : Prop := R a b \/ a_state s = SFailed /\ Q a b.

Lemma joined_Q : forall s a b, joined s a b -> Q a b.
Proof using All. intros s a b [J|[_ J]]; auto. Qed.

Lemma joined_set : forall s a b, R a b -> joined s a b.
Proof. left. auto. Qed.

(** What a step may give: success keeps the worlds together, failure is negative. *)
Definition step_sim (o1 : outcome (Z * ap * W1)) (o2 : outcome (Z * ap * W2)) : Prop :=
  forall r s1 a1, o1 = Ret (r, s1, a1) -> exists b1, o2 = Ret (r, s1, b1) /\ (R a1 b1 \/ r < 0 /\ Q a1 b1).

Lemma data_sim : forall B s a b next, R a b -> step_sim (process_data E1 B s a next) (process_data E2 B s b next).
Proof using All.
  intros B s a b next HR r s1 a1 U. unfold process_data in *. cbv zeta in *.
  destruct (Z.min B (a_chunk_size s) =? 0); [injection U as <- <- <-; eauto|]. destruct (a_reader s) as [rd|]; [|discriminate].
  destruct (decompress rd (a_left s) _) as [[[[res out] r1] l1]| |]; cbn [obind] in *; [|discriminate|discriminate].
  destruct (negb (res =? 0)); [injection U as <- <- <-; eauto|].
  assert (WR : forall wa wb d s2, R wa wb ->
    (let '(rw, w3) := to_write E1 wa d in if negb (rw =? 0) then Ret (- E_IO_FAILED, s2, w3) else Ret (0, s2, w3)) = Ret (r, s1, a1) ->
    exists b1, (let '(rw, w3) := to_write E2 wb d in if negb (rw =? 0) then Ret (- E_IO_FAILED, s2, w3) else Ret (0, s2, w3)) = Ret (r, s1, b1) /\ (R a1 b1 \/ r < 0 /\ Q a1 b1)).
  { intros wa wb d s2 HR2 V. destruct (to_write E1 wa d) as [rw w3] eqn:T. destruct (Hwrite _ _ _ _ _ HR2 T) as (r2 & b1 & -> & A & C).
    destruct (Z.eqb_spec rw 0) as [->|N]; cbn [negb] in V; injection V as <- <- <-.
    - destruct (A eq_refl) as (-> & ?). cbn [Z.eqb negb]. eauto.
    - destruct (C N) as (N2 & ?). destruct (Z.eqb_spec r2 0); [lia|]. cbn [negb]. exists b1. split; [reflexivity|]. right. split; [reflexivity|auto]. }
  destruct next; cbn [obind] in *; try (eapply WR; eauto; fail).
  destruct (from_read E1 a (zlen out)) as [[rr fb] w1] eqn:T. destruct (Hread _ _ _ _ _ _ HR (zlen_nonneg out) T) as (buf2 & b1 & -> & A & C).
  destruct (Z.eqb_spec rr 0) as [->|N]; cbn [negb] in *.
  - destruct (A eq_refl) as (-> & HR2). destruct (add_data out fb); cbn [obind] in *; try discriminate. eapply WR; eauto.
  - cbn [obind] in *. injection U as <- <- <-. exists b1. split; [reflexivity|]. right. split; [reflexivity|auto].
Qed.

Lemma adjustment_sim : forall s a b, R a b -> step_sim (process_adjustment E1 s a) (process_adjustment E2 s b).
Proof using All.
  intros s a b HR r s1 a1 U. unfold process_adjustment in *. destruct (a_reader s) as [rd|]; [|discriminate].
  destruct (unpack_size _ _ _) as [[[[[res v] z1] r1] l1]| |]; cbn [obind] in *; [|discriminate|discriminate]. destruct (negb (res =? 0)); [injection U as <- <- <-; eauto|].
  destruct (from_seek E1 a v) as [rs w1] eqn:T. destruct (Hseek _ _ _ _ _ HR T) as (r2 & b1 & -> & A & C).
  destruct (Z.eqb_spec rs 0) as [->|N]; cbn [negb] in U.
  - destruct (A eq_refl) as (-> & HR2). cbn [Z.eqb negb]. destruct (int_add _ _); cbn [obind] in *; try discriminate. injection U as <- <- <-. eauto.
  - destruct (C N) as (N2 & ?). destruct (Z.eqb_spec r2 0); [lia|]. cbn [negb]. injection U as <- <- <-. exists b1. split; [reflexivity|]. right. split; [reflexivity|auto].
Qed.

Lemma once_sim : forall B s a b r s1 a1, joined s a b -> process_once E1 B s a = Ret (r, s1, a1) ->
  exists b1, process_once E2 B s b = Ret (r, s1, b1) /\ joined s1 a1 b1.
Proof using All.
  intros B s a b r s1 a1 J U. unfold process_once in *.
  assert (K : forall o1 o2, R a b -> a_state s <> SDone -> step_sim o1 o2 ->
    (letm (res, s1, w1) := o1 in Ret (res, if res <? 0 then set_st s1 SFailed else s1, w1)) = Ret (r, s1, a1) ->
    exists b1, (letm (res, s1, w1) := o2 in Ret (res, if res <? 0 then set_st s1 SFailed else s1, w1)) = Ret (r, s1, b1) /\ joined s1 a1 b1).
  { intros o1 o2 HR Hs S V. destruct o1 as [[[r0 s0] w0]| |]; cbn [obind] in V; try discriminate. destruct (S _ _ _ eq_refl) as (b1 & -> & T). cbn [obind].
    injection V as <- <- <-. exists b1. split; [reflexivity|]. destruct T as [T|[T1 T2]]; [left; auto|]. right. destruct (Z.ltb_spec r0 0); [|lia]. split; [destruct s0; reflexivity|auto]. }
  assert (P : forall o, R a b -> step_sim (letm (r, s1) := o in Ret (r, s1, a)) (letm (r, s1) := o in Ret (r, s1, b))).
  { intros o HR rx sx ax V. destruct o as [[r0 s0]| |]; cbn [obind] in *; try discriminate. injection V as <- <- <-. eauto. }
  destruct J as [J|[J1 J2]].
  2:{ rewrite J1 in *. cbn [obind] in *. injection U as <- <- <-. exists b. split; [reflexivity|]. right. split; [destruct s; reflexivity|auto]. }
  destruct (a_state s) eqn:Es; try (eapply K; [auto|congruence| |exact U]; first [apply P; exact J | apply data_sim; exact J | apply adjustment_sim; exact J]; fail).
  - cbn [obind] in *. injection U as <- <- <-. exists b. split; [reflexivity|left; auto].
  - cbn [obind] in *. injection U as <- <- <-. exists b. split; [reflexivity|left; auto].
Qed.

Lemma joined_chunk : forall s s1 a b, a_state s1 = a_state s -> joined s a b -> joined s1 a b.
Proof. intros s s1 a b E [J|[J1 J2]]; [left; auto|right; split; [congruence|auto]]. Qed.

Lemma loop_sim : forall f B res s a b r s1 a1, joined s a b -> process_loop E1 f B res s a = Ret (r, s1, a1) ->
  exists b1, process_loop E2 f B res s b = Ret (r, s1, b1) /\ joined s1 a1 b1.
Proof using All.
  induction f; intros B res s a b r s1 a1 J U; cbn [process_loop] in *; destruct (a_left s);
    try (injection U as <- <- <-; eauto; fail); destruct (res <? 0); try (injection U as <- <- <-; eauto; fail); try discriminate.
  destruct (process_once E1 B s a) as [[[r0 s0] w0]| |] eqn:O; cbn [obind] in U; try discriminate.
  destruct (once_sim _ _ _ _ _ _ _ J O) as (b1 & -> & J1). cbn [obind]. eauto.
Qed.

Lemma process_sim : forall f B s a b c r s1 a1, joined s a b -> process E1 f B s a c = Ret (r, s1, a1) ->
  exists b1, process E2 f B s b c = Ret (r, s1, b1) /\ joined s1 a1 b1.
Proof using All.
  intros f B s a b c r s1 a1 J U. unfold process in *. destruct (process_loop E1 _ _ _ _ _) as [[[r0 s0] w0]| |] eqn:O; cbn [obind] in U; try discriminate.
  edestruct loop_sim as (b1 & X & J1); [|exact O|rewrite X]; [eapply joined_chunk; [|exact J]; reflexivity|]. cbn [obind]. injection U as <- <- <-. eauto.
Qed.

Lemma finloop_sim : forall f B s a b r s1 a1, joined s a b -> finalize_loop E1 f B s a = Ret (r, s1, a1) ->
  exists b1, finalize_loop E2 f B s b = Ret (r, s1, b1) /\ joined s1 a1 b1.
Proof using All.
  induction f; intros B s a b r s1 a1 J U; cbn [finalize_loop] in *; try discriminate.
  destruct (process_once E1 B s a) as [[[r0 s0] w0]| |] eqn:O; cbn [obind] in U; try discriminate.
  destruct (once_sim _ _ _ _ _ _ _ J O) as (b1 & -> & J1). cbn [obind]. destruct (r0 =? 0); [eauto|]. injection U as <- <- <-. eauto.
Qed.

Lemma finalize_sim : forall f B s a b r s1 a1, joined s a b -> finalize E1 f B s a = Ret (r, s1, a1) ->
  exists b1, finalize E2 f B s b = Ret (r, s1, b1) /\ joined s1 a1 b1.
Proof using All.
  intros f B s a b r s1 a1 J U. unfold finalize in *. destruct (finalize_loop E1 _ _ _ _) as [[[r0 s0] w0]| |] eqn:O; cbn [obind] in U; try discriminate.
  edestruct finloop_sim as (b1 & X & J1); [|exact O|rewrite X]; [eapply joined_chunk; [|exact J]; reflexivity|]. cbn [obind].
  destruct (common_finalize _ _ _); cbn [obind] in *; try discriminate. injection U as <- <- <-. eauto.
Qed.

End Sim.

Section Callbacks.
Context `{WordBits}.
Context {W1 W2 : Type} (E1 : seq_env W1) (E2 : seq_env W2).

(** The worlds when [k] bytes of the patch have been read. *)
Variables R Q : Z -> W1 -> W2 -> Prop.
Hypothesis RQ : forall k a b, R k a b -> Q k a b.
Hypothesis Hread : forall k a b n r buf a1, R k a b -> 0 <= n -> from_read E1 a n = (r, buf, a1) ->
  exists buf2 b1, from_read E2 b n = (r, buf2, b1) /\ (r = 0 -> buf2 = buf /\ R k a1 b1) /\ (r <> 0 -> Q k a1 b1).
Hypothesis Hseek : forall k a b off r a1, R k a b -> from_seek E1 a off = (r, a1) ->
  exists r2 b1, from_seek E2 b off = (r2, b1) /\ (r = 0 -> r2 = 0 /\ R k a1 b1) /\ (r <> 0 -> r2 <> 0 /\ Q k a1 b1).
Hypothesis Hwrite : forall k a b data r a1, R k a b -> to_write E1 a data = (r, a1) ->
  exists r2 b1, to_write E2 b data = (r2, b1) /\ (r = 0 -> r2 = 0 /\ R k a1 b1) /\ (r <> 0 -> r2 <> 0 /\ Q k a1 b1).
Notation joined k := (joined (R k) (Q k)).

(** The callback that reads the patch. *)
Variable PR1 : W1 -> Z -> Z * list Z * W1.
Variable PR2 : W2 -> Z -> Z * list Z * W2.
Variable ps : Z.
Hypothesis Hpatch : forall k s a b n r buf a1, joined k s a b -> 0 < n -> k + n <= ps -> PR1 a n = (r, buf, a1) ->
  exists r2 buf2 b1, PR2 b n = (r2, buf2, b1) /\ (r = 0 -> r2 = 0 /\ buf2 = buf /\ joined (k + n) s a1 b1) /\ (r <> 0 -> r2 <> 0 /\ joined k s a1 b1).

Lemma callbacks_sim : forall f po s a b r s1 a1, joined po s a b -> callbacks_loop E1 f PR1 ps po s a = Ret (r, s1, a1) ->
  exists b1 k, callbacks_loop E2 f PR2 ps po s b = Ret (r, s1, b1) /\ joined k s1 a1 b1.
Proof using All.
  assert (FS : forall k f B s a b r s1 a1, joined k s a b -> finalize E1 f B s a = Ret (r, s1, a1) ->
    exists b1 k, finalize E2 f B s b = Ret (r, s1, b1) /\ joined k s1 a1 b1).
  { intros k f B s a b r s1 a1 J U. destruct (finalize_sim E1 E2 (R k) (Q k) (RQ k) (Hread k) (Hseek k) (Hwrite k) _ _ _ _ _ _ _ _ J U) as (b1 & X & Y). eauto. }
  induction f; intros po s a b r s1 a1 J U; cbn [callbacks_loop] in *; destruct (Z.ltb_spec po ps); cbn [negb] in *; try discriminate;
    try (eapply FS; eauto; fail).
  destruct (PR1 a (Z.min (ps - po) 512)) as [[rr buf] w1] eqn:P. edestruct Hpatch as (r2 & buf2 & b1 & P2 & A & C); [exact J| | |exact P|]; [lia|lia|]. rewrite P2.
  destruct (Z.eqb_spec rr 0) as [->|N]; cbn [negb] in U.
  - destruct (A eq_refl) as (-> & -> & J1). cbn [Z.eqb negb]. destruct (negb (zlen buf =? _)); [discriminate|].
    destruct (process E1 (S f) 128 s w1 buf) as [[[r0 s0] w0]| |] eqn:O; cbn [obind] in U; try discriminate.
    destruct (process_sim E1 E2 (R _) (Q _) (RQ _) (Hread _) (Hseek _) (Hwrite _) _ _ _ _ _ _ _ _ _ J1 O) as (b2 & -> & J2). cbn [obind]. destruct (r0 =? 0); [eauto|].
    destruct (finalize E1 (S f) 128 s0 w0) as [[[r3 s3] w3]| |] eqn:O2; cbn [obind] in U; try discriminate.
    destruct (FS _ _ _ _ _ _ _ _ _ J2 O2) as (b3 & k3 & -> & J3). cbn [obind]. injection U as <- <- <-. eauto.
  - destruct (C N) as (N2 & J1). destruct (Z.eqb_spec r2 0); [lia|]. cbn [negb].
    destruct (finalize E1 (S f) 128 s w1) as [[[r3 s3] w3]| |] eqn:O2; cbn [obind] in U; try discriminate.
    destruct (FS _ _ _ _ _ _ _ _ _ J1 O2) as (b3 & k3 & -> & J3). cbn [obind]. injection U as <- <- <-. eauto.
Qed.
End Callbacks.
