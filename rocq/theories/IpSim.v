(** Two sets of callbacks of the in-place applier that give the same answers lead to
    the same results. *)

From Coq Require Import ZArith List Bool Lia ZifyBool ZifyNat ZifyN.
From Verif Require Import Prelude Lib Heatshrink CReader CSeq CInPlace IpCallbackSpec IpCallback.
Import ListNotations.
Open Scope Z_scope.

(** A failure that is not mistaken for the end of the patch. *)
Definition fails (r : Z) : Prop := r < 0 /\ r <> - E_ALREADY_DONE.

Section Sim.
Context `{WordBits}.
Context {W1 W2 : Type} (E1 : ip_env W1) (E2 : ip_env W2).

(** Worlds in a step, and when everything is done.  [Lax]: nothing is claimed once an
    operation of the first has failed. *)
Variable R : Z -> W1 -> W2 -> Prop.
Variable D : W1 -> W2 -> Prop.
Variable Lax : Prop.
Hypothesis RD : forall j a b, R j a b -> D a b.
Hypothesis Hread : forall j a b src n r buf a1, R j a b -> 0 <= n -> ip_mem_read E1 j a src n = (r, buf, a1) ->
  (fails r /\ Lax) \/ exists b1, ip_mem_read E2 j b src n = (r, buf, b1) /\ R j a1 b1.
Hypothesis Hwrite : forall j a b dst data r a1, R j a b -> ip_mem_write E1 j a dst data = (r, a1) ->
  (fails r /\ Lax) \/ exists b1, ip_mem_write E2 j b dst data = (r, b1) /\ R j a1 b1.
Hypothesis Herase : forall j a b dst n r a1, R j a b -> ip_mem_erase E1 j a dst n = (r, a1) ->
  (fails r /\ Lax) \/ exists b1, ip_mem_erase E2 j b dst n = (r, b1) /\ R j a1 b1.
Hypothesis Hnext : forall j a b r j1 a1, R j a b -> next_step E1 j a = Ret (r, j1, a1) ->
  (fails r /\ Lax) \/ exists b1, next_step E2 j b = Ret (r, j1, b1) /\ R j1 a1 b1.
Hypothesis Hdone : forall j a b r a1, R j a b -> all_steps_completed E1 a = (r, a1) ->
  (fails r /\ Lax) \/ exists b1, all_steps_completed E2 b = (r, b1) /\ D a1 b1.

Definition ijoined (s : ip) (a : W1) (b : W2) : Prop :=
  R (i_step s) a b \/ (i_state s = SDone \/ i_state s = SFailed) /\ D a b.

Definition istep_sim (o1 : outcome (Z * ip * W1)) (o2 : outcome (Z * ip * W2)) : Prop :=
  forall r s1 a1, o1 = Ret (r, s1, a1) ->
    (fails r /\ Lax) \/ exists b1, o2 = Ret (r, s1, b1) /\ (R (i_step s1) a1 b1 \/ i_state s1 = SDone /\ D a1 b1).

Lemma copy_sim : forall fuel j a b rd wr seg off r a1, R j a b -> copy_loop E1 fuel j a rd wr seg off = Ret (r, a1) ->
  (fails r /\ Lax) \/ exists b1, copy_loop E2 fuel j b rd wr seg off = Ret (r, b1) /\ R j a1 b1.
Proof using All.
  induction fuel; intros j a b rd wr seg off r a1 HR U; cbn [copy_loop] in *; destruct (Z.ltb_spec off seg); cbn [negb] in *; try discriminate;
    try (injection U as <- <-; eauto; fail).
  cbv zeta in *. destruct (ip_mem_read E1 j a _ _) as [[res buf] w1] eqn:T. edestruct Hread as [[N L]|(b1 & X & HR1)]; [exact HR| |exact T| |]; [lia| |].
  - destruct (Z.eqb_spec res 0); [destruct N; lia|]. cbn [negb] in U. injection U as <- <-. auto.
  - rewrite X. destruct (negb (res =? 0)); [injection U as <- <-; eauto|]. destruct (negb (zlen buf =? _)); [discriminate|].
    destruct (ip_mem_write E1 j w1 _ _) as [res1 w2] eqn:T2. edestruct Hwrite as [[N L]|(b2 & Y & HR2)]; [exact HR1|exact T2| |].
    + destruct (Z.eqb_spec res1 0); [destruct N; lia|]. cbn [negb] in U. injection U as <- <-. auto.
    + rewrite Y. destruct (negb (res1 =? 0)); [injection U as <- <-; eauto|]. eauto.
Qed.

Lemma shift_sim : forall n j a b rd wr seg r j1 a1, R j a b -> shift_loop E1 n j a rd wr seg = Ret (r, j1, a1) ->
  (fails r /\ Lax) \/ exists b1, shift_loop E2 n j b rd wr seg = Ret (r, j1, b1) /\ R j1 a1 b1.
Proof using All.
  induction n; intros j a b rd wr seg r j1 a1 HR U; cbn [shift_loop] in *; [injection U as <- <- <-; eauto|].
  destruct (ip_mem_erase E1 j a _ _) as [res w1] eqn:T. edestruct Herase as [[N L]|(b1 & X & HR1)]; [exact HR|exact T| |].
  - destruct (Z.eqb_spec res 0); [destruct N; lia|]. cbn [negb] in U. injection U as <- <- <-. auto.
  - rewrite X. destruct (negb (res =? 0)); [injection U as <- <- <-; eauto|].
    destruct (copy_loop E1 _ _ _ _ _ _ _) as [[res1 w2]| |] eqn:T2; cbn [obind] in U; try discriminate.
    destruct (copy_sim _ _ _ _ _ _ _ _ _ _ HR1 T2) as [[N L]|(b2 & Y & HR2)].
    + destruct (Z.eqb_spec res1 0); [destruct N; lia|]. cbn [negb] in U. injection U as <- <- <-. auto.
    + rewrite Y. cbn [obind]. destruct (negb (res1 =? 0)); [injection U as <- <- <-; eauto|].
      destruct (next_step E1 _ _) as [[[res2 j2] w3]| |] eqn:T3; cbn [obind] in U; try discriminate.
      destruct (Hnext _ _ _ _ _ _ HR2 T3) as [[N L]|(b3 & Z3 & HR3)].
      * destruct (Z.eqb_spec res2 0); [destruct N; lia|]. cbn [negb] in U. injection U as <- <- <-. auto.
      * rewrite Z3. cbn [obind]. destruct (negb (res2 =? 0)); [injection U as <- <- <-; eauto|]. eauto.
Qed.

Lemma to_size_sim : forall s a b, R (i_step s) a b -> istep_sim (ip_init_to_size E1 s a) (ip_init_to_size E2 s b).
Proof using All.
  intros s a b HR r s1 a1 U. unfold ip_init_to_size in *. destruct (unpack_header_size _ _) as [[[[res v] z1] l1]| |]; cbn [obind] in *; try discriminate.
  cbv zeta in *. destruct (negb (res =? 0)); [injection U as <- <- <-; right; eexists; split; [reflexivity|left; exact HR]|].
  destruct (reader_init _ _) as [rd|]; [|injection U as <- <- <-; right; eexists; split; [reflexivity|left; exact HR]].
  destruct (v <? 0); [injection U as <- <- <-; right; eexists; split; [reflexivity|left; exact HR]|].
  destruct (0 <? v); [|injection U as <- <- <-; right; eexists; split; [reflexivity|left; exact HR]].
  unfold shift_memory in *. destruct (_ =? 0); [discriminate|]. cbv zeta in *.
  match type of U with context [shift_loop E1 ?n ?j ?w ?x ?y ?z] => destruct (shift_loop E1 n j w x y z) as [[[res1 j1] w1]| |] eqn:T end; cbn [obind] in U; try discriminate.
  edestruct shift_sim as [[N L]|(b1 & X & HR1)]; [|exact T| |]; [exact HR| |].
  - destruct (Z.eqb_spec res1 0); [destruct N; lia|]. cbn [negb] in U. injection U as <- <- <-. auto.
  - rewrite X. cbn [obind]. destruct (negb (res1 =? 0)); injection U as <- <- <-; right; eexists; (split; [reflexivity|left; exact HR1]).
Qed.

Lemma init_same : forall (o : outcome (Z * ip)) j a b, R j a b -> (forall r s1, o = Ret (r, s1) -> i_step s1 = j) ->
  istep_sim (letm (r, s1) := o in Ret (r, s1, a)) (letm (r, s1) := o in Ret (r, s1, b)).
Proof using All.
  intros o j a b HR Hs r s1 a1 U. destruct o as [[r0 s0]| |]; cbn [obind] in *; try discriminate. injection U as <- <- <-.
  right. eexists. split; [reflexivity|]. left. rewrite (Hs _ _ eq_refl). auto.
Qed.

Lemma init_size_step : forall s next store r s1, (forall x v, i_step (store x v) = i_step x) -> ip_init_size s next store = Ret (r, s1) -> i_step s1 = i_step s.
Proof.
  intros s next store r s1 Hs U. unfold ip_init_size in U. destruct (unpack_header_size _ _) as [[[[res v] z1] l1]| |]; cbn [obind] in *; try discriminate.
  destruct (negb (res =? 0)); injection U as <- <-; [reflexivity|rewrite Hs; reflexivity].
Qed.

Lemma init_sim : forall s a b, R (i_step s) a b -> istep_sim (ip_process_init E1 s a) (ip_process_init E2 s b).
Proof using All.
  intros s a b HR. unfold ip_process_init. destruct (i_init s).
  - eapply init_same; [exact HR|]. intros r s1 U. unfold ip_init_fixed_header in U. destruct (i_left s); [injection U as <- <-; reflexivity|].
    cbv zeta in U. destruct (negb _); injection U as <- <-; reflexivity.
  - eapply init_same; [exact HR|]. intros r s1 U. apply init_size_step in U; auto.
  - eapply init_same; [exact HR|]. intros r s1 U. apply init_size_step in U; auto.
  - eapply init_same; [exact HR|]. intros r s1 U. apply init_size_step in U; auto.
  - eapply init_same; [exact HR|]. intros r s1 U. apply init_size_step in U; auto.
  - apply to_size_sim. exact HR.
Qed.

Lemma dfpatch_sim : forall s a b, R (i_step s) a b -> istep_sim (ip_process_dfpatch_size E1 s a) (ip_process_dfpatch_size E2 s b).
Proof using All.
  intros s a b HR r s1 a1 U. unfold ip_process_dfpatch_size in *. destruct (i_reader s) as [rd|]; [|discriminate].
  destruct (unpack_size _ _ _) as [[[[[res v] z1] r1] l1]| |]; cbn [obind] in *; try discriminate. cbv zeta in *.
  destruct (negb (res =? 0)); [injection U as <- <- <-; right; eexists; split; [reflexivity|left; exact HR]|].
  destruct (0 <? v); [injection U as <- <- <-; right; eexists; split; [reflexivity|left; exact HR]|].
  match type of U with context [ip_mem_erase E1 ?j ?w ?x ?y] => destruct (ip_mem_erase E1 j w x y) as [res1 w1] eqn:T end.
  edestruct Herase as [[N L]|(b1 & X & HR1)]; [|exact T| |]; [exact HR| |].
  - injection U as <- <- <-. auto.
  - rewrite X. injection U as <- <- <-. right. eexists. split; [reflexivity|left; exact HR1].
Qed.

Lemma size_step : forall s next r s1, ip_process_size s next = Ret (r, s1) -> i_step s1 = i_step s.
Proof.
  intros s next r s1 U. unfold ip_process_size in U. destruct (i_reader s) as [rd|]; [|discriminate].
  destruct (common_process_size _ _ _ _ _) as [[[[[res v] z1] r1] l1]| |]; cbn [obind] in *; try discriminate. cbv zeta in U.
  destruct (negb (res =? 0)); injection U as <- <-; reflexivity.
Qed.

Lemma idata_sim : forall s a b next, R (i_step s) a b -> istep_sim (ip_process_data E1 s a next) (ip_process_data E2 s b next).
Proof using All.
  intros s a b next HR r s1 a1 U. unfold ip_process_data in *. cbv zeta in *.
  destruct (Z.min 128 (i_chunk_size s) =? 0); [injection U as <- <- <-; right; eexists; split; [reflexivity|left; exact HR]|]. destruct (i_reader s) as [rd|]; [|discriminate].
  destruct (decompress rd (i_left s) _) as [[[[res out] r1] l1]| |]; cbn [obind] in *; [|discriminate|discriminate].
  destruct (negb (res =? 0)); [injection U as <- <- <-; right; eexists; split; [reflexivity|left; exact HR]|].
  assert (WR : forall wa wb d s2 dst sf, R (i_step s2) wa wb -> i_step sf = i_step s2 ->
    (let '(rw, w3) := ip_mem_write E1 (i_step s2) wa dst d in if negb (rw =? 0) then Ret (- E_IO_FAILED, s2, w3) else Ret (0, sf, w3)) = Ret (r, s1, a1) ->
    (fails r /\ Lax) \/ exists b1, (let '(rw, w3) := ip_mem_write E2 (i_step s2) wb dst d in if negb (rw =? 0) then Ret (- E_IO_FAILED, s2, w3) else Ret (0, sf, w3)) = Ret (r, s1, b1) /\
      (R (i_step s1) a1 b1 \/ i_state s1 = SDone /\ D a1 b1)).
  { intros wa wb d s2 dst sf HR2 Hsf V. destruct (ip_mem_write E1 _ wa _ d) as [rw w3] eqn:T. edestruct Hwrite as [[N L]|(b1 & X & HR1)]; [exact HR2|exact T| |].
    - left. split; [|auto]. destruct (Z.eqb_spec rw 0); [destruct N; lia|]. cbn [negb] in V. injection V as <- <- <-. split; [reflexivity|discriminate].
    - rewrite X. right. destruct (negb (rw =? 0)); injection V as <- <- <-; (eexists; split; [reflexivity|left]); [auto|rewrite Hsf; auto]. }
  destruct next; cbn [obind] in *; try (eapply WR; [| |exact U]; [exact HR|reflexivity]; fail).
  match type of U with context [ip_mem_read E1 ?j ?w ?x ?y] => destruct (ip_mem_read E1 j w x y) as [[rr fb] w1] eqn:T end.
  edestruct Hread as [[N L]|(b1 & X & HR1)]; [exact HR| |exact T| |]; [apply zlen_nonneg| |].
  - left. split; [|auto]. destruct (Z.eqb_spec rr 0); [destruct N; lia|]. cbn [negb obind] in U. injection U as <- <- <-. split; [reflexivity|discriminate].
  - change (i_step (iset_reader s (Some r1) (i_rsize s) l1)) with (i_step s). rewrite X. destruct (negb (rr =? 0)).
    + cbn [obind] in *. injection U as <- <- <-. right. eexists. split; [reflexivity|left; exact HR1].
    + destruct (int_add _ _) as [fo| |]; cbn [obind] in *; try discriminate. destruct (add_data out fb) as [d| |]; cbn [obind] in *; try discriminate.
      eapply WR; [| |exact U]; [exact HR1|reflexivity].
Qed.

Lemma iadj_sim : forall s a b, R (i_step s) a b -> istep_sim (ip_process_adjustment E1 s a) (ip_process_adjustment E2 s b).
Proof using All.
  intros s a b HR r s1 a1 U. unfold ip_process_adjustment in *. destruct (i_reader s) as [rd|]; [|discriminate].
  destruct (unpack_size _ _ _) as [[[[[res v] z1] r1] l1]| |]; cbn [obind] in *; [|discriminate|discriminate]. cbv zeta in *.
  destruct (negb (res =? 0)); [injection U as <- <- <-; right; eexists; split; [reflexivity|left; exact HR]|].
  destruct (_ =? _).
  - destruct (all_steps_completed E1 a) as [res1 w1] eqn:T. destruct (Hdone _ _ _ _ _ HR T) as [[N L]|(b1 & X & HD)].
    + injection U as <- <- <-. auto.
    + rewrite X. injection U as <- <- <-. right. eexists. split; [reflexivity|right]. split; [reflexivity|auto].
  - destruct (_ =? _).
    + match type of U with context [next_step E1 ?j ?w] => destruct (next_step E1 j w) as [[[res1 j1] w1]| |] eqn:T end; cbn [obind] in U; try discriminate.
      edestruct Hnext as [[N L]|(b1 & X & HR1)]; [|exact T| |]; [exact HR| |].
      * injection U as <- <- <-. auto.
      * change (i_step (iset_reader s (Some r1) z1 l1)) with (i_step s) in *. rewrite X. cbn [obind]. injection U as <- <- <-. right. eexists. split; [reflexivity|left; exact HR1].
    + destruct (int_add _ _) as [fo| |]; cbn [obind] in *; try discriminate. injection U as <- <- <-. right. eexists. split; [reflexivity|left; exact HR].
Qed.

Definition iresult (s1 : ip) (r : Z) (a1 : W1) (o2 : outcome (Z * ip * W2)) : Prop :=
  (i_state s1 = SFailed /\ fails r /\ Lax) \/ exists b1, o2 = Ret (r, s1, b1) /\ ijoined s1 a1 b1.

Lemma ionce_sim : forall s a b r s1 a1, ijoined s a b -> ip_process_once E1 s a = Ret (r, s1, a1) -> iresult s1 r a1 (ip_process_once E2 s b).
Proof using All.
  intros s a b r s1 a1 J U. unfold ip_process_once in *.
  assert (K : forall o1 o2, istep_sim o1 o2 ->
    (letm (res, s1, w1) := o1 in Ret (res, if res <? 0 then iset_st s1 SFailed else s1, w1)) = Ret (r, s1, a1) ->
    iresult s1 r a1 (letm (res, s1, w1) := o2 in Ret (res, if res <? 0 then iset_st s1 SFailed else s1, w1))).
  { intros o1 o2 S V. destruct o1 as [[[r0 s0] w0]| |]; cbn [obind] in V; try discriminate. injection V as <- <- <-.
    destruct (S _ _ _ eq_refl) as [[N L]|(b1 & -> & T)].
    - left. destruct (Z.ltb_spec r0 0); [|destruct N; lia]. split; [reflexivity|auto].
    - right. cbn [obind]. eexists. split; [reflexivity|]. unfold ijoined. destruct (Z.ltb_spec r0 0); [|destruct T as [T|[T1 T2]]; auto].
      destruct T as [T|[T1 T2]]; [left; exact T|right; split; [right; reflexivity|auto]]. }
  destruct J as [J|[[J1|J1] J2]].
  2:{ rewrite J1 in *. cbn [obind] in *. injection U as <- <- <-. right. exists b. split; [reflexivity|]. right. split; [left; auto|auto]. }
  2:{ rewrite J1 in *. cbn [obind] in *. injection U as <- <- <-. right. exists b. split; [reflexivity|]. right. split; [right; destruct s; reflexivity|auto]. }
  destruct (i_state s) eqn:Es; try (eapply K; [|exact U];
    first [ apply init_sim; exact J | apply dfpatch_sim; exact J
          | eapply init_same; [exact J|intros ? ? ?; eapply size_step; eauto]
          | apply idata_sim; exact J | apply iadj_sim; exact J ]; fail).
  - cbn [obind] in *. injection U as <- <- <-. right. exists b. split; [reflexivity|left; auto].
  - cbn [obind] in *. injection U as <- <- <-. right. exists b. split; [reflexivity|left; auto].
Qed.

Lemma ijoined_chunk : forall s l a b, ijoined s a b -> ijoined (iset_chunk s l) a b.
Proof. intros s l a b J. exact J. Qed.

Lemma iloop_sim : forall f res s a b r s1 a1, ijoined s a b -> ip_process_loop E1 f res s a = Ret (r, s1, a1) -> iresult s1 r a1 (ip_process_loop E2 f res s b).
Proof using All.
  induction f; intros res s a b r s1 a1 J U; cbn [ip_process_loop] in *; destruct (i_left s) as [|x l] eqn:El;
    try (injection U as <- <- <-; right; eauto; fail); destruct (Z.ltb_spec res 0); try (injection U as <- <- <-; right; eauto; fail); try discriminate.
  destruct (ip_process_once E1 s a) as [[[r0 s0] w0]| |] eqn:O; cbn [obind] in U; try discriminate.
  destruct (ionce_sim _ _ _ _ _ _ J O) as [(F & N & L)|(b1 & X & J1)].
  - left. assert (Y : (r, s1, a1) = (r0, s0, w0)).
    { destruct f; cbn [ip_process_loop] in U; destruct (i_left s0); try (injection U as <- <- <-; reflexivity); destruct (Z.ltb_spec r0 0); try (destruct N; lia); injection U as <- <- <-; reflexivity. }
    injection Y as -> -> _. auto.
  - rewrite X. cbn [obind]. eauto.
Qed.

Lemma iprocess_sim : forall f s a b c r s1 a1, ijoined s a b -> ip_process E1 f s a c = Ret (r, s1, a1) ->
  (i_state s1 = SFailed /\ r < 0 /\ Lax) \/ exists b1, ip_process E2 f s b c = Ret (r, s1, b1) /\ ijoined s1 a1 b1.
Proof using All.
  intros f s a b c r s1 a1 J U. unfold ip_process in *. destruct (ip_process_loop E1 _ _ _ _) as [[[r0 s0] w0]| |] eqn:O; cbn [obind] in U; try discriminate.
  injection U as <- <- <-. destruct (iloop_sim _ _ _ _ _ _ _ _ (ijoined_chunk _ _ _ _ J) O) as [(F & N & L)|(b1 & X & J1)].
  { left. destruct N as [N1 N2]. split; [auto|]. split; [|auto]. change (- E_ALREADY_DONE) with (-11) in *. destruct (Z.eqb_spec r0 1); [lia|]. destruct (Z.eqb_spec r0 (-11)); [lia|]. exact N1. }
  right. rewrite X. cbn [obind]. eauto.
Qed.

Lemma ifinloop_sim : forall f s a b r s1 a1, ijoined s a b -> ip_finalize_loop E1 f s a = Ret (r, s1, a1) -> iresult s1 r a1 (ip_finalize_loop E2 f s b).
Proof using All.
  induction f; intros s a b r s1 a1 J U; cbn [ip_finalize_loop] in *; try discriminate.
  destruct (ip_process_once E1 s a) as [[[r0 s0] w0]| |] eqn:O; cbn [obind] in U; try discriminate.
  destruct (ionce_sim _ _ _ _ _ _ J O) as [(F & N & L)|(b1 & X & J1)].
  - left. destruct (Z.eqb_spec r0 0); [destruct N; lia|]. injection U as <- <- <-. auto.
  - rewrite X. cbn [obind]. destruct (r0 =? 0); [eauto|]. injection U as <- <- <-. right. eauto.
Qed.

Lemma ifinalize_sim : forall f s a b r s1 a1, ijoined s a b -> ip_finalize E1 f s a = Ret (r, s1, a1) ->
  (r < 0 /\ Lax) \/ exists b1, ip_finalize E2 f s b = Ret (r, s1, b1) /\ ijoined s1 a1 b1.
Proof using All.
  intros f s a b r s1 a1 J U. unfold ip_finalize in *. destruct (ip_finalize_loop E1 _ _ _) as [[[r0 s0] w0]| |] eqn:O; cbn [obind] in U; try discriminate.
  destruct (common_finalize _ _ _) as [z| |] eqn:CF; cbn [obind] in U; try discriminate. injection U as <- <- <-.
  destruct (ifinloop_sim _ _ _ _ _ _ _ (ijoined_chunk _ _ _ _ J) O) as [(F & N & L)|(b1 & X & J1)].
  { left. split; [|auto]. destruct N as [N1 N2]. unfold common_finalize in CF. cbv zeta in CF. destruct (Z.eqb_spec r0 1); [lia|]. destruct (Z.eqb_spec r0 (- E_ALREADY_DONE)); [lia|].
    assert (Y : forall q, Ret (if q =? 0 then to_int (i_to_size s0) else q) = Ret z -> q = r0 -> z < 0) by (intros q Hq ->; injection Hq as <-; destruct (Z.eqb_spec r0 0); [lia|auto]).
    destruct (i_reader s0) as [rd|]; cbn [obind] in CF; [|eapply Y; [exact CF|reflexivity]]. destruct (destroy rd) as [dd| |]; cbn [obind] in CF; try discriminate.
    eapply Y; [exact CF|]. destruct (Z.eqb_spec r0 0); [lia|reflexivity]. }
  right. rewrite X. cbn [obind]. rewrite CF. cbn [obind]. eauto.
Qed.

End Sim.

Section Callbacks.
Context `{WordBits}.
Context {W1 W2 : Type} (E1 : ip_env W1) (E2 : ip_env W2).

(** The worlds when [k] bytes of the patch have been read. *)
Variable R : Z -> Z -> W1 -> W2 -> Prop.
Variable D : Z -> W1 -> W2 -> Prop.
Variable Lax : Prop.
Hypothesis RD : forall k j a b, R k j a b -> D k a b.
Hypothesis Hread : forall k j a b src n r buf a1, R k j a b -> 0 <= n -> ip_mem_read E1 j a src n = (r, buf, a1) ->
  (fails r /\ Lax) \/ exists b1, ip_mem_read E2 j b src n = (r, buf, b1) /\ R k j a1 b1.
Hypothesis Hwrite : forall k j a b dst data r a1, R k j a b -> ip_mem_write E1 j a dst data = (r, a1) ->
  (fails r /\ Lax) \/ exists b1, ip_mem_write E2 j b dst data = (r, b1) /\ R k j a1 b1.
Hypothesis Herase : forall k j a b dst n r a1, R k j a b -> ip_mem_erase E1 j a dst n = (r, a1) ->
  (fails r /\ Lax) \/ exists b1, ip_mem_erase E2 j b dst n = (r, b1) /\ R k j a1 b1.
Hypothesis Hnext : forall k j a b r j1 a1, R k j a b -> next_step E1 j a = Ret (r, j1, a1) ->
  (fails r /\ Lax) \/ exists b1, next_step E2 j b = Ret (r, j1, b1) /\ R k j1 a1 b1.
Hypothesis Hdone : forall k j a b r a1, R k j a b -> all_steps_completed E1 a = (r, a1) ->
  (fails r /\ Lax) \/ exists b1, all_steps_completed E2 b = (r, b1) /\ D k a1 b1.

Hypothesis Hcodes : Lax -> codes_ok E1.

Variable PR1 : W1 -> Z -> Z * list Z * W1.
Variable PR2 : W2 -> Z -> Z * list Z * W2.
Variable ps : Z.
Notation ijoined k := (ijoined (R k) (D k)).
Hypothesis Hpatch : forall k s a b n r buf a1, ijoined k s a b -> 0 < n -> k + n <= ps -> PR1 a n = (r, buf, a1) ->
  exists r2 buf2 b1, PR2 b n = (r2, buf2, b1) /\ (r = 0 -> r2 = 0 /\ buf2 = buf /\ ijoined (k + n) s a1 b1) /\ (r <> 0 -> r2 <> 0 /\ ijoined k s a1 b1).

Lemma icallbacks_sim : forall f po s a b r s1 a1, ijoined po s a b -> ip_callbacks_loop E1 f PR1 ps po s a = Ret (r, s1, a1) ->
  (r < 0 /\ Lax) \/ exists b1 k, ip_callbacks_loop E2 f PR2 ps po s b = Ret (r, s1, b1) /\ ijoined k s1 a1 b1.
Proof using All.
  assert (FS : forall k f s a b r s1 a1, ijoined k s a b -> ip_finalize E1 f s a = Ret (r, s1, a1) ->
    (r < 0 /\ Lax) \/ exists b1 k, ip_finalize E2 f s b = Ret (r, s1, b1) /\ ijoined k s1 a1 b1).
  { intros k f s a b r s1 a1 J U. destruct (ifinalize_sim E1 E2 (R k) (D k) Lax (RD k) (Hread k) (Hwrite k) (Herase k) (Hnext k) (Hdone k) _ _ _ _ _ _ _ J U) as [?|(b1 & X & Y)]; [auto|right; eauto]. }
  induction f; intros po s a b r s1 a1 J U; cbn [ip_callbacks_loop] in *; destruct (Z.ltb_spec po ps); cbn [negb] in *; try discriminate;
    try (eapply FS; eauto; fail). cbv zeta in *.
  destruct (PR1 a (Z.min (ps - po) 512)) as [[rr buf] w1] eqn:P. edestruct Hpatch as (r2 & buf2 & b1 & P2 & A & C); [exact J| | |exact P|]; [lia|lia|]. rewrite P2.
  destruct (Z.eqb_spec rr 0) as [->|N]; cbn [negb] in U.
  - destruct (A eq_refl) as (-> & -> & J1). cbn [Z.eqb negb]. destruct (negb (zlen buf =? _)); [discriminate|].
    destruct (ip_process E1 (S f) s w1 buf) as [[[r0 s0] w0]| |] eqn:O; cbn [obind] in U; try discriminate.
    destruct (iprocess_sim E1 E2 (R _) (D _) Lax (RD _) (Hread _) (Hwrite _) (Herase _) (Hnext _) (Hdone _) _ _ _ _ _ _ _ _ J1 O) as [[F L]|(b2 & X & J2)].
    + left. split; [|apply L]. destruct (Z.eqb_spec r0 0); [lia|].
      destruct (ip_finalize E1 (S f) s0 w0) as [[[r3 s3] w3]| |] eqn:O2; cbn [obind] in U; try discriminate. injection U as <- <- <-. apply L.
    + rewrite X. cbn [obind]. destruct (Z.eqb_spec r0 0); [eauto|].
      destruct (ip_finalize E1 (S f) s0 w0) as [[[r3 s3] w3]| |] eqn:O2; cbn [obind] in U; try discriminate.
      destruct (FS _ _ _ _ _ _ _ _ J2 O2) as [[F L]|(b3 & k3 & Y & J3)]; injection U as <- <- <-; [left; split; [|exact L]|].
      * apply (iprocess_le E1 (Hcodes L)) in O. lia.
      * right. rewrite Y. cbn [obind]. eauto.
  - destruct (C N) as (N2 & J1). destruct (Z.eqb_spec r2 0); [lia|]. cbn [negb].
    destruct (ip_finalize E1 (S f) s w1) as [[[r3 s3] w3]| |] eqn:O2; cbn [obind] in U; try discriminate.
    destruct (FS _ _ _ _ _ _ _ _ J1 O2) as [[F L]|(b3 & k3 & Y & J3)]; injection U as <- <- <-; [left; split; [reflexivity|auto]|]. right. rewrite Y. cbn [obind]. eauto.
Qed.
End Callbacks.
