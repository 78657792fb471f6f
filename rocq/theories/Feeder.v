(** What a patch reader is going to deliver: lemmas about reading sizes and data
    from a reader whose remaining input (the rest of the current chunk followed by
    the chunks to come) decodes to a known byte string. *)

From Coq Require Import ZArith List Bool Lia ZifyBool ZifyNat ZifyN.
From Verif Require Import Prelude Lib Heatshrink CReader Spec ReaderProofs SizeProofs SeqSim SeqMeaning.
Import ListNotations.
Open Scope Z_scope.

Section Feeder.
Context `{WBits : WordBits}.
Hypothesis Hword : 32 <= word_bits.

(** In the middle of (or before) a size field of value [v], followed by [rest];
    [f] is the input still to come, [rE] the reader at the very end. *)
Definition SZ (f : list Z) (z : size_st) (r : reader) (left : list Z) (v : Z) (rest : list Z) (rE : reader) : Prop :=
  rok r /\ bytes_ok left /\ zok z /\ nozero r (left ++ f) /\ - 2 ^ 27 < v < 2 ^ 27 /\
  exists z1 r1 i1, us 6 z r (left ++ f) = Ret (0, v, z1, r1, i1) /\ z_cons z1 = false /\ pulls r1 i1 rest rE [].

(** Before [rest]. *)
Definition DT (f : list Z) (z : size_st) (r : reader) (left : list Z) (rest : list Z) (rE : reader) : Prop :=
  rok r /\ bytes_ok left /\ z_cons z = false /\ nozero r (left ++ f) /\
  exists r0 i0, pull r (left ++ f) = pull r0 i0 /\ pulls r0 i0 rest rE [].

(** The same, with the reader exactly where it should be. *)
Definition EX (f : list Z) (z : size_st) (r : reader) (left : list Z) (rest : list Z) (rE : reader) : Prop :=
  rok r /\ bytes_ok left /\ z_cons z = false /\ nozero r (left ++ f) /\ pulls r (left ++ f) rest rE [].

Lemma EX_DT : forall f z r left rest rE, EX f z r left rest rE -> DT f z r left rest rE.
Proof. intros f z r left rest rE (A & B & C & D & E). unfold DT. do 4 (split; [auto|]). exists r, (left ++ f). auto. Qed.

Lemma EX_end : forall f z r left rE, EX f z r left [] rE -> r = rE /\ left = [] /\ f = [].
Proof.
  intros f z r left rE (_ & _ & _ & _ & E). remember (left ++ f) as x eqn:Ex. inversion E; subst.
  split; [auto|]. destruct left; [auto|discriminate].
Qed.

Lemma enc_size_ne : forall v, enc_size v <> [].
Proof. intros v. unfold enc_size. destruct (Z.abs v <? 64); discriminate. Qed.

Lemma DT_SZ : forall f z r left v rest rE, bytes_ok f -> DT f z r left (enc_size v ++ rest) rE -> - 2 ^ 27 < v < 2 ^ 27 ->
  SZ f z r left v rest rE.
Proof.
  intros f z r left v rest rE Hf (A & B & C & D & r0 & i0 & E & F) Hv.
  apply pulls_split in F. destruct F as (r1 & i1 & F & G).
  assert (F' : pulls r (left ++ f) (enc_size v) r1 i1).
  { eapply pulls_transfer; [symmetry; exact E|apply enc_size_ne|exact F]. }
  destruct (us_enc Hword v z r (left ++ f) r1 i1 F' A) as (z1 & U & V); auto.
  { apply Forall_app; auto. }
  unfold SZ. do 2 (split; [auto|]). split; [intros X; congruence|]. split; [auto|]. split; [auto|].
  exists z1, r1, i1. auto.
Qed.

Lemma size_step : forall f z r left v rest rE, bytes_ok f -> SZ f z r left v rest rE ->
  (exists z1 r1, unpack_size z r left = Ret (1, 0, z1, r1, []) /\ SZ f z1 r1 [] v rest rE /\ f <> []) \/
  (exists z1 r1 left1, unpack_size z r left = Ret (0, v, z1, r1, left1) /\ EX f z1 r1 left1 rest rE).
Proof.
  intros f z r left v rest rE Hf (A & B & C & D & V & z1 & r1 & i1 & U & Z1 & P).
  assert (Hnl : nozero r left) by (apply (nozero_prefix Hword r left f); auto).
  destruct (unpack_size_spec Hword z r left f A C B Hf D Hnl)
    as [(z2 & r2 & Q1 & Q2 & Q3 & Q4 & Q5)|[(v2 & z2 & r2 & l2 & Q1 & Q2 & Q3 & Q4 & Q5 & Q6 & Q7)|(e & v2 & z2 & r2 & l2 & Q1 & Q2 & Q3)]].
  - left. exists z2, r2. split; [auto|]. split.
    + unfold SZ. cbn [app]. split; [auto|]. split; [constructor|]. split; [auto|]. split; [auto|]. split; [auto|].
      exists z1, r1, i1. rewrite <- Q5. auto.
    + intros ->. rewrite app_nil_r in *. unfold unpack_size in Q1. rewrite us_unpack in Q1 by auto.
      rewrite U in Q1. discriminate.
  - right. rewrite U in Q7. inversion Q7; subst. exists z2, r2, l2. split; [auto|].
    unfold EX. auto 10.
  - exfalso. eapply Q3. exact U.
Qed.

Lemma data_step : forall f z r left n rest rE, bytes_ok f -> DT f z r left rest rE -> 1 <= n <= 128 -> n <= zlen rest ->
  (exists r1, decompress r left n = Ret (1, [], r1, []) /\ DT f z r1 [] rest rE /\ f <> []) \/
  (exists out r1 left1 rest1, decompress r left n = Ret (0, out, r1, left1) /\ out <> [] /\ zlen out <= n /\
     rest = out ++ rest1 /\ DT f z r1 left1 rest1 rE).
Proof.
  intros f z r left n rest rE Hf (A & B & C & D & r0 & i0 & E & F) Hn Hr.
  assert (Hne : rest <> []) by (intros ->; change (zlen (@nil Z)) with 0 in Hr; lia).
  assert (F' : pulls r (left ++ f) rest rE []) by (eapply pulls_transfer; [symmetry; exact E|auto|exact F]).
  destruct (decompress_spec Hword r left n A B Hn) as (res & out & r1 & c1 & S1 & S2 & S3 & S4 & (used & S5) & S6).
  destruct S6 as [(-> & -> & -> & T)|[(-> & T1 & T2 & T3)|(T1 & T2)]].
  - left. exists r1. split; [auto|]. split.
    + unfold DT. cbn [app]. split; [apply S2; lia|]. split; [constructor|]. split; [auto|].
      split; [eapply nozero_eq; [exact D|apply T; auto]|].
      exists r0, i0. split; [|auto]. rewrite <- T by auto. auto.
    + intros ->. specialize (T [] ltac:(constructor)). rewrite app_nil_r in *.
      assert (rok r1) by (apply S2; lia).
      destruct rest as [|b rest]; [congruence|]. apply pulls_cons_inv in F'. destruct F' as (ra & ia & X & _).
      destruct (starve_one Hword r left n r1 []) as (rb & ib & Y); auto. rewrite Y in X. discriminate.
  - right.
    assert (Ho : out <> []).
    { intros ->. destruct (T2 eq_refl f Hf) as (ra & ia & X).
      destruct rest as [|b rest]; [congruence|]. apply pulls_cons_inv in F'. destruct F' as (rb & ib & Y & _).
      rewrite X in Y. discriminate. }
    destruct (T3 Ho f Hf) as (ra & ia & X & Y).
    assert (G : exists o3, rest = out ++ o3 /\ pulls ra ia o3 rE []).
    { destruct (pulls_det _ _ _ _ _ X _ _ _ F') as [G|(o3 & G1 & G2)]; [auto|].
      assert (o3 = []) as -> by (apply zlen_0_nil; rewrite G1, zlen_app in T1; pose proof (zlen_nonneg o3); lia).
      rewrite app_nil_r in G1. exists []. rewrite app_nil_r. split; [auto|].
      inversion G2; subst. constructor. }
    destruct G as (o3 & G1 & G2). exists out, r1, c1, o3. do 4 (split; [auto|]).
    unfold DT. split; [apply S2; lia|]. split; [auto|]. split; [auto|]. split.
    + eapply nozero_eq; [|exact Y]. eapply nozero_pulls; [exact D|exact X].
    + exists ra, ia. auto.
  - exfalso. specialize (T2 f rest rE [] Hf F'). lia.
Qed.

Lemma DT_rok : forall f z r left rest rE, DT f z r left rest rE -> rok r.
Proof. intros f z r left rest rE H. apply H. Qed.

End Feeder.
