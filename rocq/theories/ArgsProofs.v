(** Proofs about ranges given on the command line. *)

From Coq Require Import ZArith List Bool Lia ZifyBool ZifyNat ZifyN.
From Verif Require Import Prelude PyApply PyArgs ArgsSpec.
Import ListNotations.
Open Scope Z_scope.

Definition good_digit (base c v : Z) : Prop := digit c = v /\ 0 <= v < base /\ c <> underscore /\ c <> 45 /\ c <> 43 /\ is_space c = false.

Lemma decimal_good : forall c v, decimal_digit c v -> good_digit 10 c v.
Proof.
  intros c v (A & ->). unfold good_digit, digit, is_space, underscore. destruct ((48 <=? 48 + v) && (48 + v <=? 57)) eqn:E; [|lia]. repeat (split; [lia|]). lia.
Qed.

Lemma hex_good : forall c v, hex_digit c v -> good_digit 16 c v.
Proof.
  intros c v [(A & ->)|(A & [->| ->])]; unfold good_digit, digit, is_space, underscore.
  - destruct ((48 <=? 48 + v) && (48 + v <=? 57)) eqn:E; [|lia]. repeat (split; [lia|]). lia.
  - destruct ((48 <=? 97 + (v - 10)) && (97 + (v - 10) <=? 57)) eqn:E; [lia|]. destruct ((97 <=? 97 + (v - 10)) && (97 + (v - 10) <=? 122)) eqn:E2; [|lia]. repeat (split; [lia|]). lia.
  - destruct ((48 <=? 65 + (v - 10)) && (65 + (v - 10) <=? 57)) eqn:E; [lia|]. destruct ((97 <=? 65 + (v - 10)) && (65 + (v - 10) <=? 122)) eqn:E2; [lia|].
    destruct ((65 <=? 65 + (v - 10)) && (65 + (v - 10) <=? 90)) eqn:E3; [|lia]. repeat (split; [lia|]). lia.
Qed.

Lemma digits_all : forall base cs vs acc, Forall2 (good_digit base) cs vs -> digits base acc false cs = Some (fold_left (fun n v => n * base + v) vs acc, []).
Proof.
  intros base cs vs acc H. revert acc. induction H as [|c v cs vs (A & B & C & _) H IH]; intros acc; cbn [digits fold_left]; [reflexivity|].
  destruct (c =? underscore) eqn:E; [lia|]. rewrite A. destruct (v <? base) eqn:E2; [|lia]. apply IH.
Qed.

Lemma value_nonneg : forall base vs acc, 0 <= base -> Forall (fun v => 0 <= v) vs -> 0 <= acc -> 0 <= fold_left (fun n v => n * base + v) vs acc.
Proof. intros base vs acc Hb H. revert acc. induction H as [|v vs A H IH]; intros acc Ha; cbn [fold_left]; [exact Ha|]. apply IH. apply Z.add_nonneg_nonneg; [apply Z.mul_nonneg_nonneg|]; lia. Qed.

Lemma good_all : forall base cs vs, Forall2 (good_digit base) cs vs -> ~ In 45 cs /\ Forall (fun v => 0 <= v) vs.
Proof.
  intros base cs vs H. induction H as [|c v cs vs (A & B & C & D & _) H (I1 & I2)]; [split; [intros []|constructor]|]. split; [|constructor; [lia|exact I2]]. intros [E|E]; [lia|auto].
Qed.

Lemma numeral_int : forall s n, numeral s n -> py_int s = Some n /\ ~ In 45 s /\ 0 <= n.
Proof.
  intros s n [|cs vs v H Hv Nv|x cs vs Hx H Hne].
  - split; [reflexivity|]. split; [intros [E|[]]; discriminate|lia].
  - assert (G : Forall2 (good_digit 10) cs vs) by (clear Hv; induction H; constructor; auto using decimal_good).
    pose proof (good_all _ _ _ G) as (N & P). split; [|split; [exact N|apply value_nonneg; auto; lia]].
    pose proof (digits_all 10 cs vs 0 G) as D. destruct G as [|c v0 cs vs (A & B & C & E1 & E2 & E3) G]; [discriminate Hv|]. cbn [hd_error] in Hv. injection Hv as ->.
    unfold py_int. cbn [skip_spaces]. rewrite E3. destruct (c =? 43) eqn:Q1; [lia|]. destruct (c =? 45) eqn:Q2; [lia|].
    assert (Bp : base_prefix (c :: cs) = (10, false, false, c :: cs)).
    { unfold base_prefix. inversion H as [|? ? ? ? (K1 & K2) _]; subst. assert (K : c <> 48) by lia. destruct c as [|p|p]; try reflexivity. do 6 (destruct p as [p|p|]; try reflexivity). congruence. }
    rewrite Bp. cbn [andb]. rewrite A. destruct (v <? 10) eqn:Q3; [|lia]. rewrite D. reflexivity.
  - assert (G : Forall2 (good_digit 16) cs vs) by (clear Hne; induction H; constructor; auto using hex_good).
    pose proof (good_all _ _ _ G) as (N & P). split; [|split; [|apply value_nonneg; auto; lia]].
    + pose proof (digits_all 16 cs vs 0 G) as D. destruct G as [|c v0 cs vs (A & B & C & E1 & E2 & E3) G]; [congruence|].
      unfold py_int. cbn [skip_spaces]. change (is_space 48) with false. cbn iota. change (48 =? 43) with false. change (48 =? 45) with false. cbn iota.
      assert (Bp : base_prefix (48 :: x :: c :: cs) = (16, false, true, c :: cs)) by (destruct Hx as [-> | ->]; reflexivity).
      rewrite Bp. destruct (c =? underscore) eqn:Q; [lia|]. cbn [andb]. rewrite A. destruct (v0 <? 16) eqn:Q3; [|lia]. rewrite D. reflexivity.
    + intros [E|[E|E]]; [discriminate|lia|auto].
Qed.

Lemma split_none : forall sep s, ~ In sep s -> split_at sep s = (s, []).
Proof. intros sep s H. induction s as [|c s IH]; [reflexivity|]. cbn [split_at]. rewrite IH by (intros E; apply H; right; exact E). destruct (c =? sep) eqn:E; [|reflexivity]. exfalso. apply H. left. lia. Qed.

Lemma split_one : forall sep s1 s2, ~ In sep s1 -> ~ In sep s2 -> split_at sep (s1 ++ sep :: s2) = (s1, [s2]).
Proof.
  intros sep s1 s2 H1 H2. induction s1 as [|c s1 IH]; cbn [app split_at].
  - rewrite split_none by exact H2. rewrite Z.eqb_refl. reflexivity.
  - rewrite IH by (intros E; apply H1; right; exact E). destruct (c =? sep) eqn:E; [|reflexivity]. exfalso. apply H1. left. lia.
Qed.

Lemma split_inv : forall sep s p ps, split_at sep s = (p, ps) -> ~ In sep p /\ (ps = [] -> s = p) /\ (forall q, ps = [q] -> s = p ++ sep :: q /\ ~ In sep q).
Proof.
  intros sep. induction s as [|c s IH]; intros p ps H; cbn [split_at] in H.
  - injection H as <- <-. split; [intros []|]. split; [auto|]. discriminate.
  - destruct (split_at sep s) as [p0 ps0]. destruct (IH p0 ps0 eq_refl) as (A & B & C). destruct (c =? sep) eqn:E; injection H as <- <-.
    + split; [intros []|]. split; [discriminate|]. intros q Hq. injection Hq as -> ->. rewrite (B eq_refl). split; [cbn; f_equal; lia|exact A].
    + split; [intros [Q|Q]; [lia|auto]|]. split; [intros Q; rewrite (B Q); reflexivity|]. intros q Hq. destruct (C q Hq) as (-> & D). auto.
Qed.

Lemma range_understood : forall s1 s2 b e, numeral s1 b -> numeral s2 e ->
  parse_range (Some (s1 ++ 45 :: s2)) = if e <? b then raise DetoolsError else ret (b, e).
Proof.
  intros s1 s2 b e H1 H2. destruct (numeral_int _ _ H1) as (A1 & A2 & _). destruct (numeral_int _ _ H2) as (B1 & B2 & _).
  unfold parse_range. rewrite split_one by auto. unfold parse_integer. rewrite A1, B1. reflexivity.
Qed.

Lemma digit_nonneg : forall c, 0 <= digit c.
Proof. intros c. unfold digit. destruct ((48 <=? c) && (c <=? 57)) eqn:E1; [lia|]. destruct ((97 <=? c) && (c <=? 122)) eqn:E2; [lia|]. destruct ((65 <=? c) && (c <=? 90)) eqn:E3; lia. Qed.

Lemma digits_nonneg : forall base s acc sep n rest, 0 <= base -> 0 <= acc -> digits base acc sep s = Some (n, rest) -> 0 <= n.
Proof.
  intros base. induction s as [|c s IH]; intros acc sep n rest Hb Ha H; cbn [digits] in H.
  - destruct sep; [discriminate|]. injection H as <- _. exact Ha.
  - pose proof (digit_nonneg c). destruct (c =? underscore); [destruct sep; [discriminate|]; exact (IH _ _ _ _ Hb Ha H)|]. destruct (digit c <? base).
    + eapply IH; [exact Hb| |exact H]. apply Z.add_nonneg_nonneg; [apply Z.mul_nonneg_nonneg|]; lia.
    + destruct sep; [discriminate|]. injection H as <- _. exact Ha.
Qed.

Lemma skip_in : forall s c, In c (skip_spaces s) -> In c s.
Proof. induction s as [|x s IH]; intros c H; [destruct H|]. cbn [skip_spaces] in H. destruct (is_space x); [right; auto|exact H]. Qed.

Lemma base_nonneg : forall s base zeros prefix rest, base_prefix s = (base, zeros, prefix, rest) -> 0 <= base.
Proof.
  intros s base zeros prefix rest H. unfold base_prefix in H.
  repeat match type of H with
  | (match ?x with _ => _ end) = _ => destruct x
  | (if ?x then _ else _) = _ => destruct x
  end; injection H as <- <- <- <-; lia.
Qed.

Lemma int_nonneg : forall s n, ~ In 45 s -> py_int s = Some n -> 0 <= n.
Proof.
  intros s n N H. unfold py_int in H. cbv zeta in H. assert (N2 : ~ In 45 (skip_spaces s)) by (intros Q; apply N; apply skip_in; exact Q).
  destruct (match skip_spaces s with [] => _ | c :: s' => _ end) as [neg s1] eqn:E1. assert (neg = false) as ->.
  { destruct (skip_spaces s) as [|c s']; [congruence|]. destruct (c =? 43); [congruence|]. destruct (c =? 45) eqn:Q; [|congruence]. exfalso. apply N2. left. lia. }
  destruct (base_prefix s1) as [[[base zeros] prefix] s2] eqn:E2. apply base_nonneg in E2.
  destruct (match s2 with [] => _ | c :: s' => _ end) as [|c s3]; [discriminate|]. destruct (digit c <? base); [|discriminate].
  destruct (digits base 0 false (c :: s3)) as [[m rest]|] eqn:E3; [|discriminate]. apply digits_nonneg in E3; [|lia|lia]. destruct (zeros && negb (m =? 0)); [discriminate|]. destruct (skip_spaces rest); [|discriminate]. congruence.
Qed.

Lemma range_result : forall v, (exists b e, parse_range v = ret (b, e) /\ 0 <= b <= e) \/ parse_range v = raise DetoolsError.
Proof.
  intros [s|]; [|left; exists 0, 0; split; [reflexivity|lia]]. unfold parse_range. destruct (split_at 45 s) as [s1 [|s2 [|s3 ps]]] eqn:E; auto. destruct (split_inv _ _ _ _ E) as (N1 & _ & C). destruct (C s2 eq_refl) as (_ & N2).
  unfold parse_integer. destruct (py_int s1) as [b|] eqn:B; [|right; reflexivity]. destruct (py_int s2) as [e|] eqn:Q; [|right; reflexivity]. cbn [pbind obind ret].
  destruct (e <? b) eqn:L; [right; reflexivity|]. left. exists b, e. split; [reflexivity|]. pose proof (int_nonneg _ _ N1 B). lia.
Qed.

Lemma range_parts : forall s b e, parse_range (Some s) = ret (b, e) -> exists s1 s2, s = s1 ++ 45 :: s2 /\ ~ In 45 s1 /\ ~ In 45 s2.
Proof.
  intros s b e H. unfold parse_range in H. destruct (split_at 45 s) as [s1 [|s2 [|s3 ps]]] eqn:E; try discriminate H. destruct (split_inv _ _ _ _ E) as (N1 & _ & C). destruct (C s2 eq_refl) as (-> & N2). eauto.
Qed.
