(** Lemmas about the vocabulary of Prelude.v. *)

From Coq Require Import ZArith List Bool Lia ZifyBool ZifyNat ZifyN.
From Verif Require Import Prelude.
Import ListNotations.
Open Scope Z_scope.

Ltac Zify.zify_post_hook ::= Z.to_euclidean_division_equations.

Lemma obind_ret : forall {A B} (m : outcome A) (k : A -> outcome B) b,
  obind m k = Ret b -> exists a, m = Ret a /\ k a = Ret b.
Proof. intros A B [a| |] k b H; simpl in H; try discriminate; eauto. Qed.

Ltac inv H := inversion H; subst; clear H.

Lemma zlen_nonneg : forall {A} (l : list A), 0 <= zlen l.
Proof. intros; unfold zlen; lia. Qed.

Lemma zlen_nil : forall {A}, zlen (@nil A) = 0.
Proof. reflexivity. Qed.

Lemma zlen_cons : forall {A} (x : A) l, zlen (x :: l) = 1 + zlen l.
Proof. intros; unfold zlen; simpl length; lia. Qed.

Lemma zlen_app : forall {A} (a b : list A), zlen (a ++ b) = zlen a + zlen b.
Proof. intros; unfold zlen; rewrite app_length; lia. Qed.

Lemma zlen_0_nil : forall {A} (l : list A), zlen l = 0 -> l = [].
Proof. intros A [|x l] H; auto. rewrite zlen_cons in H. pose proof (zlen_nonneg l); lia. Qed.

Lemma zlen_pos_cons : forall {A} (l : list A), 0 < zlen l -> exists x t, l = x :: t.
Proof. intros A [|x l] H; [unfold zlen in H; simpl in H; lia | eauto]. Qed.

Lemma zlen_ztake : forall {A} n (l : list A), 0 <= n -> zlen (ztake n l) = Z.min n (zlen l).
Proof. intros; unfold zlen, ztake; rewrite firstn_length; lia. Qed.

Lemma zlen_zdrop : forall {A} n (l : list A), 0 <= n -> zlen (zdrop n l) = Z.max 0 (zlen l - n).
Proof. intros; unfold zlen, zdrop; rewrite skipn_length; lia. Qed.

Lemma zlen_zrepeat : forall {A} (x : A) n, 0 <= n -> zlen (zrepeat x n) = n.
Proof. intros; unfold zlen, zrepeat; rewrite repeat_length; lia. Qed.

Lemma ztake_zdrop : forall {A} n (l : list A), ztake n l ++ zdrop n l = l.
Proof. intros; apply firstn_skipn. Qed.

Lemma ztake_0 : forall {A} (l : list A), ztake 0 l = [].
Proof. reflexivity. Qed.

Lemma zdrop_0 : forall {A} (l : list A), zdrop 0 l = l.
Proof. reflexivity. Qed.

Lemma ztake_neg : forall {A} n (l : list A), n <= 0 -> ztake n l = [].
Proof. intros; unfold ztake; replace (Z.to_nat n) with O by lia; reflexivity. Qed.

Lemma zdrop_neg : forall {A} n (l : list A), n <= 0 -> zdrop n l = l.
Proof. intros; unfold zdrop; replace (Z.to_nat n) with O by lia; reflexivity. Qed.

Lemma ztake_all : forall {A} n (l : list A), zlen l <= n -> ztake n l = l.
Proof. intros; unfold ztake, zlen in *; apply firstn_all2; lia. Qed.

Lemma zdrop_all : forall {A} n (l : list A), zlen l <= n -> zdrop n l = [].
Proof. intros; unfold zdrop, zlen in *; apply skipn_all2; lia. Qed.

Lemma ztake_app_l : forall {A} n (a b : list A), n <= zlen a -> ztake n (a ++ b) = ztake n a.
Proof.
  intros; unfold ztake, zlen in *. rewrite firstn_app.
  replace (Z.to_nat n - length a)%nat with O by lia. simpl. apply app_nil_r.
Qed.

Lemma zdrop_app_l : forall {A} n (a b : list A), n <= zlen a -> zdrop n (a ++ b) = zdrop n a ++ b.
Proof.
  intros; unfold zdrop, zlen in *. rewrite skipn_app.
  replace (Z.to_nat n - length a)%nat with O by lia. reflexivity.
Qed.

Lemma ztake_app_exact : forall {A} n (a b : list A), n = zlen a -> ztake n (a ++ b) = a.
Proof. intros; subst; rewrite ztake_app_l by lia; apply ztake_all; lia. Qed.

Lemma zdrop_app_exact : forall {A} n (a b : list A), n = zlen a -> zdrop n (a ++ b) = b.
Proof. intros; subst; rewrite zdrop_app_l by lia. rewrite zdrop_all by lia; reflexivity. Qed.

Lemma ztake_app_r : forall {A} n (a b : list A),
  zlen a <= n -> ztake n (a ++ b) = a ++ ztake (n - zlen a) b.
Proof.
  intros; unfold ztake, zlen in *. rewrite firstn_app. rewrite firstn_all2 by lia.
  f_equal. f_equal. lia.
Qed.

Lemma zdrop_app_r : forall {A} n (a b : list A),
  zlen a <= n -> zdrop n (a ++ b) = zdrop (n - zlen a) b.
Proof.
  intros; unfold zdrop, zlen in *. rewrite skipn_app. rewrite skipn_all2 by lia.
  simpl. f_equal. lia.
Qed.

Lemma ztake_ztake : forall {A} n m (l : list A), ztake n (ztake m l) = ztake (Z.min n m) l.
Proof.
  intros; unfold ztake. rewrite firstn_firstn. f_equal. lia.
Qed.

Lemma zdrop_zdrop : forall {A} n m (l : list A), 0 <= n -> 0 <= m ->
  zdrop n (zdrop m l) = zdrop (n + m) l.
Proof.
  intros; unfold zdrop. rewrite Z2Nat.inj_add by lia.
  generalize (Z.to_nat n) (Z.to_nat m). clear. intros a b. revert l.
  induction b; intros l; [simpl; f_equal; lia|].
  destruct l; [rewrite !skipn_nil; reflexivity|]. simpl skipn at 2.
  replace (a + S b)%nat with (S (a + b)) by lia. simpl. apply IHb.
Qed.

Lemma ztake_zdrop_comm : forall {A} n m (l : list A), 0 <= n -> 0 <= m ->
  ztake n (zdrop m l) = zdrop m (ztake (n + m) l).
Proof.
  intros; unfold ztake, zdrop. rewrite skipn_firstn_comm. f_equal. lia.
Qed.

Lemma zdrop_cons : forall {A} n (x : A) l, 0 < n -> zdrop n (x :: l) = zdrop (n - 1) l.
Proof.
  intros; unfold zdrop. replace (Z.to_nat n) with (S (Z.to_nat (n - 1))) by lia. reflexivity.
Qed.

Lemma ztake_cons : forall {A} n (x : A) l, 0 < n -> ztake n (x :: l) = x :: ztake (n - 1) l.
Proof.
  intros; unfold ztake. replace (Z.to_nat n) with (S (Z.to_nat (n - 1))) by lia. reflexivity.
Qed.

Lemma ztake_add : forall {A} a b (l : list A), 0 <= a -> 0 <= b ->
  ztake (a + b) l = ztake a l ++ ztake b (zdrop a l).
Proof.
  intros A a b l Ha Hb. unfold ztake, zdrop. rewrite Z2Nat.inj_add by lia.
  generalize (Z.to_nat a) (Z.to_nat b). clear. intros n m. revert l.
  induction n; intros l; [reflexivity|]. destruct l; [simpl; rewrite firstn_nil; reflexivity|].
  simpl. f_equal. apply IHn.
Qed.

Lemma znth_some_range : forall {A} (l : list A) i x, znth l i = Some x -> 0 <= i < zlen l.
Proof.
  intros A l i x H. unfold znth in H. destruct (i <? 0) eqn:E; [discriminate|].
  assert (nth_error l (Z.to_nat i) <> None) by congruence.
  apply nth_error_Some in H0. unfold zlen. lia.
Qed.

Lemma znth_range_some : forall {A} (l : list A) i, 0 <= i < zlen l -> exists x, znth l i = Some x.
Proof.
  intros A l i H. unfold znth. destruct (i <? 0) eqn:E; [lia|].
  destruct (nth_error l (Z.to_nat i)) eqn:F; [eauto|].
  apply nth_error_None in F. unfold zlen in H. lia.
Qed.

Lemma znth_cons_0 : forall {A} (x : A) l, znth (x :: l) 0 = Some x.
Proof. reflexivity. Qed.

Lemma znth_app_l : forall {A} (a b : list A) i, i < zlen a -> znth (a ++ b) i = znth a i.
Proof.
  intros A a b i H. unfold znth. destruct (i <? 0) eqn:E; [reflexivity|].
  apply nth_error_app1. unfold zlen in H. lia.
Qed.

Lemma znth_app_r : forall {A} (a b : list A) i, zlen a <= i -> znth (a ++ b) i = znth b (i - zlen a).
Proof.
  intros A a b i H. unfold znth, zlen in *. destruct (i <? 0) eqn:E; [lia|].
  destruct (i - Z.of_nat (length a) <? 0) eqn:F; [lia|].
  rewrite nth_error_app2 by lia. f_equal. lia.
Qed.

Lemma znth_zdrop : forall {A} (l : list A) n i, 0 <= n -> 0 <= i -> znth (zdrop n l) i = znth l (n + i).
Proof.
  intros A l n i Hn Hi. unfold znth, zdrop.
  destruct (i <? 0) eqn:E; [lia|]. destruct (n + i <? 0) eqn:F; [lia|].
  rewrite Z2Nat.inj_add by lia. generalize (Z.to_nat n) (Z.to_nat i). clear.
  intros n i. revert l. induction n; intros l; [reflexivity|].
  destruct l; [simpl; destruct i; reflexivity|]. simpl. apply IHn.
Qed.

Lemma znth_ztake : forall {A} (l : list A) n i, i < n -> znth (ztake n l) i = znth l i.
Proof.
  intros A l n i H. unfold znth, ztake. destruct (i <? 0) eqn:E; [reflexivity|].
  assert (Hlt : (Z.to_nat i < Z.to_nat n)%nat) by lia. revert Hlt.
  generalize (Z.to_nat n) (Z.to_nat i). clear.
  intros n i. revert l i. induction n; intros l i H; [lia|].
  destruct l; [destruct i; reflexivity|]. destruct i; [reflexivity|]. simpl. apply IHn. lia.
Qed.

Lemma ztake_1_znth : forall {A} (l : list A) i x, znth l i = Some x -> ztake 1 (zdrop i l) = [x].
Proof.
  intros A l i x H. pose proof (znth_some_range _ _ _ H).
  assert (znth (zdrop i l) 0 = Some x) by (rewrite znth_zdrop by lia; rewrite Z.add_0_r; auto).
  destruct (zdrop i l); [discriminate|]. inv H1. reflexivity.
Qed.

Lemma zdrop_znth_cons : forall {A} (l : list A) i x, znth l i = Some x ->
  zdrop i l = x :: zdrop (i + 1) l.
Proof.
  intros A l i x H. pose proof (znth_some_range _ _ _ H).
  replace (i + 1) with (1 + i) by lia. rewrite <- zdrop_zdrop by lia.
  pose proof (ztake_1_znth _ _ _ H) as T.
  rewrite <- (ztake_zdrop 1 (zdrop i l)) at 1. rewrite T. reflexivity.
Qed.

Lemma upd_length : forall {A} (l : list A) n x, length (upd l n x) = length l.
Proof. induction l; intros [|n] x; simpl; auto. Qed.

Lemma zupd_some : forall {A} (l : list A) i x, 0 <= i < zlen l ->
  zupd l i x = Some (upd l (Z.to_nat i) x).
Proof. intros; unfold zupd. destruct ((0 <=? i) && (i <? zlen l)) eqn:E; [reflexivity|lia]. Qed.

Lemma zlen_upd : forall {A} (l : list A) n x, zlen (upd l n x) = zlen l.
Proof. intros; unfold zlen; rewrite upd_length; reflexivity. Qed.

Lemma nth_error_upd_same : forall {A} (l : list A) n x, (n < length l)%nat ->
  nth_error (upd l n x) n = Some x.
Proof. induction l; intros [|n] x H; simpl in *; try lia; auto. apply IHl; lia. Qed.

Lemma nth_error_upd_diff : forall {A} (l : list A) n m x, n <> m ->
  nth_error (upd l n x) m = nth_error l m.
Proof. induction l; intros [|n] [|m] x H; simpl in *; auto; try lia. Qed.

Lemma znth_upd_same : forall {A} (l : list A) i x, 0 <= i < zlen l ->
  znth (upd l (Z.to_nat i) x) i = Some x.
Proof.
  intros. unfold znth. destruct (i <? 0) eqn:E; [lia|]. apply nth_error_upd_same.
  unfold zlen in *; lia.
Qed.

Lemma znth_upd_diff : forall {A} (l : list A) i j x, 0 <= i -> i <> j ->
  znth (upd l (Z.to_nat i) x) j = znth l j.
Proof.
  intros. unfold znth. destruct (j <? 0) eqn:E; [reflexivity|]. apply nth_error_upd_diff. lia.
Qed.

Lemma Forall_upd : forall {A} (P : A -> Prop) l n x, Forall P l -> P x -> Forall P (upd l n x).
Proof.
  induction l; intros [|n] x Hl Hx; simpl; auto; inv Hl; constructor; auto.
Qed.

Lemma Forall_ztake : forall {A} (P : A -> Prop) n l, Forall P l -> Forall P (ztake n l).
Proof.
  intros. unfold ztake. rewrite Forall_forall in *. intros x Hx. apply H.
  rewrite <- (firstn_skipn (Z.to_nat n) l). apply in_or_app; auto.
Qed.

Lemma Forall_zdrop : forall {A} (P : A -> Prop) n l, Forall P l -> Forall P (zdrop n l).
Proof.
  intros. unfold zdrop. rewrite Forall_forall in *. intros x Hx. apply H.
  rewrite <- (firstn_skipn (Z.to_nat n) l). apply in_or_app; auto.
Qed.

Lemma Forall_znth : forall {A} (P : A -> Prop) l i x, Forall P l -> znth l i = Some x -> P x.
Proof.
  intros A P l i x HF H. unfold znth in H. destruct (i <? 0); [discriminate|].
  apply nth_error_In in H. rewrite Forall_forall in HF. auto.
Qed.

Lemma Forall_zrepeat : forall {A} (P : A -> Prop) x n, P x -> Forall P (zrepeat x n).
Proof.
  intros. unfold zrepeat. rewrite Forall_forall. intros y Hy. apply repeat_spec in Hy. subst; auto.
Qed.

Lemma zrepeat_cons : forall {A} (x : A) n, 0 < n -> zrepeat x n = x :: zrepeat x (n - 1).
Proof.
  intros; unfold zrepeat. replace (Z.to_nat n) with (S (Z.to_nat (n - 1))) by lia. reflexivity.
Qed.

Lemma zrepeat_0 : forall {A} (x : A) n, n <= 0 -> zrepeat x n = [].
Proof. intros; unfold zrepeat; replace (Z.to_nat n) with O by lia; reflexivity. Qed.

Lemma zrepeat_add : forall {A} (x : A) a b, 0 <= a -> 0 <= b ->
  zrepeat x (a + b) = zrepeat x a ++ zrepeat x b.
Proof. intros; unfold zrepeat; rewrite Z2Nat.inj_add by lia; apply repeat_app. Qed.

(** Bits. *)

Lemma land_ones_mod : forall a n, 0 <= n -> Z.land a (2 ^ n - 1) = a mod 2 ^ n.
Proof. intros. rewrite <- Z.land_ones by lia. f_equal. rewrite Z.ones_equiv. lia. Qed.

Lemma land_63 : forall a, Z.land a 63 = a mod 64.
Proof. intros. change 63 with (2 ^ 6 - 1). rewrite land_ones_mod by lia. reflexivity. Qed.

Lemma land_127 : forall a, Z.land a 127 = a mod 128.
Proof. intros. change 127 with (2 ^ 7 - 1). rewrite land_ones_mod by lia. reflexivity. Qed.

Lemma land_15 : forall a, Z.land a 15 = a mod 16.
Proof. intros. change 15 with (2 ^ 4 - 1). rewrite land_ones_mod by lia. reflexivity. Qed.

Lemma land_7 : forall a, Z.land a 7 = a mod 8.
Proof. intros. change 7 with (2 ^ 3 - 1). rewrite land_ones_mod by lia. reflexivity. Qed.

Lemma land_255 : forall a, Z.land a 255 = a mod 256.
Proof. intros. change 255 with (2 ^ 8 - 1). rewrite land_ones_mod by lia. reflexivity. Qed.

Lemma land_pow2 : forall a k, 0 <= k -> Z.land a (2 ^ k) = if Z.testbit a k then 2 ^ k else 0.
Proof.
  intros a k Hk. apply Z.bits_inj'. intros n Hn. rewrite Z.land_spec.
  rewrite Z.pow2_bits_eqb by lia.
  destruct (Z.eqb_spec k n).
  - subst. destruct (Z.testbit a n) eqn:E; simpl.
    + rewrite Z.pow2_bits_eqb, Z.eqb_refl by lia. reflexivity.
    + rewrite Z.bits_0. reflexivity.
  - rewrite andb_false_r. destruct (Z.testbit a k).
    + rewrite Z.pow2_bits_eqb by lia. symmetry. apply Z.eqb_neq. auto.
    + rewrite Z.bits_0. reflexivity.
Qed.

Lemma testbit_small : forall a k, 0 <= k -> 0 <= a < 2 ^ (k + 1) ->
  Z.testbit a k = (2 ^ k <=? a).
Proof.
  intros a k Hk Ha.
  rewrite Z.testbit_eqb by lia.
  assert (H2 : 2 ^ (k + 1) = 2 * 2 ^ k) by (rewrite Z.pow_add_r by lia; lia).
  assert (0 < 2 ^ k) by (apply Z.pow_pos_nonneg; lia).
  destruct (Z.leb_spec (2 ^ k) a).
  - assert (a / 2 ^ k = 1). { symmetry; apply Z.div_unique with (a - 2 ^ k); lia. }
    rewrite H1. reflexivity.
  - rewrite Z.div_small by lia. reflexivity.
Qed.

Lemma land_128_byte : forall b, byte_ok b -> (Z.land b 128 =? 0) = (b <? 128).
Proof.
  intros b [H1 H2]. change 128 with (2 ^ 7) at 1. rewrite land_pow2 by lia.
  rewrite testbit_small by (change (2 ^ (7+1)) with 256; lia).
  change (2 ^ 7) with 128. destruct (Z.leb_spec 128 b); lia.
Qed.

Lemma lor_add : forall a b n, 0 <= n -> 0 <= a < 2 ^ n -> 0 <= b ->
  Z.lor a (Z.shiftl b n) = a + b * 2 ^ n.
Proof.
  intros a b n Hn Ha Hb. rewrite Z.shiftl_mul_pow2 by lia.
  rewrite <- Z.lxor_lor; [rewrite <- Z.add_nocarry_lxor; [reflexivity|]|].
  all: apply Z.bits_inj'; intros k Hk; rewrite Z.land_spec, Z.bits_0.
  all: destruct (Z.ltb_spec k n);
       [rewrite Z.mul_pow2_bits_low by lia; apply andb_false_r|].
  all: assert (Z.testbit a k = false) as ->; [|reflexivity].
  all: destruct (Z.eq_dec a 0); [subst; apply Z.bits_0|].
  all: apply Z.bits_above_log2; [lia|].
  all: apply Z.lt_le_trans with n; [apply Z.log2_lt_pow2; lia | lia].
Qed.

Lemma wrap_small : forall `{WordBits} x, 0 <= x < 2 ^ word_bits -> wrap x = x.
Proof. intros. unfold wrap. apply Z.mod_small. auto. Qed.

Lemma pow2_32_le : forall n, 32 <= n -> 4294967296 <= 2 ^ n.
Proof. intros. change 4294967296 with (2 ^ 32). apply Z.pow_le_mono_r; lia. Qed.

Lemma wrap_range : forall `{WordBits} x, 32 <= word_bits -> 0 <= wrap x < 2 ^ word_bits.
Proof. intros. unfold wrap. apply Z.mod_pos_bound. apply Z.pow_pos_nonneg; lia. Qed.

Lemma to_int_small : forall x, INT_MIN <= x <= INT_MAX -> to_int x = x.
Proof. intros. unfold to_int, INT_MIN, INT_MAX in *. rewrite Z.mod_small; lia. Qed.

Lemma bytes_ok_app : forall a b, bytes_ok (a ++ b) <-> bytes_ok a /\ bytes_ok b.
Proof. intros; unfold bytes_ok; apply Forall_app. Qed.
