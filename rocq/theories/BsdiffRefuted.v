(** Overflow in bsdiff for matches of 2^30 bytes (C27), and a match that is not
    the longest (C28). *)

From Coq Require Import ZArith List Bool Lia ZifyBool ZifyNat ZifyN.
From Verif Require Import Prelude Lib Spec PySize Bsdiff BsdiffSpec BsdiffProofs.
Import ListNotations.
Open Scope Z_scope.

Ltac Zify.zify_post_hook ::= Z.to_euclidean_division_equations.

Fixpoint down (k : nat) : list Z :=
  Z.of_nat k :: match k with O => [] | S k' => down k' end.

Lemma znth_cons_pos : forall (x : Z) l i, 0 < i -> znth (x :: l) i = znth l (i - 1).
Proof.
  intros x l i Hi. unfold znth. destruct (Z.ltb_spec i 0); [lia|]. destruct (Z.ltb_spec (i - 1) 0); [lia|].
  replace (Z.to_nat i) with (S (Z.to_nat (i - 1))) by lia. reflexivity.
Qed.

Lemma down_nth : forall k i, 0 <= i <= Z.of_nat k -> znth (down k) i = Some (Z.of_nat k - i).
Proof.
  induction k; intros i Hi.
  - replace i with 0 by lia. reflexivity.
  - destruct (Z.eq_dec i 0) as [->|]; [rewrite Z.sub_0_r; reflexivity|]. cbn [down]. rewrite znth_cons_pos by lia. rewrite IHk by lia. f_equal. lia.
Qed.

Lemma zlen_down : forall k, zlen (down k) = Z.of_nat k + 1.
Proof. induction k; [reflexivity|]. cbn [down]. rewrite zlen_cons, IHk. lia. Qed.

Lemma down_in : forall k p, In p (down k) -> 0 <= p <= Z.of_nat k.
Proof.
  induction k; intros p; cbn [down]; intros [<-|H].
  - lia.
  - destruct H.
  - lia.
  - apply IHk in H. lia.
Qed.

Lemma down_nodup : forall k, NoDup (down k).
Proof. induction k; cbn [down]; constructor; auto; [constructor|]. intros H. apply down_in in H. lia. Qed.

Lemma zdrop_zrepeat : forall (x : Z) p n, 0 <= p <= n -> zdrop p (zrepeat x n) = zrepeat x (n - p).
Proof.
  intros x p n Hp. rewrite <- (zdrop_app_exact p (zrepeat x p) (zrepeat x (n - p))) by (rewrite zlen_zrepeat; lia).
  rewrite <- zrepeat_add by lia. f_equal. f_equal. lia.
Qed.

Lemma znth_zrepeat : forall (x : Z) n i, 0 <= i < n -> znth (zrepeat x n) i = Some x.
Proof.
  intros x n i Hi. unfold znth. destruct (Z.ltb_spec i 0); [lia|]. unfold zrepeat. apply nth_error_repeat. lia.
Qed.

Lemma lex_repeat : forall k1 k2, (k1 <= k2)%nat -> lex_le (repeat 0 k1) (repeat 0 k2) = true.
Proof. induction k1; intros [|k2] H; cbn [repeat lex_le]; try reflexivity; [lia|]. rewrite Z.eqb_refl. apply IHk1. lia. Qed.

Lemma lcp_repeat : forall k1 k2, lcp (repeat 0 k1) (repeat 0 k2) = Z.of_nat (Nat.min k1 k2).
Proof. induction k1; intros [|k2]; cbn [repeat lcp]; try reflexivity. rewrite Z.eqb_refl, IHk1. lia. Qed.

Section Zeros.
Variable n : Z.
Hypothesis Hn : 1073741824 <= n < 2147483648.
Let z := zrepeat 0 n.
Let sa := down (Z.to_nat n).

Lemma zlen_z : zlen z = n.
Proof. apply zlen_zrepeat. lia. Qed.

Lemma zeros_sorted : is_suffix_array sa z.
Proof.
  split; [split|split].
  - unfold sa. rewrite zlen_down, zlen_z. lia.
  - rewrite zlen_z. apply Forall_forall. intros p H. apply down_in in H. lia.
  - apply down_nodup.
  - intros i j p q Hij Hi Hj. assert (0 <= j < zlen sa) by (eapply znth_some_range; eauto). unfold sa in *. rewrite zlen_down in *.
    rewrite down_nth in Hi, Hj by lia. injection Hi as <-. injection Hj as <-. unfold z. rewrite !zdrop_zrepeat by lia. unfold zrepeat. apply lex_repeat. lia.
Qed.

Lemma rd_z : forall i, 0 <= i < n -> rd z i = Ret 0.
Proof. intros i Hi. unfold rd, z. rewrite znth_zrepeat by lia. reflexivity. Qed.

Lemma rd_sa : forall i, 0 <= i <= n -> rd sa i = Ret (n - i).
Proof. intros i Hi. unfold rd, sa. rewrite down_nth by lia. rewrite Z2Nat.id by lia. reflexivity. Qed.

Lemma memcmp_zeros : forall k fo t, 0 <= fo -> 0 <= t -> fo + Z.of_nat k <= n -> t + Z.of_nat k <= n -> memcmp_less k z fo z t = Ret false.
Proof.
  induction k; intros fo t H1 H2 H3 H4; cbn [memcmp_less]; [reflexivity|]. rewrite !rd_z by lia. cbn [obind]. rewrite Z.eqb_refl. apply IHk; lia.
Qed.

Lemma search_zeros : forall fuel t e, 0 <= t < n -> 1 <= e <= n -> e <= Z.of_nat fuel ->
  search fuel sa z n z t (n - t) 0 e = Ret (1, n - 1).
Proof.
  induction fuel; intros t e Ht He Hf; [lia|]. cbn [search]. rewrite ci_ok by lia. cbn [obind]. rewrite Z.sub_0_r. destruct (Z.ltb_spec e 2).
  - assert (e = 1) by lia. subst e. rewrite rd_sa by lia. cbn [obind]. rewrite ci_ok by lia. cbn [obind]. rewrite Z.sub_0_r.
    pose proof zlen_z as L. replace (matchlen z n (n - n) z t (n - t)) with (Ret 0).
    2: { unfold matchlen. replace (Z.to_nat (Z.min (n - n) (n - t))) with O by lia. reflexivity. }
    cbn [obind]. rewrite rd_sa by lia. cbn [obind]. rewrite ci_ok by lia. cbn [obind].
    replace (matchlen z (n - 1) (n - (n - 1)) z t (n - t)) with (Ret 1).
    2: { unfold matchlen. replace (Z.to_nat (Z.min (n - (n - 1)) (n - t))) with 1%nat by lia. cbn [matchlen_loop]. rewrite !rd_z by lia. cbn [obind]. rewrite Z.eqb_refl. reflexivity. }
    cbn [obind]. reflexivity.
  - rewrite Z.add_0_l. rewrite ci_ok by lia. cbn [obind]. rewrite rd_sa by lia. cbn [obind]. rewrite ci_ok by lia. cbn [obind].
    rewrite memcmp_zeros by lia. cbn [obind]. apply IHfuel; lia.
Qed.

Lemma to_int_n : to_int n = n.
Proof. apply to_int_small. unfold INT_MIN, INT_MAX. lia. Qed.

Lemma scan_zeros : forall scan len pos, 0 <= scan < n ->
  scan_loop (length z) sa z z 0 scan len pos scan 0 = Ret (scan, 1, n - 1, 1).
Proof.
  intros scan len pos Hs. pose proof zlen_z as L. destruct (length z) as [|k] eqn:E; [unfold zlen in L; lia|]. cbn [scan_loop]. cbv zeta. rewrite L, to_int_n.
  destruct (Z.ltb_spec scan n); [|lia]. rewrite ci_ok by lia. cbn [obind].
  rewrite search_zeros; [|lia|lia|pose proof (zlen_down (Z.to_nat n)) as Ls; change (down (Z.to_nat n)) with sa in Ls; unfold zlen in Ls; lia]. cbn [obind].
  rewrite ci_ok by lia. cbn [obind].
  assert (Sc : score_loop (S (length z)) z z 0 (scan + 1) scan 0 = Ret (scan + 1, 1)).
  { cbn [score_loop]. destruct (Z.ltb_spec scan (scan + 1)); [|lia]. unfold old_match. rewrite Z.add_0_r. rewrite ci_ok by lia. cbn [obind]. rewrite L.
    destruct (Z.ltb_spec scan n); [|lia]. rewrite rd_z by lia. cbn [obind]. rewrite Z.eqb_refl. rewrite ci_ok by lia. cbn [obind]. rewrite ci_ok by lia. cbn [obind].
    rewrite E. cbn [score_loop]. destruct (Z.ltb_spec (scan + 1) (scan + 1)); [lia|]. reflexivity. }
  rewrite Sc. cbn [obind]. reflexivity.
Qed.

Lemma forward_zeros : forall k i, 0 <= i < 1073741824 -> 1073741824 - i <= Z.of_nat k ->
  forward_loop k z z n 0 0 i i i i = Undef.
Proof.
  induction k; intros i Hi Hk; [lia|]. cbn [forward_loop]. rewrite Z.add_0_l. rewrite ci_ok by lia. cbn [obind]. destruct (Z.ltb_spec i n); [|lia].
  rewrite zlen_z. destruct (Z.ltb_spec i n); [|lia]. rewrite rd_z by lia. cbn [obind]. rewrite Z.eqb_refl. rewrite ci_ok by lia. cbn [obind].
  destruct (Z.eq_dec i 1073741823) as [->|]; [reflexivity|].
  repeat (rewrite ci_ok by lia; cbn [obind]).
  destruct (Z.ltb_spec (i * 2 - i) ((i + 1) * 2 - (i + 1))); [|lia]. apply IHk; lia.
Qed.

Lemma create_zeros : forall fuel scan len pos acc, 0 <= scan < n -> (len = 1 \/ scan = 0 /\ len = 0) -> n - scan + (1 - len) <= Z.of_nat fuel ->
  create_loop fuel (n + 1) sa z z scan len pos (mkws 0 0 0) acc = Undef.
Proof.
  pose proof zlen_z as L. induction fuel; intros scan len pos acc Hs Hl Hf; [lia|]. cbn [create_loop]. rewrite L. destruct (Z.ltb_spec scan n); [|lia].
  rewrite ci_ok by lia. cbn [obind last_offset]. destruct (Z.eq_dec (scan + len) n) as [E|E].
  - rewrite E. assert (Sl : scan_loop (length z) sa z z 0 n len pos n 0 = Ret (n, len, pos, 0)).
    { destruct (length z) eqn:K; [unfold zlen in L; lia|]. cbn [scan_loop]. cbv zeta. rewrite L. destruct (Z.ltb_spec n n); [lia|reflexivity]. }
    rewrite Sl. cbn [obind]. rewrite Z.eqb_refl, orb_true_r. unfold write_record. cbn [last_scan last_pos].
    rewrite forward_zeros; [reflexivity|lia|unfold zlen in L; lia].
  - rewrite scan_zeros by lia. cbn [obind]. change (1 =? 1) with true. cbn [negb orb]. destruct (Z.eqb_spec (scan + len) n); [lia|]. apply IHfuel; lia.
Qed.

Lemma create_zeros_undef : create_patch sa z z = Undef.
Proof.
  unfold create_patch. rewrite zlen_z. apply create_zeros; [lia|lia|]. pose proof zlen_z as L. unfold zlen in L. lia.
Qed.
End Zeros.

Lemma c27_refuted : forall n, 2 ^ 30 <= n < 2 ^ 31 ->
  exists sa, is_suffix_array sa (zrepeat 0 n) /\ create_patch sa (zrepeat 0 n) (zrepeat 0 n) = Undef.
Proof.
  intros n Hn. change (2 ^ 30) with 1073741824 in Hn. change (2 ^ 31) with 2147483648 in Hn. exists (down (Z.to_nat n)). split.
  - apply zeros_sorted; auto.
  - apply create_zeros_undef; auto.
Qed.

Lemma c28_refuted : exists sa from to len pos other,
  is_suffix_array sa from /\
  search (length sa) sa from (zlen from) to 0 (zlen to) 0 (zlen from) = Ret (len, pos) /\
  0 <= other <= zlen from /\ len < lcp (zdrop other from) to.
Proof.
  exists [2; 1; 0], [0; 0], [0; 0], 1, 1, 0. split; [|split; [vm_compute; reflexivity|split; [vm_compute; split; discriminate|vm_compute; reflexivity]]].
  split; [split; [reflexivity|repeat constructor; vm_compute; congruence]|]. split.
  - repeat constructor; cbn; intuition discriminate.
  - intros i j p q Hij Hi Hj. assert (0 <= i < 3) by (apply znth_some_range in Hi; exact Hi). assert (0 <= j < 3) by (apply znth_some_range in Hj; exact Hj).
    assert (C : i = 0 \/ i = 1 \/ i = 2) by lia. assert (D : j = 0 \/ j = 1 \/ j = 2) by lia.
    destruct C as [-> | [-> | ->]], D as [-> | [-> | ->]]; vm_compute in Hi, Hj; inversion Hi; inversion Hj; subst; try reflexivity; lia.
Qed.
