(** A file has only one suffix array, so that what is created does not depend on the
    algorithm that made it. *)

From Coq Require Import ZArith List Bool Lia ZifyBool ZifyNat ZifyN Permutation Sorted.
From Verif Require Import Prelude Lib Spec BsdiffSpec.
Import ListNotations.
Open Scope Z_scope.

Lemma sorted_unique : forall (R : Z -> Z -> Prop) l1 l2, (forall a b, In a l1 -> In b l1 -> R a b -> R b a -> a = b) ->
  StronglySorted R l1 -> StronglySorted R l2 -> Permutation l1 l2 -> l1 = l2.
Proof.
  intros R. induction l1 as [|a l1 IH]; intros l2 Has S1 S2 P; [apply Permutation_nil in P; auto|].
  destruct l2 as [|b l2]; [symmetry in P; apply Permutation_nil in P; discriminate P|].
  inversion S1 as [|? ? T1 F1]; subst. inversion S2 as [|? ? T2 F2]; subst. rewrite Forall_forall in F1, F2.
  assert (E : a = b).
  { assert (A : In a (b :: l2)) by (eapply Permutation_in; [exact P|left; reflexivity]).
    assert (B : In b (a :: l1)) by (eapply Permutation_in; [symmetry; exact P|left; reflexivity]).
    destruct A as [A|A]; [auto|]. destruct B as [B|B]; [auto|]. apply Has; [left; reflexivity|right; exact B| |].
    - apply F1; exact B.
    - apply F2; exact A. }
  subst b. f_equal. apply IH; auto; [intros x y Hx Hy; apply Has; right; assumption|]. eapply Permutation_cons_inv. exact P.
Qed.

Lemma lex_antisym : forall a b, lex_le a b = true -> lex_le b a = true -> a = b.
Proof.
  induction a as [|x a IH]; intros [|y b] H1 H2; cbn [lex_le] in *; try discriminate; [reflexivity|].
  destruct (Z.eqb_spec x y) as [->|E].
  - rewrite Z.eqb_refl in H2. f_equal. apply IH; assumption.
  - destruct (Z.eqb_spec y x); [congruence|]. lia.
Qed.

Lemma suffix_inj : forall (from : list Z) p q, 0 <= p <= zlen from -> 0 <= q <= zlen from -> zdrop p from = zdrop q from -> p = q.
Proof. intros from p q Hp Hq E. apply (f_equal zlen) in E. rewrite !zlen_zdrop in E by lia. lia. Qed.

Lemma znth_nth : forall (l : list Z) k d, (k < length l)%nat -> znth l (Z.of_nat k) = Some (nth k l d).
Proof.
  intros l k d Hk. unfold znth. destruct (Z.ltb_spec (Z.of_nat k) 0); [lia|]. rewrite Nat2Z.id. apply nth_error_nth'. exact Hk.
Qed.

Lemma array_sorted : forall sa from, is_suffix_array sa from -> StronglySorted (fun p q => lex_le (zdrop p from) (zdrop q from) = true) sa.
Proof.
  intros sa from (_ & _ & H). revert H. induction sa as [|a sa IH]; intros H; constructor.
  - apply IH. intros i j p q Hij Hp Hq. apply (H (i + 1) (j + 1)); [lia| |]; unfold znth in *.
    + destruct (Z.ltb_spec i 0); [lia|]. destruct (Z.ltb_spec (i + 1) 0); [lia|]. replace (Z.to_nat (i + 1)) with (Datatypes.S (Z.to_nat i)) by lia. exact Hp.
    + destruct (Z.ltb_spec j 0); [lia|]. destruct (Z.ltb_spec (j + 1) 0); [lia|]. replace (Z.to_nat (j + 1)) with (Datatypes.S (Z.to_nat j)) by lia. exact Hq.
  - apply Forall_forall. intros b Hb. destruct (In_nth sa b 0 Hb) as (k & Hk & E). apply (H 0 (Z.of_nat k + 1)); [lia|reflexivity|].
    unfold znth. destruct (Z.ltb_spec (Z.of_nat k + 1) 0); [lia|]. replace (Z.to_nat (Z.of_nat k + 1)) with (Datatypes.S k) by lia. cbn [nth_error]. rewrite (nth_error_nth' sa 0 Hk). congruence.
Qed.

Lemma array_range : forall sa from, is_suffix_array sa from -> Permutation sa (map Z.of_nat (seq 0 (length sa))).
Proof.
  intros sa from ((Hl & Hr) & Hn & _). apply NoDup_Permutation_bis; auto.
  - rewrite map_length, seq_length. reflexivity.
  - intros p Hp. rewrite Forall_forall in Hr. specialize (Hr p Hp). apply in_map_iff. exists (Z.to_nat p). split; [lia|]. apply in_seq. unfold zlen in *. lia.
Qed.

Theorem suffix_array_unique : forall from sa1 sa2, is_suffix_array sa1 from -> is_suffix_array sa2 from -> sa1 = sa2.
Proof.
  intros from sa1 sa2 H1 H2. eapply sorted_unique; [|apply array_sorted; exact H1|apply array_sorted; exact H2|].
  - destruct H1 as ((_ & Hr) & _). rewrite Forall_forall in Hr. intros a b Ha Hb L1 L2. apply (suffix_inj from); auto. apply lex_antisym; assumption.
  - pose proof (array_range _ _ H1) as P1. pose proof (array_range _ _ H2) as P2.
    assert (E : length sa1 = length sa2) by (destruct H1 as ((L1 & _) & _), H2 as ((L2 & _) & _); unfold zlen in *; lia).
    rewrite E in P1. etransitivity; [exact P1|symmetry; exact P2].
Qed.
