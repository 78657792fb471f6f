(** What is created does not depend on the suffix array algorithm. *)

From Coq Require Import ZArith List Bool Lia ZifyBool ZifyNat ZifyN Permutation Sorted.
From Verif Require Import Prelude Lib Spec Bsdiff BsdiffSpec PyCreate PyInPlace PyApply PyOther PyBsdiff40 CreateExamples InPlaceSpec InPlaceExamples SuffixUnique.
Import ListNotations.
Open Scope Z_scope.

Lemma same_sequential : forall sa1 sa2 from, is_suffix_array sa1 from -> is_suffix_array sa2 from -> forall c hs to,
  create_sequential c hs sa1 from to = create_sequential c hs sa2 from to.
Proof. intros sa1 sa2 from H1 H2 c hs to. rewrite (suffix_array_unique from sa1 sa2 H1 H2). reflexivity. Qed.

Lemma same_sequential_with : forall sa1 sa2 from, is_suffix_array sa1 from -> is_suffix_array sa2 from -> forall number compress to,
  create_sequential_with number compress sa1 from to = create_sequential_with number compress sa2 from to.
Proof. intros sa1 sa2 from H1 H2 number compress to. rewrite (suffix_array_unique from sa1 sa2 H1 H2). reflexivity. Qed.

Lemma same_bsdiff : forall sa1 sa2 from, is_suffix_array sa1 from -> is_suffix_array sa2 from -> forall bz to,
  create_patch_bsdiff bz sa1 from to = create_patch_bsdiff bz sa2 from to.
Proof. intros sa1 sa2 from H1 H2 bz to. rewrite (suffix_array_unique from sa1 sa2 H1 H2). reflexivity. Qed.

Lemma same_segments : forall sa1 sa2, (forall l, sa1 l = sa2 l) -> forall segment shift from to n i,
  create_in_place_segments sa1 segment shift from to n i = create_in_place_segments sa2 segment shift from to n i.
Proof.
  intros sa1 sa2 H segment shift from to. induction n as [|n IH]; intros i; cbn [create_in_place_segments]; [reflexivity|]. rewrite H, IH. reflexivity.
Qed.

Lemma same_in_place : forall sa1 sa2, (forall l, is_suffix_array (sa1 l) l) -> (forall l, is_suffix_array (sa2 l) l) ->
  forall c hs memory segment minimum from to, create_in_place c hs sa1 memory segment minimum from to = create_in_place c hs sa2 memory segment minimum from to.
Proof.
  intros sa1 sa2 H1 H2 c hs memory segment minimum from to. unfold create_in_place.
  assert (E : forall l, sa1 l = sa2 l) by (intros l; eapply suffix_array_unique; eauto). rewrite !(same_segments sa1 sa2 E). reflexivity.
Qed.

Lemma same_in_place_with : forall sa1 sa2, (forall l, is_suffix_array (sa1 l) l) -> (forall l, is_suffix_array (sa2 l) l) ->
  forall number compress memory segment minimum from to,
  create_in_place_with number compress sa1 memory segment minimum from to = create_in_place_with number compress sa2 memory segment minimum from to.
Proof.
  intros sa1 sa2 H1 H2 number compress memory segment minimum from to. unfold create_in_place_with.
  assert (E : forall l, sa1 l = sa2 l) by (intros l; eapply suffix_array_unique; eauto). rewrite !(same_segments sa1 sa2 E). reflexivity.
Qed.

(** ** There is one: by insertion sort *)

Lemma lex_total : forall a b, lex_le a b = true \/ lex_le b a = true.
Proof.
  induction a as [|x a IH]; intros [|y b]; cbn [lex_le]; auto. destruct (Z.eqb_spec x y) as [->|E].
  - rewrite Z.eqb_refl. apply IH.
  - destruct (Z.eqb_spec y x); [congruence|]. lia.
Qed.

Lemma lex_trans : forall a b c, lex_le a b = true -> lex_le b c = true -> lex_le a c = true.
Proof.
  induction a as [|x a IH]; intros [|y b] [|z c] H1 H2; cbn [lex_le] in *; try reflexivity; try discriminate.
  destruct (Z.eqb_spec x y) as [->|E1].
  - destruct (Z.eqb_spec y z) as [->|E2]; [eapply IH; eauto|exact H2].
  - destruct (Z.eqb_spec y z) as [->|E2]; [destruct (Z.eqb_spec x z); [congruence|exact H1]|]. destruct (Z.eqb_spec x z); lia.
Qed.

Lemma insert_perm : forall l p ps, Permutation (insert_suffix l p ps) (p :: ps).
Proof. induction ps as [|q ps IH]; cbn [insert_suffix]; [reflexivity|]. destruct (lex_le _ _); [reflexivity|]. rewrite IH. apply perm_swap. Qed.

Lemma insert_sorted : forall l p ps, StronglySorted (fun a b => lex_le (zdrop a l) (zdrop b l) = true) ps ->
  StronglySorted (fun a b => lex_le (zdrop a l) (zdrop b l) = true) (insert_suffix l p ps).
Proof.
  intros l p. induction 1 as [|q ps S IH F]; cbn [insert_suffix]; [repeat constructor|]. destruct (lex_le (zdrop p l) (zdrop q l)) eqn:E.
  - constructor; [constructor; assumption|]. constructor; [exact E|]. eapply Forall_impl; [|exact F]. cbv beta. intros a Ha. eapply lex_trans; eauto.
  - constructor; [exact IH|]. rewrite Forall_forall in *. intros a Ha. apply (Permutation_in _ (insert_perm l p ps)) in Ha. destruct Ha as [<-|Ha]; [|auto].
    destruct (lex_total (zdrop p l) (zdrop q l)); congruence.
Qed.

Lemma sorted_nth : forall (R : Z -> Z -> Prop) l, (forall a, R a a) -> StronglySorted R l -> forall i j p q, 0 <= i <= j -> znth l i = Some p -> znth l j = Some q -> R p q.
Proof.
  intros R l Hr. induction 1 as [|a l S IH F]; intros i j p q Hij Hp Hq; unfold znth in *; destruct (Z.ltb_spec i 0), (Z.ltb_spec j 0); try lia.
  - destruct (Z.to_nat i); discriminate Hp.
  - destruct (Z.to_nat i) as [|k] eqn:Ei.
    + cbn in Hp. injection Hp as <-. destruct (Z.to_nat j) as [|m] eqn:Ej; cbn [nth_error] in Hq; [injection Hq as <-; apply Hr|].
      rewrite Forall_forall in F. apply F. eapply nth_error_In. exact Hq.
    + destruct (Z.to_nat j) as [|m] eqn:Ej; [lia|]. cbn [nth_error] in *. apply (IH (Z.of_nat k) (Z.of_nat m)); [lia| |].
      * destruct (Z.ltb_spec (Z.of_nat k) 0); [lia|]. rewrite Nat2Z.id. exact Hp.
      * destruct (Z.ltb_spec (Z.of_nat m) 0); [lia|]. rewrite Nat2Z.id. exact Hq.
Qed.

Lemma sort_suffixes_suffix_array : forall l, is_suffix_array (sort_suffixes l) l.
Proof.
  intros l. split; [apply sort_suffixes_ok|]. split.
  - unfold sort_suffixes. assert (P : forall ps, Permutation (fold_right (insert_suffix l) [] ps) ps).
    { induction ps as [|p ps IH]; cbn [fold_right]; [reflexivity|]. rewrite insert_perm. constructor. exact IH. }
    eapply Permutation_NoDup; [symmetry; apply P|]. unfold addresses. apply FinFun.Injective_map_NoDup; [intros a b; lia|apply seq_NoDup].
  - apply (sorted_nth (fun a b => lex_le (zdrop a l) (zdrop b l) = true)); [intros a; destruct (lex_total (zdrop a l) (zdrop a l)); assumption|].
    unfold sort_suffixes. induction (addresses 0 (zlen l + 1)) as [|p ps IH]; cbn [fold_right]; [constructor|]. apply insert_sorted. exact IH.
Qed.
