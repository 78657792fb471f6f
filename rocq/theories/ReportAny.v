(** Proofs about the ranges printed for an in-place patch of any content. *)

From Coq Require Import ZArith List Bool Lia ZifyBool ZifyNat ZifyN.
From Verif Require Import Prelude Lib PyApply PyApplyInPlace PyInfo PyReport ReportSpec.
Import ListNotations.
Open Scope Z_scope.

Lemma bind_val : forall {A B} (m : pyo A) (k : A -> pyo B) b, pbind m k = ret b -> exists a, m = ret a /\ k a = ret b.
Proof. intros A B [[a|e]| |] k b H; cbn in H; try discriminate H. exists a. split; [reflexivity|exact H]. Qed.

Lemma segments_length : forall D DI count fuel to_pos segment to_size (r : preader D) l,
  info_segments DI count fuel to_pos segment to_size r = ret l -> length l = count.
Proof.
  intros D DI. induction count as [|count IH]; intros fuel to_pos segment to_size r l H; cbn [info_segments] in H; [injection H as <-; reflexivity|].
  apply bind_val in H. destruct H as (((size & n1) & r1) & _ & H).
  apply bind_val in H. destruct H as ((format & r2) & _ & H).
  apply bind_val in H. destruct H as ((info & r5) & _ & H).
  apply bind_val in H. destruct H as (rest & E & H). injection H as <-. cbn [length]. f_equal. exact (IH _ _ _ _ _ _ E).
Qed.

Lemma loop_tiles : forall memory segment shift from_size to_size, 0 < segment -> forall count i, 0 <= i ->
  segment * (i + Z.of_nat count) < to_size + segment -> to_size <= segment * (i + Z.of_nat count) -> segment * i <= to_size ->
  tiles (segment * i) (map snd (report_loop memory segment shift from_size to_size count i)) to_size.
Proof.
  intros memory segment shift from_size to_size Hs. induction count as [|count IH]; intros i Hi H1 H2 H3; cbn [report_loop map snd].
  - replace (segment * i) with to_size by (rewrite Z.add_0_r in H2; lia). constructor.
  - assert (E : segment * (i + Z.of_nat (S count)) = segment * i + segment + segment * Z.of_nat count) by (rewrite Nat2Z.inj_succ; ring).
    assert (E2 : segment * (i + 1) = segment * i + segment) by ring.
    assert (P : 0 <= segment * Z.of_nat count) by (apply Z.mul_nonneg_nonneg; lia).
    rewrite E in H1, H2. constructor; [lia|].
    destruct count as [|count].
    + change (Z.of_nat 0) with 0 in H2. rewrite Z.mul_0_r in H2. rewrite Z.min_r by lia. constructor.
    + assert (Q : segment <= segment * Z.of_nat (S count)).
      { rewrite Nat2Z.inj_succ. replace (segment * Z.succ (Z.of_nat count)) with (segment + segment * Z.of_nat count) by ring.
        assert (0 <= segment * Z.of_nat count) by (apply Z.mul_nonneg_nonneg; lia). lia. }
      rewrite Z.min_l by lia. rewrite <- E2.
      assert (E3 : segment * (i + 1 + Z.of_nat (S count)) = segment * i + segment + segment * Z.of_nat (S count)) by ring.
      apply IH; rewrite ?E3, ?E2; lia.
Qed.

Lemma any_tiles : forall X DI HI fuel patch size number memory segment shift from_size to_size segments,
  patch_info X DI HI fuel patch = ret (InfoInPlace (size, number, (memory, segment, shift, from_size, to_size), segments)) ->
  0 < segment -> 0 <= to_size ->
  tiles 0 (map snd (report_ranges (size, number, (memory, segment, shift, from_size, to_size), segments))) to_size.
Proof.
  intros X DI HI fuel patch size number memory segment shift from_size to_size segments H Hs Ht.
  assert (K : exists D file, read_header_in_place X patch = ret (D, memory, segment, shift, from_size, to_size, file) /\
    (if 0 <? to_size then dop count := range_length to_size segment in info_segments DI count fuel 0 segment to_size (pr_open D file) else ret []) = ret segments).
  { unfold patch_info in H. destruct patch as [|b rest]; [discriminate H|]. destruct (unpack_header b) as (type, num).
    destruct (type =? 0); [apply bind_val in H; destruct H as (? & _ & H); discriminate H|].
    destruct (type =? 1); [|destruct (type =? 2); [apply bind_val in H; destruct H as (? & _ & H); discriminate H|discriminate H]].
    apply bind_val in H. destruct H as (i & H & E). injection E as ->. unfold patch_info_in_place in H.
    apply bind_val in H. destruct H as ((((((( D & m1) & s1) & h1) & f1) & t1) & file) & A & H).
    apply bind_val in H. destruct H as (segs & B & H). injection H as _ _ -> -> -> -> -> ->. exists D, file. split; [exact A|exact B]. }
  destruct K as (D & file & _ & K). cbn [report_ranges].
  replace 0 with (segment * 0) at 1 by ring. destruct (0 <? to_size) eqn:T.
  - apply bind_val in K. destruct K as (count & C & K). apply segments_length in K. rewrite K. unfold range_length in C.
    destruct (segment =? 0) eqn:Z1; [lia|]. destruct (segment <? 0) eqn:Z2; [lia|]. injection C as <-.
    pose proof (Z.div_mod (to_size + segment - 1) segment ltac:(lia)). pose proof (Z.mod_pos_bound (to_size + segment - 1) segment Hs).
    assert (0 <= (to_size + segment - 1) / segment) by (apply Z.div_pos; lia).
    apply loop_tiles; rewrite ?Z2Nat.id, ?Z.add_0_l by lia; lia.
  - injection K as <-. cbn [length report_loop map]. replace (segment * 0) with to_size by lia. constructor.
Qed.
