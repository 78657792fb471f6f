(** Proofs about the heatshrink decoder model. *)

From Coq Require Import ZArith List Bool Lia ZifyBool ZifyNat ZifyN.
From Verif Require Import Prelude Lib Heatshrink Spec.
Import ListNotations.
Open Scope Z_scope.

Ltac Zify.zify_post_hook ::= Z.to_euclidean_division_equations.

(** ** Bits *)

(** Value of a bit list, most significant first. *)
Definition bval (l : list bool) : Z := fold_left (fun a b => 2 * a + b2z b) l 0.

Lemma bval_acc : forall l a,
  fold_left (fun a b => 2 * a + b2z b) l a = a * 2 ^ zlen l + bval l.
Proof.
  induction l; intros x.
  - unfold zlen, bval; simpl. lia.
  - unfold bval. cbn [fold_left]. rewrite IHl. rewrite (IHl (2 * 0 + b2z a)). rewrite zlen_cons.
    pose proof (zlen_nonneg l). rewrite Z.pow_add_r by lia. change (2 ^ 1) with 2. ring.
Qed.

Lemma bval_cons : forall b l, bval (b :: l) = b2z b * 2 ^ zlen l + bval l.
Proof. intros. unfold bval at 1. cbn [fold_left]. rewrite bval_acc. lia. Qed.

Lemma b2z_range : forall b, 0 <= b2z b <= 1.
Proof. intros [|]; simpl; lia. Qed.

Lemma bval_range : forall l, 0 <= bval l < 2 ^ zlen l.
Proof.
  induction l.
  - unfold bval, zlen; simpl; lia.
  - rewrite bval_cons, zlen_cons. pose proof (zlen_nonneg l). rewrite Z.pow_add_r by lia.
    change (2 ^ 1) with 2. pose proof (b2z_range a). nia.
Qed.

Lemma to_bits_length : forall n v, length (to_bits n v) = n.
Proof. induction n; simpl; auto. Qed.

Lemma zlen_to_bits : forall n v, zlen (to_bits n v) = Z.of_nat n.
Proof. intros; unfold zlen; rewrite to_bits_length; auto. Qed.

Lemma bval_to_bits : forall n v, bval (to_bits n v) = v mod 2 ^ Z.of_nat n.
Proof.
  induction n; intros v.
  - simpl. unfold bval; simpl. rewrite Z.mod_1_r. reflexivity.
  - simpl to_bits. rewrite bval_cons, IHn, zlen_to_bits.
    replace (Z.of_nat (S n)) with (Z.of_nat n + 1) by lia.
    rewrite Z.pow_add_r by lia. change (2 ^ 1) with 2.
    assert (0 < 2 ^ Z.of_nat n) by (apply Z.pow_pos_nonneg; lia).
    rewrite Z.rem_mul_r by lia.
    rewrite Z.testbit_eqb by lia.
    destruct (Z.eqb_spec ((v / 2 ^ Z.of_nat n) mod 2) 1); simpl b2z.
    + rewrite e. lia.
    + assert ((v / 2 ^ Z.of_nat n) mod 2 = 0)
        by (pose proof (Z.mod_pos_bound (v / 2 ^ Z.of_nat n) 2); lia). rewrite H0. lia.
Qed.

Lemma bytes_bits_app : forall a b, bytes_bits (a ++ b) = bytes_bits a ++ bytes_bits b.
Proof. intros; unfold bytes_bits; apply flat_map_app. Qed.

Lemma zlen_bytes_bits : forall l, zlen (bytes_bits l) = 8 * zlen l.
Proof.
  induction l; [reflexivity|]. unfold bytes_bits in *. cbn [flat_map].
  rewrite zlen_app, IHl, zlen_cons. change (zlen (to_bits 8 a)) with 8. lia.
Qed.

(** ** Decoder state *)

(** Buffered but unread input bytes. *)
Definition dinput (d : hsd) : list Z :=
  ztake (h_input_size d - h_input_index d) (zdrop (h_input_index d) (h_in d)).

(** Number of unread bits of the current byte. *)
Definition cur_bits (d : hsd) : nat :=
  if h_bit_index d =? 0 then O else S (Z.to_nat (Z.log2 (h_bit_index d))).

(** All the bits the decoder can still read. *)
Definition dbits (d : hsd) : list bool :=
  to_bits (cur_bits d) (h_current_byte d) ++ bytes_bits (dinput d).

Definition data_inv (d : hsd) : Prop :=
  zlen (h_in d) = 256 /\ bytes_ok (h_in d) /\
  0 <= h_input_index d /\
  (h_input_size d = 0 /\ h_input_index d = 0 \/ h_input_index d < h_input_size d <= 256) /\
  (h_bit_index d = 0 \/ exists k, 0 <= k <= 7 /\ h_bit_index d = 2 ^ k) /\
  byte_ok (h_current_byte d).

(** The fields get_bits does not touch. *)
Definition same_rest (d d1 : hsd) : Prop :=
  h_output_count d1 = h_output_count d /\ h_output_index d1 = h_output_index d /\
  h_head_index d1 = h_head_index d /\ h_state d1 = h_state d /\ h_win d1 = h_win d.

Lemma same_rest_refl : forall d, same_rest d d.
Proof. intros; repeat split. Qed.

Lemma same_rest_trans : forall a b c, same_rest a b -> same_rest b c -> same_rest a c.
Proof. unfold same_rest; intros; intuition congruence. Qed.

Lemma cur_bits_0 : forall d, h_bit_index d = 0 -> cur_bits d = O.
Proof. intros d H; unfold cur_bits; rewrite H; reflexivity. Qed.

Lemma cur_bits_pow : forall d k, 0 <= k -> h_bit_index d = 2 ^ k -> cur_bits d = S (Z.to_nat k).
Proof.
  intros d k Hk H; unfold cur_bits; rewrite H. assert (0 < 2 ^ k) by (apply Z.pow_pos_nonneg; lia).
  destruct (Z.eqb_spec (2 ^ k) 0); [lia|]. rewrite Z.log2_pow2 by lia. reflexivity.
Qed.

Lemma dinput_nil : forall d, h_input_size d = 0 -> h_input_index d = 0 -> dinput d = [].
Proof. intros d H1 H2; unfold dinput; rewrite H1, H2; reflexivity. Qed.

Lemma zlen_dinput : forall d, data_inv d -> zlen (dinput d) = h_input_size d - h_input_index d.
Proof.
  intros d (Hl & _ & H0 & H & _). unfold dinput.
  rewrite zlen_ztake by lia. rewrite zlen_zdrop by lia. lia.
Qed.

Lemma hs_load_spec : forall d, data_inv d ->
  (dbits d = [] /\ hs_load d = Ret None) \/
  (exists d1 k, hs_load d = Ret (Some d1) /\ data_inv d1 /\ same_rest d d1 /\
     dbits d1 = dbits d /\ 0 <= k <= 7 /\ h_bit_index d1 = 2 ^ k).
Proof.
  intros d Hd. pose proof Hd as (Hl & Hb & H0 & Hsz & Hbit & Hc).
  unfold hs_load. destruct Hbit as [Hz|(k & Hk & Hbit)].
  - rewrite Hz. simpl. destruct Hsz as [[Hs Hi]|Hs].
    + left. rewrite Hs. simpl. split; [|reflexivity].
      unfold dbits. rewrite cur_bits_0 by auto. rewrite dinput_nil by auto. reflexivity.
    + right. destruct (Z.eqb_spec (h_input_size d) 0); [lia|].
      destruct (znth_range_some (h_in d) (h_input_index d)) as [b E]; [lia|].
      rewrite E. assert (byte_ok b) by (eapply Forall_znth; eauto).
      assert (HB : dbits d = to_bits 8 b ++
                 bytes_bits (ztake (h_input_size d - (h_input_index d + 1))
                                   (zdrop (h_input_index d + 1) (h_in d)))).
      { unfold dbits, dinput. rewrite cur_bits_0 by auto. simpl to_bits at 1. simpl app at 1.
        rewrite (zdrop_znth_cons _ _ _ E). rewrite ztake_cons by lia.
        unfold bytes_bits at 1. cbn [flat_map].
        replace (h_input_size d - h_input_index d - 1) with (h_input_size d - (h_input_index d + 1)) by lia.
        reflexivity. }
      destruct (Z.eqb_spec (h_input_index d + 1) (h_input_size d)).
      * exists (set_input d 0 0 b 128), 7. split; [reflexivity|].
        split; [unfold data_inv; simpl; repeat split; auto; try lia; try apply H; right; exists 7; split; [lia|reflexivity]|].
        split; [repeat split|]. split; [|simpl; split; [lia|reflexivity]].
        rewrite HB. unfold dbits. rewrite (cur_bits_pow _ 7) by (simpl; lia).
        rewrite (dinput_nil (set_input _ _ _ _ _)) by reflexivity.
        rewrite (ztake_neg (h_input_size d - (h_input_index d + 1))) by lia. reflexivity.
      * exists (set_input d (h_input_size d) (h_input_index d + 1) b 128), 7.
        split; [reflexivity|].
        split; [unfold data_inv; simpl; repeat split; auto; try lia; try apply H; right; exists 7; split; [lia|reflexivity]|].
        split; [repeat split|]. split; [|simpl; split; [lia|reflexivity]].
        rewrite HB. unfold dbits. rewrite (cur_bits_pow _ 7) by (simpl; lia). reflexivity.
  - right. assert (0 < 2 ^ k) by (apply Z.pow_pos_nonneg; lia).
    rewrite Hbit. destruct (Z.eqb_spec (2 ^ k) 0); [lia|].
    exists d, k. split; [reflexivity|]. split; [auto|]. split; [apply same_rest_refl|].
    split; [reflexivity|]. split; [lia|auto].
Qed.

Lemma get_bits_loop_spec : forall k acc d, data_inv d ->
  (k <= length (dbits d))%nat -> 0 <= acc -> acc * 2 ^ Z.of_nat k + 2 ^ Z.of_nat k <= 65536 ->
  exists d1, get_bits_loop k acc d =
             Ret (Some (acc * 2 ^ Z.of_nat k + bval (firstn k (dbits d))), d1) /\
    data_inv d1 /\ same_rest d d1 /\ dbits d1 = skipn k (dbits d).
Proof.
  induction k; intros acc d Hd Hlen Ha Hm.
  - exists d. split; [simpl; unfold bval; simpl; do 3 f_equal; lia|].
    split; [auto|]. split; [apply same_rest_refl|reflexivity].
  - simpl get_bits_loop.
    destruct (hs_load_spec d Hd) as [[E _]|(d1 & j & E & Hd1 & Hs & Hb & Hj & Hbi)].
    { rewrite E in Hlen; simpl in Hlen; lia. }
    rewrite E. unfold obind at 1.
    assert (HP : 2 ^ Z.of_nat (S k) = 2 * 2 ^ Z.of_nat k).
    { replace (Z.of_nat (S k)) with (1 + Z.of_nat k) by lia. rewrite Z.pow_add_r by lia. reflexivity. }
    assert (0 < 2 ^ Z.of_nat k) by (apply Z.pow_pos_nonneg; lia).
    assert (Hmod : (acc * 2) mod 65536 = acc * 2) by (apply Z.mod_small; nia).
    rewrite Hmod.
    set (bit := Z.testbit (h_current_byte d1) j).
    assert (Hacc : (if Z.land (h_current_byte d1) (h_bit_index d1) =? 0
                    then acc * 2 else Z.lor (acc * 2) 1) = 2 * acc + b2z bit).
    { rewrite Hbi. rewrite land_pow2 by lia. fold bit.
      assert (0 < 2 ^ j) by (apply Z.pow_pos_nonneg; lia).
      destruct bit; simpl b2z.
      - destruct (Z.eqb_spec (2 ^ j) 0); [lia|].
        replace (acc * 2) with (Z.shiftl acc 1) by (rewrite Z.shiftl_mul_pow2 by lia; lia).
        rewrite Z.lor_comm. rewrite lor_add; lia.
      - rewrite Z.eqb_refl. lia. }
    rewrite Hacc.
    set (d2 := set_input d1 (h_input_size d1) (h_input_index d1) (h_current_byte d1)
                 (Z.shiftr (h_bit_index d1) 1)).
    assert (Hd2 : data_inv d2).
    { destruct Hd1 as (A & B & C & D & F & G). unfold data_inv, d2; simpl.
      repeat split; auto; try apply G.
      rewrite Hbi. rewrite Z.shiftr_div_pow2 by lia. change (2 ^ 1) with 2.
      destruct (Z.eq_dec j 0); [left; subst; reflexivity|right; exists (j - 1)].
      split; [lia|]. replace j with (j - 1 + 1) at 1 by lia. rewrite Z.pow_add_r by lia.
      change (2 ^ 1) with 2. apply Z.div_mul. lia. }
    assert (Hb1 : dbits d1 = bit :: dbits d2).
    { unfold dbits. rewrite (cur_bits_pow d1 j) by (auto; lia). simpl to_bits.
      assert (cur_bits d2 = Z.to_nat j) as ->.
      { destruct (Z.eq_dec j 0).
        - subst j. rewrite cur_bits_0; [reflexivity|]. unfold d2; simpl. rewrite Hbi. reflexivity.
        - rewrite (cur_bits_pow d2 (j - 1)); [lia|lia|]. unfold d2; simpl. rewrite Hbi.
          rewrite Z.shiftr_div_pow2 by lia. change (2 ^ 1) with 2.
          replace j with (j - 1 + 1) at 1 by lia. rewrite Z.pow_add_r by lia.
          apply Z.div_mul. lia. }
      rewrite Z2Nat.id by lia. reflexivity. }
    assert (Hs2 : same_rest d1 d2) by (repeat split).
    rewrite <- Hb in *. rewrite Hb1 in *. simpl in Hlen.
    destruct (IHk (2 * acc + b2z bit) d2) as (d3 & E3 & Hd3 & Hs3 & Hb3).
    + auto.
    + lia.
    + pose proof (b2z_range bit). lia.
    + pose proof (b2z_range bit). rewrite HP in Hm. nia.
    + exists d3. split.
      * rewrite E3. do 3 f_equal. simpl firstn. rewrite bval_cons.
        assert (zlen (firstn k (dbits d2)) = Z.of_nat k) as ->
          by (unfold zlen; rewrite firstn_length; lia).
        rewrite HP. ring.
      * split; [auto|]. split; [eapply same_rest_trans; [|eassumption]; eapply same_rest_trans; eassumption|].
        rewrite Hb3. reflexivity.
Qed.

(** get_bits for 1 to 8 bits: all or nothing. *)
Lemma get_bits_spec : forall d count, data_inv d -> 1 <= count <= 8 ->
  (zlen (dbits d) < count /\ get_bits d count = Ret (None, d)) \/
  (count <= zlen (dbits d) /\ exists d1,
     get_bits d count = Ret (Some (bval (ztake count (dbits d))), d1) /\
     data_inv d1 /\ same_rest d d1 /\ dbits d1 = zdrop count (dbits d)).
Proof.
  intros d count Hd Hc. unfold get_bits.
  destruct (Z.ltb_spec 15 count); [lia|].
  pose proof Hd as (Hl & Hb & H0 & Hsz & Hbit & Hcb).
  assert (Hcond : (h_input_size d =? 0) && (h_bit_index d <? Z.shiftl 1 (count - 1)) = true <->
                  zlen (dbits d) < count).
  { rewrite Z.shiftl_mul_pow2 by lia. rewrite Z.mul_1_l.
    assert (HL : zlen (dbits d) = Z.of_nat (cur_bits d) + 8 * (h_input_size d - h_input_index d)).
    { unfold dbits. rewrite zlen_app, zlen_to_bits, zlen_bytes_bits, zlen_dinput by auto. lia. }
    rewrite HL. destruct Hsz as [[Hs Hi]|Hs].
    - rewrite Hs, Hi. cbn [Z.eqb andb]. rewrite Z.ltb_lt.
      destruct Hbit as [Hz|(k & Hk & Hk2)].
      + rewrite cur_bits_0 by auto. rewrite Hz. assert (0 < 2 ^ (count - 1)) by (apply Z.pow_pos_nonneg; lia). lia.
      + rewrite (cur_bits_pow d k) by (auto; lia). rewrite Hk2.
        destruct (Z.le_gt_cases (count - 1) k).
        * assert (2 ^ (count - 1) <= 2 ^ k) by (apply Z.pow_le_mono_r; lia). lia.
        * assert (2 ^ k < 2 ^ (count - 1)) by (apply Z.pow_lt_mono_r; lia). lia.
    - destruct (Z.eqb_spec (h_input_size d) 0); [lia|]. cbn [andb]. split; [discriminate|lia]. }
  destruct ((h_input_size d =? 0) && (h_bit_index d <? Z.shiftl 1 (count - 1))) eqn:E.
  - left. split; [apply Hcond; reflexivity|reflexivity].
  - right. assert (count <= zlen (dbits d)).
    { destruct (Z.le_gt_cases count (zlen (dbits d))); auto. apply Hcond in H1. congruence. }
    split; [auto|].
    destruct (get_bits_loop_spec (Z.to_nat count) 0 d) as (d1 & E1 & Hd1 & Hs1 & Hb1).
    + auto.
    + unfold zlen in H1. lia.
    + lia.
    + rewrite Z2Nat.id by lia. assert (2 ^ count <= 2 ^ 8) by (apply Z.pow_le_mono_r; lia).
      change (2 ^ 8) with 256 in *. lia.
    + exists d1. rewrite E1. rewrite Z.mul_0_l, Z.add_0_l. split; [reflexivity|]. auto.
Qed.

(** ** Single decoding steps *)

Section Runs.
Variables wb lb : Z.
Hypothesis Hwb : 1 <= wb <= 15.
Hypothesis Hlb : 1 <= lb <= 15.

(** What the fields hold in each state. *)
Definition state_inv (d : hsd) : Prop :=
  match h_state d with
  | TAG_BIT | YIELD_LITERAL => True
  | BACKREF_INDEX_MSB => 8 < wb
  | BACKREF_INDEX_LSB =>
      exists m, h_output_index d = 256 * m /\ 0 <= m /\ 256 * m < 2 ^ wb
  | BACKREF_COUNT_MSB => 8 < lb /\ 1 <= h_output_index d <= 2 ^ wb
  | BACKREF_COUNT_LSB =>
      1 <= h_output_index d <= 2 ^ wb /\
      exists m, h_output_count d = 256 * m /\ 0 <= m /\ 256 * m < 2 ^ lb
  | YIELD_BACKREF =>
      1 <= h_output_index d <= 2 ^ wb /\ 1 <= h_output_count d <= 2 ^ lb
  end.

Definition hinv (d : hsd) : Prop :=
  data_inv d /\ zlen (h_win d) = 2 ^ wb /\ bytes_ok (h_win d) /\
  0 <= h_head_index d < 65536 /\ state_inv d.

(** Bits a state needs to make progress. *)
Definition need (s : hstate) : Z :=
  match s with
  | TAG_BIT => 1
  | YIELD_LITERAL => 8
  | BACKREF_INDEX_MSB => wb - 8
  | BACKREF_INDEX_LSB => if wb <? 8 then wb else 8
  | BACKREF_COUNT_MSB => lb - 8
  | BACKREF_COUNT_LSB => if lb <? 8 then lb else 8
  | YIELD_BACKREF => 0
  end.

Definition starved (d : hsd) : Prop :=
  h_state d <> YIELD_BACKREF /\ zlen (dbits d) < need (h_state d).

Definition emitting (d : hsd) : Prop :=
  h_state d = YIELD_LITERAL \/ h_state d = YIELD_BACKREF.

(** A step that consumes bits and outputs nothing. *)
Definition silent (d d1 : hsd) : Prop :=
  ~ emitting d /\ hs_step wb lb 0 d [] = Ret (d1, []) /\ h_state d1 <> h_state d.

(** A step that outputs one byte. *)
Definition emit1 (d : hsd) (c : Z) (d1 : hsd) : Prop :=
  emitting d /\ hs_step wb lb 1 d [] = Ret (d1, [c]).

(** Everything that can be done with at most [n] bytes of output. *)
Inductive runs : Z -> hsd -> list Z -> hsd -> Prop :=
| run_full : forall d, emitting d -> runs 0 d [] d
| run_starve : forall n d, 0 <= n -> starved d -> runs n d [] d
| run_silent : forall n d d1 o d2, silent d d1 -> runs n d1 o d2 -> runs n d o d2
| run_emit : forall n d c d1 o d2, 0 <= n ->
    emit1 d c d1 -> runs n d1 o d2 -> runs (n + 1) d (c :: o) d2.

Lemma pow2_pos : forall n, 0 <= n -> 0 < 2 ^ n.
Proof. intros; apply Z.pow_pos_nonneg; lia. Qed.

Lemma wb_bound : 2 <= 2 ^ wb <= 32768.
Proof.
  split; [change 2 with (2 ^ 1) at 1 | change 32768 with (2 ^ 15)];
    apply Z.pow_le_mono_r; lia.
Qed.

Lemma lb_bound : 2 <= 2 ^ lb <= 32768.
Proof.
  split; [change 2 with (2 ^ 1) at 1 | change 32768 with (2 ^ 15)];
    apply Z.pow_le_mono_r; lia.
Qed.

Lemma need_range : forall d, state_inv d -> h_state d <> YIELD_BACKREF ->
  1 <= need (h_state d) <= 8.
Proof.
  intros d H Hn. unfold state_inv, need in *. destruct (h_state d); try lia; try congruence.
  - destruct (Z.ltb_spec wb 8); lia.
  - destruct (Z.ltb_spec lb 8); lia.
Qed.

Lemma hs_step_starved : forall n d out, hinv d -> starved d ->
  hs_step wb lb n d out = Ret (d, out).
Proof.
  intros n d out (Hd & Hw & Hwb' & Hh & Hst) [Hne Hs].
  pose proof (need_range d Hst Hne) as Hn.
  assert (Hset : forall s, h_state d = s -> set_state d s = d).
  { intros s E. destruct d; simpl in *. subst. reflexivity. }
  destruct (get_bits_spec d (need (h_state d)) Hd Hn) as [[_ G]|[G _]]; [|lia].
  unfold hs_step. destruct (h_state d) eqn:E; simpl need in G.
  - unfold st_tag_bit. rewrite G. cbn. rewrite Hset by auto. reflexivity.
  - unfold st_yield_literal. destruct (zlen out <? n); [rewrite G; cbn|];
      rewrite Hset by auto; reflexivity.
  - unfold st_backref_index_msb. rewrite G. cbn. rewrite Hset by auto. reflexivity.
  - unfold st_backref_index_lsb. rewrite G. cbn. rewrite Hset by auto. reflexivity.
  - unfold st_backref_count_msb. rewrite G. cbn. rewrite Hset by auto. reflexivity.
  - unfold st_backref_count_lsb. rewrite G. cbn. rewrite Hset by auto. reflexivity.
  - congruence.
Qed.

(** Where a silent step leads, in terms of the bits it consumes. *)
Definition silent_target (s : hstate) (b : Z) (d : hsd) : hstate * Z * Z :=
  match s with
  | TAG_BIT => if negb (b =? 0) then (YIELD_LITERAL, h_output_index d, h_output_count d)
               else if 8 <? wb then (BACKREF_INDEX_MSB, h_output_index d, h_output_count d)
               else (BACKREF_INDEX_LSB, 0, h_output_count d)
  | BACKREF_INDEX_MSB => (BACKREF_INDEX_LSB, b * 256, h_output_count d)
  | BACKREF_INDEX_LSB =>
      (if 8 <? lb then BACKREF_COUNT_MSB else BACKREF_COUNT_LSB, h_output_index d + b + 1, 0)
  | BACKREF_COUNT_MSB => (BACKREF_COUNT_LSB, h_output_index d, b * 256)
  | BACKREF_COUNT_LSB => (YIELD_BACKREF, h_output_index d, h_output_count d + b + 1)
  | s => (s, h_output_index d, h_output_count d)
  end.

Lemma zlen_ztake_le : forall {A} n (l : list A), 0 <= n <= zlen l -> zlen (ztake n l) = n.
Proof. intros. rewrite zlen_ztake by lia. lia. Qed.

Lemma lor_256 : forall m b, 0 <= m -> 0 <= b < 256 -> Z.lor (256 * m) b = 256 * m + b.
Proof.
  intros. replace (256 * m) with (Z.shiftl m 8) by (rewrite Z.shiftl_mul_pow2 by lia; lia).
  rewrite Z.lor_comm. rewrite lor_add by (try change (2 ^ 8) with 256; lia).
  rewrite Z.shiftl_mul_pow2 by lia. lia.
Qed.

Lemma pow_split_8 : forall n, 8 <= n -> 2 ^ n = 256 * 2 ^ (n - 8).
Proof.
  intros. replace n with (8 + (n - 8)) at 1 by lia. rewrite Z.pow_add_r by lia. reflexivity.
Qed.

Definition retarget (d : hsd) (t : hstate * Z * Z) : hsd :=
  mkhsd (h_input_size d) (h_input_index d) (snd t) (snd (fst t))
        (h_head_index d) (fst (fst t)) (h_current_byte d) (h_bit_index d) (h_in d) (h_win d).

Lemma hs_step_silent : forall n d out, hinv d -> ~ emitting d -> ~ starved d ->
  exists d1, hs_step wb lb n d out = Ret (d1, out) /\ hinv d1 /\
    dbits d1 = zdrop (need (h_state d)) (dbits d) /\
    h_win d1 = h_win d /\ h_head_index d1 = h_head_index d /\
    (h_state d1, h_output_index d1, h_output_count d1) =
      silent_target (h_state d) (bval (ztake (need (h_state d)) (dbits d))) d /\
    need (h_state d) <= zlen (dbits d) /\ h_state d1 <> h_state d.
Proof.
  intros n d out (Hd & Hw & Hwb' & Hh & Hst) Hem Hns.
  assert (Hne : h_state d <> YIELD_BACKREF) by (intros E; apply Hem; right; auto).
  pose proof (need_range d Hst Hne) as Hn.
  destruct (get_bits_spec d (need (h_state d)) Hd Hn) as [[G _]|(Hlen & d1 & G & Hd1 & Hsr & Hb1)].
  { exfalso; apply Hns; split; auto. }
  set (b := bval (ztake (need (h_state d)) (dbits d))) in *.
  assert (Hbr : 0 <= b < 2 ^ need (h_state d)).
  { unfold b. pose proof (bval_range (ztake (need (h_state d)) (dbits d))) as R.
    rewrite zlen_ztake_le in R by lia. exact R. }
  destruct Hsr as (S1 & S2 & S3 & S4 & S5).
  pose proof wb_bound as WB. pose proof lb_bound as LB.
  cut (hs_step wb lb n d out = Ret (retarget d1 (silent_target (h_state d) b d), out) /\
       state_inv (retarget d1 (silent_target (h_state d) b d)) /\
       fst (fst (silent_target (h_state d) b d)) <> h_state d).
  { intros (A & B & C). eexists; split; [exact A|].
    split; [split; [exact Hd1|split; [simpl; congruence|split; [simpl; congruence|split; [simpl; congruence|exact B]]]]|].
    split; [exact Hb1|]. split; [exact S5|]. split; [exact S3|].
    split; [destruct (silent_target (h_state d) b d) as [[? ?] ?]; reflexivity|].
    split; [exact Hlen|exact C]. }
  clearbody b.
  unfold hs_step. unfold state_inv in Hst.
  destruct (h_state d) eqn:E; simpl need in G, Hbr; unfold silent_target.
  - (* TAG *)
    unfold st_tag_bit. rewrite G. unfold obind.
    destruct (b =? 0) eqn:Eb; simpl negb; cbv iota.
    + destruct (Z.ltb_spec 8 wb).
      * split; [unfold retarget; simpl; rewrite <- S1, <- S2; reflexivity|].
        split; [cbn; assumption|simpl; congruence].
      * split; [unfold retarget; simpl; rewrite <- S1; reflexivity|].
        split; [exists 0; cbn; lia|simpl; congruence].
    + split; [unfold retarget; simpl; rewrite <- S1, <- S2; reflexivity|].
      split; [exact I|simpl; congruence].
  - exfalso; apply Hem; left; auto.
  - unfold st_backref_index_msb. rewrite G. unfold obind.
    rewrite (pow_split_8 wb) in * by lia.
    rewrite Z.shiftl_mul_pow2 by lia. change (2 ^ 8) with 256.
    rewrite Z.mod_small by lia.
    split; [unfold retarget; simpl; rewrite <- S1; reflexivity|].
    split; [|simpl; congruence].
    unfold state_inv, retarget; cbn [h_state h_output_index h_output_count fst snd].
    exists b. rewrite (pow_split_8 wb) by lia. lia.
  - unfold st_backref_index_lsb. rewrite G. unfold obind. rewrite S2.
    destruct Hst as (m & Hm & Hm0 & Hm1). rewrite Hm.
    assert (Hb2 : 0 <= b < 256 /\ 256 * m + b < 2 ^ wb).
    { destruct (Z.ltb_spec wb 8).
      - assert (2 ^ wb <= 2 ^ 8) by (apply Z.pow_le_mono_r; lia). change (2 ^ 8) with 256 in *. lia.
      - rewrite (pow_split_8 wb) in * by lia. change (2 ^ 8) with 256 in *. lia. }
    rewrite lor_256 by lia. rewrite Z.mod_small by lia.
    split; [unfold retarget; simpl; reflexivity|].
    split; [|simpl; destruct (8 <? lb); congruence].
    unfold state_inv, retarget; cbn [h_state h_output_index h_output_count fst snd].
    destruct (Z.ltb_spec 8 lb); [lia|]. split; [lia|]. exists 0. lia.
  - unfold st_backref_count_msb. rewrite G. unfold obind.
    rewrite (pow_split_8 lb) in * by lia.
    rewrite Z.shiftl_mul_pow2 by lia. change (2 ^ 8) with 256.
    rewrite Z.mod_small by lia.
    split; [unfold retarget; simpl; rewrite <- S2; reflexivity|].
    split; [|simpl; congruence].
    unfold state_inv, retarget; cbn [h_state h_output_index h_output_count fst snd].
    split; [lia|]. exists b. rewrite (pow_split_8 lb) by lia. lia.
  - unfold st_backref_count_lsb. rewrite G. unfold obind. rewrite S1.
    destruct Hst as (Ho & m & Hm & Hm0 & Hm1). rewrite Hm.
    assert (Hb2 : 0 <= b < 256 /\ 256 * m + b < 2 ^ lb).
    { destruct (Z.ltb_spec lb 8).
      - assert (2 ^ lb <= 2 ^ 8) by (apply Z.pow_le_mono_r; lia). change (2 ^ 8) with 256 in *. lia.
      - rewrite (pow_split_8 lb) in * by lia. change (2 ^ 8) with 256 in *. lia. }
    rewrite lor_256 by lia. rewrite Z.mod_small by lia.
    split; [unfold retarget; simpl; rewrite <- S2; reflexivity|].
    split; [|simpl; congruence].
    unfold state_inv, retarget; cbn [h_state h_output_index h_output_count fst snd]. lia.
  - congruence.
Qed.

Lemma mask_mod : forall x, Z.land x (2 ^ wb - 1) = x mod 2 ^ wb.
Proof. intros. apply land_ones_mod. lia. Qed.

Lemma mask_range : forall x, 0 <= x mod 2 ^ wb < 2 ^ wb.
Proof. intros. apply Z.mod_pos_bound. apply pow2_pos. lia. Qed.

Lemma hs_step_literal : forall d, hinv d -> h_state d = YIELD_LITERAL -> ~ starved d ->
  exists c d1,
    (forall n out, zlen out < n -> hs_step wb lb n d out = Ret (d1, out ++ [c])) /\
    hinv d1 /\ c = bval (ztake 8 (dbits d)) /\ dbits d1 = zdrop 8 (dbits d) /\
    8 <= zlen (dbits d) /\ h_state d1 = TAG_BIT /\
    h_head_index d1 = (h_head_index d + 1) mod 65536 /\
    h_win d1 = upd (h_win d) (Z.to_nat (h_head_index d mod 2 ^ wb)) c.
Proof.
  intros d (Hd & Hw & Hwb' & Hh & Hst) E Hns.
  destruct (get_bits_spec d 8 Hd ltac:(lia)) as [[G _]|(Hlen & d1 & G & Hd1 & Hsr & Hb1)].
  { exfalso; apply Hns; split; [congruence|]. rewrite E. exact G. }
  set (c := bval (ztake 8 (dbits d))) in *.
  assert (Hc : 0 <= c < 256).
  { unfold c. pose proof (bval_range (ztake 8 (dbits d))) as R.
    rewrite zlen_ztake_le in R by lia. exact R. }
  destruct Hsr as (S1 & S2 & S3 & S4 & S5).
  pose proof (mask_range (h_head_index d)) as MR.
  exists c, (set_state (set_window d1 ((h_head_index d1 + 1) mod 65536)
          (upd (h_win d) (Z.to_nat (h_head_index d mod 2 ^ wb)) c)) TAG_BIT).
  split.
  { intros n out Hn. unfold hs_step. rewrite E. unfold st_yield_literal.
    destruct (Z.ltb_spec (zlen out) n); [|lia]. rewrite G. cbn [obind].
    rewrite land_255, Z.mod_small by lia. rewrite mask_mod, S3, S5.
    rewrite zupd_some by lia. rewrite <- S3. reflexivity. }
  split.
  { split; [exact Hd1|]. cbn [h_win h_head_index h_state set_state set_window].
    split; [rewrite zlen_upd; auto|]. split; [apply Forall_upd; auto|].
    split; [lia|exact I]. }
  split; [reflexivity|]. split; [exact Hb1|]. split; [exact Hlen|].
  split; [reflexivity|]. split; [cbn; rewrite S3; reflexivity|]. reflexivity.
Qed.

(** One byte of a back reference. *)
Definition bstep (d : hsd) (c : Z) : hsd :=
  set_window d ((h_head_index d + 1) mod 65536)
    (upd (h_win d) (Z.to_nat (h_head_index d mod 2 ^ wb)) c).

Definition bdone (d : hsd) (oc : Z) : hsd :=
  set_state (set_output_count d oc) (if oc =? 0 then TAG_BIT else YIELD_BACKREF).

Lemma backref_byte : forall d neg, zlen (h_win d) = 2 ^ wb ->
  exists c, znth (h_win d) ((h_head_index d - neg) mod 2 ^ wb) = Some c /\
    forall k out, backref_loop (S k) wb neg d out = backref_loop k wb neg (bstep d c) (out ++ [c]).
Proof.
  intros d neg Hw. pose proof (mask_range (h_head_index d - neg)) as R1.
  pose proof (mask_range (h_head_index d)) as R2.
  destruct (znth_range_some (h_win d) ((h_head_index d - neg) mod 2 ^ wb)) as [c Ec]; [lia|].
  exists c. split; [auto|]. intros k out. cbn [backref_loop].
  rewrite !mask_mod, Ec. rewrite zupd_some by lia. reflexivity.
Qed.

Lemma backref_loop_count : forall k neg d x out,
  backref_loop k wb neg (set_output_count d x) out =
  obind (backref_loop k wb neg d out) (fun p => Ret (set_output_count (fst p) x, snd p)).
Proof.
  induction k; intros neg d x out; [reflexivity|]. cbn [backref_loop].
  change (h_win (set_output_count d x)) with (h_win d).
  change (h_head_index (set_output_count d x)) with (h_head_index d).
  destruct (znth (h_win d) (Z.land (h_head_index d - neg) (2 ^ wb - 1))); [|reflexivity].
  destruct (zupd (h_win d) (Z.land (h_head_index d) (2 ^ wb - 1)) z); [|reflexivity].
  rewrite <- IHk. reflexivity.
Qed.

Lemma backref_byte_inv : forall d c, hinv d -> h_state d = YIELD_BACKREF -> byte_ok c ->
  hinv (bdone (bstep d c) (h_output_count d - 1)).
Proof.
  intros d c (Hd & Hw & Hwb' & Hh & Hst) E Hc.
  unfold state_inv in Hst; rewrite E in Hst.
  split; [exact Hd|]. unfold bdone, bstep, state_inv.
  cbn [h_win h_head_index h_state set_state set_window set_output_count h_output_index h_output_count].
  split; [rewrite zlen_upd; auto|]. split; [apply Forall_upd; auto|]. split; [lia|].
  destruct (Z.eqb_spec (h_output_count d - 1) 0); [exact I|lia].
Qed.

Lemma hs_step_backref1 : forall d, hinv d -> h_state d = YIELD_BACKREF ->
  exists c, znth (h_win d) ((h_head_index d - h_output_index d) mod 2 ^ wb) = Some c /\
    byte_ok c /\
    hs_step wb lb 1 d [] = Ret (bdone (bstep d c) (h_output_count d - 1), [c]) /\
    hinv (bdone (bstep d c) (h_output_count d - 1)).
Proof.
  intros d H E. pose proof H as (Hd & Hw & Hwb' & Hh & Hst).
  unfold state_inv in Hst; rewrite E in Hst.
  destruct (backref_byte d (h_output_index d) Hw) as (c & Ec & Hl).
  assert (Hc : byte_ok c) by (eapply Forall_znth; eauto).
  exists c. split; [auto|]. split; [auto|]. split; [|apply backref_byte_inv; auto].
  unfold hs_step. rewrite E. unfold st_yield_backref.
  change (1 - zlen []) with 1. cbn [Z.ltb Z.compare].
  assert ((if h_output_count d <? 1 then h_output_count d else 1) = 1) as ->
    by (destruct (Z.ltb_spec (h_output_count d) 1); lia).
  change (Z.to_nat 1) with 1%nat. rewrite Hl. cbn [backref_loop obind app].
  unfold bdone. change (h_output_count (bstep d c)) with (h_output_count d).
  cbn [h_output_count set_output_count].
  destruct (h_output_count d - 1 =? 0); reflexivity.
Qed.

Inductive emits : hsd -> list Z -> hsd -> Prop :=
| emits_nil : forall d, emits d [] d
| emits_cons : forall d c d1 o d2, emit1 d c d1 -> emits d1 o d2 -> emits d (c :: o) d2.

Lemma backref_emits : forall k d out, hinv d -> h_state d = YIELD_BACKREF ->
  Z.of_nat (S k) <= h_output_count d ->
  exists D o, backref_loop (S k) wb (h_output_index d) d out = Ret (D, out ++ o) /\
    zlen o = Z.of_nat (S k) /\ h_output_count D = h_output_count d /\
    emits d o (bdone D (h_output_count d - Z.of_nat (S k))) /\
    hinv (bdone D (h_output_count d - Z.of_nat (S k))) /\
    dbits (bdone D (h_output_count d - Z.of_nat (S k))) = dbits d.
Proof.
  induction k; intros d out H E Hk.
  - destruct (hs_step_backref1 d H E) as (c & Ec & Hc & Hs & Hi).
    destruct (backref_byte d (h_output_index d)) as (c' & Ec' & Hl); [apply H|].
    assert (c' = c) by congruence. subst c'.
    exists (bstep d c), [c]. rewrite Hl. change (Z.of_nat 1) with 1 in *.
    split; [reflexivity|]. split; [reflexivity|]. split; [reflexivity|].
    split; [econstructor; [split; [right; exact E|exact Hs]|constructor]|]. split; [exact Hi|].
    reflexivity.
  - destruct (hs_step_backref1 d H E) as (c & Ec & Hc & Hs & Hi).
    destruct (backref_byte d (h_output_index d)) as (c' & Ec' & Hl); [apply H|].
    assert (c' = c) by congruence. subst c'.
    rewrite Hl.
    set (d1 := bdone (bstep d c) (h_output_count d - 1)) in *.
    assert (E1 : h_state d1 = YIELD_BACKREF).
    { unfold d1, bdone. cbn [h_state set_state]. destruct (Z.eqb_spec (h_output_count d - 1) 0); [lia|reflexivity]. }
    assert (C1 : h_output_count d1 = h_output_count d - 1) by reflexivity.
    assert (Hd1 : d1 = set_output_count (bstep d c) (h_output_count d - 1)).
    { unfold d1, bdone. destruct (Z.eqb_spec (h_output_count d - 1) 0); [lia|].
      unfold set_state, set_output_count, bstep, set_window; simpl. rewrite E. reflexivity. }
    destruct (IHk d1 (out ++ [c])) as (D & o & HD & Hlo & HDc & Hem & Hinv & Hbits); [auto|auto|lia|].
    change (h_output_index d1) with (h_output_index d) in HD.
    rewrite Hd1 in HD at 1. rewrite backref_loop_count in HD.
    apply obind_ret in HD. destruct HD as ([D' o'] & HD' & Heq). inv Heq.
    exists D', (c :: o). rewrite HD'. 
    assert (HDD : bdone D' (h_output_count d - Z.of_nat (S (S k))) =
                  bdone (set_output_count D' (h_output_count d - 1)) (h_output_count d1 - Z.of_nat (S k))).
    { rewrite C1. replace (h_output_count d - 1 - Z.of_nat (S k)) with (h_output_count d - Z.of_nat (S (S k))) by lia.
      reflexivity. }
    split; [rewrite <- app_assoc; reflexivity|].
    split; [rewrite zlen_cons; lia|].
    split.
    { clear -HD'. assert (forall k neg d out D o, backref_loop k wb neg d out = Ret (D, o) ->
        h_output_count D = h_output_count d) as Hgen.
      { clear. induction k; intros neg d out D o H; [inv H; reflexivity|].
        cbn [backref_loop] in H. destruct (znth _ _); [|discriminate]. destruct (zupd _ _ _); [|discriminate].
        apply IHk in H. exact H. }
      apply Hgen in HD'. exact HD'. }
    rewrite HDD. split; [|split; [exact Hinv|rewrite Hbits; reflexivity]].
    econstructor; [split; [right; exact E|exact Hs]|exact Hem].
Qed.

Lemma hs_step_backref : forall n d out, hinv d -> h_state d = YIELD_BACKREF ->
  zlen out < n ->
  exists d1 o, hs_step wb lb n d out = Ret (d1, out ++ o) /\ emits d o d1 /\ hinv d1 /\
    1 <= zlen o <= n - zlen out /\ dbits d1 = dbits d /\
    (h_state d1 = TAG_BIT \/ h_state d1 = YIELD_BACKREF /\ zlen o = n - zlen out).
Proof.
  intros n d out H E Hn. pose proof H as (Hd & Hw & Hwb' & Hh & Hst).
  unfold state_inv in Hst; rewrite E in Hst.
  set (count := if h_output_count d <? n - zlen out then h_output_count d else n - zlen out).
  assert (Hc : 1 <= count <= h_output_count d /\ count <= n - zlen out /\
               (count = h_output_count d \/ count = n - zlen out)).
  { unfold count. destruct (Z.ltb_spec (h_output_count d) (n - zlen out)); lia. }
  destruct (backref_emits (Z.to_nat (count - 1)) d out) as (D & o & HD & Hlo & HDc & Hem & Hi & Hb);
    [auto|auto|lia|].
  replace (S (Z.to_nat (count - 1))) with (Z.to_nat count) in * by lia.
  rewrite Z2Nat.id in * by lia.
  exists (bdone D (h_output_count d - count)), o.
  split.
  { unfold hs_step. rewrite E. unfold st_yield_backref.
    destruct (Z.ltb_spec 0 (n - zlen out)); [|lia]. fold count. rewrite HD. cbn [obind].
    rewrite HDc. cbn [h_output_count set_output_count]. unfold bdone.
    destruct (h_output_count d - count =? 0); reflexivity. }
  split; [auto|]. split; [auto|]. split; [lia|]. split; [auto|].
  unfold bdone. cbn [h_state set_state].
  destruct (Z.eqb_spec (h_output_count d - count) 0); [left; reflexivity|right]. split; [reflexivity|lia].
Qed.

Lemma starved_dec : forall d, starved d \/ ~ starved d.
Proof.
  intros d. unfold starved. destruct (h_state d); try (right; intros [A _]; congruence).
  all: match goal with |- context [zlen ?b < ?x] => destruct (Z.lt_ge_cases (zlen b) x) end;
       [left; split; [congruence|auto] | right; intros [_ A]; lia].
Qed.

Lemma emit1_inv : forall d c d1, hinv d -> emit1 d c d1 -> hinv d1 /\ byte_ok c.
Proof.
  intros d c d1 H [[E|E] Hs].
  - destruct (starved_dec d) as [S|S].
    + rewrite hs_step_starved in Hs by auto. discriminate.
    + destruct (hs_step_literal d H E S) as (c' & d' & Hst & Hi & Hc & _ & Hl & _).
      rewrite Hst in Hs by reflexivity. inv Hs. split; [auto|].
      unfold byte_ok. pose proof (bval_range (ztake 8 (dbits d))) as R.
      rewrite zlen_ztake_le in R by lia. exact R.
  - destruct (hs_step_backref1 d H E) as (c' & Ec & Hc & Hs' & Hi).
    rewrite Hs' in Hs. inv Hs. auto.
Qed.

Lemma silent_inv : forall d d1, hinv d -> silent d d1 -> hinv d1.
Proof.
  intros d d1 H (He & Hs & Hne).
  destruct (starved_dec d) as [S|S].
  - rewrite hs_step_starved in Hs by auto. inv Hs. congruence.
  - destruct (hs_step_silent 0 d [] H He S) as (d' & Hs' & Hi & _). congruence.
Qed.

Lemma runs_inv : forall n d o d1, runs n d o d1 -> hinv d -> hinv d1 /\ bytes_ok o.
Proof.
  induction 1; intros Hi; try (split; [assumption|constructor]).
  - apply IHruns. eapply silent_inv; eauto.
  - destruct (emit1_inv _ _ _ Hi H0) as [A B]. destruct (IHruns A) as [C D].
    split; [auto|]. constructor; auto.
Qed.

Lemma emits_runs : forall d o d1, emits d o d1 -> forall n o1 d2, runs n d1 o1 d2 ->
  runs (n + zlen o) d (o ++ o1) d2.
Proof.
  induction 1; intros n o1 d3 Hr.
  - rewrite zlen_nil, Z.add_0_r. exact Hr.
  - rewrite zlen_cons. replace (n + (1 + zlen o)) with (n + zlen o + 1) by lia.
    cbn [app]. eapply run_emit; eauto.
    assert (0 <= n) by (clear -Hr; induction Hr; lia).
    pose proof (zlen_nonneg o). lia.
Qed.

Lemma runs_len : forall n d o d1, runs n d o d1 -> zlen o <= n.
Proof.
  induction 1; try (rewrite zlen_nil; lia); auto.
  rewrite zlen_cons. lia.
Qed.

Lemma runs_nonneg : forall n d o d1, runs n d o d1 -> 0 <= n.
Proof. induction 1; lia. Qed.

Lemma runs_end : forall n d o d1, runs n d o d1 -> starved d1 \/ emitting d1 /\ zlen o = n.
Proof.
  induction 1; auto.
  destruct IHruns as [A|[A B]]; [auto|right; split; [auto|rewrite zlen_cons; lia]].
Qed.

Lemma runs_split : forall n d o d1, runs n d o d1 -> forall a b, 0 <= a -> 0 <= b -> n = a + b ->
  exists dm, runs a d (ztake a o) dm /\ runs b dm (zdrop a o) d1.
Proof.
  induction 1; intros a b Ha Hb Hn.
  - assert (a = 0) by lia. assert (b = 0) by lia. subst a b.
    exists d. split; constructor; auto.
  - exists d. unfold ztake, zdrop. rewrite firstn_nil, skipn_nil.
    split; apply run_starve; auto.
  - destruct (IHruns a b Ha Hb Hn) as (dm & A & B). exists dm. split; [|auto].
    eapply run_silent; eauto.
  - destruct (Z.eq_dec a 0).
    + subst a. exists d. rewrite zdrop_0, ztake_0. split; [constructor; apply H0|].
      replace b with (n + 1) by lia. eapply run_emit; eauto.
    + destruct (IHruns (a - 1) b ltac:(lia) Hb ltac:(lia)) as (dm & A & B).
      exists dm. rewrite ztake_cons, zdrop_cons by lia. split; [|auto].
      replace a with (a - 1 + 1) at 1 by lia. eapply run_emit; eauto. lia.
Qed.

Lemma runs_det : forall n d o d1, runs n d o d1 -> hinv d ->
  forall o' d1', runs n d o' d1' -> o' = o /\ d1' = d1.
Proof.
  induction 1; intros Hi o' d1' Hr.
  - inv Hr; auto.
    + destruct H0; contradiction.
    + lia.
  - inv Hr; auto.
    + destruct H1 as (A & B & C). rewrite hs_step_starved in B by auto. inv B. congruence.
    + destruct H2 as (A & B). rewrite hs_step_starved in B by auto. discriminate.
  - destruct H as (A & B & C). inv Hr.
    + contradiction.
    + rewrite hs_step_starved in B by auto. inv B. congruence.
    + match goal with Hx : silent d ?dd |- _ =>
        destruct Hx as (A' & B' & C'); assert (dd = d1) by congruence; subst dd end.
      apply IHruns; auto. eapply silent_inv; eauto. repeat split; auto.
    + match goal with Hx : emit1 d _ _ |- _ => destruct Hx; contradiction end.
  - inv Hr.
    + lia.
    + destruct H0 as (A & B). rewrite hs_step_starved in B by auto. discriminate.
    + destruct H2 as (A & _). destruct H0. contradiction.
    + assert (n0 = n) by lia. subst n0. destruct H0 as (A & B), H4 as (A' & B').
      rewrite B in B'. inv B'.
      destruct (IHruns ltac:(eapply emit1_inv; [eassumption|split; eassumption]) _ _ H5) as [-> ->].
      auto.
Qed.

(** Measure for the poll loop. *)
Definition pmeasure (d : hsd) : Z :=
  2 * zlen (dbits d) + match h_state d with YIELD_BACKREF => 1 | _ => 0 end.

Lemma hstate_eqb_eq : forall a b, hstate_eqb a b = true <-> a = b.
Proof. intros [] []; simpl; split; congruence. Qed.

Lemma emitting_dec : forall d, emitting d \/ ~ emitting d.
Proof. intros d. unfold emitting. destruct (h_state d); auto; right; intros [A|A]; discriminate. Qed.

Lemma hs_step_quiet : forall n d out, ~ emitting d ->
  hs_step wb lb n d out = obind (hs_step wb lb 0 d []) (fun p => Ret (fst p, out)).
Proof.
  intros n d out He. unfold hs_step, emitting in *.
  destruct (h_state d) eqn:E; try (exfalso; apply He; auto; fail).
  all: match goal with |- obind ?m _ = _ => destruct m; reflexivity end.
Qed.

Lemma hs_poll_loop_runs : forall fuel n d out, hinv d -> zlen out <= n ->
  pmeasure d < Z.of_nat fuel ->
  exists d1 o, hs_poll_loop fuel wb lb n d out = Ret (d1, out ++ o) /\
    runs (n - zlen out) d o d1.
Proof.
  induction fuel; intros n d out H Hn Hf.
  { unfold pmeasure in Hf. pose proof (zlen_nonneg (dbits d)). destruct (h_state d); lia. }
  cbn [hs_poll_loop].
  destruct (starved_dec d) as [S|S].
  { rewrite hs_step_starved by auto. cbn [obind].
    assert (hstate_eqb (h_state d) (h_state d) = true) as -> by (apply hstate_eqb_eq; auto).
    exists d, []. rewrite app_nil_r. split; [reflexivity|]. apply run_starve; [lia|auto]. }
  destruct (emitting_dec d) as [He|He].
  - destruct (Z.eq_dec (zlen out) n) as [Hfull|Hroom].
    + (* no room *)
      assert (hs_step wb lb n d out = Ret (d, out)) as ->.
      { unfold hs_step. destruct He as [E|E]; rewrite E.
        - unfold st_yield_literal. destruct (Z.ltb_spec (zlen out) n); [lia|].
          destruct d; simpl in *; subst; reflexivity.
        - unfold st_yield_backref. destruct (Z.ltb_spec 0 (n - zlen out)); [lia|].
          destruct d; simpl in *; subst; reflexivity. }
      cbn [obind].
      assert (hstate_eqb (h_state d) (h_state d) = true) as -> by (apply hstate_eqb_eq; auto).
      exists d, []. rewrite app_nil_r. split; [reflexivity|].
      replace (n - zlen out) with 0 by lia. apply run_full; auto.
    + destruct He as [E|E].
      * destruct (hs_step_literal d H E S) as (c & d1 & Hst & Hi & Hc & Hb & Hl & Est & _).
        rewrite Hst by lia. cbn [obind]. rewrite E, Est. cbn [hstate_eqb].
        destruct (IHfuel n d1 (out ++ [c])) as (d2 & o & Hp & Hr).
        { auto. }
        { rewrite zlen_app. change (zlen [c]) with 1. lia. }
        { unfold pmeasure in *. rewrite Est. rewrite E in Hf. rewrite Hb, zlen_zdrop by lia. lia. }
        exists d2, (c :: o). rewrite Hp, <- app_assoc. split; [reflexivity|].
        rewrite zlen_app in Hr. change (zlen [c]) with 1 in Hr.
        replace (n - zlen out) with (n - (zlen out + 1) + 1) by lia.
        eapply run_emit; [|split; [left; exact E|]|exact Hr].
        { apply runs_nonneg in Hr. lia. }
        { rewrite Hst by (change (zlen (@nil Z)) with 0; lia). reflexivity. }
      * destruct (hs_step_backref n d out H E ltac:(lia)) as (d1 & o & Hst & Hem & Hi & Hlo & Hb & Hend).
        rewrite Hst. cbn [obind]. rewrite E.
        destruct Hend as [Est|[Est Hfull]]; rewrite Est; cbn [hstate_eqb].
        -- destruct (IHfuel n d1 (out ++ o)) as (d2 & o2 & Hp & Hr).
           { auto. }
           { rewrite zlen_app. lia. }
           { unfold pmeasure in *. rewrite Est. rewrite E in Hf. rewrite Hb. lia. }
           exists d2, (o ++ o2). rewrite Hp, <- app_assoc. split; [reflexivity|].
           rewrite zlen_app in Hr.
           replace (n - zlen out) with (n - (zlen out + zlen o) + zlen o) by lia.
           eapply emits_runs; eauto.
        -- exists d1, o. split; [reflexivity|].
           rewrite <- (app_nil_r o). replace (n - zlen out) with (0 + zlen o) by lia.
           eapply emits_runs; [eassumption|]. apply run_full. right; auto.
  - destruct (hs_step_silent n d out H He S) as (d1 & Hs & Hi & Hb & Hw & Hh & Ht & Hl & Hne).
    assert (Hd1 : silent d d1).
    { split; [auto|split; [|auto]]. rewrite (hs_step_quiet n d out He) in Hs.
      destruct (hs_step_silent 0 d [] H He S) as (d1' & Hs' & _).
      rewrite Hs' in Hs. inv Hs. exact Hs'. }
    rewrite Hs. cbn [obind].
    destruct (hstate_eqb (h_state d1) (h_state d)) eqn:Eq; [apply hstate_eqb_eq in Eq; congruence|].
    destruct (IHfuel n d1 out) as (d2 & o & Hp & Hr).
    { auto. }
    { lia. }
    { unfold pmeasure in *. rewrite Hb, zlen_zdrop.
      - assert (Hny : h_state d <> YIELD_BACKREF) by (intros X; apply He; right; auto).
        pose proof (need_range d ltac:(apply H) Hny).
        destruct (h_state d); destruct (h_state d1); lia.
      - assert (Hny : h_state d <> YIELD_BACKREF) by (intros X; apply He; right; auto).
        pose proof (need_range d ltac:(apply H) Hny). lia. }
    exists d2, o. rewrite Hp. split; [reflexivity|]. eapply run_silent; eauto.
Qed.

Lemma zlen_dbits : forall d, data_inv d ->
  zlen (dbits d) = Z.of_nat (cur_bits d) + 8 * (h_input_size d - h_input_index d).
Proof.
  intros d Hd. unfold dbits. rewrite zlen_app, zlen_to_bits, zlen_bytes_bits, zlen_dinput by auto. lia.
Qed.

Lemma cur_bits_range : forall d, data_inv d -> (cur_bits d <= 8)%nat.
Proof.
  intros d (_ & _ & _ & _ & [Hz|(k & Hk & E)] & _).
  - rewrite cur_bits_0 by auto. lia.
  - rewrite (cur_bits_pow d k) by (auto; lia). lia.
Qed.

Lemma hs_poll_runs : forall n d, hinv d -> 0 <= n ->
  exists d1 o, hs_poll wb lb n d = Ret (d1, o) /\ runs n d o d1.
Proof.
  intros n d H Hn. unfold hs_poll.
  destruct (hs_poll_loop_runs (hs_poll_fuel d) n d [] H) as (d1 & o & A & B).
  - rewrite zlen_nil. lia.
  - unfold hs_poll_fuel, pmeasure. pose proof H as (Hd & _).
    rewrite zlen_dbits by auto. pose proof (cur_bits_range d Hd).
    destruct Hd as (_ & _ & Hi & Hsz & _).
    destruct (h_state d); lia.
  - exists d1, o. rewrite zlen_nil, Z.sub_0_r in B. auto.
Qed.

Lemma hs_poll_iff : forall n d d1 o, hinv d -> 0 <= n ->
  (hs_poll wb lb n d = Ret (d1, o) <-> runs n d o d1).
Proof.
  intros n d d1 o H Hn. destruct (hs_poll_runs n d H Hn) as (d2 & o2 & A & B).
  split; intros C.
  - rewrite A in C. inv C. auto.
  - destruct (runs_det _ _ _ _ B H _ _ C) as [-> ->]. auto.
Qed.

(** A starved decoder has an empty input buffer, so sinking a byte succeeds. *)
Lemma starved_empty : forall d, hinv d -> starved d ->
  h_input_size d = 0 /\ h_input_index d = 0.
Proof.
  intros d (Hd & Hw & Hwb' & Hh & Hst) [Hne Hs].
  pose proof (need_range d Hst Hne). rewrite zlen_dbits in Hs by auto.
  destruct Hd as (_ & _ & Hi & Hsz & _). lia.
Qed.

Lemma hs_sink_starved : forall d b, hinv d -> starved d -> byte_ok b ->
  exists d1, hs_sink1 d b = Ret (Some d1) /\ hinv d1 /\
    dbits d1 = dbits d ++ to_bits 8 b /\ same_rest d d1 /\ h_input_size d1 = 1.
Proof.
  intros d b H Hs Hb. destruct (starved_empty d H Hs) as [E1 E2].
  pose proof H as ((Hl & Hbs & H0 & Hsz & Hbit & Hc) & Hw & Hwb' & Hh & Hst).
  unfold hs_sink1. rewrite E1. cbn [Z.sub]. change (HS_INPUT_BUFFER_SIZE - 0 =? 0) with false.
  cbv iota. rewrite zupd_some by lia. eexists. split; [reflexivity|].
  split.
  { split; [|split; [exact Hw|split; [exact Hwb'|split; [exact Hh|exact Hst]]]].
    split; [cbn; rewrite zlen_upd; auto|]. split; [cbn [h_in]; apply Forall_upd; auto|].
    cbn [h_input_size h_input_index h_bit_index h_current_byte]. rewrite E2.
    split; [lia|]. split; [lia|]. split; [exact Hbit|exact Hc]. }
  split; [|split; [repeat split|cbn; lia]].
  unfold dbits at 2. rewrite dinput_nil by auto. unfold bytes_bits at 1. cbn [flat_map].
  rewrite app_nil_r. unfold dbits, dinput. cbn [h_input_size h_input_index h_in].
  rewrite E2. change (0 + 1 - 0) with 1. rewrite zdrop_0. change (Z.to_nat 0) with 0%nat.
  destruct (h_in d) eqn:Ein; [rewrite zlen_nil in Hl; lia|].
  reflexivity.
Qed.

Lemma hs_reset_inv : hinv (hs_reset wb).
Proof.
  split; [|split; [|split; [|split]]].
  - split; [reflexivity|]. split; [apply Forall_zrepeat; unfold byte_ok; lia|].
    cbn. repeat split; try lia.
  - cbn [h_win hs_reset]. apply zlen_zrepeat. pose proof (pow2_pos wb). lia.
  - apply Forall_zrepeat. unfold byte_ok; lia.
  - cbn. lia.
  - exact I.
Qed.

End Runs.
