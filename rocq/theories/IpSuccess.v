(** What has been done when the in-place applier reports success (C52). *)

From Coq Require Import ZArith List Bool Lia ZifyBool ZifyNat ZifyN.
From Verif Require Import Prelude Lib Heatshrink HsProofs CReader ReaderProofs SizeProofs CSeq Spec SeqSim SeqRun SeqTerm SeqMeaning SeqApply SeqSpec SeqInv SeqCount ReaderSpec ReaderDrive SeqBound
  CInPlace InPlaceSpec CodesSpec CodesSeq CodesIp IpBoundSpec IpBound IpOutcomeSpec CallbackSpec IpCallbackSpec IpCallback SeqSafe.
Import ListNotations.
Open Scope Z_scope.

Ltac Zify.zify_post_hook ::= Z.to_euclidean_division_equations.

Ltac splits := repeat match goal with |- _ /\ _ => split end.

Section Success.
Context {WBits : WordBits}.
Hypothesis Hword : 32 <= word_bits.

(** ** Positions *)

Fixpoint in_order_mod (pos : Z) (l : list event) (stop : Z) : Prop :=
  match l with
  | [] => pos = stop
  | EWrite a n :: r => a = pos /\ 0 <= n /\ in_order_mod (wrap (pos + n)) r stop
  | _ :: r => in_order_mod pos r stop
  end.

Lemma written_nonneg : forall l pos stop, in_order_mod pos l stop -> 0 <= bytes_written l.
Proof. induction l as [|[] l IH]; intros pos stop H; cbn in *; [lia|eauto|eauto| |eauto]. destruct H as (_ & H1 & H2). apply IH in H2. lia. Qed.

Lemma in_order_exact : forall l pos stop, in_order_mod pos l stop -> 0 <= pos -> pos + bytes_written l < 2 ^ word_bits -> in_order pos l stop.
Proof.
  induction l as [|[a n|a n|a n|k] l IH]; intros pos stop H Hp Hb; cbn in *; eauto. destruct H as (-> & H1 & H2). split; [auto|].
  pose proof (written_nonneg _ _ _ H2). rewrite wrap_small in H2 by lia. apply IH; [exact H2|lia|lia].
Qed.

Lemma in_order_mod_app : forall l1 l2 pos mid stop, in_order_mod pos l1 mid -> in_order_mod mid l2 stop -> in_order_mod pos (l1 ++ l2) stop.
Proof. induction l1 as [|[a n|a n|a n|k] l1 IH]; intros l2 pos mid stop H1 H2; cbn in *; eauto; [subst; auto|]. destruct H1 as (A & B & C). eauto. Qed.

Lemma wrap_mod : forall x, wrap x = x mod 2 ^ word_bits.
Proof. reflexivity. Qed.

Lemma wrap_add_l : forall x y, wrap (wrap x + y) = wrap (x + y).
Proof. intros. rewrite !wrap_mod. apply Z.add_mod_idemp_l. pose proof (pow2_32_le word_bits Hword). lia. Qed.

Lemma wrap_add_r : forall x y, wrap (x + wrap y) = wrap (x + y).
Proof. intros. rewrite (Z.add_comm x), wrap_add_l, Z.add_comm. reflexivity. Qed.

Lemma wrap_mul_l : forall x y, wrap (wrap x * y) = wrap (x * y).
Proof. intros. rewrite !wrap_mod. apply Z.mul_mod_idemp_l. pose proof (pow2_32_le word_bits Hword). lia. Qed.

Lemma wrap_wrap : forall x, wrap (wrap x) = wrap x.
Proof. intros. pose proof (wrap_add_l x 0) as H. rewrite !Z.add_0_r in H. exact H. Qed.

Context {W : Type} (E : ip_env W).
Hypothesis Hget : step_get E = None.
Hypothesis Hcodes : mem_codes (fun r => r <= 0 /\ r <> -11) E.

Notation F := (watching E).

(** ** Callbacks *)

Lemma wnot_completed : forall step w, is_step_completed F step w = (0, false, w).
Proof. intros. unfold is_step_completed. cbn. rewrite Hget. reflexivity. Qed.

Lemma wread : forall step w log a n r b x, ip_mem_read F step (w, log) a n = (r, b, x) -> exists w1, x = (w1, log ++ [ERead a n]) /\ r <= 0.
Proof.
  intros step w log a n r b x U. unfold ip_mem_read in U. rewrite wnot_completed in U. cbn in U. destruct Hcodes as (C & _). specialize (C w a n).
  destruct (mem_read E w a n) as [[r0 b0] w0]. cbn in C. inv U. exists w0. split; [auto|tauto].
Qed.

Lemma wwrite : forall step w log a d r x, ip_mem_write F step (w, log) a d = (r, x) -> exists w1, x = (w1, log ++ [EWrite a (zlen d)]) /\ r <= 0.
Proof.
  intros step w log a n r x U. unfold ip_mem_write in U. rewrite wnot_completed in U. cbn in U. destruct Hcodes as (_ & C & _). specialize (C w a n).
  destruct (mem_write E w a n) as [r0 w0]. cbn in C. inv U. exists w0. split; [auto|tauto].
Qed.

Lemma werase : forall step w log a n r x, ip_mem_erase F step (w, log) a n = (r, x) -> exists w1, x = (w1, log ++ [EErase a n]) /\ r <= 0 /\ r <> -11.
Proof.
  intros step w log a n r x U. unfold ip_mem_erase in U. rewrite wnot_completed in U. cbn in U. destruct Hcodes as (_ & _ & C). specialize (C w a n).
  destruct (mem_erase E w a n) as [r0 w0]. cbn in C. inv U. exists w0. split; [auto|tauto].
Qed.

Lemma wnext : forall step w log r st x, next_step F step (w, log) = Ret (r, st, x) -> exists w1, x = (w1, log) /\ r <= 0 /\ r <> -11.
Proof.
  intros step w log r st x U. unfold next_step in U. rewrite wnot_completed in U. change (negb (0 =? 0)) with false in U. cbv iota in U. cbn [watching step_set] in U.
  destruct (step_set E) as [g|].
  - cbn [fst snd] in U. destruct (g w step) as [r0 w0]. cbn [fst snd] in U. apply obind_ret in U. destruct U as (st1 & _ & U). inv U. exists w0. split; [auto|].
    destruct (Z.eqb_spec r0 0); cbn [negb]; unfold E_STEP_SET_FAILED; lia.
  - apply obind_ret in U. destruct U as (st1 & _ & U). inv U. exists w. split; [auto|lia].
Qed.

Lemma wall : forall w log r x, all_steps_completed F (w, log) = (r, x) -> exists w1, x = (w1, log) /\ r <= 0 /\ r <> -11.
Proof.
  intros w log r x U. unfold all_steps_completed in U. cbn [watching step_set] in U. destruct (step_set E) as [g|].
  - cbn [fst snd] in U. destruct (g w 0) as [r0 w0]. inv U. exists w0. split; [auto|]. destruct (Z.eqb_spec r0 0); cbn [negb]; unfold E_STEP_SET_FAILED; lia.
  - inv U. exists w. split; [auto|lia].
Qed.

(** ** Moving the from data *)

Definition ev_block (rd wr : Z) (b : Z * Z) : list event := [ERead (rd + fst b) (snd b); EWrite (wr + fst b) (snd b)].

Definition block (n i : Z) : Z * Z := (128 * i, Z.min 128 (n - 128 * i)).

Lemma addresses_cons : forall a n, 0 < n -> addresses a n = a :: addresses (a + 1) (n - 1).
Proof.
  intros a n Hn. unfold addresses. replace (Z.to_nat n) with (S (Z.to_nat (n - 1))) by lia. cbn [seq map]. f_equal; [lia|].
  rewrite <- seq_shift, map_map. apply map_ext. intros. lia.
Qed.

Lemma addresses_snoc : forall a n, 0 < n -> addresses a n = addresses a (n - 1) ++ [a + (n - 1)].
Proof.
  intros a n Hn. unfold addresses. replace (Z.to_nat n) with (S (Z.to_nat (n - 1))) by lia. rewrite seq_S, map_app. cbn. f_equal. f_equal. lia.
Qed.

Lemma addresses_nil : forall a n, n <= 0 -> addresses a n = [].
Proof. intros a n Hn. unfold addresses. replace (Z.to_nat n) with O by lia. reflexivity. Qed.

Lemma copy_log : forall fuel step w log rd wr seg off r x, copy_loop F fuel step (w, log) rd wr seg off = Ret (r, x) ->
  r <= 0 /\ exists w1 l1, x = (w1, log ++ l1).
Proof.
  induction fuel; intros step w log rd wr seg off r x U; cbn [copy_loop] in U.
  { destruct (negb _); inv U. split; [lia|]. exists w, []. rewrite app_nil_r. auto. }
  destruct (negb _); [inv U; split; [lia|]; exists w, []; rewrite app_nil_r; auto|]. cbv zeta in U.
  destruct (ip_mem_read F step (w, log) _ _) as [[r1 b1] x1] eqn:A. destruct (wread _ _ _ _ _ _ _ _ A) as (w1 & -> & A2).
  destruct (negb (r1 =? 0)); [inv U; eauto|]. destruct (negb _); [discriminate|].
  destruct (ip_mem_write F step _ _ _) as [r2 x2] eqn:B. destruct (wwrite _ _ _ _ _ _ _ B) as (w2 & -> & B2).
  destruct (negb (r2 =? 0)); [inv U; split; [auto|]; exists w2; rewrite <- app_assoc; eauto|].
  apply IHfuel in U. destruct U as (U1 & w3 & l3 & ->). split; [auto|]. exists w3. rewrite <- !app_assoc. eauto.
Qed.

Lemma copy_exact : forall fuel step w log rd wr seg k x, 0 <= k -> 0 <= rd -> rd + seg < 2 ^ word_bits -> 0 <= wr -> wr + seg < 2 ^ word_bits ->
  copy_loop F fuel step (w, log) rd wr seg (Z.min seg (128 * k)) = Ret (0, x) ->
  exists w1, x = (w1, log ++ flat_map (ev_block rd wr) (map (block seg) (addresses k ((seg + 127) / 128 - k)))).
Proof.
  induction fuel; intros step w log rd wr seg k x Hk Hr1 Hr2 Hw1 Hw2 U; cbn [copy_loop] in U.
  { destruct (Z.ltb_spec (Z.min seg (128 * k)) seg); cbn [negb] in U; inv U. rewrite addresses_nil by lia. cbn. rewrite app_nil_r. eauto. }
  destruct (Z.ltb_spec (Z.min seg (128 * k)) seg); cbn [negb] in U.
  2:{ inv U. rewrite addresses_nil by lia. cbn. rewrite app_nil_r. eauto. }
  cbv zeta in U. replace (Z.min seg (128 * k)) with (128 * k) in U by lia. rewrite !wrap_small in U by lia.
  destruct (ip_mem_read F step (w, log) _ _) as [[r1 b1] x1] eqn:A. destruct (wread _ _ _ _ _ _ _ _ A) as (w1 & -> & A2).
  destruct (Z.eqb_spec r1 0); cbn [negb] in U; [|inv U; congruence].
  destruct (Z.eqb_spec (zlen b1) (Z.min 128 (seg - 128 * k))) as [Hb|]; cbn [negb] in U; [|discriminate].
  destruct (ip_mem_write F step _ _ _) as [r2 x2] eqn:B. destruct (wwrite _ _ _ _ _ _ _ B) as (w2 & -> & B2).
  destruct (Z.eqb_spec r2 0); cbn [negb] in U; [|inv U; congruence].
  replace (128 * k + Z.min 128 (seg - 128 * k)) with (Z.min seg (128 * (k + 1))) in U by lia.
  apply IHfuel in U; try lia. destruct U as (w3 & ->). exists w3. rewrite (addresses_cons k) by lia. cbn [map flat_map ev_block block fst snd app].
  rewrite <- !app_assoc, Hb. cbn [app]. do 4 f_equal. f_equal. f_equal. f_equal. lia.
Qed.

Lemma shift_log : forall n step w log rd wr seg r st x, shift_loop F n step (w, log) rd wr seg = Ret (r, st, x) -> r <= 0 /\ exists w1 l1, x = (w1, log ++ l1).
Proof.
  induction n; intros step w log rd wr seg r st x U; cbn [shift_loop] in U.
  { inv U. split; [lia|]. exists w, []. rewrite app_nil_r. auto. }
  destruct (ip_mem_erase F step (w, log) wr seg) as [r1 x1] eqn:A. destruct (werase _ _ _ _ _ _ _ A) as (w1 & -> & A2 & _).
  destruct (negb (r1 =? 0)); [inv U; eauto|].
  apply obind_ret in U. destruct U as ([r2 x2] & B & U). apply copy_log in B. destruct B as (B1 & w2 & l2 & ->).
  destruct (negb (r2 =? 0)); [inv U; split; [auto|]; exists w2; rewrite <- app_assoc; eauto|].
  apply obind_ret in U. destruct U as ([[r3 st3] x3] & C & U). apply wnext in C. destruct C as (w3 & -> & C1 & _).
  destruct (negb (r3 =? 0)); [inv U; split; [auto|]; exists w3; rewrite <- app_assoc; eauto|].
  apply IHn in U. destruct U as (U1 & w4 & l4 & ->). split; [auto|]. exists w4. rewrite <- !app_assoc. eauto.
Qed.

Lemma shift_exact : forall a n step w log st x, 0 < n_segment a -> 0 <= n_shift a -> n_shift a + Z.of_nat n * n_segment a < 2 ^ word_bits ->
  (exists rd wr, shift_loop F n step (w, log) rd wr (n_segment a) = Ret (0, st, x) /\
    (n = O \/ rd = (Z.of_nat n - 1) * n_segment a /\ wr = n_shift a + rd)) ->
  exists w1, x = (w1, log ++ flat_map (move a) (rev (addresses 0 (Z.of_nat n)))).
Proof.
  intros a. induction n; intros step w log st x Hseg Hsh Hb (rd & wr & U & Hrw); cbn [shift_loop] in U.
  { inv U. exists w. cbn. rewrite app_nil_r. auto. }
  destruct Hrw as [Hrw|[-> ->]]; [discriminate|]. set (i := Z.of_nat n) in *. replace (Z.of_nat (S n) - 1) with i in * by lia.
  assert (Hi : 0 <= i * n_segment a) by (apply Z.mul_nonneg_nonneg; lia).
  assert (Hi2 : n_shift a + i * n_segment a + n_segment a < 2 ^ word_bits) by lia.
  destruct (ip_mem_erase F step (w, log) _ _) as [r1 x1] eqn:A. destruct (werase _ _ _ _ _ _ _ A) as (w1 & -> & _).
  destruct (Z.eqb_spec r1 0); cbn [negb] in U; [|inv U; congruence].
  apply obind_ret in U. destruct U as ([r2 x2] & B & U).
  destruct (Z.eqb_spec r2 0); cbn [negb] in U; [|inv U; congruence]. subst r2.
  replace 0 with (Z.min (n_segment a) (128 * 0)) in B at 1 by lia. apply copy_exact in B; try lia. destruct B as (w2 & ->).
  apply obind_ret in U. destruct U as ([[r3 st3] x3] & C & U). apply wnext in C. destruct C as (w3 & -> & _).
  destruct (Z.eqb_spec r3 0); cbn [negb] in U; [|inv U; congruence].
  assert (U2 : exists rd wr, shift_loop F n st3 (w3, (log ++ [EErase (n_shift a + i * n_segment a) (n_segment a)]) ++
      flat_map (ev_block (i * n_segment a) (n_shift a + i * n_segment a)) (map (block (n_segment a)) (addresses 0 ((n_segment a + 127) / 128 - 0)))) rd wr (n_segment a) = Ret (0, st, x) /\
    (n = O \/ rd = (i - 1) * n_segment a /\ wr = n_shift a + rd)).
  { eexists _, _. split; [exact U|].
    destruct n as [|n]; [auto|]. right. assert (0 <= (i - 1) * n_segment a) by (apply Z.mul_nonneg_nonneg; lia). rewrite !wrap_small by lia. lia. }
  apply IHn in U2; try lia.
  destruct U2 as (w4 & ->). exists w4. rewrite (addresses_snoc 0 (Z.of_nat (S n))) by lia. rewrite rev_app_distr. cbn [rev app flat_map].
  replace (Z.of_nat (S n) - 1) with i by lia. replace (0 + i) with i by lia. rewrite <- !app_assoc. f_equal. unfold move at 2. cbv zeta. cbn [app]. f_equal. f_equal.
  unfold blocks. rewrite Z.sub_0_r. reflexivity.
Qed.

Definition in_range (a : announced) : Prop :=
  0 <= n_memory a < 2 ^ 27 /\ 0 <= n_segment a < 2 ^ 27 /\ 0 <= n_shift a < 2 ^ 27 /\ 0 <= n_from a < 2 ^ 27 /\ 0 <= n_to a < 2 ^ 27.

Lemma moving : forall a step w log r st x, in_range a -> n_to a <> 0 ->
  shift_memory F step (w, log) (n_memory a) (n_from a) (n_segment a) (n_shift a) = Ret (r, st, x) ->
  r <= 0 /\ (r = 0 -> exists w1 l1, x = (w1, log ++ l1) /\ (consistent a -> l1 = moves a)).
Proof.
  intros a step w log r st x (R1 & R2 & R3 & R4 & R5) Hto U. unfold shift_memory in U. destruct (Z.eqb_spec (n_segment a) 0) as [|Hz]; [discriminate|]. cbv zeta in U.
  pose proof (shift_log _ _ _ _ _ _ _ _ _ _ U) as (L1 & w1 & l1 & ->). split; [auto|]. intros ->. exists w1, l1. split; [auto|].
  intros (C1 & C2 & C3 & [q C4]). pose proof (pow2_32_le word_bits Hword).
  rewrite (wrap_small (n_memory a - n_shift a)) in U by lia. set (m := Z.min (n_from a) (n_memory a - n_shift a)) in *.
  rewrite (wrap_small (m + n_segment a)) in U by lia. rewrite (wrap_small (m + n_segment a - 1)) in U by lia.
  remember ((m + n_segment a - 1) / n_segment a) as n eqn:Hn.
  assert (Hn0 : 0 <= n) by (subst n; apply Z.div_pos; lia).
  assert (Hnq : n <= q). { subst n. apply Z.lt_succ_r. apply Z.div_lt_upper_bound; [lia|]. rewrite Z.mul_succ_r. lia. }
  assert (Hns : n * n_segment a <= q * n_segment a) by (apply Z.mul_le_mono_nonneg_r; lia).
  destruct (shift_exact a (Z.to_nat n) step w log st (w1, log ++ l1)) as (w2 & E2); try lia.
  - eexists _, _. split; [exact U|]. destruct (Z.eq_dec n 0) as [Hn1|Hn1]; [left; lia|]. right. rewrite Z2Nat.id by lia.
    assert (0 <= (n - 1) * n_segment a) by (apply Z.mul_nonneg_nonneg; lia).
    assert ((n - 1) * n_segment a <= n * n_segment a) by (apply Z.mul_le_mono_nonneg_r; lia).
    rewrite (wrap_small (n - 1)) by (assert (n <= n * n_segment a) by (rewrite <- (Z.mul_1_r n) at 1; apply Z.mul_le_mono_nonneg_l; lia); lia).
    rewrite (wrap_small ((n - 1) * n_segment a)) by lia. rewrite wrap_small by lia. lia.
  - inversion E2 as [[E3 E4]]. apply app_inv_head in E4. rewrite E4. unfold moves. destruct (Z.eqb_spec (n_to a) 0); [congruence|]. rewrite Z2Nat.id by lia. rewrite Hn. reflexivity.
Qed.

(** ** The invariant *)

Variable patch : list Z.

Definition hd_ok (f : list Z) (s : ip) : Prop :=
  bytes_ok (i_left s) /\
  match i_init s with
  | IFixed => i_left s ++ f = patch
  | st => zok (i_size s) /\
      match st with
      | IFixed => True
      | IMemory => pend f (tl patch) s
      | ISegment => exists M1, dec_magnitude (tl patch) = Some (i_memory_size s, M1) /\ 0 <= i_memory_size s < 2 ^ 27 /\ pend f M1 s
      | IShift => exists M1 M2, dec_magnitude (tl patch) = Some (i_memory_size s, M1) /\ 0 <= i_memory_size s < 2 ^ 27 /\
          dec_magnitude M1 = Some (i_segment_size s, M2) /\ 0 <= i_segment_size s < 2 ^ 27 /\ pend f M2 s
      | IFrom => exists M1 M2 M3, dec_magnitude (tl patch) = Some (i_memory_size s, M1) /\ 0 <= i_memory_size s < 2 ^ 27 /\
          dec_magnitude M1 = Some (i_segment_size s, M2) /\ 0 <= i_segment_size s < 2 ^ 27 /\
          dec_magnitude M2 = Some (i_shift_size s, M3) /\ 0 <= i_shift_size s < 2 ^ 27 /\ pend f M3 s
      | ITo => exists M1 M2 M3 M4, dec_magnitude (tl patch) = Some (i_memory_size s, M1) /\ 0 <= i_memory_size s < 2 ^ 27 /\
          dec_magnitude M1 = Some (i_segment_size s, M2) /\ 0 <= i_segment_size s < 2 ^ 27 /\
          dec_magnitude M2 = Some (i_shift_size s, M3) /\ 0 <= i_shift_size s < 2 ^ 27 /\
          dec_magnitude M3 = Some (i_from_size s, M4) /\ 0 <= i_from_size s < 2 ^ 27 /\ pend f M4 s
      end
  end.

Definition in_seg (s : ip) (pos : Z) : Prop :=
  let g := i_seg s in
  pos = wrap (g_to_offset g + g_to_pos g) /\ wrap (g_index g * i_segment_size s) = wrap (g_to_offset g + i_segment_size s) /\
  g_to_size g = Z.min (i_segment_size s) (wrap (i_to_size s - g_to_offset g)).

Definition written_to (a : announced) (log : list event) (pos : Z) : Prop :=
  exists moving writing, log = moving ++ writing /\ (consistent a -> moving = moves a) /\ in_order_mod 0 writing pos.

Definition body_ok (s : ip) (log : list event) : Prop :=
  exists a, announces patch = Some a /\ in_range a /\ i_to_size s = n_to a /\ i_segment_size s = n_segment a /\
  match i_state s with
  | SDone => written_to a log (n_to a)
  | SDfpatchSize => written_to a log (i_to_pos s) /\ i_to_pos s = wrap (g_index (i_seg s) * i_segment_size s)
  | _ => written_to a log (i_to_pos s) /\ in_seg s (i_to_pos s)
  end.

Definition sinv (f : list Z) (s : ip) (log : list event) : Prop :=
  match i_state s with
  | SInit => log = [] /\ hd_ok f s
  | SFailed => True
  | _ => body_ok s log
  end.

Lemma init_size_any : forall f s next store M res s1, bytes_ok f -> bytes_ok (i_left s) -> zok (i_size s) -> pend f M s ->
  ip_init_size s next store = Ret (res, s1) ->
    (res = 1 /\ exists z1, s1 = iset_header s (i_init s) (i_compression s) z1 [] /\ zok z1 /\ pend f M s1) \/
    (res = 0 /\ exists v0 z1 l, dec_magnitude M = Some (v0, l ++ f) /\ 0 <= v0 < 2 ^ 27 /\ s1 = store (iset_header s next (i_compression s) (z_first z1) l) v0 /\ bytes_ok l) \/
    res < 0.
Proof.
  intros f s next store M res s1 Hf Hb Hz Hp U. unfold ip_init_size in U. pose proof (pow2_32_le word_bits Hword).
  destruct (uhs_app (i_left s) (i_size s) f Hz)
    as [(z1 & P & Q & R)|[(v & z1 & l & used & P & Q & R & T)|(z1 & l & P & R)]]; rewrite P in U; cbn [obind] in U.
  - change (negb (1 =? 0)) with true in U. inv U. left. split; [auto|]. exists z1. splits; auto. intros v z2 l U. apply (Hp v z2 l). rewrite R. exact U.
  - change (negb (0 =? 0)) with false in U. cbv iota in U. inv U. pose proof (Hp _ _ _ T) as X. right. left. split; [auto|].
    exists v, z1, l. rewrite wrap_small by lia. splits; auto; try lia. rewrite R in Hb. apply Forall_app in Hb. tauto.
  - change (negb (- E_CORRUPT_PATCH_OVERFLOW =? 0)) with true in U. inv U. right. right. unfold E_CORRUPT_PATCH_OVERFLOW. lia.
Qed.

Lemma init_sinv : forall f s w log res s1 x1, bytes_ok f -> i_state s = SInit -> log = [] -> hd_ok f s ->
  ip_process_init F s (w, log) = Ret (res, s1, x1) ->
  res < 0 \/ sinv f s1 (snd x1).
Proof.
  intros f s w log res s1 x1 Hf Es Hlog (Hb & Hh) U. unfold ip_process_init in U. pose proof (pow2_32_le word_bits Hword).
  assert (Sz : forall next store M, zok (i_size s) -> pend f M s ->
     obind (ip_init_size s next store) (fun '(r, s1) => Ret (r, s1, (w, log))) = Ret (res, s1, x1) ->
     (forall y v, i_state (store y v) = i_state y) ->
     (forall z1, zok z1 -> pend f M (iset_header s (i_init s) (i_compression s) z1 []) -> hd_ok f (iset_header s (i_init s) (i_compression s) z1 [])) ->
     (forall v0 z1 l, bytes_ok l -> dec_magnitude M = Some (v0, l ++ f) -> 0 <= v0 < 2 ^ 27 -> hd_ok f (store (iset_header s next (i_compression s) (z_first z1) l) v0)) ->
     res < 0 \/ sinv f s1 (snd x1)).
  { intros next store M Hz Hp V Hst H1 H0. apply obind_ret in V. destruct V as ([r2 s2] & V & V2). inv V2.
    destruct (init_size_any _ _ _ _ _ _ _ Hf Hb Hz Hp V) as [(-> & z1 & -> & Y1 & Y2)|[(-> & v0 & z1 & l & Y1 & Y2 & -> & Y3)|Y1]]; [| |left; auto].
    - right. unfold sinv. cbn [i_state iset_header]. rewrite Es. auto.
    - right. unfold sinv. rewrite Hst. cbn [i_state iset_header]. rewrite Es. auto. }
  destruct (i_init s) eqn:Ei.
  - clear Sz. apply obind_ret in U. destruct U as ([r2 s2] & U & U2). inv U2.
    unfold ip_init_fixed_header in U. destruct (i_left s) as [|b l] eqn:El; [inv U; left; unfold E_SHORT_HEADER; lia|].
    cbv zeta in U. destruct (negb _); injection U as <- <-; [left; unfold E_BAD_PATCH_TYPE; lia|].
    right. unfold sinv. cbn [i_state iset_header]. rewrite Es. split; [auto|]. pose proof (Forall_inv_tail Hb).
    unfold hd_ok. cbn. splits; auto; [apply zok_first|]. apply pend_next; auto. cbn. rewrite <- Hh. reflexivity.
  - destruct Hh as (Hz & Hp). eapply Sz with (M := tl patch); [..|exact U| | |]; auto.
    + intros z1 Y1 Y2. unfold hd_ok. cbn. splits; auto. constructor.
    + intros v0 z1 l Y1 Y2 Y3. unfold hd_ok. cbn. splits; auto; [apply zok_first|]. eexists. split; [exact Y2|]. split; [lia|]. apply pend_next; auto.
  - destruct Hh as (Hz & M1 & D1 & R1 & Hp). eapply Sz with (M := M1); [..|exact U| | |]; auto.
    + intros z1 Y1 Y2. unfold hd_ok. cbn. splits; auto; [constructor|]. exists M1. auto.
    + intros v0 z1 l Y1 Y2 Y3. unfold hd_ok. cbn. splits; auto; [apply zok_first|]. exists M1, (l ++ f). splits; auto; try lia. apply pend_next; auto.
  - destruct Hh as (Hz & M1 & M2 & D1 & R1 & D2 & R2 & Hp). eapply Sz with (M := M2); [..|exact U| | |]; auto.
    + intros z1 Y1 Y2. unfold hd_ok. cbn. splits; auto; [constructor|]. exists M1, M2. splits; auto; lia.
    + intros v0 z1 l Y1 Y2 Y3. unfold hd_ok. cbn. splits; auto; [apply zok_first|]. exists M1, M2, (l ++ f). splits; auto; try lia. apply pend_next; auto.
  - destruct Hh as (Hz & M1 & M2 & M3 & D1 & R1 & D2 & R2 & D3 & R3 & Hp). eapply Sz with (M := M3); [..|exact U| | |]; auto.
    + intros z1 Y1 Y2. unfold hd_ok. cbn. splits; auto; [constructor|]. exists M1, M2, M3. splits; auto; lia.
    + intros v0 z1 l Y1 Y2 Y3. unfold hd_ok. cbn. splits; auto; [apply zok_first|]. exists M1, M2, M3, (l ++ f). splits; auto; try lia. apply pend_next; auto.
  - clear Sz. destruct Hh as (Hz & M1 & M2 & M3 & M4 & D1 & R1 & D2 & R2 & D3 & R3 & D4 & R4 & Hp). unfold ip_init_to_size in U.
    destruct (uhs_app (i_left s) (i_size s) f Hz)
      as [(z1 & P & Q & R)|[(v & z1 & l & used & P & Q & R & T)|(z1 & l & P & R)]]; rewrite P in U; cbn [obind] in U; cbv zeta in U.
    + change (negb (1 =? 0)) with true in U. injection U as <- <- <-. right. unfold sinv. cbn [i_state iset_header]. rewrite Es. split; [auto|].
      unfold hd_ok. cbn. rewrite Ei. splits; auto; [constructor|]. exists M1, M2, M3, M4. splits; auto; try lia.
      intros v z2 l U. apply (Hp v z2 l). rewrite R. exact U.
    + change (negb (0 =? 0)) with false in U. cbv iota in U. pose proof (Hp _ _ _ T) as D5.
      destruct (reader_init _ _) as [r|] eqn:Er; [|inv U; left; unfold E_BAD_COMPRESSION; lia].
      destruct (Z.ltb_spec v 0); [lia|].
      set (a := mkann (i_memory_size s) (i_segment_size s) (i_shift_size s) (i_from_size s) v (l ++ f)).
      assert (Ha : announces patch = Some a) by (unfold announces; rewrite D1, D2, D3, D4, D5; reflexivity).
      assert (Hr : in_range a) by (unfold in_range, a; cbn; lia).
      destruct (Z.ltb_spec 0 v).
      * cbn [i_step i_memory_size i_from_size i_segment_size i_shift_size iset_seg iset_to iset_reader iset_header] in U.
        apply obind_ret in U. destruct U as ([[r1 st] x2] & A & U).
        destruct (moving a _ _ _ _ _ _ Hr ltac:(cbn; lia) A) as (A1 & A2).
        destruct (Z.eqb_spec r1 0) as [->|Hne]; cbn [negb] in U; [|injection U as <- <- <-; left; lia].
        destruct (A2 eq_refl) as (w2 & l2 & -> & A3). injection U as <- <- <-. right. unfold sinv. cbn [i_state iset_st].
        exists a. cbn. rewrite wrap_small by lia. splits; auto.
        exists l2, []. rewrite Hlog, app_nil_r. splits; auto. reflexivity.
      * injection U as <- <- <-. right. unfold sinv. cbn [i_state iset_st]. exists a. cbn. assert (v = 0) as -> by lia.
        rewrite wrap_small by lia. splits; auto. exists [], []. splits; auto. reflexivity.
    + change (negb (- E_CORRUPT_PATCH_OVERFLOW =? 0)) with true in U. inv U. left. unfold E_CORRUPT_PATCH_OVERFLOW. lia.
Qed.

Lemma written_more : forall a log pos e pos1, written_to a log pos -> in_order_mod pos e pos1 -> written_to a (log ++ e) pos1.
Proof.
  intros a log pos e pos1 (m & wr & -> & H1 & H2) H3. exists m, (wr ++ e). rewrite <- app_assoc. splits; auto. eapply in_order_mod_app; eauto.
Qed.

Lemma dfpatch_sinv : forall f s w log res s1 x1, i_state s = SDfpatchSize -> body_ok s log ->
  ip_process_dfpatch_size F s (w, log) = Ret (res, s1, x1) -> res < 0 \/ sinv f s1 (snd x1).
Proof.
  intros f s w log res s1 x1 Es (a & Ha & Hr & H1 & H2 & H3) U. rewrite Es in H3. destruct H3 as (H3 & H4).
  unfold ip_process_dfpatch_size in U. destruct (i_reader s) as [r|]; [|discriminate].
  apply obind_ret in U. destruct U as ([[[[r0 v] z1] r1] l1] & A & U). cbv zeta in U.
  destruct (Z.eqb_spec r0 0); cbn [negb] in U.
  2:{ injection U as <- <- <-. right. unfold sinv. cbn [i_state iset_reader]. rewrite Es. exists a. cbn [i_state iset_reader]. rewrite Es. cbn. auto 10. }
  destruct (0 <? v); [inv U; left; unfold E_NOT_IMPLEMENTED; lia|].
  destruct (ip_mem_erase _ _ _ _ _) as [r2 x2] eqn:B. apply werase in B. destruct B as (w2 & -> & B1 & B2). injection U as <- <- <-.
  right. unfold sinv. cbn [i_state iset_seg iset_st]. exists a. cbn. splits; auto.
  - eapply written_more; [exact H3|]. cbn. auto.
  - unfold in_seg. cbn. rewrite Z.add_0_r. splits.
    + rewrite wrap_wrap. exact H4.
    + rewrite wrap_mul_l, wrap_add_l. f_equal. lia.
    + reflexivity.
Qed.

Lemma size_sinv : forall f s log next res s1, i_state s = SDiffSize /\ next = SDiffData \/ i_state s = SExtraSize /\ next = SExtraData -> body_ok s log ->
  ip_process_size s next = Ret (res, s1) -> res < 0 \/ sinv f s1 log.
Proof.
  intros f s log next res s1 Es (a & Ha & Hr & H1 & H2 & H3) U.
  assert (H4 : written_to a log (i_to_pos s) /\ in_seg s (i_to_pos s)) by (destruct Es as [[Es _]|[Es _]]; rewrite Es in H3; exact H3). clear H3. destruct H4 as (H3 & H4).
  unfold ip_process_size in U. destruct (i_reader s) as [r|]; [|discriminate].
  apply obind_ret in U. destruct U as ([[[[r0 v] z1] r1] l1] & A & U). cbv zeta in U.
  destruct (negb (r0 =? 0)); injection U as <- <-; right; destruct Es as [[Es ->]|[Es ->]]; unfold sinv; cbn [i_state iset_reader iset_st iset_chunk_size]; try rewrite Es;
    exists a; cbn [i_state iset_reader iset_st iset_chunk_size i_to_size i_segment_size i_to_pos]; try rewrite Es; auto 10.
Qed.

Lemma data_sinv : forall f s w log next res s1 x1, i_state s = SDiffData /\ next = SExtraSize \/ i_state s = SExtraData /\ next = SAdjustment -> body_ok s log ->
  ip_process_data F s (w, log) next = Ret (res, s1, x1) -> res < 0 \/ sinv f s1 (snd x1).
Proof.
  intros f s w log next res s1 x1 Es (a & Ha & Hr & H1 & H2 & H3) U.
  assert (H4 : written_to a log (i_to_pos s) /\ in_seg s (i_to_pos s)) by (destruct Es as [[Es _]|[Es _]]; rewrite Es in H3; exact H3). clear H3. destruct H4 as (H3 & H4).
  unfold ip_process_data in U. cbv zeta in U. destruct (_ =? 0).
  { injection U as <- <- <-. right. destruct Es as [[Es ->]|[Es ->]]; unfold sinv; cbn [i_state iset_st]; exists a; cbn [i_state iset_st i_to_size i_segment_size i_to_pos]; auto 10. }
  destruct (i_reader s) as [r|]; [|discriminate].
  apply obind_ret in U. destruct U as ([[[r0 out] r1] l1] & A & U).
  destruct (negb (r0 =? 0)).
  { injection U as <- <- <-. right. unfold sinv. cbn [i_state iset_reader].
    destruct Es as [[Es _]|[Es _]]; rewrite Es; exists a; cbn [i_state iset_reader i_to_size i_segment_size i_to_pos]; rewrite Es; auto 10. }
  apply obind_ret in U. destruct U as ([[[io data] s2] x2] & B & U).
  (* what the reading step leaves alone *)
  assert (K : io = true \/ exists w2 e2, x2 = (w2, log ++ e2) /\ in_order_mod (i_to_pos s) e2 (i_to_pos s) /\ zlen data = zlen out /\ i_state s2 = i_state s /\
     i_to_pos s2 = i_to_pos s /\ i_to_size s2 = i_to_size s /\ i_segment_size s2 = i_segment_size s /\
     g_index (i_seg s2) = g_index (i_seg s) /\ g_to_offset (i_seg s2) = g_to_offset (i_seg s) /\ g_to_size (i_seg s2) = g_to_size (i_seg s) /\ g_to_pos (i_seg s2) = g_to_pos (i_seg s)).
  { destruct Es as [[Es ->]|[Es ->]].
    - destruct (ip_mem_read _ _ _ _ _) as [[rr from] y] eqn:R. apply wread in R. destruct R as (w2 & -> & R).
      destruct (negb (rr =? 0)); [inv B; left; auto|].
      apply obind_ret in B. destruct B as (fo & _ & B). apply obind_ret in B. destruct B as (d & D & B). apply add_data_len in D. injection B as <- <- <- <-.
      right. exists w2, [ERead (wrap (g_from_offset (i_seg (iset_reader s (Some r1) (i_rsize s) l1)))) (zlen out)]. cbn. splits; auto.
    - injection B as <- <- <- <-. right. exists w, []. rewrite app_nil_r. cbn. splits; auto. }
  destruct io; [inv U; left; unfold E_IO_FAILED; lia|]. destruct K as [K|(w2 & e2 & -> & K0 & Kd & K1 & K2 & K3 & K4 & K5 & K6 & K7 & K8)]; [discriminate|].
  destruct (ip_mem_write _ _ _ _ _) as [rw x3] eqn:C. apply wwrite in C. destruct C as (w3 & -> & C).
  destruct (negb (rw =? 0)); [inv U; left; unfold E_IO_FAILED; lia|]. injection U as <- <- <-. right.
  assert (Hw : written_to a (((log ++ e2) ++ [EWrite (wrap (g_to_pos (i_seg s2) + g_to_offset (i_seg s2))) (zlen data)])) (wrap (i_to_pos s2 + zlen out))).
  { rewrite K2. eapply written_more; [eapply written_more; [exact H3|exact K0]|]. destruct H4 as (H4 & _). cbn. rewrite Kd, K6, K8. splits; [|apply zlen_nonneg|reflexivity].
    rewrite Z.add_comm. symmetry. exact H4. }
  assert (Hs : in_seg (iset_chunk_size (iset_seg (iset_to s2 (wrap (i_to_pos s2 + zlen out)) (i_to_size s2))
     (mksegst (g_index (i_seg s2)) (g_from_offset (i_seg s2)) (g_to_offset (i_seg s2)) (g_to_size (i_seg s2)) (wrap (g_to_pos (i_seg s2) + zlen out)))) (wrap (i_chunk_size s2 - zlen out)))
     (wrap (i_to_pos s2 + zlen out))).
  { destruct H4 as (H4 & H5 & H6). unfold in_seg. cbn. rewrite K2, K3, K4, K5, K6, K7, K8. splits; auto. rewrite wrap_add_r. rewrite H4 at 1. rewrite wrap_add_l. f_equal. lia. }
  unfold sinv. cbn [i_state iset_chunk_size iset_seg iset_to]. rewrite K1.
  destruct Es as [[Es _]|[Es _]]; rewrite Es; exists a; cbn [i_state iset_chunk_size iset_seg iset_to]; rewrite K1, Es; cbn [i_to_size i_segment_size i_to_pos iset_chunk_size iset_seg iset_to snd];
    rewrite K3, K4 in *; auto 10.
Qed.

Lemma adjust_sinv : forall f s w log res s1 x1, i_state s = SAdjustment -> body_ok s log ->
  ip_process_adjustment F s (w, log) = Ret (res, s1, x1) -> res < 0 \/ sinv f s1 (snd x1).
Proof.
  intros f s w log res s1 x1 Es (a & Ha & Hr & H1 & H2 & H3) U. rewrite Es in H3. destruct H3 as (H3 & H4).
  unfold ip_process_adjustment in U. destruct (i_reader s) as [r|]; [|discriminate].
  apply obind_ret in U. destruct U as ([[[[r0 v] z1] r1] l1] & A & U). cbv zeta in U.
  destruct (Z.eqb_spec r0 0); cbn [negb] in U.
  2:{ injection U as <- <- <-. right. unfold sinv. cbn [i_state iset_reader]. rewrite Es. exists a. cbn [i_state iset_reader]. rewrite Es. cbn. auto 10. }
  cbn [i_to_pos i_to_size i_seg iset_reader] in U.
  destruct (Z.eqb_spec (i_to_pos s) (i_to_size s)) as [He|Hne].
  - destruct (all_steps_completed F (w, log)) as [r2 x2] eqn:B. apply wall in B. destruct B as (w2 & -> & _). injection U as <- <- <-.
    right. unfold sinv. cbn [i_state iset_st]. exists a. cbn. rewrite <- H1, <- He in *. splits; auto.
  - destruct (Z.eqb_spec (g_to_pos (i_seg s)) (g_to_size (i_seg s))) as [He|Hg].
    + apply obind_ret in U. destruct U as ([[r2 st] x2] & B & U). apply wnext in B. destruct B as (w2 & -> & _). injection U as <- <- <-.
      right. unfold sinv. cbn [i_state iset_st]. exists a. cbn. splits; auto. destruct H4 as (H4 & H5 & H6). rewrite He, H6 in H4.
      destruct (Z.min_spec (i_segment_size s) (wrap (i_to_size s - g_to_offset (i_seg s)))) as [[_ M]|[_ M]]; rewrite M in H4.
      * rewrite H5. exact H4.
      * exfalso. apply Hne. rewrite H4, wrap_add_r. replace (g_to_offset (i_seg s) + (i_to_size s - g_to_offset (i_seg s))) with (i_to_size s) by lia.
        pose proof (pow2_32_le word_bits Hword). destruct Hr as (_ & _ & _ & _ & Hr). rewrite wrap_small by lia. reflexivity.
    + apply obind_ret in U. destruct U as (fo & _ & U). injection U as <- <- <-. right. unfold sinv. cbn [i_state iset_st]. exists a. cbn. splits; auto.
Qed.

Lemma good : callbacks_good F (fun _ => True) (fun r => r <= 0 /\ r <> -11).
Proof.
  apply plain_hyps; [|auto]. destruct Hcodes as (C1 & C2 & C3). unfold mem_codes. cbn. splits.
  - intros [w l] x n. specialize (C1 w x n). cbn. destruct (mem_read E w x n) as [[r b] w1]. exact C1.
  - intros [w l] x n. specialize (C2 w x n). cbn. destruct (mem_write E w x n) as [r w1]. exact C2.
  - intros [w l] x n. specialize (C3 w x n). cbn. destruct (mem_erase E w x n) as [r w1]. exact C3.
Qed.

Lemma once_sinv : forall f s x res s1 x1, bytes_ok f -> sinv f s (snd x) -> ip_process_once F s x = Ret (res, s1, x1) ->
  sinv f s1 (snd x1) /\ res <= 1 /\ (res < 0 -> i_state s1 = SDone \/ i_state s1 = SFailed) /\ (res = - E_ALREADY_DONE -> i_state s1 = SDone).
Proof.
  intros f s [w log] res s1 x1 Hf Hs U.
  destruct (ionce_istep F _ _ good _ _ _ _ _ U) as [(I1 & -> & -> & ->)|[(I1 & -> & I3 & ->)|(I1 & I2 & I3 & I4 & _)]].
  { splits; auto. unfold E_ALREADY_DONE. lia. }
  { unfold sinv. rewrite I3. splits; auto; unfold E_ALREADY_FAILED, E_ALREADY_DONE; lia. }
  assert (J : res <= 1 /\ res <> - E_ALREADY_DONE).
  { destruct I3 as [I3|I3]; [unfold code_ok, E_ALREADY_DONE in *; lia|]. apply (cb_neg F _ _ good) in I3. lia. }
  split; [|split; [lia|split; [auto|lia]]].
  destruct (Z.ltb_spec res 0) as [Hn|Hn]; [unfold sinv; rewrite (I4 Hn); exact I|].
  unfold ip_process_once in U. apply obind_ret in U. destruct U as ([[r0 s0] x0] & A & U).
  assert (Hsd : r0 = res /\ s0 = s1 /\ x0 = x1).
  { destruct (i_state s); inv U; auto; destruct (Z.ltb_spec res 0); try lia; auto. }
  destruct Hsd as (-> & -> & ->). clear U. unfold sinv in Hs.
  destruct (i_state s) eqn:Es; try congruence.
  - destruct Hs as [Hl Hh]. destruct (init_sinv f s w log res s1 x1); auto. lia.
  - destruct (dfpatch_sinv f s w log res s1 x1); auto. lia.
  - apply obind_ret in A. destruct A as ([r2 s2] & A & B). inv B. destruct (size_sinv f s log SDiffData res s1); auto. lia.
  - destruct (data_sinv f s w log SExtraSize res s1 x1); auto. lia.
  - apply obind_ret in A. destruct A as ([r2 s2] & A & B). inv B. destruct (size_sinv f s log SExtraData res s1); auto. lia.
  - destruct (data_sinv f s w log SAdjustment res s1 x1); auto. lia.
  - destruct (adjust_sinv f s w log res s1 x1); auto. lia.
Qed.

Lemma sinv_chunk : forall f s p log, bytes_ok p -> sinv (p ++ f) (iset_chunk s []) log -> sinv f (iset_chunk s p) log.
Proof.
  intros f s p log Hp H. unfold sinv in *. cbn [i_state iset_chunk] in *. destruct (i_state s) eqn:Es; auto.
  1:{ destruct H as (A & B & C). split; [auto|]. split; [exact Hp|]. cbn [i_init iset_chunk] in *. destruct (i_init s); exact C. }
  all: destruct H as (a & H); exists a; cbn [i_state iset_chunk] in *; rewrite Es in *; exact H.
Qed.

Lemma sinv_left : forall f s log, sinv f s log -> (i_left s = [] \/ i_state s = SDone \/ i_state s = SFailed) -> sinv f (iset_chunk s []) log.
Proof.
  intros f s log H Hl. unfold sinv in *. cbn [i_state iset_chunk] in *. destruct (i_state s) eqn:Es; auto.
  1:{ destruct Hl as [Hl|[Hl|Hl]]; [|congruence..]. destruct H as (A & B & C). split; [auto|]. split; [constructor|].
      cbn [i_init iset_chunk i_left]. unfold pend in *. cbn [i_left i_size iset_chunk i_memory_size i_segment_size i_shift_size i_from_size].
      rewrite Hl in C. exact C. }
  all: destruct H as (a & H); exists a; cbn [i_state iset_chunk] in *; rewrite Es in *; exact H.
Qed.

Lemma loop_sinv : forall fuel f res s x res1 s1 x1, bytes_ok f -> sinv f s (snd x) -> res <= 1 -> (res < 0 -> i_state s = SDone \/ i_state s = SFailed) ->
  ip_process_loop F fuel res s x = Ret (res1, s1, x1) -> sinv f (iset_chunk s1 []) (snd x1) /\ res1 <= 1.
Proof.
  induction fuel; intros f res s x res1 s1 x1 Hf Hs Hr Hn U; cbn [ip_process_loop] in U.
  - destruct (i_left s) eqn:El; [inv U; split; [apply sinv_left; auto|auto]|]. destruct (Z.ltb_spec res 0); inv U. split; [apply sinv_left; auto|auto].
  - destruct (i_left s) eqn:El; [inv U; split; [apply sinv_left; auto|auto]|]. destruct (Z.ltb_spec res 0); [inv U; split; [apply sinv_left; auto|auto]|].
    apply obind_ret in U. destruct U as ([[r2 s2] x2] & A & U). destruct (once_sinv _ _ _ _ _ _ Hf Hs A) as (A1 & A2 & A3 & _).
    eapply IHfuel; [exact Hf|exact A1|exact A2|exact A3|exact U].
Qed.

Lemma finloop_sinv : forall fuel f s x res1 s1 x1, bytes_ok f -> sinv f s (snd x) ->
  ip_finalize_loop F fuel s x = Ret (res1, s1, x1) -> res1 <> 0 /\ res1 <= 1 /\ sinv f s1 (snd x1) /\ (res1 = - E_ALREADY_DONE -> i_state s1 = SDone).
Proof.
  induction fuel; intros f s x res1 s1 x1 Hf Hs U; cbn [ip_finalize_loop] in U; [discriminate|].
  apply obind_ret in U. destruct U as ([[r2 s2] x2] & A & U). destruct (once_sinv _ _ _ _ _ _ Hf Hs A) as (A1 & A2 & A3 & A4).
  destruct (Z.eqb_spec r2 0); [eapply IHfuel; eauto|]. inv U. auto.
Qed.

Lemma finalize_success : forall fuel s x v s1 x1, sinv [] (iset_chunk s []) (snd x) -> ip_finalize F fuel s x = Ret (v, s1, x1) -> 0 <= v ->
  exists a, announces patch = Some a /\ v = n_to a /\ written_to a (snd x1) v.
Proof.
  intros fuel s x v s1 x1 Hs U Hv. unfold ip_finalize in U. apply obind_ret in U. destruct U as ([[r2 s2] x2] & A & U).
  apply obind_ret in U. destruct U as (r & C & U). inv U. destruct (finloop_sinv _ _ _ _ _ _ _ (Forall_nil _) Hs A) as (A1 & A2 & A3 & A4).
  unfold common_finalize in C. cbv zeta in C. destruct (Z.eqb_spec r2 1).
  { exfalso. change (- E_NOT_ENOUGH_PATCH_DATA =? - E_ALREADY_DONE) with false in C. cbv iota in C. apply obind_ret in C. destruct C as (r3 & C & C2).
    assert (r3 = - E_NOT_ENOUGH_PATCH_DATA).
    { destruct (i_reader s1); [apply obind_ret in C; destruct C as (d & _ & C); change (- E_NOT_ENOUGH_PATCH_DATA =? 0) with false in C|]; inv C; reflexivity. }
    subst r3. inv C2. unfold E_NOT_ENOUGH_PATCH_DATA in Hv. cbn in Hv. lia. }
  destruct (Z.eqb_spec r2 (- E_ALREADY_DONE)) as [Hd|Hd].
  - specialize (A4 Hd). unfold sinv in A3. rewrite A4 in A3. destruct A3 as (a & Ha & Hr & H1 & H2 & H3). rewrite A4 in H3.
    apply obind_ret in C. destruct C as (r3 & C & C2). inv C2.
    assert (Hd3 : r3 = 0 \/ r3 < 0).
    { destruct (i_reader s1) as [rd|]; [|inv C; auto]. apply obind_ret in C. destruct C as (d & D & C). cbn in C. inv C.
      clear - D. unfold destroy in D. destruct rd; cbn in D; repeat match type of D with context [if ?b then _ else _] => destruct b | context [match ?b with Some _ => _ | None => _ end] => destruct b end; inv D; auto; right; reflexivity. }
    destruct (Z.eqb_spec r3 0); [|lia].
    assert (Ht : to_int (i_to_size s1) = n_to a). { rewrite H1. destruct Hr as (_ & _ & _ & _ & Hr). apply to_int_small. unfold INT_MIN, INT_MAX. lia. }
    exists a. rewrite Ht. auto.
  - exfalso. apply obind_ret in C. destruct C as (r3 & C & C2).
    assert (r3 = r2).
    { destruct (i_reader s1); [apply obind_ret in C; destruct C as (d & _ & C); destruct (Z.eqb_spec r2 0); [congruence|]|]; inv C; reflexivity. }
    subst r3. inv C2. destruct (Z.eqb_spec r2 0); lia.
Qed.

Lemma feed_success : forall chunks fuel s x v s1 x1, bytes_ok (concat chunks) -> sinv (concat chunks) (iset_chunk s []) (snd x) ->
  ip_feed F fuel s x chunks = Ret (v, s1, x1) -> 0 <= v -> exists a, announces patch = Some a /\ v = n_to a /\ written_to a (snd x1) v.
Proof.
  induction chunks as [|p ps IH]; intros fuel s x v s1 x1 Hb Hs U Hv; cbn [ip_feed concat] in *; [eapply finalize_success; eauto|].
  apply Forall_app in Hb. destruct Hb as [Hp Hb]. apply obind_ret in U. destruct U as ([[r2 s2] x2] & A & U).
  unfold ip_process in A. apply obind_ret in A. destruct A as ([[r3 s3] x3] & A & B). inv B.
  pose proof (loop_sinv fuel (concat ps) 0 (iset_chunk s p) x r3 s2 x2 Hb (sinv_chunk _ _ _ _ Hp Hs) ltac:(lia) ltac:(lia) A) as (A1 & A2).
  change (- 11) with (- E_ALREADY_DONE) in U.
  destruct (Z.eqb_spec r3 1); [exact (IH _ _ _ _ _ _ Hb A1 U Hv)|]. cbn [orb] in U.
  destruct (Z.eqb_spec r3 (- E_ALREADY_DONE)); [exact (IH _ _ _ _ _ _ Hb A1 U Hv)|].
  destruct (Z.eqb_spec r3 0); [exact (IH _ _ _ _ _ _ Hb A1 U Hv)|]. apply obind_ret in U. destruct U as ([[r4 s4] x4] & _ & U). inv U. lia.
Qed.

Lemma callbacks_success : forall fuel po s x v s1 x1, bytes_ok patch -> 0 <= po -> sinv (zdrop po patch) (iset_chunk s []) (snd x) ->
  ip_callbacks_loop (ip_env_with F Z) fuel (patch_file patch) (zlen patch) po s (x, po) = Ret (v, s1, x1) -> 0 <= v ->
  exists a, announces patch = Some a /\ v = n_to a /\ written_to a (snd (fst x1)) v.
Proof.
  assert (Fin : forall fuel po s x v s1 x1, zlen patch <= po -> sinv (zdrop po patch) (iset_chunk s []) (snd x) ->
    ip_finalize (ip_env_with F Z) fuel s (x, po) = Ret (v, s1, x1) -> 0 <= v -> exists a, announces patch = Some a /\ v = n_to a /\ written_to a (snd (fst x1)) v).
  { intros fuel po s x v s1 x1 Hp Hi X Hv. rewrite zdrop_all in Hi by lia. rewrite ifinalize_hom in X. destruct (ip_finalize F fuel s x) as [[[r2 s2] w2]| |] eqn:A; cbn [iout3] in X; inv X.
    eapply finalize_success; [exact Hi|exact A|exact Hv]. }
  induction fuel; intros po s x v s1 x1 Hp Hpo Hi X Hv; cbn [ip_callbacks_loop] in X.
  - destruct (Z.ltb_spec po (zlen patch)); cbn [negb] in X; [discriminate|]. eapply Fin; [|exact Hi|exact X|exact Hv]. lia.
  - destruct (Z.ltb_spec po (zlen patch)); cbn [negb] in X; [|eapply Fin; [|exact Hi|exact X|exact Hv]; lia].
    cbv zeta in X. remember (Z.min (zlen patch - po) 512) as m eqn:Hm. unfold patch_file at 1 in X.
    destruct (Z.leb_spec (po + m) (zlen patch)); [|lia]. change (negb (0 =? 0)) with false in X. cbv iota in X.
    replace (zlen (ztake m (zdrop po patch))) with m in X by (rewrite zlen_ztake, zlen_zdrop by lia; lia). rewrite Z.eqb_refl in X. cbn [negb] in X.
    rewrite iprocess_hom in X. apply obind_ret in X. destruct X as ([[r2 s2] w2] & A & X). destruct (ip_process F _ s x _) as [[[r3 s3] w3]| |] eqn:A0; cbn [iout3] in A; [|discriminate|discriminate]. injection A as -> -> <-. rename A0 into A.
    assert (Hz : forall n, bytes_ok (zdrop n patch)) by (intros; apply bytes_ok_zdrop; exact Hp).
    unfold ip_process in A. apply obind_ret in A. destruct A as ([[r4 s4] w4] & A2 & A3).
    assert (s4 = s2 /\ w4 = w3 /\ r2 = if (r4 =? 1) || (r4 =? - E_ALREADY_DONE) then 0 else r4) as (-> & -> & Hr2) by (splits; congruence). clear A3.
    assert (Hi2 : sinv (zdrop (po + m) patch) (iset_chunk s (ztake m (zdrop po patch))) (snd x)).
    { apply sinv_chunk; [apply bytes_ok_ztake; apply Hz|].
      replace (zdrop (po + m) patch) with (zdrop m (zdrop po patch)) by (rewrite zdrop_zdrop by lia; f_equal; lia). rewrite ztake_zdrop. exact Hi. }
    pose proof (loop_sinv _ _ 0 _ _ _ _ _ (Hz _) Hi2 ltac:(lia) ltac:(lia) A2) as (B1 & B2).
    destruct (Z.eqb_spec r2 0) as [->|Hr].
    + eapply IHfuel; [exact Hp| |exact B1|exact X|exact Hv]. lia.
    + apply obind_ret in X. destruct X as ([[r5 s5] w5] & _ & X). inv X.
      destruct (Z.eqb_spec r4 1); cbn [orb] in *; [lia|]. destruct (Z.eqb_spec r4 (- E_ALREADY_DONE)); lia.
Qed.

Lemma init_is_sinv : forall junk ps, sinv patch (iset_chunk (ip_init junk ps) []) [].
Proof. intros junk ps. unfold sinv. cbn. split; [auto|]. unfold hd_ok. cbn. split; [constructor|reflexivity]. Qed.

End Success.

(** Success: the from data has been moved as announced, and after that the announced
    number of bytes has been written in order from address 0. *)
Theorem ip_success : forall {wb : WordBits}, 32 <= word_bits -> forall {W} (E : ip_env W), step_get E = None ->
  mem_codes (fun r => r <= 0 /\ r <> -11) E ->
  forall fuel junk ps chunks w v s w1 log, bytes_ok (concat chunks) ->
  ip_feed (watching E) fuel (ip_init junk ps) (w, []) chunks = Ret (v, s, (w1, log)) -> 0 <= v ->
  exists a moving writing, announces (concat chunks) = Some a /\ v = n_to a /\ log = moving ++ writing /\
    (consistent a -> moving = moves a) /\ (bytes_written writing < 2 ^ word_bits -> in_order 0 writing v).
Proof.
  intros wb Hword W E Hget Hcodes fuel junk ps chunks w v s w1 log Hb U Hv.
  destruct (feed_success Hword E Hget Hcodes (concat chunks) chunks fuel (ip_init junk ps) (w, []) v s (w1, log) Hb (init_is_sinv _ _ _) U Hv)
    as (a & Ha & Hva & m & wr & X1 & X2 & X3). exists a, m, wr. splits; auto.
  intros Hw. apply in_order_exact; auto; lia.
Qed.

Theorem ip_success_callbacks : forall {wb : WordBits}, 32 <= word_bits -> forall {W} (E : ip_env W), step_get E = None ->
  mem_codes (fun r => r <= 0 /\ r <> -11) E ->
  forall fuel junk patch w v s w1 log pos, bytes_ok patch ->
  apply_patch_in_place_callbacks (ip_env_with (watching E) Z) fuel junk (patch_file patch) (zlen patch) ((w, []), 0) = Ret (v, s, ((w1, log), pos)) -> 0 <= v ->
  exists a moving writing, announces patch = Some a /\ v = n_to a /\ log = moving ++ writing /\
    (consistent a -> moving = moves a) /\ (bytes_written writing < 2 ^ word_bits -> in_order 0 writing v).
Proof.
  intros wb Hword W E Hget Hcodes fuel junk patch w v s w1 log pos Hb U Hv.
  destruct (callbacks_success Hword E Hget Hcodes patch fuel 0 (ip_init junk (zlen patch)) (w, []) v s ((w1, log), pos) Hb ltac:(lia) (init_is_sinv _ _ _) U Hv)
    as (a & Ha & Hva & m & wr & X1 & X2 & X3). exists a, m, wr. splits; auto.
  intros Hw. apply in_order_exact; auto; lia.
Qed.
