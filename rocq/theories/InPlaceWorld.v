(** The memory operations of the in-place applier on the flash memory with power
    loss. *)

From Coq Require Import ZArith List Bool Lia ZifyBool ZifyNat ZifyN.
From Verif Require Import Prelude Lib CReader CInPlace Spec InPlaceSpec InPlaceMem.
Import ListNotations.
Open Scope Z_scope.

(** Whether reading an erased cell fails; if so the memory has none in the beginning. *)
Class strictness (mem0 : list (option Z)) := mkstrict {
  strict : bool;
  strict_full : strict = true -> forall x, znth mem0 x <> Some None
}.

Section World.
Variables memory segment shift : Z.
Variables from to : list Z.
Variable mem0 : list (option Z).
Context {ST : strictness mem0}.

Hypothesis Hsizes : sizes_ok memory segment shift (zlen from) (zlen to).
Hypothesis Hlen : memory <= zlen mem0.
Hypothesis Hto : 0 < zlen to.

(** Recorded step at the beginning of the attempt; whether power is never lost. *)
Variable c0 : Z.
Variable unl : bool.

Notation NS := (NS memory segment shift from).
Notation MS := (MS segment to).
Notation base := (base memory segment shift from to).
Notation size := (size memory segment shift from to).
Notation content := (content memory segment shift from to).
Notation canon := (canon memory segment shift from to mem0).
Notation of_step := (event_of_step memory segment shift (zlen from) (zlen to)).
Notation steps_log := (steps_log memory segment shift (zlen from) (zlen to)).

Definition glob (w : dev) : Prop :=
  d_bad w = false /\ zlen (d_mem w) = zlen mem0 /\ (unl = true -> d_power w = None) /\
  Forall (event_in_memory memory) (d_log w).

Definition resumable (w : dev) : Prop :=
  0 <= d_step w < NS + MS /\ agree (d_mem w) (canon (d_step w)) (base (d_step w + 1)) (size (d_step w + 1)).

Definition off (w : dev) : Prop :=
  d_off w = true /\ glob w /\ unl = false /\ (resumable w \/ In (EStep 0) (d_log w) /\ d_mem w = canon (NS + MS)).

Definition progress (w : dev) (j : Z) (p : option (list Z)) : Prop :=
  match p with
  | None => True
  | Some p =>
      zlen p <= size j /\
      (forall k, 0 <= k < zlen p -> znth (d_mem w) (base j + k) = option_map Some (znth p k)) /\
      (forall k, zlen p <= k < size j -> znth (d_mem w) (base j + k) = Some None)
  end.

Definition logged (w : dev) (j : Z) : Prop :=
  exists pre ops, d_log w = pre ++ ops /\ steps_log c0 (j - 1) pre /\ Forall (of_step j) ops.

(** The applier is in step [j] and has written [p] to its area ([None]: the area
    may have any contents). *)
Definition world (w : dev) (j : Z) (p : option (list Z)) : Prop :=
  d_off w = false /\ glob w /\ 1 <= j <= NS + MS /\
  ((d_step w = j - 1 /\ agree (d_mem w) (canon (j - 1)) (base j) (size j) /\ progress w j p /\ logged w j) \/
   (j <= d_step w < NS + MS /\ d_step w = c0 /\ resumable w /\ d_log w = [] /\
    match p with None => True | Some p => zlen p <= size j end)).

Definition finished (w : dev) : Prop :=
  d_off w = false /\ glob w /\ d_step w = 0 /\ d_mem w = canon (NS + MS) /\
  exists pre ops, d_log w = pre ++ ops ++ [EStep 0] /\ steps_log c0 (NS + MS - 1) pre /\ Forall (of_step (NS + MS)) ops.

Ltac steps := destruct (steps_bounds memory segment shift from to Hsizes Hto) as (SB1 & SB2 & SB3 & SB4 & SB5 & SB6 & SB7 & SB8).

Lemma completed : forall j w, d_off w = false -> is_step_completed (flash_env_of strict) j w = (0, j <=? d_step w, w).
Proof. intros j w H. unfold is_step_completed. cbn [step_get flash_env_of]. unfold recorded_step. rewrite H. reflexivity. Qed.

Lemma in_mem : forall w a n, zlen (d_mem w) = zlen mem0 -> 0 <= a -> 0 <= n -> a + n <= memory -> in_memory w a n = true.
Proof. intros w a n H1 H2 H3 H4. unfold in_memory. lia. Qed.

Lemma power_none : forall w, unl = true -> glob w -> power_lost_now w = false.
Proof. intros w H (_ & _ & A & _). unfold power_lost_now. rewrite (A H). reflexivity. Qed.

Lemma power_now : forall w, glob w -> power_lost_now w = true -> unl = false.
Proof. intros w H E. destruct unl eqn:U; [|auto]. destruct H as (_ & _ & A & _). unfold power_lost_now in E. rewrite (A U) in E. discriminate. Qed.

Lemma tick_glob : forall w mem step e, glob w -> zlen mem = zlen mem0 -> event_in_memory memory e -> glob (tick w mem step e).
Proof.
  intros w mem step e (A & B & C & D) H1 H2. unfold glob, tick. cbn. split; [auto|]. split; [auto|]. split.
  - intros U. rewrite (C U). reflexivity.
  - apply Forall_app. auto.
Qed.

Lemma lose_glob : forall w mem step log, glob w -> zlen mem = zlen mem0 -> Forall (event_in_memory memory) log -> glob (lose_power w mem step log).
Proof. intros w mem step log (A & B & C & D) H1 H2. unfold glob, lose_power. cbn. auto. Qed.

(** Losing power in step [j] with the memory changed only in the area of the step. *)
Lemma lose_off : forall w j p mem, world w j p -> d_step w = j - 1 -> power_lost_now w = true ->
  agree mem (canon (j - 1)) (base j) (size j) -> off (lose_power w mem (d_step w) (d_log w)).
Proof.
  intros w j p mem (A & B & C & D) E P G. unfold off. split; [reflexivity|]. split.
  - apply lose_glob; [auto| |apply B]. destruct G as [G _]. rewrite G. apply zlen_canon; auto. lia.
  - split; [eapply power_now; eauto|]. left. unfold resumable. cbn. rewrite E. split; [lia|].
    replace (j - 1 + 1) with j by lia. auto.
Qed.

Lemma not_live : forall w j p, world w j p -> d_step w <> j - 1 -> (j <=? d_step w) = true.
Proof. intros w j p (A & B & C & [D|D]) E; lia. Qed.

Lemma live : forall w j p, world w j p -> d_step w = j - 1 ->
  agree (d_mem w) (canon (j - 1)) (base j) (size j) /\ progress w j p /\ logged w j /\ (j <=? d_step w) = false.
Proof. intros w j p (A & B & C & [D|D]) E; [|lia]. destruct D as (D1 & D2 & D3 & D4). split; [auto|]. split; [auto|]. split; [auto|lia]. Qed.

Lemma logged_more : forall w j mem step e, logged w j -> of_step j e -> logged (tick w mem step e) j.
Proof.
  intros w j mem step e (pre & ops & A & B & C) H. exists pre, (ops ++ [e]). cbn. rewrite A, app_assoc.
  split; [auto|]. split; [auto|]. apply Forall_app. auto.
Qed.

Lemma skip_same : forall w j p q, world w j p -> d_step w <> j - 1 -> match q with None => True | Some q => zlen q <= size j end -> world w j q.
Proof.
  intros w j p q (A & B & C & [D|D]) E Q; [lia|]. destruct D as (D1 & D2 & D3 & D4 & _).
  split; [auto|]. split; [auto|]. split; [auto|]. right. auto 10.
Qed.

Lemma area_within : forall j b k, 1 <= j <= NS + MS -> within (base j, size j) b k -> within (0, memory) b k.
Proof.
  intros j b k H W. pose proof (area_bounds memory segment shift from to Hsizes Hto j H). unfold within in *. cbn in *. lia.
Qed.

Lemma op_erase : forall w j p, world w j p ->
  (exists w1, ip_mem_erase (flash_env_of strict) j w (base j) (size j) = (0, w1) /\ world w1 j (Some [])) \/
  (exists w1, ip_mem_erase (flash_env_of strict) j w (base j) (size j) = (-1, w1) /\ off w1).
Proof.
  intros w j p W. pose proof W as (A & B & C & _).
  pose proof (area_bounds memory segment shift from to Hsizes Hto j C) as Ha.
  unfold ip_mem_erase. rewrite completed by auto. change (negb (0 =? 0)) with false. cbv iota.
  destruct (Z.eq_dec (d_step w) (j - 1)) as [E|E].
  2:{ rewrite (not_live _ _ _ W E). left. exists w. split; [auto|]. eapply skip_same; eauto. change (zlen (@nil Z)) with 0. lia. }
  destruct (live _ _ _ W E) as (L1 & L2 & L3 & ->).
  pose proof B as (B1 & B2 & B3 & B4).
  cbn [mem_erase flash_env_of]. unfold flash_erase. rewrite A, in_mem by (auto; lia). cbn [negb].
  destruct (power_lost_now w) eqn:P.
  - right. eexists. split; [reflexivity|]. eapply lose_off; eauto.
    apply agree_blit; auto; try lia. rewrite zlen_map, zlen_addresses; lia.
  - left. eexists. split; [reflexivity|]. split; [auto|]. split.
    + apply tick_glob; [auto| |].
      * rewrite zlen_blit; rewrite ?zlen_zrepeat; lia.
      * cbn. apply (area_within j); [auto|]. unfold within. cbn. lia.
    + split; [auto|]. left. cbn [d_step tick d_mem]. split; [auto|]. split.
      * apply agree_blit; auto; try lia. rewrite zlen_zrepeat; lia.
      * split.
        -- cbn. change (zlen (@nil Z)) with 0. split; [lia|]. split; [intros; lia|]. intros k Hk.
           rewrite znth_blit_in; rewrite ?zlen_zrepeat; try lia. apply znth_zrepeat. lia.
        -- apply logged_more; [auto|]. cbn. unfold within. change (step_area memory segment shift (zlen from) (zlen to) j) with (base j, size j) || idtac.
           fold (area memory segment shift from to j). change (fst (area memory segment shift from to j)) with (base j).
           change (snd (area memory segment shift from to j)) with (size j). lia.
Qed.

Lemma forallb_znth : forall (l : list (option Z)), (forall k, 0 <= k < zlen l -> znth l k = Some None) -> forallb is_erased l = true.
Proof.
  intros l H. apply forallb_forall. intros x Hx. apply In_nth_error in Hx. destruct Hx as (n & Hx).
  assert (K : znth l (Z.of_nat n) = Some x).
  { unfold znth. destruct (Z.ltb_spec (Z.of_nat n) 0); [lia|]. rewrite Nat2Z.id. auto. }
  pose proof (znth_some_range _ _ _ K) as R. rewrite H in K by auto. inversion K. reflexivity.
Qed.

Lemma op_write : forall w j p data data', world w j (Some p) -> zlen data = zlen data' -> (d_step w = j - 1 -> data = data') ->
  zlen p + zlen data <= size j ->
  (exists w1, ip_mem_write (flash_env_of strict) j w (base j + zlen p) data = (0, w1) /\ world w1 j (Some (p ++ data')) /\ d_step w1 = d_step w) \/
  (exists w1, ip_mem_write (flash_env_of strict) j w (base j + zlen p) data = (-1, w1) /\ off w1).
Proof.
  intros w j p data data' W Hd Hs Hl. pose proof W as (A & B & C & _).
  pose proof (zlen_nonneg p). pose proof (zlen_nonneg data).
  pose proof (area_bounds memory segment shift from to Hsizes Hto j C) as Ha.
  unfold ip_mem_write. rewrite completed by auto. change (negb (0 =? 0)) with false. cbv iota.
  destruct (Z.eq_dec (d_step w) (j - 1)) as [E|E].
  2:{ rewrite (not_live _ _ _ W E). left. exists w. split; [auto|]. split; [|auto]. eapply skip_same; eauto. rewrite zlen_app. lia. }
  destruct (live _ _ _ W E) as (L1 & L2 & L3 & ->). rewrite <- (Hs E) in *.
  pose proof B as (B1 & B2 & B3 & B4). destruct L2 as (P1 & P2 & P3).
  cbn [mem_write flash_env_of]. unfold flash_write. rewrite A, in_mem by (auto; lia).
  rewrite forallb_znth.
  2:{ intros k Hk. rewrite zlen_slice in Hk by lia. rewrite znth_slice by lia. rewrite <- Z.add_assoc. apply P3. lia. }
  cbn [negb andb].
  destruct (power_lost_now w) eqn:P.
  - right. eexists. split; [reflexivity|]. eapply lose_off; eauto.
    apply agree_blit; auto; try lia. rewrite zlen_map, zlen_addresses; lia.
  - left. eexists. split; [reflexivity|]. split; [|reflexivity]. split; [auto|]. split.
    + apply tick_glob; [auto| |].
      * rewrite zlen_blit; rewrite ?zlen_map; lia.
      * cbn. apply (area_within j); [auto|]. unfold within. cbn. lia.
    + split; [auto|]. left. cbn [d_step tick d_mem]. split; [auto|]. split.
      * apply agree_blit; auto; try lia. rewrite zlen_map; lia.
      * split.
        -- cbn [progress d_mem tick]. rewrite zlen_app. split; [lia|]. split.
           ++ intros k Hk. destruct (Z.ltb_spec k (zlen p)).
              ** rewrite znth_blit_out by (rewrite ?zlen_map; lia). rewrite znth_app_l by lia. apply P2. lia.
              ** rewrite znth_blit_in by (rewrite ?zlen_map; lia). rewrite znth_map, znth_app_r by lia. do 2 f_equal. lia.
           ++ intros k Hk. rewrite znth_blit_out by (rewrite ?zlen_map; lia). apply P3. lia.
        -- apply logged_more; [auto|]. cbn. unfold within.
           fold (area memory segment shift from to j). change (fst (area memory segment shift from to j)) with (base j).
           change (snd (area memory segment shift from to j)) with (size j). lia.
Qed.

Lemma op_read : forall w j p a n, world w j p -> 0 <= a -> 0 <= n -> a + n <= memory ->
  (a + n <= base j \/ base j + size j <= a) ->
  (exists buf w1, ip_mem_read (flash_env_of strict) j w a n = (0, buf, w1) /\ zlen buf = n /\ world w1 j p /\ d_step w1 = d_step w /\
     (d_step w = j - 1 -> buf = map cell_value (ztake n (zdrop a (canon (j - 1)))))) \/
  (exists w1, ip_mem_read (flash_env_of strict) j w a n = (-1, [], w1) /\ off w1).
Proof.
  intros w j p a n W Ha0 Hn Ham Hout. pose proof W as (A & B & C & _).
  pose proof (area_bounds memory segment shift from to Hsizes Hto j C) as Ha.
  unfold ip_mem_read. rewrite completed by auto. change (negb (0 =? 0)) with false. cbv iota.
  destruct (Z.eq_dec (d_step w) (j - 1)) as [E|E].
  2:{ rewrite (not_live _ _ _ W E). left. exists (zrepeat 0 n), w. split; [auto|]. split; [apply zlen_zrepeat; lia|].
      split; [auto|]. split; [auto|]. intros; lia. }
  destruct (live _ _ _ W E) as (L1 & L2 & L3 & ->).
  pose proof B as (B1 & B2 & B3 & B4).
  assert (Hs : mem_read (flash_env_of strict) w a n = flash_read w a n).
  { cbn [mem_read flash_env_of]. destruct strict eqn:St; [|reflexivity]. unfold strict_read.
    replace (existsb is_erased (ztake n (zdrop a (d_mem w)))) with false; [reflexivity|]. symmetry. apply not_true_is_false. intros X.
    apply existsb_exists in X. destruct X as (c & X1 & X2). destruct c; [discriminate|]. apply In_nth_error in X1. destruct X1 as (k & X1).
    assert (K : znth (ztake n (zdrop a (d_mem w))) (Z.of_nat k) = Some None) by (unfold znth; destruct (Z.ltb_spec (Z.of_nat k) 0); [lia|rewrite Nat2Z.id; auto]).
    pose proof (znth_some_range _ _ _ K) as Rg. rewrite zlen_slice in Rg by lia. rewrite znth_slice in K by lia. destruct L1 as [_ L1]. rewrite L1 in K by lia.
    eapply (canon_full memory segment shift from to mem0 Hsizes Hlen Hto (strict_full St) (j - 1)); [lia|exact K]. }
  rewrite Hs. clear Hs. unfold flash_read. rewrite A, in_mem by (auto; lia). cbn [negb].
  destruct (power_lost_now w) eqn:P.
  - right. eexists. split; [reflexivity|]. eapply lose_off; eauto.
  - left. do 2 eexists. split; [reflexivity|]. split; [rewrite zlen_map, zlen_slice; lia|]. split; [|split; [reflexivity|]].
    + split; [auto|]. split.
      * apply tick_glob; [auto|auto|]. cbn. unfold within. cbn. lia.
      * split; [auto|]. left. split; [auto|]. split; [auto|]. split; [auto|].
        apply logged_more; [auto|]. cbn. unfold within.
        fold (area memory segment shift from to j). change (fst (area memory segment shift from to j)) with (base j).
        change (snd (area memory segment shift from to j)) with (size j). cbn. lia.
    + intros _. f_equal. destruct L1 as [L1 L4]. pose proof (zlen_canon memory segment shift from to mem0 Hsizes Hlen Hto (j - 1) ltac:(lia)).
      apply znth_ext; [rewrite !zlen_slice; lia|]. intros k Hk. rewrite zlen_slice in Hk by lia.
      rewrite !znth_slice by lia. apply L4. lia.
Qed.

Lemma complete_mem : forall w j p, world w j (Some p) -> d_step w = j - 1 -> p = content j (canon (j - 1)) -> d_mem w = canon j.
Proof.
  intros w j p W E Hp. pose proof W as (A & B & C & _). destruct (live _ _ _ W E) as (L1 & L2 & L3 & _).
  destruct L2 as (P1 & P2 & P3).
  pose proof (zlen_canon memory segment shift from to mem0 Hsizes Hlen Hto (j - 1) ltac:(lia)).
  assert (zlen p = size j) by (rewrite Hp; apply zlen_content; auto; lia).
  replace j with (j - 1 + 1) by lia. apply canon_complete; auto; [lia| |]; replace (j - 1 + 1) with j by lia; [auto|].
  intros k Hk. rewrite P2 by lia. rewrite Hp. reflexivity.
Qed.

Lemma op_next : forall w j p, world w j (Some p) -> j < NS + MS -> (d_step w = j - 1 -> p = content j (canon (j - 1))) ->
  (exists w1, next_step (flash_env_of strict) j w = Ret (0, j + 1, w1) /\ world w1 (j + 1) None) \/
  (exists w1, next_step (flash_env_of strict) j w = Ret (- E_STEP_SET_FAILED, j + 1, w1) /\ off w1).
Proof.
  intros w j p W Hj Hp. pose proof W as (A & B & C & _). steps.
  assert (Hint : int_add j 1 = Ret (j + 1)).
  { unfold int_add, in_int, INT_MIN, INT_MAX.
    destruct (sizes memory segment shift from to Hsizes) as (m & h & X1 & X2 & X3 & X4 & X5 & X6 & X7 & X8).
    assert (NS <= NS * segment) by (rewrite <- (Z.mul_1_r NS) at 1; apply Z.mul_le_mono_nonneg_l; lia).
    assert (MS <= MS * segment) by (rewrite <- (Z.mul_1_r MS) at 1; apply Z.mul_le_mono_nonneg_l; lia).
    assert (NS + MS <= memory + memory) by lia. replace ((-2147483648 <=? j + 1) && (j + 1 <=? 2147483647)) with true by lia. reflexivity. }
  unfold next_step. cbn [step_set flash_env_of]. rewrite completed by auto. change (negb (0 =? 0)) with false. cbv iota.
  destruct (Z.eq_dec (d_step w) (j - 1)) as [E|E].
  2:{ rewrite (not_live _ _ _ W E). rewrite Hint. cbn [obind]. left. exists w. split; [auto|].
      destruct W as (_ & _ & _ & [D|D]); [lia|]. destruct D as (D1 & D2 & D3 & D4 & _).
      split; [auto|]. split; [auto|]. split; [lia|].
      destruct (Z.eq_dec (d_step w) j) as [Ej|Ej].
      - left. split; [lia|]. replace (j + 1 - 1) with j by lia. destruct D3 as [D3 D5]. rewrite Ej in D5. split; [auto|].
        split; [exact I|]. exists [], []. rewrite D4. split; [auto|]. split; [|constructor].
        replace (j + 1 - 1) with c0 by lia. constructor.
      - right. split; [lia|]. auto. }
  pose proof (complete_mem _ _ _ W E (Hp E)) as Hm.
  destruct (live _ _ _ W E) as (L1 & L2 & L3 & ->). pose proof B as (B1 & B2 & B3 & B4).
  unfold record_step. rewrite A. destruct (power_lost_now w) eqn:P.
  - change (negb (-1 =? 0)) with true. cbv iota. rewrite Hint. cbn [obind]. right.
    eexists. split; [reflexivity|]. destruct (d_torn_step w).
    + unfold off. split; [reflexivity|]. split; [apply lose_glob; [auto|auto|apply Forall_app; split; [auto|repeat constructor]]|].
      split; [eapply power_now; eauto|]. left. unfold resumable. cbn. rewrite Hm. split; [lia|]. apply agree_refl.
    + eapply lose_off; eauto.
  - change (negb (0 =? 0)) with false. cbv iota. rewrite Hint. cbn [obind]. left. eexists. split; [reflexivity|].
    split; [auto|]. split; [apply tick_glob; auto; exact I|]. split; [lia|]. left. cbn [d_step tick d_mem].
    split; [lia|]. replace (j + 1 - 1) with j by lia. rewrite Hm. split; [apply agree_refl|]. split; [exact I|].
    destruct L3 as (pre & ops & G1 & G2 & G3). exists (pre ++ ops ++ [EStep j]), []. cbn. rewrite G1, app_nil_r, <- app_assoc.
    split; [auto|]. split; [|constructor]. replace (j + 1 - 1) with (j - 1 + 1) by lia.
    replace (EStep j) with (EStep (j - 1 + 1)) by (f_equal; lia). constructor; [auto|].
    replace (j - 1 + 1) with j by lia. auto.
Qed.

Lemma op_done : forall w p, world w (NS + MS) (Some p) -> p = content (NS + MS) (canon (NS + MS - 1)) ->
  (exists w1, all_steps_completed (flash_env_of strict) w = (0, w1) /\ finished w1) \/
  (exists w1, all_steps_completed (flash_env_of strict) w = (- E_STEP_SET_FAILED, w1) /\ off w1).
Proof.
  intros w p W Hp. pose proof W as (A & B & C & _). steps.
  assert (E : d_step w = NS + MS - 1) by (destruct W as (_ & _ & _ & [D|D]); lia).
  pose proof (complete_mem _ _ _ W E Hp) as Hm.
  destruct (live _ _ _ W E) as (L1 & L2 & L3 & _). pose proof B as (B1 & B2 & B3 & B4).
  unfold all_steps_completed. cbn [step_set flash_env_of]. unfold record_step. rewrite A.
  destruct (power_lost_now w) eqn:P.
  - change (negb (-1 =? 0)) with true. cbv iota. right. eexists. split; [reflexivity|]. destruct (d_torn_step w).
    + unfold off. split; [reflexivity|]. split; [apply lose_glob; [auto|auto|apply Forall_app; split; [auto|repeat constructor]]|].
      split; [eapply power_now; eauto|]. right. split; [|exact Hm]. cbn. apply in_or_app. right. constructor. auto.
    + eapply lose_off; eauto.
  - change (negb (0 =? 0)) with false. cbv iota. left. eexists. split; [reflexivity|].
    split; [auto|]. split; [apply tick_glob; auto; exact I|]. split; [reflexivity|]. split; [auto|].
    destruct L3 as (pre & ops & G1 & G2 & G3). exists pre, ops. cbn. rewrite G1, <- app_assoc. auto.
Qed.

End World.
