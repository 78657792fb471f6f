(** The sequential applier fed in pieces with its 128 byte buffer simulates the
    same machine with a 1 byte buffer and the whole input at once. *)

From Coq Require Import ZArith List Bool Lia ZifyBool ZifyNat ZifyN.
From Verif Require Import Prelude Lib Heatshrink HsProofs CReader ReaderProofs SizeProofs CSeq Spec.
Import ListNotations.
Open Scope Z_scope.

Ltac Zify.zify_post_hook ::= Z.to_euclidean_division_equations.

Section Sim.
Context {WBits : WordBits}.
Hypothesis Hword : 32 <= word_bits.

Notation once := (process_once file_env).

(** ** Error codes *)

Lemma usize_code : forall left u res v u1 l1,
  unpack_usize_loop left u = Ret (res, v, u1, l1) -> res <> - E_ALREADY_DONE.
Proof.
  induction left; intros u res v u1 l1 E; cbn [unpack_usize_loop] in E; [inv E; discriminate|].
  destruct (is_overflow _); [inv E; discriminate|].
  apply obind_ret in E. destruct E as (x & A & E). destruct (Z.land a 128 =? 0); [inv E; discriminate|eauto].
Qed.

Lemma crle_step_code : forall s left n res o s1 l1,
  crle_step s left n = Ret (res, o, s1, l1) -> res <> - E_ALREADY_DONE.
Proof.
  intros [] left n res o s1 l1 E; cbn [crle_step] in E.
  - destruct left as [|k l]; [inv E; discriminate|]. destruct (k =? 0); [inv E; discriminate|].
    destruct (k =? 1); inv E; discriminate.
  - apply obind_ret in E. destruct E as ([[[r v] u1] l2] & A & E). unfold unpack_usize in A.
    apply usize_code in A. destruct (r =? 0); inv E; [discriminate|auto].
  - destruct left; inv E; discriminate.
  - apply obind_ret in E. destruct E as ([[[r v] u1] l2] & A & E). unfold unpack_usize in A.
    apply usize_code in A. destruct (r =? 0); inv E; [discriminate|auto].
  - destruct left; inv E; discriminate.
  - inv E; discriminate.
Qed.

Lemma crle_loop_code : forall k s left n res o s1 l1,
  crle_loop k s left n = Ret (res, o, s1, l1) -> res <> - E_ALREADY_DONE.
Proof.
  induction k; intros s left n res o s1 l1 E; [discriminate|]. cbn [crle_loop] in E.
  apply obind_ret in E. destruct E as ([[[r o1] s2] l2] & A & E). apply crle_step_code in A.
  destruct (r =? 2); [eauto|]. inv E. auto.
Qed.

Lemma hs_loop_code : forall left d n out res o s1 l1,
  hs_decompress_loop left d n out = Ret (res, o, s1, l1) -> res <> - E_ALREADY_DONE.
Proof.
  induction left; intros d n out res o s1 l1 E; rewrite hs_loop_unfold in E;
    apply obind_ret in E; destruct E as ([d1 o1] & A & E); cbv zeta in E;
    (destruct (n - _ =? 0); [inv E; discriminate|]).
  - destruct (zlen _ =? 0); inv E; discriminate.
  - apply obind_ret in E. destruct E as (od & B & E). destruct od; [eauto|inv E; discriminate].
Qed.

Lemma decompress_code : forall r left n res o r1 l1,
  decompress r left n = Ret (res, o, r1, l1) -> res <> - E_ALREADY_DONE.
Proof.
  intros [ps po|s|h] left n res o r1 l1 E; cbn [decompress] in E.
  - unfold none_decompress in E. destruct (ps <? _); [inv E; discriminate|].
    destruct left; inv E; discriminate.
  - apply obind_ret in E. destruct E as ([[[r o1] s2] l2] & A & E). inv E.
    eapply crle_loop_code; eauto.
  - apply obind_ret in E. destruct E as ([[[r o1] s2] l2] & A & E). inv E.
    unfold hs_decompress in A.
    destruct (hr_window h =? -1).
    + destruct left; [inv A; discriminate|].
      destruct (negb _ || negb _); [inv A; discriminate|]. cbn [hr_ptr hr_dec] in A.
      apply obind_ret in A. destruct A as ([[[r o2] d2] l3] & A & E). inv E.
      eapply hs_loop_code; eauto.
    + destruct (hr_ptr h); [|inv A; discriminate]. destruct (hr_dec h); [|discriminate].
      apply obind_ret in A. destruct A as ([[[r o2] d2] l3] & A & E). inv E.
      eapply hs_loop_code; eauto.
Qed.

Lemma unpack_size_code : forall k z r left byte n res v z1 r1 l1,
  unpack_size_loop k z r left byte n = Ret (res, v, z1, r1, l1) -> res <> - E_ALREADY_DONE.
Proof.
  induction k; intros z r left byte n res v z1 r1 l1 E; [discriminate|]. cbn [unpack_size_loop] in E.
  apply obind_ret in E. destruct E as ([[[res1 o1] r2] l2] & A & E). apply decompress_code in A.
  destruct (negb (res1 =? 0)); [inv E; auto|]. cbv zeta in E.
  destruct (match o1 with [] => byte | b :: _ => Some b end); [|discriminate].
  apply obind_ret in E. destruct E as (oz & B & E). destruct oz; [|inv E; discriminate].
  destruct (Z.land z0 128 =? 0); [inv E; discriminate|eauto].
Qed.

(** Compute with field updates; call by value avoids the blow-up of nested records. *)
Ltac fields :=
  cbv beta iota zeta delta [set_st set_left set_chunk set_patch_offset set_header set_reader
    set_to_size set_from_offset set_chunk_size set_to_offset a_patch_size a_state a_to_init
    a_compression a_patch_offset a_to_offset a_to_size a_from_offset a_chunk_size a_reader
    a_rsize a_csize a_left a_size] in *.

(** ** The reference *)

Inductive steps1 : ap -> files -> ap -> files -> Prop :=
| s1_refl : forall s w, steps1 s w s w
| s1_step : forall s w s1 w1 s2 w2, once 1 s w = Ret (0, s1, w1) -> steps1 s1 w1 s2 w2 ->
    steps1 s w s2 w2.

Lemma steps1_trans : forall s w s1 w1 s2 w2, steps1 s w s1 w1 -> steps1 s1 w1 s2 w2 ->
  steps1 s w s2 w2.
Proof. induction 1; intros; [auto|econstructor; eauto]. Qed.

Lemma steps1_one : forall s w s1 w1, once 1 s w = Ret (0, s1, w1) -> steps1 s w s1 w1.
Proof. intros. econstructor; [eassumption|constructor]. Qed.

Definition refdone (s : ap) (w : files) (sd : ap) (wd : files) : Prop :=
  steps1 s w sd wd /\ a_state sd = SDone.

Lemma once_done : forall B s w, a_state s = SDone -> once B s w = Ret (- E_ALREADY_DONE, s, w).
Proof. intros B s w H. unfold process_once. rewrite H. reflexivity. Qed.

Lemma refdone_step : forall s w s1 w1 sd wd, refdone s w sd wd -> steps1 s w s1 w1 ->
  refdone s1 w1 sd wd.
Proof.
  intros s w s1 w1 sd wd [H D] H1. revert sd wd H D. induction H1; intros sd wd Hd D; [split; auto|].
  apply IHsteps1; [|auto]. inv Hd.
  - rewrite once_done in H by auto. discriminate.
  - rewrite H in H0. inv H0. auto.
Qed.

Lemma refdone_steps : forall s w s1 w1 sd wd, steps1 s w s1 w1 -> refdone s1 w1 sd wd ->
  refdone s w sd wd.
Proof. intros s w s1 w1 sd wd H [A B]. split; [eapply steps1_trans; eauto|auto]. Qed.

(** A reference that cannot make a step and is not done never gets done. *)
Lemma refdone_stuck : forall s w sd wd, a_state s <> SDone ->
  (forall s1 w1, once 1 s w <> Ret (0, s1, w1)) -> ~ refdone s w sd wd.
Proof. intros s w sd wd H N [A B]. inv A; [auto|]. eapply N; eauto. Qed.

(** ** Data states *)

(** The data state and the state that follows it. *)
Definition data_next (st : pstate) : option pstate :=
  match st with SDiffData => Some SExtraSize | SExtraData => Some SAdjustment | _ => None end.

Definition data_ok (next : pstate) (w : files) (m : Z) : Prop :=
  match next with
  | SExtraSize => m = 0 \/ 0 <= f_pos w /\ f_pos w + m <= zlen (f_from w)
  | _ => True
  end.

Definition data_world (next : pstate) (w : files) (out : list Z) : files :=
  match next with
  | SExtraSize => mkfiles (f_from w) (f_pos w + zlen out)
                    (f_to w ++ add_mod out (ztake (zlen out) (zdrop (f_pos w) (f_from w))))
  | _ => mkfiles (f_from w) (f_pos w) (f_to w ++ out)
  end.

Definition data_fo (next : pstate) (fo m : Z) : Z :=
  match next with SExtraSize => to_int (fo + m) | _ => fo end.

Definition data_state (next : pstate) (s : ap) (r : reader) (l : list Z) (m : Z) : ap :=
  let s1 := set_from_offset (set_reader s (Some r) (a_rsize s) l)
              (data_fo next (a_from_offset s) m) in
  set_chunk_size (set_to_offset s1 (wrap (a_to_offset s + m))) (wrap (a_chunk_size s - m)).

Lemma add_data_mod : forall a b, zlen a = zlen b -> add_data a b = Ret (add_mod a b).
Proof.
  induction a; intros [|y b] H; cbn [add_data add_mod]; [reflexivity..| |].
  - rewrite zlen_cons in H. pose proof (zlen_nonneg a0). change (zlen (@nil Z)) with 0 in H. lia.
  - rewrite !zlen_cons in H. rewrite IHa by lia. reflexivity.
Qed.

Lemma add_mod_app : forall a b c d, zlen a = zlen b ->
  add_mod (a ++ c) (b ++ d) = add_mod a b ++ add_mod c d.
Proof.
  induction a; intros [|y b] c d H; cbn [app add_mod].
  - reflexivity.
  - rewrite zlen_cons in H. pose proof (zlen_nonneg b). change (zlen (@nil Z)) with 0 in H. lia.
  - rewrite zlen_cons in H. pose proof (zlen_nonneg a0). change (zlen (@nil Z)) with 0 in H. lia.
  - rewrite !zlen_cons in H. rewrite IHa by lia. reflexivity.
Qed.

Lemma set_from_offset_id : forall s, set_from_offset s (a_from_offset s) = s.
Proof. intros []. reflexivity. Qed.

Lemma process_data_ok : forall B s w next r out r1 l1,
  a_reader s = Some r -> 1 <= Z.min B (a_chunk_size s) ->
  next = SExtraSize \/ next = SAdjustment ->
  decompress r (a_left s) (Z.min B (a_chunk_size s)) = Ret (0, out, r1, l1) ->
  1 <= zlen out -> data_ok next w (zlen out) ->
  process_data file_env B s w next = Ret (0, data_state next s r1 l1 (zlen out), data_world next w out).
Proof.
  intros B s w next r out r1 l1 Hr Hn Hx E Ho Hok. unfold process_data. cbv zeta.
  destruct (Z.eqb_spec (Z.min B (a_chunk_size s)) 0); [lia|]. rewrite Hr, E. cbn [obind].
  change (negb (0 =? 0)) with false. cbv iota.
  destruct Hx; subst next; cbn [data_ok data_world] in *.
  - unfold file_env, from_read, to_write, file_read, file_write.
    destruct (Z.eqb_spec (zlen out) 0); [lia|].
    destruct ((0 <=? f_pos w) && (f_pos w + zlen out <=? zlen (f_from w))) eqn:Eb; [|lia].
    change (negb (0 =? 0)) with false. cbv iota.
    rewrite add_data_mod.
    + cbn [obind f_from f_pos f_to]. change (negb (0 =? 0)) with false. cbv iota. reflexivity.
    + rewrite zlen_ztake, zlen_zdrop by lia. lia.
  - cbn [obind]. reflexivity.
Qed.

Lemma process_data_io : forall B s w next r out r1 l1,
  a_reader s = Some r -> 1 <= Z.min B (a_chunk_size s) ->
  next = SExtraSize \/ next = SAdjustment ->
  decompress r (a_left s) (Z.min B (a_chunk_size s)) = Ret (0, out, r1, l1) ->
  1 <= zlen out -> ~ data_ok next w (zlen out) ->
  exists s1 w1, process_data file_env B s w next = Ret (- E_IO_FAILED, s1, w1).
Proof.
  intros B s w next r out r1 l1 Hr Hn Hx E Ho Hok. unfold process_data. cbv zeta.
  destruct (Z.eqb_spec (Z.min B (a_chunk_size s)) 0); [lia|]. rewrite Hr, E. cbn [obind].
  change (negb (0 =? 0)) with false. cbv iota.
  destruct Hx; subst next; cbn [data_ok data_world] in *; [|tauto].
  unfold file_env, from_read, to_write, file_read, file_write.
  destruct (Z.eqb_spec (zlen out) 0); [lia|].
  destruct ((0 <=? f_pos w) && (f_pos w + zlen out <=? zlen (f_from w))) eqn:Eb; [lia|].
  cbn [obind Z.eqb negb]. eauto.
Qed.

Lemma once_data : forall B s w next, data_next (a_state s) = Some next ->
  once B s w = letm (res, s1, w1) := process_data file_env B s w next in
               Ret (res, if res <? 0 then set_st s1 SFailed else s1, w1).
Proof.
  intros B s w next H. unfold process_once. destruct (a_state s); try discriminate H; inv H; reflexivity.
Qed.

Lemma data_next_cases : forall st next, data_next st = Some next ->
  (next = SExtraSize \/ next = SAdjustment) /\ st <> SDone /\ st <> SInit.
Proof. intros [] next H; try discriminate; inv H; (split; [auto|split; discriminate]). Qed.

(** Ranges of the counters. *)
Definition ranges (s : ap) : Prop :=
  0 <= a_to_offset s < 2 ^ word_bits /\ 0 <= a_chunk_size s < 2 ^ word_bits /\
  INT_MIN <= a_from_offset s <= INT_MAX.

Lemma to_int_range : forall x, INT_MIN <= to_int x <= INT_MAX.
Proof. intros. unfold to_int, INT_MIN, INT_MAX. lia. Qed.

Lemma to_int_to_int : forall a b, to_int (to_int a + b) = to_int (a + b).
Proof.
  intros. unfold to_int.
  replace ((a + 2147483648) mod 4294967296 - 2147483648 + b + 2147483648)
    with ((a + 2147483648) mod 4294967296 + b) by lia.
  rewrite Z.add_mod_idemp_l by lia. f_equal. f_equal. lia.
Qed.

Lemma wrap_add_wrap : forall a b, wrap (wrap a + b) = wrap (a + b).
Proof.
  intros. unfold wrap. pose proof (pow2_32_le word_bits Hword). rewrite Z.add_mod_idemp_l by lia. reflexivity.
Qed.

Lemma ranges_data_state : forall next s r l m, ranges s -> ranges (data_state next s r l m).
Proof.
  intros next s r l m (A & B & C). unfold ranges, data_state. cbn.
  split; [apply wrap_range; auto|]. split; [apply wrap_range; auto|].
  unfold data_fo. destruct next; auto; apply to_int_range.
Qed.

Lemma data_state_0 : forall next s r l, ranges s -> a_reader s = Some r -> a_left s = l ->
  data_state next s r l 0 = s.
Proof.
  intros next s r l (A & B & C) Hr Hl. unfold data_state. destruct s. fields.
  rewrite Z.add_0_r, Z.sub_0_r, !wrap_small by auto. subst.
  f_equal. unfold data_fo. destruct next; auto. rewrite Z.add_0_r. apply to_int_small; auto.
Qed.

Lemma data_state_add : forall next s r l a r' l' b,
  data_state next (data_state next s r l a) r' l' b = data_state next s r' l' (a + b).
Proof.
  intros. unfold data_state. destruct s. fields. f_equal.
  - rewrite wrap_add_wrap, <- Z.add_assoc. reflexivity.
  - unfold data_fo. destruct next; auto. rewrite to_int_to_int. f_equal. lia.
  - unfold Z.sub at 1. rewrite wrap_add_wrap. f_equal. lia.
Qed.

Lemma data_world_cons : forall next w b out, data_ok next w (1 + zlen out) ->
  data_world next w (b :: out) = data_world next (data_world next w [b]) out.
Proof.
  intros next w b out Hok. pose proof (zlen_nonneg out). unfold data_world. destruct next; cbn [f_from f_pos f_to];
    try (rewrite <- app_assoc; reflexivity).
  rewrite <- app_assoc, !zlen_cons. change (zlen (@nil Z)) with 0. cbn [data_ok] in Hok.
  f_equal; [lia|]. f_equal.
  rewrite ztake_add by lia.
  change (b :: out) with ([b] ++ out). rewrite add_mod_app.
  - rewrite zdrop_zdrop by lia. do 4 f_equal; lia.
  - rewrite zlen_ztake, zlen_zdrop by lia. change (zlen [b]) with 1. lia.
Qed.

(** The reference delivers data byte by byte. *)
Lemma ref_data_steps : forall next r0 i0 out r1 i1, pulls r0 i0 out r1 i1 -> forall s w,
  data_next (a_state s) = Some next -> ranges s ->
  a_reader s = Some r0 -> a_left s = i0 -> zlen out <= a_chunk_size s ->
  data_ok next w (zlen out) ->
  steps1 s w (data_state next s r1 i1 (zlen out)) (data_world next w out).
Proof.
  induction 1; intros s w Hs Hrg Hr Hl Hc Hok.
  - change (zlen (@nil Z)) with 0. rewrite data_state_0 by auto.
    replace (data_world next w []) with w; [constructor|].
    unfold data_world. destruct w; cbn. change (zlen (@nil Z)) with 0.
    rewrite app_nil_r, Z.add_0_r. destruct next; reflexivity.
  - rewrite zlen_cons in *. pose proof (zlen_nonneg o).
    destruct (data_next_cases _ _ Hs) as [Hx _].
    assert (Hok1 : data_ok next w 1).
    { destruct Hx; subst next; cbn [data_ok] in *; [lia|auto]. }
    assert (Hm : Z.min 1 (a_chunk_size s) = 1) by lia.
    econstructor.
    + rewrite (once_data _ _ _ _ Hs).
      rewrite (process_data_ok 1 s w next r [c] r1 i1); auto; rewrite ?Hm; try lia.
      * cbn [obind]. change (0 <? 0) with false. cbv iota. reflexivity.
      * rewrite Hl. exact H.
      * change (zlen [c]) with 1. lia.
    + rewrite (data_world_cons next w c o) by auto. rewrite <- (data_state_add next s r1 i1 1).
      apply IHpulls.
      * rewrite <- Hs. reflexivity.
      * apply ranges_data_state; auto.
      * reflexivity.
      * reflexivity.
      * cbn. change (zlen [c]) with 1. destruct Hrg as (_ & B & _). rewrite wrap_small; lia.
      * destruct Hx; subst next; cbn [data_ok data_world f_from f_pos] in *; [|auto].
        change (zlen [c]) with 1. lia.
Qed.

(** Conversely a successful reference gets all the data of the chunk. *)
Lemma ref_needs : forall k s w next r0 sd wd, Z.of_nat k = a_chunk_size s ->
  data_next (a_state s) = Some next -> ranges s -> a_reader s = Some r0 -> rok r0 ->
  bytes_ok (a_left s) -> nozero r0 (a_left s) ->
  refdone s w sd wd ->
  exists out r1 i1, pulls r0 (a_left s) out r1 i1 /\ zlen out = Z.of_nat k /\ data_ok next w (Z.of_nat k).
Proof.
  induction k; intros s w next r0 sd wd Hk Hs Hrg Hr Hrok Hb Hnz Hd.
  - exists [], r0, (a_left s). split; [constructor|]. split; [reflexivity|].
    destruct (data_next_cases _ _ Hs) as [[] _]; subst next; cbn; auto.
  - destruct (data_next_cases _ _ Hs) as (Hx & Hnd & _).
    assert (Hm : Z.min 1 (a_chunk_size s) = 1) by lia.
    destruct (pull1_spec Hword r0 (a_left s) Hrok Hb) as (res & out & r' & l' & E & Hr' & Hl' & Ho & _ & Hc).
    destruct Hd as [Hst Hdn]. inv Hst; [congruence|].
    pose proof H as Honce. rewrite (once_data _ _ _ _ Hs) in H.
    assert (Hres : res = 0).
    { destruct (Z.eqb_spec res 0); [auto|].
      unfold process_data in H. cbv zeta in H. rewrite Hm in H. cbn [Z.eqb Pos.eqb] in H.
      rewrite Hr in H. fold (pull r0 (a_left s)) in H. rewrite E in H. cbn [obind] in H.
      destruct (Z.eqb_spec res 0); [lia|]. cbn [negb obind] in H. inv H. auto. }
    subst res.
    destruct Hc as [(A & _)|[(_ & A & _)|[(_ & b & A & Hb1 & _)|(A & _)]]]; try lia.
    { exfalso. subst out. apply (Hnz [] r0 (a_left s) r' l'); [constructor|exact E]. }
    subst out.
    assert (Hok : data_ok next w 1).
    { destruct Hx; subst next; cbn [data_ok]; [|auto].
      assert (Hdec : 0 <= f_pos w /\ f_pos w + 1 <= zlen (f_from w) \/
                     ~ (0 <= f_pos w /\ f_pos w + 1 <= zlen (f_from w))) by lia.
      destruct Hdec as [|Hn]; [auto|exfalso].
      destruct (process_data_io 1 s w SExtraSize r0 [b] r' l') as (s3 & w3 & F); auto; rewrite ?Hm; auto; try lia.
      - change (zlen [b]) with 1. lia.
      - cbn [data_ok]. change (zlen [b]) with 1. lia.
      - rewrite F in H. cbn [obind] in H. inv H. }
    rewrite (process_data_ok 1 s w next r0 [b] r' l') in H; auto; rewrite ?Hm; auto; try lia;
      [|change (zlen [b]) with 1; lia].
    cbn [obind] in H. inv H.
    set (s1 := data_state next s r' l' (zlen [b])) in *.
    destruct (IHk s1 (data_world next w [b]) next r' sd wd) as (out & r1 & i1 & P & Q & R).
    + subst s1. cbn. change (zlen [b]) with 1. destruct Hrg as (_ & B & _). rewrite wrap_small; lia.
    + rewrite <- Hs. reflexivity.
    + apply ranges_data_state; auto.
    + reflexivity.
    + apply Hr'. lia.
    + exact Hl'.
    + eapply nozero_step; eauto.
    + split; auto.
    + exists (b :: out), r1, i1. split; [econstructor; eauto|].
      rewrite zlen_cons, Q. split; [lia|].
      destruct Hx; subst next; cbn [data_ok data_world f_from f_pos] in *; [|auto].
      change (zlen [b]) with 1 in R. lia.
Qed.

(** ** Related states *)

(** Size states: reading the size gives the same on both sides. *)
Definition szrel (f : list Z) (z : size_st) (r : reader) (left : list Z)
           (z0 : size_st) (r0 : reader) (i0 : list Z) : Prop :=
  rok r /\ rok r0 /\ bytes_ok left /\ bytes_ok i0 /\ zok z /\ zok z0 /\
  nozero r (left ++ f) /\ nozero r0 i0 /\
  us 6 z r (left ++ f) = us 6 z0 r0 i0.

Definition dtrel (f : list Z) (z : size_st) (r : reader) (left : list Z)
           (z0 : size_st) (r0 : reader) (i0 : list Z) : Prop :=
  rok r /\ rok r0 /\ bytes_ok left /\ bytes_ok i0 /\ z = z0 /\ z_cons z = false /\
  nozero r (left ++ f) /\ nozero r0 i0 /\
  pull r (left ++ f) = pull r0 i0.

Definition srel (f : list Z) (s s0 : ap) : Prop :=
  a_state s = a_state s0 /\ a_to_offset s = a_to_offset s0 /\ a_to_size s = a_to_size s0 /\
  a_from_offset s = a_from_offset s0 /\ a_chunk_size s = a_chunk_size s0 /\
  0 <= a_to_offset s0 < 2 ^ word_bits /\ INT_MIN <= a_from_offset s0 <= INT_MAX /\
  exists r r0, a_reader s = Some r /\ a_reader s0 = Some r0 /\
  match a_state s0 with
  | SDfpatchSize | SDiffSize | SExtraSize | SAdjustment =>
      szrel f (a_rsize s) r (a_left s) (a_rsize s0) r0 (a_left s0)
  | SDiffData | SExtraData =>
      0 <= a_chunk_size s0 < 2 ^ word_bits /\
      dtrel f (a_rsize s) r (a_left s) (a_rsize s0) r0 (a_left s0)
  | SDone => r = r0
  | _ => False
  end.

Lemma us_pull : forall K z r i r' i', pull r i = pull r' i' -> us (S K) z r i = us (S K) z r' i'.
Proof. intros K z r i r' i' E. cbn [us]. rewrite E. reflexivity. Qed.

Lemma dtrel_szrel : forall f z r left z0 r0 i0, dtrel f z r left z0 r0 i0 -> szrel f z r left z0 r0 i0.
Proof.
  intros f z r left z0 r0 i0 (A & B & C & D & E & F & G & H & I).
  assert (zok z) by (intros X; congruence). subst z0.
  unfold szrel. do 8 (split; [auto|]). apply us_pull; auto.
Qed.

Lemma szrel_unpack0 : forall f z r left z0 r0 i0, szrel f z r left z0 r0 i0 ->
  unpack_size z0 r0 i0 = us 6 z r (left ++ f).
Proof.
  intros f z r left z0 r0 i0 (A & B & C & D & E & F & G & H & I).
  unfold unpack_size. rewrite us_unpack by auto. symmetry. exact I.
Qed.

Lemma size_cases : forall f z r left z0 r0 i0, bytes_ok f -> szrel f z r left z0 r0 i0 ->
  (exists z1 r1, unpack_size z r left = Ret (1, 0, z1, r1, []) /\ szrel f z1 r1 [] z0 r0 i0 /\
     (f = [] -> exists v' z' r' l', unpack_size z0 r0 i0 = Ret (1, v', z', r', l'))) \/
  (exists v z1 r1 left1, unpack_size z r left = Ret (0, v, z1, r1, left1) /\
     unpack_size z0 r0 i0 = Ret (0, v, z1, r1, left1 ++ f) /\
     dtrel f z1 r1 left1 z1 r1 (left1 ++ f) /\ - 2 ^ 27 < v < 2 ^ 27) \/
  (exists e v z1 r1 left1, unpack_size z r left = Ret (e, v, z1, r1, left1) /\ e < 0 /\
     e <> - E_ALREADY_DONE /\
     forall v' z' r' l', unpack_size z0 r0 i0 <> Ret (0, v', z', r', l')).
Proof.
  intros f z r left z0 r0 i0 Hf Hsz. pose proof (szrel_unpack0 _ _ _ _ _ _ _ Hsz) as U0.
  destruct Hsz as (A & B & C & D & E & F & G & H & I).
  assert (Hnl : nozero r left) by (apply (nozero_prefix Hword r left f); auto).
  destruct (unpack_size_spec Hword z r left f A E C Hf G Hnl)
    as [(z1 & r1 & P & Q & R & S & T)|[(v & z1 & r1 & l1 & P & Q & R & S & T & U & V)|(e & v & z1 & r1 & l1 & P & Q & R)]].
  - left. exists z1, r1. split; [auto|]. split.
    + unfold szrel. cbn [app]. do 8 (split; [auto; constructor|]). congruence.
    + intros ->. rewrite app_nil_r in *. exists 0, z1, r1, []. rewrite U0, <- P.
      unfold unpack_size. rewrite us_unpack by auto. reflexivity.
  - right; left. exists v, z1, r1, l1. split; [auto|]. split; [congruence|]. split; [|auto].
    unfold dtrel. do 3 (split; [auto|]). split; [apply Forall_app; auto|]. auto.
  - right; right. exists e, v, z1, r1, l1. split; [auto|]. split; [auto|]. split.
    + eapply unpack_size_code; eauto.
    + intros. rewrite U0. apply R.
Qed.

(** What one call of process_once on the real machine means for the reference. *)
Definition verdict (f : list Z) (s0 : ap) (w : files) (out : outcome (Z * ap * files)) : Prop :=
  (exists s' w' s0', out = Ret (0, s', w') /\ steps1 s0 w s0' w' /\ srel f s' s0') \/
  (exists s', out = Ret (1, s', w) /\ srel f s' s0 /\ a_left s' = [] /\ a_state s0 <> SDone /\
     (f = [] -> forall sd wd, ~ refdone s0 w sd wd)) \/
  ((out = Undef \/ exists e s' w', out = Ret (e, s', w') /\ e < 0 /\ e <> - E_ALREADY_DONE) /\
   forall sd wd, ~ refdone s0 w sd wd).

Lemma not_done_of : forall s w, a_state s <> SDone ->
  (forall s1 w1, once 1 s w <> Ret (0, s1, w1)) -> forall sd wd, ~ refdone s w sd wd.
Proof. intros. apply refdone_stuck; auto. Qed.

Lemma dtrel_full : forall f z r l z0 r0 i0 f', dtrel f z r l z0 r0 i0 -> f' = f -> dtrel f' z r l z0 r0 i0.
Proof. intros; subst; auto. Qed.

Lemma sim_dfpatch : forall f s s0 w, bytes_ok f -> srel f s s0 -> a_state s0 = SDfpatchSize ->
  verdict f s0 w (once 128 s w).
Proof.
  intros f s s0 w Hf (Hst & H1 & H2 & H3 & H4 & H5 & H6 & r & r0 & Hr & Hr0 & Hrel) Es0.
  rewrite Es0 in Hrel, Hst.
  assert (L : forall B s r, a_state s = SDfpatchSize -> a_reader s = Some r ->
     once B s w = letm (res, v, z1, r1, l1) := unpack_size (a_rsize s) r (a_left s) in
       let s1 := set_reader s (Some r1) z1 l1 in
       if negb (res =? 0) then Ret (res, if res <? 0 then set_st s1 SFailed else s1, w)
       else if 0 <? v then Ret (- E_NOT_IMPLEMENTED, set_st s1 SFailed, w)
       else Ret (0, set_st s1 SDiffSize, w)).
  { intros B s' r' X Y. unfold process_once, process_dfpatch_size. rewrite X, Y.
    destruct (unpack_size _ _ _) as [[[[[res v] z1] r1] l1]| |]; cbn [obind]; auto.
    destruct (negb (res =? 0)); cbn [obind]; auto. destruct (0 <? v); cbn [obind]; auto. }
  rewrite (L _ _ _ Hst Hr).
  assert (Hnd : a_state s0 <> SDone) by congruence.
  destruct (size_cases f _ _ _ _ _ _ Hf Hrel)
    as [(z1 & r1 & P & Q & R)|[(v & z1 & r1 & l1 & P & Q & R & S)|(e & v & z1 & r1 & l1 & P & Q & R & S)]];
    rewrite P; cbn [obind]; cbv zeta.
  - right; left. eexists. split; [reflexivity|]. split.
    + unfold srel. rewrite Es0. cbn. do 7 (split; [auto|]). exists r1, r0. auto.
    + split; [reflexivity|]. split; [auto|]. intros F. destruct (R F) as (v' & z' & r' & l' & U).
      apply not_done_of; auto. intros s1 w1. rewrite (L _ _ _ Es0 Hr0), U. discriminate.
  - change (negb (0 =? 0)) with false. cbv iota.
    destruct (0 <? v) eqn:Ev.
    + right; right. split; [right; do 3 eexists; split; [reflexivity|split; [reflexivity|discriminate]]|].
      apply not_done_of; auto. intros s1 w1. rewrite (L _ _ _ Es0 Hr0), Q. cbn [obind].
      change (negb (0 =? 0)) with false. cbv iota zeta. rewrite Ev. discriminate.
    + left. do 3 eexists. split; [reflexivity|]. split.
      * apply steps1_one. rewrite (L _ _ _ Es0 Hr0), Q. cbn [obind].
        change (negb (0 =? 0)) with false. cbv iota zeta. rewrite Ev. reflexivity.
      * unfold srel. cbn. do 7 (split; [auto|]). exists r1, r1. split; [auto|]. split; [auto|].
        apply dtrel_szrel; auto.
  - assert (negb (e =? 0) = true) as -> by lia. assert (e <? 0 = true) as -> by lia.
    right; right. split; [right; do 3 eexists; split; [reflexivity|auto]|].
    apply not_done_of; auto. intros s1 w1. rewrite (L _ _ _ Es0 Hr0).
    destruct (unpack_size _ r0 _) as [[[[[res' v'] z'] r'] l']| |] eqn:U; cbn [obind]; try discriminate.
    destruct (Z.eqb_spec res' 0) as [->|]; [exfalso; eapply S; reflexivity|].
    cbn [negb]. intros X. inv X. auto.
Qed.

Lemma sim_size : forall f s s0 w st next, bytes_ok f -> srel f s s0 -> a_state s0 = st ->
  (st = SDiffSize /\ next = SDiffData \/ st = SExtraSize /\ next = SExtraData) ->
  verdict f s0 w (once 128 s w).
Proof.
  intros f s s0 w st next Hf (Hst & H1 & H2 & H3 & H4 & H5 & H6 & r & r0 & Hr & Hr0 & Hrel) Es0 Hn.
  assert (Hrel' : szrel f (a_rsize s) r (a_left s) (a_rsize s0) r0 (a_left s0)).
  { rewrite Es0 in Hrel. destruct Hn as [[-> _]|[-> _]]; exact Hrel. }
  clear Hrel. rewrite Es0 in Hst.
  assert (L : forall B s r, a_state s = st -> a_reader s = Some r ->
     once B s w = letm (res, v, z1, r1, l1) := unpack_size (a_rsize s) r (a_left s) in
       let s1 := set_reader s (Some r1) z1 l1 in
       if negb (res =? 0) then Ret (res, if res <? 0 then set_st s1 SFailed else s1, w)
       else if a_to_size s <? wrap (a_to_offset s + wrap v)
       then Ret (- E_CORRUPT_PATCH, set_st s1 SFailed, w)
       else Ret (0, set_chunk_size (set_st s1 next) (wrap v), w)).
  { intros B s' r' X Y. unfold process_once, process_size, common_process_size. rewrite X.
    destruct Hn as [[-> ->]|[-> ->]]; rewrite Y;
    (destruct (unpack_size _ _ _) as [[[[[res v] z1] r1] l1]| |]; cbn [obind]; auto;
    destruct (negb (res =? 0)) eqn:En; cbn [obind]; rewrite ?En; cbn [obind]; auto;
    destruct (_ <? wrap _); cbn [obind]; auto). }
  rewrite (L _ _ _ Hst Hr).
  assert (Hnd : a_state s0 <> SDone) by (rewrite Es0; destruct Hn as [[-> _]|[-> _]]; discriminate).
  destruct (size_cases f _ _ _ _ _ _ Hf Hrel')
    as [(z1 & r1 & P & Q & R)|[(v & z1 & r1 & l1 & P & Q & R & S)|(e & v & z1 & r1 & l1 & P & Q & R & S)]];
    rewrite P; cbn [obind]; cbv zeta.
  - right; left. eexists. split; [reflexivity|]. split.
    + unfold srel. change (a_state (if 1 <? 0 then _ else ?x)) with (a_state x). cbn.
      split; [congruence|]. do 6 (split; [auto|]). exists r1, r0. split; [auto|]. split; [auto|].
      rewrite Es0. destruct Hn as [[-> _]|[-> _]]; exact Q.
    + split; [reflexivity|]. split; [auto|]. intros F. destruct (R F) as (v' & z' & r' & l' & U).
      apply not_done_of; auto. intros s1 w1. rewrite (L _ _ _ Es0 Hr0), U. discriminate.
  - change (negb (0 =? 0)) with false. cbv iota.
    destruct (a_to_size s <? wrap (a_to_offset s + wrap v)) eqn:Ev.
    + right; right. split; [right; do 3 eexists; split; [reflexivity|split; [reflexivity|discriminate]]|].
      apply not_done_of; auto. intros s1 w1. rewrite (L _ _ _ Es0 Hr0), Q. cbn [obind].
      change (negb (0 =? 0)) with false. cbv iota zeta. rewrite <- H1, <- H2, Ev. discriminate.
    + left. do 3 eexists. split; [reflexivity|]. split.
      * apply steps1_one. rewrite (L _ _ _ Es0 Hr0), Q. cbn [obind].
        change (negb (0 =? 0)) with false. cbv iota zeta. rewrite <- H1, <- H2, Ev. reflexivity.
      * unfold srel. cbn. do 7 (split; [auto|]). exists r1, r1. split; [auto|]. split; [auto|].
        pose proof (wrap_range v Hword).
        destruct Hn as [[_ ->]|[_ ->]]; auto.
  - assert (negb (e =? 0) = true) as -> by lia. assert (e <? 0 = true) as -> by lia.
    right; right. split; [right; do 3 eexists; split; [reflexivity|auto]|].
    apply not_done_of; auto. intros s1 w1. rewrite (L _ _ _ Es0 Hr0).
    destruct (unpack_size _ r0 _) as [[[[[res' v'] z'] r'] l']| |] eqn:U; cbn [obind]; try discriminate.
    destruct (Z.eqb_spec res' 0) as [->|]; [exfalso; eapply S; reflexivity|].
    cbn [negb]. intros X. inv X. auto.
Qed.

Lemma sim_adjustment : forall f s s0 w, bytes_ok f -> srel f s s0 -> a_state s0 = SAdjustment ->
  verdict f s0 w (once 128 s w).
Proof.
  intros f s s0 w Hf (Hst & H1 & H2 & H3 & H4 & H5 & H6 & r & r0 & Hr & Hr0 & Hrel) Es0.
  rewrite Es0 in Hrel, Hst.
  assert (L : forall B s r, a_state s = SAdjustment -> a_reader s = Some r ->
     once B s w = letm (res, v, z1, r1, l1) := unpack_size (a_rsize s) r (a_left s) in
       let s1 := set_reader s (Some r1) z1 l1 in
       if negb (res =? 0) then Ret (res, if res <? 0 then set_st s1 SFailed else s1, w)
       else let '(rs, w1) := file_seek w v in
       if negb (rs =? 0) then Ret (- E_IO_FAILED, set_st s1 SFailed, w1)
       else letm fo := int_add (a_from_offset s) v in
         Ret (0, set_st (set_from_offset s1 fo)
                (if a_to_offset s =? a_to_size s then SDone else SDiffSize), w1)).
  { intros B s' r' X Y. unfold process_once, process_adjustment. rewrite X, Y.
    destruct (unpack_size _ _ _) as [[[[[res v] z1] r1] l1]| |]; cbn [obind]; auto.
    destruct (negb (res =? 0)); cbn [obind]; auto. cbn [file_env from_seek].
    destruct (file_seek w v) as [rs w1]. destruct (negb (rs =? 0)); cbn [obind]; auto.
    change (a_from_offset (set_reader s' (Some r1) z1 l1)) with (a_from_offset s').
    destruct (int_add (a_from_offset s') v); cbn [obind]; auto. }
  rewrite (L _ _ _ Hst Hr).
  assert (Hnd : a_state s0 <> SDone) by congruence.
  destruct (size_cases f _ _ _ _ _ _ Hf Hrel)
    as [(z1 & r1 & P & Q & R)|[(v & z1 & r1 & l1 & P & Q & R & S)|(e & v & z1 & r1 & l1 & P & Q & R & S)]];
    rewrite P; cbn [obind]; cbv zeta.
  - right; left. eexists. split; [reflexivity|]. split.
    + unfold srel. rewrite Es0. cbn. do 7 (split; [auto|]). exists r1, r0. auto.
    + split; [reflexivity|]. split; [auto|]. intros F. destruct (R F) as (v' & z' & r' & l' & U).
      apply not_done_of; auto. intros s1 w1. rewrite (L _ _ _ Es0 Hr0), U. discriminate.
  - change (negb (0 =? 0)) with false. cbv iota.
    destruct (file_seek w v) as [rs w1] eqn:Es.
    destruct (negb (rs =? 0)) eqn:En.
    + right; right. split; [right; do 3 eexists; split; [reflexivity|split; [reflexivity|discriminate]]|].
      apply not_done_of; auto. intros s1 w2. rewrite (L _ _ _ Es0 Hr0), Q. cbn [obind].
      change (negb (0 =? 0)) with false. cbv iota zeta. rewrite Es, En. discriminate.
    + unfold int_add. destruct (in_int (a_from_offset s + v)) eqn:Ei; cbn [obind].
      * left. do 3 eexists. split; [reflexivity|]. split.
        -- apply steps1_one. rewrite (L _ _ _ Es0 Hr0), Q. cbn [obind].
           change (negb (0 =? 0)) with false. cbv iota zeta. rewrite Es, En.
           unfold int_add. rewrite <- H3, Ei. cbn [obind]. reflexivity.
        -- unfold srel. cbn [a_state a_to_offset a_to_size a_from_offset a_chunk_size a_reader
             a_rsize a_left set_st set_from_offset set_reader].
           rewrite H1, H2. split; [auto|]. do 4 (split; [auto|]). split; [auto|].
           split; [unfold in_int in Ei; lia|].
           exists r1, r1. split; [auto|]. split; [auto|].
           destruct (a_to_offset s0 =? a_to_size s0); [reflexivity|]. apply dtrel_szrel; auto.
      * right; right. split; [left; reflexivity|].
        apply not_done_of; auto. intros s1 w2. rewrite (L _ _ _ Es0 Hr0), Q. cbn [obind].
        change (negb (0 =? 0)) with false. cbv iota zeta. rewrite Es, En.
        unfold int_add. rewrite <- H3, Ei. discriminate.
  - assert (negb (e =? 0) = true) as -> by lia. assert (e <? 0 = true) as -> by lia.
    right; right. split; [right; do 3 eexists; split; [reflexivity|auto]|].
    apply not_done_of; auto. intros s1 w1. rewrite (L _ _ _ Es0 Hr0).
    destruct (unpack_size _ r0 _) as [[[[[res' v'] z'] r'] l']| |] eqn:U; cbn [obind]; try discriminate.
    destruct (Z.eqb_spec res' 0) as [->|]; [exfalso; eapply S; reflexivity|].
    cbn [negb]. intros X. inv X. auto.
Qed.

Lemma pulls_transfer : forall r i r0 i0 o r1 i1, pull r i = pull r0 i0 -> o <> [] ->
  pulls r i o r1 i1 -> pulls r0 i0 o r1 i1.
Proof.
  intros r i r0 i0 o r1 i1 E Ho P. inv P; [congruence|]. econstructor; [rewrite <- E; eassumption|auto].
Qed.

Lemma pulls_rok : forall r i o r1 i1, pulls r i o r1 i1 -> rok r -> bytes_ok i -> rok r1 /\ bytes_ok i1.
Proof.
  induction 1; intros Hr Hi; [auto|].
  destruct (pull1_spec Hword r i Hr Hi) as (res & out & r' & l' & E & Hr' & Hl' & _).
  rewrite E in H. inv H. apply IHpulls; auto. apply Hr'; lia.
Qed.

Lemma data_ok_le : forall next w a b, 0 <= a <= b -> data_ok next w b -> data_ok next w a.
Proof. intros [] w a b H K; cbn [data_ok] in *; auto. lia. Qed.

Lemma data_ok_dec : forall next w m, data_ok next w m \/ ~ data_ok next w m.
Proof. intros [] w m; cbn [data_ok]; auto. lia. Qed.

Lemma sim_data : forall f s s0 w next, bytes_ok f -> srel f s s0 -> data_next (a_state s0) = Some next ->
  verdict f s0 w (once 128 s w).
Proof.
  intros f s s0 w next Hf (Hst & H1 & H2 & H3 & H4 & H5 & H6 & r & r0 & Hr & Hr0 & Hrel) Hn.
  assert (Hrel' : 0 <= a_chunk_size s0 < 2 ^ word_bits /\
                  dtrel f (a_rsize s) r (a_left s) (a_rsize s0) r0 (a_left s0)).
  { destruct (a_state s0); try discriminate Hn; exact Hrel. }
  clear Hrel. destruct Hrel' as [Hcs Hrel].
  assert (Hn' : data_next (a_state s) = Some next) by congruence.
  destruct (data_next_cases _ _ Hn) as (Hx & Hnd & _).
  rewrite (once_data _ _ _ _ Hn').
  destruct (Z.eq_dec (a_chunk_size s0) 0) as [Hc0|Hc0].
  { unfold process_data. cbv zeta. rewrite H4, Hc0. cbn [Z.min Z.compare Z.eqb obind].
    change (0 <? 0) with false. cbv iota.
    left. do 3 eexists. split; [reflexivity|]. split.
    - apply steps1_one. rewrite (once_data _ _ _ _ Hn). unfold process_data. cbv zeta. rewrite Hc0.
      cbn [Z.min Z.compare Z.eqb obind]. change (0 <? 0) with false. cbv iota. reflexivity.
    - unfold srel. cbn [a_state a_to_offset a_to_size a_from_offset a_chunk_size a_reader
             a_rsize a_left set_st].
      do 7 (split; [auto|]). exists r, r0. split; [auto|]. split; [auto|].
      apply dtrel_szrel in Hrel. destruct Hx; subst next; auto. }
  set (n := Z.min 128 (a_chunk_size s)) in *.
  assert (Hnr : 1 <= n <= 128) by lia.
  pose proof Hrel as (A & B & C & D & E & F & G & I & J).
  assert (Hrg : ranges s0) by (split; [auto|split; auto]).
  destruct (decompress_spec Hword r (a_left s) n A C Hnr)
    as (res & out & r' & c' & Ed & Hr' & Hc' & Ho & _ & Hcase).
  assert (Hneed : forall sd wd, refdone s0 w sd wd ->
     exists o r1 i1, pulls r (a_left s ++ f) o r1 i1 /\ pulls r0 (a_left s0) o r1 i1 /\
       zlen o = a_chunk_size s0 /\ data_ok next w (a_chunk_size s0)).
  { intros sd wd Hd.
    destruct (ref_needs (Z.to_nat (a_chunk_size s0)) s0 w next r0 sd wd) as (o & r1 & i1 & X & Y & Zk); auto; [lia|].
    rewrite Z2Nat.id in * by lia. exists o, r1, i1. split; [|auto].
    apply (pulls_transfer r0 (a_left s0)); auto. intros ->. change (zlen (@nil Z)) with 0 in Y. lia. }
  destruct Hcase as [(X1 & X2 & X3 & X4)|[(X1 & X2 & X3 & X4)|(X1 & X2)]].
  - subst res out c'. unfold process_data. cbv zeta. fold n.
    destruct (Z.eqb_spec n 0); [lia|]. rewrite Hr, Ed. cbn [obind].
    change (negb (1 =? 0)) with true. cbv iota. cbn [obind]. change (1 <? 0) with false. cbv iota.
    right; left. eexists. split; [reflexivity|]. split.
    + unfold srel. cbn [a_state a_to_offset a_to_size a_from_offset a_chunk_size a_reader
             a_rsize a_left set_reader].
      do 7 (split; [auto|]). exists r', r0. split; [auto|]. split; [auto|].
      assert (K : dtrel f (a_rsize s) r' [] (a_rsize s0) r0 (a_left s0)).
      { unfold dtrel. cbn [app]. specialize (X4 f Hf). split; [apply Hr'; lia|]. do 5 (split; [auto; constructor|]).
        split; [eapply nozero_eq; [exact G|exact X4]|]. split; [auto|congruence]. }
      destruct (a_state s0); try discriminate Hn; split; auto.
    + split; [reflexivity|]. split; [auto|]. intros -> sd wd Hd. rewrite app_nil_r in *.
      destruct (starve_one Hword r (a_left s) n r' [] A C Hnr Ed) as (r2 & c2 & St).
      destruct (Hneed sd wd Hd) as (o & r1 & i1 & Y1 & _ & Y3 & _).
      inv Y1; [change (zlen (@nil Z)) with 0 in Y3; lia|]. congruence.
  - subst res. destruct out as [|b out].
    { exfalso. destruct (X3 eq_refl f Hf) as (r1 & i1 & Y). apply (G [] r (a_left s ++ f) r1 i1); [constructor|auto]. }
    destruct (X4 ltac:(discriminate) f Hf) as (r1 & i1 & Y1 & Y2).
    assert (Hlen : 1 <= zlen (b :: out)) by (rewrite zlen_cons; pose proof (zlen_nonneg out); lia).
    set (o := b :: out) in *.
    assert (Y3 : pulls r0 (a_left s0) o r1 i1) by (apply (pulls_transfer r (a_left s ++ f)); auto; discriminate).
    destruct (data_ok_dec next w (zlen o)) as [Hok|Hok].
    + rewrite (process_data_ok 128 s w next r o r' c'); auto; [|lia].
      cbn [obind]. change (0 <? 0) with false. cbv iota.
      left. do 3 eexists. split; [reflexivity|]. split.
      * apply (ref_data_steps next r0 (a_left s0) o r1 i1); auto. lia.
      * unfold srel. destruct (pulls_rok _ _ _ _ _ Y3 B D) as [Z1 Z2].
        change (a_state (data_state next ?s _ _ _)) with (a_state s).
        change (a_to_offset (data_state next ?s _ _ ?m)) with (wrap (a_to_offset s + m)).
        change (a_from_offset (data_state next ?s _ _ ?m)) with (data_fo next (a_from_offset s) m).
        change (a_chunk_size (data_state next ?s _ _ ?m)) with (wrap (a_chunk_size s - m)).
        change (a_to_size (data_state next ?s _ _ ?m)) with (a_to_size s).
        rewrite H1, H3, H4. do 5 (split; [auto|]). split; [apply wrap_range; auto|].
        split; [unfold data_fo; destruct next; auto; apply to_int_range|].
        exists r', r1. split; [reflexivity|]. split; [reflexivity|].
        assert (K : dtrel f (a_rsize s) r' c' (a_rsize s0) r1 i1).
        { assert (nozero r1 i1) by (eapply nozero_pulls; eauto).
          split; [apply Hr'; lia|]. do 5 (split; [auto|]).
          split; [eapply nozero_eq; eauto|]. split; auto. }
        pose proof (wrap_range (a_chunk_size s0 - zlen o) Hword).
        destruct (a_state s0); try discriminate Hn; split; auto.
    + destruct (process_data_io 128 s w next r o r' c') as (s3 & w3 & Q); auto; [lia|].
      rewrite Q. cbn [obind]. right; right. split; [right; do 3 eexists; split; [reflexivity|split; [reflexivity|discriminate]]|].
      intros sd wd Hd. destruct (Hneed sd wd Hd) as (oo & rr & ii & _ & _ & _ & Zk).
      apply Hok. eapply data_ok_le; [|exact Zk]. lia.
  - unfold process_data. cbv zeta. fold n. destruct (Z.eqb_spec n 0); [lia|]. rewrite Hr, Ed. cbn [obind].
    assert (negb (res =? 0) = true) as -> by lia. cbn [obind]. assert (res <? 0 = true) as -> by lia.
    right; right. split.
    + right. do 3 eexists. split; [reflexivity|]. split; [auto|]. eapply decompress_code; eauto.
    + intros sd wd Hd. destruct (Hneed sd wd Hd) as (o & r1 & i1 & Y1 & _ & Y3 & _).
      specialize (X2 f o r1 i1 Hf Y1). lia.
Qed.

(** One call. *)
Lemma sim_once : forall f s s0 w, bytes_ok f -> srel f s s0 -> a_state s0 <> SDone ->
  verdict f s0 w (once 128 s w).
Proof.
  intros f s s0 w Hf Hs Hd. destruct (a_state s0) eqn:E.
  - destruct Hs as (_ & _ & _ & _ & _ & _ & _ & r & r0 & _ & _ & K). rewrite E in K. destruct K.
  - apply sim_dfpatch; auto.
  - eapply sim_size; eauto.
  - eapply sim_data; eauto. rewrite E; reflexivity.
  - eapply sim_size; eauto.
  - eapply sim_data; eauto. rewrite E; reflexivity.
  - apply sim_adjustment; auto.
  - congruence.
  - destruct Hs as (_ & _ & _ & _ & _ & _ & _ & r & r0 & _ & _ & K). rewrite E in K. destruct K.
Qed.

End Sim.
