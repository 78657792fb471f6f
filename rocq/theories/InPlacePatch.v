(** The in-place applier after the header: patching segment by segment. *)

From Coq Require Import ZArith List Bool Lia ZifyBool ZifyNat ZifyN.
From Verif Require Import Prelude Lib Heatshrink CReader CSeq CInPlace Spec ReaderProofs SizeProofs SeqSim SeqMeaning
  Feeder InPlaceSpec InPlaceMem InPlaceWorld InPlaceShift.
Import ListNotations.
Open Scope Z_scope.

Lemma rok_destroy : forall `{WordBits} r, rok r -> exists d, destroy r = Ret d.
Proof.
  intros WB [ps po|s|h] R; cbn [destroy]; eauto.
  destruct h as [wn lk ptr dec]. cbn in R |- *. destruct R as [(_ & X)|(_ & X & d & Y & _)]; subst; eauto.
Qed.

Lemma app_inj_len : forall A (a b c d : list A), a ++ b = c ++ d -> zlen a = zlen c -> a = c /\ b = d.
Proof.
  induction a as [|x a IH]; intros b [|y c] d E L; rewrite ?zlen_cons in *; try change (zlen (@nil A)) with 0 in L.
  - auto.
  - pose proof (zlen_nonneg c). lia.
  - pose proof (zlen_nonneg a). lia.
  - inversion E; subst. destruct (IH b c d H1 ltac:(lia)) as [-> ->]. auto.
Qed.

Lemma segments_ok_nil : forall segment segs n, segments_ok segment segs n -> n = 0 -> segs = [].
Proof.
  intros segment [|recs segs] n H E; [auto|]. cbn [segments_ok] in H. destruct H as (A & B & _).
  exfalso. destruct recs as [|rc rs]; [destruct B as (x & y & Y & _); destruct x; discriminate|].
  assert (K : recs_size (rc :: rs) = rec_size rc + recs_size rs) by reflexivity.
  assert (0 <= rec_size rc) by (unfold rec_size; pose proof (zlen_nonneg (r_diff rc)); pose proof (zlen_nonneg (r_extra rc)); lia).
  pose proof (recs_size_nonneg rs). destruct (last_nonempty_tail _ _ B) as [[_ ?]|[_ ?]]; lia.
Qed.

Section Patch.
Context `{WBits : WordBits}.
Hypothesis Hword : 32 <= word_bits.
Variables memory segment shift : Z.
Variables from to : list Z.
Variable mem0 : list (option Z).
Context {ST : strictness mem0}.

Hypothesis Hsizes : sizes_ok memory segment shift (zlen from) (zlen to).
Hypothesis Hlen : memory <= zlen mem0.
Hypothesis Hto : 0 < zlen to.
(** The memory holds the from data. *)
Hypothesis Hfrom : holds mem0 from.
Variable c0 : Z.
Variable unl : bool.
(** The reader at the end of the patch. *)
Variable rE : reader.
Hypothesis HrE : destroy rE = Ret 0.

Notation NS := (NS memory segment shift from).
Notation MS := (MS segment to).
Notation base := (base memory segment shift from to).
Notation size := (size memory segment shift from to).
Notation content := (content memory segment shift from to).
Notation canon := (canon memory segment shift from to mem0).
Notation world := (world memory segment shift from to mem0 c0 unl).
Notation off := (off memory segment shift from to mem0 unl).
Notation finished := (finished memory segment shift from to mem0 c0 unl).
Notation visible := (visible memory segment shift from).

Ltac steps := destruct (steps_bounds memory segment shift from to Hsizes Hto) as (SB1 & SB2 & SB3 & SB4 & SB5 & SB6 & SB7 & SB8).
Ltac szs := destruct (sizes memory segment shift from to Hsizes) as (m_ & h_ & SZ1 & SZ2 & SZ3 & SZ4 & SZ5 & SZ6 & SZ7 & SZ8).

(** First address of the from data for to segment [i]. *)
Definition source (i : Z) : Z := Z.max ((i + 1) * segment) shift.

Definition to_seg (i : Z) : list Z := ztake segment (zdrop (i * segment) to).

Definition limits (i pos : Z) (recs : list prec) : Prop :=
  Forall (fun r => - size_limit < r_adj r < size_limit) recs /\
  Forall (fun p => source i + p <= INT_MAX) (positions pos recs).

(** The segments from number [i] on. *)
Definition rest_ok (i : Z) (segs : list (list prec)) : Prop :=
  apply_segments memory segment shift from i segs = Some (zdrop (i * segment) to) /\
  segments_ok segment segs (zlen (zdrop (i * segment) to)) /\
  segments_in_limits segment shift i segs.

Definition fixed (s : ip) (i : Z) : Prop :=
  i_segment_size s = segment /\ i_shift_size s = shift /\ i_to_size s = zlen to /\ i_step s = NS + i + 1 /\ 0 <= i < MS.

(** In segment [i], with [p] written and the from position at [pos]. *)
Definition inseg (s : ip) (w : dev) (i : Z) (p : list Z) (pos : Z) : Prop :=
  fixed s i /\ g_index (i_seg s) = i + 1 /\ g_from_offset (i_seg s) = source i + pos /\ 0 <= pos /\
  g_to_offset (i_seg s) = i * segment /\ g_to_size (i_seg s) = size (NS + i + 1) /\ g_to_pos (i_seg s) = zlen p /\
  i_to_pos s = i * segment + zlen p /\ world w (NS + i + 1) (Some p).

Definition g_dfpatch (f : list Z) (s : ip) (w : dev) (m : Z) : Prop :=
  exists i r recs segs, i_state s = SDfpatchSize /\ fixed s i /\ g_index (i_seg s) = i /\ i_to_pos s = i * segment /\
    i_reader s = Some r /\ world w (NS + i + 1) None /\ rest_ok i (recs :: segs) /\
    SZ f (i_rsize s) r (i_left s) 0 (enc_recs recs ++ enc_segments segs) rE /\
    m = 2 * zlen (enc_recs recs ++ enc_segments segs) + 1.

Definition g_diff_size (f : list Z) (s : ip) (w : dev) (m : Z) : Prop :=
  exists i p pos r rc rs out segs rest, i_state s = SDiffSize /\ inseg s w i p pos /\ i_reader s = Some r /\
    p ++ out = to_seg i /\ apply_recs (visible i) pos (rc :: rs) = Some out /\ limits i pos (rc :: rs) /\
    last_nonempty (rc :: rs) /\ rest_ok (i + 1) segs /\
    rest = r_diff rc ++ enc_size (zlen (r_extra rc)) ++ r_extra rc ++ enc_size (r_adj rc) ++ enc_recs rs ++ enc_segments segs /\
    SZ f (i_rsize s) r (i_left s) (zlen (r_diff rc)) rest rE /\ m = 2 * zlen rest + 1.

Definition g_diff_data (f : list Z) (s : ip) (w : dev) (m : Z) : Prop :=
  exists i p pos r d fr extra adj rs out segs rest, i_state s = SDiffData /\ inseg s w i p pos /\ i_reader s = Some r /\
    i_chunk_size s = zlen d /\ slice (visible i) pos (zlen d) = Some fr /\
    p ++ add_mod d fr ++ extra ++ out = to_seg i /\ 0 <= pos + zlen d + adj /\
    apply_recs (visible i) (pos + zlen d + adj) rs = Some out /\ limits i pos (mkrec d extra adj :: rs) /\
    (rs = [] \/ last_nonempty rs /\ 0 < recs_size rs) /\ rest_ok (i + 1) segs /\
    rest = d ++ enc_size (zlen extra) ++ extra ++ enc_size adj ++ enc_recs rs ++ enc_segments segs /\
    DT f (i_rsize s) r (i_left s) rest rE /\ m = 2 * zlen rest.

Definition g_extra_size (f : list Z) (s : ip) (w : dev) (m : Z) : Prop :=
  exists i p pos r extra adj rs out segs rest, i_state s = SExtraSize /\ inseg s w i p pos /\ i_reader s = Some r /\
    p ++ extra ++ out = to_seg i /\ 0 <= pos + adj /\
    apply_recs (visible i) (pos + adj) rs = Some out /\ limits i pos (mkrec [] extra adj :: rs) /\
    (rs = [] \/ last_nonempty rs /\ 0 < recs_size rs) /\ rest_ok (i + 1) segs /\
    rest = extra ++ enc_size adj ++ enc_recs rs ++ enc_segments segs /\
    SZ f (i_rsize s) r (i_left s) (zlen extra) rest rE /\ m = 2 * zlen rest + 1.

Definition g_extra_data (f : list Z) (s : ip) (w : dev) (m : Z) : Prop :=
  exists i p pos r e adj rs out segs rest, i_state s = SExtraData /\ inseg s w i p pos /\ i_reader s = Some r /\
    i_chunk_size s = zlen e /\ p ++ e ++ out = to_seg i /\ 0 <= pos + adj /\
    apply_recs (visible i) (pos + adj) rs = Some out /\ limits i pos (mkrec [] e adj :: rs) /\
    (rs = [] \/ last_nonempty rs /\ 0 < recs_size rs) /\ rest_ok (i + 1) segs /\
    rest = e ++ enc_size adj ++ enc_recs rs ++ enc_segments segs /\
    DT f (i_rsize s) r (i_left s) rest rE /\ m = 2 * zlen rest.

Definition g_adjustment (f : list Z) (s : ip) (w : dev) (m : Z) : Prop :=
  exists i p pos r adj rs out segs, i_state s = SAdjustment /\ inseg s w i p pos /\ i_reader s = Some r /\
    p ++ out = to_seg i /\ 0 <= pos + adj /\
    apply_recs (visible i) (pos + adj) rs = Some out /\ limits i pos (mkrec [] [] adj :: rs) /\
    (rs = [] \/ last_nonempty rs /\ 0 < recs_size rs) /\ rest_ok (i + 1) segs /\
    SZ f (i_rsize s) r (i_left s) adj (enc_recs rs ++ enc_segments segs) rE /\
    m = 2 * zlen (enc_recs rs ++ enc_segments segs) + 1.

Definition g_done (f : list Z) (s : ip) (w : dev) (m : Z) : Prop :=
  i_state s = SDone /\ i_to_size s = zlen to /\ i_reader s = Some rE /\ i_left s = [] /\ f = [] /\ finished w /\ m = 0.

Definition good (f : list Z) (s : ip) (w : dev) (m : Z) : Prop :=
  g_dfpatch f s w m \/ g_diff_size f s w m \/ g_diff_data f s w m \/ g_extra_size f s w m \/ g_extra_data f s w m \/
  g_adjustment f s w m \/ g_done f s w m.

Definition destroyable (s : ip) : Prop :=
  match i_reader s with None => True | Some r => exists d, destroy r = Ret d end.

Definition dead (s : ip) (w : dev) : Prop := i_state s = SFailed /\ destroyable s /\ off w.

Definition verdict (f : list Z) (m : Z) (o : outcome (Z * ip * dev)) : Prop :=
  (exists s1 w1 m1, o = Ret (0, s1, w1) /\ good f s1 w1 m1 /\ 0 <= m1 < m) \/
  (exists s1 w1 m1, o = Ret (1, s1, w1) /\ good f s1 w1 m1 /\ m1 = m /\ i_left s1 = [] /\ f <> []) \/
  (exists e s1 w1, o = Ret (e, s1, w1) /\ e < 0 /\ e <> - E_ALREADY_DONE /\ dead s1 w1).

(** ** Facts *)

Lemma to_seg_len : forall i, 0 <= i < MS -> zlen (to_seg i) = size (NS + i + 1) /\ 0 < zlen (to_seg i) /\
  zlen (to_seg i) = Z.min segment (zlen to - i * segment).
Proof.
  intros i H. steps. destruct (area_patch memory segment shift from to i ltac:(lia)) as [_ E].
  assert (i * segment <= (MS - 1) * segment) by nia. assert (0 <= i * segment) by nia.
  unfold to_seg. rewrite zlen_ztake, zlen_zdrop by lia. rewrite E. lia.
Qed.

Lemma content_seg : forall i mem, 0 <= i -> content (NS + i + 1) mem = to_seg i.
Proof.
  intros i mem H. unfold InPlaceMem.content, to_seg. destruct (Z.leb_spec (NS + i + 1) NS); [lia|].
  replace (NS + i + 1 - NS - 1) with i by lia. reflexivity.
Qed.

Lemma source_range : forall i, 0 <= i < MS -> 0 <= source i <= memory.
Proof. intros i H. steps. szs. unfold source. assert ((i + 1) * segment <= MS * segment) by (apply Z.mul_le_mono_nonneg_r; lia).
  assert (0 <= (i + 1) * segment) by (apply Z.mul_nonneg_nonneg; lia). lia. Qed.

(** What is read from the memory for segment [i] is the visible from data. *)
Lemma source_data : forall i pos n, 0 <= i < MS -> 0 <= pos -> 0 < n -> pos + n <= zlen (visible i) ->
  map cell_value (ztake n (zdrop (source i + pos) (canon (NS + i)))) = ztake n (zdrop pos (visible i)) /\
  source i + pos + n <= memory.
Proof.
  intros i pos n Hi Hp Hn Hv. steps. szs.
  assert (0 <= i * segment) by nia.
  assert (Zv : zlen (visible i) = Z.max 0 (Z.min (zlen from) (memory - shift) - Z.max ((i + 1) * segment - shift) 0)).
  { unfold InPlaceSpec.visible, kept. rewrite zlen_zdrop, zlen_ztake by lia. lia. }
  assert (B : source i = shift + Z.max ((i + 1) * segment - shift) 0) by (unfold source; lia).
  pose proof (zlen_canon memory segment shift from to mem0 Hsizes Hlen Hto (NS + i) ltac:(lia)) as Zc.
  split; [|lia].
  apply znth_ext.
  - rewrite zlen_map, !zlen_slice by lia. reflexivity.
  - intros k Hk. rewrite zlen_map, zlen_slice in Hk by lia.
    rewrite znth_map, !znth_slice by lia.
    set (a := Z.max ((i + 1) * segment - shift) 0 + pos + k).
    replace (source i + pos + k) with (shift + a) by (unfold a; lia).
    change (rd (canon (NS + i)) (shift + a) = znth (visible i) (pos + k)).
    rewrite canon_source; auto; try (unfold a in *; lia).
    unfold InPlaceSpec.visible, kept. rewrite znth_zdrop by lia.
    replace (Z.max ((i + 1) * segment - shift) 0 + (pos + k)) with a by (unfold a; lia).
    rewrite znth_ztake by (unfold a; lia).
    unfold holds in Hfrom. rewrite <- Hfrom at 1. rewrite znth_map, znth_ztake by (unfold a; lia). reflexivity.
Qed.

(** ** Steps *)

Ltac prj := cbn [i_patch_size i_state i_init i_compression i_step i_to_pos i_to_size i_from_size i_memory_size
  i_segment_size i_shift_size i_chunk_size i_seg i_reader i_rsize i_csize i_left i_size g_index g_from_offset
  g_to_offset g_to_size g_to_pos iset_st iset_reader iset_to iset_seg iset_chunk_size iset_step].
Ltac lens := rewrite ?zlen_app;
  repeat match goal with |- context [zlen ?l] => let k := fresh "k" in let E := fresh in
    pose proof (zlen_nonneg l); set (k := zlen l) in *; clearbody k end; lia.
Ltac splits := repeat match goal with |- _ /\ _ => split end.
Ltac nz := change (negb (0 =? 0)) with false; cbv iota.

Lemma rest_len : forall x y : list Z, 0 <= zlen x /\ zlen (x ++ y) = zlen x + zlen y.
Proof. intros. rewrite zlen_app. split; [apply zlen_nonneg|lia]. Qed.

Lemma enc_size_pos : forall v, 0 < zlen (enc_size v).
Proof.
  intros v. unfold enc_size. destruct (_ <? 64); rewrite zlen_cons; match goal with |- context [zlen ?l] => pose proof (zlen_nonneg l) end; lia.
Qed.

Lemma enc_recs_app : forall rc rs t, enc_recs (rc :: rs) ++ t =
  enc_size (zlen (r_diff rc)) ++ r_diff rc ++ enc_size (zlen (r_extra rc)) ++ r_extra rc ++ enc_size (r_adj rc) ++ enc_recs rs ++ t.
Proof. intros. unfold enc_recs. cbn [flat_map]. unfold enc_rec. rewrite <- !app_assoc. reflexivity. Qed.

Lemma neg_verdict : forall f m e s1 w1, e < 0 -> e <> - E_ALREADY_DONE -> destroyable s1 -> off w1 ->
  verdict f m (letm (res, s1, w1) := Ret (e, s1, w1) in Ret (res, if res <? 0 then iset_st s1 SFailed else s1, w1)).
Proof.
  intros f m e s1 w1 H1 H2 H3 H4. right; right. cbn [obind]. destruct (Z.ltb_spec e 0); [|lia].
  do 3 eexists. split; [reflexivity|]. split; [auto|]. split; [auto|]. split; [reflexivity|]. auto.
Qed.

Lemma once_unfold : forall s w, i_state s <> SDone ->
  ip_process_once (flash_env_of strict) s w =
  letm (res, s1, w1) :=
    match i_state s with
    | SInit => ip_process_init (flash_env_of strict) s w
    | SDfpatchSize => ip_process_dfpatch_size (flash_env_of strict) s w
    | SDiffSize => letm (r, s1) := ip_process_size s SDiffData in Ret (r, s1, w)
    | SDiffData => ip_process_data (flash_env_of strict) s w SExtraSize
    | SExtraSize => letm (r, s1) := ip_process_size s SExtraData in Ret (r, s1, w)
    | SExtraData => ip_process_data (flash_env_of strict) s w SAdjustment
    | SAdjustment => ip_process_adjustment (flash_env_of strict) s w
    | SDone => Ret (- E_ALREADY_DONE, s, w)
    | SFailed => Ret (- E_ALREADY_FAILED, s, w)
    end in Ret (res, if res <? 0 then iset_st s1 SFailed else s1, w1).
Proof. intros s w H. unfold ip_process_once. destruct (i_state s); congruence. Qed.

Lemma step_dfpatch : forall f s w m, bytes_ok f -> g_dfpatch f s w m -> verdict f m (ip_process_once (flash_env_of strict) s w).
Proof.
  intros f s w m Hf (i & r & recs & segs & G1 & G2 & G3 & G4 & G5 & G6 & G7 & G8 & G9).
  rewrite once_unfold by congruence. rewrite G1. unfold ip_process_dfpatch_size. rewrite G5.
  steps. szs. destruct G2 as (F1 & F2 & F3 & F4 & F5).
  destruct (size_step Hword _ _ _ _ _ _ _ Hf G8) as [(z1 & r1 & U & S & N)|(z1 & r1 & l1 & U & X)]; rewrite U; cbn [obind].
  - change (negb (1 =? 0)) with true. cbv iota zeta. cbn [obind]. change (1 <? 0) with false. cbv iota.
    right; left. do 3 eexists. split; [reflexivity|]. split; [|split; [reflexivity|split; [reflexivity|auto]]].
    left. exists i, r1, recs, segs. unfold fixed. cbn. splits; auto; lia.
  - nz. change (0 <? 0) with false. cbv iota zeta.
    prj.
    rewrite F1, F2, F3, F4, G3.
    assert (Hi : i * segment <= (MS - 1) * segment) by (apply Z.mul_le_mono_nonneg_r; lia).
    assert (Hi0 : 0 <= i * segment) by (apply Z.mul_nonneg_nonneg; lia).
    assert (Hi1 : (i + 1) * segment <= MS * segment) by (apply Z.mul_le_mono_nonneg_r; lia).
    assert (Hms1 : MS <= MS * segment) by (rewrite <- (Z.mul_1_r MS) at 1; apply Z.mul_le_mono_nonneg_l; lia).
    assert (MS <= memory) by lia.
    rewrite (small_wrap Hword (i * segment)) by lia.
    rewrite (small_wrap Hword (i + 1)) by lia.
    rewrite (small_wrap Hword (segment * (i + 1))) by lia.
    rewrite (small_wrap Hword (zlen to - i * segment)) by lia.
    replace (segment * (i + 1)) with ((i + 1) * segment) by lia. fold (source i).
    destruct (area_patch memory segment shift from to i ltac:(lia)) as [E1 E2].
    rewrite <- E2, <- E1.
    pose proof (source_range i F5) as Hsr.
    rewrite (to_int_small (source i)) by (unfold INT_MIN, INT_MAX; lia).
    destruct (op_erase memory segment shift from to mem0 Hsizes Hlen Hto c0 unl w (NS + i + 1) _ G6) as [(w1 & P1 & P2)|(w1 & P1 & P2)]; rewrite P1.
    2:{ apply neg_verdict; [lia|discriminate| |auto]. unfold destroyable. cbn. apply rok_destroy. apply X. }
    cbn [obind]. change (0 <? 0) with false. cbv iota.
    destruct G7 as (A1 & A2 & A3). cbn [apply_segments segments_ok segments_in_limits] in A1, A2, A3.
    destruct (apply_recs (visible i) 0 recs) as [oa|] eqn:Ea; [|discriminate].
    destruct (apply_segments memory segment shift from (i + 1) segs) as [ob|] eqn:Eb; [|discriminate].
    destruct A2 as (A4 & A5 & A6). destruct A3 as (A7 & A8 & A9).
    pose proof (apply_recs_pos _ _ _ _ Ea ltac:(lia)) as La. inversion A1 as [A10]; clear A1.
    destruct (to_seg_len i F5) as (T1 & T2 & T3).
    assert (Zd : zlen (zdrop (i * segment) to) = zlen to - i * segment) by (rewrite zlen_zdrop by lia; lia).
    rewrite Zd in *.
    assert (Hl : zlen oa + zlen ob = zlen to - i * segment) by (rewrite <- zlen_app, A10; auto).
    assert (Hoa : oa = to_seg i).
    { unfold to_seg. rewrite <- A10. destruct (Z.leb_spec segment (zlen to - i * segment)).
      - rewrite ztake_app_exact by lia. reflexivity.
      - assert (ob = []) as -> by (apply zlen_0_nil; lia). rewrite app_nil_r, ztake_all by lia. reflexivity. }
    assert (Hob : ob = zdrop ((i + 1) * segment) to).
    { replace ((i + 1) * segment) with (segment + i * segment) by lia. rewrite <- zdrop_zdrop by lia. rewrite <- A10.
      destruct (Z.leb_spec segment (zlen to - i * segment)).
      - rewrite zdrop_app_exact by lia. reflexivity.
      - assert (ob = []) as -> by (apply zlen_0_nil; lia). rewrite app_nil_r, zdrop_all by lia. reflexivity. }
    assert (Hsz : zlen to - i * segment - recs_size recs = zlen (zdrop ((i + 1) * segment) to)) by (rewrite zlen_zdrop by lia; lia).
    rewrite Hsz in A6.
    destruct recs as [|rc rs]; [destruct A5 as (x & y & Y & _); destruct x; discriminate|].
    left. do 3 eexists. split; [reflexivity|]. split.
    + right; left. exists i, [], 0, r1, rc, rs, oa, segs. eexists. prj.
      split; [reflexivity|]. split.
      { unfold inseg, fixed. prj. change (zlen (@nil Z)) with 0. rewrite !Z.add_0_r. rewrite E1. auto 30 with zarith. }
      split; [reflexivity|]. split; [auto|]. split; [exact Ea|]. split; [split; auto|]. split; [auto|]. split; [|].
      { unfold rest_ok. rewrite Eb, Hob. auto. }
      split; [reflexivity|]. split; [|reflexivity].
      apply DT_SZ; [auto|auto| |].
      * apply EX_DT in X. rewrite enc_recs_app in X. exact X.
      * pose proof (recs_size_nonneg rs). unfold recs_size in A4, H0. cbn [fold_right] in A4. unfold rec_size in A4 at 1.
        pose proof (zlen_nonneg (r_diff rc)). pose proof (zlen_nonneg (r_extra rc)). lia.
    + rewrite G9, enc_recs_app.
      pose proof (enc_size_pos (zlen (r_diff rc))). lens.
Qed.

Lemma full : forall i p out, 0 <= i < MS -> p ++ out = to_seg i -> zlen p <= size (NS + i + 1) /\ zlen p + zlen out = size (NS + i + 1).
Proof. intros i p out H E. destruct (to_seg_len i H) as (T1 & _). rewrite <- E, zlen_app in T1. pose proof (zlen_nonneg out). lia. Qed.

Lemma size_bound : forall i, 0 <= i < MS -> 0 < size (NS + i + 1) <= segment /\ i * segment + size (NS + i + 1) <= zlen to /\
  0 <= i * segment /\ (i + 1 < MS -> size (NS + i + 1) = segment) /\ (i + 1 = MS -> i * segment + size (NS + i + 1) = zlen to).
Proof.
  intros i H. steps. destruct (to_seg_len i H) as (T1 & T2 & T3). rewrite <- T1. rewrite T3.
  assert (0 <= i * segment) by nia. split; [lia|]. split; [lia|]. split; [lia|]. split; intros.
  - assert ((i + 1) * segment <= (MS - 1) * segment) by nia. lia.
  - subst. assert (i = MS - 1) by lia. subst i. lia.
Qed.

(** The size fields, with any bytes after them. *)
Lemma step_size : forall f s w i p pos r v rest next, bytes_ok f -> inseg s w i p pos -> i_reader s = Some r ->
  SZ f (i_rsize s) r (i_left s) v rest rE -> 0 <= v -> i * segment + zlen p + v <= zlen to ->
  (exists z1 r1, ip_process_size s next = Ret (1, iset_reader s (Some r1) z1 []) /\ SZ f z1 r1 [] v rest rE /\ f <> []) \/
  (exists z1 r1 l1, ip_process_size s next = Ret (0, iset_chunk_size (iset_st (iset_reader s (Some r1) z1 l1) next) v) /\
     EX f z1 r1 l1 rest rE).
Proof.
  intros f s w i p pos r v rest next Hf G R S V L. unfold ip_process_size. rewrite R. unfold common_process_size.
  destruct G as ((F1 & F2 & F3 & F4 & F5) & G2 & G3 & G4 & G5 & G6 & G7 & G8 & G9).
  steps. szs. pose proof (size_bound i F5) as (B1 & B2 & B3 & _). pose proof (zlen_nonneg p).
  destruct (size_step Hword _ _ _ _ _ _ _ Hf S) as [(z1 & r1 & U & S1 & N)|(z1 & r1 & l1 & U & X)]; rewrite U; cbn [obind].
  - left. exists z1, r1. change (negb (1 =? 0)) with true. cbv iota. cbn [obind]. change (negb (1 =? 0)) with true. cbv iota. auto.
  - right. exists z1, r1, l1. nz. rewrite F3, G8.
    rewrite (small_wrap Hword v) by lia. rewrite (small_wrap Hword (i * segment + zlen p + v)) by lia.
    destruct (Z.ltb_spec (zlen to) (i * segment + zlen p + v)); [lia|]. cbn [obind]. nz. rewrite (small_wrap Hword v) by lia. auto.
Qed.

Lemma one_verdict : forall f m s1 w1, good f s1 w1 m -> i_left s1 = [] -> f <> [] ->
  verdict f m (letm (res, s1, w1) := Ret (1, s1, w1) in Ret (res, if res <? 0 then iset_st s1 SFailed else s1, w1)).
Proof. intros f m s1 w1 H1 H2 H3. right; left. cbn [obind]. change (1 <? 0) with false. cbv iota. do 3 eexists. split; [reflexivity|]. eauto. Qed.

Lemma zero_verdict : forall f m m1 s1 w1, good f s1 w1 m1 -> 0 <= m1 < m ->
  verdict f m (letm (res, s1, w1) := Ret (0, s1, w1) in Ret (res, if res <? 0 then iset_st s1 SFailed else s1, w1)).
Proof. intros f m m1 s1 w1 H1 H2. left. cbn [obind]. change (0 <? 0) with false. cbv iota. do 3 eexists. split; [reflexivity|]. eauto. Qed.

Lemma inseg_reader : forall s w i p pos z r l, inseg s w i p pos -> inseg (iset_reader s r z l) w i p pos.
Proof. intros s w i p pos z r l H. exact H. Qed.

Lemma inseg_sized : forall s w i p pos z r l st n, inseg s w i p pos -> inseg (iset_chunk_size (iset_st (iset_reader s r z l) st) n) w i p pos.
Proof. intros s w i p pos z r l st n H. exact H. Qed.

Lemma inseg_range : forall s w i p pos, inseg s w i p pos -> 0 <= i < MS.
Proof. intros s w i p pos ((_ & _ & _ & _ & H) & _). exact H. Qed.

Lemma apply_recs_cons : forall v pos rc rs out, apply_recs v pos (rc :: rs) = Some out ->
  exists fr out', slice v pos (zlen (r_diff rc)) = Some fr /\ 0 <= pos + zlen (r_diff rc) + r_adj rc /\
    apply_recs v (pos + zlen (r_diff rc) + r_adj rc) rs = Some out' /\ out = add_mod (r_diff rc) fr ++ r_extra rc ++ out'.
Proof.
  intros v pos rc rs out H. cbn [apply_recs] in H. destruct (slice _ _ _) as [fr|]; [|discriminate].
  destruct (Z.ltb_spec (pos + zlen (r_diff rc) + r_adj rc) 0); [discriminate|].
  destruct (apply_recs _ _ rs) as [o|]; [|discriminate]. inversion H. eauto 10.
Qed.

Lemma zlen_add_mod : forall a b, zlen a = zlen b -> zlen (add_mod a b) = zlen a.
Proof.
  induction a as [|x a IH]; intros [|y b] H; cbn [add_mod]; auto; rewrite ?zlen_cons in *; try (change (zlen (@nil Z)) with 0 in *; pose proof (zlen_nonneg a) || pose proof (zlen_nonneg b); lia).
  rewrite (IH b) by lia. reflexivity.
Qed.

Lemma slice_len : forall v pos n fr, 0 <= n -> slice v pos n = Some fr -> zlen fr = n.
Proof.
  intros v pos n fr Hn H. unfold slice in H. destruct (Z.eqb_spec n 0); [inversion H; subst; reflexivity|].
  destruct (_ && _) eqn:B; [|discriminate]. inversion H. rewrite zlen_slice by lia. reflexivity.
Qed.

Lemma step_diff_size : forall f s w m, bytes_ok f -> g_diff_size f s w m -> verdict f m (ip_process_once (flash_env_of strict) s w).
Proof.
  intros f s w m Hf (i & p & pos & r & rc & rs & out & segs & rest & G1 & G2 & G3 & G4 & G5 & G6 & G7 & G8 & G9 & G10 & G11).
  rewrite once_unfold by congruence. rewrite G1.
  destruct (apply_recs_cons _ _ _ _ _ G5) as (fr & o' & A1 & A2 & A3 & A4).
  pose proof (inseg_range _ _ _ _ _ G2) as Hi. pose proof (size_bound i Hi) as (B1 & B2 & B3 & _).
  pose proof (full i p out Hi G4) as [B4 B5]. subst out.
  pose proof (slice_len _ _ _ _ (zlen_nonneg _) A1) as Lf.
  rewrite !zlen_app, zlen_add_mod in B5 by auto.
  pose proof (zlen_nonneg (r_diff rc)). pose proof (zlen_nonneg (r_extra rc)). pose proof (zlen_nonneg o').
  destruct (step_size f s w i p pos r _ rest SDiffData Hf G2 G3 G10 ltac:(lia) ltac:(lia)) as [(z1 & r1 & U & S1 & N)|(z1 & r1 & l1 & U & X)]; rewrite U; cbn [obind].
  - apply one_verdict; [|reflexivity|auto]. right; left. exists i, p, pos, r1, rc, rs. exists (add_mod (r_diff rc) fr ++ r_extra rc ++ o'), segs, rest.
    apply (inseg_reader _ _ _ _ _ z1 (Some r1) []) in G2. prj. splits; auto; lia.
  - apply EX_DT in X. apply zero_verdict with (m1 := 2 * zlen rest). 2:{ pose proof (zlen_nonneg rest). lia. }
    do 2 right; left. destruct rc as [d e a]; cbn [r_diff r_extra r_adj] in *.
    exists i, p, pos, r1, d, fr, e, a, rs, o', segs, rest. prj.
    split; [auto|]. split; [apply inseg_sized; auto|]. split; [auto|]. split; [auto|]. split; [auto|]. split; [auto|]. split; [auto|].
    split; [auto|]. split; [auto|]. split; [|auto 10]. destruct (last_nonempty_tail _ _ G7) as [[? _]|?]; auto.
Qed.

Lemma step_extra_size : forall f s w m, bytes_ok f -> g_extra_size f s w m -> verdict f m (ip_process_once (flash_env_of strict) s w).
Proof.
  intros f s w m Hf (i & p & pos & r & e & a & rs & out & segs & rest & G1 & G2 & G3 & G4 & G5 & G6 & G7 & G8 & G9 & G10 & G11 & G12).
  rewrite once_unfold by congruence. rewrite G1.
  pose proof (inseg_range _ _ _ _ _ G2) as Hi. pose proof (size_bound i Hi) as (B1 & B2 & B3 & _).
  pose proof (full i p _ Hi G4) as [B4 B5]. rewrite zlen_app in B5.
  pose proof (zlen_nonneg e). pose proof (zlen_nonneg out).
  destruct (step_size f s w i p pos r _ rest SExtraData Hf G2 G3 G11 ltac:(lia) ltac:(lia)) as [(z1 & r1 & U & S1 & N)|(z1 & r1 & l1 & U & X)]; rewrite U; cbn [obind].
  - apply one_verdict; [|reflexivity|auto]. do 3 right; left. exists i, p, pos, r1, e, a, rs, out, segs, rest.
    apply (inseg_reader _ _ _ _ _ z1 (Some r1) []) in G2. prj. splits; auto; lia.
  - apply EX_DT in X. apply zero_verdict with (m1 := 2 * zlen rest). 2:{ pose proof (zlen_nonneg rest). lia. }
    do 4 right; left. exists i, p, pos, r1, e, a, rs, out, segs, rest. prj.
    split; [auto|]. split; [apply inseg_sized; auto|]. splits; auto; lia.
Qed.

Lemma limits_extra : forall i pos d e e2 a rs, limits i pos (mkrec d e a :: rs) -> limits i pos (mkrec d e2 a :: rs).
Proof. intros i pos d e e2 a rs [A B]. split; [|exact B]. inversion A; subst. constructor; auto. Qed.

Lemma step_extra_data : forall f s w m, bytes_ok f -> g_extra_data f s w m -> verdict f m (ip_process_once (flash_env_of strict) s w).
Proof.
  intros f s w m Hf (i & p & pos & r & e & a & rs & out & segs & rest & G1 & G2 & G3 & Gc & G4 & G5 & G6 & G7 & G8 & G9 & G10 & G11 & G12).
  rewrite once_unfold by congruence. rewrite G1. unfold ip_process_data. rewrite Gc, G3.
  pose proof (inseg_range _ _ _ _ _ G2) as Hi. pose proof (size_bound i Hi) as (B1 & B2 & B3 & _).
  pose proof (full i p _ Hi G4) as [B4 B5]. rewrite zlen_app in B5.
  pose proof (zlen_nonneg e). pose proof (zlen_nonneg out). pose proof (zlen_nonneg p). steps. szs.
  destruct (Z.eqb_spec (Z.min 128 (zlen e)) 0) as [Z0|Z0].
  { assert (e = []) by (apply zlen_0_nil; lia). subst e. apply zero_verdict with (m1 := 2 * zlen (enc_recs rs ++ enc_segments segs) + 1).
    - do 5 right; left. exists i, p, pos, r, a, rs, out, segs. prj. split; [auto|]. split; [exact G2|]. split; [auto|].
      split; [auto|]. split; [auto|]. split; [auto|]. split; [auto|]. split; [auto|]. split; [auto|]. split; [|auto].
      apply DT_SZ; [auto|auto| |]. { rewrite G10 in G11. exact G11. }
      destruct G7 as [G7 _]. inversion G7; subst. cbn in *. unfold size_limit in *. lia.
    - subst m rest. cbn [app]. pose proof (enc_size_pos a). lens. }
  destruct (data_step Hword _ _ _ _ (Z.min 128 (zlen e)) _ _ Hf G11) as [(r1 & U & S1 & N)|(o & r1 & l1 & rest1 & U & O1 & O2 & O3 & S1)];
    [lia| |rewrite U; cbn [obind]|rewrite U; cbn [obind]].
  { subst rest. pose proof (zlen_nonneg (enc_size a ++ enc_recs rs ++ enc_segments segs)). rewrite zlen_app. lia. }
  - change (negb (1 =? 0)) with true. cbv iota. apply one_verdict; [|reflexivity|auto].
    do 4 right; left. exists i, p, pos, r1, e, a, rs, out, segs, rest. prj. split; [auto|]. split; [exact G2|]. splits; auto; lia.
  - nz. cbn [obind]. prj.
    assert (Lo : 0 < zlen o) by (destruct o; [congruence|rewrite zlen_cons; pose proof (zlen_nonneg o); lia]).
    assert (e = o ++ zdrop (zlen o) e /\ rest1 = zdrop (zlen o) e ++ enc_size a ++ enc_recs rs ++ enc_segments segs) as [He Hr1].
    { rewrite G10 in O3. rewrite <- (ztake_zdrop (zlen o) e) in O3. rewrite <- app_assoc in O3.
      apply app_inj_len in O3; [|rewrite zlen_ztake by lia; lia]. destruct O3 as [O3 O4]. split; [|auto].
      rewrite <- O3 at 1. symmetry. apply ztake_zdrop. }
    remember (zdrop (zlen o) e) as e2 eqn:Ee2. clear Ee2. subst e. rewrite zlen_app in *. pose proof (zlen_nonneg e2).
    destruct (area_patch memory segment shift from to i ltac:(lia)) as [E1 E2].
    destruct G2 as ((F1 & F2 & F3 & F4 & F5) & I2 & I3 & I4 & I5 & I6 & I7 & I8 & I9).
    rewrite F4, I5, I7. rewrite (small_wrap Hword (zlen p + i * segment)) by lia.
    replace (zlen p + i * segment) with (base (NS + i + 1) + zlen p) by lia.
    destruct (op_write memory segment shift from to mem0 Hsizes Hlen Hto c0 unl w (NS + i + 1) p o o I9 eq_refl ltac:(auto) ltac:(lia))
      as [(w1 & P1 & P2 & P3)|(w1 & P1 & P2)]; rewrite P1.
    2:{ change (negb (-1 =? 0)) with true. cbv iota. apply neg_verdict; [reflexivity|discriminate| |auto]. unfold destroyable. prj. apply rok_destroy. apply S1. }
    nz. rewrite I8, Gc.
    rewrite (small_wrap Hword (zlen p + zlen o)), (small_wrap Hword (i * segment + zlen p + zlen o)), (small_wrap Hword (zlen o + zlen e2 - zlen o)) by lia.
    apply zero_verdict with (m1 := 2 * zlen rest1).
    + do 4 right; left. exists i, (p ++ o), pos, r1, e2, a, rs, out, segs, rest1. prj.
      split; [auto|]. split.
      { unfold inseg, fixed. prj. rewrite zlen_app, Z.add_assoc. splits; auto; lia. }
      apply (limits_extra i pos [] _ e2) in G7.
      split; [auto|]. split; [lia|]. split; [rewrite <- G4, <- !app_assoc; auto|]. splits; auto; lia.
    + subst m rest rest1. lens.
Qed.

Lemma step_diff_data : forall f s w m, bytes_ok f -> g_diff_data f s w m -> verdict f m (ip_process_once (flash_env_of strict) s w).
Proof.
  intros f s w m Hf (i & p & pos & r & d & fr & e & a & rs & out & segs & rest & G1 & G2 & G3 & Gc & Gs & G4 & G5 & G6 & G7 & G8 & G9 & G10 & G11 & G12).
  rewrite once_unfold by congruence. rewrite G1. unfold ip_process_data. rewrite Gc, G3.
  pose proof (inseg_range _ _ _ _ _ G2) as Hi. pose proof (size_bound i Hi) as (B1 & B2 & B3 & _).
  pose proof (slice_len _ _ _ _ (zlen_nonneg _) Gs) as Lf.
  pose proof (full i p _ Hi G4) as [B4 B5]. rewrite !zlen_app, zlen_add_mod in B5 by auto.
  pose proof (zlen_nonneg d). pose proof (zlen_nonneg e). pose proof (zlen_nonneg out). pose proof (zlen_nonneg p). steps. szs.
  destruct (Z.eqb_spec (Z.min 128 (zlen d)) 0) as [Z0|Z0].
  { assert (d = []) by (apply zlen_0_nil; lia). subst d. change (zlen (@nil Z)) with 0 in *. rewrite Z.add_0_r in *.
    apply zero_verdict with (m1 := 2 * zlen (e ++ enc_size a ++ enc_recs rs ++ enc_segments segs) + 1).
    - do 3 right; left. exists i, p, pos, r, e, a, rs, out, segs. eexists. prj. split; [auto|]. split; [exact G2|]. split; [auto|].
      assert (fr = []) by (apply zlen_0_nil; auto). subst fr. cbn [add_mod app] in G4.
      split; [auto|]. split; [auto|]. split; [auto|]. split; [auto|]. split; [auto|]. split; [auto|]. split; [reflexivity|]. split; [|auto].
      apply DT_SZ; [auto|auto| |]. { rewrite G10 in G11. exact G11. } lia.
    - subst m rest. cbn [app]. pose proof (enc_size_pos (zlen e)). lens. }
  destruct (data_step Hword _ _ _ _ (Z.min 128 (zlen d)) _ _ Hf G11) as [(r1 & U & S1 & N)|(o & r1 & l1 & rest1 & U & O1 & O2 & O3 & S1)];
    [lia| |rewrite U; cbn [obind]|rewrite U; cbn [obind]].
  { subst rest. match goal with |- context [zlen (d ++ ?t)] => pose proof (zlen_nonneg t) end. rewrite zlen_app. lia. }
  - change (negb (1 =? 0)) with true. cbv iota. apply one_verdict; [|reflexivity|auto].
    do 2 right; left. exists i, p, pos, r1, d, fr, e, a, rs, out, segs, rest. prj. split; [auto|]. split; [exact G2|]. splits; auto; lia.
  - nz. prj.
    assert (Lo : 0 < zlen o) by (destruct o; [congruence|rewrite zlen_cons; pose proof (zlen_nonneg o); lia]).
    assert (d = o ++ zdrop (zlen o) d /\ rest1 = zdrop (zlen o) d ++ enc_size (zlen e) ++ e ++ enc_size a ++ enc_recs rs ++ enc_segments segs) as [He Hr1].
    { rewrite G10 in O3. rewrite <- (ztake_zdrop (zlen o) d) in O3. rewrite <- app_assoc in O3.
      apply app_inj_len in O3; [|rewrite zlen_ztake by lia; lia]. destruct O3 as [O3 O4]. split; [|auto].
      rewrite <- O3 at 1. symmetry. apply ztake_zdrop. }
    remember (zdrop (zlen o) d) as d2 eqn:Ed2. clear Ed2. subst d. rewrite zlen_app in *. pose proof (zlen_nonneg d2).
    destruct (area_patch memory segment shift from to i ltac:(lia)) as [E1 E2].
    destruct G2 as ((F1 & F2 & F3 & F4 & F5) & I2 & I3 & I4 & I5 & I6 & I7 & I8 & I9).
    pose proof (source_range i Hi) as Hsr.
    assert (Hsl : pos + (zlen o + zlen d2) <= zlen (visible i) /\ fr = ztake (zlen o + zlen d2) (zdrop pos (visible i))).
    { unfold slice in Gs. destruct (Z.eqb_spec (zlen o + zlen d2) 0); [lia|]. destruct (_ && _) eqn:Hb; [|discriminate]. inversion Gs. split; [lia|auto]. }
    destruct Hsl as [Hsl Hfr].
    destruct (source_data i pos (zlen o) Hi I4 Lo ltac:(lia)) as [D1 D2].
    rewrite F4, I3. rewrite (small_wrap Hword (source i + pos)) by lia.
    assert (Hdis : source i + pos + zlen o <= base (NS + i + 1) \/ base (NS + i + 1) + size (NS + i + 1) <= source i + pos).
    { right. unfold source. lia. }
    destruct (op_read memory segment shift from to mem0 Hsizes Hlen Hto c0 unl w (NS + i + 1) (Some p) (source i + pos) (zlen o) I9
      ltac:(lia) ltac:(lia) ltac:(lia) Hdis) as [(buf & w1 & P1 & P2 & P3 & P4 & P5)|(w1 & P1 & P2)]; rewrite P1.
    2:{ change (negb (-1 =? 0)) with true. cbv iota. cbn [obind]. apply neg_verdict; [reflexivity|discriminate| |auto]. unfold destroyable. prj. apply rok_destroy. apply S1. }
    nz. rewrite (to_int_small (zlen o)) by (unfold INT_MIN, INT_MAX; lia).
    assert (Hlim : source i + (pos + zlen (o ++ d2)) <= INT_MAX).
    { destruct G7 as [_ G7]. cbn [positions r_diff] in G7. inversion G7; subst. auto. }
    rewrite zlen_app in Hlim.
    assert (Hia : int_add (source i + pos) (zlen o) = Ret (source i + pos + zlen o)).
    { unfold int_add, in_int, INT_MIN. unfold INT_MAX in *. replace ((-2147483648 <=? source i + pos + zlen o) && (source i + pos + zlen o <=? 2147483647)) with true by lia. reflexivity. }
    rewrite Hia. cbn [obind]. rewrite add_data_mod by auto. cbn [obind]. prj.
    rewrite F4, I5, I7. rewrite (small_wrap Hword (zlen p + i * segment)) by lia.
    replace (zlen p + i * segment) with (base (NS + i + 1) + zlen p) by lia.
    assert (Zt : zlen (ztake (zlen o) fr) = zlen o) by (rewrite zlen_ztake by lia; lia).
    assert (Hw : d_step w1 = NS + i + 1 - 1 -> add_mod o buf = add_mod o (ztake (zlen o) fr)).
    { intros Hl. rewrite P5 by lia. replace (NS + i + 1 - 1) with (NS + i) by lia. rewrite D1. rewrite Hfr, ztake_ztake. do 3 f_equal. lia. }
    destruct (op_write memory segment shift from to mem0 Hsizes Hlen Hto c0 unl w1 (NS + i + 1) p (add_mod o buf) (add_mod o (ztake (zlen o) fr)) P3
      ltac:(rewrite !zlen_add_mod by lia; auto) Hw ltac:(rewrite zlen_add_mod by lia; lia))
      as [(w2 & Q1 & Q2 & Q3)|(w2 & Q1 & Q2)]; rewrite Q1.
    2:{ change (negb (-1 =? 0)) with true. cbv iota. apply neg_verdict; [reflexivity|discriminate| |auto]. unfold destroyable. prj. apply rok_destroy. apply S1. }
    nz. rewrite I8, Gc.
    rewrite (small_wrap Hword (zlen p + zlen o)), (small_wrap Hword (i * segment + zlen p + zlen o)), (small_wrap Hword (zlen o + zlen d2 - zlen o)) by lia.
    apply zero_verdict with (m1 := 2 * zlen rest1).
    + do 2 right; left. exists i, (p ++ add_mod o (ztake (zlen o) fr)), (pos + zlen o), r1, d2, (zdrop (zlen o) fr), e, a, rs, out, segs, rest1. prj.
      split; [auto|]. split.
      { unfold inseg, fixed. prj. rewrite zlen_app, zlen_add_mod, !Z.add_assoc by lia. assert (0 <= pos + zlen o) by lia. splits; auto; lia. }
      split; [auto|]. split; [lia|]. split.
      { unfold slice. destruct (Z.eqb_spec (zlen d2) 0) as [Hz|Hz].
        - rewrite zdrop_all by lia. auto.
        - replace ((0 <=? pos + zlen o) && (pos + zlen o + zlen d2 <=? zlen (visible i))) with true by lia.
          f_equal. rewrite Hfr. replace (pos + zlen o) with (zlen o + pos) by lia. rewrite <- (zdrop_zdrop (zlen o) pos) by lia.
          replace (zlen o + zlen d2) with (zlen d2 + zlen o) by lia. rewrite <- ztake_zdrop_comm by lia. reflexivity. }
      split.
      { rewrite <- G4. rewrite <- !app_assoc. f_equal. rewrite <- (ztake_zdrop (zlen o) fr) at 3. rewrite add_mod_app by lia. rewrite <- app_assoc. auto. }
      replace (pos + zlen o + zlen d2) with (pos + zlen (o ++ d2)) by (rewrite zlen_app; lia).
      split; [rewrite zlen_app; lia|]. split; [rewrite zlen_app; auto|]. split.
      { unfold limits in *. cbn [positions r_diff r_adj] in *. rewrite zlen_app in *.
        replace (pos + zlen o + zlen d2) with (pos + (zlen o + zlen d2)) by lia. destruct G7 as [G7 G7']. split; [|auto].
        inversion G7; subst. constructor; auto. }
      splits; auto; lia.
    + subst m rest rest1. lens.
Qed.

Lemma step_adjustment : forall f s w m, bytes_ok f -> g_adjustment f s w m -> verdict f m (ip_process_once (flash_env_of strict) s w).
Proof.
  intros f s w m Hf (i & p & pos & r & a & rs & out & segs & G1 & G2 & G3 & G4 & G5 & G6 & G7 & G8 & G9 & G10 & G11).
  rewrite once_unfold by congruence. rewrite G1. unfold ip_process_adjustment. rewrite G3.
  destruct (size_step Hword _ _ _ _ _ _ _ Hf G10) as [(z1 & r1 & U & S & N)|(z1 & r1 & l1 & U & X)]; rewrite U; cbn [obind].
  { change (negb (1 =? 0)) with true. cbv iota. apply one_verdict; [|reflexivity|auto].
    do 5 right; left. exists i, p, pos, r1, a, rs, out, segs. prj. split; [auto|]. split; [exact G2|]. splits; auto; lia. }
  nz. prj. pose proof G2 as ((F1 & F2 & F3 & F4 & F5) & I2 & I3 & I4 & I5 & I6 & I7 & I8 & I9).
  pose proof (size_bound i F5) as (B1 & B2 & B3 & B6 & B7). pose proof (full i p _ F5 G4) as [B4 B5].
  pose proof (zlen_nonneg p). pose proof (zlen_nonneg out). steps. szs.
  pose proof (apply_recs_pos _ _ _ _ G6 G5) as Lo.
  assert (Hrs : zlen out = 0 -> rs = []) by (intros; destruct G8 as [?|[_ ?]]; [auto|lia]).
  assert (Hp : zlen out = 0 -> p = content (NS + i + 1) (canon (NS + i + 1 - 1))).
  { intros Ho. rewrite content_seg by lia. rewrite <- G4. apply zlen_0_nil in Ho. subst out. rewrite app_nil_r. auto. }
  rewrite F3, F4, I8, I7, I6. destruct G9 as (R1 & R2 & R3).
  destruct (Z.eqb_spec (i * segment + zlen p) (zlen to)) as [Et|Et].
  - assert (Ho : zlen out = 0) by lia. assert (i + 1 = MS) by (destruct (Z.eq_dec (i + 1) MS); [auto|]; assert ((i + 1) * segment <= (MS - 1) * segment) by (apply Z.mul_le_mono_nonneg_r; lia); lia).
    assert (segs = []).
    { eapply segments_ok_nil; [exact R2|]. rewrite zlen_zdrop by nia. replace ((i + 1) * segment) with (MS * segment) by (f_equal; lia). lia. }
    rewrite (Hrs Ho) in X. subst segs. cbn in X. apply EX_end in X. destruct X as (-> & -> & ->).
    replace (NS + i + 1) with (NS + MS) in * by lia.
    destruct (op_done memory segment shift from to mem0 Hsizes Hlen Hto c0 unl w p I9 (Hp Ho)) as [(w1 & P1 & P2)|(w1 & P1 & P2)]; rewrite P1.
    2:{ apply neg_verdict; [reflexivity|discriminate| |auto]. unfold destroyable. prj. eauto. }
    apply zero_verdict with (m1 := 0); [|rewrite G11; lens]. do 6 right. unfold g_done. prj. splits; auto; lia.
  - destruct (Z.eqb_spec (zlen p) (size (NS + i + 1))) as [Es|Es].
    + assert (Ho : zlen out = 0) by lia. assert (i + 1 < MS) by (destruct (Z.eq_dec (i + 1) MS); lia).
      rewrite (Hrs Ho) in *.
      destruct (op_next memory segment shift from to mem0 Hsizes Hlen Hto c0 unl w (NS + i + 1) p I9 ltac:(lia) (fun _ => Hp Ho)) as [(w1 & P1 & P2)|(w1 & P1 & P2)]; rewrite P1; cbn [obind].
      2:{ apply neg_verdict; [reflexivity|discriminate| |auto]. unfold destroyable. prj. apply rok_destroy. apply X. }
      destruct segs as [|recs segs].
      { exfalso. cbn [apply_segments] in R1. assert (K : zlen (zdrop ((i + 1) * segment) to) = 0) by (inversion R1; reflexivity).
        rewrite zlen_zdrop in K by nia. assert ((i + 1) * segment <= (MS - 1) * segment) by nia. lia. }
      assert (En : enc_recs [] ++ enc_segments (recs :: segs) = enc_size 0 ++ enc_recs recs ++ enc_segments segs).
      { unfold enc_segments. cbn [flat_map enc_recs app]. unfold enc_body. rewrite <- !app_assoc. reflexivity. }
      rewrite En in *.
      apply zero_verdict with (m1 := 2 * zlen (enc_recs recs ++ enc_segments segs) + 1).
      * left. exists (i + 1), r1, recs, segs. prj. unfold fixed, rest_ok. prj.
        split; [auto|]. split; [repeat (split; [auto; lia|]); lia|]. split; [auto|]. split; [lia|]. split; [auto|]. split; [rewrite Z.add_assoc; auto|].
        split; [auto|]. split; [|auto]. apply DT_SZ; [auto|auto| |lia]. apply EX_DT; auto.
      * rewrite G11. pose proof (enc_size_pos 0). lens.
    + assert (rs <> []) by (intros ->; cbn in G6; inversion G6; subst out; change (zlen (@nil Z)) with 0 in *; lia).
      destruct rs as [|rc rs]; [congruence|].
      destruct (apply_recs_cons _ _ _ _ _ G6) as (fr & o' & A1 & A2 & A3 & A4).
      assert (Hlim : source i + (pos + a) <= INT_MAX).
      { destruct G7 as [_ G7]. cbn [positions r_diff r_adj] in G7. change (zlen (@nil Z)) with 0 in G7. rewrite Z.add_0_r in G7. inversion G7 as [|? ? ? K1]; inversion K1; subst. auto. }
      pose proof (source_range i F5).
      rewrite I3. assert (Hia : int_add (source i + pos) a = Ret (source i + pos + a)).
      { unfold int_add, in_int, INT_MIN. unfold INT_MAX in *. replace ((-2147483648 <=? source i + pos + a) && (source i + pos + a <=? 2147483647)) with true by lia. reflexivity. }
      rewrite Hia. cbn [obind].
      rewrite enc_recs_app in *.
      eapply zero_verdict.
      * right; left. exists i, p, (pos + a), r1, rc, rs, out, segs. eexists. prj.
        split; [auto|]. split. { unfold inseg, fixed. prj. rewrite Z.add_assoc. splits; auto; lia. }
        split; [auto|]. split; [auto|]. split; [auto|]. split.
        { destruct G7 as [G7 G7']. cbn [positions r_diff r_adj] in G7'. change (zlen (@nil Z)) with 0 in G7'. rewrite Z.add_0_r in G7'.
          inversion G7; inversion G7' as [|? ? ? K]; inversion K; subst. split; auto. }
        split; [destruct G8 as [?|[? _]]; [discriminate|auto]|]. split; [split; auto|]. split; [reflexivity|]. split; [|reflexivity].
        apply DT_SZ; [auto|auto|apply EX_DT; exact X|].
        pose proof (slice_len _ _ _ _ (zlen_nonneg _) A1). subst out. rewrite !zlen_app, zlen_add_mod in B5 by auto.
        pose proof (zlen_nonneg (r_diff rc)). pose proof (zlen_nonneg (r_extra rc)). pose proof (zlen_nonneg o'). lia.
      * rewrite G11. pose proof (enc_size_pos (zlen (r_diff rc))). lens.
Qed.

Lemma good_nonneg : forall f s w m, good f s w m -> 0 <= m.
Proof.
  intros f s w m G. unfold good, g_dfpatch, g_diff_size, g_diff_data, g_extra_size, g_extra_data, g_adjustment, g_done in G.
  decompose [or and ex] G; subst; try match goal with |- context [zlen ?l] => pose proof (zlen_nonneg l) end; lia.
Qed.

(** One call of process_once. *)
Lemma good_once : forall f s w m, bytes_ok f -> good f s w m -> i_state s <> SDone -> verdict f m (ip_process_once (flash_env_of strict) s w).
Proof.
  intros f s w m Hf [G|[G|[G|[G|[G|[G|G]]]]]] N.
  - apply step_dfpatch; auto.
  - apply step_diff_size; auto.
  - apply step_diff_data; auto.
  - apply step_extra_size; auto.
  - apply step_extra_data; auto.
  - apply step_adjustment; auto.
  - destruct G as [G _]. congruence.
Qed.

End Patch.
