(** Proofs about the ranges printed for an in-place patch. *)

From Coq Require Import ZArith List Bool Lia ZifyBool ZifyNat ZifyN.
From Verif Require Import Prelude Lib Spec BsdiffSpec InPlaceSpec PyCreate PyInPlace PyApply PySpec PyApplyProofs PySeq PyMemCreate PyInfo PyInfoSpec PyInfoThms PyMemCut PyInfoCreate PyReport ReportSpec.
Import ListNotations.
Open Scope Z_scope.

Lemma visible_cut : forall memory segment shift from i,
  visible memory segment shift from i = cut (Z.max (segment * (i + 1) - shift) 0, Z.min (zlen from) (memory - shift)) from.
Proof.
  intros memory segment shift from i. unfold visible, kept, cut. cbn [fst snd].
  replace ((i + 1) * segment) with (segment * (i + 1)) by ring. set (x := Z.max (segment * (i + 1) - shift) 0). assert (Hx : 0 <= x) by lia.
  pose proof (zlen_nonneg from). destruct (Z.le_gt_cases (memory - shift) 0) as [M|M].
  - rewrite (ztake_neg (memory - shift)) by lia. rewrite (ztake_neg (Z.min _ _ - x)) by lia. apply zdrop_all. change (zlen (@nil Z)) with 0. exact Hx.
  - destruct (Z.le_gt_cases (zlen from) (memory - shift)) as [N|N].
    + rewrite (ztake_all (memory - shift)) by lia. rewrite Z.min_l by lia. destruct (Z.le_gt_cases x (zlen from)).
      * rewrite ztake_all; [reflexivity|]. rewrite zlen_zdrop by lia. lia.
      * rewrite ztake_neg by lia. apply zdrop_all. lia.
    + rewrite Z.min_r by lia. destruct (Z.le_gt_cases x (memory - shift)) as [P|P].
      * rewrite ztake_zdrop_comm by lia. do 2 f_equal. lia.
      * rewrite (ztake_neg (memory - shift - x)) by lia. apply zdrop_all. rewrite zlen_ztake by lia. lia.
Qed.

Lemma no_more : forall segment segs, 0 < segment -> segments_ok segment segs 0 -> segs = [].
Proof.
  intros segment [|recs rest] Hs H; [reflexivity|]. cbn [segments_ok] in H. destruct H as (A & B & _). apply last_pos_size in B. lia.
Qed.

Lemma report_explains : forall memory segment shift from to, 0 < segment ->
  forall segs i, 0 <= i -> segment * i <= zlen to ->
  apply_segments memory segment shift from i segs = Some (zdrop (segment * i) to) ->
  segments_ok segment segs (zlen to - segment * i) ->
  let ranges := report_loop memory segment shift (zlen from) (zlen to) (length segs) i in
  Forall2 (explains from to) ranges segs /\ tiles (segment * i) (map snd ranges) (zlen to).
Proof.
  intros memory segment shift from to Hs. induction segs as [|recs rest IH]; intros i Hi Hl E Hok; cbn [length report_loop map].
  - cbn [segments_ok] in Hok. split; [constructor|]. replace (segment * i) with (zlen to) by lia. constructor.
  - cbn [apply_segments] in E. cbn [segments_ok] in Hok. destruct Hok as (K1 & K2 & K3). apply last_pos_size in K2.
    destruct (apply_recs _ 0 recs) as [a|] eqn:Ea; [|discriminate E]. destruct (apply_segments _ _ _ _ _ rest) as [b|] eqn:Eb; [|discriminate E].
    injection E as E. pose proof (apply_size _ _ _ _ Ea) as La.
    assert (Ha : a = cut (segment * i, Z.min (segment * i + segment) (zlen to)) to).
    { unfold cut. cbn [fst snd]. rewrite <- E. symmetry. apply ztake_app_exact. lia. }
    assert (Hx : explains from to
              ((Z.max (segment * (i + 1) - shift) 0, Z.min (zlen from) (memory - shift)), (segment * i, Z.min (segment * i + segment) (zlen to))) recs).
    { unfold explains. cbn [fst snd]. rewrite <- visible_cut, <- Ha. exact Ea. }
    destruct (Z.le_gt_cases (segment * i + segment) (zlen to)) as [F|F].
    + assert (Hb : b = zdrop (segment * (i + 1)) to).
      { replace (segment * (i + 1)) with (segment + segment * i) by ring. 
        assert (Z0 : 0 <= segment * i) by (apply Z.mul_nonneg_nonneg; lia).
        transitivity (zdrop segment (zdrop (segment * i) to)).
        - rewrite <- E. symmetry. apply zdrop_app_exact. lia.
        - rewrite zdrop_zdrop by lia. reflexivity. }
      assert (R : zlen to - segment * i - recs_size recs = zlen to - segment * (i + 1)) by (replace (segment * (i + 1)) with (segment * i + segment) by ring; lia).
      rewrite R in K3. rewrite Hb in Eb.
      destruct (IH (i + 1) ltac:(lia) ltac:(replace (segment * (i + 1)) with (segment * i + segment) by ring; lia) Eb K3) as (P & Q).
      split; [constructor; [exact Hx|exact P]|]. cbn [snd]. constructor; [lia|].
      replace (Z.min (segment * i + segment) (zlen to)) with (segment * (i + 1)) by (replace (segment * (i + 1)) with (segment * i + segment) by ring; lia). exact Q.
    + replace (zlen to - segment * i - recs_size recs) with 0 in K3 by lia. apply no_more in K3; [|exact Hs]. subst rest. cbn [length report_loop map snd].
      split; [constructor; [exact Hx|constructor]|]. constructor; [lia|]. rewrite Z.min_r by lia. constructor.
Qed.

Lemma report_intact : forall memory segment shift from_size to_size count i,
  Forall (intact memory shift from_size) (report_loop memory segment shift from_size to_size count i).
Proof.
  intros memory segment shift from_size to_size. induction count as [|count IH]; intros i; cbn [report_loop]; constructor; [|apply IH].
  unfold intact. replace (segment * (i + 1)) with (segment * i + segment) by ring. lia.
Qed.

Lemma report_created : forall X DI HI c hs sa memory segment minimum from to, (forall l, array_ok (sa l) l) -> bytes_ok to ->
  0 < segment < 2 ^ 63 -> (segment | memory) -> (segment | minimum_of segment minimum) -> 0 <= minimum_of segment minimum <= memory ->
  memory < 2 ^ 30 -> zlen to <= memory -> zlen from < 2 ^ 63 ->
  (c = CompHeatshrink -> hs_reader_ok (x_heatshrink X) /\
     forall pieces, bytes_ok (concat pieces) -> py_stream CompHeatshrink (concat pieces) (hs pieces)) ->
  exists patch shift info segs, create_in_place c hs sa memory segment minimum from to = Ret (Some patch) /\
    py_in_place_patch c memory segment shift (zlen from) (zlen to) segs patch /\
    (exists n, forall fuel, (n <= fuel)%nat -> patch_info X DI HI fuel patch = ret (InfoInPlace info)) /\
    Forall2 (explains from to) (report_ranges info) segs /\ Forall (intact memory shift (zlen from)) (report_ranges info) /\ tiles 0 (map snd (report_ranges info)) (zlen to).
Proof.
  intros X DI HI c hs sa memory segment minimum from to Hsa Hto S1 S2 S3 S4 S5 S6 S7 Hh.
  destruct (create_in_place_py c hs sa memory segment minimum from to) as (patch & shift & segs & A1 & A2 & A3 & A4 & A5 & A6); auto.
  { intros Hc. apply Hh. exact Hc. }
  exists patch, shift, (zlen patch, comp_number c, (memory, segment, shift, zlen from, zlen to), map segment_info segs), segs.
  split; [exact A1|]. split; [exact A4|]. split; [apply info_in_place_spec; auto; intros Hc; apply Hh; exact Hc|].
  cbn [report_ranges]. rewrite map_length. pose proof (zlen_nonneg to).
  pose proof (report_explains memory segment shift from to (proj1 S1) segs 0) as P. rewrite Z.mul_0_r, Z.sub_0_r, zdrop_0 in P.
  destruct P as (P1 & P2); auto; try lia; [exact (proj1 A4)|].
  split; [exact P1|]. split; [apply report_intact|exact P2].
Qed.
