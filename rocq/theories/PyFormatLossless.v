(** C36: the readers give back what encode took out. *)

From Coq Require Import ZArith List Bool Lia ZifyBool ZifyNat ZifyN.
From Verif Require Import Prelude Lib Spec PyApply PyBsdiff40 PyFormat PyFormatSpec PyFormatFields PyFormatFiles PyFormatBlocks PyFormatCodec PyFormatDis PyFormatThms.
Import ListNotations.
Open Scope Z_scope.

Local Notation P63 := 9223372036854775808.

Lemma filled_range : forall ivs T c c1, bytes_ok T -> bytes_ok c -> zlen T = zlen c -> filled ivs T c c1 -> bytes_ok c1.
Proof.
  intros ivs T c c1 HT Hc L (A & B). apply Forall_forall. intros x Hx. apply In_nth_error in Hx. destruct Hx as (n & Hn).
  assert (R : (n < length c1)%nat) by (apply nth_error_Some; congruence). specialize (B (Z.of_nat n)). unfold zlen in A, B. specialize (B ltac:(lia)).
  assert (E : znth c1 (Z.of_nat n) = Some x) by (unfold znth; destruct (Z.ltb_spec (Z.of_nat n) 0); [lia|]; rewrite Nat2Z.id; exact Hn).
  rewrite E in B. destruct (cov ivs (Z.of_nat n)); symmetry in B; unfold znth in B; destruct (Z.of_nat n <? 0); try discriminate;
    apply nth_error_In in B; [eapply (proj1 (Forall_forall _ _) HT)|eapply (proj1 (Forall_forall _ _) Hc)]; auto.
Qed.

Lemma zeros_bytes : forall c, bytes_ok (zeros c).
Proof. intros c. unfold zeros, zrepeat. apply Forall_forall. intros x Hx. apply repeat_spec in Hx. subst. unfold byte_ok. lia. Qed.

Lemma done_ok : forall F T js bss, Forall2 (done F T) js bss -> Forall blocks_ok bss.
Proof. induction 1 as [|j bs js bss (_ & A & _)]; auto. Qed.

Lemma done_length : forall F T js bss, Forall2 (done F T) js bss -> length js = length bss.
Proof. induction 1; cbn [length]; auto. Qed.

Theorem lossless : forall M number fm from to sg, matcher_ok M -> format_of number = Some fm ->
  bytes_ok from -> bytes_ok to -> zlen from < 2 ^ 63 -> zlen to < 2 ^ 63 -> segment_ok sg -> pointers_fit number sg ->
  exists from1 to1 patch diff,
    encode M fm from to sg = ret (from1, to1, patch) /\
    format_readers number from patch (zlen to) = ret (diff, from1) /\
    (zlen from1 = zlen from /\ zlen to1 = zlen to /\ zlen diff = zlen to) /\
    (bytes_ok from1 /\ bytes_ok to1 /\ bytes_ok diff /\ bytes_ok patch /\ patch <> []) /\
    sum_bytes to1 diff = to.
Proof.
  intros M number fm from to sg HM Hfm Hf Ht Lf Lt Hsg Hfit. change (2 ^ 63) with P63 in Lf, Lt. pose proof (format_ok _ _ Hfm) as Fo.
  destruct (disassemble_spec fm from (sg_from sg) (fo_steps _ _ Fo) Hf) as (sF & D1 & I1 & P1 & Q1).
  destruct (disassemble_spec fm to (sg_to sg) (fo_steps _ _ Fo) Ht) as (sT & D2 & I2 & P2 & Q2).
  destruct (kind_jobs from to (zlen from) (zlen to) _ _ _ (fo_sizes _ _ Fo) Lf I1 I2) as (js & K1 & K2 & K3 & K4).
  assert (Fd : if number =? 1 then near (r_data_begin (sg_from sg)) (r_data_end (sg_from sg)) (r_data_begin (sg_to sg)) (r_data_end (sg_to sg)) else r_data_end (sg_to sg) <= 2 ^ 31)
    by (unfold pointers_fit in Hfit; destruct (number =? 1); apply Hfit).
  assert (Fc : if number =? 1 then near (r_code_begin (sg_from sg)) (r_code_end (sg_from sg)) (r_code_begin (sg_to sg)) (r_code_end (sg_to sg)) else r_code_end (sg_to sg) <= 2 ^ 31)
    by (unfold pointers_fit in Hfit; destruct (number =? 1); apply Hfit).
  pose proof (pointer_job number fm from to _ _ _ _ _ _ _ _ Fo Hf Ht Lf P1 P2 Fd) as Jd.
  pose proof (pointer_job number fm from to _ _ _ _ _ _ _ _ Fo Hf Ht Lf Q1 Q2 Fc) as Jc.
  set (jd := (fm_pointers fm, fd_data sF, fd_data sT) : job) in *. set (jc := (fm_pointers fm, fd_code sF, fd_code sT) : job) in *.
  set (r := sg_from sg) in *. pose proof Hsg as (S1 & S2 & S3).
  destruct (create_pointers_spec M from to jd (r_data_end r) [r_offset_begin r; r_data_begin r; r_data_end r] from to HM Lf Lt Jd eq_refl eq_refl)
    as (dflag & dh & dd & dbs & from1 & to1 & A1 & A2 & A3 & A4 & A5 & A6 & A7 & A8 & A9).
  { intros E. destruct (S2 E) as (X1 & X2 & X3 & _). repeat constructor; try apply X1; try apply X2; try apply X3. }
  pose proof (proj1 A3) as LA3. pose proof (proj1 A4) as LA4.
  destruct (create_pointers_spec M from to jc (r_code_end r) [r_code_begin r; r_code_end r] from1 to1 HM Lf Lt Jc LA3 LA4)
    as (cflag & ch & cd & cbs & from2 & to2 & B1 & B2 & B3 & B4 & B5 & B6 & B7 & B8 & B9).
  { intros E. destruct (S3 E) as (X1 & X2). repeat constructor; try apply X1; try apply X2. }
  pose proof (proj1 B3) as LB3. pose proof (proj1 B4) as LB4.
  destruct (create_kinds_spec M from to HM Lf Lt js from2 to2 K4 ltac:(lia) ltac:(lia)) as (bss & from3 & to3 & C1 & C2 & C3 & C4).
  assert (Ff : filled (jf (jd, dbs) ++ jf (jc, cbs) ++ flat_map jf (combine js bss)) (zeros from) from from3) by (eapply filled_app; [exact A3|]; eapply filled_app; [exact B3|exact C3]).
  assert (Ft : filled (jt (jd, dbs) ++ jt (jc, cbs) ++ flat_map jt (combine js bss)) (zeros to) to to3) by (eapply filled_app; [exact A4|]; eapply filled_app; [exact B4|exact C4]).
  assert (Lz : zlen (zrepeat 0 (zlen to)) = zlen to) by (rewrite zlen_zrepeat; pose proof (zlen_nonneg to); lia).
  assert (Ljs : length js = length (fm_kinds fm)) by (rewrite <- K1, map_length; reflexivity).
  assert (Lb : length js = length bss) by (eapply done_length; exact C2).
  destruct (write_kinds_spec from to js bss C2 (fm_order fm) (zrepeat 0 (zlen to))) as (d1 & W1 & W2); auto.
  { apply Forall_forall. intros n Hn. rewrite Ljs. apply (fo_order _ _ Fo). exact Hn. }
  pose proof (proj1 W2) as LW. destruct A2 as (G1 & _ & G2). destruct B2 as (G3 & _ & G4).
  destruct (write_blocks_spec _ _ _ _ _ G2 _ d1 G1 ltac:(lia)) as (d2 & V1 & V2). pose proof (proj1 V2) as LV.
  destruct (write_blocks_spec _ _ _ _ _ G4 _ d2 G3 ltac:(lia)) as (d3 & U1 & U2). pose proof (proj1 U2) as LU.
  destruct (zero_kinds_spec from to js bss from C2 eq_refl) as (f1 & Z1 & Z2). pose proof (proj1 Z2) as LZ.
  destruct (zero_blocks_spec _ _ _ _ _ G2 _ f1 G1 ltac:(lia)) as (f2 & Y1 & Y2). pose proof (proj1 Y2) as LY.
  destruct (zero_blocks_spec _ _ _ _ _ G4 _ f2 G3 ltac:(lia)) as (f3 & X1 & X2). pose proof (proj1 X2) as LX.
  assert (Fd3 : filled (flat_map (nth_fields js bss) (fm_order fm) ++ jt (jd, dbs) ++ jt (jc, cbs)) to (zeros to) d3) by (eapply filled_app; [exact W2|]; eapply filled_app; [exact V2|exact U2]).
  assert (Ff3 : filled (flat_map jf (combine js bss) ++ jf (jd, dbs) ++ jf (jc, cbs)) (zeros from) from f3) by (eapply filled_app; [exact Z2|]; eapply filled_app; [exact Y2|exact X2]).
  assert (Ef : f3 = from3) by (eapply filled_same; [exact Ff3|exact Ff|]; intros x; rewrite !in_app_iff; tauto). subst f3.
  exists from3, to3, (dflag ++ cflag ++ dh ++ ch ++ flat_map header_bytes bss ++ dd ++ cd ++ flat_map data_bytes bss), d3.
  split; [|split; [|split; [|split]]].
  - unfold encode. fold r. rewrite D1. cbn [pbind ret]. rewrite D2. cbn [pbind ret]. unfold ret in A1, B1, C1.
    change (fst (fm_pointers fm)) with (j_size jd) at 1. change (fd_data sF) with (j_from jd). change (fd_data sT) with (j_to jd). rewrite A1. cbn [pbind].
    change (fst (fm_pointers fm)) with (j_size jc) at 1. change (fd_code sF) with (j_from jc). change (fd_code sT) with (j_to jc). rewrite B1. cbn [pbind].
    rewrite <- K1, <- K2, <- K3, C1. reflexivity.
  - unfold format_readers. rewrite Hfm. unfold create_readers.
    change 3%nat with (length [r_offset_begin r; r_data_begin r; r_data_end r]). rewrite A5. cbn [pbind ret].
    change 2%nat with (length [r_code_begin r; r_code_end r]). rewrite B5. cbn [pbind ret].
    rewrite A6. cbn [pbind ret]. rewrite B6. cbn [pbind ret].
    rewrite <- Ljs, Lb. rewrite kind_headers_enc by (eapply done_ok; exact C2). cbn [pbind ret].
    rewrite A7. cbn [pbind ret]. rewrite B7. cbn [pbind ret].
    pose proof (kind_blocks_enc bss [] (done_ok _ _ _ _ C2)) as KB. rewrite app_nil_r in KB. rewrite KB. cbn [pbind ret].
    pose proof (read_ranges_same sg Hsg) as SR. fold r in SR. pose proof (disassemble_same fm from r (read_ranges r) (fo_steps _ _ Fo) (fo_same _ _ Fo) Hf SR) as DS.
    unfold read_ranges in DS. cbv zeta in DS.
    assert (R : forall rr, disassemble fm from r = disassemble fm from rr -> (dop s := disassemble fm from rr in
      let (psize, ppack) := fm_pointers fm in
      dop fdiff1 := write_kinds (fm_kinds fm) (fd_kinds s) bss (fm_order fm) (zrepeat 0 (zlen to)) in
      dop fdiff2 := write_blocks ppack (fd_data s) dbs fdiff1 in
      dop fdiff3 := write_blocks ppack (fd_code s) cbs fdiff2 in
      dop from1 := zero_kinds (fm_kinds fm) (fd_kinds s) bss from in
      dop from2 := zero_blocks psize (fd_data s) dbs from1 in
      dop from3 := zero_blocks psize (fd_code s) cbs from2 in
      ret (fdiff3, from3)) = ret (d3, from3)).
    { intros rr E. rewrite <- E, D1. cbn [pbind ret]. rewrite <- K1, <- K2.
      unfold jd, jc, j_pack, j_size, j_kind, j_from in V1, U1, Y1, X1. cbn [fst snd] in V1, U1, Y1, X1. destruct (fm_pointers fm) as (psize, ppack). cbn [fst snd] in V1, U1, Y1, X1.
      unfold ret in W1, V1, U1, Z1, Y1, X1. rewrite W1. cbn [pbind].
      rewrite V1. cbn [pbind]. rewrite U1. cbn [pbind]. rewrite Z1. cbn [pbind]. rewrite Y1. cbn [pbind]. rewrite X1. reflexivity. }
    destruct (present (r_data_end r)), (present (r_code_end r)); exact (R _ DS).
  - pose proof (proj1 Ff). pose proof (proj1 Ft). pose proof (proj1 Fd3). rewrite zlen_zeros in *. auto.
  - split; [eapply filled_bytes; [exact Hf|exact Ff]|]. split; [eapply filled_bytes; [exact Ht|exact Ft]|].
    split; [eapply filled_range; [exact Ht|apply zeros_bytes|symmetry; apply zlen_zeros|exact Fd3]|]. split.
    + rewrite !bytes_ok_app in *. assert (bytes_ok (flat_map header_bytes bss)) by (apply flat_bytes; intros; apply encs_bytes).
      assert (bytes_ok (flat_map data_bytes bss)) by (apply flat_bytes; intros; apply encs_bytes). tauto.
    + destruct dflag; [congruence|discriminate].
  - eapply sum_filled; [exact Ht|exact Ft|exact Fd3|]. intros x. rewrite !in_app_iff. rewrite (order_fields js bss (fm_order fm) Lb); [tauto|].
    intros n. rewrite Ljs. apply (fo_order _ _ Fo).
Qed.
