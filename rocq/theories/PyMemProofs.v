(** The Python in-place applier on the segments of a patch, complete or cut off. *)

From Coq Require Import ZArith List Bool Lia ZifyBool ZifyNat ZifyN.
From Verif Require Import Prelude Lib Spec PySize PyCrle PyInPlace PyApply PySpec SizeCodec CrleProofs PyReader PyApplyProofs PySeq PyApplyInPlace.
From Verif Require InPlaceSpec.
Import ListNotations.
Open Scope Z_scope.

Notation blit := InPlaceSpec.blit.

(** ** Writing into a list *)

Lemma mem_write_blit : forall mem p data, 0 <= p -> p + zlen data <= zlen mem -> mem_write mem p data = blit mem p data.
Proof.
  intros mem p data Hp Hl. pose proof (zlen_nonneg data). unfold mem_write, InPlaceSpec.blit. destruct (Z.eqb_spec (zlen data) 0) as [E|E].
  - rewrite E. apply zlen_0_nil in E. subst data. cbn [app]. rewrite Z.add_0_r. symmetry. apply ztake_zdrop.
  - replace (zrepeat 0 (p - zlen mem)) with (@nil Z); [reflexivity|]. unfold zrepeat. replace (Z.to_nat (p - zlen mem)) with O by lia. reflexivity.
Qed.

Lemma zdrop_ztake : forall (l : list Z) a n, 0 <= a -> a <= n -> zdrop a (ztake n l) = ztake (n - a) (zdrop a l).
Proof. intros. rewrite ztake_zdrop_comm by lia. do 2 f_equal. lia. Qed.

Lemma zlen_blit : forall (mem : list Z) a l, 0 <= a -> a + zlen l <= zlen mem -> zlen (blit mem a l) = zlen mem.
Proof. intros mem a l H1 H2. pose proof (zlen_nonneg l). unfold InPlaceSpec.blit. rewrite !zlen_app, zlen_ztake, zlen_zdrop by lia. lia. Qed.

Lemma blit_nil : forall (mem : list Z) a, 0 <= a -> blit mem a [] = mem.
Proof. intros. unfold InPlaceSpec.blit. change (zlen (@nil Z)) with 0. cbn [app]. rewrite Z.add_0_r. apply ztake_zdrop. Qed.

Lemma zdrop_blit : forall (mem : list Z) a l p, 0 <= a -> a + zlen l <= zlen mem -> a + zlen l <= p -> zdrop p (blit mem a l) = zdrop p mem.
Proof.
  intros mem a l p H1 H2 H3. pose proof (zlen_nonneg l). unfold InPlaceSpec.blit. rewrite app_assoc.
  assert (L : zlen (ztake a mem ++ l) = a + zlen l) by (rewrite zlen_app, zlen_ztake by lia; lia).
  rewrite zdrop_app_r by lia. rewrite L, zdrop_zdrop by lia. f_equal. lia.
Qed.

Lemma ztake_blit : forall (mem : list Z) a l p, 0 <= p <= a -> a + zlen l <= zlen mem -> ztake p (blit mem a l) = ztake p mem.
Proof.
  intros mem a l p H1 H2. pose proof (zlen_nonneg l). unfold InPlaceSpec.blit. rewrite ztake_app_l by (rewrite zlen_ztake by lia; lia).
  rewrite ztake_ztake by lia. f_equal. lia.
Qed.

Lemma blit_end : forall (mem : list Z) a l, 0 <= a -> a + zlen l <= zlen mem -> ztake (a + zlen l) (blit mem a l) = ztake a mem ++ l.
Proof.
  intros mem a l H1 H2. pose proof (zlen_nonneg l). unfold InPlaceSpec.blit. rewrite app_assoc. apply ztake_app_exact. rewrite zlen_app, zlen_ztake by lia. lia.
Qed.

Lemma blit_blit : forall (mem : list Z) a x y, 0 <= a -> a + zlen x + zlen y <= zlen mem -> blit (blit mem a x) (a + zlen x) y = blit mem a (x ++ y).
Proof.
  intros mem a x y H1 H2. pose proof (zlen_nonneg x). pose proof (zlen_nonneg y). unfold InPlaceSpec.blit at 1. rewrite blit_end by lia. rewrite zdrop_blit by lia.
  unfold InPlaceSpec.blit. rewrite zlen_app, <- !app_assoc. do 3 f_equal. f_equal. lia.
Qed.

Lemma seek_ok : forall p, 0 <= p -> seek_set p = ret tt.
Proof. intros p H. unfold seek_set. destruct (Z.ltb_spec p 0); [lia|reflexivity]. Qed.

Section Segment.
Context (D : decompressor) (R : dstate D -> list Z -> list Z -> Prop) (HR : contract D R).
Context (fuel : nat) (off : Z) (Hoff : 0 <= off).

Notation wpos s := (off + ps_dfdiff s).

Lemma mem_diff_loop : forall k s x out cut rest, holds R fuel (ps_reader s) out -> out ++ cut = x ++ rest -> (length out < k)%nat ->
  0 <= ps_dfdiff s -> wpos s + zlen x <= ps_from s -> ps_from s + zlen x <= zlen (ps_out s) ->
  outcome_is D R fuel (chunk_loop k fuel (mem_diff_chunk off) (zlen x) s) cut rest
    (fun r1 => mkps r1 (ps_from s + zlen x) (blit (ps_out s) (wpos s) (add_mod x (ztake (zlen x) (zdrop (ps_from s) (ps_out s))))) (ps_dfdiff s + zlen x)).
Proof using HR Hoff.
  induction k; intros s x out cut rest H E Hk H1 H2 H3; [lia|]. cbn [chunk_loop]. pose proof (zlen_nonneg x) as Hx.
  destruct (Z.ltb_spec 0 (zlen x)) as [Hp|Hp].
  2: { assert (x = []) by (apply zlen_0_nil; lia). subst x. change (zlen (@nil Z)) with 0. left. exists out, (ps_reader s). split; [exact E|]. split; [exact H|].
       cbn [add_mod ztake]. rewrite blit_nil, !Z.add_0_r by lia. destruct s; reflexivity. }
  set (n := Z.min (zlen x) 4096) in *. set (x1 := ztake n x) in *. set (x2 := zdrop n x) in *.
  assert (L1 : zlen x1 = n) by (unfold x1; rewrite zlen_ztake by lia; lia). assert (L2 : zlen x2 = zlen x - n) by (unfold x2; rewrite zlen_zdrop by lia; lia).
  assert (Ex : x = x1 ++ x2) by (symmetry; apply ztake_zdrop). rewrite Ex, <- app_assoc in E.
  destruct (pr_read D R HR fuel _ _ _ _ _ H E) as [(out1 & r1 & A1 & A2 & A3 & A4)|(A1 & A2)]; rewrite L1 in *; [|right; rewrite A2; auto].
  rewrite A4. cbn [pbind ret]. unfold mem_diff_chunk at 1. unfold set_reader, seek_set. cbn [ps_from ps_out ps_dfdiff ps_reader].
  destruct (Z.ltb_spec (ps_from s) 0); [lia|]. cbn [pbind ret]. destruct (Z.ltb_spec (wpos s) 0); [lia|]. cbn [pbind ret]. unfold file_read_at.
  set (f1 := ztake n (zdrop (ps_from s) (ps_out s))). assert (Lf : zlen f1 = n) by (unfold f1; rewrite zlen_sub by lia; reflexivity).
  rewrite add_bytes_ok by lia. cbn [pbind ret]. set (y := add_mod x1 f1).
  assert (Ly : zlen y = n) by (unfold y; rewrite zlen_add_mod; lia). rewrite mem_write_blit by lia. rewrite <- L2.
  specialize (IHk (mkps r1 (ps_from s + n) (blit (ps_out s) (wpos s) y) (ps_dfdiff s + n)) x2 out1 cut rest). cbn [ps_from ps_out ps_dfdiff ps_reader] in IHk.
  assert (Lb : zlen (blit (ps_out s) (wpos s) y) = zlen (ps_out s)) by (apply zlen_blit; lia). rewrite Lb in IHk.
  destruct IHk as [(out2 & r2 & B1 & B2 & B3)|(B1 & B2)]; auto; try lia.
  - rewrite A1, app_length in Hk. assert (length x1 = Z.to_nat n) by (unfold zlen in L1; lia). lia.
  - left. exists out2, r2. split; [exact B1|]. split; [exact B2|]. rewrite B3. unfold ret. do 2 f_equal. rewrite L2. f_equal; try lia.
    rewrite zdrop_blit by lia. replace (off + (ps_dfdiff s + n)) with (wpos s + zlen y) by lia. 
    rewrite blit_blit; [|lia|rewrite zlen_add_mod, zlen_sub by lia; lia].
    f_equal. replace (zlen x) with (n + zlen x2) by lia. rewrite sub_app by lia. replace (n + zlen x2 - n) with (zlen x2) by lia. fold f1. transitivity (add_mod (x1 ++ x2) (f1 ++ ztake (zlen x2) (zdrop (ps_from s + n) (ps_out s)))); [|congruence].
    symmetry. apply add_mod_app. apply zlen_len. lia.
  - right. auto.
Qed.

Lemma mem_extra_loop : forall k s x out cut rest, holds R fuel (ps_reader s) out -> out ++ cut = x ++ rest -> (length out < k)%nat ->
  0 <= ps_dfdiff s -> wpos s + zlen x <= zlen (ps_out s) ->
  outcome_is D R fuel (chunk_loop k fuel (mem_extra_chunk off) (zlen x) s) cut rest
    (fun r1 => mkps r1 (ps_from s) (blit (ps_out s) (wpos s) x) (ps_dfdiff s + zlen x)).
Proof using HR Hoff.
  induction k; intros s x out cut rest H E Hk H3 H4; [lia|]. cbn [chunk_loop]. pose proof (zlen_nonneg x) as Hx.
  destruct (Z.ltb_spec 0 (zlen x)) as [Hp|Hp].
  2: { assert (x = []) by (apply zlen_0_nil; lia). subst x. change (zlen (@nil Z)) with 0. left. exists out, (ps_reader s). split; [exact E|]. split; [exact H|].
       rewrite blit_nil, !Z.add_0_r by lia. destruct s; reflexivity. }
  set (n := Z.min (zlen x) 4096) in *. set (x1 := ztake n x) in *. set (x2 := zdrop n x) in *.
  assert (L1 : zlen x1 = n) by (unfold x1; rewrite zlen_ztake by lia; lia). assert (L2 : zlen x2 = zlen x - n) by (unfold x2; rewrite zlen_zdrop by lia; lia).
  assert (Ex : x = x1 ++ x2) by (symmetry; apply ztake_zdrop). rewrite Ex, <- app_assoc in E.
  destruct (pr_read D R HR fuel _ _ _ _ _ H E) as [(out1 & r1 & A1 & A2 & A3 & A4)|(A1 & A2)]; rewrite L1 in *; [|right; rewrite A2; auto].
  rewrite A4. cbn [pbind ret]. unfold mem_extra_chunk at 1. unfold set_reader. cbn [pbind ret ps_from ps_out ps_dfdiff ps_reader].
  rewrite mem_write_blit by lia. rewrite <- L2.
  specialize (IHk (mkps r1 (ps_from s) (blit (ps_out s) (wpos s) x1) (ps_dfdiff s + n)) x2 out1 cut rest). cbn [ps_from ps_out ps_dfdiff ps_reader] in IHk.
  assert (Lb : zlen (blit (ps_out s) (wpos s) x1) = zlen (ps_out s)) by (apply zlen_blit; lia). rewrite Lb in IHk.
  destruct IHk as [(out2 & r2 & B1 & B2 & B3)|(B1 & B2)]; auto; try lia.
  - rewrite A1, app_length in Hk. assert (length x1 = Z.to_nat n) by (unfold zlen in L1; lia). lia.
  - left. exists out2, r2. split; [exact B1|]. split; [exact B2|]. rewrite B3. unfold ret. do 2 f_equal. rewrite L2. f_equal; try lia.
    replace (off + (ps_dfdiff s + n)) with (wpos s + zlen x1) by lia. rewrite blit_blit by lia. congruence.
  - right. auto.
Qed.

(** The records of a segment; their from data is what is in the memory from [base]
    on, above the segment. *)
Lemma segment_loop_spec : forall vis base recs k s out cut rest to pos to_pos to_size, holds R fuel (ps_reader s) out -> out ++ cut = enc_recs recs ++ rest ->
  apply_recs vis pos recs = Some to -> ps_from s = base + pos -> 0 <= pos -> to_pos + recs_size recs = to_size -> (recs = [] \/ last_nonempty recs) ->
  Forall (fun r => rec_size r < 2 ^ 63 /\ - 2 ^ 63 < r_adj r < 2 ^ 63) recs -> (length out < k)%nat ->
  ps_dfdiff s = to_pos -> 0 <= to_pos -> off + to_size <= base -> ztake (zlen vis) (zdrop base (ps_out s)) = vis -> off + to_size <= zlen (ps_out s) ->
  zlen to = recs_size recs ->
  (exists out1 s1, out1 ++ cut = rest /\ holds R fuel (ps_reader s1) out1 /\ ps_out s1 = blit (ps_out s) (off + to_pos) to /\
     segment_loop k fuel off to_pos to_size s = ret s1) \/
  (cut <> [] /\ segment_loop k fuel off to_pos to_size s = raise DetoolsError).
Proof using HR Hoff.
  intros vis base. induction recs as [|r recs IH]; intros k s out cut rest to pos to_pos to_size H E Ha Hf0 Hp Hs Hl Hr Hk Hd Htp Hb Hv Hroom Hto.
  - cbn [enc_recs flat_map app recs_size fold_right] in *. destruct k; [lia|]. cbn [segment_loop]. destruct (Z.ltb_spec to_pos to_size); [lia|].
    left. exists out, s. cbn [apply_recs] in Ha. injection Ha as <-. rewrite blit_nil by lia. auto.
  - destruct Hl as [Hl|Hl]; [discriminate|]. inversion Hr as [|? ? (Q1 & Q2) Hr2]; subst.
    cbn [apply_recs] in Ha. destruct (slice vis pos (zlen (r_diff r))) as [f|] eqn:Es; [|discriminate].
    destruct (Z.ltb_spec (pos + zlen (r_diff r) + r_adj r) 0); [discriminate|].
    destruct (apply_recs vis (pos + zlen (r_diff r) + r_adj r) recs) as [to2|] eqn:Ea; [|discriminate]. injection Ha as <-.
    cbn [recs_size fold_right] in *. fold (recs_size recs) in *. unfold rec_size in *. pose proof (zlen_nonneg (r_diff r)). pose proof (zlen_nonneg (r_extra r)).
    assert (Hrs : 0 <= recs_size recs) by apply recs_size_ge.
    assert (Hpos : 0 < zlen (r_diff r) + zlen (r_extra r) + recs_size recs) by (apply (last_pos (r :: recs)); exact Hl).
    set (to_pos := ps_dfdiff s) in *. pose proof (zlen_nonneg vis).
    assert (Hvl : vis <> [] -> base + zlen vis <= zlen (ps_out s)).
    { intros N. apply (f_equal zlen) in Hv. rewrite zlen_ztake, zlen_zdrop in Hv by lia. assert (0 < zlen vis) by (destruct vis; [congruence|]; rewrite zlen_cons; pose proof (zlen_nonneg vis); lia). lia. }
    destruct k; [lia|]. cbn [segment_loop]. destruct (Z.ltb_spec to_pos (to_pos + (zlen (r_diff r) + zlen (r_extra r) + recs_size recs))); [|lia].
    set (T := to_pos + (zlen (r_diff r) + zlen (r_extra r) + recs_size recs)) in *.
    cbn [enc_recs flat_map] in E. fold (enc_recs recs) in E. unfold enc_rec in E. rewrite <- !app_assoc in E.
    assert (Hslice : f = ztake (zlen (r_diff r)) (zdrop (ps_from s) (ps_out s)) /\ zlen f = zlen (r_diff r) /\ (r_diff r <> [] -> ps_from s + zlen (r_diff r) <= zlen (ps_out s))).
    { unfold slice in Es. destruct (Z.eqb_spec (zlen (r_diff r)) 0) as [Z0|Z0].
      - injection Es as <-. rewrite Z0, ztake_0. split; [reflexivity|]. split; [reflexivity|]. intros N. apply zlen_0_nil in Z0. congruence.
      - destruct (Z.leb_spec 0 pos); cbn [andb] in Es; [|discriminate]. destruct (Z.leb_spec (pos + zlen (r_diff r)) (zlen vis)); [|discriminate].
        injection Es as <-. assert (vis <> []) by (intros ->; change (zlen (@nil Z)) with 0 in *; lia). specialize (Hvl ltac:(assumption)). split; [|split; [apply zlen_sub; lia|lia]].
        rewrite Hf0. rewrite <- Hv at 1. rewrite zdrop_ztake by lia. rewrite zdrop_zdrop by lia. rewrite ztake_ztake by lia. f_equal; [lia|]. f_equal. lia. }
    destruct Hslice as (Hf & Lf & Hin).
    set (y := add_mod (r_diff r) f) in *. assert (Ly : zlen y = zlen (r_diff r)) by (unfold y; rewrite zlen_add_mod; lia).
    (* diff *)
    assert (I1 : outcome_is D R fuel (iter_chunks fuel (mem_diff_chunk off) to_pos T s) cut (enc_size (zlen (r_extra r)) ++ r_extra r ++ enc_size (r_adj r) ++ enc_recs recs ++ rest)
      (fun r1 => (to_pos + zlen (r_diff r), mkps r1 (ps_from s + zlen (r_diff r)) (blit (ps_out s) (off + to_pos) y) (to_pos + zlen (r_diff r))))).
    { apply iter_spec with (out := out) (good := fun r1 => mkps r1 (ps_from s + zlen (r_diff r)) (blit (ps_out s) (off + to_pos) y) (to_pos + zlen (r_diff r))); auto; try lia.
      intros r1 out1 G1 G2. unfold y. rewrite Hf. destruct (r_diff r) as [|d dl] eqn:Ed.
      - change (zlen (@nil Z)) with 0. unfold outcome_is. left. exists out1, r1. split; [exact G2|]. split; [exact G1|].
        cbn [add_mod]. rewrite blit_nil, !Z.add_0_r by lia. destruct fuel as [|fu] eqn:Ef; reflexivity.
      - apply (mem_diff_loop fuel (set_reader s r1) (d :: dl) out1); auto.
        + destruct G1 as (_ & G1). lia.
        + cbn [set_reader ps_from ps_dfdiff]. fold to_pos. unfold T in *. lia.
        + cbn [set_reader ps_from ps_dfdiff ps_out]. apply Hin. discriminate. }
    destruct I1 as [(out1 & r1 & A1 & A2 & A3)|(A1 & A2)]; [|right; rewrite A2; auto]. rewrite A3. cbn [pbind ret].
    rewrite seek_ok by lia. cbn [pbind ret].
    (* extra *)
    assert (Lb : zlen (blit (ps_out s) (off + to_pos) y) = zlen (ps_out s)) by (apply zlen_blit; unfold T in *; lia).
    set (s1 := mkps r1 (ps_from s + zlen (r_diff r)) (blit (ps_out s) (off + to_pos) y) (to_pos + zlen (r_diff r))) in *.
    assert (I2 : outcome_is D R fuel (iter_chunks fuel (mem_extra_chunk off) (to_pos + zlen (r_diff r)) T s1) cut (enc_size (r_adj r) ++ enc_recs recs ++ rest)
      (fun r2 => (to_pos + zlen (r_diff r) + zlen (r_extra r), mkps r2 (ps_from s1) (blit (ps_out s1) (off + ps_dfdiff s1) (r_extra r)) (ps_dfdiff s1 + zlen (r_extra r))))).
    { apply iter_spec with (out := out1) (good := fun r2 => mkps r2 (ps_from s1) (blit (ps_out s1) (off + ps_dfdiff s1) (r_extra r)) (ps_dfdiff s1 + zlen (r_extra r))); auto; try (unfold T; lia).
      intros r2 out2 G1 G2. apply (mem_extra_loop fuel (set_reader s1 r2) (r_extra r) out2); auto; cbn [set_reader s1 ps_dfdiff ps_out]; try (unfold T in *; lia). destruct G1 as (_ & G1). lia. }
    destruct I2 as [(out2 & r2 & B1 & B2 & B3)|(B1 & B2)]; [|right; rewrite B2; auto]. rewrite B3. cbn [pbind ret ps_reader ps_from ps_out ps_dfdiff].
    (* adjustment *)
    destruct (pr_size_spec D R HR fuel (r_adj r) _ _ _ _ B2 B1 Q2) as [(out3 & r3 & C1 & C2 & C3 & C4)|(C1 & C2)]; [|right; rewrite C2; auto].
    rewrite C4. cbn [pbind ret s1 ps_from ps_out ps_dfdiff].
    assert (Lto : zlen to2 = recs_size recs).
    { rewrite !zlen_app in Hto. lia. }
    replace (off + (to_pos + zlen (r_diff r))) with (off + to_pos + zlen y) by lia. rewrite blit_blit by (unfold T in *; lia).
    set (s3 := mkps r3 (ps_from s + zlen (r_diff r) + r_adj r) (blit (ps_out s) (off + to_pos) (y ++ r_extra r)) (to_pos + zlen (r_diff r) + zlen (r_extra r))).
    assert (Lb2 : zlen (blit (ps_out s) (off + to_pos) (y ++ r_extra r)) = zlen (ps_out s)) by (apply zlen_blit; rewrite ?zlen_app; unfold T in *; lia).
    destruct (IH k s3 out3 cut rest to2 (pos + zlen (r_diff r) + r_adj r) (to_pos + zlen (r_diff r) + zlen (r_extra r)) T) as [(out4 & s4 & D1 & D2 & D3 & D4)|(D1 & D2)];
      unfold s3; cbn [ps_reader ps_from ps_out ps_dfdiff]; auto; try (unfold T in *; lia).
    + destruct recs; [auto|]. right. destruct Hl as (rs & l & E1 & E2). destruct rs as [|r0 rs]; [discriminate|]. injection E1 as -> ->. exists rs, l. auto.
    + assert (length out3 < length out)%nat; [|lia].
      apply (f_equal (@length Z)) in E, A1, B1, C2. rewrite !app_length in *.
      assert (0 < length (enc_size (zlen (r_diff r))))%nat by (unfold enc_size; destruct (Z.abs (zlen (r_diff r)) <? 64); cbn [length]; lia). lia.
    + rewrite zdrop_blit by (rewrite ?zlen_app; unfold T in *; lia). exact Hv.
    + left. exists out4, s4. split; [exact D1|]. split; [exact D2|]. split; [|exact D4]. rewrite D3. unfold s3. cbn [ps_out].
      replace (off + (to_pos + zlen (r_diff r) + zlen (r_extra r))) with (off + to_pos + zlen (y ++ r_extra r)) by (rewrite zlen_app; lia).
      rewrite blit_blit by (rewrite ?zlen_app; unfold T in *; lia). rewrite <- app_assoc. reflexivity.
Qed.

Lemma apply_segment_spec : forall vis base recs mem r out cut rest to, holds R fuel r out -> out ++ cut = enc_body recs ++ rest ->
  apply_recs vis 0 recs = Some to -> last_nonempty recs -> recs_fit recs ->
  off + recs_size recs <= base -> ztake (zlen vis) (zdrop base mem) = vis -> off + recs_size recs <= zlen mem ->
  (exists out1 r1, out1 ++ cut = rest /\ holds R fuel r1 out1 /\ apply_segment fuel mem r off (recs_size recs) base = ret (blit mem off to, r1)) \/
  (cut <> [] /\ apply_segment fuel mem r off (recs_size recs) base = raise DetoolsError).
Proof using HR Hoff.
  intros vis base recs mem r out cut rest to H E Ha Hl (Hz & Hadj) Hb Hv Hroom. unfold apply_segment. unfold enc_body in E. rewrite <- app_assoc in E.
  destruct (pr_size_spec D R HR fuel 0 _ _ _ _ H E) as [(out1 & r1 & A1 & A2 & A3 & A4)|(A1 & A2)]; [change (2 ^ 63) with 9223372036854775808; lia| |right; rewrite A2; auto].
  rewrite A4. cbn [pbind ret]. change (0 <? 0) with false. cbn iota.
  assert (Hf1 : (length out1 < fuel)%nat) by (destruct A3; lia).
  destruct (segment_loop_spec vis base recs fuel (mkps r1 base mem 0) out1 cut rest to 0 0 (recs_size recs)) as [(out2 & s1 & B1 & B2 & B3 & B4)|(B1 & B2)]; cbn [ps_reader ps_from ps_out ps_dfdiff]; auto; try lia.
  - pose proof (rec_le recs) as L. rewrite Forall_forall in *. intros x Hx. specialize (L x Hx). specialize (Hadj x Hx). lia.
  - apply (apply_size _ _ _ _ Ha).
  - left. exists out2, (ps_reader s1). split; [exact B1|]. split; [exact B2|]. rewrite B4. cbn [pbind ret]. rewrite B3. cbn [ps_out]. rewrite Z.add_0_r. reflexivity.
  - right. rewrite B2. auto.
Qed.
End Segment.
