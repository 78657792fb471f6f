(** The Python applier on the records of a patch, complete or cut off. *)

From Coq Require Import ZArith List Bool Lia ZifyBool ZifyNat ZifyN.
From Verif Require Import Prelude Lib Spec PySize PyCrle PyApply PySpec SizeCodec CrleProofs PyReader.
Import ListNotations.
Open Scope Z_scope.

Lemma sum_add : forall a b, sum_bytes a b = add_mod a b.
Proof. induction a; intros [|y b]; cbn [sum_bytes add_mod]; auto. rewrite land_255, IHa. reflexivity. Qed.

Lemma zlen_add_mod : forall a b, zlen (add_mod a b) = Z.min (zlen a) (zlen b).
Proof.
  induction a; intros [|y b]; cbn [add_mod]; rewrite ?zlen_cons; change (zlen (@nil Z)) with 0.
  - reflexivity.
  - pose proof (zlen_nonneg b). lia.
  - pose proof (zlen_nonneg a0). lia.
  - rewrite IHa. lia.
Qed.

Lemma add_mod_app : forall a a2 b b2, length a = length b -> add_mod (a ++ a2) (b ++ b2) = add_mod a b ++ add_mod a2 b2.
Proof. induction a; intros a2 [|y b] b2 E; cbn [length app add_mod] in *; try lia; auto. rewrite IHa by lia. reflexivity. Qed.

Lemma add_bytes_ok : forall a b, zlen a = zlen b -> add_bytes a b = ret (add_mod a b).
Proof. intros a b E. unfold add_bytes. rewrite E, Z.eqb_refl, sum_add. reflexivity. Qed.

(** The data of a data format added to [data] at position [p]. *)
Definition with_df (dfd : option (list Z)) (p : Z) (data : list Z) : list Z :=
  match dfd with
  | None => data
  | Some c => add_mod data (ztake (zlen data) (zdrop p c))
  end.
Definition df_room (dfd : option (list Z)) (p : Z) : Prop :=
  match dfd with None => True | Some c => 0 <= p <= zlen c end.

Lemma zlen_sub : forall (l : list Z) p n, 0 <= p -> 0 <= n -> p + n <= zlen l -> zlen (ztake n (zdrop p l)) = n.
Proof. intros. rewrite zlen_ztake, zlen_zdrop by lia. lia. Qed.

Lemma zlen_len : forall {A} (a b : list A), zlen a = zlen b -> length a = length b.
Proof. unfold zlen. lia. Qed.

Lemma sub_app : forall (l : list Z) p a b, 0 <= p -> 0 <= a -> 0 <= b -> ztake (a + b) (zdrop p l) = ztake a (zdrop p l) ++ ztake b (zdrop (p + a) l).
Proof. intros. rewrite ztake_add by lia. rewrite zdrop_zdrop by lia. do 3 f_equal. lia. Qed.

Lemma with_df_app : forall dfd p a b, df_room dfd p -> df_room dfd (p + zlen a + zlen b) ->
  with_df dfd p (a ++ b) = with_df dfd p a ++ with_df dfd (p + zlen a) b.
Proof.
  intros [c|] p a b H1 H2; cbn [with_df df_room] in *; [|reflexivity]. pose proof (zlen_nonneg a). pose proof (zlen_nonneg b).
  rewrite zlen_app, sub_app by lia. rewrite add_mod_app; [reflexivity|]. apply zlen_len. rewrite zlen_sub by lia. reflexivity.
Qed.

Lemma with_df_nil : forall dfd p, with_df dfd p [] = [].
Proof. intros [c|] p; reflexivity. Qed.

Lemma df_room_le : forall dfd p q, df_room dfd q -> 0 <= p <= q -> df_room dfd p.
Proof. intros [c|] p q; cbn [df_room]; auto. lia. Qed.

Lemma add_dfdiff_ok : forall dfd p data, df_room dfd p -> df_room dfd (p + zlen data) ->
  add_dfdiff dfd p (zlen data) data = ret (with_df dfd p data).
Proof.
  intros [c|] p data H1 H2; cbn [add_dfdiff with_df df_room] in *; [|reflexivity]. pose proof (zlen_nonneg data).
  unfold file_read_at. apply add_bytes_ok. rewrite zlen_sub by lia. reflexivity.
Qed.

Lemma zlen_with_df : forall dfd p data, df_room dfd p -> df_room dfd (p + zlen data) -> zlen (with_df dfd p data) = zlen data.
Proof.
  intros [c|] p data H1 H2; cbn [with_df df_room] in *; [|reflexivity]. pose proof (zlen_nonneg data).
  rewrite zlen_add_mod, zlen_sub by lia. lia.
Qed.

Lemma recs_size_cons : forall r rs, recs_size (r :: rs) = zlen (r_diff r) + zlen (r_extra r) + recs_size rs.
Proof. reflexivity. Qed.

Lemma recs_size_ge : forall recs, 0 <= recs_size recs.
Proof. induction recs; [cbn; lia|]. rewrite recs_size_cons. pose proof (zlen_nonneg (r_diff a)). pose proof (zlen_nonneg (r_extra a)). lia. Qed.

Lemma last_pos : forall recs, last_nonempty recs -> 0 < recs_size recs.
Proof.
  intros recs (rs & l & -> & E). unfold rec_size in E. induction rs; cbn [app]; rewrite recs_size_cons.
  - cbn. lia.
  - pose proof (zlen_nonneg (r_diff a)). pose proof (zlen_nonneg (r_extra a)). lia.
Qed.

Section Apply.
Context (D : decompressor) (R : dstate D -> list Z -> list Z -> Prop) (HR : contract D R).
Context (fuel : nat) (from : list Z) (dfd : option (list Z)).

(** A step that ends in the state described by [good], or raises because [cut]
    bytes are missing. *)
Definition outcome_is {A} (m : pyo A) (cut rest : list Z) (good : preader D -> A) : Prop :=
  (exists out1 r1, out1 ++ cut = rest /\ holds R fuel r1 out1 /\ m = ret (good r1)) \/ (cut <> [] /\ m = raise DetoolsError).

Lemma diff_loop : forall k s x out cut rest, holds R fuel (ps_reader s) out -> out ++ cut = x ++ rest -> (length out < k)%nat ->
  0 <= ps_from s -> ps_from s + zlen x <= zlen from -> df_room dfd (ps_dfdiff s) -> df_room dfd (ps_dfdiff s + zlen x) ->
  outcome_is (chunk_loop k fuel (diff_chunk from dfd) (zlen x) s) cut rest
    (fun r1 => mkps r1 (ps_from s + zlen x) (ps_out s ++ with_df dfd (ps_dfdiff s) (add_mod x (ztake (zlen x) (zdrop (ps_from s) from)))) (ps_dfdiff s + zlen x)).
Proof using HR.
  induction k; intros s x out cut rest H E Hk H1 H2 H3 H4; [lia|]. cbn [chunk_loop]. pose proof (zlen_nonneg x) as Hx.
  destruct (Z.ltb_spec 0 (zlen x)) as [Hp|Hp].
  2: { assert (x = []) by (apply zlen_0_nil; lia). subst x. change (zlen (@nil Z)) with 0. left. exists out, (ps_reader s). split; [exact E|]. split; [exact H|].
       cbn [add_mod ztake]. rewrite with_df_nil, app_nil_r, !Z.add_0_r. destruct s; reflexivity. }
  set (n := Z.min (zlen x) 4096) in *. set (x1 := ztake n x) in *. set (x2 := zdrop n x) in *.
  assert (L1 : zlen x1 = n) by (unfold x1; rewrite zlen_ztake by lia; lia). assert (L2 : zlen x2 = zlen x - n) by (unfold x2; rewrite zlen_zdrop by lia; lia).
  assert (Ex : x = x1 ++ x2) by (symmetry; apply ztake_zdrop). rewrite Ex, <- app_assoc in E.
  destruct (pr_read D R HR fuel _ _ _ _ _ H E) as [(out1 & r1 & A1 & A2 & A3 & A4)|(A1 & A2)]; rewrite L1 in *; [|right; rewrite A2; auto].
  rewrite A4. cbn [pbind ret]. unfold diff_chunk at 1. unfold set_reader. cbn [ps_from ps_out ps_dfdiff ps_reader]. unfold file_read_at at 1 2.
  assert (Lf : zlen (ztake n (zdrop (ps_from s) from)) = n) by (rewrite zlen_sub by lia; reflexivity). rewrite Lf.
  rewrite add_bytes_ok by lia. cbn [pbind ret]. set (y := add_mod x1 (ztake n (zdrop (ps_from s) from))).
  assert (Ly : zlen y = n) by (unfold y; rewrite zlen_add_mod; lia).
  assert (R1 : df_room dfd (ps_dfdiff s + n)) by (destruct dfd; cbn [df_room] in *; lia).
  rewrite <- Ly at 1. rewrite add_dfdiff_ok by (rewrite ?Ly; auto). cbn [pbind ret].
  rewrite <- L2.
  specialize (IHk (mkps r1 (ps_from s + n) (ps_out s ++ with_df dfd (ps_dfdiff s) y) (ps_dfdiff s + n)) x2 out1 cut rest). cbn [ps_from ps_out ps_dfdiff ps_reader] in IHk.
  destruct IHk as [(out2 & r2 & B1 & B2 & B3)|(B1 & B2)]; auto; try lia.
  - rewrite A1, app_length in Hk. assert (length x1 = Z.to_nat n) by (unfold zlen in L1; lia). lia.
  - replace (ps_dfdiff s + n + zlen x2) with (ps_dfdiff s + zlen x) by lia. exact H4.
  - left. exists out2, r2. split; [exact B1|]. split; [exact B2|]. rewrite B3. unfold ret. do 2 f_equal. rewrite L2. f_equal; try lia.
    assert (Ey : add_mod x (ztake (zlen x) (zdrop (ps_from s) from)) = y ++ add_mod x2 (ztake (zlen x2) (zdrop (ps_from s + n) from))).
    { replace (zlen x) with (n + zlen x2) by lia. rewrite sub_app by lia. transitivity (add_mod (x1 ++ x2) (ztake n (zdrop (ps_from s) from) ++ ztake (zlen x2) (zdrop (ps_from s + n) from))); [congruence|].
      apply add_mod_app. apply zlen_len. lia. }
    rewrite <- app_assoc. f_equal. rewrite Ey. rewrite with_df_app.
    + rewrite Ly, <- L2. reflexivity.
    + exact H3.
    + rewrite Ly, zlen_add_mod, zlen_sub by lia. replace (ps_dfdiff s + n + Z.min (zlen x2) (zlen x2)) with (ps_dfdiff s + zlen x) by lia. exact H4.
  - right. auto.
Qed.

Lemma extra_loop : forall k s x out cut rest, holds R fuel (ps_reader s) out -> out ++ cut = x ++ rest -> (length out < k)%nat ->
  df_room dfd (ps_dfdiff s) -> df_room dfd (ps_dfdiff s + zlen x) ->
  outcome_is (chunk_loop k fuel (extra_chunk dfd) (zlen x) s) cut rest
    (fun r1 => mkps r1 (ps_from s) (ps_out s ++ with_df dfd (ps_dfdiff s) x) (ps_dfdiff s + zlen x)).
Proof using HR.
  induction k; intros s x out cut rest H E Hk H3 H4; [lia|]. cbn [chunk_loop]. pose proof (zlen_nonneg x) as Hx.
  destruct (Z.ltb_spec 0 (zlen x)) as [Hp|Hp].
  2: { assert (x = []) by (apply zlen_0_nil; lia). subst x. change (zlen (@nil Z)) with 0. left. exists out, (ps_reader s). split; [exact E|]. split; [exact H|].
       rewrite with_df_nil, app_nil_r, !Z.add_0_r. destruct s; reflexivity. }
  set (n := Z.min (zlen x) 4096) in *. set (x1 := ztake n x) in *. set (x2 := zdrop n x) in *.
  assert (L1 : zlen x1 = n) by (unfold x1; rewrite zlen_ztake by lia; lia). assert (L2 : zlen x2 = zlen x - n) by (unfold x2; rewrite zlen_zdrop by lia; lia).
  assert (Ex : x = x1 ++ x2) by (symmetry; apply ztake_zdrop). rewrite Ex, <- app_assoc in E.
  destruct (pr_read D R HR fuel _ _ _ _ _ H E) as [(out1 & r1 & A1 & A2 & A3 & A4)|(A1 & A2)]; rewrite L1 in *; [|right; rewrite A2; auto].
  rewrite A4. cbn [pbind ret]. unfold extra_chunk at 1. unfold set_reader. cbn [ps_from ps_out ps_dfdiff ps_reader].
  assert (R1 : df_room dfd (ps_dfdiff s + n)) by (destruct dfd; cbn [df_room] in *; lia).
  rewrite <- L1 at 1. rewrite add_dfdiff_ok by (rewrite ?L1; auto). cbn [pbind ret].
  rewrite <- L2.
  specialize (IHk (mkps r1 (ps_from s) (ps_out s ++ with_df dfd (ps_dfdiff s) x1) (ps_dfdiff s + n)) x2 out1 cut rest). cbn [ps_from ps_out ps_dfdiff ps_reader] in IHk.
  destruct IHk as [(out2 & r2 & B1 & B2 & B3)|(B1 & B2)]; auto; try lia.
  - rewrite A1, app_length in Hk. assert (length x1 = Z.to_nat n) by (unfold zlen in L1; lia). lia.
  - replace (ps_dfdiff s + n + zlen x2) with (ps_dfdiff s + zlen x) by lia. exact H4.
  - left. exists out2, r2. split; [exact B1|]. split; [exact B2|]. rewrite B3. unfold ret. do 2 f_equal. rewrite L2. f_equal; try lia.
    rewrite <- app_assoc. f_equal. transitivity (with_df dfd (ps_dfdiff s) (x1 ++ x2)); [|congruence]. rewrite with_df_app.
    + rewrite L1. reflexivity.
    + exact H3.
    + rewrite L1. replace (ps_dfdiff s + n + zlen x2) with (ps_dfdiff s + zlen x) by lia. exact H4.
  - right. auto.
Qed.

Lemma iter_spec : forall body s x out cut rest to_pos to_size good, holds R fuel (ps_reader s) out -> out ++ cut = enc_size (zlen x) ++ x ++ rest ->
  zlen x < 2 ^ 63 -> to_pos + zlen x <= to_size ->
  (forall r1 out1, holds R fuel r1 out1 -> out1 ++ cut = x ++ rest -> outcome_is (chunk_loop fuel fuel body (zlen x) (set_reader s r1)) cut rest good) ->
  outcome_is (iter_chunks fuel body to_pos to_size s) cut rest (fun r1 => (to_pos + zlen x, good r1)).
Proof using HR.
  intros body s x out cut rest to_pos to_size good H E Hx Hs Hb. unfold iter_chunks. pose proof (zlen_nonneg x) as Hx0.
  destruct (pr_size_spec D R HR fuel (zlen x) _ _ _ _ H E) as [(out1 & r1 & A1 & A2 & A3 & A4)|(A1 & A2)]; [lia| |right; rewrite A2; auto].
  rewrite A4. cbn [pbind ret]. destruct (Z.ltb_spec to_size (to_pos + zlen x)); [lia|].
  destruct (Hb r1 out1 A3 A2) as [(out2 & r2 & B1 & B2 & B3)|(B1 & B2)]; [|right; rewrite B2; auto].
  rewrite B3. cbn [pbind ret]. left. exists out2, r2. split; [exact B1|]. split; [exact B2|]. replace (Z.max (zlen x) 0) with (zlen x) by lia. reflexivity.
Qed.

(** The whole loop on the records of a patch. *)
Lemma loop_spec : forall clamps recs k s out cut rest to to_pos to_size, holds R fuel (ps_reader s) out -> out ++ cut = enc_recs recs ++ rest ->
  apply_recs from (ps_from s) recs = Some to -> to_pos + recs_size recs = to_size -> (recs = [] \/ last_nonempty recs) ->
  Forall (fun r => rec_size r < 2 ^ 63 /\ - 2 ^ 63 < r_adj r < 2 ^ 63) recs -> (length out < k)%nat -> 0 <= ps_from s ->
  df_room dfd (ps_dfdiff s) -> df_room dfd (ps_dfdiff s + recs_size recs) -> zlen to = recs_size recs ->
  (exists out1 s1, out1 ++ cut = rest /\ holds R fuel (ps_reader s1) out1 /\ ps_out s1 = ps_out s ++ with_df dfd (ps_dfdiff s) to /\
     apply_loop k fuel clamps from dfd to_pos to_size s = ret s1) \/
  (cut <> [] /\ apply_loop k fuel clamps from dfd to_pos to_size s = raise DetoolsError).
Proof using HR.
  intros clamps. induction recs as [|r recs IH]; intros k s out cut rest to to_pos to_size H E Ha Hs Hl Hr Hk Hp H3 H4 Hto.
  - cbn [enc_recs flat_map app recs_size fold_right] in *. destruct k; [lia|]. cbn [apply_loop]. destruct (Z.ltb_spec to_pos to_size); [lia|].
    left. exists out, s. cbn [apply_recs] in Ha. injection Ha as <-. rewrite with_df_nil, app_nil_r. auto.
  - destruct Hl as [Hl|Hl]; [discriminate|]. inversion Hr as [|? ? (Q1 & Q2) Hr2]; subst.
    cbn [apply_recs] in Ha. destruct (slice from (ps_from s) (zlen (r_diff r))) as [f|] eqn:Es; [|discriminate].
    destruct (Z.ltb_spec (ps_from s + zlen (r_diff r) + r_adj r) 0); [discriminate|].
    destruct (apply_recs from (ps_from s + zlen (r_diff r) + r_adj r) recs) as [to2|] eqn:Ea; [|discriminate]. injection Ha as <-.
    cbn [recs_size fold_right] in *. fold (recs_size recs) in *. unfold rec_size in *. pose proof (zlen_nonneg (r_diff r)). pose proof (zlen_nonneg (r_extra r)).
    assert (Hrs : 0 <= recs_size recs) by apply recs_size_ge.
    assert (Hpos : 0 < zlen (r_diff r) + zlen (r_extra r) + recs_size recs) by (apply (last_pos (r :: recs)); exact Hl).
    destruct k; [lia|]. cbn [apply_loop]. destruct (Z.ltb_spec to_pos (to_pos + (zlen (r_diff r) + zlen (r_extra r) + recs_size recs))); [|lia].
    set (T := to_pos + (zlen (r_diff r) + zlen (r_extra r) + recs_size recs)) in *.
    cbn [enc_recs flat_map] in E. fold (enc_recs recs) in E. unfold enc_rec in E. rewrite <- !app_assoc in E.
    assert (Hslice : f = ztake (zlen (r_diff r)) (zdrop (ps_from s) from) /\ (r_diff r <> [] -> ps_from s + zlen (r_diff r) <= zlen from)).
    { unfold slice in Es. destruct (Z.eqb_spec (zlen (r_diff r)) 0) as [Z0|Z0].
      - injection Es as <-. rewrite Z0, ztake_0. split; [reflexivity|]. intros N. apply zlen_0_nil in Z0. congruence.
      - destruct (Z.leb_spec 0 (ps_from s)); cbn [andb] in Es; [|discriminate]. destruct (Z.leb_spec (ps_from s + zlen (r_diff r)) (zlen from)); [|discriminate].
        injection Es as <-. auto. }
    destruct Hslice as (-> & Hin). set (f := ztake (zlen (r_diff r)) (zdrop (ps_from s) from)) in *.
    assert (Lf : zlen f = zlen (r_diff r)).
    { destruct (r_diff r) as [|d dl] eqn:Ed; [reflexivity|]. unfold f. apply zlen_sub; [lia|lia|]. apply Hin. discriminate. }
    assert (Room1 : df_room dfd (ps_dfdiff s + zlen (r_diff r))) by (destruct dfd; cbn [df_room] in *; lia).
    assert (Room2 : df_room dfd (ps_dfdiff s + zlen (r_diff r) + zlen (r_extra r))) by (destruct dfd; cbn [df_room] in *; lia).
    (* diff *)
    assert (I1 : outcome_is (iter_chunks fuel (diff_chunk from dfd) to_pos T s) cut (enc_size (zlen (r_extra r)) ++ r_extra r ++ enc_size (r_adj r) ++ enc_recs recs ++ rest)
      (fun r1 => (to_pos + zlen (r_diff r), mkps r1 (ps_from s + zlen (r_diff r)) (ps_out s ++ with_df dfd (ps_dfdiff s) (add_mod (r_diff r) f)) (ps_dfdiff s + zlen (r_diff r))))).
    { apply iter_spec with (out := out) (good := fun r1 => mkps r1 (ps_from s + zlen (r_diff r)) (ps_out s ++ with_df dfd (ps_dfdiff s) (add_mod (r_diff r) f)) (ps_dfdiff s + zlen (r_diff r))); auto; try lia.
      intros r1 out1 G1 G2. destruct (r_diff r) as [|d dl] eqn:Ed.
      - change (zlen (@nil Z)) with 0. unfold outcome_is. left. exists out1, r1. split; [exact G2|]. split; [exact G1|].
        cbn [add_mod]. rewrite with_df_nil, app_nil_r, !Z.add_0_r. destruct fuel as [|fu] eqn:Ef; reflexivity.
      - apply (diff_loop fuel (set_reader s r1) (d :: dl) out1); auto.
        + destruct G1 as (_ & G1). lia.
        + cbn [set_reader ps_from]. apply Hin. discriminate. }
    destruct I1 as [(out1 & r1 & A1 & A2 & A3)|(A1 & A2)]; [|right; rewrite A2; auto]. rewrite A3. cbn [pbind ret].
    (* extra *)
    set (s1 := mkps r1 (ps_from s + zlen (r_diff r)) (ps_out s ++ with_df dfd (ps_dfdiff s) (add_mod (r_diff r) f)) (ps_dfdiff s + zlen (r_diff r))) in *.
    assert (I2 : outcome_is (iter_chunks fuel (extra_chunk dfd) (to_pos + zlen (r_diff r)) T s1) cut (enc_size (r_adj r) ++ enc_recs recs ++ rest)
      (fun r2 => (to_pos + zlen (r_diff r) + zlen (r_extra r), mkps r2 (ps_from s1) (ps_out s1 ++ with_df dfd (ps_dfdiff s1) (r_extra r)) (ps_dfdiff s1 + zlen (r_extra r))))).
    { apply iter_spec with (out := out1) (good := fun r2 => mkps r2 (ps_from s1) (ps_out s1 ++ with_df dfd (ps_dfdiff s1) (r_extra r)) (ps_dfdiff s1 + zlen (r_extra r))); auto; try lia.
      intros r2 out2 G1 G2. apply (extra_loop fuel (set_reader s1 r2) (r_extra r) out2); auto. destruct G1 as (_ & G1). lia. }
    destruct I2 as [(out2 & r2 & B1 & B2 & B3)|(B1 & B2)]; [|right; rewrite B2; auto]. rewrite B3. cbn [pbind ret ps_reader ps_from ps_out ps_dfdiff].
    (* adjustment *)
    destruct (pr_size_spec D R HR fuel (r_adj r) _ _ _ _ B2 B1 Q2) as [(out3 & r3 & C1 & C2 & C3 & C4)|(C1 & C2)]; [|right; rewrite C2; auto].
    rewrite C4. cbn [pbind ret s1 ps_from ps_out ps_dfdiff]. unfold seek_cur. destruct (Z.ltb_spec (ps_from s + zlen (r_diff r) + r_adj r) 0); [lia|]. cbn [pbind ret].
    assert (Lto : zlen to2 = recs_size recs).
    { rewrite !zlen_app, zlen_add_mod, Lf in Hto. lia. }
    set (s3 := mkps r3 (ps_from s + zlen (r_diff r) + r_adj r) ((ps_out s ++ with_df dfd (ps_dfdiff s) (add_mod (r_diff r) f)) ++ with_df dfd (ps_dfdiff s + zlen (r_diff r)) (r_extra r))
                 (ps_dfdiff s + zlen (r_diff r) + zlen (r_extra r))).
    destruct (IH k s3 out3 cut rest to2 (to_pos + zlen (r_diff r) + zlen (r_extra r)) T) as [(out4 & s4 & D1 & D2 & D3 & D4)|(D1 & D2)]; auto; try (unfold T; lia).
    + destruct recs; [auto|]. right. destruct Hl as (rs & l & E1 & E2). destruct rs as [|r0 rs]; [discriminate|]. injection E1 as -> ->. exists rs, l. auto.
    + assert (length out3 < length out)%nat; [|lia].
      destruct A2 as (_ & _). apply (f_equal (@length Z)) in E, A1, B1, C2. rewrite !app_length in *. 
      assert (0 < length (enc_size (zlen (r_diff r))))%nat by (unfold enc_size; destruct (Z.abs (zlen (r_diff r)) <? 64); cbn [length]; lia). lia.
    + unfold s3. cbn [ps_dfdiff]. replace (ps_dfdiff s + zlen (r_diff r) + zlen (r_extra r) + recs_size recs) with (ps_dfdiff s + (zlen (r_diff r) + zlen (r_extra r) + recs_size recs)) by lia. exact H4.
    + left. exists out4, s4. split; [exact D1|]. split; [exact D2|]. split; [|exact D4]. rewrite D3. unfold s3. cbn [ps_out ps_dfdiff]. rewrite <- !app_assoc. f_equal.
      assert (Lx : zlen (add_mod (r_diff r) f) = zlen (r_diff r)) by (rewrite zlen_add_mod; lia).
      rewrite with_df_app; [|exact H3|]. 2: { rewrite zlen_app, Lto, Lx. replace (ps_dfdiff s + zlen (r_diff r) + (zlen (r_extra r) + recs_size recs)) with (ps_dfdiff s + (zlen (r_diff r) + zlen (r_extra r) + recs_size recs)) by lia. exact H4. }
      f_equal. rewrite Lx. rewrite with_df_app; [reflexivity|exact Room1|].
      rewrite Lto. replace (ps_dfdiff s + zlen (r_diff r) + zlen (r_extra r) + recs_size recs) with (ps_dfdiff s + (zlen (r_diff r) + zlen (r_extra r) + recs_size recs)) by lia. exact H4.
Qed.

End Apply.
