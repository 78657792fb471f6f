(** patch_info() on the records of a patch, complete or cut off, and on arbitrary
    patches. *)

From Coq Require Import ZArith List Bool Lia ZifyBool ZifyNat ZifyN.
From Verif Require Import Prelude Lib Spec PySize PyCrle PyApply PySpec SizeCodec CrleProofs PyReader PyApplyProofs PyDecomp PySeq PyApplyInPlace PyInfo PyInfoSpec.
Import ListNotations.
Open Scope Z_scope.

Section Info.
Context (D : decompressor) (R : dstate D -> list Z -> list Z -> Prop) (HR : contract D R).
Context (fuel : nat).

Lemma info_loop_spec : forall recs k r out cut rest to_pos to_size ds es adjs n, holds R fuel r out -> out ++ cut = enc_recs recs ++ rest ->
  to_pos + recs_size recs = to_size -> (recs = [] \/ last_nonempty recs) ->
  Forall (fun r => rec_size r < 2 ^ 63 /\ - 2 ^ 63 < r_adj r < 2 ^ 63) recs -> (length out < k)%nat ->
  outcome_is D R fuel (info_loop k fuel to_pos to_size ds es adjs n r) cut rest
    (fun r1 => (mkinner to_size (ds ++ diff_sizes recs) (es ++ extra_sizes recs) (adjs ++ adjustments recs) (n + zlen (size_fields recs)), r1)).
Proof using HR.
  induction recs as [|x recs IH]; intros k r out cut rest to_pos to_size ds es adjs n H E Hs Hl Hr Hk.
  - cbn [enc_recs flat_map app recs_size fold_right] in *. destruct k; [lia|]. cbn [info_loop]. destruct (Z.ltb_spec to_pos to_size); [lia|].
    left. exists out, r. split; [exact E|]. split; [exact H|]. unfold diff_sizes, extra_sizes, adjustments, size_fields. cbn [map flat_map]. rewrite !app_nil_r, Z.add_0_r. reflexivity.
  - destruct Hl as [Hl|Hl]; [discriminate|]. inversion Hr as [|? ? (Q1 & Q2) Hr2]; subst. rewrite recs_size_cons in *. unfold rec_size in Q1.
    pose proof (zlen_nonneg (r_diff x)). pose proof (zlen_nonneg (r_extra x)). pose proof (recs_size_ge recs).
    assert (Hpos : 0 < zlen (r_diff x) + zlen (r_extra x) + recs_size recs) by (rewrite <- recs_size_cons; apply last_pos; exact Hl).
    destruct k; [lia|]. cbn [info_loop]. destruct (Z.ltb_spec to_pos (to_pos + (zlen (r_diff x) + zlen (r_extra x) + recs_size recs))); [|lia].
    set (T := to_pos + (zlen (r_diff x) + zlen (r_extra x) + recs_size recs)) in *.
    change (enc_recs (x :: recs)) with (enc_rec x ++ enc_recs recs) in E. unfold enc_rec in E. rewrite <- !app_assoc in E.
    destruct (pr_size_spec D R HR fuel (zlen (r_diff x)) _ _ _ _ H E) as [(o1 & r1 & A1 & A2 & A3 & A4)|(A1 & A2)]; [lia| |right; rewrite A2; auto].
    rewrite A4. cbn [pbind ret]. destruct (Z.ltb_spec T (to_pos + zlen (r_diff x))); [lia|].
    destruct (pr_read D R HR fuel _ _ _ _ _ A3 A2) as [(o2 & r2 & B1 & B2 & B3 & B4)|(B1 & B2)]; [|right; rewrite B2; auto].
    rewrite B4. cbn [pbind ret].
    destruct (pr_size_spec D R HR fuel (zlen (r_extra x)) _ _ _ _ B3 B2) as [(o3 & r3 & C1 & C2 & C3 & C4)|(C1 & C2)]; [lia| |right; rewrite C2; auto].
    rewrite C4. cbn [pbind ret]. destruct (Z.ltb_spec T (to_pos + zlen (r_diff x) + zlen (r_extra x))); [lia|].
    destruct (pr_read D R HR fuel _ _ _ _ _ C3 C2) as [(o4 & r4 & D1 & D2 & D3 & D4)|(D1 & D2)]; [|right; rewrite D2; auto].
    rewrite D4. cbn [pbind ret].
    destruct (pr_size_spec D R HR fuel (r_adj x) _ _ _ _ D3 D2 Q2) as [(o5 & r5 & F1 & F2 & F3 & F4)|(F1 & F2)]; [|right; rewrite F2; auto].
    rewrite F4. cbn [pbind ret].
    destruct (IH k r5 o5 cut rest (to_pos + zlen (r_diff x) + zlen (r_extra x)) T (ds ++ [zlen (r_diff x)]) (es ++ [zlen (r_extra x)]) (adjs ++ [r_adj x])
      (n + zlen (enc_size (zlen (r_diff x))) + zlen (enc_size (zlen (r_extra x))) + zlen (enc_size (r_adj x)))) as [(o6 & r6 & G1 & G2 & G3)|(G1 & G2)]; auto; try (unfold T; lia).
    + destruct recs; [auto|]. right. destruct Hl as (rs & l & E1 & E2). destruct rs as [|r0 rs]; [discriminate|]. injection E1 as -> ->. exists rs, l. auto.
    + rewrite A1, B1, C1, D1, F1, !app_length in Hk.
      assert (0 < length (enc_size (zlen (r_diff x))))%nat by (unfold enc_size; destruct (Z.abs (zlen (r_diff x)) <? 64); cbn [length]; lia). lia.
    + left. exists o6, r6. split; [exact G1|]. split; [exact G2|]. rewrite G3. unfold diff_sizes, extra_sizes, adjustments, size_fields. cbn [map flat_map].
      rewrite <- !app_assoc. cbn [app]. rewrite !zlen_app. unfold ret. do 4 f_equal. lia.
    + right. auto.
Qed.

(** ** Arbitrary data *)

Lemma read_any : forall size r out, holds R fuel r out ->
  if zlen out <? size then pr_decompress fuel size r = raise DetoolsError
  else exists r1, pr_decompress fuel size r = ret (ztake size out, r1) /\ holds R fuel r1 (zdrop size out).
Proof using HR.
  intros size r out (H & Hf). destruct (Z_le_gt_dec size 0) as [L|L].
  - pose proof (zlen_nonneg out). destruct (Z.ltb_spec (zlen out) size); [lia|]. exists r. rewrite ztake_neg, zdrop_neg by lia. split; [|split; auto].
    unfold pr_decompress. destruct fuel; [lia|]. cbn [pr_loop]. change (zlen (@nil Z)) with 0. destruct (Z.ltb_spec 0 size); [lia|]. reflexivity.
  - assert (I1 : (dry D (pr_state r) <= 1)%nat) by (unfold dry; destruct (d_needs_input D (pr_state r) || d_eof D (pr_state r)); lia). pose proof (pr_loop_spec D R HR fuel size [] r out H ltac:(lia)) as S. change (zlen (@nil Z)) with 0 in S. specialize (S ltac:(lia)). rewrite Z.sub_0_r in S. cbn [Z.add app] in S.
    destruct (zlen out <? size); [exact S|]. destruct S as (r1 & A & B & C). exists r1. split; [exact A|]. split; [exact B|]. unfold zdrop. rewrite skipn_length. lia.
Qed.

Lemma byte_any : forall r out, holds R fuel r out ->
  match out with
  | [] => pr_byte fuel r = raise DetoolsError
  | b :: rest => exists r1, pr_byte fuel r = ret (b, r1) /\ holds R fuel r1 rest
  end.
Proof using HR.
  intros r out H. unfold pr_byte. pose proof (read_any 1 r out H) as S. destruct out as [|b out]; [rewrite S; reflexivity|]. rewrite zlen_cons in S. pose proof (zlen_nonneg out).
  destruct (Z.ltb_spec (1 + zlen out) 1); [lia|]. destruct S as (r1 & A & B). rewrite ztake_cons in A by lia. rewrite zdrop_cons in B by lia. replace (1 - 1) with 0 in * by lia. rewrite zdrop_0 in B.
  exists r1. rewrite A. auto.
Qed.

Lemma size_loop_any : forall k value off count r out, holds R fuel r out -> (length out < k)%nat ->
  match py_unpack_loop out value off with
  | None => pr_size_loop k fuel value off count r = raise DetoolsError
  | Some (v, rest) => exists r1, pr_size_loop k fuel value off count r = ret (v, count + (zlen out - zlen rest), r1) /\ holds R fuel r1 rest /\ (length rest < length out)%nat
  end.
Proof using HR.
  induction k; intros value off count r out H Hk; [lia|]. cbn [pr_size_loop]. pose proof (byte_any r out H) as S. destruct out as [|b out]; [cbn [py_unpack_loop]; rewrite S; reflexivity|].
  destruct S as (r1 & A & B). rewrite A. cbn [pbind ret py_unpack_loop length]. cbn [length] in Hk. destruct (Z.land b 128 =? 0).
  - exists r1. rewrite zlen_cons. split; [|split; [auto|lia]]. unfold ret. do 4 f_equal. lia.
  - specialize (IHk (Z.lor value (Z.shiftl (Z.land b 127) off)) (off + 7) (count + 1) r1 out B ltac:(lia)). destruct (py_unpack_loop out _ _) as [(v, rest)|]; [|exact IHk].
    destruct IHk as (r2 & C & E & F). exists r2. rewrite C, zlen_cons. split; [|split; [auto|lia]]. unfold ret. do 4 f_equal. lia.
Qed.

Lemma size_any : forall r out, holds R fuel r out ->
  match py_unpack_size out with
  | None => pr_unpack_size fuel r = raise DetoolsError
  | Some (v, rest) => exists r1, pr_unpack_size fuel r = ret (v, zlen out - zlen rest, r1) /\ holds R fuel r1 rest /\ (length rest < length out)%nat
  end.
Proof using HR.
  intros r out H. unfold pr_unpack_size. pose proof (byte_any r out H) as S. destruct out as [|b out]; [cbn [py_unpack_size]; rewrite S; reflexivity|].
  destruct S as (r1 & A & B). rewrite A. cbn [pbind ret py_unpack_size length]. destruct (Z.land b 128 =? 0).
  - cbn [pbind ret]. exists r1. rewrite zlen_cons. split; [|split; [auto|lia]]. unfold ret. do 4 f_equal. lia.
  - destruct H as (_ & H). cbn [length] in H. pose proof (size_loop_any fuel (Z.land b 63) 6 1 r1 out B ltac:(lia)) as S. destruct (py_unpack_loop out _ _) as [(v, rest)|]; [|rewrite S; reflexivity].
    destruct S as (r2 & C & E & F). exists r2. rewrite C. cbn [pbind ret]. rewrite zlen_cons. split; [|split; [auto|lia]]. unfold ret. do 4 f_equal. lia.
Qed.

(** A loop body of the applier does its work or raises something that is not
    detools.Error. *)
Definition plain_body (body : Z -> list Z -> pstate D -> pyo (pstate D)) : Prop :=
  forall data s, (exists s1, body (zlen data) data s = ret s1 /\ ps_reader s1 = ps_reader s /\ zlen (ps_out s1) = zlen (ps_out s) + zlen data) \/
    body (zlen data) data s = raise OtherError.

Lemma add_bytes_any : forall a b, (exists c, add_bytes a b = ret c /\ zlen c = zlen a /\ zlen b = zlen a) \/ add_bytes a b = raise OtherError.
Proof using.
  intros a b. destruct (Z.eq_dec (zlen a) (zlen b)) as [E|E]; [|right; unfold add_bytes; destruct (Z.eqb_spec (zlen a) (zlen b)); [congruence|reflexivity]].
  left. exists (add_mod a b). split; [apply add_bytes_ok; auto|]. rewrite zlen_add_mod. lia.
Qed.

Lemma dfdiff_any : forall dfd pos data, (exists c, add_dfdiff dfd pos (zlen data) data = ret c /\ zlen c = zlen data) \/ add_dfdiff dfd pos (zlen data) data = raise OtherError.
Proof using.
  intros [c|] pos data; cbn [add_dfdiff]; [|left; eauto]. destruct (add_bytes_any data (file_read_at c pos (zlen data))) as [(x & A & B & _)|A]; [left; eauto|right; auto].
Qed.

Lemma diff_plain : forall from dfd, plain_body (diff_chunk from dfd).
Proof using.
  intros from dfd data s. unfold diff_chunk. destruct (add_bytes_any data (file_read_at from (ps_from s) (zlen data))) as [(c & A & B & C)|A]; rewrite A; [|right; reflexivity].
  cbn [pbind ret]. rewrite <- B. destruct (dfdiff_any dfd (ps_dfdiff s) c) as [(x & E & F)|E]; rewrite E; [|right; reflexivity].
  left. eexists. split; [reflexivity|]. split; [reflexivity|]. cbn [ps_out]. rewrite zlen_app. lia.
Qed.

Lemma extra_plain : forall dfd, plain_body (extra_chunk dfd).
Proof using.
  intros dfd data s. unfold extra_chunk. destruct (dfdiff_any dfd (ps_dfdiff s) data) as [(x & E & F)|E]; rewrite E; [|right; reflexivity].
  left. eexists. split; [reflexivity|]. split; [reflexivity|]. cbn [ps_out]. rewrite zlen_app. lia.
Qed.

Lemma chunks_any : forall body, plain_body body -> forall k left s out, holds R fuel (ps_reader s) out -> (length out < k)%nat ->
  (left <= zlen out /\ exists s1, chunk_loop k fuel body left s = ret s1 /\ holds R fuel (ps_reader s1) (zdrop left out) /\ zlen (ps_out s1) = zlen (ps_out s) + Z.max left 0) \/
  chunk_loop k fuel body left s = raise OtherError \/
  (zlen out < left /\ chunk_loop k fuel body left s = raise DetoolsError).
Proof using HR.
  intros body Hb. induction k; intros left s out H Hk; [lia|]. cbn [chunk_loop]. pose proof (zlen_nonneg out). destruct (Z.ltb_spec 0 left) as [L|L].
  2:{ left. split; [lia|]. exists s. rewrite zdrop_neg by lia. split; [reflexivity|]. split; [auto|]. lia. }
  set (c := Z.min left 4096). pose proof (read_any c _ _ H) as S. destruct (Z.ltb_spec (zlen out) c).
  - right. right. split; [lia|]. rewrite S. reflexivity.
  - destruct S as (r1 & A & B). rewrite A. cbn [pbind ret]. set (data := ztake c out) in *. assert (Lc : zlen data = c) by (unfold data; rewrite zlen_ztake by lia; lia).
    destruct (Hb data (set_reader s r1)) as [(s1 & E & F & G)|E]; rewrite Lc in *; rewrite E; cbn [pbind ret]; [|right; left; reflexivity].
    cbn [set_reader ps_reader ps_out] in F, G. rewrite <- F in B.
    assert (Hk1 : (length (zdrop c out) < k)%nat) by (assert (1 <= c) by lia; unfold zdrop; rewrite skipn_length; unfold zlen in *; lia).
    destruct (IHk (left - c) s1 (zdrop c out) B Hk1) as [(P & s2 & Q1 & Q2 & Q3)|[P|(P & Q)]].
    + rewrite zlen_zdrop in P by lia. left. split; [lia|]. exists s2. split; [auto|]. rewrite zdrop_zdrop in Q2 by lia. replace (left - c + c) with left in Q2 by lia. split; [auto|]. lia.
    + right. left. auto.
    + rewrite zlen_zdrop in P by lia. right. right. split; [lia|auto].
Qed.

Lemma iter_any : forall body, plain_body body -> forall to_pos to_size s out, holds R fuel (ps_reader s) out ->
  iter_chunks fuel body to_pos to_size s = raise OtherError \/
  match py_unpack_size out with
  | None => iter_chunks fuel body to_pos to_size s = raise DetoolsError
  | Some (v, rest) =>
      if (to_size <? to_pos + v) || (zlen rest <? v) then iter_chunks fuel body to_pos to_size s = raise DetoolsError
      else exists s1, iter_chunks fuel body to_pos to_size s = ret (to_pos + Z.max v 0, s1) /\ holds R fuel (ps_reader s1) (zdrop v rest) /\
        zlen (ps_out s1) = zlen (ps_out s) + Z.max v 0 /\ (length (zdrop v rest) < length out)%nat
  end.
Proof using HR.
  intros body Hb to_pos to_size s out H. unfold iter_chunks. pose proof (size_any _ _ H) as S. destruct (py_unpack_size out) as [(v, rest)|]; [|right; rewrite S; reflexivity].
  destruct S as (r1 & A & B & C). rewrite A. cbn [pbind ret]. destruct (Z.ltb_spec to_size (to_pos + v)); cbn [orb]; [right; reflexivity|].
  assert (Hk : (length rest < fuel)%nat) by (destruct B; lia).
  destruct (chunks_any body Hb fuel v (set_reader s r1) rest B Hk) as [(P & s1 & Q1 & Q2 & Q3)|[P|(P & Q)]].
  - right. destruct (Z.ltb_spec (zlen rest) v); [lia|]. exists s1. rewrite Q1. cbn [pbind ret]. split; [reflexivity|]. split; [auto|]. split; [exact Q3|]. unfold zdrop. rewrite skipn_length. lia.
  - left. rewrite P. reflexivity.
  - right. destruct (Z.ltb_spec (zlen rest) v); [|lia]. rewrite Q. reflexivity.
Qed.

Lemma apply_any : forall clamps from dfd k to_pos to_size s out, holds R fuel (ps_reader s) out -> (length out < k)%nat ->
  (exists s1 out1, apply_loop k fuel clamps from dfd to_pos to_size s = ret s1 /\ holds R fuel (ps_reader s1) out1 /\
     zlen (ps_out s1) = zlen (ps_out s) + Z.max 0 (to_size - to_pos)) \/
  exists e, apply_loop k fuel clamps from dfd to_pos to_size s = raise e.
Proof using HR.
  intros clamps from dfd. induction k; intros to_pos to_size s out H Hk; [lia|]. cbn [apply_loop]. destruct (Z.ltb_spec to_pos to_size).
  2:{ left. exists s, out. split; [reflexivity|]. split; [auto|]. lia. }
  destruct (iter_any _ (diff_plain from dfd) to_pos to_size s out H) as [A|A]; [right; rewrite A; eexists; reflexivity|].
  destruct (py_unpack_size out) as [(v1, o1)|]; [|right; rewrite A; eexists; reflexivity].
  destruct (Z.ltb_spec to_size (to_pos + v1)); cbn [orb] in A; [right; rewrite A; eexists; reflexivity|].
  destruct (zlen o1 <? v1); [right; rewrite A; eexists; reflexivity|]. destruct A as (s1 & A1 & A2 & A3 & A4). rewrite A1. cbn [pbind ret].
  destruct (iter_any _ (extra_plain dfd) (to_pos + Z.max v1 0) to_size s1 _ A2) as [B|B]; [right; rewrite B; eexists; reflexivity|].
  destruct (py_unpack_size (zdrop v1 o1)) as [(v2, o2)|]; [|right; rewrite B; eexists; reflexivity].
  destruct (Z.ltb_spec to_size (to_pos + Z.max v1 0 + v2)); cbn [orb] in B; [right; rewrite B; eexists; reflexivity|].
  destruct (zlen o2 <? v2); [right; rewrite B; eexists; reflexivity|]. destruct B as (s2 & B1 & B2 & B3 & B4). rewrite B1. cbn [pbind ret].
  pose proof (size_any _ _ B2) as C. destruct (py_unpack_size (zdrop v2 o2)) as [(v3, o3)|]; [|right; rewrite C; eexists; reflexivity].
  destruct C as (r3 & C1 & C2 & C3). rewrite C1. cbn [pbind ret]. unfold seek_cur.
  assert (I : forall pos, (exists s4 out1, apply_loop k fuel clamps from dfd (to_pos + Z.max v1 0 + Z.max v2 0) to_size (mkps r3 pos (ps_out s2) (ps_dfdiff s2)) = ret s4 /\ holds R fuel (ps_reader s4) out1 /\
     zlen (ps_out s4) = zlen (ps_out s) + Z.max 0 (to_size - to_pos)) \/ exists e, apply_loop k fuel clamps from dfd (to_pos + Z.max v1 0 + Z.max v2 0) to_size (mkps r3 pos (ps_out s2) (ps_dfdiff s2)) = raise e).
  { intros pos. destruct (IHk (to_pos + Z.max v1 0 + Z.max v2 0) to_size (mkps r3 pos (ps_out s2) (ps_dfdiff s2)) o3) as [(s4 & o4 & I1 & I2 & I3)|(e & I1)]; auto; [lia| |right; eauto].
    left. exists s4, o4. split; [auto|]. split; [auto|]. cbn [ps_out] in I3. lia. }
  destruct (_ <? 0); [destruct clamps|]; cbn [pbind ret].
  - apply I.
  - right. eexists. reflexivity.
  - apply I.
Qed.

(** Without negative sizes the applier does what patch_info() saw. *)
Lemma info_grows : forall k to_pos to_size ds es adjs n (r : preader D) i r1, info_loop k fuel to_pos to_size ds es adjs n r = ret (i, r1) ->
  exists ds1 es1, ii_diffs i = ds ++ ds1 /\ ii_extras i = es ++ es1.
Proof using.
  induction k; intros to_pos to_size ds es adjs n r i r1 E; cbn [info_loop] in E; (destruct (to_pos <? to_size); [|injection E as <- <-; exists [], []; rewrite !app_nil_r; auto]); [discriminate|].
  destruct (pr_unpack_size fuel r) as [[((v1, n1), q1)|]| |]; try discriminate. cbn [pbind] in E. destruct (to_size <? to_pos + v1); [discriminate|].
  destruct (pr_decompress fuel v1 q1) as [[(x1, q2)|]| |]; try discriminate. cbn [pbind] in E.
  destruct (pr_unpack_size fuel q2) as [[((v2, n2), q3)|]| |]; try discriminate. cbn [pbind] in E. destruct (to_size <? to_pos + v1 + v2); [discriminate|].
  destruct (pr_decompress fuel v2 q3) as [[(x2, q4)|]| |]; try discriminate. cbn [pbind] in E.
  destruct (pr_unpack_size fuel q4) as [[((v3, n3), q5)|]| |]; try discriminate. cbn [pbind] in E.
  apply IHk in E. destruct E as (ds1 & es1 & E1 & E2). rewrite <- app_assoc in E1, E2. eauto.
Qed.

Lemma info_apply : forall clamps from dfd k to_pos to_size ds es adjs n r i r1 s out, holds R fuel r out -> holds R fuel (ps_reader s) out ->
  info_loop k fuel to_pos to_size ds es adjs n r = ret (i, r1) -> Forall (Z.le 0) (ii_diffs i) -> Forall (Z.le 0) (ii_extras i) ->
  (exists s1 out1, apply_loop k fuel clamps from dfd to_pos to_size s = ret s1 /\ holds R fuel r1 out1 /\ holds R fuel (ps_reader s1) out1) \/
  apply_loop k fuel clamps from dfd to_pos to_size s = raise OtherError.
Proof using HR.
  intros clamps from dfd. induction k; intros to_pos to_size ds es adjs n r i r1 s out Hr Hs E P1 P2; cbn [info_loop apply_loop] in *.
  { destruct (to_pos <? to_size); [discriminate|]. injection E as <- <-. left. eauto. }
  destruct (Z.ltb_spec to_pos to_size); [|injection E as <- <-; left; eauto].
  pose proof (size_any _ _ Hr) as A. destruct (iter_any _ (diff_plain from dfd) to_pos to_size s out Hs) as [I|I]; [right; rewrite I; reflexivity|].
  destruct (py_unpack_size out) as [(v1, o1)|]; [|rewrite A in E; discriminate]. destruct A as (q1 & A1 & A2 & A3). rewrite A1 in E. cbn [pbind ret] in E.
  destruct (to_size <? to_pos + v1); [discriminate|]. cbn [orb] in I. pose proof (read_any v1 _ _ A2) as B. destruct (zlen o1 <? v1); [rewrite B in E; discriminate|].
  destruct B as (q2 & B1 & B2). rewrite B1 in E. cbn [pbind ret] in E. destruct I as (s1 & I1 & I2 & _). rewrite I1. cbn [pbind ret].
  pose proof (size_any _ _ B2) as C. pose proof (iter_any _ (extra_plain dfd) (to_pos + Z.max v1 0) to_size s1 _ I2) as J.
  destruct (py_unpack_size (zdrop v1 o1)) as [(v2, o2)|]; [|rewrite C in E; discriminate]. destruct C as (q3 & C1 & C2 & C3). rewrite C1 in E. cbn [pbind ret] in E.
  assert (X : 0 <= v1 /\ 0 <= v2).
  { destruct (to_size <? to_pos + v1 + v2); [discriminate|]. destruct (pr_decompress fuel v2 q3) as [[(x2, q4)|]| |]; try discriminate. cbn [pbind] in E.
    destruct (pr_unpack_size fuel q4) as [[((v3, n3), q5)|]| |]; try discriminate. cbn [pbind] in E. apply info_grows in E. destruct E as (ds1 & es1 & E1 & E2).
    rewrite E1, !Forall_app in P1. rewrite E2, !Forall_app in P2. destruct P1 as ((_ & P1) & _). destruct P2 as ((_ & P2) & _). inversion P1; inversion P2; auto. }
  replace (to_pos + Z.max v1 0) with (to_pos + v1) in * by lia.
  destruct J as [J|J]; [right; rewrite J; reflexivity|].
  destruct (to_size <? to_pos + v1 + v2); [discriminate|]. cbn [orb] in J. pose proof (read_any v2 _ _ C2) as F. destruct (zlen o2 <? v2); [rewrite F in E; discriminate|].
  destruct F as (q4 & F1 & F2). rewrite F1 in E. cbn [pbind ret] in E. destruct J as (s2 & J1 & J2 & _). rewrite J1. cbn [pbind ret]. replace (to_pos + v1 + Z.max v2 0) with (to_pos + v1 + v2) by lia.
  pose proof (size_any _ _ F2) as G1. pose proof (size_any _ _ J2) as G2. destruct (py_unpack_size (zdrop v2 o2)) as [(v3, o3)|]; [|rewrite G1 in E; discriminate].
  destruct G1 as (q5 & G1 & G3 & _). destruct G2 as (q6 & G2 & G4 & _). rewrite G1 in E. cbn [pbind ret] in E. rewrite G2. cbn [pbind ret]. unfold seek_cur.
  destruct (_ <? 0); [destruct clamps|]; cbn [pbind ret]; [|right; reflexivity|]; (eapply IHk; [exact G3|exact G4|exact E|auto|auto]).
Qed.

(** The sizes add up. *)
Lemma sum_app : forall a b, sum (a ++ b) = sum a + sum b.
Proof using. unfold sum. induction a; intros b; cbn [app fold_right]; [lia|]. rewrite IHa. lia. Qed.

Lemma sum_one : forall x, sum [x] = x.
Proof using. intros x. unfold sum. cbn [fold_right]. lia. Qed.

Lemma info_sum : forall k to_pos to_size ds es adjs n (r : preader D) i r1, info_loop k fuel to_pos to_size ds es adjs n r = ret (i, r1) -> to_pos <= to_size ->
  length ds = length es -> length es = length adjs ->
  sum (ii_diffs i) + sum (ii_extras i) = sum ds + sum es + (to_size - to_pos) /\ ii_to_size i = to_size /\
  length (ii_diffs i) = length (ii_extras i) /\ length (ii_extras i) = length (ii_adjustments i).
Proof using.
  induction k; intros to_pos to_size ds es adjs n r i r1 E Hle L1 L2; cbn [info_loop] in E; (destruct (Z.ltb_spec to_pos to_size); [|injection E as <- <-; cbn [ii_diffs ii_extras ii_to_size ii_adjustments]; split; [lia|auto]]); [discriminate|].
  destruct (pr_unpack_size fuel r) as [[((v1, n1), q1)|]| |]; try discriminate. cbn [pbind] in E. destruct (Z.ltb_spec to_size (to_pos + v1)); [discriminate|].
  destruct (pr_decompress fuel v1 q1) as [[(x1, q2)|]| |]; try discriminate. cbn [pbind] in E.
  destruct (pr_unpack_size fuel q2) as [[((v2, n2), q3)|]| |]; try discriminate. cbn [pbind] in E. destruct (Z.ltb_spec to_size (to_pos + v1 + v2)); [discriminate|].
  destruct (pr_decompress fuel v2 q3) as [[(x2, q4)|]| |]; try discriminate. cbn [pbind] in E.
  destruct (pr_unpack_size fuel q4) as [[((v3, n3), q5)|]| |]; try discriminate. cbn [pbind] in E.
  apply IHk in E; [|lia|rewrite !app_length; cbn; lia|rewrite !app_length; cbn; lia]. destruct E as (E1 & E2 & E3). rewrite !sum_app in E1. rewrite !sum_one in E1. split; [lia|auto].
Qed.

End Info.
