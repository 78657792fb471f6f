(** The Python in-place applier on bodies of any content (C79). *)

From Coq Require Import ZArith List Bool Lia ZifyBool ZifyNat ZifyN.
From Verif Require Import Prelude Lib Spec SeqSpec PySize PyCrle PyInPlace PyCreate PyApply PyApplyInPlace PySpec SizeCodec PyReader PyApplyProofs PyDecomp PySeq SeqBound RefuseSpec BodySpec BodyProofs BodyPy PyAnySpec LooseSpec LooseProofs IpLooseSpec.
Import ListNotations.
Open Scope Z_scope.

(** ** Memory that has been written up to some position *)

Definition upto (old done : list Z) : list Z := done ++ zdrop (zlen done) old.

Lemma upto_len : forall old done, zlen done <= zlen old -> zlen (upto old done) = zlen old.
Proof. intros. unfold upto. pose proof (zlen_nonneg done). rewrite zlen_app, zlen_zdrop by lia. lia. Qed.

Lemma upto_read : forall old done p n, zlen done <= p -> zlen done <= zlen old -> file_read_at (upto old done) p n = file_read_at old p n.
Proof.
  intros. unfold file_read_at, upto. pose proof (zlen_nonneg done). rewrite zdrop_app_r by lia. rewrite zdrop_zdrop by lia. do 2 f_equal. lia.
Qed.

Lemma upto_write : forall old done data, zlen done + zlen data <= zlen old -> mem_write (upto old done) (zlen done) data = upto old (done ++ data).
Proof.
  intros old done data H. pose proof (zlen_nonneg done). pose proof (zlen_nonneg data). unfold mem_write. destruct (Z.eqb_spec (zlen data) 0) as [E|E].
  - apply zlen_0_nil in E. subst data. rewrite app_nil_r. reflexivity.
  - rewrite upto_len by lia. replace (zrepeat 0 (zlen done - zlen old)) with (@nil Z). 2: { unfold zrepeat. replace (Z.to_nat (zlen done - zlen old)) with O by lia. reflexivity. }
    unfold upto. rewrite ztake_app_exact by reflexivity. cbn [app]. rewrite <- app_assoc. do 2 f_equal. rewrite zdrop_app_r by lia. rewrite zdrop_zdrop by lia. rewrite zlen_app. f_equal. lia.
Qed.

Section Reader.
Context (D : decompressor) (R : dstate D -> list Z -> list Z -> Prop) (HR : contract D R).
Context (fuel : nat).
Notation holds := (holds R fuel).


Definition fits (old : list Z) (off : Z) (s : pstate D) (done : list Z) : Prop := ps_out s = upto old done /\ zlen done = off + ps_dfdiff s.

Lemma mem_chunk : forall old off (s : pstate D) done m data lo, fits old off s done -> zlen data = m -> 0 < m ->
  zlen done + m <= lo -> lo <= zlen old -> lo <= ps_from s ->
  mem_diff_chunk off m data s = if ps_from s + m <=? zlen old
    then ret (mkps (ps_reader s) (ps_from s + m) (upto old (done ++ add_mod data (ztake m (zdrop (ps_from s) old)))) (ps_dfdiff s + m))
    else raise OtherError.
Proof.
  intros old off s done m data lo [Ho Hd] Hl Hm Hlo Hold Hp. pose proof (zlen_nonneg done). unfold mem_diff_chunk, seek_set.
  destruct (Z.ltb_spec (ps_from s) 0); [lia|]. cbn [pbind ret]. rewrite <- Hd. destruct (Z.ltb_spec (zlen done) 0); [lia|]. cbn [pbind ret].
  rewrite Ho, upto_read by lia. unfold file_read_at, add_bytes.
  assert (Lf : zlen (ztake m (zdrop (ps_from s) old)) = Z.min m (Z.max 0 (zlen old - ps_from s))) by (rewrite zlen_ztake, zlen_zdrop by lia; reflexivity).
  destruct (Z.leb_spec (ps_from s + m) (zlen old)).
  - destruct (Z.eqb_spec (zlen data) (zlen (ztake m (zdrop (ps_from s) old)))); [|lia]. cbn [pbind ret]. rewrite sum_add. rewrite upto_write; [reflexivity|]. rewrite zlen_add_mod. lia.
  - destruct (Z.eqb_spec (zlen data) (zlen (ztake m (zdrop (ps_from s) old)))); [lia|]. reflexivity.
Qed.

Lemma mem_diff_fail : forall k old off (s : pstate D) done n rest lo, holds (ps_reader s) rest -> (length rest < k)%nat -> 0 < n ->
  fits old off s done -> zlen done + n <= lo -> lo <= zlen old -> lo <= ps_from s -> zlen rest < n \/ zlen old < ps_from s + n ->
  exists e, chunk_loop k fuel (mem_diff_chunk off) n s = raise e.
Proof.
  induction k as [|k IH]; intros old off s done n rest lo H Hk Hn Hf Hlo Hold Hp Hbad; [lia|]. cbn [chunk_loop]. destruct (Z.ltb_spec 0 n) as [Hn0|]; [|lia].
  set (m := Z.min n 4096) in *. assert (Hm : 0 < m <= n) by lia. pose proof (zlen_nonneg done) as Hdn.
  pose proof (read_any D R HR fuel (ps_reader s) rest m H ltac:(lia)) as A. destruct (Z.ltb_spec (zlen rest) m) as [L|L].
  { rewrite A. cbn [pbind]. exists DetoolsError. reflexivity. }
  destruct A as (r1 & A & H1). rewrite A. cbn [pbind ret].
  assert (Lx : zlen (ztake m rest) = m) by (rewrite zlen_ztake by lia; lia).
  rewrite (mem_chunk old off (PyApply.set_reader s r1) done m (ztake m rest) lo) by (auto; lia). cbn [PyApply.ps_from PyApply.ps_out PyApply.ps_dfdiff PyApply.ps_reader PyApply.set_reader].
  destruct (Z.leb_spec (ps_from s + m) (zlen old)) as [Lf|Lf]; [|cbn [pbind raise]; exists OtherError; reflexivity]. cbn [pbind ret].
  assert (Ly : zlen (add_mod (ztake m rest) (ztake m (zdrop (PyApply.ps_from s) old))) = m) by (rewrite zlen_add_mod, Lx, zlen_ztake, zlen_zdrop by lia; lia).
  destruct Hf as [Ho Hd].
  match goal with |- exists e, chunk_loop k fuel _ (n - m) ?s1 = _ =>
    apply (IH old off s1 (done ++ add_mod (ztake m rest) (ztake m (zdrop (PyApply.ps_from s) old))) (n - m) (zdrop m rest) lo) end; cbn [PyApply.ps_from PyApply.ps_out PyApply.ps_dfdiff PyApply.ps_reader].
  - exact H1.
  - unfold zdrop. rewrite skipn_length. unfold zlen in L. lia.
  - destruct Hbad; lia.
  - split; cbn [PyApply.ps_out PyApply.ps_dfdiff]; [reflexivity|]. rewrite zlen_app. lia.
  - rewrite zlen_app. lia.
  - lia.
  - lia.
  - rewrite zlen_zdrop by lia. lia.
Qed.

Lemma mem_diff : forall k old off (s : pstate D) done n rest lo data, holds (ps_reader s) rest -> (length rest < k)%nat -> 0 <= n <= zlen rest ->
  fits old off s done -> zlen done + n <= lo -> lo <= zlen old -> (n = 0 \/ lo <= ps_from s) -> slice old (ps_from s) n = Some data ->
  exists r1, chunk_loop k fuel (mem_diff_chunk off) n s = ret (mkps r1 (ps_from s + n) (upto old (done ++ add_mod (ztake n rest) data)) (ps_dfdiff s + n)) /\ holds r1 (zdrop n rest).
Proof.
  induction k as [|k IH]; intros old off s done n rest lo data H Hk Hn Hf Hlo Hold Hp Sl; [lia|]. cbn [chunk_loop]. pose proof (zlen_nonneg done) as Hdn.
  destruct (Z.ltb_spec 0 n) as [Hn0|Hn0].
  2: { assert (n = 0) by lia. subst n. unfold slice in Sl. cbn [Z.eqb] in Sl. inv Sl. exists (ps_reader s). rewrite zdrop_0, !Z.add_0_r. split; [|exact H].
       rewrite ztake_0. cbn [add_mod]. rewrite app_nil_r. destruct Hf as [Ho _]. rewrite <- Ho. destruct s; reflexivity. }
  destruct Hp as [Hp|Hp]; [lia|]. unfold slice in Sl. destruct (Z.eqb_spec n 0); [lia|].
  destruct ((0 <=? ps_from s) && (ps_from s + n <=? zlen old)) eqn:X; [|discriminate].
  set (m := Z.min n 4096) in *. assert (Hm : 0 < m <= n) by lia.
  pose proof (read_any D R HR fuel (ps_reader s) rest m H ltac:(lia)) as A. destruct (Z.ltb_spec (zlen rest) m) as [L|L]; [lia|].
  destruct A as (r1 & A & H1). rewrite A. cbn [pbind ret].
  assert (Lx : zlen (ztake m rest) = m) by (rewrite zlen_ztake by lia; lia).
  rewrite (mem_chunk old off (PyApply.set_reader s r1) done m (ztake m rest) lo) by (auto; lia). cbn [PyApply.ps_from PyApply.ps_out PyApply.ps_dfdiff PyApply.ps_reader PyApply.set_reader].
  destruct (Z.leb_spec (ps_from s + m) (zlen old)) as [Lf|Lf]; [|lia]. cbn [pbind ret].
  assert (Lo : zlen (ztake m (zdrop (PyApply.ps_from s) old)) = m) by (rewrite zlen_ztake, zlen_zdrop by lia; lia).
  assert (Ly : zlen (add_mod (ztake m rest) (ztake m (zdrop (PyApply.ps_from s) old))) = m) by (rewrite zlen_add_mod, Lx, Lo; lia).
  destruct Hf as [Ho Hd].
  match goal with |- context [chunk_loop k fuel _ (n - m) ?s1] =>
    destruct (IH old off s1 (done ++ add_mod (ztake m rest) (ztake m (zdrop (PyApply.ps_from s) old))) (n - m) (zdrop m rest) lo (ztake (n - m) (zdrop (PyApply.ps_from s + m) old))) as (r2 & B1 & B2) end; cbn [PyApply.ps_from PyApply.ps_out PyApply.ps_dfdiff PyApply.ps_reader].
  - exact H1.
  - unfold zdrop. rewrite skipn_length. unfold zlen in L. lia.
  - rewrite zlen_zdrop by lia. lia.
  - split; cbn [PyApply.ps_out PyApply.ps_dfdiff]; [reflexivity|]. rewrite zlen_app. lia.
  - rewrite zlen_app. lia.
  - lia.
  - right. lia.
  - unfold slice. destruct (Z.eqb_spec (n - m) 0) as [E|E]; [rewrite E, ztake_0; reflexivity|]. destruct ((0 <=? ps_from s + m) && (ps_from s + m + (n - m) <=? zlen old)) eqn:X2; [reflexivity|lia].
  - rewrite B1. cbn [PyApply.ps_from PyApply.ps_out PyApply.ps_dfdiff PyApply.ps_reader] in *. exists r2. rewrite zdrop_zdrop in B2 by lia. replace (n - m + m) with n in B2 by lia. split; [|exact B2].
    assert (E1 : ztake n (zdrop (PyApply.ps_from s) old) = ztake m (zdrop (PyApply.ps_from s) old) ++ ztake (n - m) (zdrop (PyApply.ps_from s + m) old)).
    { rewrite <- sub_app by lia. f_equal. lia. }
    assert (E2 : ztake n rest = ztake m rest ++ ztake (n - m) (zdrop m rest)).
    { rewrite <- ztake_add by lia. f_equal. lia. }
    inv Sl. rewrite E1, E2, PyApplyProofs.add_mod_app by (apply zlen_len; lia). rewrite app_assoc. unfold ret. do 2 f_equal. f_equal; lia.
Qed.

Lemma mem_extra_fail : forall k off (s : pstate D) n rest, holds (ps_reader s) rest -> (length rest < k)%nat -> 0 < n -> zlen rest < n ->
  exists e, chunk_loop k fuel (mem_extra_chunk off) n s = raise e.
Proof.
  induction k as [|k IH]; intros off s n rest H Hk Hn Hbad; [lia|]. cbn [chunk_loop]. destruct (Z.ltb_spec 0 n) as [Hn0|]; [|lia].
  set (m := Z.min n 4096) in *. assert (Hm : 0 < m <= n) by lia.
  pose proof (read_any D R HR fuel (ps_reader s) rest m H ltac:(lia)) as A. destruct (Z.ltb_spec (zlen rest) m) as [L|L].
  { rewrite A. cbn [pbind]. exists DetoolsError. reflexivity. }
  destruct A as (r1 & A & H1). rewrite A. cbn [pbind ret]. unfold mem_extra_chunk at 1. cbn [pbind ret].
  match goal with |- exists e, chunk_loop k fuel _ (n - m) ?s1 = _ => destruct (IH off s1 (n - m) (zdrop m rest)) as (e & B) end.
  - exact H1.
  - unfold zdrop. rewrite skipn_length. unfold zlen in L. lia.
  - lia.
  - rewrite zlen_zdrop by lia. lia.
  - exists e. exact B.
Qed.

Lemma mem_extra : forall k old off (s : pstate D) done n rest, holds (ps_reader s) rest -> (length rest < k)%nat -> 0 <= n <= zlen rest ->
  fits old off s done -> zlen done + n <= zlen old ->
  exists r1, chunk_loop k fuel (mem_extra_chunk off) n s = ret (mkps r1 (ps_from s) (upto old (done ++ ztake n rest)) (ps_dfdiff s + n)) /\ holds r1 (zdrop n rest).
Proof.
  induction k as [|k IH]; intros old off s done n rest H Hk Hn [Ho Hd] Hold; [lia|]. cbn [chunk_loop]. pose proof (zlen_nonneg done) as Hdn.
  destruct (Z.ltb_spec 0 n) as [Hn0|Hn0].
  2: { assert (n = 0) by lia. subst n. exists (ps_reader s). rewrite zdrop_0, Z.add_0_r. split; [|exact H].
       rewrite ztake_0, app_nil_r, <- Ho. destruct s; reflexivity. }
  set (m := Z.min n 4096) in *. assert (Hm : 0 < m <= n) by lia.
  pose proof (read_any D R HR fuel (ps_reader s) rest m H ltac:(lia)) as A. destruct (Z.ltb_spec (zlen rest) m) as [L|L]; [lia|].
  destruct A as (r1 & A & H1). rewrite A. cbn [pbind ret]. unfold mem_extra_chunk at 1. cbn [pbind ret PyApply.ps_from PyApply.ps_out PyApply.ps_dfdiff PyApply.ps_reader PyApply.set_reader].
  assert (Lx : zlen (ztake m rest) = m) by (rewrite zlen_ztake by lia; lia).
  rewrite Ho, <- Hd, upto_write by lia.
  match goal with |- context [chunk_loop k fuel _ (n - m) ?s1] =>
    destruct (IH old off s1 (done ++ ztake m rest) (n - m) (zdrop m rest)) as (r2 & B1 & B2) end; cbn [PyApply.ps_from PyApply.ps_out PyApply.ps_dfdiff PyApply.ps_reader].
  - exact H1.
  - unfold zdrop. rewrite skipn_length. unfold zlen in L. lia.
  - rewrite zlen_zdrop by lia. lia.
  - split; cbn [PyApply.ps_out PyApply.ps_dfdiff]; [reflexivity|]. rewrite zlen_app. lia.
  - rewrite zlen_app. lia.
  - rewrite B1. cbn [PyApply.ps_from PyApply.ps_out PyApply.ps_dfdiff PyApply.ps_reader] in *. exists r2. rewrite zdrop_zdrop in B2 by lia. replace (n - m + m) with n in B2 by lia. split; [|exact B2].
    assert (E2 : ztake n rest = ztake m rest ++ ztake (n - m) (zdrop m rest)).
    { rewrite <- ztake_add by lia. f_equal. lia. }
    rewrite E2, app_assoc. unfold ret. do 2 f_equal. f_equal; lia.
Qed.


Lemma record_loop : forall k j old off lo pos left l (s : pstate D) done tp ts, (length l <= k)%nat -> (k < j)%nat -> bytes_ok l ->
  holds (ps_reader s) l -> ps_from s = pos -> ts - tp = left -> ps_dfdiff s = tp -> fits old off s done -> lo = off + ts -> lo <= zlen old ->
  match segment_records k old lo pos left l with
  | Means to rest => exists r1 p1 q1, segment_loop j fuel off tp ts s = ret (mkps r1 p1 (upto old (done ++ to)) q1) /\ holds r1 rest /\ zlen to = Z.max 0 left
  | Bad => exists e, segment_loop j fuel off tp ts s = raise e
  | Stale => True
  end.
Proof.
  induction k as [|k IH]; intros j old off lo pos left l s done tp ts Hlk Hj Hb H Hp Ht Hdf Hf Hlo Hold; (destruct j as [|j]; [lia|]); cbn [segment_records segment_loop]; pose proof (zlen_nonneg done) as Hdn.
  - destruct l; [|cbn in Hlk; lia]. destruct (Z.leb_spec left 0); (destruct (Z.ltb_spec tp ts); [try lia|try lia]).
    + exists (ps_reader s), (ps_from s), (ps_dfdiff s). split; [|split; [exact H|change (zlen (@nil Z)) with 0; lia]]. rewrite app_nil_r. destruct Hf as [Ho _]. rewrite <- Ho. destruct s; reflexivity.
    + unfold iter_chunks at 1. rewrite (size_none D R HR fuel []) by (auto; constructor). cbn [pbind]. exists DetoolsError. reflexivity.
  - destruct (Z.leb_spec left 0); (destruct (Z.ltb_spec tp ts); [try lia|try lia]).
    { exists (ps_reader s), (ps_from s), (ps_dfdiff s). split; [|split; [exact H|change (zlen (@nil Z)) with 0; lia]]. rewrite app_nil_r. destruct Hf as [Ho _]. rewrite <- Ho. destruct s; reflexivity. }
    destruct (dec_size l) as [[ds l1]|] eqn:D1.
    2: { unfold iter_chunks at 1. rewrite (size_none D R HR fuel l) by auto. cbn [pbind]. exists DetoolsError. reflexivity. }
    destruct (size_any D R HR fuel _ _ _ _ H Hb D1) as (r1 & c1 & A1 & A2).
    assert (It : forall body, iter_chunks fuel body tp ts s = if ts <? tp + ds then raise DetoolsError else
      pbind (chunk_loop fuel fuel body (Z.max ds 0) (PyApply.set_reader s r1)) (fun s1 => ret (tp + Z.max ds 0, s1))).
    { intros body. unfold iter_chunks. rewrite A1. cbn [pbind ret]. rewrite chunk_max. reflexivity. }
    rewrite It. clear It. cbv zeta.
    assert (B1 : bytes_ok l1) by (eapply size_rest; eauto). pose proof (dec_size_len _ _ _ D1) as L1. pose proof (zlen_nonneg l1) as N1.
    assert (Hlen1 : (length l1 < fuel)%nat) by (destruct A2; lia).
    set (d := Z.max ds 0) in *.
    destruct (Z.ltb_spec ts (tp + ds)).
    { destruct (Z.ltb_spec left d); [|lia]. cbn [pbind raise]. exists DetoolsError. reflexivity. }
    destruct (Z.ltb_spec left d); [lia|].
    destruct ((0 <? d) && (pos <? lo)) eqn:St; [exact I|].
    assert (Hfits : fits old off (PyApply.set_reader s r1) done) by exact Hf. destruct Hf as [Ho Hd].
    destruct (Z.ltb_spec (zlen l1) d) as [Ld|Ld].
    { destruct (mem_diff_fail fuel old off (PyApply.set_reader s r1) done d l1 lo A2) as (e & E); auto; try (cbn [PyApply.ps_from PyApply.set_reader]; lia).
      rewrite E. cbn [pbind]. exists e. reflexivity. }
    destruct (slice old pos d) as [data|] eqn:Sl.
    2: { unfold slice in Sl. destruct (Z.eqb_spec d 0); [discriminate|]. destruct ((0 <=? pos) && (pos + d <=? zlen old)) eqn:X; [discriminate|].
         pose proof (zlen_nonneg old).
         destruct (mem_diff_fail fuel old off (PyApply.set_reader s r1) done d l1 lo A2) as (e & E); auto; try (cbn [PyApply.ps_from PyApply.set_reader]; lia).
         rewrite E. cbn [pbind]. exists e. reflexivity. }
    rewrite <- Hp in Sl.
    destruct (mem_diff fuel old off (PyApply.set_reader s r1) done d l1 lo data A2) as (r2 & A3 & A4); auto; try (cbn [PyApply.ps_from PyApply.set_reader]; lia).
    rewrite A3. cbn [pbind ret]. cbn [PyApply.ps_from PyApply.ps_out PyApply.ps_dfdiff PyApply.ps_reader PyApply.set_reader].
    set (x := add_mod (ztake d l1) data) in *.
    assert (Lx : zlen x = d).
    { unfold x. rewrite zlen_add_mod, zlen_ztake by lia. unfold slice in Sl. destruct (Z.eqb_spec d 0) as [E|E].
      - inv Sl. change (zlen (@nil Z)) with 0. lia.
      - destruct ((0 <=? ps_from s) && (ps_from s + d <=? zlen old)) eqn:X; [|discriminate]. inv Sl. rewrite zlen_ztake, zlen_zdrop by lia. lia. }
    unfold seek_set. destruct (Z.ltb_spec (off + (tp + d)) 0); [lia|]. cbn [pbind ret].
    unfold iter_chunks. cbn [ps_reader]. pose proof (bytes_drop d l1 B1) as B1d.
    assert (L1d : (length (zdrop d l1) <= length l1)%nat) by (unfold zdrop; rewrite skipn_length; lia).
    destruct (dec_size (zdrop d l1)) as [[es l2]|] eqn:D2.
    2: { rewrite (size_none D R HR fuel (zdrop d l1)) by auto. cbn [pbind]. exists DetoolsError. reflexivity. }
    destruct (size_any D R HR fuel _ _ _ _ A4 B1d D2) as (r3 & c3 & A5 & A6). rewrite A5. cbn [pbind ret].
    assert (B2 : bytes_ok l2) by (eapply size_rest; eauto). pose proof (dec_size_len _ _ _ D2) as L2. pose proof (zlen_nonneg l2) as N2.
    rewrite chunk_max. set (e := Z.max es 0) in *.
    destruct (Z.ltb_spec ts (tp + d + es)).
    { destruct (Z.ltb_spec (left - d) e); [|lia]. cbn [orb pbind raise]. exists DetoolsError. reflexivity. }
    destruct (Z.ltb_spec (left - d) e); [lia|]. cbn [orb].
    destruct (Z.ltb_spec (zlen l2) e) as [Le|Le].
    { match goal with |- context [chunk_loop fuel fuel (mem_extra_chunk off) e ?s3] => destruct (mem_extra_fail fuel off s3 e l2) as (y & E) end; auto; try lia.
      rewrite E. cbn [pbind]. exists y. reflexivity. }
    match goal with |- context [chunk_loop fuel fuel (mem_extra_chunk off) e ?s3] => destruct (mem_extra fuel old off s3 (done ++ x) e l2 A6) as (r4 & A7 & A8) end; try lia.
    { split; cbn [PyApply.ps_out PyApply.ps_dfdiff PyApply.set_reader]; [reflexivity|]. rewrite zlen_app. lia. }
    { rewrite zlen_app. lia. }
    rewrite A7. cbn [pbind ret]. cbn [ps_reader ps_from ps_out ps_dfdiff PyApply.set_reader].
    pose proof (bytes_drop e l2 B2) as B2d. assert (L2d : (length (zdrop e l2) <= length l2)%nat) by (unfold zdrop; rewrite skipn_length; lia).
    destruct (dec_size (zdrop e l2)) as [[a l3]|] eqn:D3.
    2: { rewrite (size_none D R HR fuel (zdrop e l2)) by auto. cbn [pbind]. exists DetoolsError. reflexivity. }
    destruct (size_any D R HR fuel _ _ _ _ A8 B2d D3) as (r5 & c5 & A9 & A10). rewrite A9. cbn [pbind ret].
    assert (B3 : bytes_ok l3) by (eapply size_rest; eauto). pose proof (dec_size_len _ _ _ D3) as L3.
    assert (Le2 : zlen (ztake e l2) = e) by (rewrite zlen_ztake by lia; lia).
    match goal with |- context [segment_loop j fuel off ?tp2 ts ?s2] =>
      specialize (IH j old off lo (pos + d + a) (left - d - e) l3 s2 ((done ++ x) ++ ztake e l2) tp2 ts ltac:(lia) ltac:(lia) B3 A10) end.
    cbn [ps_from ps_dfdiff ps_out] in IH. specialize (IH ltac:(lia) ltac:(lia) ltac:(lia)).
    assert (G : fits old off (mkps r5 (ps_from s + d + a) (upto old ((done ++ x) ++ ztake e l2)) (ps_dfdiff s + d + e)) ((done ++ x) ++ ztake e l2)).
    { split; cbn [PyApply.ps_out PyApply.ps_dfdiff]; [reflexivity|]. rewrite !zlen_app. lia. }
    specialize (IH G Hlo Hold).
    destruct (segment_records k old lo (pos + d + a) (left - d - e) l3) as [to2 rest2| |].
    + destruct IH as (r6 & p6 & q6 & A11 & A12 & A13). rewrite A11. exists r6, p6, q6. split; [unfold ret; do 3 f_equal; rewrite <- !app_assoc; reflexivity|]. split; [exact A12|]. rewrite !zlen_app. lia.
    + exact IH.
    + exact I.
Qed.

End Reader.
