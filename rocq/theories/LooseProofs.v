(** Exactly what the Python applier makes of a sequential patch without a data format
    (C78). *)

From Coq Require Import ZArith List Bool Lia ZifyBool ZifyNat ZifyN.
From Verif Require Import Prelude Lib Spec SeqSpec PySize PyCrle PyCreate PyApply PySpec SizeCodec PyReader PyApplyProofs PyDecomp PySeq SeqBound RefuseSpec BodySpec BodyProofs BodyPy LooseSpec.
Import ListNotations.
Open Scope Z_scope.

Section Reader.
Context (D : decompressor) (R : dstate D -> list Z -> list Z -> Prop) (HR : contract D R).
Context (fuel : nat).
Notation holds := (holds R fuel).

Lemma byte_none : forall r, holds r [] -> pr_byte fuel r = raise DetoolsError.
Proof.
  intros r H. destruct (pr_byte_spec D R HR fuel r [] [0] 0 [] H eq_refl) as [(o1 & r1 & A1 & _)|(_ & A)]; [discriminate|exact A].
Qed.

Lemma loop_none : forall out value off count r n, holds r out -> bytes_ok out -> dec_usize out = None -> (length out < n)%nat ->
  pr_size_loop n fuel value off count r = raise DetoolsError.
Proof.
  induction out as [|b out IH]; intros value off count r n H Hb E Hn; (destruct n as [|n]; [cbn in Hn; lia|]); cbn [pr_size_loop].
  - rewrite (byte_none _ H). reflexivity.
  - destruct (byte_any D R HR fuel _ _ _ H) as (r1 & A & H1). rewrite A. cbn [pbind ret]. inv Hb. cbn [dec_usize] in E.
    rewrite land_128_byte by auto. destruct (b <? 128); [discriminate|]. destruct (dec_usize out) as [[v r']|] eqn:D'; [discriminate|].
    apply IH; auto. cbn in Hn; lia.
Qed.

Lemma size_none : forall out r, holds r out -> bytes_ok out -> dec_size out = None -> pr_unpack_size fuel r = raise DetoolsError.
Proof.
  intros [|b out] r H Hb E; unfold pr_unpack_size.
  - rewrite (byte_none _ H). reflexivity.
  - assert (Hlen : (length out < fuel)%nat) by (destruct H as [_ H]; cbn [length] in H; lia).
    destruct (byte_any D R HR fuel _ _ _ H) as (r1 & A & H1). rewrite A. cbn [pbind ret]. inv Hb. cbn [dec_size] in E.
    rewrite land_128_byte by auto. destruct (b <? 128); [discriminate|]. destruct (dec_usize out) as [[v r']|] eqn:D'; [discriminate|].
    rewrite (loop_none out); auto.
Qed.

Lemma read_any : forall r out n, holds r out -> 0 <= n ->
  if zlen out <? n then pr_decompress fuel n r = raise DetoolsError
  else exists r1, pr_decompress fuel n r = ret (ztake n out, r1) /\ holds r1 (zdrop n out).
Proof.
  intros r out n H Hn. destruct (Z.ltb_spec (zlen out) n) as [L|L].
  - assert (Lx : zlen (out ++ zrepeat 0 (n - zlen out)) = n) by (rewrite zlen_app, zlen_zrepeat by lia; lia).
    destruct (pr_read D R HR fuel r out (zrepeat 0 (n - zlen out)) (out ++ zrepeat 0 (n - zlen out)) [] H) as [(o1 & r1 & A1 & A2 & A3 & A4)|(A1 & A2)].
    + symmetry. apply app_nil_r.
    + exfalso. pose proof (f_equal (@zlen Z) A1) as Q. rewrite zlen_app, Lx in Q. pose proof (zlen_nonneg o1). lia.
    + rewrite Lx in A2. exact A2.
  - assert (Lx : zlen (ztake n out) = n) by (rewrite zlen_ztake by lia; lia).
    destruct (pr_read D R HR fuel r out [] (ztake n out) (zdrop n out) H) as [(o1 & r1 & A1 & A2 & A3 & A4)|(A1 & A2)].
    + rewrite app_nil_r. symmetry. apply ztake_zdrop.
    + rewrite Lx in A4. exists r1. rewrite app_nil_r in A2. subst o1. auto.
    + congruence.
Qed.

Lemma diff_fail : forall k from (s : pstate D) n rest, holds (ps_reader s) rest -> (length rest < k)%nat -> 0 < n -> 0 <= ps_from s ->
  zlen rest < n \/ zlen from < ps_from s + n -> exists e, chunk_loop k fuel (diff_chunk from None) n s = raise e.
Proof.
  induction k as [|k IH]; intros from s n rest H Hk Hn Hp Hbad; [lia|]. cbn [chunk_loop]. destruct (Z.ltb_spec 0 n); [|lia].
  set (m := Z.min n 4096) in *. assert (Hm : 0 < m <= n) by lia.
  pose proof (read_any (ps_reader s) rest m H ltac:(lia)) as A. destruct (Z.ltb_spec (zlen rest) m) as [L|L].
  { rewrite A. cbn [pbind]. exists DetoolsError. reflexivity. }
  destruct A as (r1 & A & H1). rewrite A. cbn [pbind ret]. unfold diff_chunk at 1. unfold PyApply.set_reader. cbn [PyApply.ps_from PyApply.ps_out PyApply.ps_dfdiff PyApply.ps_reader].
  unfold add_bytes. unfold file_read_at at 1.
  assert (Lx : zlen (ztake m rest) = m) by (rewrite zlen_ztake by lia; lia).
  assert (Lf : zlen (ztake m (zdrop (PyApply.ps_from s) from)) = Z.min m (Z.max 0 (zlen from - PyApply.ps_from s))) by (rewrite zlen_ztake, zlen_zdrop by lia; reflexivity).
  destruct (Z.eqb_spec (zlen (ztake m rest)) (zlen (ztake m (zdrop (PyApply.ps_from s) from)))) as [Eq|Ne].
  2: { cbn [pbind raise]. exists OtherError. reflexivity. }
  cbn [pbind ret add_dfdiff].
  match goal with |- exists e, chunk_loop k fuel _ (n - m) ?s1 = _ => destruct (IH from s1 (n - m) (zdrop m rest)) as (e & B) end.
  - exact H1.
  - unfold zdrop. rewrite skipn_length. unfold zlen in L. lia.
  - rewrite Lf in Eq. rewrite Lx in Eq. destruct Hbad; lia.
  - cbn [PyApply.ps_from]. unfold file_read_at. lia.
  - cbn [PyApply.ps_from]. unfold file_read_at. rewrite zlen_zdrop by lia. lia.
  - exists e. exact B.
Qed.

Lemma extra_fail : forall k (s : pstate D) n rest, holds (ps_reader s) rest -> (length rest < k)%nat -> 0 < n -> zlen rest < n ->
  exists e, chunk_loop k fuel (extra_chunk None) n s = raise e.
Proof.
  induction k as [|k IH]; intros s n rest H Hk Hn Hbad; [lia|]. cbn [chunk_loop]. destruct (Z.ltb_spec 0 n); [|lia].
  set (m := Z.min n 4096) in *. assert (Hm : 0 < m <= n) by lia.
  pose proof (read_any (ps_reader s) rest m H ltac:(lia)) as A. destruct (Z.ltb_spec (zlen rest) m) as [L|L].
  { rewrite A. cbn [pbind]. exists DetoolsError. reflexivity. }
  destruct A as (r1 & A & H1). rewrite A. cbn [pbind ret]. unfold extra_chunk at 1. cbn [pbind ret add_dfdiff].
  match goal with |- exists e, chunk_loop k fuel _ (n - m) ?s1 = _ => destruct (IH s1 (n - m) (zdrop m rest)) as (e & B) end.
  - exact H1.
  - unfold zdrop. rewrite skipn_length. unfold zlen in L. lia.
  - lia.
  - rewrite zlen_zdrop by lia. lia.
  - exists e. exact B.
Qed.

(** A size that is not positive: no data. *)
Lemma chunk_max : forall k (body : Z -> list Z -> pstate D -> pyo (pstate D)) n s, chunk_loop k fuel body n s = chunk_loop k fuel body (Z.max n 0) s.
Proof. intros k body n s. destruct (Z.ltb_spec 0 n). - replace (Z.max n 0) with n by lia. reflexivity. - destruct k; cbn [chunk_loop]; (destruct (Z.ltb_spec 0 n); [lia|]); (destruct (Z.ltb_spec 0 (Z.max n 0)); [lia|]); reflexivity. Qed.

Lemma records_loose : forall k j from clamps pos left l (s : pstate D) tp ts, (length l <= k)%nat -> (k < j)%nat -> bytes_ok l ->
  holds (ps_reader s) l -> ps_from s = pos -> 0 <= pos -> ts - tp = left ->
  match loose_records k clamps from pos left l with
  | Some (to, rest) => exists r1 p1 q1, apply_loop j fuel clamps from None tp ts s = ret (mkps r1 p1 (ps_out s ++ to) q1) /\ holds r1 rest
  | None => exists e, apply_loop j fuel clamps from None tp ts s = raise e
  end.
Proof.
  induction k as [|k IH]; intros j from clamps pos left l s tp ts Hlk Hj Hb H Hp Hpos Ht; (destruct j as [|j]; [lia|]); cbn [loose_records apply_loop].
  - destruct l; [|cbn in Hlk; lia]. destruct (Z.leb_spec left 0); (destruct (Z.ltb_spec tp ts); [try lia|try lia]).
    + exists (ps_reader s), (ps_from s), (ps_dfdiff s). split; [|exact H]. rewrite app_nil_r. destruct s; reflexivity.
    + unfold iter_chunks at 1. rewrite (size_none []) by (auto; constructor). cbn [pbind]. exists DetoolsError. reflexivity.
  - destruct (Z.leb_spec left 0); (destruct (Z.ltb_spec tp ts); [try lia|try lia]).
    { exists (ps_reader s), (ps_from s), (ps_dfdiff s). split; [|exact H]. rewrite app_nil_r. destruct s; reflexivity. }
    destruct (dec_size l) as [[ds l1]|] eqn:D1.
    2: { unfold iter_chunks at 1. rewrite (size_none l) by auto. cbn [pbind]. exists DetoolsError. reflexivity. }
    destruct (size_any D R HR fuel _ _ _ _ H Hb D1) as (r1 & c1 & A1 & A2).
    assert (It : forall body, iter_chunks fuel body tp ts s = if ts <? tp + ds then raise DetoolsError else
      pbind (chunk_loop fuel fuel body ds (PyApply.set_reader s r1)) (fun s1 => ret (tp + Z.max ds 0, s1))).
    { intros body. unfold iter_chunks. rewrite A1. reflexivity. }
    rewrite It. clear It. cbv zeta.
    assert (B1 : bytes_ok l1) by (eapply size_rest; eauto). pose proof (dec_size_len _ _ _ D1) as L1. pose proof (zlen_nonneg l1).
    assert (Hlen1 : (length l1 < fuel)%nat) by (destruct A2; lia).
    rewrite chunk_max. set (d := Z.max ds 0) in *.
    destruct (Z.ltb_spec ts (tp + ds)).
    { destruct (Z.ltb_spec left d); [|lia]. cbn [orb pbind raise]. exists DetoolsError. reflexivity. }
    destruct (Z.ltb_spec left d); [lia|]. cbn [orb].
    destruct (Z.ltb_spec (zlen l1) d) as [Ld|Ld].
    { destruct (diff_fail fuel from (PyApply.set_reader s r1) d l1 A2) as (e & E); auto; try (cbn [PyApply.ps_from PyApply.set_reader]; lia).
      rewrite E. cbn [pbind]. exists e. reflexivity. }
    destruct (slice from pos d) as [old|] eqn:Sl.
    2: { unfold slice in Sl. destruct (Z.eqb_spec d 0); [discriminate|]. destruct ((0 <=? pos) && (pos + d <=? zlen from)) eqn:X; [discriminate|].
         destruct (diff_fail fuel from (PyApply.set_reader s r1) d l1 A2) as (e & E); auto; try (cbn [PyApply.ps_from PyApply.set_reader]; lia).
         rewrite E. cbn [pbind]. exists e. reflexivity. }
    rewrite <- Hp in Sl.
    destruct (rec_data D R HR fuel (PyApply.set_reader s r1) d l1 from old A2 ltac:(lia) Sl) as (r2 & A3 & A4). rewrite A3. cbn [pbind ret].
    unfold iter_chunks. cbn [ps_reader]. pose proof (bytes_drop d l1 B1) as B1d.
    assert (L1d : (length (zdrop d l1) <= length l1)%nat) by (unfold zdrop; rewrite skipn_length; lia).
    destruct (dec_size (zdrop d l1)) as [[es l2]|] eqn:D2.
    2: { rewrite (size_none (zdrop d l1)) by auto. cbn [pbind]. exists DetoolsError. reflexivity. }
    destruct (size_any D R HR fuel _ _ _ _ A4 B1d D2) as (r3 & c3 & A5 & A6). rewrite A5. cbn [pbind ret].
    assert (B2 : bytes_ok l2) by (eapply size_rest; eauto). pose proof (dec_size_len _ _ _ D2) as L2. pose proof (zlen_nonneg l2).
    rewrite chunk_max. set (e := Z.max es 0) in *.
    destruct (Z.ltb_spec ts (tp + d + es)).
    { destruct (Z.ltb_spec (left - d) e); [|lia]. cbn [orb pbind raise]. exists DetoolsError. reflexivity. }
    destruct (Z.ltb_spec (left - d) e); [lia|]. cbn [orb].
    destruct (Z.ltb_spec (zlen l2) e) as [Le|Le].
    { match goal with |- context [chunk_loop fuel fuel (extra_chunk None) e ?s3] => destruct (extra_fail fuel s3 e l2) as (x & E) end; auto; try lia.
      rewrite E. cbn [pbind]. exists x. reflexivity. }
    match goal with |- context [chunk_loop fuel fuel (extra_chunk None) e ?s3] => destruct (rec_extra D R HR fuel s3 e l2 A6 ltac:(lia)) as (r4 & A7 & A8) end.
    rewrite A7. cbn [pbind ret]. cbn [ps_reader ps_from ps_out ps_dfdiff PyApply.set_reader].
    pose proof (bytes_drop e l2 B2) as B2d. assert (L2d : (length (zdrop e l2) <= length l2)%nat) by (unfold zdrop; rewrite skipn_length; lia).
    destruct (dec_size (zdrop e l2)) as [[a l3]|] eqn:D3.
    2: { rewrite (size_none (zdrop e l2)) by auto. cbn [pbind]. exists DetoolsError. reflexivity. }
    destruct (size_any D R HR fuel _ _ _ _ A8 B2d D3) as (r5 & c5 & A9 & A10). rewrite A9. cbn [pbind ret].
    assert (B3 : bytes_ok l3) by (eapply size_rest; eauto). pose proof (dec_size_len _ _ _ D3) as L3.
    unfold seek_cur. rewrite Hp.
    destruct (Z.ltb_spec (pos + d + a) 0) as [Ng|Ng].
    + destruct clamps; cbn [andb negb pbind raise ret]; [|exists OtherError; reflexivity].
      replace (Z.max (pos + d + a) 0) with 0 by lia.
      match goal with |- context [apply_loop j fuel true from None ?tp2 ts ?s2] =>
        specialize (IH j from true 0 (left - d - e) l3 s2 tp2 ts ltac:(lia) ltac:(lia) B3 A10 eq_refl ltac:(lia) ltac:(lia)) end.
      destruct (loose_records k true from 0 (left - d - e) l3) as [[to2 rest2]|].
      * destruct IH as (r6 & p6 & q6 & A11 & A12). rewrite A11. cbn [PyApply.ps_out]. exists r6, p6, q6. split; [|exact A12]. unfold ret. do 3 f_equal. rewrite <- !app_assoc. reflexivity.
      * exact IH.
    + cbn [andb pbind ret]. replace (Z.max (pos + d + a) 0) with (pos + d + a) by lia.
      match goal with |- context [apply_loop j fuel clamps from None ?tp2 ts ?s2] =>
        specialize (IH j from clamps (pos + d + a) (left - d - e) l3 s2 tp2 ts ltac:(lia) ltac:(lia) B3 A10 eq_refl ltac:(lia) ltac:(lia)) end.
      destruct (loose_records k clamps from (pos + d + a) (left - d - e) l3) as [[to2 rest2]|].
      * destruct IH as (r6 & p6 & q6 & A11 & A12). rewrite A11. cbn [PyApply.ps_out]. exists r6, p6, q6. split; [|exact A12]. unfold ret. do 3 f_equal. rewrite <- !app_assoc. reflexivity.
      * exact IH.
Qed.

End Reader.
