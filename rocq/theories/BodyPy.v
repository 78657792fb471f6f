(** A sequential patch that describes something is applied by Python, or refused because
    of bytes after its last record (C73). *)

From Coq Require Import ZArith List Bool Lia ZifyBool ZifyNat ZifyN.
From Verif Require Import Prelude Lib Spec SeqSpec PySize PyCrle PyCreate PyApply PySpec SizeCodec PyReader PyApplyProofs PyDecomp PySeq SeqBound RefuseSpec BodySpec BodyProofs.
Import ListNotations.
Open Scope Z_scope.

Lemma bytes_drop : forall n l, bytes_ok l -> bytes_ok (zdrop n l).
Proof. intros n l H. unfold bytes_ok, zdrop in *. rewrite Forall_forall in *. intros x Hx. apply H. rewrite <- (firstn_skipn (Z.to_nat n) l). apply in_or_app. auto. Qed.

Lemma usize_rest : forall l v r, bytes_ok l -> dec_usize l = Some (v, r) -> bytes_ok r /\ 0 <= v.
Proof.
  induction l as [|x l IH]; intros v r Hl D; cbn [dec_usize] in D; [discriminate|]. inv Hl. unfold byte_ok in H1.
  destruct (Z.ltb_spec x 128); [inv D; split; [auto|lia]|]. destruct (dec_usize l) as [[v' r']|] eqn:D'; [|discriminate].
  destruct (IH v' r' H2 eq_refl) as [A B]. assert (v = x - 128 + 128 * v' /\ r = r') as [-> ->] by (split; congruence). split; [auto|lia].
Qed.

Lemma size_rest : forall l v r, bytes_ok l -> dec_size l = Some (v, r) -> bytes_ok r.
Proof.
  intros [|b l] v r Hl D; [discriminate|]. cbn [dec_size] in D. inv Hl. destruct (b <? 128); [inv D; auto|].
  destruct (dec_usize l) as [[v' r']|] eqn:D'; [|discriminate]. apply usize_rest in D'; auto. inv D. tauto.
Qed.

Lemma sign_bit : forall b, byte_ok b -> (Z.land b 64 =? 0) = negb (Z.testbit b 6).
Proof.
  intros b Hb. change 64 with (2 ^ 6) at 1. destruct (Z.testbit b 6) eqn:T; cbn [negb].
  - apply Z.eqb_neq. intros X. assert (Y : Z.testbit (Z.land b (2 ^ 6)) 6 = false) by (rewrite X; apply Z.bits_0).
    rewrite Z.land_spec, T, Z.pow2_bits_true in Y by lia. discriminate.
  - apply Z.eqb_eq. apply Z.bits_inj'. intros i Hi. rewrite Z.land_spec, Z.bits_0. destruct (Z.eq_dec i 6) as [->|N]; [rewrite T; reflexivity|].
    rewrite Z.pow2_bits_false by lia. apply andb_false_r.
Qed.

Lemma unpack_loop_dec : forall l value off, bytes_ok l -> 0 <= off -> 0 <= value < 2 ^ off ->
  py_unpack_loop l value off = match dec_usize l with None => None | Some (v, r) => Some (value + 2 ^ off * v, r) end.
Proof.
  induction l as [|b l IH]; intros value off Hl Ho Hv; [reflexivity|]. cbn [py_unpack_loop dec_usize]. inv Hl.
  rewrite land_128_byte by auto. unfold byte_ok in H1.
  rewrite land_127. pose proof (Z.mod_pos_bound b 128 ltac:(lia)). rewrite lor_add by lia.
  destruct (Z.ltb_spec b 128).
  - rewrite Z.mod_small by lia. do 2 f_equal. lia.
  - assert (P : 2 ^ (off + 7) = 2 ^ off * 128) by (rewrite Z.pow_add_r by lia; reflexivity).
    assert (E : b mod 128 = b - 128) by lia. rewrite E in *.
    assert (0 <= (b - 128) * 2 ^ off <= 127 * 2 ^ off) by (split; [apply Z.mul_nonneg_nonneg; lia|apply Z.mul_le_mono_nonneg_r; lia]).
    rewrite IH by (auto; lia). destruct (dec_usize l) as [[v r]|]; [|reflexivity]. do 2 f_equal. rewrite P. ring.
Qed.

Lemma unpack_dec : forall l, bytes_ok l -> py_unpack_size l = dec_size l.
Proof.
  intros [|b l] Hl; [reflexivity|]. cbn [py_unpack_size dec_size]. inv Hl. rewrite land_128_byte, sign_bit by auto.
  rewrite land_63. pose proof (Z.mod_pos_bound b 64 ltac:(lia)). destruct (b <? 128).
  - destruct (Z.testbit b 6); reflexivity.
  - rewrite unpack_loop_dec by (auto; change (2 ^ 6) with 64; lia). destruct (dec_usize l) as [[v r]|]; [|reflexivity].
    change (2 ^ 6) with 64. destruct (Z.testbit b 6); reflexivity.
Qed.

Section Reader.
Context (D : decompressor) (R : dstate D -> list Z -> list Z -> Prop) (HR : contract D R).
Context (fuel : nat).
Notation holds := (holds R fuel).

Lemma byte_any : forall r b out, holds r (b :: out) -> exists r1, pr_byte fuel r = ret (b, r1) /\ holds r1 out.
Proof using HR.
  intros r b out H. destruct (pr_byte_spec D R HR fuel r (b :: out) [] b out H (app_nil_r _)) as [(o1 & r1 & A1 & A2 & A3 & A4)|(A1 & _)]; [|congruence].
  exists r1. inv A1. auto.
Qed.

Lemma loop_any : forall out value off count r n v rest, holds r out -> bytes_ok out -> dec_usize out = Some (v, rest) ->
  0 <= off -> 0 <= value < 2 ^ off -> (length out < n)%nat ->
  exists r1 c1, pr_size_loop n fuel value off count r = ret (value + 2 ^ off * v, c1, r1) /\ holds r1 rest.
Proof using HR.
  induction out as [|b out IH]; intros value off count r n v rest H Hb E Ho Hv Hn; [discriminate|]. destruct n as [|n]; [cbn in Hn; lia|].
  cbn [pr_size_loop]. destruct (byte_any _ _ _ H) as (r1 & A & H1). rewrite A. cbn [pbind ret]. inv Hb. cbn [dec_usize] in E.
  rewrite land_128_byte by auto. unfold byte_ok in H3.
  rewrite land_127. pose proof (Z.mod_pos_bound b 128 ltac:(lia)). rewrite lor_add by lia.
  destruct (Z.ltb_spec b 128).
  - inv E. exists r1, (count + 1). rewrite Z.mod_small by lia. split; [|auto]. unfold ret. do 4 f_equal. lia.
  - assert (P : 2 ^ (off + 7) = 2 ^ off * 128) by (rewrite Z.pow_add_r by lia; reflexivity).
    assert (E2 : b mod 128 = b - 128) by lia. rewrite E2 in *.
    assert (0 <= (b - 128) * 2 ^ off <= 127 * 2 ^ off) by (split; [apply Z.mul_nonneg_nonneg; lia|apply Z.mul_le_mono_nonneg_r; lia]).
    destruct (dec_usize out) as [[v' r']|] eqn:D'; [|discriminate]. assert (v = b - 128 + 128 * v' /\ rest = r') as [-> ->] by (split; congruence).
    destruct (IH (value + (b - 128) * 2 ^ off) (off + 7) (count + 1) r1 n v' r' H1 H4 eq_refl) as (r2 & c2 & B1 & B2); try lia; [cbn in Hn; lia|].
    exists r2, c2. split; [|exact B2]. rewrite B1. unfold ret. do 4 f_equal. rewrite P. ring.
Qed.

Lemma size_any : forall out r v rest, holds r out -> bytes_ok out -> dec_size out = Some (v, rest) ->
  exists r1 c1, pr_unpack_size fuel r = ret (v, c1, r1) /\ holds r1 rest.
Proof using HR.
  intros [|b out] r v rest H Hb E; [discriminate|]. unfold pr_unpack_size.
  assert (Hlen : (length out < fuel)%nat) by (destruct H as [_ H]; cbn [length] in H; lia).
  destruct (byte_any _ _ _ H) as (r1 & A & H1). rewrite A. cbn [pbind ret]. inv Hb. cbn [dec_size] in E.
  rewrite land_128_byte, sign_bit by auto. rewrite land_63. pose proof (Z.mod_pos_bound b 64 ltac:(lia)).
  destruct (b <? 128).
  - assert (v = (if Z.testbit b 6 then - (b mod 64) else b mod 64) /\ rest = out) as [-> ->] by (split; congruence).
    exists r1, 1. cbn [pbind ret]. split; [|auto]. destruct (Z.testbit b 6); reflexivity.
  - destruct (dec_usize out) as [[v' r']|] eqn:D'; [|discriminate].
    assert (v = (if Z.testbit b 6 then - (b mod 64 + 64 * v') else b mod 64 + 64 * v') /\ r' = rest) as [-> ->] by (split; congruence).
    destruct (loop_any out (b mod 64) 6 1 r1 fuel v' rest H1 H4 D') as (r2 & c2 & B1 & B2); try lia.
    exists r2, c2. rewrite B1. cbn [pbind ret]. split; [|exact B2]. change (2 ^ 6) with 64. destruct (Z.testbit b 6); reflexivity.
Qed.

Lemma rec_data : forall (s : pstate D) n rest from old, holds (ps_reader s) rest -> 0 <= n <= zlen rest -> slice from (ps_from s) n = Some old ->
  exists r1, chunk_loop fuel fuel (diff_chunk from None) n s = ret (mkps r1 (ps_from s + n) (ps_out s ++ add_mod (ztake n rest) old) (ps_dfdiff s + n)) /\ holds r1 (zdrop n rest).
Proof using HR.
  intros s n rest from old H Hn Hs.
  assert (Hlen : (length rest < fuel)%nat) by (destruct H; lia).
  unfold slice in Hs. destruct (Z.eqb_spec n 0) as [->|N].
  - inv Hs. exists (ps_reader s). split; [|exact H]. destruct fuel; [lia|]. cbn [chunk_loop]. change (0 <? 0) with false. cbv iota. destruct s. cbn [PyApply.ps_from PyApply.ps_out PyApply.ps_dfdiff PyApply.ps_reader add_mod]; change (ztake 0 rest) with (@nil Z); cbn [add_mod].
    rewrite app_nil_r, !Z.add_0_r. reflexivity.
  - destruct ((0 <=? ps_from s) && (ps_from s + n <=? zlen from)) eqn:X; [|discriminate]. inv Hs.
    assert (Lx : zlen (ztake n rest) = n) by (rewrite zlen_ztake by lia; lia).
    destruct (diff_loop D R HR fuel from None fuel s (ztake n rest) rest [] (zdrop n rest)) as [(o1 & r1 & A1 & A2 & A3)|(A1 & _)]; auto; try lia; try exact I.
    + rewrite app_nil_r. symmetry. apply ztake_zdrop.
    + rewrite Lx in A3. rewrite A3. exists r1. rewrite app_nil_r in A1. subst o1. split; [reflexivity|auto].
    + congruence.
Qed.

Lemma rec_extra : forall (s : pstate D) n rest, holds (ps_reader s) rest -> 0 <= n <= zlen rest ->
  exists r1, chunk_loop fuel fuel (extra_chunk None) n s = ret (mkps r1 (ps_from s) (ps_out s ++ ztake n rest) (ps_dfdiff s + n)) /\ holds r1 (zdrop n rest).
Proof using HR.
  intros s n rest H Hn.
  assert (Hlen : (length rest < fuel)%nat) by (destruct H; lia).
  assert (Lx : zlen (ztake n rest) = n) by (rewrite zlen_ztake by lia; lia).
  destruct (extra_loop D R HR fuel None fuel s (ztake n rest) rest [] (zdrop n rest)) as [(o1 & r1 & A1 & A2 & A3)|(A1 & _)]; auto; try lia; try exact I.
  - rewrite app_nil_r. symmetry. apply ztake_zdrop.
  - rewrite Lx in A3. rewrite A3. exists r1. rewrite app_nil_r in A1. subst o1. split; [reflexivity|auto].
  - congruence.
Qed.

Lemma records_any : forall k j from clamps pos left l to rest (s : pstate D) tp ts, records_mean k from pos left l = Some (to, rest) ->
  (k <= j)%nat -> 0 <= left -> bytes_ok l -> holds (ps_reader s) l -> ps_from s = pos -> ts - tp = left ->
  exists r1 p1 q1, apply_loop j fuel clamps from None tp ts s = ret (mkps r1 p1 (ps_out s ++ to) q1) /\ holds r1 rest.
Proof using HR.
  induction k as [|k IH]; intros j from clamps pos left l to rest s tp ts M Hj Hl Hb H Hp Ht; cbn [records_mean] in M.
  - destruct (Z.eqb_spec left 0) as [E|E]; [|discriminate]. inv M. exists (ps_reader s), (ps_from s), (ps_dfdiff s).
    split; [|auto]. destruct j; cbn [apply_loop]; (destruct (Z.ltb_spec tp ts); [lia|]); rewrite app_nil_r; destruct s; reflexivity.
  - destruct (Z.eqb_spec left 0) as [E|E].
    { inv M. exists (ps_reader s), (ps_from s), (ps_dfdiff s).
      split; [|auto]. destruct j; cbn [apply_loop]; (destruct (Z.ltb_spec tp ts); [lia|]); rewrite app_nil_r; destruct s; reflexivity. }
    destruct j as [|j]; [lia|]. cbn [apply_loop]. destruct (Z.ltb_spec tp ts); [|lia].
    destruct (dec_size l) as [[d l1]|] eqn:D1; [|discriminate].
    destruct ((d <? 0) || (left <? d) || (zlen l1 <? d)) eqn:C1; [discriminate|].
    destruct (slice from pos d) as [old|] eqn:Sl; [|discriminate].
    destruct (dec_size (zdrop d l1)) as [[e l2]|] eqn:D2; [|discriminate].
    destruct ((e <? 0) || (left - d <? e) || (zlen l2 <? e)) eqn:C2; [discriminate|].
    destruct (dec_size (zdrop e l2)) as [[a l3]|] eqn:D3; [|discriminate].
    destruct (Z.ltb_spec (pos + d + a) 0) as [|Hpos]; [discriminate|].
    destruct (records_mean k from (pos + d + a) (left - d - e) l3) as [[to2 rest2]|] eqn:M2; [|discriminate]. inv M.
    assert (B1 : bytes_ok l1) by (eapply size_rest; eauto). assert (B2 : bytes_ok l2) by (eapply size_rest; [|exact D2]; apply bytes_drop; auto).
    assert (B3 : bytes_ok l3) by (eapply size_rest; [|exact D3]; apply bytes_drop; auto).
    unfold iter_chunks at 1. destruct (size_any _ _ _ _ H Hb D1) as (r1 & c1 & A1 & A2). rewrite A1. cbn [pbind ret].
    destruct (Z.ltb_spec ts (tp + d)); [lia|].
    destruct (rec_data (PyApply.set_reader s r1) d l1 from old A2 ltac:(lia) Sl) as (r2 & A3 & A4). rewrite A3. cbn [pbind ret].
    unfold iter_chunks. cbn [ps_reader]. destruct (size_any _ _ _ _ A4 (bytes_drop _ _ B1) D2) as (r3 & c3 & A5 & A6). rewrite A5. cbn [pbind ret].
    destruct (Z.ltb_spec ts (tp + Z.max d 0 + e)); [lia|].
    destruct (rec_extra (PyApply.set_reader (mkps r2 (ps_from (PyApply.set_reader s r1) + d) (ps_out (PyApply.set_reader s r1) ++ add_mod (ztake d l1) old) (ps_dfdiff (PyApply.set_reader s r1) + d)) r3) e l2 A6 ltac:(lia)) as (r4 & A7 & A8).
    rewrite A7. cbn [pbind ret]. cbn [ps_reader ps_from ps_out ps_dfdiff PyApply.set_reader].
    destruct (size_any _ _ _ _ A8 (bytes_drop _ _ B2) D3) as (r5 & c5 & A9 & A10). rewrite A9. cbn [pbind ret]. unfold seek_cur.
    destruct (Z.ltb_spec (ps_from s + d + a) 0); [lia|]. cbn [pbind ret].
    match goal with |- exists _ _ _, apply_loop j fuel clamps from None ?tp2 ts ?s2 = _ /\ _ =>
      destruct (IH j from clamps (ps_from s + d + a) (ts - tp - d - e) l3 to2 rest s2 tp2 ts M2) as (r6 & p6 & q6 & A11 & A12) end; auto; try lia.
    rewrite A11. cbn [PyApply.ps_out]. exists r6, p6, q6. split; [|exact A12]. unfold ret. do 3 f_equal. rewrite <- !app_assoc. reflexivity.
Qed.

End Reader.

(** ** The header *)

Lemma usize_after : forall l v r, dec_usize l = Some (v, r) -> after_size l = r.
Proof.
  induction l as [|b l IH]; intros v r D; cbn [dec_usize after_size] in *; [discriminate|]. destruct (b <? 128); [congruence|].
  destruct (dec_usize l) as [[v' r']|]; [|discriminate]. inv D. eauto.
Qed.

Lemma header_dec : forall patch n, announced_size patch = Some n -> Z.testbit (nth 1 patch 0) 6 = false ->
  dec_size (tl patch) = Some (n, body_of patch).
Proof.
  intros [|a [|b l]] n A S; try discriminate. unfold announced_size in A. unfold body_of. cbn [tl nth] in *. cbn [dec_size after_size].
  destruct (b <? 128); [rewrite S; congruence|]. destruct (dec_usize l) as [[v r]|] eqn:D; [|discriminate]. rewrite S, (usize_after _ _ _ D). congruence.
Qed.

Lemma comp_stream : forall c body stream, compressed c body stream -> py_stream c body stream.
Proof.
  intros c body stream H. destruct H as [body|segs Hs|ts pad bytes H1 H2 H3 H4].
  - constructor.
  - constructor. eapply Forall_impl; [|exact Hs]. cbn beta. intros a. change (2 ^ 28) with 268435456. change (2 ^ 63) with 9223372036854775808. lia.
  - change 68 with ((8 - 4) * 16 + (7 - 3)). econstructor; eauto; lia.
Qed.

Lemma py_described : forall X F hdiff clamps from patch body c n to rest,
  bytes_ok patch -> bytes_ok body -> patch_type (hd 0 patch) = 0 -> announced_comp patch = comp_number c -> compressed c body (body_of patch) ->
  (c = CompHeatshrink -> hs_reader_ok (x_heatshrink X)) ->
  announced_size patch = Some n -> Z.testbit (nth 1 patch 0) 6 = false -> 0 <= n -> described from n body = Some (to, rest) ->
  exists m, forall fuel, (m <= fuel)%nat ->
    apply_patch X F hdiff fuel clamps from patch =
    if (n =? 0) || (zlen rest =? 0) then ret (n, to) else raise DetoolsError.
Proof.
  intros X F hdiff clamps from patch body c n to rest Hp Hb Ht Hc Hs Hh Ha Hsg Hn M. pose proof (header_dec _ _ Ha Hsg) as Hd.
  destruct patch as [|b l]; [discriminate|]. cbn [tl hd] in *. inv Hp.
  assert (Hu : unpack_header b = (0, comp_number c)).
  { unfold unpack_header. unfold announced_comp in Hc. cbn [hd] in Hc. rewrite Hc. f_equal. unfold patch_type in Ht. rewrite Z.shiftr_div_pow2 by lia. change (2 ^ 4) with 16.
    change 7 with (Z.ones 3). rewrite Z.land_ones by lia. exact Ht. }
  destruct (comp_dec X c) as (D & HD & HDs).
  assert (Hread : forall fuel, apply_patch X F hdiff fuel clamps from (b :: l) = if n =? 0 then ret (n, []) else body_of_patch F fuel clamps from n D (body_of (b :: l))).
  { intros fuel. unfold apply_patch. rewrite Hu. cbn [Z.eqb]. unfold apply_patch_sequential, read_header_sequential. rewrite Hu, HD.
    change (negb (0 =? 0)) with false. cbn iota. unfold file_unpack_size. rewrite unpack_dec, Hd by auto. cbn [pbind ret]. destruct (n =? 0); reflexivity. }
  unfold described in M. destruct (Z.eqb_spec n 0) as [En|En].
  { inv M. exists O. intros fuel _. rewrite Hread. reflexivity. }
  destruct (dec_size body) as [[d l1]|] eqn:D1; [|discriminate]. destruct (Z.ltb_spec 0 d) as [|Hd0]; [discriminate|].
  assert (Hne : body <> []) by (intros ->; discriminate).
  destruct (HDs _ _ (comp_stream _ _ _ Hs) Hne Hh) as (R & R1 & R2 & R3).
  exists (2 * (length (body_of (b :: l)) + length body) + 2)%nat. intros fuel Hf. rewrite Hread. cbn [orb].
  unfold body_of_patch, create_data_format_readers.
  assert (H0 : holds R fuel (pr_open D (body_of (b :: l))) body) by (split; [exact R3|cbn [pr_file pr_open]; lia]).
  destruct (size_any D R R1 fuel _ _ _ _ H0 Hb D1) as (r1 & c1 & A1 & A2). rewrite A1. cbn [pbind ret].
  destruct (Z.ltb_spec 0 d); [lia|]. cbn [pbind ret].
  pose proof (dec_size_len _ _ _ D1) as L1.
  destruct (records_any D R R1 fuel (length l1) fuel from clamps 0 n l1 to rest (mkps r1 0 [] 0) 0 n M) as (r2 & p2 & q2 & A3 & A4); auto; try lia.
  { eapply size_rest; [exact Hb|exact D1]. }
  rewrite A3. cbn [pbind ret]. cbn [PyApply.ps_reader PyApply.ps_out app]. destruct A4 as [A4 _]. unfold pr_eof.
  destruct (Z.eqb_spec (zlen rest) 0) as [Ez|Nz].
  - apply zlen_0_nil in Ez. subst rest. rewrite (R2 _ _ A4). reflexivity.
  - specialize (R1 _ _ _ A4). destruct (d_eof D (pr_state r2)); [|reflexivity]. subst rest. exfalso. apply Nz. reflexivity.
Qed.
