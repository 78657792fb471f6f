(** Exactly which BSDIFF40 patches apply_patch_bsdiff() accepts (C80). *)

From Coq Require Import ZArith List Bool Lia ZifyBool ZifyNat ZifyN.
From Verif Require Import Prelude Lib Spec SeqSpec PySize Bsdiff PyApply SizeCodec PyReader PyApplyProofs PyBsdiff40 PyBsdiff40Spec PyBsdiff40Proofs PyBsdiff40Thms PyBsdiff40Examples Bs40Spec BodyPy.
Import ListNotations.
Open Scope Z_scope.

Lemma le_unpack : forall l, unpack_le l = le_value l.
Proof. induction l; cbn [unpack_le le_value]; [reflexivity|]. rewrite IHl. reflexivity. Qed.

Lemma le_bound : forall l, bytes_ok l -> 0 <= le_value l < 256 ^ zlen l.
Proof.
  induction l as [|b l IH]; intros H; cbn [le_value]; [change (zlen (@nil Z)) with 0; cbn; lia|]. inv H. unfold byte_ok in H2. specialize (IH H3). rewrite zlen_cons.
  pose proof (zlen_nonneg l). rewrite Z.pow_add_r by lia. change (256 ^ 1) with 256. lia.
Qed.

Lemma offtin_field : forall l, bytes_ok l -> zlen l = 8 -> offtin l = ret (if le_value l <? 2 ^ 63 then le_value l else 2 ^ 63 - le_value l).
Proof.
  intros l Hb L. unfold offtin. rewrite L. change (8 =? 8) with true. cbv iota zeta. rewrite le_unpack. pose proof (le_bound l Hb) as B. rewrite L in B.
  change (256 ^ 8) with (2 * 2 ^ 63) in B. f_equal. f_equal. destruct (Z.ltb_spec (le_value l) (2 ^ 63)) as [Hl|Hl].
  - rewrite land_top by lia. reflexivity.
  - set (a := le_value l - 2 ^ 63). assert (Ha : 0 <= a < 2 ^ 63) by lia. replace (le_value l) with (a + 2 ^ 63) by lia. rewrite <- lor_top by lia.
    replace (Z.land (Z.lor a (Z.shiftl 1 63)) (Z.shiftl 1 63)) with (Z.shiftl 1 63).
    2:{ apply Z.bits_inj'. intros i Hi. rewrite Z.land_spec, Z.lor_spec, top_bit by lia. destruct (i =? 63); [rewrite orb_true_r|rewrite andb_false_r]; reflexivity. }
    change (Z.shiftl 1 63 =? 0) with false. cbv iota.
    replace (Z.land (Z.lor a (Z.shiftl 1 63)) (Z.lnot (Z.shiftl 1 63))) with a; [rewrite lor_top by lia; lia|].
    apply Z.bits_inj'. intros i Hi. rewrite Z.land_spec, Z.lor_spec, Z.lnot_spec, top_bit by lia. destruct (Z.eqb_spec i 63) as [->|]; cbn [negb].
    + rewrite andb_false_r. apply low_bit; lia.
    + rewrite orb_false_r, andb_true_r. reflexivity.
Qed.

Section Streams.
Context (bz : bz2) (R : bz_state bz -> list Z -> Prop) (HR : bz_ok bz R).

Lemma call_some : forall s out n, R s out -> 0 < n -> 0 < zlen out -> exists s1, bz_call bz s [] n = ret (ztake n out, s1) /\ R s1 (zdrop n out).
Proof.
  intros s out n H Hn Ho. destruct HR as (A & _ & _). destruct (A s out n H) as (s1 & B1 & B2); [intros ->; change (zlen (@nil Z)) with 0 in Ho; lia|lia|].
  exists s1. unfold bz_call. rewrite B1. auto.
Qed.

Lemma call_none : forall s n, R s [] -> bz_call bz s [] n = raise OtherError.
Proof. intros s n H. destruct HR as (_ & A & _). unfold bz_call. rewrite A by auto. reflexivity. Qed.

(** A field of the control stream. *)
Lemma call_field : forall s out, R s out -> bytes_ok out ->
  match field out with
  | Some (x, rest) => exists l s1, bz_call bz s [] 8 = ret (l, s1) /\ offtin l = ret x /\ R s1 rest /\ bytes_ok rest /\ (length rest < length out)%nat
  | None => (exists e, bz_call bz s [] 8 = raise e) \/ exists l s1 e, bz_call bz s [] 8 = ret (l, s1) /\ offtin l = raise e
  end.
Proof.
  intros s out H Hb. unfold field. pose proof (zlen_nonneg out) as N. destruct (Z.ltb_spec (zlen out) 8) as [L|L].
  - destruct (Z.eq_dec (zlen out) 0) as [E|E].
    + apply zlen_0_nil in E. subst out. left. exists OtherError. apply call_none. exact H.
    + destruct (call_some s out 8 H) as (s1 & A & _); [lia|lia|]. right. exists (ztake 8 out), s1, OtherError. split; [exact A|]. unfold offtin. rewrite zlen_ztake by lia.
      destruct (Z.eqb_spec (Z.min 8 (zlen out)) 8); [lia|]. reflexivity.
  - destruct (call_some s out 8 H) as (s1 & A & B); [lia|lia|]. exists (ztake 8 out), s1. split; [exact A|]. split; [apply offtin_field; [unfold bytes_ok; apply Forall_ztake; exact Hb|rewrite zlen_ztake by lia; lia]|].
    split; [exact B|]. split; [apply bytes_drop; exact Hb|]. unfold zdrop. rewrite skipn_length. unfold zlen in L. lia.
Qed.

Lemma loop_exact : forall clamps from k j s c d e pos left tp ts, R (bs_ctrl s) c -> R (bs_diff s) d -> R (bs_extra s) e -> bytes_ok c -> (length c <= k)%nat -> (k < j)%nat ->
  bs_from s = pos -> 0 <= pos -> ts - tp = left ->
  match bsdiff_records k clamps from pos left c d e with
  | Some (to, (c1, d1, e1)) => exists s1, bsdiff_loop bz j clamps from tp ts s = ret s1 /\ bs_out s1 = bs_out s ++ to /\ R (bs_ctrl s1) c1 /\ R (bs_diff s1) d1 /\ R (bs_extra s1) e1
  | None => exists x, bsdiff_loop bz j clamps from tp ts s = raise x
  end.
Proof.
  intros clamps from. induction k as [|k IH]; intros j s c d e pos left tp ts Hc Hd He Hb Hk Hj Hp Hp0 Ht; (destruct j as [|j]; [lia|]); cbn [bsdiff_records bsdiff_loop];
    (destruct (Z.leb_spec left 0); destruct (Z.ltb_spec tp ts); try lia; [exists s; rewrite app_nil_r; auto 10|]).
  - destruct c; [|cbn in Hk; lia]. rewrite call_none by auto. exists OtherError. reflexivity.
  - pose proof (call_field (bs_ctrl s) c Hc Hb) as F1.
    destruct (field c) as [[ds c1]|]; [|destruct F1 as [(x & F1)|(l & z & x & F1 & F1')]; rewrite F1; cbn [pbind ret raise]; rewrite ?F1'; exists x; reflexivity].
    destruct F1 as (l1 & z1 & F1 & F1' & R1 & B1 & L1). rewrite F1. cbn [pbind ret]. rewrite F1'. cbn [pbind ret].
    pose proof (call_field z1 c1 R1 B1) as F2.
    destruct (field c1) as [[es c2]|]; [|destruct F2 as [(x & F2)|(l & z & x & F2 & F2')]; rewrite F2; cbn [pbind ret raise]; rewrite ?F2'; exists x; reflexivity].
    destruct F2 as (l2 & z2 & F2 & F2' & R2 & B2 & L2). rewrite F2. cbn [pbind ret]. rewrite F2'. cbn [pbind ret].
    pose proof (call_field z2 c2 R2 B2) as F3.
    destruct (field c2) as [[adj c3]|]; [|destruct F3 as [(x & F3)|(l & z & x & F3 & F3')]; rewrite F3; cbn [pbind ret raise]; rewrite ?F3'; exists x; reflexivity].
    destruct F3 as (l3 & z3 & F3 & F3' & R3 & B3 & L3). rewrite F3. cbn [pbind ret]. rewrite F3'. cbn [pbind ret]. cbv zeta.
    set (n := Z.max ds 0) in *. set (m := Z.max es 0) in *. set (old := ztake n (zdrop pos from)).
    pose proof (zlen_nonneg d) as Nd. pose proof (zlen_nonneg e) as Ne.
    destruct (Z.ltb_spec ts (tp + ds)).
    { destruct (Z.ltb_spec left n); [|lia]. cbn [orb]. exists DetoolsError. reflexivity. }
    destruct (Z.ltb_spec left n); [lia|]. cbn [orb].
    (* the diff data *)
    assert (G1 : if ((0 <? n) && (zlen d =? 0)) || negb (zlen (ztake n d) =? zlen old)
                 then exists x, bsdiff_diff bz from tp ds (mkbs z3 (bs_diff s) (bs_extra s) (bs_from s) (bs_out s)) = raise x
                 else exists y, bsdiff_diff bz from tp ds (mkbs z3 (bs_diff s) (bs_extra s) (bs_from s) (bs_out s)) =
                   ret (tp + n, mkbs z3 y (bs_extra s) (pos + zlen old) (bs_out s ++ add_mod (ztake n d) old)) /\ R y (zdrop n d)).
    { unfold bsdiff_diff. cbn [bs_ctrl bs_diff bs_extra bs_from bs_out]. destruct (Z.ltb_spec 0 ds).
      - replace ds with n by lia. destruct (Z.ltb_spec 0 n); [|lia]. cbn [andb]. destruct (Z.eqb_spec (zlen d) 0) as [E|E].
        + cbn [orb]. apply zlen_0_nil in E. subst d. rewrite call_none by auto. exists OtherError. reflexivity.
        + cbn [orb]. destruct (call_some (bs_diff s) d n Hd) as (y & A1 & A2); [lia|lia|]. rewrite A1. cbn [pbind ret]. unfold add_bytes, file_read_at. rewrite Hp. fold old.
          destruct (zlen (ztake n d) =? zlen old); cbn [negb pbind ret]; [|exists OtherError; reflexivity]. exists y. rewrite sum_add. auto.
      - assert (E0 : n = 0) by lia. assert (Eo : old = []) by (unfold old; rewrite E0; apply ztake_0). rewrite Eo, E0, ztake_0, zdrop_0. change (zlen (@nil Z)) with 0. change (0 <? 0) with false. change (0 =? 0) with true. cbn [andb orb negb]. exists (bs_diff s). rewrite !Z.add_0_r. cbn [add_mod]. rewrite app_nil_r, Hp in *. split; [|exact Hd]. rewrite <- Hp. reflexivity. }
    destruct (((0 <? n) && (zlen d =? 0)) || negb (zlen (ztake n d) =? zlen old)).
    { destruct G1 as (x & G1). rewrite G1. exists x. reflexivity. }
    destruct G1 as (y & G1 & Ry). rewrite G1. cbn [pbind ret].
    destruct (Z.ltb_spec ts (tp + n + es)).
    { destruct (Z.ltb_spec (left - n) m); [|lia]. cbn [orb]. exists DetoolsError. reflexivity. }
    destruct (Z.ltb_spec (left - n) m); [lia|]. cbn [orb].
    assert (G2 : if (0 <? m) && (zlen e =? 0)
                 then exists x, bsdiff_extra bz (tp + n) es (mkbs z3 y (bs_extra s) (pos + zlen old) (bs_out s ++ add_mod (ztake n d) old)) = raise x
                 else exists w, bsdiff_extra bz (tp + n) es (mkbs z3 y (bs_extra s) (pos + zlen old) (bs_out s ++ add_mod (ztake n d) old)) =
                   ret (tp + n + m, mkbs z3 y w (pos + zlen old) ((bs_out s ++ add_mod (ztake n d) old) ++ ztake m e)) /\ R w (zdrop m e)).
    { unfold bsdiff_extra. cbn [bs_ctrl bs_diff bs_extra bs_from bs_out]. destruct (Z.ltb_spec 0 es).
      - replace es with m by lia. destruct (Z.ltb_spec 0 m); [|lia]. cbn [andb]. destruct (Z.eqb_spec (zlen e) 0) as [E|E].
        + apply zlen_0_nil in E. subst e. rewrite call_none by auto. exists OtherError. reflexivity.
        + destruct (call_some (bs_extra s) e m He) as (w & A1 & A2); [lia|lia|]. rewrite A1. cbn [pbind ret]. exists w. auto.
      - assert (E0 : m = 0) by lia. rewrite E0. change (0 <? 0) with false. cbn [andb]. exists (bs_extra s). rewrite ztake_0, zdrop_0, Z.add_0_r, app_nil_r. auto. }
    destruct ((0 <? m) && (zlen e =? 0)).
    { destruct G2 as (x & G2). rewrite G2. exists x. reflexivity. }
    destruct G2 as (w & G2 & Rw). rewrite G2. cbn [pbind ret bs_ctrl bs_diff bs_extra bs_from bs_out]. unfold seek_cur.
    assert (J : forall p, 0 <= p -> match bsdiff_records k clamps from p (left - n - m) c3 (zdrop n d) (zdrop m e) with
      | Some (to, (c1, d1, e1)) => exists s1, bsdiff_loop bz j clamps from (tp + n + m) ts (mkbs z3 y w p ((bs_out s ++ add_mod (ztake n d) old) ++ ztake m e)) = ret s1 /\
           bs_out s1 = ((bs_out s ++ add_mod (ztake n d) old) ++ ztake m e) ++ to /\ R (bs_ctrl s1) c1 /\ R (bs_diff s1) d1 /\ R (bs_extra s1) e1
      | None => exists x, bsdiff_loop bz j clamps from (tp + n + m) ts (mkbs z3 y w p ((bs_out s ++ add_mod (ztake n d) old) ++ ztake m e)) = raise x end).
    { intros p Hpp. apply (IH j (mkbs z3 y w p ((bs_out s ++ add_mod (ztake n d) old) ++ ztake m e)) c3 (zdrop n d) (zdrop m e) p (left - n - m) (tp + n + m) ts); cbn [bs_ctrl bs_diff bs_extra bs_from]; auto; lia. }
    destruct (Z.ltb_spec (pos + zlen old + adj) 0) as [Ng|Ng].
    + destruct clamps; cbn [andb negb pbind raise ret]; [|exists OtherError; reflexivity].
      replace (Z.max (pos + zlen old + adj) 0) with 0 by lia. specialize (J 0 ltac:(lia)).
      destruct (bsdiff_records k true from 0 (left - n - m) c3 (zdrop n d) (zdrop m e)) as [[to [[u v] q]]|]; [|exact J].
      destruct J as (s1 & J1 & J2 & J3). exists s1. split; [exact J1|]. split; [rewrite J2, <- !app_assoc; reflexivity|exact J3].
    + cbn [andb pbind ret]. replace (Z.max (pos + zlen old + adj) 0) with (pos + zlen old + adj) by lia. specialize (J (pos + zlen old + adj) ltac:(lia)).
      destruct (bsdiff_records k clamps from (pos + zlen old + adj) (left - n - m) c3 (zdrop n d) (zdrop m e)) as [[to [[u v] q]]|]; [|exact J].
      destruct J as (s1 & J1 & J2 & J3). exists s1. split; [exact J1|]. split; [rewrite J2, <- !app_assoc; reflexivity|exact J3].
Qed.

Lemma eof_is : forall s out, R s out -> bz_eof bz s = match out with [] => true | _ => false end.
Proof.
  intros s out H. destruct HR as (_ & _ & A). specialize (A s out H). destruct out; [apply A; reflexivity|]. destruct (bz_eof bz s); [|reflexivity]. destruct A as [A _]. specialize (A eq_refl). discriminate.
Qed.

Lemma bsdiff40_exact : forall clamps from n c d e ctrl diff extra, bz_stream bz R c ctrl -> bz_stream bz R d diff -> bz_stream bz R e extra -> bytes_ok c ->
  zlen ctrl < 2 ^ 63 -> zlen diff < 2 ^ 63 -> - 2 ^ 63 < n < 2 ^ 63 ->
  exists m, forall fuel, (m <= fuel)%nat ->
  match bsdiff_records (length c) clamps from 0 n c d e with
  | Some (to, ([], [], [])) => apply_patch_bsdiff bz fuel clamps from (bsdiff40 n ctrl diff extra) = ret (n, to)
  | _ => exists x, apply_patch_bsdiff bz fuel clamps from (bsdiff40 n ctrl diff extra) = raise x
  end.
Proof.
  intros clamps from n c d e ctrl diff extra (s1 & C1 & C2) (s2 & D1 & D2) (s3 & E1 & E2) Hb Hc Hd Hn. exists (Datatypes.S (length c)). intros fuel Hf.
  assert (Q : apply_patch_bsdiff bz fuel clamps from (bsdiff40 n ctrl diff extra) = (dop s := bsdiff_loop bz fuel clamps from 0 n (mkbs s1 s2 s3 0 []) in
    if negb (bz_eof bz (bs_ctrl s)) then raise DetoolsError else if negb (bz_eof bz (bs_diff s)) then raise DetoolsError
    else if negb (bz_eof bz (bs_extra s)) then raise DetoolsError else ret (n, bs_out s))).
  { unfold apply_patch_bsdiff. rewrite header_spec by auto. cbn [pbind ret]. rewrite read_exact by reflexivity. unfold bz_call at 1. rewrite C1. cbn [pbind ret].
    rewrite read_exact by reflexivity. unfold bz_call at 1. rewrite D1. cbn [pbind ret]. unfold bz_call at 1. rewrite E1. reflexivity. }
  rewrite Q. clear Q.
  pose proof (loop_exact clamps from (length c) fuel (mkbs s1 s2 s3 0 []) c d e 0 n 0 n C2 D2 E2 Hb ltac:(lia) ltac:(lia) eq_refl ltac:(lia) ltac:(lia)) as G.
  destruct (bsdiff_records (length c) clamps from 0 n c d e) as [[to [[c1 d1] e1]]|].
  2: { destruct G as (x & G). rewrite G. exists x. reflexivity. }
  destruct G as (s & G1 & G2 & G3 & G4 & G5). rewrite G1. cbn [pbind ret]. rewrite (eof_is _ _ G3), (eof_is _ _ G4), (eof_is _ _ G5).
  destruct c1; cbn [negb]; [|exists DetoolsError; reflexivity]. destruct d1; cbn [negb]; [|exists DetoolsError; reflexivity]. destruct e1; cbn [negb]; [|exists DetoolsError; reflexivity].
  rewrite G2. reflexivity.
Qed.

End Streams.

Lemma records_size : forall clamps from k pos left c d e to c1 d1 e1, bsdiff_records k clamps from pos left c d e = Some (to, (c1, d1, e1)) ->
  zlen to = zlen d - zlen d1 + (zlen e - zlen e1) /\ zlen to <= Z.max 0 left.
Proof.
  intros clamps from. induction k as [|k IH]; intros pos left c d e to c1 d1 e1; cbn [bsdiff_records]; destruct (Z.leb_spec left 0) as [Hl|Hl]; intros H.
  - injection H as <- <- <- <-. change (zlen (@nil Z)) with 0. lia.
  - discriminate.
  - injection H as <- <- <- <-. change (zlen (@nil Z)) with 0. lia.
  - destruct (field c) as [[ds u1]|]; [|discriminate H]. destruct (field u1) as [[es u2]|]; [|discriminate H]. destruct (field u2) as [[adj u3]|]; [|discriminate H]. cbv zeta in H.
    set (n := Z.max ds 0) in *. set (m := Z.max es 0) in *. set (old := ztake n (zdrop pos from)) in *. pose proof (zlen_nonneg d). pose proof (zlen_nonneg e).
    destruct (Z.ltb_spec left n); [discriminate H|]. cbn [orb] in H. destruct ((0 <? n) && (zlen d =? 0)); [discriminate H|]. cbn [orb] in H.
    destruct (Z.eqb_spec (zlen (ztake n d)) (zlen old)) as [E|]; [|discriminate H]. cbn [negb] in H. destruct (Z.ltb_spec (left - n) m); [discriminate H|]. cbn [orb] in H.
    destruct ((0 <? m) && (zlen e =? 0)); [discriminate H|]. destruct (_ && negb clamps); [discriminate H|].
    destruct (bsdiff_records k clamps from _ _ u3 _ _) as [[to2 [[a b] q]]|] eqn:G; [|discriminate H]. apply IH in G. injection H as <- <- <- <-.
    assert (zlen (add_mod (ztake n d) old) = zlen (ztake n d)) as L by (rewrite <- sum_add; apply zlen_sum; exact E).
    rewrite !zlen_app, L, !zlen_ztake by lia. rewrite !zlen_zdrop in G by lia. lia.
Qed.

Lemma records_all : forall clamps from n c d e to, bsdiff_records (length c) clamps from 0 n c d e = Some (to, ([], [], [])) -> zlen to = zlen d + zlen e /\ zlen to <= Z.max 0 n.
Proof. intros clamps from n c d e to H. apply records_size in H. change (zlen (@nil Z)) with 0 in H. lia. Qed.

(** A negative size, a seek before the beginning on a file that allows it, and too little
    data at the end. *)
Definition ex_control : list Z := off (-5) ++ off 2 ++ off (-9) ++ off 2 ++ off 4 ++ off 0.
Lemma ex_exact : (forall clamps, bsdiff_records (length ex_control) clamps [10; 20; 30] 0 8 ex_control [1; 255] [7; 8; 9] =
    if clamps then Some ([7; 8; 11; 19; 9], ([], [], [])) else None) /\
  apply_patch_bsdiff stored 10 true [10; 20; 30] (bsdiff40 8 (90 :: ex_control) [90; 1; 255] [90; 7; 8; 9]) = ret (8, [7; 8; 11; 19; 9]) /\
  apply_patch_bsdiff stored 10 false [10; 20; 30] (bsdiff40 8 (90 :: ex_control) [90; 1; 255] [90; 7; 8; 9]) = raise OtherError.
Proof. split; [intros [|]; vm_compute; reflexivity|]. split; vm_compute; reflexivity. Qed.

Lemma ex_exact_streams : bz_stream stored stored_rel ex_control (90 :: ex_control) /\ bz_stream stored stored_rel [1; 255] [90; 1; 255] /\ bz_stream stored stored_rel [7; 8; 9] [90; 7; 8; 9] /\ bytes_ok ex_control.
Proof.
  split; [|split; [exact (stored_stream [[1; 255]])|split; [exact (stored_stream [[7; 8; 9]])|]]].
  - pose proof (stored_stream [ex_control]) as H. cbn [concat] in H. rewrite app_nil_r in H. cbn [stored bz_compress concat] in H. rewrite app_nil_r in H. exact H.
  - vm_compute. repeat (constructor; [split; [discriminate|reflexivity]|]). constructor.
Qed.
