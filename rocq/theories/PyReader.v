(** What PatchReader delivers, for decompressors that meet a contract. *)

From Coq Require Import ZArith List Bool Lia ZifyBool ZifyNat ZifyN.
From Verif Require Import Prelude Lib Spec PySize PyCrle PyApply PySpec SizeCodec CrleProofs.
Import ListNotations.
Open Scope Z_scope.

Lemma pbind_ret : forall {A B} (m : pyo A) (k : A -> pyo B) a, m = ret a -> pbind m k = k a.
Proof. intros. subst. reflexivity. Qed.

Lemma pbind_raise : forall {A B} (m : pyo A) (k : A -> pyo B) e, m = raise e -> pbind m k = raise e.
Proof. intros. subst. reflexivity. Qed.

Section Reader.
Context (D : decompressor) (R : dstate D -> list Z -> list Z -> Prop) (HR : contract D R).
Context (fuel : nat).

Definition holds (r : preader D) (out : list Z) : Prop :=
  R (pr_state r) (pr_file r) out /\ (2 * (length (pr_file r) + length out) + 1 < fuel)%nat.

(** A call that delivers nothing is made at most once before input is asked for. *)
Definition dry (d : dstate D) : nat := if d_needs_input D d || d_eof D d then O else 1%nat.

Lemma pr_loop_spec : forall k size buf r out, R (pr_state r) (pr_file r) out -> (2 * (length (pr_file r) + length out) + dry (pr_state r) < k)%nat -> zlen buf <= size ->
  if zlen buf + zlen out <? size then pr_loop k size buf r = raise DetoolsError
  else exists r1, pr_loop k size buf r = ret (buf ++ ztake (size - zlen buf) out, r1) /\ R (pr_state r1) (pr_file r1) (zdrop (size - zlen buf) out) /\
    (length (pr_file r1) <= length (pr_file r))%nat.
Proof using HR.
  induction k; intros size buf r out H Hf Hb; [lia|]. cbn [pr_loop].
  destruct (Z.ltb_spec (zlen buf) size) as [L|L].
  2: { pose proof (zlen_nonneg out). destruct (Z.ltb_spec (zlen buf + zlen out) size); [lia|]. exists r. replace (size - zlen buf) with 0 by lia.
       rewrite ztake_0, app_nil_r, zdrop_0. auto. }
  assert (Hnil : forall m : pyo (list Z * preader D), out = [] -> m = raise DetoolsError ->
    if zlen buf + zlen out <? size then m = raise DetoolsError
    else exists r1, m = ret (buf ++ ztake (size - zlen buf) out, r1) /\ R (pr_state r1) (pr_file r1) (zdrop (size - zlen buf) out) /\
      (length (pr_file r1) <= length (pr_file r))%nat).
  { intros m -> Hm. change (zlen (@nil Z)) with 0. destruct (Z.ltb_spec (zlen buf + 0) size); [exact Hm|lia]. }
  assert (Hcall : forall data rest progress, delivers D R (pr_state r) data rest out (size - zlen buf) progress ->
    (length rest <= length (pr_file r))%nat -> (progress = false -> (length rest < length (pr_file r))%nat) -> (progress = true -> dry (pr_state r) = 1%nat) ->
    let m := letm x := d_decompress D (pr_state r) data (size - zlen buf) in
             match x with None => raise DetoolsError | Some (out0, d1) => pr_loop k size (buf ++ out0) (mkpr d1 rest) end in
    if zlen buf + zlen out <? size then m = raise DetoolsError
    else exists r1, m = ret (buf ++ ztake (size - zlen buf) out, r1) /\ R (pr_state r1) (pr_file r1) (zdrop (size - zlen buf) out) /\
      (length (pr_file r1) <= length (pr_file r))%nat).
  { intros data rest progress [(E1 & E2)|(o & out1 & d1 & E1 & E2 & E3 & E4 & E5)] Hr Hp Hi m; subst m.
    - apply Hnil; [exact E1|]. rewrite E2. reflexivity.
    - rewrite E1. cbn [obind]. specialize (IHk size (buf ++ o) (mkpr d1 rest) out1). cbn [pr_state pr_file] in IHk.
      assert (I1 : (dry d1 <= 1)%nat) by (unfold dry; destruct (_ || _); lia).
      assert (G : (2 * (length rest + length out1) + dry d1 < k)%nat).
      { rewrite E3, app_length in Hf. destruct progress; [|specialize (Hp eq_refl); lia]. specialize (Hi eq_refl). destruct (E5 eq_refl) as [N|[N|N]].
        - destruct o; [congruence|]. cbn [length] in *. lia.
        - unfold dry at 1. rewrite N. cbn [orb]. lia.
        - unfold dry at 1. rewrite N, orb_true_r. lia. }
      specialize (IHk E2 G). rewrite zlen_app in IHk. specialize (IHk ltac:(lia)).
      rewrite E3, zlen_app. replace (zlen buf + (zlen o + zlen out1)) with (zlen buf + zlen o + zlen out1) by lia.
      destruct (zlen buf + zlen o + zlen out1 <? size); [exact IHk|].
      destruct IHk as (r1 & A1 & A2 & A3). exists r1. rewrite A1. rewrite ztake_app_r, zdrop_app_r by lia. rewrite <- app_assoc.
      replace (size - zlen buf - zlen o) with (size - (zlen buf + zlen o)) by lia. split; [reflexivity|]. split; [exact A2|]. lia. }
  pose proof (HR _ _ _ H) as C. unfold pr_eof. destruct (d_eof D (pr_state r)) eqn:Ee.
  { apply Hnil; auto. }
  destruct (d_needs_input D (pr_state r)) eqn:Ea.
  - destruct (pr_file r) as [|b file] eqn:Ef.
    + apply Hnil; auto.
    + rewrite <- Ef in *. apply Hcall with (progress := false).
      * rewrite Ef in C |- *. apply C. lia.
      * unfold zdrop. rewrite skipn_length. lia.
      * intros _. unfold zdrop. rewrite skipn_length, Ef. cbn [length]. lia.
      * discriminate.
  - apply Hcall with (progress := true); [apply C; lia|lia|discriminate|]. intros _. unfold dry. rewrite Ea, Ee. reflexivity.
Qed.

(** ** Reading from what [cut] bytes are missing of *)

Lemma pr_read : forall r out cut x rest, holds r out -> out ++ cut = x ++ rest ->
  (exists out1 r1, out = x ++ out1 /\ out1 ++ cut = rest /\ holds r1 out1 /\ pr_decompress fuel (zlen x) r = ret (x, r1)) \/
  (cut <> [] /\ pr_decompress fuel (zlen x) r = raise DetoolsError).
Proof using HR.
  intros r out cut x rest (H & Hf) E. pose proof (zlen_nonneg x) as Hx.
  assert (I1 : (dry (pr_state r) <= 1)%nat) by (unfold dry; destruct (_ || _); lia).
  pose proof (pr_loop_spec fuel (zlen x) [] r out H ltac:(lia)) as S. change (zlen (@nil Z)) with 0 in S. specialize (S Hx). replace (zlen x - 0) with (zlen x) in S by lia. cbn [Z.add] in S.
  destruct (Z.ltb_spec (zlen out) (zlen x)) as [L|L].
  - right. split; [|exact S]. intros ->. rewrite app_nil_r in E. subst out. rewrite zlen_app in L. pose proof (zlen_nonneg rest). lia.
  - left. destruct (app_split _ _ _ _ E L) as (out1 & E1 & E2). destruct S as (r1 & S1 & S2 & S3). exists out1, r1. split; [exact E1|]. split; [exact E2|].
    rewrite E1 in S1, S2. rewrite ztake_app_exact in S1 by reflexivity. rewrite zdrop_app_exact in S2 by reflexivity. split; [|exact S1].
    split; [exact S2|]. rewrite E1, app_length in Hf. lia.
Qed.

Lemma pr_byte_spec : forall r out cut b rest, holds r out -> out ++ cut = b :: rest ->
  (exists out1 r1, out = b :: out1 /\ out1 ++ cut = rest /\ holds r1 out1 /\ pr_byte fuel r = ret (b, r1)) \/
  (cut <> [] /\ pr_byte fuel r = raise DetoolsError).
Proof using HR.
  intros r out cut b rest H E. unfold pr_byte. destruct (pr_read r out cut [b] rest H E) as [(out1 & r1 & A1 & A2 & A3 & A4)|(A1 & A2)]; change (zlen [b]) with 1 in *.
  - left. exists out1, r1. rewrite A4. auto.
  - right. rewrite A2. auto.
Qed.

Lemma pr_groups : forall k n a value off count r out cut rest, holds r out -> out ++ cut = enc_groups k a ++ rest -> 0 < a < 2 ^ (7 * Z.of_nat k) ->
  0 <= off -> 0 <= value < 2 ^ off -> (length out < n)%nat ->
  (exists out1 r1, out = enc_groups k a ++ out1 /\ out1 ++ cut = rest /\ holds r1 out1 /\
     pr_size_loop n fuel value off count r = ret (value + 2 ^ off * a, count + zlen (enc_groups k a), r1)) \/
  (cut <> [] /\ pr_size_loop n fuel value off count r = raise DetoolsError).
Proof using HR.
  induction k as [|k IH]; intros n a value off count r out cut rest H E Ha Ho Hv Hn; [cbn in Ha; lia|].
  cbn [enc_groups] in *. destruct (Z.eqb_spec a 0); [lia|]. destruct n as [|n]; [lia|]. cbn [pr_size_loop].
  assert (P : 2 ^ (7 * Z.of_nat (S k)) = 128 * 2 ^ (7 * Z.of_nat k)).
  { replace (7 * Z.of_nat (S k)) with (7 + 7 * Z.of_nat k) by lia. rewrite Z.pow_add_r by lia. reflexivity. }
  rewrite P in Ha. clear P.
  destruct (Z.ltb_spec a 128) as [Hl|Hl].
  - destruct (pr_byte_spec r out cut a rest H E) as [(out1 & r1 & A1 & A2 & A3 & A4)|(A1 & A2)]; [left|right; rewrite A2; auto].
    exists out1, r1. rewrite A4. cbn [pbind ret]. split; [exact A1|]. split; [exact A2|]. split; [exact A3|].
    rewrite land_128_byte by (unfold byte_ok; lia). destruct (Z.ltb_spec a 128); [|lia].
    rewrite land_127, Z.mod_small by lia. rewrite lor_add by lia. change (zlen [a]) with 1. unfold ret. do 4 f_equal. lia.
  - rewrite <- app_comm_cons in E. set (b := a mod 128 + 128) in *.
    destruct (pr_byte_spec r out cut b _ H E) as [(out1 & r1 & A1 & A2 & A3 & A4)|(A1 & A2)]; [|right; rewrite A2; auto].
    rewrite A4. cbn [pbind ret]. rewrite land_128_byte by (unfold byte_ok, b; lia). destruct (Z.ltb_spec b 128); [unfold b in *; lia|].
    rewrite land_127. replace (b mod 128) with (a mod 128) by (unfold b; lia).
    assert (P : 2 ^ (off + 7) = 2 ^ off * 128) by (rewrite Z.pow_add_r by lia; reflexivity).
    assert (Q : 0 < 2 ^ off) by lia.
    rewrite lor_add by lia.
    assert (Hlen : (length out1 < n)%nat) by (rewrite A1 in Hn; cbn [length] in Hn; lia).
    assert (Hm : 0 <= a mod 128 < 128) by lia.
    assert (Ha2 : 0 < a / 128 < 2 ^ (7 * Z.of_nat k)) by lia.
    assert (Hm2 : 0 <= (a mod 128) * 2 ^ off <= 127 * 2 ^ off) by (split; [apply Z.mul_nonneg_nonneg; lia|apply Z.mul_le_mono_nonneg_r; lia]).
    assert (Hv2 : 0 <= value + (a mod 128) * 2 ^ off < 2 ^ (off + 7)) by (rewrite P; lia).
    destruct (IH n (a / 128) (value + a mod 128 * 2 ^ off) (off + 7) (count + 1) r1 out1 cut rest A3 A2 Ha2 ltac:(lia) Hv2 Hlen)
      as [(out2 & r2 & B1 & B2 & B3 & B4)|(B1 & B2)].
    + left. exists out2, r2. split; [rewrite A1, B1; reflexivity|]. split; [exact B2|]. split; [exact B3|]. rewrite B4. rewrite zlen_cons.
      unfold ret. do 4 f_equal; [|lia]. rewrite P. rewrite (Z.div_mod a 128) at 3 by lia. rewrite Z.mul_add_distr_l. lia.
    + right. auto.
Qed.

Lemma pr_size_spec : forall v r out cut rest, holds r out -> out ++ cut = enc_size v ++ rest -> - 2 ^ 63 < v < 2 ^ 63 ->
  (exists out1 r1, out = enc_size v ++ out1 /\ out1 ++ cut = rest /\ holds r1 out1 /\
     pr_unpack_size fuel r = ret (v, zlen (enc_size v), r1)) \/
  (cut <> [] /\ pr_unpack_size fuel r = raise DetoolsError).
Proof using HR.
  intros v r out cut rest H E Hv. unfold pr_unpack_size, enc_size in *. set (a := Z.abs v) in *. set (s := if v <? 0 then 64 else 0) in *.
  assert (Hs : s = 0 /\ 0 <= v /\ a = v \/ s = 64 /\ v < 0 /\ a = - v) by (unfold s, a; destruct (Z.ltb_spec v 0); lia).
  destruct (Z.ltb_spec a 64) as [Hl|Hl].
  - destruct (pr_byte_spec r out cut (s + a) rest H E) as [(out1 & r1 & A1 & A2 & A3 & A4)|(A1 & A2)]; [left|right; rewrite A2; auto].
    exists out1, r1. rewrite A4. cbn [pbind ret]. split; [exact A1|]. split; [exact A2|]. split; [exact A3|].
    rewrite land_128_byte by (unfold byte_ok; lia). destruct (Z.ltb_spec (s + a) 128); [|lia]. cbn [pbind ret].
    rewrite land_64_ge by (unfold byte_ok; lia). rewrite land_63. change (zlen [s + a]) with 1. unfold ret. do 4 f_equal.
    destruct (Z.ltb_spec ((s + a) mod 128) 64); lia.
  - rewrite <- app_comm_cons in E. set (b := 128 + s + a mod 64) in *.
    destruct (pr_byte_spec r out cut b _ H E) as [(out1 & r1 & A1 & A2 & A3 & A4)|(A1 & A2)]; [|right; rewrite A2; auto].
    rewrite A4. cbn [pbind ret]. rewrite land_128_byte by (unfold byte_ok, b; lia). destruct (Z.ltb_spec b 128); [unfold b in *; lia|].
    rewrite land_64_ge by (unfold byte_ok, b; lia). rewrite land_63. replace (b mod 64) with (a mod 64) by (unfold b; lia).
    assert (Ha : 0 < a / 64 < 2 ^ (7 * Z.of_nat 10)) by (change (2 ^ (7 * Z.of_nat 10)) with 1180591620717411303424; change (2 ^ 63) with 9223372036854775808 in Hv; lia).
    assert (Hlen : (length out1 < fuel)%nat) by (destruct H as (_ & H); rewrite A1 in H; cbn [length] in H; lia).
    assert (Hm : 0 <= a mod 64 < 2 ^ 6) by (change (2 ^ 6) with 64; lia).
    destruct (pr_groups 10 fuel (a / 64) (a mod 64) 6 1 r1 out1 cut rest A3 A2 Ha ltac:(lia) Hm Hlen) as [(out2 & r2 & B1 & B2 & B3 & B4)|(B1 & B2)].
    + left. exists out2, r2. split; [rewrite A1, B1; reflexivity|]. split; [exact B2|]. split; [exact B3|]. rewrite B4. cbn [pbind ret].
      rewrite zlen_cons. change (2 ^ 6) with 64. unfold ret. do 4 f_equal. unfold b. destruct (Z.ltb_spec ((128 + s + a mod 64) mod 128) 64); lia.
    + right. rewrite B2. auto.
Qed.

End Reader.
Arguments holds {D} R fuel r out.
