(** Dump and restore while an LZMA patch is applied (C81). *)

From Coq Require Import ZArith List Bool Lia ZifyBool ZifyNat ZifyN.
From Verif Require Import Prelude Lib Heatshrink CReader CSeq Spec SizeProofs SeqSpec CLzma CSeqLzma CDumpLzma LzmaSpec LzmaProofs LzmaSafe LzmaPlain.
Import ListNotations.
Open Scope Z_scope.

Definition small (l : list Z) : bool := existsb (fun b => b <? 128) l.

Lemma small_app : forall a b, small (a ++ b) = small a || small b.
Proof. intros. apply existsb_app. Qed.

Lemma complete_app : forall a b, header_complete a = true -> header_complete (a ++ b) = true.
Proof. intros [|x a] b H; [discriminate|]. cbn [header_complete app] in *. rewrite existsb_app, H. reflexivity. Qed.

Lemma header_field : forall l z res v z1 l1, bytes_ok l -> unpack_header_size l z = Ret (res, v, z1, l1) ->
  exists c, l = c ++ l1 /\ (res = 1 /\ small c = false /\ l1 = [] \/ res = 0 /\ small c = true \/ res = - E_CORRUPT_PATCH_OVERFLOW).
Proof.
  induction l as [|b l IH]; intros z res v z1 l1 Hb U; cbn [unpack_header_size] in U.
  - injection U as <- <- <- <-. exists []. split; [reflexivity|]. left. auto.
  - inv Hb. apply obind_ret in U. destruct U as ([z2|] & _ & U).
    + assert (E : Z.land b 128 =? 0 = (b <? 128)).
      { rewrite land_128_byte by auto. reflexivity. }
      rewrite E in U. clear E. destruct (b <? 128) eqn:Eb.
      * injection U as <- <- <- <-. exists [b]. split; [reflexivity|]. right. left. cbn. rewrite Eb. auto.
      * apply IH in U; [|assumption]. destruct U as (c & -> & U). exists (b :: c). split; [reflexivity|]. unfold small in *. cbn [existsb]. rewrite Eb. exact U.
    + injection U as <- <- <- <-. exists [b]. split; [reflexivity|]. auto.
Qed.

Section Dump.
Context {WBits : WordBits} {D : Type} (L : lzma_lib D) {W : Type} (E : seq_env W).

(** Within the header, of which [c] has been read. *)
Definition within (c : list Z) (x : xap D) : Prop :=
  a_state (x_ap x) = SInit /\
  if a_to_init (x_ap x) then a_compression (x_ap x) = 1 /\ exists b t, c = b :: t /\ small t = false else c = [].

(** Behind it, or failed. *)
Definition behind (x : xap D) : Prop := a_state (x_ap x) <> SInit /\ a_compression (x_ap x) = 1.

Lemma once_behind : forall x w r x1 w1, a_state (x_ap x) <> SInit -> x_once L E x w = Ret (r, x1, w1) ->
  a_state (x_ap x1) <> SInit /\ a_compression (x_ap x1) = a_compression (x_ap x) /\ a_patch_size (x_ap x1) = a_patch_size (x_ap x).
Proof.
  intros x w r x1 w1 H U. unfold x_once in U. apply obind_ret in U. destruct U as ([[r0 x0] w0] & A & U).
  assert (G : a_state (x_ap x0) <> SInit /\ a_compression (x_ap x0) = a_compression (x_ap x) /\ a_patch_size (x_ap x0) = a_patch_size (x_ap x)).
  { assert (SZ : forall next r0 x0, next <> SInit -> x_size L x next = Ret (r0, x0) ->
      a_state (x_ap x0) <> SInit /\ a_compression (x_ap x0) = a_compression (x_ap x) /\ a_patch_size (x_ap x0) = a_patch_size (x_ap x)).
    { intros next r2 x2 Hn B. unfold x_size in B. destruct (x_reader x); [|discriminate]. apply obind_ret in B. destruct B as ([[[[res v] z1] r1] l1] & _ & B).
      destruct (negb (res =? 0)); injection B as <- <-; cbn; auto. }
    assert (DT : forall next, next <> SInit -> x_data L E x w next = Ret (r0, x0, w0) ->
      a_state (x_ap x0) <> SInit /\ a_compression (x_ap x0) = a_compression (x_ap x) /\ a_patch_size (x_ap x0) = a_patch_size (x_ap x)).
    { intros next Hn B. unfold x_data in B. destruct (Z.min 128 (a_chunk_size (x_ap x)) =? 0); [injection B as <- <- <-; cbn; auto|]. destruct (x_reader x); [|discriminate].
      apply obind_ret in B. destruct B as ([[[res out] r1] l1] & _ & B). destruct (negb (res =? 0)); [injection B as <- <- <-; cbn; auto|]. cbv zeta in B.
      apply obind_ret in B. destruct B as ([[[io data] s2] w2] & C & B).
      assert (C1 : a_state s2 = a_state (x_ap x) /\ a_compression s2 = a_compression (x_ap x) /\ a_patch_size s2 = a_patch_size (x_ap x)).
      { destruct next; try (injection C as <- <- <- <-; cbn; auto). destruct (from_read E w (zlen out)) as [[rr from] w3]. destruct (negb (rr =? 0)); [injection C as <- <- <- <-; cbn; auto|].
        apply obind_ret in C. destruct C as (d & _ & C). injection C as <- <- <- <-. cbn. auto. }
      destruct C1 as (C1 & C2 & C3). destruct io; [injection B as <- <- <-; cbn; rewrite C1; auto|]. destruct (to_write E w2 data) as [rw w3]. destruct (negb (rw =? 0)); injection B as <- <- <-; cbn; rewrite C1; auto. }
    destruct (a_state (x_ap x)) eqn:Es; try congruence.
    - apply obind_ret in A. destruct A as ([r2 x2] & B & A). injection A as <- <- <-. unfold x_dfpatch_size in B. destruct (x_reader x); [|discriminate]. apply obind_ret in B. destruct B as ([[[[res v] z1] r1] l1] & _ & B).
      destruct (negb (res =? 0)); [injection B as <- <-; cbn; rewrite Es; auto|]. destruct (0 <? v); injection B as <- <-; cbn; rewrite ?Es; split; auto; discriminate.
    - apply obind_ret in A. destruct A as ([r2 x2] & B & A). injection A as <- <- <-. apply (SZ SDiffData _ _ ltac:(discriminate) B).
    - apply (DT SExtraSize ltac:(discriminate) A).
    - apply obind_ret in A. destruct A as ([r2 x2] & B & A). injection A as <- <- <-. apply (SZ SExtraData _ _ ltac:(discriminate) B).
    - apply (DT SAdjustment ltac:(discriminate) A).
    - unfold x_adjustment in A. destruct (x_reader x); [|discriminate]. apply obind_ret in A. destruct A as ([[[[res v] z1] r1] l1] & _ & B).
      destruct (negb (res =? 0)); [injection B as <- <- <-; cbn; rewrite Es; split; auto; discriminate|]. destruct (from_seek E w v) as [rs w3]. destruct (negb (rs =? 0)); [injection B as <- <- <-; cbn; rewrite Es; split; auto; discriminate|].
      apply obind_ret in B. destruct B as (fo & _ & B). injection B as <- <- <-. cbn. split; auto. destruct (_ =? _); discriminate.
    - injection A as <- <- <-. rewrite Es. split; auto.
    - injection A as <- <- <-. rewrite Es. split; auto. }
  destruct G as (G1 & G2 & G3). destruct (a_state (x_ap x)); try congruence; injection U as <- <- <-; auto; destruct (r0 <? 0); cbn; auto; split; auto; discriminate.
Qed.

Lemma once_within : forall c x w r x1 w1, within c x -> bytes_ok (a_left (x_ap x)) -> a_left (x_ap x) <> [] -> (c = [] -> announced_comp (a_left (x_ap x)) = 1) ->
  x_once L E x w = Ret (r, x1, w1) -> a_patch_size (x_ap x1) = a_patch_size (x_ap x) /\
  exists d, a_left (x_ap x) = d ++ a_left (x_ap x1) /\
  (within (c ++ d) x1 /\ c ++ d <> [] /\ (r = 0 \/ r = 1) \/ behind x1 /\ r = 0 /\ header_complete (c ++ d) = true \/ behind x1 /\ r < 0 /\ r <> - E_ALREADY_DONE).
Proof.
  intros c x w r x1 w1 [Hs Hw] Hb Hl Hc U. unfold x_once in U. rewrite Hs in U. apply obind_ret in U. destruct U as ([[r0 x0] w0] & A & U). apply obind_ret in A. destruct A as ([r2 x2] & B & A). injection A as <- <- <-.
  unfold x_init in B. destruct (a_to_init (x_ap x)) eqn:Ei.
  - destruct Hw as (Hcp & b & t & -> & Ht). unfold x_init_to_size in B. cbv zeta in B. apply obind_ret in B. destruct B as ([[[res v] z1] l1] & X & B). apply header_field in X; [|assumption].
    destruct X as (d & X1 & X2). destruct (Z.eqb_spec res 0) as [->|Hr]; cbn [negb] in B.
    + assert (Sd : small d = true) by (destruct X2 as [(X2 & _)|[(_ & X2)|X2]]; [discriminate|exact X2|discriminate]).
      change (a_compression (set_header (x_ap x) (a_to_init (x_ap x)) (a_compression (x_ap x)) z1 l1)) with (a_compression (x_ap x)) in B. rewrite Hcp in B. unfold xreader_init in B. change (1 =? 1) with true in B. cbv iota in B.
      assert (Hh : header_complete ((b :: t) ++ d) = true) by (cbn [app header_complete]; fold (small (t ++ d)); rewrite small_app, Sd, orb_true_r; reflexivity).
      destruct (lz_start L) as [dd|].
      * destruct (v <? 0).
        { injection B as <- <-. change (- E_CORRUPT_PATCH <? 0) with true in U. cbv iota in U. injection U as <- <- <-. split; [reflexivity|]. exists d. split; [exact X1|]. right. right. split; [|split; [reflexivity|discriminate]]. split; cbn; [discriminate|auto]. }
        injection B as <- <-. change (0 <? 0) with false in U. cbv iota in U. injection U as <- <- <-. split; [reflexivity|]. exists d. split; [exact X1|]. right. left. split; [|auto]. split; cbn; [destruct (0 <? v); discriminate|first [assumption|reflexivity]].
      * injection B as <- <-. change (- E_LZMA_INIT <? 0) with true in U. cbv iota in U. injection U as <- <- <-. split; [reflexivity|]. exists d. split; [exact X1|]. right. right. split; [|split; [reflexivity|discriminate]]. split; cbn; [discriminate|auto].
    + injection B as <- <-. destruct X2 as [(-> & X2 & ->)|[(X2 & _)| ->]]; [|congruence|].
      * change (1 <? 0) with false in U. cbv iota in U. injection U as <- <- <-. split; [reflexivity|]. exists d. split; [exact X1|]. left. split; [|split; [discriminate|auto]]. split; [cbn; exact Hs|]. cbn. rewrite Ei. split; [exact Hcp|]. exists b, (t ++ d). split; [reflexivity|]. rewrite small_app, Ht, X2. reflexivity.
      * change (- E_CORRUPT_PATCH_OVERFLOW <? 0) with true in U. cbv iota in U. injection U as <- <- <-. split; [reflexivity|]. exists d. split; [exact X1|]. right. right. split; [|split; [reflexivity|discriminate]]. split; cbn; [discriminate|exact Hcp].
  - subst c. specialize (Hc eq_refl). apply obind_ret in B. destruct B as ([r3 s3] & X & B). injection B as <- <-. unfold process_init_fixed_header in X. destruct (a_left (x_ap x)) as [|b l] eqn:El; [congruence|]. cbv zeta in X.
    unfold announced_comp in Hc. cbn [hd] in Hc. destruct (negb (Z.land (Z.shiftr b 4) 7 =? 0)); injection X as <- <-.
    + change (- E_BAD_PATCH_TYPE <? 0) with true in U. cbv iota in U. injection U as <- <- <-. split; [reflexivity|]. exists [b]. split; [reflexivity|]. right. right. split; [|split; [reflexivity|discriminate]]. split; cbn; [discriminate|exact Hc].
    + change (0 <? 0) with false in U. cbv iota in U. injection U as <- <- <-. split; [reflexivity|]. exists [b]. split; [reflexivity|]. left. split; [|split; [discriminate|auto]]. split; [cbn; exact Hs|]. cbn. split; [exact Hc|]. exists b, []. auto.
Qed.

Lemma loop_behind : forall fuel res x w r x1 w1, behind x -> x_process_loop L E fuel res x w = Ret (r, x1, w1) -> behind x1 /\ a_patch_size (x_ap x1) = a_patch_size (x_ap x).
Proof.
  induction fuel; intros res x w r x1 w1 [H1 H2] U; cbn [x_process_loop] in U; destruct (a_left (x_ap x)); try (injection U as <- <- <-; split; [split|]; auto; fail).
  - destruct (res <? 0); [injection U as <- <- <-; split; [split|]; auto|discriminate].
  - destruct (res <? 0); [injection U as <- <- <-; split; [split|]; auto|]. apply obind_ret in U. destruct U as ([[r2 x2] w2] & A & U).
    apply once_behind in A; [|assumption]. destruct A as (A1 & A2 & A3). apply IHfuel in U; [|split; congruence]. rewrite <- A3. exact U.
Qed.

Lemma loop_within : forall fuel res c x w r x1 w1, within c x -> bytes_ok (a_left (x_ap x)) -> (c = [] -> a_left (x_ap x) = [] \/ announced_comp (a_left (x_ap x)) = 1) -> res = 0 \/ res = 1 ->
  x_process_loop L E fuel res x w = Ret (r, x1, w1) -> a_patch_size (x_ap x1) = a_patch_size (x_ap x) /\
  (within (c ++ a_left (x_ap x)) x1 /\ (r = 0 \/ r = 1) \/ behind x1 /\ (header_complete (c ++ a_left (x_ap x)) = true \/ r < 0 /\ r <> - E_ALREADY_DONE)).
Proof.
  induction fuel; intros res c x w r x1 w1 Hw Hb Hc Hr U; cbn [x_process_loop] in U; destruct (a_left (x_ap x)) as [|b l] eqn:El; try (injection U as <- <- <-; rewrite app_nil_r; auto; fail).
  - destruct (Z.ltb_spec res 0); [lia|discriminate].
  - destruct (Z.ltb_spec res 0); [lia|]. apply obind_ret in U. destruct U as ([[r2 x2] w2] & A & U).
    destruct (once_within c x w r2 x2 w2 Hw) as (A1 & d & A2 & A3); auto; try (rewrite El; try exact Hb; try discriminate).
    { intros C0. destruct (Hc C0) as [C1|C1]; [discriminate|exact C1]. }
    rewrite El in A2. rewrite A2, app_assoc. destruct A3 as [(A3 & A5 & A4)|[(A3 & -> & A4)|(A3 & A4 & A5)]].
    + destruct (IHfuel r2 (c ++ d) x2 w2 r x1 w1 A3) as (B1 & B2); auto.
      { rewrite A2 in Hb. unfold bytes_ok in *. apply Forall_app in Hb. tauto. }
      { intros C0. congruence. }
      rewrite B1, A1. split; [reflexivity|]. exact B2.
    + destruct (loop_behind fuel 0 x2 w2 r x1 w1 A3 U) as (B1 & B2). split; [congruence|]. right. split; [exact B1|]. left. apply complete_app. exact A4.
    + assert (Q : x_process_loop L E fuel r2 x2 w2 = Ret (r2, x2, w2)).
      { destruct fuel; cbn [x_process_loop]; destruct (a_left (x_ap x2)); try reflexivity; (destruct (Z.ltb_spec r2 0); [reflexivity|lia]). }
      rewrite Q in U. injection U as <- <- <-. auto 10.
Qed.

Definition stage (ps : Z) (seen : list Z) (bad : bool) (x : xap D) : Prop :=
  a_patch_size (x_ap x) = ps /\ (within seen x /\ bad = false \/ behind x /\ (header_complete seen = true \/ bad = true)).

Definition failed (rs : list Z) : bool := existsb (fun r => negb (r =? 0)) rs.

Lemma process_stage : forall ps seen bad fuel x w p r x1 w1, stage ps seen bad x -> bytes_ok p -> seen ++ p = [] \/ announced_comp (seen ++ p) = 1 ->
  x_process L E fuel x w p = Ret (r, x1, w1) -> stage ps (seen ++ p) (bad || negb (r =? 0)) x1.
Proof.
  intros ps seen bad fuel x w p r x1 w1 (Hp & H) Hb Ha U. unfold x_process in U. cbv zeta in U. apply obind_ret in U. destruct U as ([[r2 x2] w2] & A & U).
  set (x0 := mkxap (set_chunk (set_patch_offset (x_ap x) (wrap (a_patch_offset (x_ap x) + zlen p))) p) (x_reader x)) in *.
  injection U as <- <- <-. destruct H as [(H & ->)|(H & H1)].
  - assert (H0 : within seen x0) by exact H.
    destruct (loop_within fuel 0 seen x0 w r2 x2 w2 H0) as (B1 & B2); auto.
    { intros ->. exact Ha. }
    change (a_left (x_ap x0)) with p in B2. split; [rewrite B1; exact Hp|]. destruct B2 as [(B2 & B3)|(B2 & B3)].
    + left. split; [exact B2|]. destruct B3 as [->| ->]; reflexivity.
    + right. split; [exact B2|]. destruct B3 as [B3|(B3 & B4)]; [auto|]. right. unfold E_ALREADY_DONE in *. cbn [Z.opp] in *. assert (Q1 : (r2 =? 1) = false) by lia. assert (Q2 : (r2 =? -11) = false) by (apply Z.eqb_neq; exact B4). assert (Q3 : (r2 =? 0) = false) by lia. rewrite Q1, Q2. cbn [orb]. rewrite Q3. reflexivity.
  - assert (H0 : behind x0) by exact H. destruct (loop_behind fuel 0 x0 w r2 x2 w2 H0 A) as (B1 & B2). split; [rewrite B2; exact Hp|]. right. split; [exact B1|].
    destruct H1 as [H1| ->]; [left; apply complete_app; exact H1|auto].
Qed.

Lemma announced_part : forall a b, a ++ b = [] \/ announced_comp (a ++ b) = 1 -> a = [] \/ announced_comp a = 1.
Proof. intros [|x a] b H; [auto|]. destruct H as [H|H]; [discriminate|]. right. exact H. Qed.

Lemma pieces_stage : forall pieces ps seen bad fuel x w rs x1 w1, stage ps seen bad x -> bytes_ok (concat pieces) -> seen ++ concat pieces = [] \/ announced_comp (seen ++ concat pieces) = 1 ->
  x_pieces L E fuel x w pieces = Ret (rs, x1, w1) -> stage ps (seen ++ concat pieces) (bad || failed rs) x1.
Proof.
  induction pieces as [|p pieces IH]; intros ps seen bad fuel x w rs x1 w1 H Hb Ha U; cbn [x_pieces concat] in *.
  - injection U as <- <- <-. rewrite app_nil_r. cbn. rewrite orb_false_r. exact H.
  - apply obind_ret in U. destruct U as ([[r x2] w2] & A & U). apply obind_ret in U. destruct U as ([[rs2 x3] w3] & B & U). injection U as <- <- <-.
    unfold bytes_ok in Hb. apply Forall_app in Hb. destruct Hb as [Hb1 Hb2]. rewrite app_assoc in *.
    pose proof (process_stage ps seen bad fuel x w p r x2 w2 H Hb1 (announced_part _ _ Ha) A) as S1. pose proof (IH _ _ _ _ _ _ _ _ _ S1 Hb2 Ha B) as S2.
    cbn [failed existsb]. fold (failed rs2). rewrite orb_assoc. exact S2.
Qed.

Lemma start_stage : forall junk ps, stage ps [] false (xap_init (D := D) junk ps).
Proof. intros. split; [reflexivity|]. left. split; [|reflexivity]. split; reflexivity. Qed.

(** ** Dump *)

Lemma lzma_dump : forall fuel junk ps w pieces rs x w1, bytes_ok (concat pieces) -> concat pieces = [] \/ announced_comp (concat pieces) = 1 ->
  x_pieces L E fuel (xap_init junk ps) w pieces = Ret (rs, x, w1) ->
  x_dump 0 x = if forallb (Z.eqb 0) rs && negb (header_complete (concat pieces)) then 0 else - E_NOT_IMPLEMENTED.
Proof.
  intros fuel junk ps w pieces rs x w1 Hb Ha U. pose proof (pieces_stage pieces ps [] false fuel _ w rs x w1 (start_stage junk ps) Hb Ha U) as (_ & H). cbn [app orb] in H.
  assert (F : forallb (Z.eqb 0) rs = negb (failed rs)).
  { clear. induction rs as [|r rs IH]; [reflexivity|]. cbn [forallb failed existsb]. fold (failed rs). rewrite IH, negb_orb, negb_involutive, Z.eqb_sym. reflexivity. }
  rewrite F. unfold x_dump. change (negb (0 =? 0)) with false. cbv iota. unfold dump_ok. destruct H as [((H1 & H2) & H3)|((H1 & H2) & H3)].
  - rewrite H1, H3. cbn [negb andb]. assert (Q : header_complete (concat pieces) = false).
    { destruct (a_to_init (x_ap x)); [|rewrite H2; reflexivity]. destruct H2 as (_ & b & t & -> & H2). exact H2. }
    rewrite Q. reflexivity.
  - rewrite H2. destruct (a_state (x_ap x)); try congruence; (destruct H3 as [-> | ->]; [rewrite andb_false_r|]; reflexivity).
Qed.

(** ** Restore *)

Lemma lzma_restore : forall fuel junk junk2 ps ps2 w w2 pieces rs x w1, bytes_ok (concat pieces) -> concat pieces = [] \/ announced_comp (concat pieces) = 1 ->
  x_pieces L E fuel (xap_init junk ps) w pieces = Ret (rs, x, w1) ->
  if x_dump 0 x =? 0 then x_restore E (xap_init junk2 ps2) x w2 = Ret (0, xap_init junk2 ps, w2)
  else exists e x2 w3, x_restore E (xap_init junk2 ps2) x w2 = Ret (e, x2, w3) /\ (e = - E_NOT_IMPLEMENTED \/ e = - E_IO_FAILED).
Proof.
  intros fuel junk junk2 ps ps2 w w2 pieces rs x w1 Hb Ha U. pose proof (pieces_stage pieces ps [] false fuel _ w rs x w1 (start_stage junk ps) Hb Ha U) as (Hp & H). cbn [app orb] in H.
  unfold x_dump. change (negb (0 =? 0)) with false. cbv iota. destruct H as [((H1 & _) & _)|((H1 & H2) & _)].
  - unfold dump_ok, x_restore, restore. rewrite H1. change (0 =? 0) with true. cbv iota. cbn [obind]. rewrite Hp. reflexivity.
  - assert (Dk : dump_ok (x_ap x) = false) by (unfold dump_ok; rewrite H2; destruct (a_state (x_ap x)); try congruence; reflexivity).
    rewrite Dk. change (- E_NOT_IMPLEMENTED =? 0) with false. cbv iota. unfold x_restore, restore. rewrite Dk.
    destruct (a_state (x_ap x)); try congruence; (cbv iota zeta; destruct (from_seek E w2 _) as [rs1 w3]; destruct (negb (rs1 =? 0)); cbn [obind];
      [exists (- E_IO_FAILED)|exists (- E_NOT_IMPLEMENTED)]; do 2 eexists; (split; [reflexivity|auto])).
Qed.

End Dump.

(** A state that could not be written, whatever it is. *)
Lemma unwritten_dump : forall (D : Type) written (x : xap D), written <> 0 -> x_dump written x = - E_IO_FAILED.
Proof. intros D written x H. unfold x_dump. destruct (Z.eqb_spec written 0); [contradiction|reflexivity]. Qed.
