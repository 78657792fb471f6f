(** Which decompressors end on any data; apply_patch() on arbitrary patches. *)

From Coq Require Import ZArith List Bool Lia ZifyBool ZifyNat ZifyN.
From Verif Require Import Prelude Lib Spec PySize PyCrle PyCreate PyApply PySpec SizeCodec CrleProofs PyReader PyApplyProofs PyDecomp SeqMeaning PySeq PyApplyInPlace
  PyInfo PyInfoSpec PyInfoProofs PyInfoThms PyAnySpec.
Import ListNotations.
Open Scope Z_scope.

Lemma none_finite : forall file, finite_output none_dec file.
Proof. intros file. exists Rnone, file. split; [apply none_contract|apply none_start]. Qed.

Lemma crle_finite : forall file, finite_output crle_dec file.
Proof.
  intros file. destruct (drain (length file) [] 0 file) as (o, e) eqn:Ed. exists (Rcrle false e), o. split; [apply crle_contract|].
  cbn [crle_dec d_init]. unfold Rcrle, cdec_init. cbn [cd_left cd_in cd_out cd_scattered]. split; [reflexivity|]. split; [lia|]. split; [reflexivity|]. split; [|discriminate]. exists o. auto.
Qed.

Section Hs.
Context (H : hs_reader) (HQ : quiet H).

(** What [file], not empty, gives in pieces of [n] and then of 4096 bytes. *)
Fixpoint hs_out (k : nat) (n : Z) (enc : hsr_state H) (file : list Z) : list Z :=
  match k with
  | O => []
  | S k' =>
      match hsr_fill H enc (ztake n file) with
      | None => []
      | Some (o, enc1) =>
          match zdrop n file with
          | [] => match hsr_finish H enc1 with None => [] | Some f => o ++ f end
          | _ => o ++ hs_out k' 4096 enc1 (zdrop n file)
          end
      end
  end.

Definition Rany (d : dstate (hs_dec H)) (file out : list Z) : Prop :=
  match hd_encoder d with
  | None => hd_data d = [] /\ hd_left d = zlen file /\
      match file with
      | [] => out = []
      | [b] => out = match hsr_finish H (hsr_open H (b / 16 + 4) (b mod 16 + 3)) with None => [] | Some f => f end
      | b :: rest => out = hs_out (length file) 4095 (hsr_open H (b / 16 + 4) (b mod 16 + 3)) rest
      end
  | Some enc =>
      (hd_left d = -1 /\ file = [] /\ out = hd_data d) \/
      (hd_left d = zlen file /\ file <> [] /\ exists k, (length file <= k)%nat /\ out = hd_data d ++ hs_out k 4096 enc file)
  end.

Lemma zlen_nil : forall x : list Z, (zlen x =? 0) = match x with [] => true | _ => false end.
Proof using. intros [|x l]; [reflexivity|]. rewrite zlen_cons. pose proof (zlen_nonneg l). destruct (Z.eqb_spec (1 + zlen l) 0); [lia|reflexivity]. Qed.

(** Giving a piece of a non-empty file to an encoder without data. *)
Lemma go_piece : forall k n enc file sz left0 enc0 dat, 0 < n -> 0 < sz -> file <> [] -> (length file <= k)%nat ->
  d_decompress (hs_dec H) (mkhd left0 [] enc0) dat sz = Ret (hsd_go (zlen file) [] enc (ztake n file) sz) ->
  delivers (hs_dec H) Rany (mkhd left0 [] enc0) dat (zdrop n file) (hs_out k n enc file) sz false.
Proof using.
  intros k n enc file sz left0 enc0 dat Hn Hsz Hf Hk E. destruct k; [destruct file; [congruence|cbn [length] in Hk; lia]|]. cbn [hs_out].
  pose proof (zlen_nonneg file). assert (0 < zlen file) by (destruct (Z.eq_dec (zlen file) 0) as [Z0|]; [apply zlen_0_nil in Z0; congruence|lia]).
  unfold hsd_go in E. destruct (Z.ltb_spec 0 (zlen file)); [|lia]. destruct (hsr_fill H enc (ztake n file)) as [(o, enc1)|]; [|left; auto]. cbn [app] in E.
  assert (L : zlen file - zlen (ztake n file) = zlen (zdrop n file)) by (rewrite zlen_ztake, zlen_zdrop by lia; lia). rewrite L in E. rewrite zlen_nil in E.
  destruct (zdrop n file) as [|x rest] eqn:Ez.
  - destruct (hsr_finish H enc1) as [f|]; [|left; auto]. right. exists (ztake sz (o ++ f)), (zdrop sz (o ++ f)), (mkhd (-1) (zdrop sz (o ++ f)) (Some enc1)). split; [exact E|].
    split; [left; auto|]. split; [symmetry; apply ztake_zdrop|]. split; [rewrite zlen_ztake by lia; lia|discriminate].
  - right. exists (ztake sz o), (zdrop sz o ++ hs_out k 4096 enc1 (x :: rest)), (mkhd (zlen (x :: rest)) (zdrop sz o) (Some enc1)). split; [exact E|]. split.
    + right. split; [reflexivity|]. split; [discriminate|]. exists k. split; [|reflexivity]. rewrite <- Ez. unfold zdrop. rewrite skipn_length. lia.
    + split; [rewrite app_assoc, ztake_zdrop; reflexivity|]. split; [rewrite zlen_ztake by lia; lia|discriminate].
Qed.

Lemma any_contract : contract (hs_dec H) Rany.
Proof using HQ.
  intros (left, data, enc) file out HR. cbn [hs_dec d_eof d_needs_input dstate]. unfold Rany, hsd_eof, hsd_needs_input, hsd_eof in *. cbn [hd_left hd_data hd_encoder] in *.
  pose proof (zlen_nonneg file) as Hf. rewrite !zlen_nil. destruct enc as [enc|].
  - destruct HR as [(-> & -> & ->)|(-> & Hne & k & Hk & ->)].
    + change (-1 =? -1) with true. cbn [andb negb]. destruct data as [|x data]; [reflexivity|]. cbn [andb]. intros n Hn0. right. exists (ztake n (x :: data)), (zdrop n (x :: data)).
      eexists. cbn [hs_dec d_decompress hsd_decompress hd_encoder]. unfold hsd_decompress, hsd_go. cbn [hd_encoder hd_left hd_data]. change (0 <? -1) with false. change (-1 =? 0) with false. split; [reflexivity|].
      split; [left; auto|]. split; [symmetry; apply ztake_zdrop|]. split; [rewrite zlen_ztake by lia; lia|]. intros _. left. rewrite ztake_cons by lia. discriminate.
    + destruct (Z.eqb_spec (zlen file) (-1)); [lia|]. cbn [andb negb]. rewrite andb_true_r. destruct data as [|x data].
      * cbn [app]. destruct file as [|b file]; [congruence|]. intros n0 Hn0. remember (b :: file) as fl eqn:Efl. apply go_piece; auto; try lia; try congruence; reflexivity.
      * intros n0 Hn0. right. exists (ztake n0 (x :: data)), (zdrop n0 (x :: data) ++ hs_out k 4096 enc file), (mkhd (zlen file) (zdrop n0 (x :: data)) (Some enc)).
        cbn [hs_dec d_decompress]. unfold hsd_decompress, hsd_go. cbn [hd_encoder hd_left hd_data]. assert (0 < zlen file) by (destruct (Z.eq_dec (zlen file) 0) as [Z0|]; [apply zlen_0_nil in Z0; congruence|lia]).
        destruct (Z.ltb_spec 0 (zlen file)); [|lia]. rewrite HQ, app_nil_r. change (zlen (@nil Z)) with 0. rewrite Z.sub_0_r. destruct (Z.eqb_spec (zlen file) 0); [lia|]. split; [reflexivity|].
        split; [right; cbn [hd_left hd_data]; split; [reflexivity|]; split; [auto|]; eauto|]. split; [rewrite app_assoc, ztake_zdrop; reflexivity|]. split; [rewrite zlen_ztake by lia; lia|]. intros _. left. rewrite ztake_cons by lia. discriminate.
  - destruct HR as (-> & -> & HR). destruct (Z.eqb_spec (zlen file) (-1)); [lia|]. cbn [andb negb]. destruct file as [|b rest]; [exact HR|]. intros n0 Hn0.
    assert (T : ztake 4096 (b :: rest) = b :: ztake 4095 rest /\ zdrop 4096 (b :: rest) = zdrop 4095 rest) by (rewrite ztake_cons, zdrop_cons by lia; auto).
    destruct T as (-> & ->). set (enc := hsr_open H (b / 16 + 4) (b mod 16 + 3)) in *.
    assert (E : d_decompress (hs_dec H) (mkhd (zlen (b :: rest)) [] None) (b :: ztake 4095 rest) n0 = Ret (hsd_go (zlen rest) [] enc (ztake 4095 rest) n0)).
    { cbn [hs_dec d_decompress]. unfold hsd_decompress. cbn [hd_encoder hd_left hd_data]. rewrite zlen_cons. do 2 f_equal. lia. }
    destruct rest as [|x rest].
    + unfold hsd_go in E. change (0 <? zlen (@nil Z)) with false in E. change (zlen (@nil Z) =? 0) with true in E. cbn iota in E. cbn [app] in E. subst out.
      destruct (hsr_finish H enc) as [f|]; [|left; auto]. right. exists (ztake n0 f), (zdrop n0 f), (mkhd (-1) (zdrop n0 f) (Some enc)). split; [exact E|]. split; [left; auto|]. split; [symmetry; apply ztake_zdrop|]. split; [rewrite zlen_ztake by lia; lia|discriminate].
    + subst out. apply go_piece; auto; [lia|discriminate|cbn [length]; lia].
Qed.

Lemma hs_finite : forall file, finite_output (hs_dec H) file.
Proof using HQ.
  intros file. eexists Rany, _. split; [apply any_contract|]. unfold Rany. cbn [hs_dec d_init hd_encoder hd_data hd_left]. split; [reflexivity|]. split; [reflexivity|].
  instantiate (1 := match file with [] => _ | b :: rest => match rest with [] => _ | _ => _ end end). destruct file as [|b [|c rest]]; reflexivity.
Qed.
End Hs.

Theorem known_finite : forall X patch, quiet (x_heatshrink X) ->
  (match patch with [] => True | b :: _ => Z.land b 15 = 0 \/ Z.land b 15 = 2 \/ Z.land b 15 = 4 \/ 6 < Z.land b 15 end) -> finite_compression X patch.
Proof.
  intros X [|b l] HQ Hp; [exact I|]. intros D HD file. cbn [unpack_header snd] in HD. unfold decompressor_of in HD. destruct Hp as [Hp|[Hp|[Hp|Hp]]].
  - rewrite Hp in HD. injection HD as <-. apply none_finite.
  - rewrite Hp in HD. injection HD as <-. apply crle_finite.
  - rewrite Hp in HD. injection HD as <-. apply hs_finite, HQ.
  - destruct (Z.eqb_spec (Z.land b 15) 0); [lia|]. destruct (Z.eqb_spec (Z.land b 15) 2); [lia|]. destruct (Z.eqb_spec (Z.land b 15) 4); [lia|].
    destruct (Z.eqb_spec (Z.land b 15) 1); [lia|]. destruct (Z.eqb_spec (Z.land b 15) 3); [lia|]. destruct (Z.eqb_spec (Z.land b 15) 5); [lia|]. destruct (Z.eqb_spec (Z.land b 15) 6); [lia|]. discriminate.
Qed.

Theorem apply_finite : forall X F hdiff clamps from patch, finite_compression X patch ->
  (forall format from1 data n, exists v, F format from1 data n = Ret v) -> (forall a b, exists v, hdiff a b = Ret v) ->
  exists m, forall fuel, (m <= fuel)%nat -> exists v, apply_patch X F hdiff fuel clamps from patch = Ret v /\
    (forall n to, v = Val (n, to) -> (match patch with [] => True | b :: _ => fst (unpack_header b) <> 2 end) -> zlen to = Z.max 0 n).
Proof.
  intros X F hdiff clamps from patch Hp HF Hd. destruct patch as [|b l]; [exists O; intros fuel _; eexists; split; [reflexivity|discriminate]|].
  unfold apply_patch, apply_patch_sequential, read_header_sequential. unfold finite_compression in Hp. destruct (unpack_header b) as (ty, nu) eqn:Eh. cbn [fst snd] in *.
  destruct (Z.eqb_spec ty 0) as [->|].
  2:{ exists O. intros fuel _. destruct (Z.eqb_spec ty 2) as [->|]; [|eexists; split; [reflexivity|discriminate]]. destruct (Hd from (b :: l)) as (v & ->). exists v. split; [reflexivity|]. intros n0 to _ N. congruence. }
  cbn [Z.eqb negb]. destruct (decompressor_of X nu) as [D|] eqn:Hdx; [|exists O; intros fuel _; eexists; split; [reflexivity|discriminate]].
  destruct (py_unpack_size l) as [(to_size, file)|] eqn:Es.
  2:{ exists O. intros fuel _. unfold file_unpack_size. rewrite Es. eexists; (split; [reflexivity|discriminate]). }
  destruct (Hp D eq_refl file) as (R & out & D2 & D3). unfold file_unpack_size. rewrite Es. cbn [pbind ret].
  exists (Datatypes.S (2 * (length file + length out) + 1)). intros fuel Hf. destruct (Z.eqb_spec to_size 0) as [->|]; [eexists; split; [reflexivity|]; intros n to E _; injection E as <- <-; reflexivity|].
  assert (H0 : holds R fuel (pr_open D file) out) by (split; [exact D3|cbn [pr_file pr_open]; lia]).
  assert (G : forall clamps1 from1 dfd r1 o1, holds R fuel r1 o1 -> exists v, (dop s := apply_loop fuel fuel clamps1 from1 dfd 0 to_size (mkps r1 0 [] 0) in
    if pr_eof (ps_reader s) then ret (to_size, ps_out s) else raise DetoolsError) = Ret v /\ forall n to, v = Val (n, to) -> 0 <> 2 -> zlen to = Z.max 0 n).
  { intros clamps1 from1 dfd r1 o1 H1. destruct (apply_any D R D2 fuel clamps1 from1 dfd fuel 0 to_size (mkps r1 0 [] 0) o1 H1) as [(s1 & out1 & I1 & I2 & I3)|(e & I1)].
    - destruct H1. lia.
    - rewrite I1. cbn [pbind ret]. destruct (pr_eof (ps_reader s1)); eexists; (split; [reflexivity|]); [|discriminate]. intros n1 to E _. injection E as <- <-. cbn [ps_out] in I3. change (zlen (@nil Z)) with 0 in I3. lia.
    - rewrite I1. eexists. split; [reflexivity|discriminate]. }
  unfold create_data_format_readers. pose proof (size_any D R D2 fuel _ _ H0) as A. destruct (py_unpack_size out) as [(sz, o1)|]; [|rewrite A; eexists; split; [reflexivity|discriminate]].
  destruct A as (r1 & A1 & A2 & A3). rewrite A1. cbn [pbind ret]. destruct (Z.ltb_spec 0 sz) as [L|L].
  - pose proof (size_any D R D2 fuel _ _ A2) as B. destruct (py_unpack_size o1) as [(fm, o2)|]; [|rewrite B; eexists; split; [reflexivity|discriminate]].
    destruct B as (r2 & B1 & B2 & B3). rewrite B1. cbn [pbind ret]. pose proof (read_any D R D2 fuel sz _ _ B2) as C. destruct (zlen o2 <? sz); [rewrite C; eexists; split; [reflexivity|discriminate]|].
    destruct C as (r3 & C1 & C2). rewrite C1. cbn [pbind ret]. destruct (HF fm from (ztake sz o2) to_size) as ([(dfd, from1)|e] & ->); cbn [pbind ret]; [|eexists; split; [reflexivity|discriminate]].
    eapply G. exact C2.
  - cbn [pbind ret]. eapply G. exact A2.
Qed.
