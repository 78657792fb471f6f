(** Applying sequential patches in Python: complete patches, patches that have been
    cut off and patches followed by other bytes. *)

From Coq Require Import ZArith List Bool Lia ZifyBool ZifyNat ZifyN.
From Verif Require Import Prelude Lib Spec PySize PyCrle PyCreate PyApply PySpec SizeCodec CrleProofs PyReader PyApplyProofs PyDecomp SeqMeaning.
Import ListNotations.
Open Scope Z_scope.

(** ** heatshrink, given a correct heatshrink2 *)

Definition Rhs (H : hs_reader) (Q : hsr_state H -> list Z -> list Z -> Prop) (d : dstate (hs_dec H)) (file out : list Z) : Prop :=
  match hd_encoder d with
  | None => hd_data d = [] /\ hd_left d = zlen file /\
      out <> [] /\ exists b rest, file = b :: rest /\ Q (hsr_open H (b / 16 + 4) (b mod 16 + 3)) rest out
  | Some enc =>
      (hd_left d = -1 /\ file = [] /\ out = hd_data d) \/
      (hd_left d = zlen file /\ file <> [] /\ exists out1, out = hd_data d ++ out1 /\ Q enc file out1)
  end.

Section Heatshrink.
Context (H : hs_reader) (Q : hsr_state H -> list Z -> list Z -> Prop).
Context (Qf : forall st data rest out, Q st (data ++ rest) out -> exists o out1 st1, hsr_fill H st data = Some (o, st1) /\ out = o ++ out1 /\ Q st1 rest out1).
Context (Qe : forall st out, Q st [] out -> hsr_finish H st = Some out).

Lemma go_spec : forall enc data rest out data0 n, Q enc (data ++ rest) out ->
  exists d1 more out1, hsd_go (zlen (data ++ rest)) data0 enc data n = Some (ztake n (data0 ++ more), d1) /\ out = more ++ out1 /\
    Rhs H Q d1 rest (zdrop n (data0 ++ more) ++ out1).
Proof using Qf Qe.
  intros enc data rest out data0 n HQ. unfold hsd_go.
  assert (S : exists o out1 enc1, (if 0 <? zlen (data ++ rest) then match hsr_fill H enc data with None => None | Some (out, enc1) => Some (data0 ++ out, zlen (data ++ rest) - zlen data, enc1) end
         else Some (data0, zlen (data ++ rest), enc)) = Some (data0 ++ o, zlen rest, enc1) /\ out = o ++ out1 /\ Q enc1 rest out1).
  { destruct (Z.ltb_spec 0 (zlen (data ++ rest))) as [L|L].
    - destruct (Qf _ _ _ _ HQ) as (o & out1 & st1 & A1 & A2 & A3). exists o, out1, st1. rewrite A1. split; [|auto]. rewrite zlen_app. do 2 f_equal. f_equal. lia.
    - assert (E : data ++ rest = []) by (apply zlen_0_nil; pose proof (zlen_nonneg (data ++ rest)); lia). rewrite E in *. apply app_eq_nil in E. destruct E as (-> & ->).
      exists [], out, enc. rewrite app_nil_r. auto. }
  destruct S as (o & out1 & enc1 & S1 & S2 & S3). rewrite S1. destruct (Z.eqb_spec (zlen rest) 0) as [Z0|Z0].
  - apply zlen_0_nil in Z0. subst rest. rewrite (Qe _ _ S3). exists (mkhd (-1) (zdrop n ((data0 ++ o) ++ out1)) (Some enc1)), (o ++ out1), []. rewrite app_assoc, app_nil_r. split; [reflexivity|].
    split; [exact S2|]. unfold Rhs. cbn [hd_encoder hd_left hd_data]. left. rewrite app_nil_r. auto.
  - exists (mkhd (zlen rest) (zdrop n (data0 ++ o)) (Some enc1)), o, out1. split; [reflexivity|]. split; [exact S2|]. unfold Rhs. cbn [hd_encoder hd_left hd_data]. right.
    split; [reflexivity|]. split; [intros ->; apply Z0; reflexivity|]. eauto.
Qed.

Lemma hs_contract : contract (hs_dec H) (Rhs H Q).
Proof using Qf Qe.
  assert (G : forall left0 data0 enc0 enc data rest out n p, 0 < n -> (p = true -> data0 <> []) -> Q enc (data ++ rest) out ->
    d_decompress (hs_dec H) (mkhd left0 data0 enc0) = d_decompress (hs_dec H) (mkhd left0 data0 enc0) ->
    forall dat, d_decompress (hs_dec H) (mkhd left0 data0 enc0) dat n = Ret (hsd_go (zlen (data ++ rest)) data0 enc data n) ->
    delivers (hs_dec H) (Rhs H Q) (mkhd left0 data0 enc0) dat rest (data0 ++ out) n p).
  { intros left0 data0 enc0 enc data rest out n p Hn Hp HQ _ dat E. right. destruct (go_spec enc data rest out data0 n HQ) as (d1 & more & out1 & A1 & A2 & A3).
    rewrite A1 in E. exists (ztake n (data0 ++ more)), (zdrop n (data0 ++ more) ++ out1), d1. split; [exact E|]. split; [exact A3|].
    split; [rewrite app_assoc, ztake_zdrop, A2, app_assoc; reflexivity|]. split; [rewrite zlen_ztake by lia; lia|].
    intros P. left. intros N. specialize (Hp P). destruct data0; [congruence|]. cbn [app] in N. rewrite ztake_cons in N by lia. discriminate. }
  intros (left, data, enc) file out HR. cbn [hs_dec d_eof d_needs_input dstate]. unfold Rhs, hsd_eof, hsd_needs_input, hsd_eof in *. cbn [hd_left hd_data hd_encoder] in *.
  pose proof (zlen_nonneg file) as Hf.
  assert (Hn : forall x : list Z, (zlen x =? 0) = match x with [] => true | _ => false end).
  { intros [|x l]; [reflexivity|]. rewrite zlen_cons. pose proof (zlen_nonneg l). destruct (Z.eqb_spec (1 + zlen l) 0); [lia|reflexivity]. }
  rewrite !Hn. destruct enc as [enc|].
  - destruct HR as [(-> & -> & ->)|(-> & Hne & out1 & -> & HQ)].
    + change (-1 =? -1) with true. cbn [andb negb]. destruct data as [|x data]; [reflexivity|]. cbn [andb]. intros n Hn0. right. exists (ztake n (x :: data)), (zdrop n (x :: data)).
      eexists. cbn [hs_dec d_decompress hsd_decompress hd_encoder]. unfold hsd_decompress, hsd_go. cbn [hd_encoder hd_left hd_data]. change (0 <? -1) with false. change (-1 =? 0) with false. split; [reflexivity|].
      split; [unfold Rhs; cbn [hd_encoder hd_left hd_data]; auto|]. split; [symmetry; apply ztake_zdrop|]. split; [rewrite zlen_ztake by lia; lia|]. intros _. left. rewrite ztake_cons by lia. discriminate.
    + destruct (Z.eqb_spec (zlen file) (-1)); [lia|]. cbn [andb negb]. rewrite andb_true_r. destruct data as [|x data].
      * destruct file as [|b file]; [congruence|]. intros n0 Hn0. remember (b :: file) as fl eqn:Efl. apply (G _ [] _ enc (ztake 4096 fl) (zdrop 4096 fl) out1 n0 false Hn0); [discriminate|rewrite ztake_zdrop; exact HQ|reflexivity|].
        rewrite ztake_zdrop. reflexivity.
      * intros n0 Hn0. apply (G _ (x :: data) _ enc [] file out1 n0 true Hn0); [discriminate|exact HQ|reflexivity|reflexivity].
  - destruct HR as (-> & -> & _ & b & rest & -> & HQ). destruct (Z.eqb_spec (zlen (b :: rest)) (-1)); [lia|]. cbn [andb negb].
    intros n0 Hn0. rewrite <- (app_nil_l out).
    assert (T : ztake 4096 (b :: rest) = b :: ztake 4095 rest /\ zdrop 4096 (b :: rest) = zdrop 4095 rest) by (rewrite ztake_cons, zdrop_cons by lia; auto).
    destruct T as (-> & ->). apply (G _ [] _ (hsr_open H (b / 16 + 4) (b mod 16 + 3)) (ztake 4095 rest) (zdrop 4095 rest) out n0 false Hn0); [discriminate|rewrite ztake_zdrop; exact HQ|reflexivity|].
    rewrite ztake_zdrop. cbn [hs_dec d_decompress]. unfold hsd_decompress. cbn [hd_encoder hd_left hd_data]. rewrite zlen_cons. do 2 f_equal. lia.
Qed.

Lemma hs_ends : (forall st rest, Q st rest [] -> rest = []) -> ends (hs_dec H) (Rhs H Q).
Proof using.
  intros Q0 (left, data, enc) file HR. cbn [hs_dec d_eof]. unfold Rhs, hsd_eof in *. cbn [hd_left hd_data hd_encoder] in *. destruct enc as [enc|].
  - destruct HR as [(-> & -> & <-)|(-> & Hne & out1 & E & HQ)]; [reflexivity|]. symmetry in E. apply app_eq_nil in E. destruct E as (_ & ->). apply Q0 in HQ. congruence.
  - destruct HR as (_ & _ & N & _). congruence.
Qed.

End Heatshrink.

(** ** All compressions *)

Lemma none_decodes : forall body, decodes none_dec body body.
Proof. intros body. exists Rnone. split; [apply none_contract|]. split; [apply none_ends|]. apply none_start. Qed.

Lemma crle_decodes : forall segs, Forall (fun s => 1 <= seg_len s < 2 ^ 63) segs -> decodes crle_dec (segs_expand segs) (enc_segs segs).
Proof. intros segs H. destruct (crle_start segs H) as (e & S). exists (Rcrle true e). split; [apply crle_contract|]. split; [apply crle_ends|exact S]. Qed.

Lemma hs_decodes : forall H wb lb ts pad bytes, hs_reader_ok H -> 4 <= wb < 16 -> 3 <= lb < 16 -> Forall (token_ok wb lb) ts -> bytes_ok bytes ->
  (length pad < 8)%nat -> bytes_bits bytes = enc_tokens wb lb ts ++ pad -> tokens_expand [] ts <> [] ->
  decodes (hs_dec H) (tokens_expand [] ts) ((wb - 4) * 16 + (lb - 3) :: bytes).
Proof.
  intros H wb lb ts pad bytes (Q & Q1 & Q2 & Q3 & Q4) Hw Hl Ht Hb Hp E Hne. exists (Rhs H Q). split; [apply hs_contract; auto|]. split; [apply hs_ends; auto|].
  unfold Rhs. cbn [hs_dec d_init hd_encoder hd_data hd_left]. split; [reflexivity|]. split; [reflexivity|]. split; [exact Hne|]. eexists _, _. split; [reflexivity|].
  replace (((wb - 4) * 16 + (lb - 3)) / 16 + 4) with wb by lia. replace (((wb - 4) * 16 + (lb - 3)) mod 16 + 3) with lb by lia. eapply Q4; eauto.
Qed.

Lemma comp_dec : forall X c, exists D, decompressor_of X (comp_number c) = Some D /\
  forall body stream, py_stream c body stream -> body <> [] -> (c = CompHeatshrink -> hs_reader_ok (x_heatshrink X)) -> decodes D body stream.
Proof.
  intros X []; eexists; (split; [reflexivity|]); intros body stream S Hne Hh; inversion S; subst.
  - apply none_decodes.
  - apply crle_decodes; assumption.
  - eapply hs_decodes; eauto.
Qed.

(** ** The body *)

Lemma apply_size : forall from recs pos to, apply_recs from pos recs = Some to -> zlen to = recs_size recs.
Proof.
  intros from. induction recs as [|r recs IH]; intros pos to E; cbn [apply_recs] in E; [injection E as <-; reflexivity|].
  destruct (slice from pos (zlen (r_diff r))) as [f|] eqn:Es; [|discriminate]. destruct (_ <? 0); [discriminate|].
  destruct (apply_recs from _ recs) as [to2|] eqn:Ea; [|discriminate]. injection E as <-. rewrite recs_size_cons, !zlen_app, (IH _ _ Ea), zlen_add_mod. unfold rec_size.
  assert (zlen f = zlen (r_diff r)); [|lia].
  unfold slice in Es. destruct (Z.eqb_spec (zlen (r_diff r)) 0); [injection Es as <-; change (zlen (@nil Z)) with 0; lia|].
  destruct (Z.leb_spec 0 pos); cbn [andb] in Es; [|discriminate]. destruct (Z.leb_spec (pos + zlen (r_diff r)) (zlen from)); [|discriminate]. injection Es as <-.
  pose proof (zlen_nonneg (r_diff r)). apply zlen_sub; lia.
Qed.

Lemma rec_le : forall recs, Forall (fun r => rec_size r <= recs_size recs) recs.
Proof.
  induction recs as [|r recs IH]; constructor; rewrite recs_size_cons.
  - pose proof (recs_size_nonneg recs). unfold rec_size. lia.
  - eapply Forall_impl; [|exact IH]. cbn beta. intros a Ha. pose proof (zlen_nonneg (r_diff r)). pose proof (zlen_nonneg (r_extra r)). lia.
Qed.

Definition body_of_patch (F : df_readers) (fuel : nat) (clamps : bool) (from : list Z) (to_size : Z) (D : decompressor) (file : list Z) : pyo (Z * list Z) :=
  dop (dfdiff, from1, clamps1, r) := create_data_format_readers fuel F clamps from to_size (pr_open D file) in
  dop s := apply_loop fuel fuel clamps1 from1 dfdiff 0 to_size (mkps r 0 [] 0) in
  if pr_eof (ps_reader s) then ret (to_size, ps_out s) else raise DetoolsError.

Lemma body_spec : forall D R, contract D R -> forall F fuel clamps from recs to file out cut rest,
  R (d_init D (zlen file)) file out -> (2 * (length file + length out) + 1 < fuel)%nat -> out ++ cut = enc_body recs ++ rest ->
  apply_recs from 0 recs = Some to -> recs_fit recs -> last_nonempty recs ->
  (exists r out1, out1 ++ cut = rest /\ R (pr_state r) (pr_file r) out1 /\
     body_of_patch F fuel clamps from (recs_size recs) D file = if pr_eof r then ret (recs_size recs, to) else raise DetoolsError) \/
  (cut <> [] /\ body_of_patch F fuel clamps from (recs_size recs) D file = raise DetoolsError).
Proof.
  intros D R HR F fuel clamps from recs to file out cut rest HS Hf E Ha (Hz & Hadj) Hl. unfold body_of_patch, create_data_format_readers.
  assert (H0 : holds R fuel (pr_open D file) out) by (split; [exact HS|cbn [pr_file pr_open]; lia]).
  unfold enc_body in E. rewrite <- app_assoc in E.
  destruct (pr_size_spec D R HR fuel 0 _ _ _ _ H0 E) as [(out1 & r1 & A1 & A2 & A3 & A4)|(A1 & A2)]; [change (2 ^ 63) with 9223372036854775808; lia| |right; rewrite A2; auto].
  rewrite A4. cbn [pbind ret]. change (0 <? 0) with false. cbn [pbind ret].
  assert (Hf1 : (length out1 < fuel)%nat) by (destruct A3; lia).
  destruct (loop_spec D R HR fuel from None clamps recs fuel (mkps r1 0 [] 0) out1 cut rest to 0 (recs_size recs)) as [(out2 & s1 & B1 & (B2 & _) & B3 & B4)|(B1 & B2)]; cbn [ps_reader ps_from ps_out ps_dfdiff]; auto; try lia.
  - pose proof (rec_le recs) as L. rewrite Forall_forall in *. intros r Hr. specialize (L r Hr). specialize (Hadj r Hr). lia.
  - exact I.
  - exact I.
  - apply (apply_size _ _ _ _ Ha).
  - left. exists (ps_reader s1), out2. split; [exact B1|]. split; [exact B2|]. rewrite B4. cbn [pbind ret]. rewrite B3. reflexivity.
  - right. rewrite B2. auto.
Qed.

(** ** The header *)

Lemma header_type : forall c, unpack_header (header_byte TYPE_SEQUENTIAL c) = (0, comp_number c).
Proof. intros []; reflexivity. Qed.

Lemma apply_header : forall X F hdiff fuel clamps from c D n file, decompressor_of X (comp_number c) = Some D -> - 2 ^ 63 < n < 2 ^ 63 ->
  apply_patch X F hdiff fuel clamps from (header_byte TYPE_SEQUENTIAL c :: enc_size n ++ file) =
  if n =? 0 then ret (n, []) else body_of_patch F fuel clamps from n D file.
Proof.
  intros X F hdiff fuel clamps from c D n file HD Hn. unfold apply_patch. rewrite header_type. cbn [Z.eqb]. unfold apply_patch_sequential, read_header_sequential. rewrite header_type, HD.
  change (negb (0 =? 0)) with false. cbn iota. unfold file_unpack_size. rewrite py_unpack_enc by exact Hn. cbn [pbind ret]. destruct (n =? 0); reflexivity.
Qed.

Lemma last_pos_size : forall recs, last_nonempty recs -> 0 < recs_size recs.
Proof. exact last_pos. Qed.

(** Every well-formed patch is applied. *)
Lemma py_applies : forall X F hdiff clamps c recs patch from to, py_patch c recs patch -> recs_fit recs -> apply_recs from 0 recs = Some to ->
  (c = CompHeatshrink -> hs_reader_ok (x_heatshrink X)) ->
  exists n, forall fuel, (n <= fuel)%nat -> apply_patch X F hdiff fuel clamps from patch = ret (zlen to, to).
Proof.
  intros X F hdiff clamps c recs patch from to P Hfit Ha Hh. destruct (comp_dec X c) as (D & HD & HDs). rewrite (apply_size _ _ _ _ Ha).
  destruct P as [(-> & ->)|(Hl & stream & S & ->)].
  - exists O. intros fuel _. rewrite <- (app_nil_r (enc_size 0)). rewrite (apply_header X F hdiff fuel clamps from c D) by (auto; change (2 ^ 63) with 9223372036854775808; lia).
    cbn in Ha. injection Ha as <-. reflexivity.
  - destruct (HDs _ _ S) as (R & R1 & R2 & R3); auto.
    { unfold enc_body. intros N. apply app_eq_nil in N. destruct N. discriminate. }
    exists (Datatypes.S (2 * (length stream + length (enc_body recs)) + 1)). intros fuel Hf. pose proof (last_pos_size _ Hl). destruct Hfit as (Hz & Hadj).
    rewrite (apply_header X F hdiff fuel clamps from c D); auto; [|change (2 ^ 63) with 9223372036854775808 in *; lia]. destruct (Z.eqb_spec (recs_size recs) 0); [lia|].
    destruct (body_spec D R R1 F fuel clamps from recs to stream (enc_body recs) [] []) as [(r & out1 & B1 & B2 & B3)|(B1 & _)]; auto; [split; assumption| |congruence].
    rewrite B3. apply app_eq_nil in B1. destruct B1 as (-> & _). unfold pr_eof. rewrite (R2 _ _ B2). reflexivity.
Qed.

(** ** Patches that have been cut off *)

Lemma groups_cut : forall k a l cut value off, 0 < a < 2 ^ (7 * Z.of_nat k) -> l ++ cut = enc_groups k a -> cut <> [] -> py_unpack_loop l value off = None.
Proof.
  induction k; intros a l cut value off Ha E Hc; [cbn in Ha; lia|]. cbn [enc_groups] in E. destruct (Z.eqb_spec a 0); [lia|].
  assert (P : 2 ^ (7 * Z.of_nat (S k)) = 128 * 2 ^ (7 * Z.of_nat k)).
  { replace (7 * Z.of_nat (S k)) with (7 + 7 * Z.of_nat k) by lia. rewrite Z.pow_add_r by lia. reflexivity. }
  destruct l as [|b l]; [reflexivity|]. cbn [py_unpack_loop]. destruct (Z.ltb_spec a 128).
  - injection E as -> E. apply app_eq_nil in E. tauto.
  - cbn [app] in E. assert (b = a mod 128 + 128) by congruence. assert (E2 : l ++ cut = enc_groups k (a / 128)) by congruence. subst b. clear E.
    pose proof (Z.mod_pos_bound a 128). rewrite land_128_byte by (unfold byte_ok; lia). destruct (Z.ltb_spec (a mod 128 + 128) 128); [lia|]. eapply IHk; eauto. lia.
Qed.

Lemma size_cut : forall v l cut, - 2 ^ 63 < v < 2 ^ 63 -> l ++ cut = enc_size v -> cut <> [] -> py_unpack_size l = None.
Proof.
  intros v l cut Hv E Hc. change (2 ^ 63) with 9223372036854775808 in Hv. unfold enc_size in E. set (a := Z.abs v) in *. destruct l as [|b l]; [reflexivity|]. cbn [py_unpack_size].
  destruct (Z.ltb_spec a 64).
  - injection E as _ E. apply app_eq_nil in E. tauto.
  - cbn [app] in E. assert (Eb : b = 128 + (if v <? 0 then 64 else 0) + a mod 64) by congruence. assert (E2 : l ++ cut = enc_groups 10 (a / 64)) by congruence.
    pose proof (Z.mod_pos_bound a 64). assert (128 <= b < 256) by (destruct (v <? 0); lia). rewrite land_128_byte by (unfold byte_ok; lia). destruct (Z.ltb_spec b 128); [lia|].
    rewrite (groups_cut 10 (a / 64) l cut); auto. change (2 ^ (7 * Z.of_nat 10)) with 1180591620717411303424. lia.
Qed.

Lemma header_cut : forall X F hdiff fuel clamps from c n l cut, - 2 ^ 63 < n < 2 ^ 63 -> l ++ cut = header_byte TYPE_SEQUENTIAL c :: enc_size n -> cut <> [] ->
  apply_patch X F hdiff fuel clamps from l = raise DetoolsError.
Proof.
  intros X F hdiff fuel clamps from c n l cut Hn E Hc. destruct l as [|b l]; [reflexivity|]. injection E as -> E. unfold apply_patch. rewrite header_type. cbn [Z.eqb].
  unfold apply_patch_sequential, read_header_sequential. rewrite header_type. change (negb (0 =? 0)) with false. cbn iota. destruct (comp_dec X c) as (D & -> & _).
  unfold file_unpack_size. rewrite (size_cut n l cut) by auto. reflexivity.
Qed.

(** What none and crle deliver for a stream that has been cut off. *)
Lemma stream_cut : forall X c body stream file cut, c = CompNone \/ c = CompCrle -> py_stream c body stream -> file ++ cut = stream -> cut <> [] ->
  exists D R out more, decompressor_of X (comp_number c) = Some D /\ contract D R /\ R (d_init D (zlen file)) file out /\ out ++ more = body /\ more <> [].
Proof.
  intros X c body stream file cut Hcomp S E Hc. inversion S as [b1 E0 E1 E2|segs Hs E0 E1 E2|]; subst c.
  - exists none_dec, Rnone, file, cut. split; [reflexivity|]. split; [apply none_contract|]. split; [apply none_start|]. split; [congruence|auto].
  - rewrite <- E2 in E. destruct (crle_cut _ _ _ Hs E Hc) as (e & out & more & A1 & A2 & A3). exists crle_dec, (Rcrle false e), out, more. split; [reflexivity|]. split; [apply crle_contract|]. auto.
  - destruct Hcomp; discriminate.
Qed.

Lemma py_rejects_cut : forall X F hdiff clamps c recs patch from to l cut, c = CompNone \/ c = CompCrle ->
  py_patch c recs patch -> recs_fit recs -> apply_recs from 0 recs = Some to -> l ++ cut = patch -> cut <> [] ->
  exists n, forall fuel, (n <= fuel)%nat -> apply_patch X F hdiff fuel clamps from l = raise DetoolsError.
Proof.
  intros X F hdiff clamps c recs patch from to l cut Hcomp P Hfit Ha E Hc.
  destruct P as [(-> & ->)|(Hl & stream & S & ->)].
  - exists O. intros fuel _. eapply header_cut; eauto. change (2 ^ 63) with 9223372036854775808; lia.
  - assert (Hn : - 2 ^ 63 < recs_size recs < 2 ^ 63).
    { destruct Hfit as (Hz & _). pose proof (recs_size_nonneg recs). change (2 ^ 63) with 9223372036854775808 in *. lia. }
    rewrite app_comm_cons in E. destruct (Z_lt_le_dec (zlen l) (zlen (header_byte TYPE_SEQUENTIAL c :: enc_size (recs_size recs)))) as [L|L].
    + symmetry in E. destruct (app_split _ _ _ _ E) as (c1 & E1 & E2); [lia|]. exists O. intros fuel _. eapply header_cut with (cut := c1); eauto.
      intros ->. rewrite app_nil_r in E1. rewrite E1 in L. lia.
    + destruct (app_split _ _ _ _ E L) as (file & -> & E2). rewrite <- app_comm_cons.
      destruct (stream_cut X c _ _ file cut Hcomp S E2 Hc) as (D & R & out & more & D1 & D2 & D3 & D4 & D5).
      exists (Datatypes.S (2 * (length file + length out) + 1)). intros fuel Hf. rewrite (apply_header X F hdiff fuel clamps from c D) by auto. pose proof (last_pos_size _ Hl). destruct (Z.eqb_spec (recs_size recs) 0); [lia|].
      destruct (body_spec D R D2 F fuel clamps from recs to file out more []) as [(r & out1 & B1 & B2 & B3)|(B1 & B2)]; auto.
      * rewrite app_nil_r. exact D4.
      * apply app_eq_nil in B1. destruct B1. congruence.
Qed.

(** ** Patches followed by other bytes *)

Lemma py_rejects_over : forall X F hdiff clamps c recs patch from to tl, c = CompNone \/ c = CompCrle ->
  py_patch c recs patch -> recs_fit recs -> apply_recs from 0 recs = Some to -> recs <> [] -> bytes_ok (patch ++ tl) -> tl <> [] ->
  (c = CompCrle -> ~ crle_void tl) ->
  exists n, forall fuel, (n <= fuel)%nat -> apply_patch X F hdiff fuel clamps from (patch ++ tl) = raise DetoolsError.
Proof.
  intros X F hdiff clamps c recs patch from to tl Hcomp P Hfit Ha Hne Hb Htl Hv.
  destruct P as [(-> & ->)|(Hl & stream & S & ->)]; [congruence|].
  assert (Hn : - 2 ^ 63 < recs_size recs < 2 ^ 63).
  { destruct Hfit as (Hz & _). pose proof (recs_size_nonneg recs). change (2 ^ 63) with 9223372036854775808 in *. lia. }
  pose proof (last_pos_size _ Hl) as Hpos.
  assert (Hbody : enc_body recs <> []) by (unfold enc_body; intros N; apply app_eq_nil in N; destruct N; discriminate).
  rewrite <- app_comm_cons, <- app_assoc in *.
  remember (enc_body recs) as body eqn:Eb. inversion S as [b1 E0 E1 E2|segs Hsg E0 E1 E2|]; subst c.
  - subst b1 stream. exists (Datatypes.S (2 * (length (body ++ tl) + length (body ++ tl)) + 1)). intros fuel Hf.
    rewrite (apply_header X F hdiff fuel clamps from CompNone none_dec) by auto. destruct (Z.eqb_spec (recs_size recs) 0); [lia|].
    destruct (body_spec none_dec Rnone none_contract F fuel clamps from recs to (body ++ tl) (body ++ tl) [] tl) as [(r & out1 & B1 & B2 & B3)|(B1 & B2)]; auto.
    + apply none_start.
    + rewrite app_nil_r, Eb. reflexivity.
    + rewrite B3. rewrite app_nil_r in B1. subst out1. destruct B2 as (B2 & B4). destruct (pr_eof r) eqn:Ee; [|reflexivity]. exfalso.
      unfold pr_eof in Ee. cbn [none_dec d_eof] in Ee. unfold none_eof in Ee. assert (Z0 : zlen tl = 0) by (etransitivity; [symmetry; exact B4|]; lia). apply zlen_0_nil in Z0. congruence.
  - subst stream. assert (Hb2 : bytes_ok (enc_segs segs ++ tl)).
    { inversion Hb as [|? ? _ H3]; subst. apply Forall_app in H3. apply H3. }
    destruct (crle_over segs tl) as (e & out & A1 & A2); auto.
    { intros ->. apply Hbody. rewrite <- E1. reflexivity. }
    exists (Datatypes.S (2 * (length (enc_segs segs ++ tl) + length out) + 1)). intros fuel Hf.
    rewrite (apply_header X F hdiff fuel clamps from CompCrle crle_dec) by auto. destruct (Z.eqb_spec (recs_size recs) 0); [lia|].
    destruct A2 as [(cut & A2 & A3)|(rest & A2 & A3)].
    + destruct (body_spec crle_dec (Rcrle false e) (crle_contract false e) F fuel clamps from recs to _ out cut [] A1) as [(r & out1 & B1 & B2 & B3)|(B1 & B2)]; auto.
      * rewrite app_nil_r, A3, <- Eb. exact E1.
      * apply app_eq_nil in B1. destruct B1. congruence.
    + destruct (body_spec crle_dec (Rcrle false e) (crle_contract false e) F fuel clamps from recs to _ out [] rest A1) as [(r & out1 & B1 & B2 & B3)|(B1 & B2)]; auto.
      * rewrite app_nil_r, A2, <- Eb, E1. reflexivity.
      * rewrite B3. destruct (pr_eof r) eqn:Ee; [|reflexivity]. exfalso. unfold pr_eof in Ee. destruct (Rcrle_eof _ _ _ _ B2 Ee) as (-> & sc1 & Es). cbn [app] in B1. subst rest.
        apply Hv; [reflexivity|]. eapply A3; eauto.
  - destruct Hcomp; congruence.
Qed.
