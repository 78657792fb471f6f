(** patch_info() on whole patches, and both functions on arbitrary patches. *)

From Coq Require Import ZArith List Bool Lia ZifyBool ZifyNat ZifyN.
From Verif Require Import Prelude Lib Spec PySize PyCrle PyCreate PyApply PySpec SizeCodec CrleProofs PyReader PyApplyProofs PyDecomp SeqMeaning PySeq PyApplyInPlace
  PyInfo PyInfoSpec PyInfoProofs.
Import ListNotations.
Open Scope Z_scope.

Definition info_body (DI : df_info) (fuel : nat) (size number to_size : Z) (D : decompressor) (file : list Z) : pyo patch_info_result :=
  dop i := (dop (size1, _, r) := pr_unpack_size fuel (pr_open D file) in
    dop (format, r1) := (if 0 <? size1 then
                           dop (format, _, r2) := pr_unpack_size fuel r in
                           dop (data, r3) := pr_decompress fuel size1 r2 in
                           dop _ := DI format data in
                           ret (Some format, r3)
                         else ret (None, r)) in
    dop (info, r4) := info_inner fuel r1 to_size in
    if pr_eof r4 then ret (mksi size number size1 format info) else raise DetoolsError) in
  ret (InfoSequential i).

Lemma info_header : forall X DI HI fuel c D n file, decompressor_of X (comp_number c) = Some D -> - 2 ^ 63 < n < 2 ^ 63 ->
  let patch := header_byte TYPE_SEQUENTIAL c :: enc_size n ++ file in
  patch_info X DI HI fuel patch =
  if n =? 0 then ret (InfoSequential (mksi (zlen patch) (comp_number c) 0 None (mkinner 0 [] [] [] 0)))
  else info_body DI fuel (zlen patch) (comp_number c) n D file.
Proof.
  intros X DI HI fuel c D n file HD Hn patch. unfold patch_info, patch. rewrite header_type. cbn [Z.eqb]. unfold patch_info_sequential, read_header_sequential. cbn [hd]. rewrite header_type, HD.
  change (negb (0 =? 0)) with false. cbn iota. unfold file_unpack_size. rewrite py_unpack_enc by exact Hn. cbn [pbind ret snd]. destruct (n =? 0); reflexivity.
Qed.

Lemma info_body_spec : forall D R, contract D R -> forall DI fuel size number recs file out cut rest,
  R (d_init D (zlen file)) file out -> (2 * (length file + length out) + 1 < fuel)%nat -> out ++ cut = enc_body recs ++ rest -> recs_fit recs -> last_nonempty recs ->
  (exists r out1, out1 ++ cut = rest /\ R (pr_state r) (pr_file r) out1 /\
     info_body DI fuel size number (recs_size recs) D file =
     if pr_eof r then ret (InfoSequential (mksi size number 0 None (mkinner (recs_size recs) (diff_sizes recs) (extra_sizes recs) (adjustments recs) (zlen (size_fields recs))))) else raise DetoolsError) \/
  (cut <> [] /\ info_body DI fuel size number (recs_size recs) D file = raise DetoolsError).
Proof.
  intros D R HR DI fuel size number recs file out cut rest HS Hf E (Hz & Hadj) Hl. unfold info_body.
  assert (H0 : holds R fuel (pr_open D file) out) by (split; [exact HS|cbn [pr_file pr_open]; lia]).
  unfold enc_body in E. rewrite <- app_assoc in E.
  destruct (pr_size_spec D R HR fuel 0 _ _ _ _ H0 E) as [(out1 & r1 & A1 & A2 & A3 & A4)|(A1 & A2)]; [change (2 ^ 63) with 9223372036854775808; lia| |right; rewrite A2; auto].
  rewrite A4. cbn [pbind ret]. change (0 <? 0) with false. cbn [pbind ret].
  assert (Hf1 : (length out1 < fuel)%nat) by (destruct A3; lia). unfold info_inner.
  destruct (info_loop_spec D R HR fuel recs fuel r1 out1 cut rest 0 (recs_size recs) [] [] [] 0) as [(out2 & r2 & B1 & (B2 & _) & B3)|(B1 & B2)]; auto.
  - pose proof (rec_le recs) as L. rewrite Forall_forall in *. intros r Hr. specialize (L r Hr). specialize (Hadj r Hr). lia.
  - left. exists r2, out2. split; [exact B1|]. split; [exact B2|]. rewrite B3. cbn [pbind ret]. cbn [app]. rewrite Z.add_0_l. destruct (pr_eof r2); reflexivity.
  - right. rewrite B2. auto.
Qed.

(** The result for a well-formed patch. *)
Definition info_of (c : comp) (recs : list prec) (patch : list Z) : patch_info_result :=
  InfoSequential (mksi (zlen patch) (comp_number c) 0 None
    (mkinner (recs_size recs) (diff_sizes recs) (extra_sizes recs) (adjustments recs) (zlen (size_fields recs)))).

Lemma info_well_formed : forall X DI HI c recs patch, py_patch c recs patch -> recs_fit recs -> (c = CompHeatshrink -> hs_reader_ok (x_heatshrink X)) ->
  exists n, forall fuel, (n <= fuel)%nat -> patch_info X DI HI fuel patch = ret (info_of c recs patch).
Proof.
  intros X DI HI c recs patch P Hfit Hh. destruct (comp_dec X c) as (D & HD & HDs).
  destruct P as [(-> & ->)|(Hl & stream & S & ->)].
  - exists O. intros fuel _. rewrite <- (app_nil_r (enc_size 0)). rewrite (info_header X DI HI fuel c D) by (auto; change (2 ^ 63) with 9223372036854775808; lia). reflexivity.
  - destruct (HDs _ _ S) as (R & R1 & R2 & R3); auto.
    { unfold enc_body. intros N. apply app_eq_nil in N. destruct N. discriminate. }
    exists (Datatypes.S (2 * (length stream + length (enc_body recs)) + 1)). intros fuel Hf. pose proof (last_pos_size _ Hl). pose proof Hfit as (Hz & Hadj).
    rewrite (info_header X DI HI fuel c D); auto; [|change (2 ^ 63) with 9223372036854775808 in *; lia]. destruct (Z.eqb_spec (recs_size recs) 0); [lia|].
    set (size := zlen _). destruct (info_body_spec D R R1 DI fuel size (comp_number c) recs stream (enc_body recs) [] []) as [(r & out1 & B1 & B2 & B3)|(B1 & _)]; auto; [|congruence].
    rewrite B3. apply app_eq_nil in B1. destruct B1 as (-> & _). unfold pr_eof. rewrite (R2 _ _ B2). reflexivity.
Qed.

Lemma info_header_cut : forall X DI HI fuel c n l cut, - 2 ^ 63 < n < 2 ^ 63 -> l ++ cut = header_byte TYPE_SEQUENTIAL c :: enc_size n -> cut <> [] ->
  patch_info X DI HI fuel l = raise DetoolsError.
Proof.
  intros X DI HI fuel c n l cut Hn E Hc. destruct l as [|b l]; [reflexivity|]. injection E as -> E. unfold patch_info. rewrite header_type. cbn [Z.eqb].
  unfold patch_info_sequential, read_header_sequential. rewrite header_type. change (negb (0 =? 0)) with false. cbn iota. destruct (comp_dec X c) as (D & -> & _).
  unfold file_unpack_size. rewrite (size_cut n l cut) by auto. reflexivity.
Qed.

Lemma info_rejects_cut : forall X DI HI c recs patch l cut, c = CompNone \/ c = CompCrle ->
  py_patch c recs patch -> recs_fit recs -> l ++ cut = patch -> cut <> [] ->
  exists n, forall fuel, (n <= fuel)%nat -> patch_info X DI HI fuel l = raise DetoolsError.
Proof.
  intros X DI HI c recs patch l cut Hcomp P Hfit E Hc.
  destruct P as [(-> & ->)|(Hl & stream & S & ->)].
  - exists O. intros fuel _. eapply info_header_cut; eauto. change (2 ^ 63) with 9223372036854775808; lia.
  - assert (Hn : - 2 ^ 63 < recs_size recs < 2 ^ 63).
    { destruct Hfit as (Hz & _). pose proof (recs_size_nonneg recs). change (2 ^ 63) with 9223372036854775808 in *. lia. }
    rewrite app_comm_cons in E. destruct (Z_lt_le_dec (zlen l) (zlen (header_byte TYPE_SEQUENTIAL c :: enc_size (recs_size recs)))) as [L|L].
    + symmetry in E. destruct (app_split _ _ _ _ E) as (c1 & E1 & E2); [lia|]. exists O. intros fuel _. eapply info_header_cut with (cut := c1); eauto.
      intros ->. rewrite app_nil_r in E1. rewrite E1 in L. lia.
    + destruct (app_split _ _ _ _ E L) as (file & -> & E2). rewrite <- app_comm_cons.
      destruct (stream_cut X c _ _ file cut Hcomp S E2 Hc) as (D & R & out & more & D1 & D2 & D3 & D4 & D5).
      exists (Datatypes.S (2 * (length file + length out) + 1)). intros fuel Hf. rewrite (info_header X DI HI fuel c D) by auto. pose proof (last_pos_size _ Hl). destruct (Z.eqb_spec (recs_size recs) 0); [lia|].
      set (size := zlen _). destruct (info_body_spec D R D2 DI fuel size (comp_number c) recs file out more []) as [(r & out1 & B1 & B2 & B3)|(B1 & B2)]; auto.
      * rewrite app_nil_r. exact D4.
      * apply app_eq_nil in B1. destruct B1. congruence.
Qed.

(** ** Arbitrary patches *)

Lemma info_to_size : forall {D} k fuel to_pos to_size ds es adjs n (r : preader D) i r1, info_loop k fuel to_pos to_size ds es adjs n r = ret (i, r1) -> ii_to_size i = to_size.
Proof.
  induction k; intros fuel to_pos to_size ds es adjs n r i r1 E; cbn [info_loop] in E; (destruct (_ <? _); [|injection E as <- <-; reflexivity]); [discriminate|].
  repeat match type of E with
  | (if ?b then raise _ else _) = _ => destruct b; [discriminate|]
  | context [pr_unpack_size fuel ?q] => destruct (pr_unpack_size fuel q) as [[((?, ?), ?)|]| |]; try discriminate; cbn [pbind] in E
  | context [pr_decompress fuel ?n ?q] => destruct (pr_decompress fuel n q) as [[(?, ?)|]| |]; try discriminate; cbn [pbind] in E
  end. eapply IHk. exact E.
Qed.

Lemma info_sums : forall X DI HI fuel patch i, patch_info X DI HI fuel patch = ret (InfoSequential i) -> 0 <= ii_to_size (si_inner i) ->
  sum (ii_diffs (si_inner i)) + sum (ii_extras (si_inner i)) = ii_to_size (si_inner i) /\
  length (ii_diffs (si_inner i)) = length (ii_extras (si_inner i)) /\ length (ii_extras (si_inner i)) = length (ii_adjustments (si_inner i)) /\
  si_patch_size i = zlen patch /\
  exists b l rest, patch = b :: l /\ py_unpack_size l = Some (ii_to_size (si_inner i), rest).
Proof.
  intros X DI HI fuel patch i E Hn. unfold patch_info in E. destruct patch as [|b l]; [discriminate|]. destruct (unpack_header b) as (ty, nu) eqn:Eh.
  destruct (Z.eqb_spec ty 0) as [->|].
  2:{ destruct (ty =? 1); [destruct (patch_info_in_place _ _ _ _) as [[]| |]; discriminate|]. destruct (ty =? 2); [destruct (HI _) as [[]| |]; discriminate|discriminate]. }
  unfold patch_info_sequential, read_header_sequential in E. rewrite Eh in E. cbn [Z.eqb negb hd] in E. rewrite Eh in E. destruct (decompressor_of X nu) as [D|]; [|discriminate].
  unfold file_unpack_size in E. destruct (py_unpack_size l) as [(to_size, file)|] eqn:Es; [|discriminate]. cbn [pbind ret snd] in E.
  destruct (Z.eqb_spec to_size 0) as [->|].
  { injection E as <-. cbn. split; [reflexivity|]. split; [reflexivity|]. split; [reflexivity|]. split; [reflexivity|]. eauto 6. }
  destruct (pr_unpack_size fuel (pr_open D file)) as [[((sz, n1), r)|]| |]; try discriminate. cbn [pbind] in E.
  destruct (if 0 <? sz then _ else _) as [[(format, r1)|]| |]; try discriminate. cbn [pbind] in E.
  destruct (info_inner fuel r1 to_size) as [[(info, r4)|]| |] eqn:Ei; try discriminate. cbn [pbind] in E. destruct (pr_eof r4); [|discriminate]. injection E as <-.
  unfold info_inner in Ei. cbn [si_inner si_patch_size] in *.
  assert (T : ii_to_size info = to_size).
  { eapply info_to_size. exact Ei. }
  apply info_sum in Ei; [|rewrite T in Hn; exact Hn|reflexivity|reflexivity]. destruct Ei as (E1 & E2 & E3 & E4). cbn in E1. split; [lia|]. split; [auto|]. split; [auto|]. split; [reflexivity|].
  exists b, l, file. rewrite T. auto.
Qed.

(** A body that decompresses: the applier accepts what patch_info() accepts, as far as
    the patch is concerned. *)
Lemma info_applies : forall X F hdiff DI HI clamps c n body stream, - 2 ^ 63 < n < 2 ^ 63 -> py_stream c body stream -> body <> [] ->
  (c = CompHeatshrink -> hs_reader_ok (x_heatshrink X)) ->
  let patch := header_byte TYPE_SEQUENTIAL c :: enc_size n ++ stream in
  exists m, forall fuel, (m <= fuel)%nat ->
  forall i, patch_info X DI HI fuel patch = ret (InfoSequential i) -> si_dfpatch_size i <= 0 ->
  Forall (Z.le 0) (ii_diffs (si_inner i)) -> Forall (Z.le 0) (ii_extras (si_inner i)) ->
  forall from, (exists to, apply_patch X F hdiff fuel clamps from patch = ret (n, to)) \/ apply_patch X F hdiff fuel clamps from patch = raise OtherError.
Proof.
  intros X F hdiff DI HI clamps c n body stream Hn S Hne Hh patch. destruct (comp_dec X c) as (D & HD & HDs). destruct (HDs _ _ S) as (R & R1 & R2 & R3); auto.
  exists (Datatypes.S (2 * (length stream + length body) + 1)). intros fuel Hf i E Hd P1 P2 from. unfold patch in *.
  rewrite (info_header X DI HI fuel c D) in E by auto. rewrite (apply_header X F hdiff fuel clamps from c D) by auto.
  destruct (Z.eqb_spec n 0) as [->|]; [left; eexists; reflexivity|].
  unfold info_body in E. unfold body_of_patch, create_data_format_readers.
  assert (H0 : holds R fuel (pr_open D stream) body) by (split; [exact R3|cbn [pr_file pr_open]; lia]).
  pose proof (size_any D R R1 fuel _ _ H0) as A. destruct (py_unpack_size body) as [(sz, o1)|]; [|rewrite A in E; discriminate]. destruct A as (r1 & A1 & A2 & A3). rewrite A1 in E |- *. cbn [pbind ret] in E |- *.
  destruct (Z.ltb_spec 0 sz) as [L|L].
  { exfalso. destruct (pr_unpack_size fuel r1) as [[((v1, n1), q1)|]| |]; try discriminate. cbn [pbind] in E. destruct (pr_decompress fuel sz q1) as [[(x1, q2)|]| |]; try discriminate. cbn [pbind] in E.
    destruct (DI v1 x1) as [[]| |]; try discriminate. cbn [pbind ret] in E. destruct (info_inner fuel q2 n) as [[(info, r4)|]| |]; try discriminate. cbn [pbind] in E. destruct (pr_eof r4); [|discriminate].
    injection E as <-. cbn in Hd. lia. }
  cbn [pbind ret] in E |- *. destruct (info_inner fuel r1 n) as [[(info, r4)|]| |] eqn:Ei; try discriminate. cbn [pbind] in E. destruct (pr_eof r4) eqn:Ee; [|discriminate]. injection E as <-. cbn [si_inner] in *.
  unfold info_inner in Ei. destruct (info_apply D R R1 fuel clamps from None fuel 0 n [] [] [] 0 r1 info r4 (mkps r1 0 [] 0) o1 A2 A2 Ei P1 P2) as [(s1 & out1 & I1 & (I2 & _) & (I3 & _))|I]; [|right; rewrite I; reflexivity].
  left. rewrite I1. cbn [pbind ret]. unfold pr_eof in Ee. pose proof (R1 _ _ _ I2) as C. rewrite Ee in C. subst out1. unfold pr_eof. rewrite (R2 _ _ I3). eexists. reflexivity.
Qed.

(** The applier on any patch whose compression is none or crle ends, and if it
    succeeds it has written as much as it says. *)

Lemma stream_any : forall X number file, number = 0 \/ number = 2 -> exists D R out, decompressor_of X number = Some D /\ contract D R /\ R (d_init D (zlen file)) file out.
Proof.
  intros X number file [->| ->].
  - exists none_dec, Rnone, file. split; [reflexivity|]. split; [apply none_contract|apply none_start].
  - destruct (drain (length file) [] 0 file) as (o, e) eqn:Ed. exists crle_dec, (Rcrle false e), o. split; [reflexivity|]. split; [apply crle_contract|].
    cbn [crle_dec d_init]. unfold Rcrle, cdec_init. cbn [cd_left cd_in cd_out cd_scattered]. split; [reflexivity|]. split; [lia|]. split; [reflexivity|]. split; [|discriminate]. exists o. auto.
Qed.

Lemma apply_total : forall X F hdiff clamps from patch,
  (match patch with [] => True | b :: _ => fst (unpack_header b) = 2 \/ snd (unpack_header b) = 0 \/ snd (unpack_header b) = 2 \/ decompressor_of X (snd (unpack_header b)) = None end) ->
  (forall format from1 data n, exists v, F format from1 data n = Ret v) -> (forall a b, exists v, hdiff a b = Ret v) ->
  exists m, forall fuel, (m <= fuel)%nat -> exists v, apply_patch X F hdiff fuel clamps from patch = Ret v /\
    (forall n to, v = Val (n, to) -> (match patch with [] => True | b :: _ => fst (unpack_header b) <> 2 end) -> zlen to = Z.max 0 n).
Proof.
  intros X F hdiff clamps from patch Hp HF Hd. destruct patch as [|b l]; [exists O; intros fuel _; eexists; split; [reflexivity|discriminate]|].
  unfold apply_patch, apply_patch_sequential, read_header_sequential. destruct (unpack_header b) as (ty, nu) eqn:Eh. cbn [fst snd] in *.
  destruct (Z.eqb_spec ty 0) as [->|].
  2:{ exists O. intros fuel _. destruct (Z.eqb_spec ty 2) as [->|]; [|eexists; split; [reflexivity|discriminate]]. destruct (Hd from (b :: l)) as (v & ->). exists v. split; [reflexivity|]. intros n0 to _ N. congruence. }
  cbn [Z.eqb negb]. destruct Hp as [Hp|Hp]; [discriminate|]. 
  assert (Hp2 : decompressor_of X nu = None \/ nu = 0 \/ nu = 2) by tauto. clear Hp. destruct Hp2 as [Hp|Hp]; [rewrite Hp; exists O; intros fuel _; eexists; split; [reflexivity|discriminate]|].
  destruct (py_unpack_size l) as [(to_size, file)|] eqn:Es.
  2:{ exists O. intros fuel _. unfold file_unpack_size. rewrite Es. destruct (decompressor_of X nu); eexists; (split; [reflexivity|discriminate]). }
  destruct (stream_any X nu file Hp) as (D & R & out & D1 & D2 & D3). rewrite D1. unfold file_unpack_size. rewrite Es. cbn [pbind ret].
  exists (Datatypes.S (2 * (length file + length out) + 1)). intros fuel Hf. destruct (Z.eqb_spec to_size 0) as [->|]; [eexists; split; [reflexivity|]; intros n to E _; injection E as <- <-; reflexivity|].
  assert (H0 : holds R fuel (pr_open D file) out) by (split; [exact D3|cbn [pr_file pr_open]; lia]).
  assert (G : forall clamps1 from1 dfd r1 o1, holds R fuel r1 o1 -> exists v, (dop s := apply_loop fuel fuel clamps1 from1 dfd 0 to_size (mkps r1 0 [] 0) in
    if pr_eof (ps_reader s) then ret (to_size, ps_out s) else raise DetoolsError) = Ret v /\ forall n to, v = Val (n, to) -> 0 <> 2 -> zlen to = Z.max 0 n).
  { intros clamps1 from1 dfd r1 o1 H1. destruct (apply_any D R D2 fuel clamps1 from1 dfd fuel 0 to_size (mkps r1 0 [] 0) o1 H1) as [(s1 & out1 & I1 & I2 & I3)|(e & I1)].
    - destruct H1. lia.
    - rewrite I1. cbn [pbind ret]. destruct (pr_eof (ps_reader s1)); eexists; (split; [reflexivity|]); [|discriminate]. intros n1 to E _. injection E as <- <-. cbn [ps_out] in I3. change (zlen (@nil Z)) with 0 in I3. lia.
    - rewrite I1. eexists. split; [reflexivity|discriminate]. }
  unfold create_data_format_readers. pose proof (size_any D R D2 fuel _ _ H0) as A. destruct (py_unpack_size out) as [(sz, o1)|]; [|rewrite A; eexists; split; [reflexivity|discriminate]].
  destruct A as (r1 & A1 & A2 & A3). rewrite A1. cbn [pbind ret]. destruct (Z.ltb_spec 0 sz) as [L|L].
  - pose proof (size_any D R D2 fuel _ _ A2) as B. destruct (py_unpack_size o1) as [(fm, o2)|]; [|rewrite B; eexists; split; [reflexivity|discriminate]].
    destruct B as (r2 & B1 & B2 & B3). rewrite B1. cbn [pbind ret]. pose proof (read_any D R D2 fuel sz _ _ B2) as C. destruct (zlen o2 <? sz); [rewrite C; eexists; split; [reflexivity|discriminate]|].
    destruct C as (r3 & C1 & C2). rewrite C1. cbn [pbind ret]. destruct (HF fm from (ztake sz o2) to_size) as ([(dfd, from1)|e] & ->); cbn [pbind ret]; [|eexists; split; [reflexivity|discriminate]].
    eapply G. exact C2.
  - cbn [pbind ret]. eapply G. exact A2.
Qed.
