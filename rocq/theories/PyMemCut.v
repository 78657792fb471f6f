(** In-place patches that have been cut off or are followed by other bytes, and
    patch_info() on in-place patches. *)

From Coq Require Import ZArith List Bool Lia ZifyBool ZifyNat ZifyN.
From Verif Require Import Prelude Lib Spec PySize PyCrle PyCreate PyInPlace PyApply PySpec SizeCodec CrleProofs PyReader PyApplyProofs PyDecomp SeqMeaning PySeq PyApplyInPlace PyMemProofs PyMemThms
  PyInfo PyInfoSpec PyInfoProofs.
From Verif Require InPlaceSpec InPlaceCreate.
Import ListNotations.
Open Scope Z_scope.

Lemma cut_app : forall (l cut a b : list Z), l ++ cut = a ++ b ->
  (exists c1, l ++ c1 = a /\ c1 <> []) \/ (exists l2, l = a ++ l2 /\ l2 ++ cut = b).
Proof.
  intros l cut a b E. destruct (Z_lt_le_dec (zlen l) (zlen a)) as [L|L].
  - symmetry in E. destruct (app_split _ _ _ _ E) as (c1 & E1 & E2); [lia|]. left. exists c1. split; [auto|]. intros ->. rewrite app_nil_r in E1. subst a. lia.
  - destruct (app_split _ _ _ _ E L) as (l2 & -> & E2). right. eauto.
Qed.

Lemma file_size_cut : forall v l cut, - 2 ^ 63 < v < 2 ^ 63 -> l ++ cut = enc_size v -> cut <> [] -> file_unpack_size l = raise DetoolsError.
Proof. intros. unfold file_unpack_size. rewrite (size_cut v l cut) by auto. reflexivity. Qed.

Lemma in_place_header_cut : forall X c memory segment shift from_size to_size l cut, py_sizes_ok memory segment shift from_size to_size ->
  l ++ cut = InPlaceSpec.in_place_header c memory segment shift from_size to_size -> cut <> [] -> read_header_in_place X l = raise DetoolsError.
Proof.
  intros X c memory segment shift from_size to_size l cut Hs E Hc. destruct (in_place_sizes _ _ _ _ _ Hs) as (A1 & A2 & A3 & A4 & A5).
  unfold InPlaceSpec.in_place_header in E. destruct l as [|b l]; [reflexivity|]. injection E as -> E. unfold read_header_in_place. rewrite in_place_type. change (negb (1 =? 1)) with false. cbn iota.
  destruct (comp_dec X c) as (D & -> & _).
  destruct (cut_app _ _ _ _ E) as [(c1 & B1 & B2)|(l1 & -> & B1)]; [rewrite (file_size_cut _ _ _ A1 B1 B2); reflexivity|]. unfold file_unpack_size at 1. rewrite py_unpack_enc by auto. cbn [pbind ret].
  destruct (cut_app _ _ _ _ B1) as [(c1 & C1 & C2)|(l2 & -> & C1)]; [rewrite (file_size_cut _ _ _ A2 C1 C2); reflexivity|]. unfold file_unpack_size at 1. rewrite py_unpack_enc by auto. cbn [pbind ret].
  destruct (cut_app _ _ _ _ C1) as [(c1 & D1 & D2)|(l3 & -> & D1)]; [rewrite (file_size_cut _ _ _ A3 D1 D2); reflexivity|]. unfold file_unpack_size at 1. rewrite py_unpack_enc by auto. cbn [pbind ret].
  destruct (cut_app _ _ _ _ D1) as [(c1 & E1 & E2)|(l4 & -> & E1)]; [rewrite (file_size_cut _ _ _ A4 E1 E2); reflexivity|]. unfold file_unpack_size at 1. rewrite py_unpack_enc by auto. cbn [pbind ret].
  rewrite (file_size_cut _ _ _ A5 E1 Hc). reflexivity.
Qed.

Lemma segs_body_ne : forall segs, segs <> [] -> enc_segments segs <> [].
Proof.
  intros [|recs segs] H; [congruence|]. unfold InPlaceSpec.enc_segments, enc_body. cbn [flat_map]. intros N. apply app_eq_nil in N. destruct N as [N _]. apply app_eq_nil in N. destruct N. discriminate.
Qed.

Lemma in_place_rejects_cut : forall X bytesio c memory segment shift from to segs patch mem l cut, c = CompNone \/ c = CompCrle ->
  py_in_place_patch c memory segment shift (zlen from) (zlen to) segs patch -> apply_segments memory segment shift from 0 segs = Some to -> Forall recs_fit segs ->
  py_sizes_ok memory segment shift (zlen from) (zlen to) -> memory <= zlen mem -> ztake (zlen from) mem = from -> l ++ cut = patch -> cut <> [] ->
  exists n, forall fuel, (n <= fuel)%nat -> apply_patch_in_place X fuel bytesio mem l = raise DetoolsError.
Proof.
  intros X bytesio c memory segment shift from to segs patch mem l cut Hcomp (Hok & stream & -> & Hst) Ha Hfit Hsz Hm Hfrom E Hc.
  destruct (cut_app _ _ _ _ E) as [(c1 & A1 & A2)|(file & -> & A1)].
  { exists O. intros fuel _. unfold apply_patch_in_place. rewrite (in_place_header_cut X c memory segment shift (zlen from) (zlen to) l c1) by auto. reflexivity. }
  destruct Hst as [(-> & ->)|(Hne & S)]; [apply app_eq_nil in A1; destruct A1; congruence|].
  assert (Hto : to <> []). { intros ->. apply segments_empty in Hok; [congruence|]. destruct Hsz; lia. }
  destruct (stream_cut X c _ _ file cut Hcomp S A1 Hc) as (D & R & out & more & D1 & D2 & D3 & D4 & D5).
  exists (Datatypes.S (2 * (length file + length out) + 1)). intros fuel Hf. rewrite (in_place_header_spec X c D) by auto.
  destruct (in_place_body_spec D R D2 fuel bytesio mem memory segment shift from to segs file out more []) as [(r & out1 & B1 & B2 & B3)|(B1 & B2)]; auto.
  - rewrite app_nil_r. exact D4.
  - apply app_eq_nil in B1. destruct B1. congruence.
Qed.

Lemma in_place_rejects_over : forall X bytesio c memory segment shift from to segs patch mem tl, c = CompNone \/ c = CompCrle ->
  py_in_place_patch c memory segment shift (zlen from) (zlen to) segs patch -> apply_segments memory segment shift from 0 segs = Some to -> Forall recs_fit segs ->
  py_sizes_ok memory segment shift (zlen from) (zlen to) -> memory <= zlen mem -> ztake (zlen from) mem = from -> segs <> [] -> bytes_ok (patch ++ tl) -> tl <> [] ->
  (c = CompCrle -> ~ crle_void tl) ->
  exists n, forall fuel, (n <= fuel)%nat -> apply_patch_in_place X fuel bytesio mem (patch ++ tl) = raise DetoolsError.
Proof.
  intros X bytesio c memory segment shift from to segs patch mem tl Hcomp (Hok & stream & -> & Hst) Ha Hfit Hsz Hm Hfrom Hne Hb Htl Hv.
  destruct Hst as [(-> & ->)|(_ & S)]; [congruence|].
  assert (Hto : to <> []). { intros ->. apply segments_empty in Hok; [congruence|]. destruct Hsz; lia. }
  pose proof (segs_body_ne _ Hne) as Hbody. rewrite <- app_assoc in *.
  remember (enc_segments segs) as body eqn:Eb. inversion S as [b1 E0 E1 E2|sgs Hsg E0 E1 E2|]; subst c.
  - subst b1 stream. exists (Datatypes.S (2 * (length (body ++ tl) + length (body ++ tl)) + 1)). intros fuel Hf. rewrite (in_place_header_spec X CompNone none_dec) by auto.
    destruct (in_place_body_spec none_dec Rnone none_contract fuel bytesio mem memory segment shift from to segs (body ++ tl) (body ++ tl) [] tl) as [(r & out1 & B1 & B2 & B3)|(B1 & B2)]; auto.
    + apply none_start.
    + rewrite app_nil_r, Eb. reflexivity.
    + rewrite B3. rewrite app_nil_r in B1. subst out1. destruct B2 as (B2 & B4). destruct (pr_eof r) eqn:Ee; [|reflexivity]. exfalso.
      unfold pr_eof in Ee. cbn [none_dec d_eof] in Ee. unfold none_eof in Ee. assert (Z0 : zlen tl = 0) by (etransitivity; [symmetry; exact B4|]; lia). apply zlen_0_nil in Z0. congruence.
  - subst stream. assert (Hb2 : bytes_ok (enc_segs sgs ++ tl)) by (apply Forall_app in Hb; apply Hb).
    destruct (crle_over sgs tl) as (e & out & A1 & A2); auto.
    { intros ->. apply Hbody. rewrite <- E1. reflexivity. }
    exists (Datatypes.S (2 * (length (enc_segs sgs ++ tl) + length out) + 1)). intros fuel Hf. rewrite (in_place_header_spec X CompCrle crle_dec) by auto.
    destruct A2 as [(cut & A2 & A3)|(rest & A2 & A3)].
    + destruct (in_place_body_spec crle_dec (Rcrle false e) (crle_contract false e) fuel bytesio mem memory segment shift from to segs _ out cut [] A1) as [(r & out1 & B1 & B2 & B3)|(B1 & B2)]; auto.
      * rewrite app_nil_r, A3, <- Eb. exact E1.
      * apply app_eq_nil in B1. destruct B1. congruence.
    + destruct (in_place_body_spec crle_dec (Rcrle false e) (crle_contract false e) fuel bytesio mem memory segment shift from to segs _ out [] rest A1) as [(r & out1 & B1 & B2 & B3)|(B1 & B2)]; auto.
      * rewrite app_nil_r, A2, <- Eb, E1. reflexivity.
      * rewrite B3. destruct (pr_eof r) eqn:Ee; [|reflexivity]. exfalso. unfold pr_eof in Ee. destruct (Rcrle_eof _ _ _ _ B2 Ee) as (-> & sc1 & Es). cbn [app] in B1. subst rest.
        apply Hv; [reflexivity|]. eapply A3; eauto.
  - destruct Hcomp; congruence.
Qed.

(** ** patch_info() *)

Definition segment_info (recs : list prec) : Z * option Z * inner_info :=
  (0, None, mkinner (recs_size recs) (diff_sizes recs) (extra_sizes recs) (adjustments recs) (zlen (size_fields recs))).

Lemma info_segments_spec : forall D R, contract D R -> forall DI fuel segment T, 0 < segment ->
  forall segs to_pos r out rest, holds R fuel r out -> out = enc_segments segs ++ rest -> segments_ok segment segs (Z.max 0 (T - to_pos)) -> Forall recs_fit segs ->
  info_segments DI (length segs) fuel to_pos segment T r = ret (map segment_info segs).
Proof.
  intros D R HR DI fuel segment T Hs. induction segs as [|recs segs IH]; intros to_pos r out rest H E Hok Hfit; [reflexivity|].
  cbn [length info_segments map]. cbn [InPlaceSpec.segments_ok] in Hok. destruct Hok as (O1 & O2 & O3). inversion Hfit as [|? ? (F1 & F3) F2]; subst.
  pose proof (last_pos _ O2). unfold InPlaceSpec.enc_segments in H. cbn [flat_map] in H. fold (enc_segments segs) in H. unfold enc_body in H. rewrite <- !app_assoc in H.
  set (out := enc_size 0 ++ enc_recs recs ++ enc_segments segs ++ rest) in *.
  assert (E0 : out ++ [] = enc_size 0 ++ enc_recs recs ++ enc_segments segs ++ rest) by apply app_nil_r.
  destruct (pr_size_spec D R HR fuel 0 _ _ _ _ H E0) as [(o1 & r1 & A1 & A2 & A3 & A4)|(A1 & A2)]; [change (2 ^ 63) with 9223372036854775808; lia| |congruence].
  rewrite A4. cbn [pbind ret]. change (0 <? 0) with false. cbn [pbind ret]. replace (Z.min segment (T - to_pos)) with (recs_size recs) by lia.
  assert (Hf1 : (length o1 < fuel)%nat) by (destruct A3; lia). unfold info_inner.
  destruct (info_loop_spec D R HR fuel recs fuel r1 o1 [] (enc_segments segs ++ rest) 0 (recs_size recs) [] [] [] 0) as [(o2 & r2 & B1 & B2 & B3)|(B1 & B2)]; auto; [| |congruence].
  { pose proof (rec_le recs) as L. rewrite Forall_forall in *. intros x Hx. specialize (L x Hx). specialize (F3 x Hx). lia. }
  rewrite B3. cbn [pbind ret app]. rewrite Z.add_0_l. rewrite app_nil_r in B1.
  rewrite (IH (to_pos + segment) r2 o2 rest); auto.
  replace (Z.max 0 (T - (to_pos + segment))) with (Z.max 0 (T - to_pos) - recs_size recs) by lia. exact O3.
Qed.

Lemma info_in_place_spec : forall X DI HI c memory segment shift from_size to_size segs patch,
  py_in_place_patch c memory segment shift from_size to_size segs patch -> Forall recs_fit segs -> py_sizes_ok memory segment shift from_size to_size ->
  (c = CompHeatshrink -> hs_reader_ok (x_heatshrink X)) ->
  exists n, forall fuel, (n <= fuel)%nat ->
  patch_info X DI HI fuel patch = ret (InfoInPlace (zlen patch, comp_number c, (memory, segment, shift, from_size, to_size), map segment_info segs)).
Proof.
  intros X DI HI c memory segment shift from_size to_size segs patch (Hok & stream & -> & Hst) Hfit Hsz Hh. destruct (comp_dec X c) as (D & HD & HDs).
  destruct (in_place_sizes _ _ _ _ _ Hsz) as (S1 & S2 & S3 & S4 & S5). destruct Hsz as (Z1 & Z2 & Z3 & Z4 & Z5).
  assert (G : forall fuel, patch_info X DI HI fuel (InPlaceSpec.in_place_header c memory segment shift from_size to_size ++ stream) =
    dop segments := (if 0 <? to_size then
                     dop count := range_length to_size segment in
                     info_segments DI count fuel 0 segment to_size (pr_open D stream)
                   else ret []) in
    ret (InfoInPlace (zlen (InPlaceSpec.in_place_header c memory segment shift from_size to_size ++ stream), comp_number c, (memory, segment, shift, from_size, to_size), segments))).
  { intros fuel. unfold patch_info. unfold InPlaceSpec.in_place_header at 1. cbn [app]. rewrite in_place_type. change (1 =? 0) with false. change (1 =? 1) with true. cbn iota.
    unfold patch_info_in_place. rewrite (in_place_read X c D) by auto. cbn [pbind ret]. cbn [hd InPlaceSpec.in_place_header app]. rewrite in_place_type. cbn [snd].
    destruct (if 0 <? to_size then _ else _) as [[]| |]; reflexivity. }
  destruct Hst as [(-> & ->)|(Hne & S)].
  - exists O. intros fuel _. rewrite G. cbn [InPlaceSpec.segments_ok] in Hok. subst to_size. reflexivity.
  - destruct (HDs _ _ S) as (R & R1 & R2 & R3); auto using segs_body_ne.
    assert (Hpos : 0 < to_size). { destruct (Z.eq_dec to_size 0); [|lia]. subst to_size. apply segments_empty in Hok; [congruence|lia]. }
    exists (Datatypes.S (2 * (length stream + length (enc_segments segs)) + 1)). intros fuel Hf. rewrite G. destruct (Z.ltb_spec 0 to_size); [|lia]. unfold range_length.
    destruct (Z.eqb_spec segment 0); [lia|]. destruct (Z.ltb_spec segment 0); [lia|]. cbn [pbind ret]. rewrite <- (segments_count segment segs) by (auto; lia). rewrite Nat2Z.id.
    rewrite (info_segments_spec D R R1 DI fuel segment to_size ltac:(lia) segs 0 (pr_open D stream) (enc_segments segs) []); [reflexivity|split; [exact R3|cbn [pr_file pr_open]; lia]|rewrite app_nil_r; reflexivity| |auto].
    rewrite Z.sub_0_r, Z.max_r by lia. exact Hok.
Qed.
